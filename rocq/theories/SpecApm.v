(* Attitude parameter messages: the objects, and what the reader makes of parts that are left out. *)
From Coq Require Import NArith ZArith List Bool String.
From Verif Require Import PyStr PyDec PyVal Schema KvnPre Spec SpecKvn SpecObj SpecMsg SpecDoc.
Import ListNotations.
Local Open Scope string_scope.
Local Open Scope list_scope.

Definition some_set (vars : list (string * pyval)) : Prop := exists n x, In (n, x) vars /\ is_set x.

(* the quaternion state: keywords, then optionally the quaternion and its rates *)
Definition quat_state (vars : list (string * pyval)) (q r : pyval) : pyval :=
  VObj "QuaternionStateType" (vars ++ [("quaternion", q); ("quaternion_rate", r)]).
Definition quat_ok (v : pyval) : Prop :=
  exists vars q r, v = quat_state vars q r /\
    wf_vars (firstn 5 (fields_of "QuaternionStateType")) vars /\ some_set vars /\
    opt_section "QuaternionType" q /\ opt_section "QuaternionRateType" r.

(* one rotation about an axis: a number, the axis and possibly a unit *)
Definition component (c axis axes units : string) (v : pyval) : Prop :=
  exists x ms m s un, v = VObj c [("value", x); (axis, VEnum axes m (lit s)); ("units", un)] /\
    wf_amount x /\ find_class axes = Some (CEnum ms) /\ In (m, s) ms /\ (un = VNone \/ wf_unit (TCls units) un).
(* three rotations *)
Definition rotation (a b c : pyval) : list (string * pyval) := [("rotation1", a); ("rotation2", b); ("rotation3", c)].
(* three rotations, nothing, or an object without rotations *)
Definition opt_rotation (c : string) (part : pyval -> Prop) (v : pyval) : Prop :=
  v = VNone \/ v = VObj c (rotation VNone VNone VNone) \/
  exists a b d, v = VObj c (rotation a b d) /\ part a /\ part b /\ part d.
Definition angle_part : pyval -> Prop := component "RotationAngleComponentType" "angle" "AngleKeywordType" "AngleUnits".
Definition rate_part : pyval -> Prop := component "RotationRateComponentType" "rate" "AngleRateKeywordType" "AngleRateUnits".

(* the Euler elements: keywords, rotation angles, rotation rates *)
Definition euler_elements (vars : list (string * pyval)) (an ra : pyval) : pyval :=
  VObj "EulerElementsThreeType" (vars ++ [("rotation_angles", an); ("rotation_rates", ra)]).
Definition euler_ok (v : pyval) : Prop :=
  v = VNone \/
  exists vars an ra, v = euler_elements vars an ra /\
    wf_vars (firstn 6 (fields_of "EulerElementsThreeType")) vars /\ (some_set vars \/ comments_of v = []) /\
    opt_rotation "RotationAngleType" angle_part an /\ opt_rotation "RotationRateType" rate_part ra.

(* The reader makes an object without content of these parts when they are left out. *)
Definition filled_rotation (c : string) (v : pyval) : pyval :=
  match v with VNone => VObj c (rotation VNone VNone VNone) | _ => v end.
Definition no_euler : list (string * pyval) :=
  [("comment", VList []); ("euler_frame_a", VNone); ("euler_frame_b", VNone); ("euler_dir", VNone);
   ("euler_rot_seq", VNone); ("rate_frame", VNone)].
Definition filled_euler (v : pyval) : pyval :=
  match v with
  | VObj c [v1; v2; v3; v4; v5; v6; (n1, an); (n2, ra)] =>
    VObj c [v1; v2; v3; v4; v5; v6; (n1, filled_rotation "RotationAngleType" an);
            (n2, filled_rotation "RotationRateType" ra)]
  | _ => euler_elements no_euler (VObj "RotationAngleType" (rotation VNone VNone VNone))
                                 (VObj "RotationRateType" (rotation VNone VNone VNone))
  end.
(* nothing is left out *)
Definition all_filled (v : pyval) : Prop := filled_euler v = v.

Definition apm (header metadata : pyval) (cs : list pyval) (quat euler : pyval) (secs : list (string * pyval))
           (maneuvers : list pyval) : pyval :=
  single_message "Apm" "ApmBody" "ApmSegment" "ApmData" header metadata
    (("comment", VList cs) :: ("quaternion_state", quat) :: ("euler_elements_three", euler) ::
     secs ++ [("maneuver_parameters", VList maneuvers)]).
Definition apm_sections : list (string * string) :=
  [("euler_elements_spin", "EulerElementsSpinType"); ("spacecraft_parameters", "AttSpacecraftParametersType")].

(* what these parts say, line by line *)
Definition quat_items (v : pyval) : list item :=
  match v with
  | VObj c vars => map Say (entries (firstn 5 (fields_of c)) (firstn 5 vars)) ++ parts_items (skipn 5 vars)
  | _ => []
  end.
(* X_ANGLE = value [unit] *)
Definition component_items (v : pyval) : list item :=
  match v with
  | VObj _ [(_, x); (_, VEnum _ _ axis); (_, un)] =>
    [Say (axis, fst (shown x), match un with VEnum _ _ s => s | _ => [] end)]
  | _ => []
  end.
Definition rotation_items (v : pyval) : list item :=
  match v with VObj _ vars => flat_map (fun nv => component_items (snd nv)) vars | _ => [] end.
Definition euler_items (v : pyval) : list item :=
  match v with
  | VObj c vars => map Say (entries (firstn 6 (fields_of c)) (firstn 6 vars)) ++
                   flat_map (fun nv => rotation_items (snd nv)) (skipn 6 vars)
  | _ => []
  end.
