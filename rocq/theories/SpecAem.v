(* Attitude ephemeris messages as objects and their data lines as text. *)
From Coq Require Import NArith ZArith List Bool String.
From Verif Require Import PyStr PyDec PyVal Schema KvnPre XmlBind DecFacts Spec SpecKvn SpecObj SpecMsg SpecDoc SpecEph.
Import ListNotations.
Local Open Scope string_scope.
Local Open Scope list_scope.

(* ---- attitude states ---- *)
Inductive axis := AxisX | AxisY | AxisZ.
Inductive place := First | Last.                 (* where the scalar component QC stands *)
Definition turns := (axis * axis * axis)%type.   (* a rotation sequence *)
(* the attitude types, with what else the metadata declares *)
Inductive kind :=
| Quat (o : place) | QuatDeriv (o : place) | QuatRate (o : place) (s : turns) | Euler (s : turns) | EulerRate (s : turns).

Definition axis_letter (a : axis) : string := match a with AxisX => "X" | AxisY => "Y" | AxisZ => "Z" end.
Definition axis_digit (a : axis) : string := match a with AxisX => "1" | AxisY => "2" | AxisZ => "3" end.
Definition place_text (o : place) : string := match o with First => "FIRST" | Last => "LAST" end.
Definition turns_text (s : turns) : str := let '(a, b, c) := s in lit (axis_digit a) ++ lit (axis_digit b) ++ lit (axis_digit c).
(* the metadata lines that declare the attitude type *)
Definition declared (k : kind) : list entry :=
  match k with
  | Quat o => [(lit "ATTITUDE_TYPE", lit "QUATERNION", []); (lit "QUATERNION_TYPE", lit (place_text o), [])]
  | QuatDeriv o => [(lit "ATTITUDE_TYPE", lit "QUATERNION/DERIVATIVE", []); (lit "QUATERNION_TYPE", lit (place_text o), [])]
  | QuatRate o s => [(lit "ATTITUDE_TYPE", lit "QUATERNION/RATE", []); (lit "QUATERNION_TYPE", lit (place_text o), []);
                     (lit "EULER_ROT_SEQ", turns_text s, [])]
  | Euler s => [(lit "ATTITUDE_TYPE", lit "EULER_ANGLE", []); (lit "EULER_ROT_SEQ", turns_text s, [])]
  | EulerRate s => [(lit "ATTITUDE_TYPE", lit "EULER_ANGLE/RATE", []); (lit "EULER_ROT_SEQ", turns_text s, [])]
  end.
Definition declares (md : pyval) (k : kind) : Prop := forall e, In e (declared k) -> In (Say e) (section_items md).

(* four columns as a quaternion or its derivative *)
Definition quaternion (o : place) (a b c d : dec) : pyval :=
  match o with
  | First => VObj "QuaternionType" [("qc", VDec a); ("q1", VDec b); ("q2", VDec c); ("q3", VDec d)]
  | Last => VObj "QuaternionType" [("qc", VDec d); ("q1", VDec a); ("q2", VDec b); ("q3", VDec c)]
  end.
Definition quaternion_rate (o : place) (a b c d : dec) : pyval :=
  let n := number "QuaternionDotType" in
  match o with
  | First => VObj "QuaternionRateType" [("qc_dot", n a); ("q1_dot", n b); ("q2_dot", n c); ("q3_dot", n d)]
  | Last => VObj "QuaternionRateType" [("qc_dot", n d); ("q1_dot", n a); ("q2_dot", n b); ("q3_dot", n c)]
  end.
(* three columns as angles or rates about the axes of the sequence *)
Definition angle (a : axis) (d : dec) : pyval :=
  VObj "RotationAngleComponentType"
    [("value", VDec d); ("angle", VEnum "AngleKeywordType" (axis_letter a ++ "_ANGLE") (lit (axis_letter a ++ "_ANGLE"))); ("units", VNone)].
Definition rate (a : axis) (d : dec) : pyval :=
  VObj "RotationRateComponentType"
    [("value", VDec d); ("rate", VEnum "AngleRateKeywordType" (axis_letter a ++ "_RATE") (lit (axis_letter a ++ "_RATE"))); ("units", VNone)].
Definition angles (s : turns) (x y z : dec) : pyval :=
  let '(a, b, c) := s in VObj "RotationAngleType" [("rotation1", angle a x); ("rotation2", angle b y); ("rotation3", angle c z)].
Definition rates (s : turns) (x y z : dec) : pyval :=
  let '(a, b, c) := s in VObj "RotationRateType" [("rotation1", rate a x); ("rotation2", rate b y); ("rotation3", rate c z)].

Definition state_names : list string :=
  ["quaternion_state"; "quaternion_derivative"; "quaternion_euler_rate"; "euler_angle"; "euler_angle_rate"; "spin"; "spin_nutation"].
Definition one_state (n c : string) (e : str) (parts : list (string * pyval)) : pyval :=
  VObj "AttitudeStateType"
    (map (fun m => (m, if String.eqb m n then VObj c (("epoch", VStr e) :: parts) else VNone)) state_names).
Definition attitude (k : kind) (r : record) : pyval :=
  match k, snd r with
  | Quat o, [a; b; c; d] => one_state "quaternion_state" "QuaternionEphemerisType" (fst r) [("quaternion", quaternion o a b c d)]
  | QuatDeriv o, [a; b; c; d; a'; b'; c'; d'] =>
    one_state "quaternion_derivative" "QuaternionDerivativeType" (fst r)
      [("quaternion", quaternion o a b c d); ("quaternion_rate", quaternion_rate o a' b' c' d')]
  | QuatRate o s, [a; b; c; d; x; y; z] =>
    one_state "quaternion_euler_rate" "QuaternionEulerRateType" (fst r)
      [("quaternion", quaternion o a b c d); ("rotation_rates", rates s x y z)]
  | Euler s, [x; y; z] => one_state "euler_angle" "EulerAngleType" (fst r) [("rotation_angles", angles s x y z)]
  | EulerRate s, [x; y; z; x'; y'; z'] =>
    one_state "euler_angle_rate" "EulerAngleRateType" (fst r)
      [("rotation_angles", angles s x y z); ("rotation_rates", rates s x' y' z')]
  | _, _ => VNone
  end.
Definition width (k : kind) : nat :=
  match k with Quat _ => 4 | QuatDeriv _ => 8 | QuatRate _ _ => 7 | Euler _ => 3 | EulerRate _ => 6 end.

(* the number without a positive exponent: 1000 for 1E+3 *)
Definition expanded (d : dec) : dec :=
  match d with DFin n c (Zpos e) => DFin n (c * 10 ^ Npos e) 0 | _ => d end.
Definition settled (d : dec) : Prop := match d with DFin _ _ e => (e <= 0)%Z | _ => True end.
Definition without (w s : str) : Prop := forall a b, s <> a ++ w ++ b.
(* an attitude that can be written and read back: the epoch does not contain "Type" *)
Definition good_attitude (k : kind) (r : record) : Prop :=
  date_text (fst r) /\ without (lit "Type") (fst r) /\ List.length (snd r) = width k /\ Forall canonical (snd r).
Definition writable (k : kind) : Prop := match k with QuatDeriv _ => False | _ => True end.

(* ---- segments and messages ---- *)
(* metadata, attitude type, comments of the data, attitude states *)
Definition aem_part := (pyval * kind * list str * list record)%type.
Definition aem_segment (p : aem_part) : pyval :=
  let '(md, k, cs, rs) := p in
  VObj "AemSegment" [("metadata", md);
    ("data", VObj "AemData" [("comment", VList (texts cs)); ("attitude_state", VList (map (attitude k) rs))])].
Definition aem_message (header : pyval) (segments : list pyval) : pyval :=
  VObj "Aem" [("header", header); ("body", VObj "AemBody" [("segment", VList segments)])].
(* what the reader needs: at most one comment and an attitude state *)
Definition aem_part_ok (p : aem_part) : Prop :=
  let '(md, k, cs, rs) := p in
  section "AemMetadata" md /\ declares md k /\ Forall good_text cs /\ List.length cs <= 1 /\ rs <> [].
Definition aem_segment_ok (p : aem_part) : Prop :=
  aem_part_ok p /\ let '(_, k, _, rs) := p in writable k /\ Forall (good_attitude k) rs.
(* the same segment with all numbers written out *)
Definition aem_expanded (p : aem_part) : aem_part :=
  let '(md, k, cs, rs) := p in (md, k, cs, map (fun r => (fst r, map expanded (snd r))) rs).
Definition aem_settled (p : aem_part) : Prop := let '(_, _, _, rs) := p in Forall (fun r => Forall settled (snd r)) rs.
(* a segment whose data starts with a comment must have every metadata field that a later segment has *)
Fixpoint aem_apart (ps : list aem_part) : Prop :=
  match ps with
  | [] => True
  | (md, _, cs, _) :: r =>
    (cs = [] \/ forall md' k' cs' rs', In (md', k', cs', rs') r -> forall n, sets md' n -> sets md n) /\ aem_apart r
  end.

(* ---- AEM documents ---- *)
(* a data line: the epoch and the numbers of the attitude type; whatever follows the last one is ignored *)
Definition attitude_text (k : kind) (s : str) (r : record) : Prop :=
  trimmed s /\ no_char c_eq s /\ In c_sp s /\ date_text (fst r) /\ without (lit "Type") (fst r) /\
  exists ts extra, columned (fst r :: ts ++ extra) s /\ List.length ts = width k /\
    Forall2 (fun t d => exists d0, number_text t d0 /\ d = expanded d0) ts (snd r).
Definition aem_said (p : aem_part) (l : list item) : Prop :=
  let '(md, k, cs, rs) := p in
  exists ss, Forall2 (attitude_text k) ss rs /\
    l = [Bare (lit "META_START")] ++ section_items md ++ [Bare (lit "META_STOP"); Bare (lit "DATA_START")] ++
        comment_items cs ++ map Bare ss ++ [Bare (lit "DATA_STOP")].

(* ---- AEM as written ---- *)
(* what the writer needs *)
Definition plain_attitude (k : kind) (r : record) : Prop :=
  good_text (fst r) /\ ~ begins (lit "QUATERNION_TYPE") (fst r) /\ List.length (snd r) = width k.
Definition aem_plain (p : aem_part) : Prop :=
  let '(md, k, cs, rs) := p in
  section "AemMetadata" md /\ declares md k /\ Forall good_text cs /\ writable k /\ Forall (plain_attitude k) rs.
Definition aem_written (p : aem_part) : list item :=
  let '(md, _, cs, rs) := p in
  [Bare (lit "META_START")] ++ section_items md ++ [Bare (lit "META_STOP"); Bare (lit "DATA_START")] ++
  comment_items cs ++ map (fun r => spaced_out (fst r :: map show_dec (snd r))) rs ++ [Bare (lit "DATA_STOP")].
