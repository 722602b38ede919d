(* What a message that fits the schema needs, besides proper units, to be written as KVN. *)
From Coq Require Import NArith List String.
From Verif Require Import PyStr PyVal SpecBack.
Import ListNotations.
Local Open Scope string_scope.
Local Open Scope list_scope.

Definition writable_roots : list string := ["Omm"; "Opm"; "Rdm"; "Apm"; "Cdm"; "Oem"; "Tdm"].
(* attributes that say which rotation angle or rate a value is *)
Definition axis_of : list (string * string) := [("RotationAngleComponentType", "angle"); ("RotationRateComponentType", "rate")].

(* no list has None in it; a user defined parameter has a name; a rotation component names its axis; a state vector of an
   ephemeris has an epoch *)
Definition no_gaps (v : pyval) : Prop := forall l, inside (VList l) v -> ~ In VNone l.
Definition named_parameters (v : pyval) : Prop := forall vars, inside (VObj "UserDefinedParameterType" vars) v -> ~ In ("parameter", VNone) vars.
Definition named_axes (v : pyval) : Prop :=
  forall c n vars x, In (c, n) axis_of -> inside (VObj c vars) v -> In (n, x) vars -> exists e m s, x = VEnum e m s.
Definition dated_states (v : pyval) : Prop :=
  forall vars, inside (VObj "StateVectorAccType" vars) v -> ~ In ("epoch", VNone) vars /\ ~ In ("epoch", VStr []) vars.
Definition complete (v : pyval) : Prop := no_gaps v /\ named_parameters v /\ named_axes v /\ dated_states v.

(* Attitude records that can be written: something is set, what is set is complete but for units, and it is not one with
   quaternion derivatives; where there is a quaternion, the metadata of the segment says in which order it is written. *)
Definition filled (v : pyval) : Prop := forall c vars n, inside (VObj c vars) v -> In (n, VNone) vars -> n = "units".
Definition record_ready (vars : list (string * pyval)) : Prop :=
  (exists n x, In (n, x) vars /\ x <> VNone) /\
  forall n c avars, In (n, VObj c avars) vars -> c <> "QuaternionDerivativeType" /\ filled (VObj c avars).
Definition quaternion_record (vars : list (string * pyval)) : Prop :=
  exists n c avars, In (n, VObj c avars) vars /\ In c ["QuaternionEphemerisType"; "QuaternionEulerRateType"].
Definition attitude_ready (v : pyval) : Prop :=
  (forall vars, inside (VObj "AttitudeStateType" vars) v -> record_ready vars) /\
  (forall svars rvars, inside (VObj "AemSegment" svars) v -> inside (VObj "AttitudeStateType" rvars) (VObj "AemSegment" svars) -> quaternion_record rvars ->
     exists mvars e m s, In ("metadata", VObj "AemMetadata" mvars) svars /\ In ("quaternion_type", VEnum e m s) mvars).
