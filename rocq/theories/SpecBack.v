(* What in a message keeps it from being written as KVN. *)
From Coq Require Import NArith List Bool String.
From Verif Require Import PyStr PyDec PyVal Schema.
Import ListNotations.
Local Open Scope string_scope.
Local Open Scope list_scope.

(* a part of a value: the value itself, or a part of an attribute or list item *)
Inductive inside (x : pyval) : pyval -> Prop :=
| inside_here : inside x x
| inside_attr c n y vars : In (n, y) vars -> inside x y -> inside x (VObj c vars)
| inside_item y l : In y l -> inside x y -> inside x (VList l).

(* a unit that is kept as a text because its enumeration does not have it *)
Definition odd_unit (v : pyval) : Prop := exists c vars s, inside (VObj c vars) v /\ In ("units", VStr s) vars /\ s <> [].
(* a tracking observation that holds no number *)
Definition no_number (v : pyval) : Prop :=
  exists vars, inside (VObj "TrackingDataObservationType" vars) v /\ forall n d, In (n, VDec d) vars -> n = "epoch".

(* an empty text is read as an empty text or as None; as a name it is read as an empty text *)
Definition empty_read (u : env) : Prop :=
  (forall c f, x_empty u c f = VNone \/ x_empty u c f = VStr []) /\ forall c, x_empty u c "parameter" = VStr [].

(* a value that gets its own line: an attribute of the message, of a section of the message, or of an item of a list of
   sections; the four kinds of data records are left out, as are comments and user-defined parameters *)
Definition records : list string := ["StateVectorAccType"; "OemCovarianceMatrixType"; "TrackingDataObservationType"; "AttitudeStateType"].
Inductive line_of (x : pyval) : pyval -> Prop :=
| line_here c n vars : In (n, x) vars -> n <> "comment" -> n <> "user_defined" -> line_of x (VObj c vars)
| line_section c n c' vars vars' : In (n, VObj c' vars') vars -> ~ In c' records -> ~ In "units" (map fst vars') -> line_of x (VObj c' vars') -> line_of x (VObj c vars)
| line_item c n l c' vars vars' : In (n, VList l) vars -> n <> "comment" -> n <> "user_defined" -> In (VObj c' vars') l -> ~ In c' records -> line_of x (VObj c' vars') -> line_of x (VObj c vars).
(* an object with such a unit, as the writer looks it up *)
Definition has_odd_unit (x : pyval) : Prop :=
  exists c pre s post, x = VObj c (pre ++ ("units", VStr s) :: post) /\ ~ In "units" (map fst pre) /\ s <> [].
