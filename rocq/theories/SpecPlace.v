(* Messages that differ in one field. *)
From Coq Require Import NArith List Bool String.
From Verif Require Import PyStr PyVal Schema KvnPre Spec SpecKvn SpecFrom.
Import ListNotations.
Local Open Scope string_scope.
Local Open Scope list_scope.

(* nothing differs, or one field, whose keyword is [k], somewhere in the message *)
Inductive one_change (k : str) : pyval -> pyval -> Prop :=
| change_none v : one_change k v v
| change_field c f before x x' after : In f (fields_of c) -> f_kind f = KElem -> kvn_name f = k ->
    one_change k (VObj c (before ++ (f_name f, x) :: after)) (VObj c (before ++ (f_name f, x') :: after))
| change_inside c before n x x' after : one_change k x x' ->
    one_change k (VObj c (before ++ (n, x) :: after)) (VObj c (before ++ (n, x') :: after))
| change_element before x x' after : one_change k x x' -> one_change k (VList (before ++ x :: after)) (VList (before ++ x' :: after)).

(* the keywords whose values say how other lines are read, comments, and the words of the rotations of an APM *)
Definition special_words : list str :=
  map lit ["COMMENT"; "ATTITUDE_TYPE"; "QUATERNION_TYPE"; "EULER_ROT_SEQ"; "X_ANGLE"; "Y_ANGLE"; "Z_ANGLE"; "X_RATE"; "Y_RATE"; "Z_RATE"].
(* any other keyword *)
Definition ordinary_word (k : str) : Prop :=
  trimmed k /\ no_char c_eq k /\ ~ begins kw_comment k /\ ~ begins (lit "USER_DEFINED") k /\ ~ In k (lit "id" :: lit "version" :: special_words).
