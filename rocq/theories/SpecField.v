(* A line put into a document, and the field it sets in the message. *)
From Coq Require Import NArith ZArith List Bool String.
From Verif Require Import PyStr PyDec PyVal Schema KvnPre Spec SpecKvn SpecNum SpecFrom SpecOrder SpecSpell.
Import ListNotations.
Local Open Scope string_scope.
Local Open Scope list_scope.

(* a value, or an object with it as its text *)
Definition bears (y x : pyval) : Prop :=
  x = y \/ exists c g vars, x = VObj c vars /\ In g (fields_of c) /\ f_kind g = KText /\ In (f_name g, y) vars.
(* the value of a field set by a line with a keyword, a text and a unit (or none): it is taken from that line; a number is the
   number the text spells, a text is the text itself, and a unit that the class knows is kept *)
Definition set_by (u : env) (k s un : str) (f : field) (x : pyval) : Prop :=
  taken u k s (match un with [] => None | _ => Some un end) x /\
  (forall n, text_type (f_ty f) = TDec -> plain s -> spells (no_underscores s) n -> bears (VDec n) x) /\
  (forall z, text_type (f_ty f) = TInt -> plain s -> spells_whole s z -> bears (VInt z) x) /\
  (text_type (f_ty f) = TStr -> bears (VStr s) x) /\
  (forall c, un <> [] -> f_ty f = TCls c -> In "units" (map f_name (fields_of c)) ->
     exists vars y, x = VObj c vars /\ In ("units", y) vars /\ y <> VNone /\ reading u un y).

(* the second message is the first one with one more field, that of the keyword, in one object of class d *)
Inductive put_field (u : env) (d : string) (k s un : str) : pyval -> pyval -> Prop :=
| field_here f pre x post : In f (fields_of d) -> kvn_name f = k -> set_by u k s un f x ->
    put_field u d k s un (VObj d (pre ++ (f_name f, VNone) :: post)) (VObj d (pre ++ (f_name f, x) :: post))
| field_in c pre n x y post : put_field u d k s un x y ->
    put_field u d k s un (VObj c (pre ++ (n, x) :: post)) (VObj c (pre ++ (n, y) :: post))
| field_list a x y b : put_field u d k s un x y -> put_field u d k s un (VList (a ++ x :: b)) (VList (a ++ y :: b)).
