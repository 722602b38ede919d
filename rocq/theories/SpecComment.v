(* A comment line put into a document, and the comment in the message. *)
From Coq Require Import NArith List Bool String.
From Verif Require Import PyStr PyVal Schema KvnPre Spec SpecKvn SpecFrom SpecOrder SpecInsert.
Import ListNotations.
Local Open Scope string_scope.
Local Open Scope list_scope.

(* a comment line and its text *)
Definition comments (raw s : str) : Prop :=
  exists w b, raw = w ++ kw_comment ++ b /\ blank w /\ is_core b s /\ s <> [] /\ ~ begins [c_eq] s.

(* the second message is the first one with one more comment in one object of class d *)
Inductive put_comment (d : string) (s : str) : pyval -> pyval -> Prop :=
| put_here pre a b post : put_comment d s (VObj d (pre ++ ("comment", VList (a ++ b)) :: post)) (VObj d (pre ++ ("comment", VList (a ++ VStr s :: b)) :: post))
| put_in c pre n x y post : put_comment d s x y -> put_comment d s (VObj c (pre ++ (n, x) :: post)) (VObj c (pre ++ (n, y) :: post))
| put_list a x y b : put_comment d s x y -> put_comment d s (VList (a ++ x :: b)) (VList (a ++ y :: b)).

(* the words of the lines of a class *)
Definition words (k : string) : list str := keywords k ++ attribute_words k.

(* a section that a message holds at most once *)
Definition repeated (c d : string) : Prop :=
  exists k f e, within c k /\ In f (fields_of k) /\ f_list f = true /\ f_ty f = TCls e /\ within e d.
Definition lone (c d : string) : Prop := within c d /\ ~ repeated c d.

(* x comes before y in the standard: as a part of an earlier field, or as what y is a part of *)
Definition precedes (c x y : string) : Prop :=
  (within c x /\ within x y) \/
  exists k A f B g C e1 e2, within c k /\ fields_of k = A ++ f :: B ++ g :: C /\
    f_ty f = TCls e1 /\ within e1 x /\ f_ty g = TCls e2 /\ within e2 y.

(* a line of a section that comes once is never followed by a line of an earlier section *)
Definition in_order (c : string) (rs : list str) : Prop :=
  forall a r b s e h k x y, rs = a ++ r :: b ++ s :: e -> heads r h -> heads s k -> h <> kw_comment -> k <> kw_comment ->
    lone c x -> In h (words x) -> within c y -> In k (words y) -> x <> y -> ~ precedes c y x.
