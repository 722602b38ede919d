(* A keyword said twice: how the lines of a text name their keywords, and how often. *)
From Coq Require Import NArith List String.
From Verif Require Import PyStr PyDec PyVal Schema KvnPre Spec SpecFrom SpecOrder.
Import ListNotations.
Local Open Scope string_scope.
Local Open Scope list_scope.

(* the keywords of the lines of a text, in order; blank lines have none *)
Inductive names : list str -> list str -> Prop :=
| names_nil : names [] []
| names_blank r rs ks : blank r -> names rs ks -> names (r :: rs) ks
| names_line r rs k ks : heads r k -> names rs ks -> names (r :: rs) (k :: ks).

Definition times (k : str) (ks : list str) : nat := count_occ (list_eq_dec N.eq_dec) ks k.

(* the class of the header of a message *)
Definition header_of (c h : string) : Prop := exists f, In f (fields_of c) /\ f_name f = "header" /\ f_ty f = TCls h.
