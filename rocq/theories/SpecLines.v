(* Documents stored with different line ends. *)
From Coq Require Import NArith List String.
From Verif Require Import PyStr Spec SpecIo.
Import ListNotations.
Local Open Scope string_scope.
Local Open Scope list_scope.

(* the lines [ls], each but the last followed by one of the ends [E] *)
Inductive stored (E : str -> Prop) : list str -> str -> Prop :=
| stored_last l : stored E [l] l
| stored_more l e ls raw : E e -> stored E ls raw -> stored E (l :: ls) (l ++ e ++ raw).
Definition lf_or_crlf (e : str) : Prop := e = [c_nl] \/ e = [c_return; c_nl].
Definition any_end (e : str) : Prop := lf_or_crlf e \/ e = [c_return].

(* a line without line ends of any kind *)
Definition plain_line (l : str) : Prop := one_line l /\ no_char c_return l.
(* the first line that is not blank starts with CCSDS_ *)
Definition opens_kvn (ls : list str) : Prop :=
  exists blanks w r rest, ls = blanks ++ (w ++ lit "CCSDS_" ++ r) :: rest /\ Forall blank blanks /\ blank w.
