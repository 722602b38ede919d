(* Vocabulary of the property statements, independent of the model's functions:
   plain relations on strings, documents and objects. *)
From Coq Require Import NArith ZArith List Bool String.
From Verif Require Import PyStr.
Import ListNotations.

(* a run of white space *)
Definition blank (s : str) : Prop := forall c, In c s -> is_ws c = true.
(* a text that neither starts nor ends with white space (possibly empty) *)
Definition trimmed (s : str) : Prop :=
  (forall c r, s = c :: r -> is_ws c = false) /\ (forall c r, s = r ++ [c] -> is_ws c = false).
(* [core] is [s] without its surrounding white space *)
Definition is_core (s core : str) : Prop :=
  exists w1 w2, s = w1 ++ core ++ w2 /\ blank w1 /\ blank w2 /\ trimmed core.
Definition begins (p s : str) : Prop := exists r, s = p ++ r.
Definition ends (p s : str) : Prop := exists r, s = r ++ p.
Definition no_char (c : N) (s : str) : Prop := ~ In c s.
(* one line of text *)
Definition one_line (s : str) : Prop := no_char c_nl s.
