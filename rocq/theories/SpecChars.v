(* The characters of a message and of its text. *)
From Coq Require Import NArith List String.
From Verif Require Import PyStr PyVal.
Import ListNotations.

(* the character stands in a string of the value, or in the name of a field or of an enumeration member *)
Inductive occurs (c : N) : pyval -> Prop :=
| occurs_text s : In c s -> occurs c (VStr s)
| occurs_enum e m s : In c (lit e) \/ In c (lit m) \/ In c s -> occurs c (VEnum e m s)
| occurs_name k vars n x : In (n, x) vars -> In c (lit n) -> occurs c (VObj k vars)
| occurs_field k vars n x : In (n, x) vars -> occurs c x -> occurs c (VObj k vars)
| occurs_item l x : In x l -> occurs c x -> occurs c (VList l).
(* printable ASCII *)
Definition printable (c : N) : Prop := (32 <= c <= 126)%N.
