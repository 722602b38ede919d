(* How numbers are spelled, and the numbers these spellings stand for. *)
From Coq Require Import NArith ZArith List Bool String.
From Verif Require Import PyStr PyDec Spec.
Import ListNotations.
Local Open Scope string_scope.
Local Open Scope list_scope.

(* the code points python takes for white space *)
Definition white_space : list N :=
  [9; 10; 11; 12; 13; 28; 29; 30; 31; 32; 133; 160; 5760; 8192; 8193; 8194; 8195; 8196; 8197; 8198; 8199; 8200; 8201; 8202;
   8232; 8233; 8239; 8287; 12288]%N.

Definition plain (s : str) : Prop := Forall (fun c => (c < 128)%N) s.
Definition figures (s : str) : Prop := Forall (fun c => (48 <= c <= 57)%N) s.
(* the number a row of figures stands for *)
Definition value (ds : str) : N := fold_left (fun n c => 10 * n + (c - 48))%N ds 0%N.
Definition signed (neg : bool) (n : N) : Z := if neg then (- Z.of_N n)%Z else Z.of_N n.
Inductive sign : str -> bool -> Prop :=
| sign_none : sign [] false
| sign_plus : sign (lit "+") false
| sign_minus : sign (lit "-") true.

(* an exponent: nothing, or e or E, a sign and figures *)
Inductive exponent : str -> Z -> Prop :=
| exponent_none : exponent [] 0%Z
| exponent_some c sg neg ds : c = 69%N \/ c = 101%N -> sign sg neg -> figures ds -> ds <> [] -> exponent (c :: sg ++ ds) (signed neg (value ds)).
(* a row of figures, perhaps with a point in it or at one of its ends *)
Inductive mantissa : str -> str -> str -> Prop :=
| mantissa_whole a : figures a -> a <> [] -> mantissa a a []
| mantissa_point a b : figures a -> figures b -> a ++ b <> [] -> mantissa (a ++ 46%N :: b) a b.

(* a word in any mixture of upper and lower case; [w] is the word in lower case *)
Definition any_case (w s : str) : Prop := Forall2 (fun l c => c = l \/ (c + 32 = l /\ 97 <= l <= 122)%N) w s.

(* a decimal number and its spellings *)
Inductive spells : str -> dec -> Prop :=
| spells_finite sg neg m a b x e : sign sg neg -> mantissa m a b -> exponent x e ->
    spells (sg ++ m ++ x) (DFin neg (value (a ++ b)) (e - Z.of_nat (List.length b))%Z)
| spells_infinite sg neg w : sign sg neg -> any_case (lit "inf") w \/ any_case (lit "infinity") w -> spells (sg ++ w) (DInf neg)
| spells_nan sg neg w ds : sign sg neg -> any_case (lit "nan") w -> figures ds ->
    spells (sg ++ w ++ ds) (DNaN neg false (if N.eqb (value ds) 0 then None else Some (value ds)))
| spells_snan sg neg w ds : sign sg neg -> any_case (lit "snan") w -> figures ds ->
    spells (sg ++ w ++ ds) (DNaN neg true (if N.eqb (value ds) 0 then None else Some (value ds))).
Definition no_underscores (s : str) : str := filter (fun c => negb (N.eqb c 95)) s.

(* every underscore stands between two figures *)
Definition figure (c : N) : Prop := (48 <= c <= 57)%N.
Definition between_figures (s : str) : Prop := forall a b, s = a ++ 95%N :: b ->
  (exists a' c, a = a' ++ [c] /\ figure c) /\ (exists c b', b = c :: b' /\ figure c).
(* a whole number: a sign and figures, perhaps with underscores between them *)
Inductive spells_whole : str -> Z -> Prop :=
| spells_groups sg neg r : sign sg neg -> between_figures r -> figures (no_underscores r) -> no_underscores r <> [] ->
    spells_whole (sg ++ r) (signed neg (value (no_underscores r))).
(* a binary floating point number *)
Inductive spells_float : str -> Prop :=
| spells_word sg neg w : sign sg neg -> any_case (lit "inf") w \/ any_case (lit "infinity") w \/ any_case (lit "nan") w -> spells_float (sg ++ w)
| spells_number sg neg r m a b x e : sign sg neg -> between_figures r -> no_underscores r = m ++ x -> mantissa m a b -> exponent x e -> spells_float (sg ++ r).
