(* Property C53: numbers are read by what they spell. *)
From Coq Require Import NArith ZArith List Bool String Arith Lia.
From Verif Require Import PyStr PyDec PyVal Spec StrFacts PreFacts DecFacts SpecNum NumFacts.
Import ListNotations.
Local Open Scope string_scope.
Local Open Scope list_scope.
Local Arguments lit : simpl never.

Theorem C53_white_space : forall c, is_ws c = true <-> In c white_space.
Proof.
  intros c. unfold is_ws, in_range, white_space. rewrite !orb_true_iff, !andb_true_iff, !N.leb_le, !N.eqb_eq. cbn [In]. lia.
Qed.

Theorem C53_decimal_value : forall u s d, plain s ->
  (py_decimal u s = Some d <-> exists core, is_core s core /\ spells (no_underscores core) d).
Proof. exact decimal_is. Qed.
Theorem C53_whole_value : forall u s z, plain s ->
  (py_int u s = Some z <-> exists core, is_core s core /\ spells_whole core z).
Proof. exact whole_is. Qed.
Theorem C53_float_accepted : forall u s, plain s ->
  (float_ok u s = true <-> exists core, is_core s core /\ spells_float core).
Proof.
  intros u s Hp. unfold float_ok. rewrite (plain_ascii u s Hp), float_is. split.
  - intros H. exists (strip s). split; [apply strip_core|exact H].
  - intros (core & Hc & H). rewrite (strip_of_core _ _ Hc). exact H.
Qed.
(* the text written for a decimal number spells that number, and so does the text written for a whole number *)
Theorem C53_written_decimal : forall d, canonical d -> spells (show_dec d) d.
Proof.
  intros d C. pose proof (proj1 (parse_dec_is (show_dec d) d) (parse_dec_show d C)) as S.
  rewrite (strip_trimmed _ (numtext_trimmed _ (numtext_show_dec d))) in S.
  change (no_underscores (show_dec d)) with (remove_char 95 (show_dec d)) in S.
  rewrite (remove_char_no 95 _ (numtext_no_char 95 _ eq_refl (numtext_show_dec d))) in S. exact S.
Qed.
Definition ascii_env : env := mkEnv (fun _ => false) (fun _ => false) (fun c => [c]) (fun _ => None) (fun _ _ => VNone) false.
Theorem C53_written_whole : forall z, spells_whole (show_Z z) z.
Proof.
  intros z. assert (P : plain (show_Z z)).
  { pose proof (numtext_ascii _ (numtext_show_Z z)) as A. unfold plain. eapply Forall_impl; [|exact A]. intros c H. apply N.ltb_lt. exact H. }
  destruct (proj1 (whole_is ascii_env (show_Z z) z P) (py_int_show _ z)) as (core & Hc & H).
  apply strip_of_core in Hc. rewrite (strip_trimmed _ (numtext_trimmed _ (numtext_show_Z z))) in Hc. subst core. exact H.
Qed.
Print Assumptions C53_decimal_value.

Lemma plainb s : forallb (fun c => N.ltb c 128) s = true -> plain s.
Proof. intros H. apply Forall_forall. intros c Hc. rewrite forallb_forall in H. apply N.ltb_lt, H, Hc. Qed.
(* " -.5_0e+3" is minus fifty times ten to the first; "+1_000" is a thousand *)
Example C53_example : plain (lit " -.5_0e+3") /\ py_decimal ascii_env (lit " -.5_0e+3") = Some (DFin true 50 1) /\
  spells (lit "-.50e+3") (DFin true 50 1) /\ plain (lit "+1_000 ") /\ py_int ascii_env (lit "+1_000 ") = Some 1000%Z /\
  float_ok ascii_env (lit "1_0.e5") = true /\ py_decimal ascii_env (lit "sNaN012") = Some (DNaN false true (Some 12%N)).
Proof.
  split; [apply plainb; reflexivity|]. split; [reflexivity|]. split.
  { assert (F5 : figures (lit "50")) by (repeat constructor; discriminate). assert (F3 : figures (lit "3")) by (repeat constructor; discriminate).
    apply (spells_finite (lit "-") true (lit ".50") [] (lit "50") (lit "e+3") 3); [constructor|apply (mantissa_point [] (lit "50")); [constructor|exact F5|discriminate]|].
    apply (exponent_some 101 (lit "+") false (lit "3")); [auto|constructor|exact F3|discriminate]. }
  split; [apply plainb; reflexivity|]. repeat split; reflexivity.
Qed.
(* what spells no number: two points, an exponent without figures, an underscore at the end of a whole number *)
Example C53_rejects : (forall d, ~ spells (lit "1.2.3") d) /\ (forall d, ~ spells (lit "1e") d) /\ (forall z, ~ spells_whole (lit "1_") z) /\
  ~ spells_float (lit "_1").
Proof.
  assert (D : forall s, no_underscores (strip s) = s -> parse_dec_ascii s = None -> forall d, ~ spells s d).
  { intros s E N d H. rewrite <- E in H. apply parse_dec_is in H. congruence. }
  split; [apply D; reflexivity|]. split; [apply D; reflexivity|]. split.
  - intros z H. change (lit "1_") with (strip (lit "1_")) in H. apply parse_int_is in H. discriminate.
  - intros H. change (lit "_1") with (strip (lit "_1")) in H. apply float_is in H. discriminate.
Qed.
