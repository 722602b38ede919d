(* What the number parsers accept and return (used for C53 and the data lines). *)
From Coq Require Import NArith ZArith List Bool String Arith Lia.
From Verif Require Import PyStr PyDec PyVal Spec StrFacts PreFacts DecFacts SpecNum.
Import ListNotations.
Local Open Scope string_scope.
Local Open Scope list_scope.
Local Arguments lit : simpl never.

(* ---- figures ---- *)
Lemma figures_digits s : figures s <-> digits s.
Proof.
  unfold figures, digits. rewrite !Forall_forall. split; intros H c Hc; specialize (H c Hc).
  - unfold is_digit, in_range. apply andb_true_iff. rewrite !N.leb_le. lia.
  - apply is_digit_range. exact H.
Qed.

Lemma digit_cases c : is_digit c = true -> c = 48%N \/ c = 49%N \/ c = 50%N \/ c = 51%N \/ c = 52%N \/ c = 53%N \/ c = 54%N \/ c = 55%N \/ c = 56%N \/ c = 57%N.
Proof. intros H. apply is_digit_range in H. lia. Qed.
Lemma acc_value s : digits s -> forall p,
  Npos (Pos.of_uint_acc (chars_uint s) p) = fold_left (fun n c => 10 * n + (c - 48))%N s (Npos p).
Proof.
  intros H. induction H as [|c s Hc H IH]; intros p; [reflexivity|]. apply digit_cases in Hc.
  repeat destruct Hc as [-> | Hc]; [| | | | | | | | |subst c]; cbn [chars_uint fold_left];
    cbn [Pos.of_uint_acc]; rewrite IH; f_equal; lia.
Qed.
Lemma read_value s : digits s -> read_N s = value s.
Proof.
  unfold read_N, value, N.of_uint. intros H. induction H as [|c s Hc H IH]; [reflexivity|]. apply digit_cases in Hc.
  repeat destruct Hc as [-> | Hc]; [| | | | | | | | |subst c]; cbn [chars_uint fold_left Pos.of_uint];
    [exact IH|..]; rewrite acc_value by exact H; reflexivity.
Qed.

(* ---- signs ---- *)
Definition unsigned (r : str) : Prop := match r with [] => True | c :: _ => c <> 43%N /\ c <> 45%N end.
Lemma take_sign_of sg neg r : sign sg neg -> unsigned r -> take_sign (sg ++ r) = (neg, r).
Proof.
  intros H Hr. destruct H; [|reflexivity|reflexivity]. cbn [app]. destruct r as [|c r]; [reflexivity|]. destruct Hr as [H1 H2].
  unfold take_sign. destruct c as [|p]; [reflexivity|]. do 6 (destruct p as [p|p|]; try reflexivity); congruence.
Qed.
Lemma take_sign_is s neg r : take_sign s = (neg, r) -> exists sg, sign sg neg /\ s = sg ++ r.
Proof.
  intros H. assert (D : s = [] \/ (exists t, s = 43%N :: t) \/ (exists t, s = 45%N :: t) \/ (exists c t, s = c :: t /\ unsigned s)).
  { destruct s as [|c t]; [left; reflexivity|right]. destruct (N.eq_dec c 43) as [-> | N1]; [left; eauto|right].
    destruct (N.eq_dec c 45) as [-> | N2]; [left; eauto|right]. exists c, t. split; [reflexivity|split; assumption]. }
  destruct D as [-> | [[t ->] | [[t ->] | (c & t & Es & Hu)]]].
  - cbn in H. injection H as <- <-. exists []. split; [constructor|reflexivity].
  - cbn in H. injection H as <- <-. exists (lit "+"). split; [constructor|reflexivity].
  - cbn in H. injection H as <- <-. exists (lit "-"). split; [constructor|reflexivity].
  - pose proof (take_sign_of [] false s sign_none Hu) as E. cbn [app] in E. rewrite E in H. injection H as <- <-. exists []. split; [constructor|reflexivity].
Qed.
Lemma figure_unsigned c r : is_digit c = true -> unsigned (c :: r).
Proof. intros H. apply is_digit_range in H. cbn. lia. Qed.

(* ---- runs of figures ---- *)
Lemma take_digits_is s d t : take_digits s = (d, t) -> s = d ++ t /\ digits d /\ match t with [] => True | c :: _ => is_digit c = false end.
Proof.
  revert d t. induction s as [|c s IH]; intros d t H; cbn in H.
  - injection H as <- <-. repeat split. constructor.
  - destruct (is_digit c) eqn:Ec.
    + destruct (take_digits s) as [d1 t1] eqn:E. injection H as <- <-. destruct (IH _ _ eq_refl) as (-> & Hd & Ht).
      repeat split; [constructor; assumption|exact Ht].
    + injection H as <- <-. repeat split; [constructor|exact Ec].
Qed.
Lemma signed_if (neg : bool) ds : digits ds -> (if neg then - Z.of_N (read_N ds) else Z.of_N (read_N ds))%Z = signed neg (value ds).
Proof. intros H. rewrite read_value by exact H. reflexivity. Qed.
Lemma lower_e c : N.eqb (lower_ascii c) 101 = true <-> c = 69%N \/ c = 101%N.
Proof.
  rewrite N.eqb_eq. unfold lower_ascii, is_upper_ascii, in_range.
  destruct ((65 <=? c)%N && (c <=? 90)%N) eqn:E.
  - apply andb_true_iff in E. rewrite !N.leb_le in E. lia.
  - split; [auto|]. intros [-> | ->]; [discriminate|reflexivity].
Qed.
Lemma parse_exp_is x e : parse_exp x = Some e <-> exponent x e.
Proof.
  split; intros H.
  - destruct x as [|c r]; cbn in H; [injection H as <-; constructor|].
    destruct (N.eqb (lower_ascii c) 101) eqn:Ec; [|discriminate]. apply lower_e in Ec.
    destruct (take_sign r) as [neg r1] eqn:E1. destruct (take_digits r1) as [ds r2] eqn:E2.
    destruct (take_sign_is _ _ _ E1) as (sg & Hs & ->). destruct (take_digits_is _ _ _ E2) as (-> & Hd & _).
    destruct ds as [|a ds]; [discriminate|]. destruct r2 as [|b r2]; [|discriminate].
    injection H as <-. rewrite (signed_if neg (a :: ds) Hd), app_nil_r. constructor; [exact Ec|exact Hs|apply figures_digits; exact Hd|discriminate].
  - destruct H as [|c sg neg ds Hc Hs Hd Hne]; [reflexivity|]. apply figures_digits in Hd. cbn [parse_exp].
    rewrite (proj2 (lower_e c) Hc). destruct ds as [|a ds]; [destruct (Hne eq_refl)|].
    rewrite (take_sign_of sg neg (a :: ds) Hs) by (apply figure_unsigned; inversion Hd; assumption).
    rewrite (take_digits_all (a :: ds) Hd). rewrite (signed_if neg (a :: ds) Hd). reflexivity.
Qed.
Lemma exponent_head x e : exponent x e -> match x with [] => True | c :: _ => is_digit c = false /\ c <> 46%N end.
Proof. intros H. destruct H as [|c sg neg ds Hc _ _ _]; [exact I|]. destruct Hc as [-> | ->]; split; reflexivity || discriminate. Qed.
Lemma point_case {A} r (f : str -> A) (g : A) : match r with 46%N :: t => f t | _ => g end = g \/ exists t, r = 46%N :: t.
Proof.
  destruct r as [|c t]; [left; reflexivity|]. destruct (N.eq_dec c 46) as [-> | N1]; [right; eauto|left].
  destruct c as [|p]; [reflexivity|]. do 6 (destruct p as [p|p|]; try reflexivity); congruence.
Qed.
Lemma parse_fin_is s c e : parse_fin s = Some (c, e) <->
  exists m a b x e0, s = m ++ x /\ mantissa m a b /\ exponent x e0 /\ c = value (a ++ b) /\ e = (e0 - Z.of_nat (List.length b))%Z.
Proof.
  split.
  - unfold parse_fin. intros H. destruct (take_digits s) as [a r1] eqn:E1. destruct (take_digits_is _ _ _ E1) as (-> & Ha & Hr1).
    destruct (match r1 with 46%N :: r => take_digits r | _ => ([], r1) end) as [b r2] eqn:E2.
    assert (Hne : a ++ b <> []) by (intros E; rewrite E in H; discriminate).
    destruct (a ++ b) as [|y ys] eqn:Eab; [destruct (Hne eq_refl)|]. rewrite <- Eab in *.
    destruct (parse_exp r2) as [e0|] eqn:E3; [|discriminate]. apply parse_exp_is in E3. injection H as <- <-.
    destruct (point_case r1 take_digits ([], r1)) as [P | [t ->]].
    + assert (E4 := eq_trans (eq_sym P) E2). clear E2. injection E4 as <- <-. rewrite app_nil_r in *. exists a, a, [], r1, e0.
      repeat split; [constructor; [apply figures_digits; exact Ha|exact Hne]|exact E3|rewrite app_nil_r; apply read_value; exact Ha].
    + destruct (take_digits_is _ _ _ E2) as (-> & Hb & _). exists (a ++ 46%N :: b), a, b, r2, e0.
      repeat split; [rewrite <- app_assoc; reflexivity| |exact E3|apply read_value, digits_app; assumption].
      constructor; [apply figures_digits; exact Ha|apply figures_digits; exact Hb|exact Hne].
  - intros (m & a & b & x & e0 & -> & Hm & Hx & -> & ->). pose proof (exponent_head x e0 Hx) as Hh. apply parse_exp_is in Hx.
    assert (Hx0 : match x with [] => True | c :: _ => is_digit c = false end) by (destruct x; [exact I|apply Hh]).
    unfold parse_fin. destruct Hm as [a Ha Hne|a b Ha Hb Hne]; apply figures_digits in Ha.
    + rewrite (take_digits_app a x Ha Hx0).
      destruct (point_case x take_digits ([], x)) as [P | [t ->]]; [|destruct Hh as [_ Hh]; destruct (Hh eq_refl)].
      match goal with |- context [let '(_, _) := ?q in _] => assert (Eq : q = ([], x)) by exact P; rewrite Eq end.
      rewrite app_nil_r. destruct a as [|y a]; [destruct (Hne eq_refl)|]. rewrite Hx, (read_value (y :: a) Ha). reflexivity.
    + apply figures_digits in Hb. rewrite <- app_assoc. cbn [app].
      rewrite (take_digits_app a (46%N :: b ++ x) Ha eq_refl), (take_digits_app b x Hb Hx0).
      destruct (a ++ b) as [|y ys] eqn:Eab; [destruct (Hne eq_refl)|]. rewrite <- Eab, Hx, read_value by (apply digits_app; assumption). reflexivity.
Qed.

(* ---- words in any case ---- *)
Definition small (w : str) : Prop := Forall (fun l => (97 <= l <= 122)%N) w.
Lemma lower_letter l c : (97 <= l <= 122)%N -> (lower_ascii c = l <-> c = l \/ (c + 32 = l /\ 97 <= l <= 122)%N).
Proof.
  intros Hl. unfold lower_ascii, is_upper_ascii, in_range. destruct ((65 <=? c)%N && (c <=? 90)%N) eqn:E.
  - apply andb_true_iff in E. rewrite !N.leb_le in E. lia.
  - apply andb_false_iff in E. rewrite !N.leb_gt in E. lia.
Qed.
Lemma lower_case w s : small w -> (to_lower s = w <-> any_case w s).
Proof.
  intros H. revert s. unfold to_lower, any_case. induction H as [|l w Hl H IH]; intros [|c s]; cbn [map]; split; intros E; try reflexivity || discriminate || constructor; try (inversion E; fail).
  - apply lower_letter; [exact Hl|]. congruence.
  - apply IH. congruence.
  - inversion E; subst. f_equal; [apply lower_letter; assumption|apply IH; assumption].
Qed.
Lemma lower_prefix w s : small w -> (startswith w (to_lower s) = true <-> exists a b, s = a ++ b /\ any_case w a).
Proof.
  intros Hw. rewrite startswith_spec. unfold begins. split.
  - intros [r E]. assert (Hf : to_lower (firstn (List.length w) s) = w).
    { unfold to_lower in *. rewrite <- firstn_map, E, firstn_app, firstn_all, Nat.sub_diag. apply app_nil_r. }
    exists (firstn (List.length w) s), (skipn (List.length w) s). split; [symmetry; apply firstn_skipn|apply lower_case; assumption].
  - intros (a & b & -> & Ha). apply lower_case in Ha; [|exact Hw]. exists (to_lower b). rewrite <- Ha. apply map_app.
Qed.
Lemma any_case_length w a : any_case w a -> List.length a = List.length w.
Proof. intros H. induction H; cbn; congruence. Qed.
Ltac smalls := repeat (constructor; [vm_compute; split; discriminate|]); constructor.
Lemma small_inf : small (lit "inf"). Proof. smalls. Qed.
Lemma small_infinity : small (lit "infinity"). Proof. smalls. Qed.
Lemma small_nan : small (lit "nan"). Proof. smalls. Qed.
Lemma small_snan : small (lit "snan"). Proof. smalls. Qed.

Lemma payload_is s v : parse_payload s = Some v <-> figures s /\ v = (if N.eqb (value s) 0 then None else Some (value s)).
Proof.
  unfold parse_payload. split.
  - destruct (all_digits s) eqn:E; [|discriminate]. assert (Hd : digits s) by (apply Forall_forall; unfold all_digits in E; rewrite forallb_forall in E; exact E).
    rewrite read_value by exact Hd. intros H. split; [apply figures_digits; exact Hd|]. injection H as <-. destruct (value s); reflexivity.
  - intros [Hf ->]. apply figures_digits in Hf. rewrite (all_digits_spec s Hf), read_value by exact Hf. destruct (value s); reflexivity.
Qed.
Lemma letter_unsigned w a b : small w -> w <> [] -> any_case w a -> unsigned (a ++ b).
Proof.
  intros Hw Hn Ha. destruct Ha as [|l c w a Hc Ha]; [destruct (Hn eq_refl)|]. cbn. inversion Hw; subst. lia.
Qed.
Lemma mantissa_start m a b x : mantissa m a b -> exists c t, m ++ x = c :: t /\ (is_digit c = true \/ c = 46%N).
Proof.
  intros H. destruct H as [a Ha Hne|a b Ha Hb Hne]; apply figures_digits in Ha; (destruct a as [|c a]; [|inversion Ha; subst]).
  - destruct (Hne eq_refl).
  - exists c, (a ++ x). split; [reflexivity|left; assumption].
  - exists 46%N, (b ++ x). split; [reflexivity|right; reflexivity].
  - exists c, ((a ++ 46%N :: b) ++ x). split; [reflexivity|left; assumption].
Qed.
Lemma start_lower c : is_digit c = true \/ c = 46%N -> (lower_ascii c < 97)%N.
Proof.
  intros H. assert (Hc : (c < 60)%N) by (destruct H as [H | ->]; [apply is_digit_range in H; lia|reflexivity]).
  unfold lower_ascii, is_upper_ascii, in_range. destruct ((65 <=? c)%N && (c <=? 90)%N) eqn:E; [|lia].
  apply andb_true_iff in E. rewrite !N.leb_le in E. lia.
Qed.
Lemma not_word w c t : small w -> w <> [] -> (lower_ascii c < 97)%N -> str_eqb (to_lower (c :: t)) w = false /\ startswith w (to_lower (c :: t)) = false.
Proof.
  intros Hw Hn Hc. destruct w as [|l w]; [destruct (Hn eq_refl)|]. inversion Hw as [|? ? Hl]; subst.
  assert (E : (lower_ascii c =? l)%N = false) by (apply N.eqb_neq; lia). cbn [to_lower map]. split.
  - destruct (str_eqb (lower_ascii c :: map lower_ascii t) (l :: w)) eqn:Es; [|reflexivity]. apply str_eqb_eq in Es. injection Es as Es _. lia.
  - cbn [startswith]. rewrite N.eqb_sym, E. reflexivity.
Qed.

Lemma parse_dec_is s d : parse_dec_ascii s = Some d <-> spells (no_underscores (strip s)) d.
Proof.
  unfold parse_dec_ascii. change (remove_char 95 (strip s)) with (no_underscores (strip s)). generalize (no_underscores (strip s)) as t. intros t. split.
  - destruct (take_sign t) as [neg r] eqn:E1. destruct (take_sign_is _ _ _ E1) as (sg & Hs & ->).
    destruct (str_eqb (to_lower r) (lit "inf") || str_eqb (to_lower r) (lit "infinity")) eqn:E2.
    { intros H. injection H as <-. apply spells_infinite; [exact Hs|]. apply orb_true_iff in E2.
      destruct E2 as [E2|E2]; apply str_eqb_eq in E2; apply lower_case in E2; auto using small_inf, small_infinity. }
    destruct (startswith (lit "nan") (to_lower r)) eqn:E3.
    { apply (lower_prefix _ _ small_nan) in E3. destruct E3 as (a & b & -> & Ha). pose proof (any_case_length _ _ Ha) as La.
      assert (Eb : skipn 3 (a ++ b) = b) by (change 3 with (List.length (lit "nan")); rewrite <- La, skipn_app, skipn_all, Nat.sub_diag; reflexivity).
      rewrite Eb. intros H. destruct (parse_payload b) as [v|] eqn:E4; [|discriminate]. injection H as <-.
      apply payload_is in E4. destruct E4 as [Hf ->]. apply spells_nan; assumption. }
    destruct (startswith (lit "snan") (to_lower r)) eqn:E4.
    { apply (lower_prefix _ _ small_snan) in E4. destruct E4 as (a & b & -> & Ha). pose proof (any_case_length _ _ Ha) as La.
      assert (Eb : skipn 4 (a ++ b) = b) by (change 4 with (List.length (lit "snan")); rewrite <- La, skipn_app, skipn_all, Nat.sub_diag; reflexivity).
      rewrite Eb. intros H. destruct (parse_payload b) as [v|] eqn:E5; [|discriminate]. injection H as <-.
      apply payload_is in E5. destruct E5 as [Hf ->]. apply spells_snan; assumption. }
    intros H. destruct (parse_fin r) as [[c e]|] eqn:E5; [|discriminate]. injection H as <-.
    apply parse_fin_is in E5. destruct E5 as (m & a & b & x & e0 & -> & Hm & Hx & -> & ->). cbn [fst snd]. apply spells_finite; assumption.
  - intros H. destruct H as [sg neg m a b x e Hs Hm Hx|sg neg w Hs Hw|sg neg w ds Hs Hw Hd|sg neg w ds Hs Hw Hd].
    + destruct (mantissa_start m a b x Hm) as (c & t' & E & Hc). pose proof (start_lower c Hc) as Hl.
      assert (Hu : unsigned (m ++ x)) by (rewrite E; destruct Hc as [Hc | ->]; [apply figure_unsigned; exact Hc|split; discriminate]).
      rewrite (take_sign_of sg neg (m ++ x) Hs Hu).
      assert (Ef : parse_fin (m ++ x) = Some (value (a ++ b), (e - Z.of_nat (List.length b))%Z)) by (apply parse_fin_is; exists m, a, b, x, e; auto).
      rewrite Ef. rewrite E.
      rewrite (proj1 (not_word (lit "inf") c t' small_inf ltac:(discriminate) Hl)), (proj1 (not_word (lit "infinity") c t' small_infinity ltac:(discriminate) Hl)),
        (proj2 (not_word (lit "nan") c t' small_nan ltac:(discriminate) Hl)), (proj2 (not_word (lit "snan") c t' small_snan ltac:(discriminate) Hl)).
      reflexivity.
    + assert (Hu : unsigned w).
      { destruct Hw as [Hw|Hw]; [pose proof (letter_unsigned _ _ [] small_inf ltac:(discriminate) Hw) as Q|pose proof (letter_unsigned _ _ [] small_infinity ltac:(discriminate) Hw) as Q]; rewrite app_nil_r in Q; exact Q. }
      rewrite (take_sign_of sg neg w Hs Hu).
      destruct Hw as [Hw|Hw]; apply lower_case in Hw; auto using small_inf, small_infinity; rewrite Hw; reflexivity.
    + rewrite (take_sign_of sg neg (w ++ ds) Hs) by (apply (letter_unsigned (lit "nan")); [exact small_nan|discriminate|exact Hw]).
      assert (Ep : startswith (lit "nan") (to_lower (w ++ ds)) = true) by (apply lower_prefix; [exact small_nan|exists w, ds; auto]).
      pose proof (any_case_length _ _ Hw) as Lw. apply (lower_case _ _ small_nan) in Hw.
      assert (En : str_eqb (to_lower (w ++ ds)) (lit "inf") = false /\ str_eqb (to_lower (w ++ ds)) (lit "infinity") = false).
      { unfold to_lower in *. rewrite map_app, Hw. split; reflexivity. }
      destruct En as [-> ->]. cbn [orb]. rewrite Ep.
      assert (Eb : skipn 3 (w ++ ds) = ds) by (change 3 with (List.length (lit "nan")); rewrite <- Lw, skipn_app, skipn_all, Nat.sub_diag; reflexivity).
      rewrite Eb, (proj2 (payload_is ds _) (conj Hd eq_refl)). reflexivity.
    + rewrite (take_sign_of sg neg (w ++ ds) Hs) by (apply (letter_unsigned (lit "snan")); [exact small_snan|discriminate|exact Hw]).
      assert (Ep : startswith (lit "snan") (to_lower (w ++ ds)) = true) by (apply lower_prefix; [exact small_snan|exists w, ds; auto]).
      pose proof (any_case_length _ _ Hw) as Lw. apply (lower_case _ _ small_snan) in Hw.
      assert (En : str_eqb (to_lower (w ++ ds)) (lit "inf") = false /\ str_eqb (to_lower (w ++ ds)) (lit "infinity") = false /\ startswith (lit "nan") (to_lower (w ++ ds)) = false).
      { unfold to_lower in *. rewrite map_app, Hw. repeat split; reflexivity. }
      destruct En as (-> & -> & ->). cbn [orb]. rewrite Ep.
      assert (Eb : skipn 4 (w ++ ds) = ds) by (change 4 with (List.length (lit "snan")); rewrite <- Lw, skipn_app, skipn_all, Nat.sub_diag; reflexivity).
      rewrite Eb, (proj2 (payload_is ds _) (conj Hd eq_refl)). reflexivity.
Qed.

(* ---- underscores ---- *)
Lemma is_digit_figure c : is_digit c = true <-> figure c.
Proof. unfold is_digit, in_range, figure. rewrite andb_true_iff, !N.leb_le. reflexivity. Qed.
Lemma underscores_is p s : underscores_ok p s = true <->
  forall a b, s = a ++ 95%N :: b -> ((a = [] /\ p = true) \/ exists a' c, a = a' ++ [c] /\ figure c) /\ (exists c b', b = c :: b' /\ figure c).
Proof.
  revert p. induction s as [|c s IH]; intros p; cbn [underscores_ok].
  - split; [|reflexivity]. intros _ a b E. destruct a; discriminate.
  - destruct (N.eqb c 95) eqn:Ec.
    + apply N.eqb_eq in Ec. subst c. rewrite !andb_true_iff, IH. split.
      * intros [[-> Hn] H] a b E. destruct a as [|x a]; [injection E as ->|injection E as <- ->].
        -- split; [left; auto|]. destruct b as [|d b]; [discriminate|]. exists d, b. split; [reflexivity|apply is_digit_figure; exact Hn].
        -- destruct (H a b eq_refl) as [[[-> Hf]|(a' & d & -> & Hd)] Hb]; [discriminate|].
           split; [right; exists (95%N :: a'), d; auto|exact Hb].
      * intros H. destruct (H [] s eq_refl) as [[[_ ->]|(a' & d & E & _)] (d' & b' & -> & Hd)]; [|destruct a'; discriminate].
        split; [split; [reflexivity|apply is_digit_figure; exact Hd]|].
        intros a b E. destruct (H (95%N :: a) b (f_equal (cons 95%N) E)) as [[[Q _]|(a' & d & Ea & Hd')] Hb]; [discriminate|].
        split; [|exact Hb]. right. destruct a' as [|y a']; [injection Ea as <- _; exfalso; unfold figure in Hd'; lia|injection Ea as <- ->]. exists a', d. auto.
    + rewrite IH. apply N.eqb_neq in Ec. split.
      * intros H a b E. destruct a as [|x a]; [injection E as Q _; destruct (Ec Q)|injection E as <- ->].
        destruct (H a b eq_refl) as [[[-> Hf]|(a' & d & -> & Hd)] Hb]; split; try exact Hb; right.
        -- exists [], c. split; [reflexivity|apply is_digit_figure; exact Hf].
        -- exists (c :: a'), d. auto.
      * intros H a b E. destruct (H (c :: a) b (f_equal (cons c) E)) as [[[Q _]|(a' & d & Ea & Hd)] Hb]; [discriminate|]. split; [|exact Hb].
        destruct a' as [|y a']; [injection Ea as -> ->; left; split; [reflexivity|apply is_digit_figure; exact Hd]|injection Ea as <- ->; right; exists a', d; auto].
Qed.
Lemma between_is s : underscores_ok false s = true <-> between_figures s.
Proof.
  rewrite underscores_is. unfold between_figures. split; intros H a b E; destruct (H a b E) as [Ha Hb]; (split; [|exact Hb]); [|right; exact Ha].
  destruct Ha as [[_ Q]|Ha]; [discriminate|exact Ha].
Qed.
Lemma between_head c r : between_figures (c :: r) -> no_underscores (c :: r) = c :: no_underscores r.
Proof.
  intros H. unfold no_underscores. cbn [filter]. destruct (N.eqb c 95) eqn:E; [|reflexivity]. apply N.eqb_eq in E. subst c.
  destruct (H [] r eq_refl) as [(a' & c & Q & _) _]. destruct a'; discriminate.
Qed.

Lemma parse_int_is s z : parse_int_ascii s = Some z <-> spells_whole (strip s) z.
Proof.
  unfold parse_int_ascii. generalize (strip s) as t. intros t. split.
  - destruct (take_sign t) as [neg r] eqn:E1. destruct (take_sign_is _ _ _ E1) as (sg & Hs & ->).
    destruct (underscores_ok false r) eqn:Eu; [|discriminate]. apply between_is in Eu.
    change (remove_char 95 r) with (no_underscores r). intros H.
    assert (Hn : no_underscores r <> []) by (intros Q; rewrite Q in H; discriminate).
    destruct (all_digits (no_underscores r)) eqn:Ea; [|destruct (no_underscores r); discriminate].
    assert (Hd : digits (no_underscores r)) by (apply Forall_forall; unfold all_digits in Ea; rewrite forallb_forall in Ea; exact Ea).
    destruct (no_underscores r) as [|c d] eqn:En; [destruct (Hn eq_refl)|]. injection H as <-. rewrite (signed_if neg (c :: d) Hd), <- En.
    constructor; [exact Hs|exact Eu|rewrite En; apply figures_digits; exact Hd|rewrite En; discriminate].
  - intros H. destruct H as [sg neg r Hs Hb Hf Hn]. apply figures_digits in Hf.
    assert (Hu : unsigned r).
    { destruct r as [|c r]; [exact I|]. rewrite (between_head c r Hb) in Hf. inversion Hf; subst. apply figure_unsigned. assumption. }
    rewrite (take_sign_of sg neg r Hs Hu), (proj2 (between_is r) Hb). change (remove_char 95 r) with (no_underscores r).
    rewrite (all_digits_spec _ Hf), (signed_if neg _ Hf). destruct (no_underscores r); [destruct (Hn eq_refl)|reflexivity].
Qed.
Lemma float_is s : float_ok_ascii s = true <-> spells_float (strip s).
Proof.
  unfold float_ok_ascii. generalize (strip s) as t. intros t. split.
  - destruct (take_sign t) as [neg r] eqn:E1. destruct (take_sign_is _ _ _ E1) as (sg & Hs & ->).
    destruct (str_eqb (to_lower r) (lit "inf") || str_eqb (to_lower r) (lit "infinity") || str_eqb (to_lower r) (lit "nan")) eqn:E2.
    + intros _. apply (spells_word sg neg); [exact Hs|]. rewrite !orb_true_iff, !str_eqb_eq in E2.
      destruct E2 as [[E2|E2]|E2]; apply lower_case in E2; auto using small_inf, small_infinity, small_nan.
    + change (remove_char 95 r) with (no_underscores r). intros H. apply andb_true_iff in H. destruct H as [Hu Hp]. apply between_is in Hu.
      destruct (parse_fin (no_underscores r)) as [[c e]|] eqn:Ep; [|discriminate]. apply parse_fin_is in Ep.
      destruct Ep as (m & a & b & x & e0 & E & Hm & Hx & _ & _). apply (spells_number sg neg r m a b x e0); assumption.
  - intros H. destruct H as [sg neg w Hs Hw|sg neg r m a b x e Hs Hb E Hm Hx].
    + assert (Hu : unsigned w).
      { rewrite <- (app_nil_r w). destruct Hw as [Hw|[Hw|Hw]];
        [apply (letter_unsigned (lit "inf"))|apply (letter_unsigned (lit "infinity"))|apply (letter_unsigned (lit "nan"))];
        auto using small_inf, small_infinity, small_nan; discriminate. }
      rewrite (take_sign_of sg neg w Hs Hu).
      destruct Hw as [Hw|[Hw|Hw]]; apply lower_case in Hw; auto using small_inf, small_infinity, small_nan; rewrite Hw; reflexivity.
    + destruct (mantissa_start m a b x Hm) as (c & t' & E' & Hc). rewrite <- E in E'.
      assert (Hu : unsigned r).
      { destruct r as [|y r]; [exact I|]. rewrite (between_head y r Hb) in E'. injection E' as -> _.
        destruct Hc as [Hc | ->]; [apply figure_unsigned; exact Hc|split; discriminate]. }
      rewrite (take_sign_of sg neg r Hs Hu), (proj2 (between_is r) Hb). change (remove_char 95 r) with (no_underscores r).
      assert (Ef : parse_fin (m ++ x) = Some (value (a ++ b), (e - Z.of_nat (List.length b))%Z)) by (apply parse_fin_is; exists m, a, b, x, e; auto).
      rewrite E, Ef. destruct (_ || _); reflexivity.
Qed.

Lemma plain_ascii u s : plain s -> to_ascii_num u s = s.
Proof.
  intros H. apply to_ascii_id. unfold plain in H. revert H. apply Forall_impl. intros c Hc. unfold is_ascii. apply N.ltb_lt. exact Hc.
Qed.
Lemma decimal_is u s d : plain s -> (py_decimal u s = Some d <-> exists core, is_core s core /\ spells (no_underscores core) d).
Proof.
  intros Hp. unfold py_decimal. rewrite (plain_ascii u s Hp), parse_dec_is. split.
  - intros H. exists (strip s). split; [apply strip_core|exact H].
  - intros (core & Hc & H). rewrite (strip_of_core _ _ Hc). exact H.
Qed.
Lemma whole_is u s z : plain s -> (py_int u s = Some z <-> exists core, is_core s core /\ spells_whole core z).
Proof.
  intros Hp. unfold py_int. rewrite (plain_ascii u s Hp), parse_int_is. split.
  - intros H. exists (strip s). split; [apply strip_core|exact H].
  - intros (core & Hc & H). rewrite (strip_of_core _ _ Hc). exact H.
Qed.
