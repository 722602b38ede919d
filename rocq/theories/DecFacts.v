(* Decimal and integer texts read back exactly (C21). *)
From Coq Require Import NArith ZArith List Bool String Arith Lia Decimal.
From Coq Require DecimalN.
From Verif Require Import PyStr PyDec PyVal Spec StrFacts.
Import ListNotations.

Definition digits (s : str) : Prop := Forall (fun c => is_digit c = true) s.

Lemma uint_chars_digits u : digits (uint_chars u).
Proof. induction u; cbn; constructor; auto. Qed.
Lemma chars_uint_chars u : chars_uint (uint_chars u) = u.
Proof. induction u; cbn; congruence. Qed.
Lemma read_show_N n : read_N (show_N n) = n.
Proof. unfold read_N, show_N. rewrite chars_uint_chars. apply DecimalN.Unsigned.of_to. Qed.
Lemma show_N_digits n : digits (show_N n).
Proof. apply uint_chars_digits. Qed.
Lemma show_N_nonempty n : show_N n <> [].
Proof.
  intros H. pose proof (read_show_N n) as E. rewrite H in E. cbn in E. subst n. vm_compute in H. discriminate.
Qed.
Lemma show_N_cons n : exists c r, show_N n = c :: r /\ is_digit c = true /\ digits r.
Proof.
  destruct (show_N n) as [|c r] eqn:E; [destruct (show_N_nonempty n E)|].
  pose proof (show_N_digits n) as H. rewrite E in H. inversion H; subst. exists c, r; auto.
Qed.
Lemma digits_app a b : digits a -> digits b -> digits (a ++ b).
Proof. intros; apply Forall_app; split; assumption. Qed.
Lemma digits_repeat0 n : digits (repeat 48%N n).
Proof. induction n; constructor; auto. Qed.
Lemma digits_firstn n s : digits s -> digits (firstn n s).
Proof. intros H; revert n; induction H; intros [|n]; constructor; auto. apply IHForall. Qed.
Lemma digits_skipn n s : digits s -> digits (skipn n s).
Proof. intros H; revert n; induction H; intros [|n]; cbn; auto; constructor; auto. Qed.
Lemma read_N_zeros n s : read_N (repeat 48%N n ++ s) = read_N s.
Proof. induction n as [|n IH]; [reflexivity|]. exact IH. Qed.

Lemma take_digits_app a b :
  digits a -> match b with [] => True | c :: _ => is_digit c = false end ->
  take_digits (a ++ b) = (a, b).
Proof.
  intros Ha Hb. induction Ha as [|c a Hc Ha IH]; cbn.
  - destruct b as [|c b]; [reflexivity|]. cbn. rewrite Hb. reflexivity.
  - rewrite Hc, IH. reflexivity.
Qed.
Lemma take_digits_all a : digits a -> take_digits a = (a, []).
Proof. intros H. rewrite <- (app_nil_r a) at 1. apply take_digits_app; auto. Qed.

Lemma is_digit_range c : is_digit c = true -> (48 <= c /\ c <= 57)%N.
Proof. unfold is_digit, in_range. rewrite andb_true_iff, !N.leb_le. auto. Qed.
Lemma digit_sign c r : is_digit c = true -> take_sign (c :: r) = (false, c :: r).
Proof.
  intros H. apply is_digit_range in H. unfold take_sign.
  destruct c as [|p]; [lia|].
  do 6 (destruct p as [p|p|]; try reflexivity; try lia).
Qed.

Lemma show_Z_signed_parse e :
  parse_exp (69%N :: show_Z_signed e) = Some e.
Proof.
  unfold parse_exp. change (N.eqb (lower_ascii 69) 101) with true. cbv iota.
  destruct e as [|p|p]; unfold show_Z_signed, show_Z.
  - vm_compute. reflexivity.
  - change (take_sign (43%N :: show_N (N.pos p))) with (false, show_N (N.pos p)). cbv iota beta.
    rewrite take_digits_all by apply show_N_digits.
    destruct (show_N_cons (N.pos p)) as [c [r [E _]]]. rewrite E. rewrite <- E. rewrite read_show_N. reflexivity.
  - change (take_sign (c_minus :: show_N (N.pos p))) with (true, show_N (N.pos p)). cbv iota beta.
    rewrite take_digits_all by apply show_N_digits.
    destruct (show_N_cons (N.pos p)) as [c [r [E _]]]. rewrite E. rewrite <- E. rewrite read_show_N. reflexivity.
Qed.

(* digits, fraction and exponent parts *)
Definition exp_text (e : option Z) : str :=
  match e with None => [] | Some z => 69%N :: show_Z_signed z end.
Definition exp_val (e : option Z) : Z := match e with None => 0%Z | Some z => z end.
Lemma parse_exp_text e : parse_exp (exp_text e) = Some (exp_val e).
Proof. destruct e; [apply show_Z_signed_parse|reflexivity]. Qed.
Lemma exp_text_head e : match exp_text e with [] => True | c :: _ => is_digit c = false end.
Proof. destruct e; [reflexivity|exact I]. Qed.

Lemma parse_fin_int a e : digits a -> a <> [] ->
  parse_fin (a ++ exp_text e) = Some (read_N a, exp_val e).
Proof.
  intros Ha Hne. unfold parse_fin. rewrite take_digits_app by (assumption || apply exp_text_head).
  replace (match exp_text e with 46%N :: r => take_digits r | _ => ([], exp_text e) end)
    with (@nil N, exp_text e) by (destruct e; reflexivity).
  rewrite app_nil_r. destruct a as [|c a]; [congruence|].
  rewrite parse_exp_text. cbn [List.length Z.of_nat]. rewrite Z.sub_0_r. reflexivity.
Qed.
Lemma parse_fin_frac a b e : digits a -> digits b -> a <> [] ->
  parse_fin (a ++ 46%N :: b ++ exp_text e)
  = Some (read_N (a ++ b), (exp_val e - Z.of_nat (List.length b))%Z).
Proof.
  intros Ha Hb Hne. unfold parse_fin. rewrite take_digits_app by (assumption || reflexivity).
  cbv iota beta. rewrite take_digits_app by (assumption || apply exp_text_head).
  destruct a as [|c a]; [congruence|]. rewrite parse_exp_text. reflexivity.
Qed.

(* the finite text is one of three shapes *)
Definition fin_text (c : N) (e : Z) : str := 
  let d := show_N c in
  let len := Z.of_nat (List.length d) in
  let left := (e + len)%Z in
  if ((e <=? 0) && (-6 <? left))%Z%bool then
    if (left <=? 0)%Z then 48%N :: 46%N :: repeat 48%N (Z.to_nat (- left)) ++ d
    else if (len <=? left)%Z then d
    else firstn (Z.to_nat left) d ++ 46%N :: skipn (Z.to_nat left) d
  else
    if (len <=? 1)%Z then d ++ exp_text (Some (left - 1)%Z)
    else firstn 1 d ++ 46%N :: skipn 1 d ++ exp_text (Some (left - 1)%Z).

Lemma show_dec_fin n c e :
  show_dec (DFin n c e) = (if n then [c_minus] else []) ++ fin_text c e.
Proof.
  unfold show_dec, fin_text. cbv zeta.
  set (d := show_N c). set (len := Z.of_nat (List.length d)).
  assert (Hlen : (1 <= len)%Z).
  { subst len d. destruct (show_N_cons c) as [x [r [-> _]]]. cbn [List.length]. lia. }
  destruct ((e <=? 0) && (-6 <? e + len))%Z%bool eqn:E.
  - apply andb_prop in E. destruct E as [E1 E2]. apply Z.leb_le in E1. apply Z.ltb_lt in E2.
    rewrite Z.eqb_refl. destruct (e + len <=? 0)%Z eqn:E3.
    + cbn [app]. rewrite app_nil_r. reflexivity.
    + destruct (len <=? e + len)%Z eqn:E4.
      * apply Z.leb_le in E4. replace (e + len - len)%Z with 0%Z by lia. cbn [Z.to_nat repeat].
        rewrite !app_nil_r. reflexivity.
      * rewrite app_nil_r. reflexivity.
  - replace (1 <=? 0)%Z with false by reflexivity.
    assert (Hne : (e + len =? 1)%Z = false).
    { apply Z.eqb_neq. intros H. apply andb_false_iff in E. rewrite Z.leb_gt, Z.ltb_ge in E. lia. }
    rewrite Hne. destruct (len <=? 1)%Z eqn:E4.
    + apply Z.leb_le in E4. replace (1 - len)%Z with 0%Z by lia. cbn [Z.to_nat repeat].
      rewrite !app_nil_r. reflexivity.
    + change (Z.to_nat 1) with 1%nat. reflexivity.
Qed.

Lemma firstn_nonempty {A} n (l : list A) : (0 < n)%nat -> l <> [] -> firstn n l <> [].
Proof. destruct n; [lia|]. destruct l; [congruence|]. discriminate. Qed.

Lemma fin_text_parse c e : parse_fin (fin_text c e) = Some (c, e).
Proof.
  unfold fin_text. cbv zeta.
  pose proof (show_N_digits c) as Hd. pose proof (show_N_nonempty c) as Hne.
  pose proof (read_show_N c) as Hr.
  set (d := show_N c) in *. set (len := Z.of_nat (List.length d)).
  destruct ((e <=? 0) && (-6 <? e + len))%Z%bool eqn:E.
  - apply andb_prop in E. destruct E as [E1 E2]. apply Z.leb_le in E1. apply Z.ltb_lt in E2.
    destruct (e + len <=? 0)%Z eqn:E3.
    + apply Z.leb_le in E3.
      set (z := repeat 48%N (Z.to_nat (-(e + len))) ++ d).
      replace (48%N :: 46%N :: z) with ([48%N] ++ 46%N :: z ++ exp_text None)
        by (cbn [exp_text]; rewrite app_nil_r; reflexivity).
      rewrite parse_fin_frac; subst z.
      * change ([48%N] ++ repeat 48%N (Z.to_nat (-(e+len))) ++ d) with (repeat 48%N (S (Z.to_nat (-(e+len)))) ++ d).
        rewrite read_N_zeros, Hr, app_length, repeat_length. cbn [exp_val]. f_equal. f_equal. subst len. lia.
      * repeat constructor.
      * apply digits_app; [apply digits_repeat0|exact Hd].
      * discriminate.
    + apply Z.leb_gt in E3. destruct (len <=? e + len)%Z eqn:E4.
      * apply Z.leb_le in E4. pose proof (parse_fin_int d None Hd Hne) as P. cbn [exp_text] in P.
        rewrite app_nil_r in P. rewrite P, Hr. cbn [exp_val]. f_equal. f_equal. lia.
      * apply Z.leb_gt in E4.
        pose proof (parse_fin_frac (firstn (Z.to_nat (e+len)) d) (skipn (Z.to_nat (e+len)) d) None) as P.
        cbn [exp_text] in P. rewrite app_nil_r in P. rewrite P; auto using digits_firstn, digits_skipn.
        -- rewrite firstn_skipn, Hr, skipn_length. cbn [exp_val]. f_equal. f_equal. subst len. lia.
        -- apply firstn_nonempty; [lia|exact Hne].
  - destruct (len <=? 1)%Z eqn:E4.
    + apply Z.leb_le in E4. rewrite parse_fin_int by assumption. rewrite Hr. cbn [exp_val]. f_equal. f_equal.
      assert (len <> 0)%Z by (subst len; destruct d; [congruence|cbn; lia]). lia.
    + apply Z.leb_gt in E4. rewrite parse_fin_frac; auto using digits_firstn, digits_skipn.
      * rewrite firstn_skipn, Hr, skipn_length. cbn [exp_val]. f_equal. f_equal. subst len. lia.
      * apply firstn_nonempty; [lia|exact Hne].
Qed.

Lemma fin_text_head c e : exists x r, fin_text c e = x :: r /\ is_digit x = true.
Proof.
  unfold fin_text. cbv zeta. destruct (show_N_cons c) as [x [r [E [Hx Hr]]]]. rewrite E.
  repeat match goal with |- context [if ?b then _ else _] => destruct b eqn:? end;
    try (eexists; eexists; split; [reflexivity|reflexivity || exact Hx]).
  apply Z.leb_gt in Heqb0.
  destruct (Z.to_nat (e + Z.of_nat (List.length (x :: r)))) eqn:En; [lia|].
  eexists; eexists; split; [reflexivity|exact Hx].
Qed.

(* characters occurring in number texts *)
Definition numc (c : N) : bool := mem_char c (lit "0123456789+-.EInfityNas").
Lemma numc_digit c : is_digit c = true -> numc c = true.
Proof.
  intros H. apply is_digit_range in H. unfold numc, mem_char. apply existsb_exists. exists c. split; [|apply N.eqb_refl].
  assert (c = 48 \/ c = 49 \/ c = 50 \/ c = 51 \/ c = 52 \/ c = 53 \/ c = 54 \/ c = 55 \/ c = 56 \/ c = 57)%N by lia.
  cbn. repeat match goal with H : _ \/ _ |- _ => destruct H as [->|H] end; try subst; tauto.
Qed.
Definition numtext (s : str) : Prop := Forall (fun c => numc c = true) s.
Lemma numtext_app a b : numtext a -> numtext b -> numtext (a ++ b).
Proof. intros; apply Forall_app; split; assumption. Qed.
Lemma numtext_digits s : digits s -> numtext s.
Proof. induction 1; constructor; auto using numc_digit. Qed.
Lemma numtext_show_N n : numtext (show_N n).
Proof. apply numtext_digits, show_N_digits. Qed.
Lemma numtext_exp e : numtext (exp_text e).
Proof.
  destruct e as [z|]; [|constructor]. constructor; [reflexivity|].
  destruct z; cbn [show_Z_signed show_Z]; constructor; try reflexivity; apply numtext_show_N.
Qed.
Lemma numtext_fin c e : numtext (fin_text c e).
Proof.
  unfold fin_text. cbv zeta. pose proof (show_N_digits c) as Hd.
  repeat match goal with |- context [if ?b then _ else _] => destruct b end;
    repeat (first [ apply numtext_app | apply numtext_exp
                  | apply numtext_digits; solve [auto using digits_firstn, digits_skipn, digits_repeat0]
                  | constructor; [reflexivity|] ]).
Qed.
Lemma numtext_show_dec d : numtext (show_dec d).
Proof.
  destruct d as [n c e|n|n s p].
  - rewrite show_dec_fin. apply numtext_app; [destruct n; repeat constructor|apply numtext_fin].
  - unfold show_dec. apply numtext_app; [destruct n; repeat constructor|repeat constructor].
  - unfold show_dec. apply numtext_app; [destruct n; repeat constructor|].
    apply numtext_app; [destruct s; repeat constructor|]. destruct p; [apply numtext_show_N|constructor].
Qed.
Lemma numtext_show_Z z : numtext (show_Z z).
Proof.
  destruct z; unfold show_Z; [apply numtext_show_N|apply numtext_show_N|].
  constructor; [reflexivity|apply numtext_show_N].
Qed.

Lemma numc_cases c : numc c = true -> In c (lit "0123456789+-.EInfityNas").
Proof. unfold numc, mem_char. intros H. apply existsb_exists in H. destruct H as [x [Hx E]]. apply N.eqb_eq in E. congruence. Qed.
Lemma numtext_forall (P : N -> bool) s :
  forallb P (lit "0123456789+-.EInfityNas") = true -> numtext s -> Forall (fun c => P c = true) s.
Proof.
  intros HP H. rewrite forallb_forall in HP. eapply Forall_impl; [|exact H].
  intros c Hc. apply HP, numc_cases, Hc.
Qed.
Lemma numtext_no_char c s : numc c = false -> numtext s -> no_char c s.
Proof. intros Hc H Hin. unfold numtext in H. rewrite Forall_forall in H. apply H in Hin. congruence. Qed.
Lemma numtext_no_ws s c : numtext s -> In c s -> is_ws c = false.
Proof.
  intros H Hin. pose proof (numtext_forall (fun c => negb (is_ws c)) s eq_refl H) as F.
  rewrite Forall_forall in F. apply F in Hin. apply negb_true_iff in Hin. exact Hin.
Qed.
Lemma numtext_trimmed s : numtext s -> trimmed s.
Proof.
  intros H; split; intros c r E; subst s; eapply numtext_no_ws; try exact H.
  - left; reflexivity.
  - apply in_or_app; right; left; reflexivity.
Qed.
Lemma numtext_ascii s : numtext s -> Forall (fun c => is_ascii c = true) s.
Proof. apply numtext_forall. reflexivity. Qed.
Lemma to_ascii_id u s : Forall (fun c => is_ascii c = true) s -> to_ascii_num u s = s.
Proof. unfold to_ascii_num. induction 1 as [|c s Hc Hs IH]; [reflexivity|]. cbn [map]. rewrite Hc, IH. reflexivity. Qed.

(* a decimal as python represents it: no zero NaN payload *)
Definition canonical (d : dec) : Prop :=
  match d with DNaN _ _ (Some N0) => False | _ => True end.

Lemma digit_lower_head c r p : is_digit c = true ->
  match p with [] => True | a :: _ => is_digit (lower_ascii a) = false /\ lower_ascii a = a end ->
  p <> [] -> startswith p (to_lower (c :: r)) = false.
Proof.
  intros Hc Hp Hne. destruct p as [|a p]; [congruence|]. destruct Hp as [Ha1 Ha2]. cbn.
  assert (E : lower_ascii c = c).
  { apply is_digit_range in Hc. unfold lower_ascii, is_upper_ascii, in_range.
    replace (65 <=? c)%N with false by (symmetry; apply N.leb_gt; lia). reflexivity. }
  rewrite E. destruct (N.eqb_spec a c) as [->|]; [|reflexivity]. rewrite Ha2 in Ha1. congruence.
Qed.

Lemma all_digits_spec s : digits s -> all_digits s = true.
Proof. intros H. unfold all_digits. apply forallb_forall. rewrite <- Forall_forall. exact H. Qed.

Lemma parse_dec_show d : canonical d -> parse_dec_ascii (show_dec d) = Some d.
Proof.
  intros Hc. unfold parse_dec_ascii.
  pose proof (numtext_show_dec d) as Hn.
  rewrite strip_trimmed by (apply numtext_trimmed; exact Hn).
  rewrite remove_char_no by (apply numtext_no_char; [reflexivity|exact Hn]).
  destruct d as [n c e|n|n s p].
  - rewrite show_dec_fin. clear Hn.
    destruct (fin_text_head c e) as [x [r [E Hx]]].
    assert (T : take_sign ((if n then [c_minus] else []) ++ fin_text c e) = (n, fin_text c e)).
    { destruct n; [reflexivity|]. cbn [app]. rewrite E. apply digit_sign. exact Hx. }
    rewrite T. pose proof (fin_text_parse c e) as P. rewrite E in *.
    assert (X : forall q, match q with [] => True | a :: _ => is_digit (lower_ascii a) = false /\ lower_ascii a = a end ->
              q <> [] -> str_eqb (to_lower (x :: r)) q = false).
    { intros q Hq Hq'. apply str_eqb_neq. intros Eq. pose proof (digit_lower_head x r q Hx Hq Hq') as D.
      apply startswith_false in D. apply D. exists []. rewrite app_nil_r. exact Eq. }
    rewrite !X by (cbn; auto; discriminate). cbn [orb].
    rewrite !digit_lower_head by (cbn; auto; discriminate). rewrite P. reflexivity.
  - destruct n; reflexivity.
  - unfold show_dec.
    assert (PP : parse_payload (match p with None => [] | Some v => show_N v end) = Some p).
    { destruct p as [v|]; [|reflexivity]. unfold parse_payload.
      rewrite (all_digits_spec _ (show_N_digits v)), read_show_N. destruct v; [destruct Hc|reflexivity]. }
    assert (T : forall r, take_sign ((if n then [c_minus] else []) ++ (if s then lit "sNaN" else lit "NaN") ++ r)
                          = (n, (if s then lit "sNaN" else lit "NaN") ++ r))
      by (intros r; destruct n, s; reflexivity).
    rewrite T. clear T Hn.
    assert (I : forall r, str_eqb (to_lower ((if s then lit "sNaN" else lit "NaN") ++ r)) (lit "inf")
                || str_eqb (to_lower ((if s then lit "sNaN" else lit "NaN") ++ r)) (lit "infinity") = false)
      by (intros r; apply orb_false_iff; split; apply str_eqb_neq; destruct s; intros Eq; discriminate Eq).
    cbv zeta. rewrite I. destruct s.
    + transitivity (option_map (DNaN n true) (Some p)); [rewrite <- PP; reflexivity|reflexivity].
    + transitivity (option_map (DNaN n false) (Some p)); [rewrite <- PP; reflexivity|reflexivity].
Qed.

Lemma py_decimal_show u d : canonical d -> py_decimal u (show_dec d) = Some d.
Proof.
  intros H. unfold py_decimal. rewrite to_ascii_id by (apply numtext_ascii, numtext_show_dec).
  apply parse_dec_show; exact H.
Qed.

Lemma underscores_digits b s : digits s -> underscores_ok b s = true.
Proof.
  intros H; revert b; induction H as [|c s Hc Hs IH]; intros b; [reflexivity|].
  cbn. destruct (N.eqb_spec c 95) as [->|]; [discriminate|]. apply IH.
Qed.
Lemma digits_numtext_no95 s : digits s -> remove_char 95 s = s.
Proof. intros H. apply remove_char_no. apply numtext_no_char; [reflexivity|]. apply numtext_digits, H. Qed.

Lemma py_int_show u z : py_int u (show_Z z) = Some z.
Proof.
  unfold py_int. rewrite to_ascii_id by (apply numtext_ascii, numtext_show_Z).
  unfold parse_int_ascii. rewrite strip_trimmed by (apply numtext_trimmed, numtext_show_Z).
  assert (X : forall n, exists c r, show_N n = c :: r /\ take_sign (c :: r) = (false, c :: r) /\
              underscores_ok false (c :: r) = true /\ remove_char 95 (c :: r) = c :: r /\
              all_digits (c :: r) = true /\ read_N (c :: r) = n).
  { intros n. destruct (show_N_cons n) as [c [r [E [Hc Hr]]]]. exists c, r. split; [exact E|].
    pose proof (show_N_digits n) as Hd. rewrite E in Hd.
    split; [apply digit_sign; exact Hc|]. split; [apply underscores_digits; exact Hd|].
    split; [apply digits_numtext_no95; exact Hd|]. split; [apply all_digits_spec; exact Hd|].
    rewrite <- E. apply read_show_N. }
  destruct z as [|p|p].
  - reflexivity.
  - cbn [show_Z]. destruct (X (N.pos p)) as [c [r [E [H1 [H2 [H3 [H4 H5]]]]]]].
    rewrite E, H1, H2, H3, H4, H5. reflexivity.
  - cbn [show_Z]. destruct (X (N.pos p)) as [c [r [E [H1 [H2 [H3 [H4 H5]]]]]]].
    change (take_sign (c_minus :: show_N (N.pos p))) with (true, show_N (N.pos p)). cbv iota beta.
    rewrite E, H2, H3, H4, H5. reflexivity.
Qed.
