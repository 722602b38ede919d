(* Texts that are not numbers or members of an enumeration are kept as they are. *)
From Coq Require Import NArith ZArith List Bool String Arith Lia.
From Verif Require Import PyStr PyDec PyVal Schema XmlBind Spec SpecKvn SpecObj StrFacts DecFacts.
Import ListNotations.
Local Open Scope list_scope.

(* the characters of a text that a number parser accepts *)
Definition numchar (c : N) : bool := is_ws c || existsb (N.eqb c) number_chars.
Lemma numchar_digit c : is_digit c = true -> numchar c = true.
Proof.
  intros H. apply is_digit_range in H. unfold numchar. apply orb_true_iff. right. apply existsb_exists.
  exists c. split; [|apply N.eqb_refl].
  assert (X : (c = 48 \/ c = 49 \/ c = 50 \/ c = 51 \/ c = 52 \/ c = 53 \/ c = 54 \/ c = 55 \/ c = 56 \/ c = 57)%N) by lia.
  vm_compute. repeat (destruct X as [->|X]; [tauto|]). subst. tauto.
Qed.
Lemma take_digits_split s d r : take_digits s = (d, r) -> s = d ++ r /\ digits d.
Proof.
  revert d r. induction s as [|c s IH]; intros d r H; cbn in H; [injection H as <- <-; split; [reflexivity|constructor]|].
  destruct (is_digit c) eqn:E.
  - destruct (take_digits s) as [d0 r0]. injection H as <- <-. destruct (IH _ _ eq_refl) as [-> D]. split; [reflexivity|constructor; assumption].
  - injection H as <- <-. split; [reflexivity|constructor].
Qed.
Notation numeric s := (Forall (fun c => numchar c = true) s).
Lemma digits_numeric d : digits d -> numeric d.
Proof. intros H. eapply Forall_impl; [|exact H]. intros c. apply numchar_digit. Qed.
Lemma take_sign_split s g r : take_sign s = (g, r) -> numeric r -> numeric s.
Proof.
  intros H N. assert (X : s = r \/ s = 45%N :: r \/ s = 43%N :: r).
  { unfold take_sign in H. destruct s as [|c s]; [injection H as _ <-; auto|].
    destruct (N.eq_dec c 45) as [->|N1]; [injection H as _ <-; auto|]. destruct (N.eq_dec c 43) as [->|N2]; [injection H as _ <-; auto|].
    assert (Y : (false, c :: s) = (g, r)) by (rewrite <- H; destruct c as [|p]; [reflexivity|]; do 6 (destruct p as [p|p|]; try reflexivity; try congruence)).
    injection Y as _ <-. auto. }
  destruct X as [->|[->| ->]]; [exact N|constructor; [reflexivity|exact N]|constructor; [reflexivity|exact N]].
Qed.
Lemma parse_exp_numeric s e : parse_exp s = Some e -> numeric s.
Proof.
  destruct s as [|c s]; [constructor|]. unfold parse_exp. destruct (N.eqb (lower_ascii c) 101) eqn:E; [|discriminate].
  destruct (take_sign s) as [g r] eqn:Es. destruct (take_digits r) as [d r2] eqn:Ed. destruct d as [|d0 d]; [discriminate|].
  destruct r2; [|discriminate]. intros _. apply take_digits_split in Ed. destruct Ed as [-> D]. rewrite app_nil_r in Es. constructor.
  - apply N.eqb_eq in E. unfold lower_ascii, is_upper_ascii, in_range in E. destruct (N.leb 65 c && N.leb c 90)%bool.
    + assert (c = 69%N) by lia. subst. reflexivity.
    + subst. reflexivity.
  - apply (take_sign_split _ _ _ Es). apply digits_numeric. exact D.
Qed.
Lemma parse_fin_numeric s p : parse_fin s = Some p -> numeric s.
Proof.
  unfold parse_fin. destruct (take_digits s) as [d1 r1] eqn:E1. apply take_digits_split in E1. destruct E1 as [-> D1].
  assert (X : forall d2 r2, match r1 with 46%N :: r => take_digits r | _ => ([], r1) end = (d2, r2) -> numeric r2 -> numeric r1).
  { intros d2 r2 H N. destruct r1 as [|c r1]; [constructor|]. destruct (N.eq_dec c 46) as [->|Nc].
    - apply take_digits_split in H. destruct H as [-> D]. constructor; [reflexivity|]. apply Forall_app. split; [apply digits_numeric; exact D|exact N].
    - assert (Y : ([], c :: r1) = (d2, r2)) by (rewrite <- H; destruct c as [|q]; [reflexivity|]; do 6 (destruct q as [q|q|]; try reflexivity; try congruence)).
      injection Y as _ <-. exact N. }
  destruct (match r1 with 46%N :: r => take_digits r | _ => ([], r1) end) as [d2 r2] eqn:E2. specialize (X d2 r2 eq_refl).
  destruct (d1 ++ d2); [discriminate|]. destruct (parse_exp r2) eqn:E3; [|discriminate]. intros _.
  apply Forall_app. split; [apply digits_numeric; exact D1|apply X; exact (parse_exp_numeric _ _ E3)].
Qed.
Lemma lower_numeric s t : to_lower s = t -> Forall (fun c => existsb (N.eqb c) (lit "aefinsty") = true) t -> numeric s.
Proof.
  intros <- F. unfold to_lower in F. rewrite Forall_map in F. eapply Forall_impl; [|exact F]. intros c H. cbn beta in H.
  apply existsb_exists in H. destruct H as [x [I E]]. apply N.eqb_eq in E. subst x.
  unfold numchar. apply orb_true_iff. right. apply existsb_exists. exists c. split; [|apply N.eqb_refl].
  unfold lower_ascii, is_upper_ascii, in_range in I. destruct (N.leb 65 c && N.leb c 90)%bool.
  - assert (J : In (c + 32)%N (map (fun x => x + 32)%N (lit "AEFINSTY"))) by exact I. apply in_map_iff in J. destruct J as [y [Ey J]].
    assert (y = c) by lia. subst y. vm_compute in J |- *. tauto.
  - vm_compute in I |- *. tauto.
Qed.
Lemma startswith_split p s : startswith p s = true -> s = p ++ skipn (List.length p) s.
Proof.
  revert s. induction p as [|a p IH]; intros s H; [reflexivity|]. destruct s as [|b s]; [discriminate|]. cbn in H.
  apply andb_true_iff in H. destruct H as [H1 H2]. apply N.eqb_eq in H1. subst b. cbn. rewrite <- IH by exact H2. reflexivity.
Qed.
Lemma nan_numeric p r : startswith p (to_lower r) = true -> Forall (fun c => existsb (N.eqb c) (lit "aefinsty") = true) p ->
  forall x, parse_payload (skipn (List.length p) r) = Some x -> numeric r.
Proof.
  intros S F x P. apply startswith_split in S. rewrite <- (firstn_skipn (List.length p) r). apply Forall_app. split.
  - apply (lower_numeric _ p); [|exact F]. unfold to_lower in *. rewrite <- firstn_map. rewrite S. rewrite firstn_app, Nat.sub_diag, firstn_all. cbn. apply app_nil_r.
  - unfold parse_payload in P. destruct (all_digits _) eqn:E; [|discriminate]. apply digits_numeric. apply Forall_forall. unfold all_digits in E. rewrite forallb_forall in E. exact E.
Qed.
Lemma strip_numeric s : numeric (strip s) -> numeric s.
Proof.
  intros H. destruct (strip_core s) as [w1 [w2 [E [B1 [B2 _]]]]]. rewrite E.
  assert (W : forall w, blank w -> numeric w) by (intros w B; apply Forall_forall; intros c Hc; unfold numchar; rewrite (B c Hc); reflexivity).
  apply Forall_app. split; [apply W; exact B1|]. apply Forall_app. split; [exact H|apply W; exact B2].
Qed.
Lemma remove_numeric s : numeric (remove_char 95 s) -> numeric s.
Proof.
  induction s as [|c s IH]; intros H; [constructor|]. unfold remove_char in H. cbn [filter] in H. destruct (N.eqb c 95) eqn:E.
  - apply N.eqb_eq in E. subst c. constructor; [reflexivity|apply IH; exact H].
  - cbn [negb] in H. inversion H; subst. constructor; [assumption|apply IH; assumption].
Qed.
Lemma parse_dec_numeric s d : parse_dec_ascii s = Some d -> numeric s.
Proof.
  unfold parse_dec_ascii. intros H. apply strip_numeric, remove_numeric. revert H. generalize (remove_char 95 (strip s)) as t. intros t H.
  destruct (take_sign t) as [g r] eqn:E. apply (take_sign_split _ _ _ E).
  destruct (str_eqb (to_lower r) (lit "inf") || str_eqb (to_lower r) (lit "infinity"))%bool eqn:I.
  - apply orb_true_iff in I. destruct I as [I|I]; apply str_eqb_eq in I; apply (lower_numeric _ _ I); repeat constructor.
  - destruct (startswith (lit "nan") (to_lower r)) eqn:Sn.
    + destruct (parse_payload (skipn 3 r)) eqn:P; [|discriminate]. apply (nan_numeric (lit "nan") r Sn ltac:(repeat constructor) o P).
    + destruct (startswith (lit "snan") (to_lower r)) eqn:Ss.
      * destruct (parse_payload (skipn 4 r)) eqn:P; [|discriminate]. apply (nan_numeric (lit "snan") r Ss ltac:(repeat constructor) o P).
      * destruct (parse_fin r) eqn:P; [|discriminate]. exact (parse_fin_numeric _ _ P).
Qed.
Lemma parse_int_numeric s z : parse_int_ascii s = Some z -> numeric s.
Proof.
  unfold parse_int_ascii. intros H. apply strip_numeric. destruct (take_sign (strip s)) as [g r] eqn:E. apply (take_sign_split _ _ _ E).
  destruct (underscores_ok false r); [|discriminate]. apply remove_numeric. destruct (remove_char 95 r) as [|c q] eqn:R; [discriminate|].
  destruct (all_digits (c :: q)) eqn:D; [|discriminate]. apply digits_numeric. apply Forall_forall. unfold all_digits in D. rewrite forallb_forall in D. exact D.
Qed.
Lemma not_number_ascii u s : not_number s -> ~ numeric (to_ascii_num u s).
Proof.
  intros [c [I [L [W N]]]] F. unfold to_ascii_num in F. rewrite Forall_map, Forall_forall in F. specialize (F c I).
  replace (is_ascii c) with true in F by (symmetry; apply N.ltb_lt; exact L). unfold numchar in F. rewrite W in F. cbn [orb] in F.
  apply existsb_exists in F. destruct F as [x [J E]]. apply N.eqb_eq in E. subst x. exact (N J).
Qed.
Lemma odd_decimal u s : not_number s -> py_decimal u s = None.
Proof.
  intros H. destruct (py_decimal u s) eqn:E; [|reflexivity]. exfalso. apply (not_number_ascii u s H). exact (parse_dec_numeric _ _ E).
Qed.
Lemma odd_int u s : not_number s -> py_int u s = None.
Proof.
  intros H. destruct (py_int u s) eqn:E; [|reflexivity]. exfalso. apply (not_number_ascii u s H). exact (parse_int_numeric _ _ E).
Qed.

(* the words of a text joined by single spaces are the same words *)
Definition nonblank (w : str) : Prop := w <> [] /\ Forall (fun c => is_ws c = false) w.
Lemma split_nonblank s : forall cur, Forall (fun c => is_ws c = false) cur -> Forall nonblank (split_ws_aux cur s).
Proof.
  assert (R : forall (a : N) cur, Forall (fun c => is_ws c = false) (a :: cur) -> nonblank (rev (a :: cur))).
  { intros a cur F. split; [intros X; apply (f_equal (@rev N)) in X; rewrite rev_involutive in X; discriminate|apply Forall_rev; exact F]. }
  induction s as [|c s IH]; intros cur F; cbn [split_ws_aux].
  - destruct cur as [|a cur]; constructor; [apply R; exact F|constructor].
  - destruct (is_ws c) eqn:E; [|apply IH; constructor; assumption].
    destruct cur as [|a cur]; [apply IH; constructor|]. constructor; [apply R; exact F|apply IH; constructor].
Qed.
Lemma split_through t : Forall (fun c => is_ws c = false) t -> forall cur s, split_ws_aux cur (t ++ s) = split_ws_aux (rev t ++ cur) s.
Proof. induction 1 as [|c t H _ IH]; intros cur s; [reflexivity|]. cbn [app split_ws_aux]. rewrite H, IH. cbn [rev]. rewrite <- app_assoc. reflexivity. Qed.
Lemma split_join ws : Forall nonblank ws -> split_ws (join [c_sp] ws) = ws.
Proof.
  unfold split_ws. induction 1 as [|w ws [Nw F] H IH]; [reflexivity|]. destruct ws as [|w2 ws].
  - cbn [join]. rewrite <- (app_nil_r w) at 1. rewrite (split_through w F), app_nil_r. cbn [split_ws_aux].
    destruct (rev w) eqn:E; [apply (f_equal (@rev N)) in E; rewrite rev_involutive in E; contradiction|]. rewrite <- E, rev_involutive. reflexivity.
  - change (join [c_sp] (w :: w2 :: ws)) with (w ++ c_sp :: join [c_sp] (w2 :: ws)). rewrite (split_through w F), app_nil_r. cbn [split_ws_aux].
    replace (is_ws c_sp) with true by reflexivity.
    destruct (rev w) eqn:E; [apply (f_equal (@rev N)) in E; rewrite rev_involutive in E; contradiction|]. rewrite <- E, rev_involutive, IH. reflexivity.
Qed.
Lemma odd_enum c ms s : trimmed s -> (forall m v, In (m, v) ms -> split_ws (lit v) <> split_ws s) -> conv_enum c ms s = VStr s.
Proof.
  intros T H. unfold conv_enum. rewrite (strip_trimmed s T). replace (find _ ms) with (@None (string * string)); [reflexivity|].
  symmetry. destruct (find _ ms) as [[m v]|] eqn:E; [|reflexivity]. exfalso. apply find_some in E. destruct E as [I E]. cbn [snd] in E.
  apply (H m v I). apply orb_true_iff in E. destruct E as [E|E]; apply str_eqb_eq in E; rewrite E; [reflexivity|].
  apply split_join. apply split_nonblank. constructor.
Qed.
