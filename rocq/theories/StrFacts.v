(* Facts about python strings. *)
From Coq Require Import NArith ZArith List Bool String Arith Lia.
From Verif Require Import PyStr Spec.
Import ListNotations.

Lemma blank_nil : blank [].
Proof. intros c []. Qed.
Lemma blank_cons c s : is_ws c = true -> blank s -> blank (c :: s).
Proof. intros Hc Hs x [<-|Hx]; auto. Qed.
Lemma blank_app a b : blank a -> blank b -> blank (a ++ b).
Proof. intros Ha Hb c Hc; apply in_app_or in Hc; destruct Hc; auto. Qed.
Lemma blank_inv c s : blank (c :: s) -> is_ws c = true /\ blank s.
Proof. intros H; split; [apply H; left; reflexivity | intros x Hx; apply H; right; exact Hx]. Qed.
Lemma blank_app_inv a b : blank (a ++ b) -> blank a /\ blank b.
Proof. intros H; split; intros x Hx; apply H; apply in_or_app; auto. Qed.
Lemma blank_repeat n : blank (repeat c_sp n).
Proof. intros c Hc; apply repeat_spec in Hc; subst; reflexivity. Qed.

Lemma lstrip_blank s : blank s -> lstrip s = [].
Proof.
  induction s as [|c s IH]; intros H; [reflexivity|].
  apply blank_inv in H; destruct H as [Hc Hs]; simpl; rewrite Hc; auto.
Qed.
Lemma lstrip_blank_app w s : blank w -> lstrip (w ++ s) = lstrip s.
Proof.
  induction w as [|c w IH]; intros H; [reflexivity|].
  apply blank_inv in H; destruct H as [Hc Hs]; simpl; rewrite Hc; auto.
Qed.
Lemma lstrip_nonws c s : is_ws c = false -> lstrip (c :: s) = c :: s.
Proof. intros H; simpl; rewrite H; reflexivity. Qed.
Lemma lstrip_split s : exists w, s = w ++ lstrip s /\ blank w.
Proof.
  induction s as [|c s [w [Hs Hw]]]; [exists []; split; [reflexivity|apply blank_nil]|].
  simpl; destruct (is_ws c) eqn:E.
  - exists (c :: w); split; [simpl; congruence | apply blank_cons; auto].
  - exists []; split; [reflexivity|apply blank_nil].
Qed.
Lemma lstrip_first s c r : lstrip s = c :: r -> is_ws c = false.
Proof.
  induction s as [|a s IH]; simpl; [discriminate|].
  destruct (is_ws a) eqn:E; [exact IH|]. intros H; injection H; intros; subst; exact E.
Qed.

Lemma rstrip_blank s : blank s -> rstrip s = [].
Proof.
  induction s as [|c s IH]; intros H; [reflexivity|].
  apply blank_inv in H; destruct H as [Hc Hs]; simpl; rewrite IH by exact Hs; rewrite Hc; reflexivity.
Qed.
Lemma rstrip_app_nonws s c : is_ws c = false -> rstrip (s ++ [c]) = s ++ [c].
Proof.
  intros H; induction s as [|a s IH]; simpl; [rewrite H; reflexivity|].
  rewrite IH; destruct (s ++ [c]) eqn:E; [destruct s; discriminate|reflexivity].
Qed.
Lemma rstrip_app_blank s w : blank w -> rstrip (s ++ w) = rstrip s.
Proof.
  intros H; induction s as [|a s IH]; simpl; [apply rstrip_blank; exact H|].
  rewrite IH; reflexivity.
Qed.
Lemma rstrip_split s : exists w, s = rstrip s ++ w /\ blank w.
Proof.
  induction s as [|c s [w [Hs Hw]]]; [exists []; split; [reflexivity|apply blank_nil]|].
  simpl; destruct (rstrip s) as [|d r] eqn:E.
  - destruct (is_ws c) eqn:Ec.
    + exists (c :: s); split; [reflexivity|]. apply blank_cons; [exact Ec|].
      rewrite Hs; simpl; exact Hw.
    + exists s; split; [reflexivity|]. rewrite Hs; exact Hw.
  - exists w; split; [simpl in *; congruence | exact Hw].
Qed.
Lemma rstrip_last s c r : rstrip s = r ++ [c] -> is_ws c = false.
Proof.
  revert r; induction s as [|a s IH]; simpl; intros r.
  - destruct r; discriminate.
  - destruct (rstrip s) as [|d t] eqn:E.
    + destruct (is_ws a) eqn:Ea; [destruct r; discriminate|].
      destruct r as [|x [|y r]]; simpl; intros H; inversion H; subst; auto.
    + destruct r as [|x r]; simpl; intros H; [discriminate|].
      injection H; intros H1 H2. exact (IH r H1).
Qed.
Lemma rstrip_cons_nonws c s : is_ws c = false -> rstrip (c :: s) = c :: rstrip s.
Proof. intros H; simpl; destruct (rstrip s); [rewrite H|]; reflexivity. Qed.

Lemma strip_core s : is_core s (strip s).
Proof.
  destruct (lstrip_split s) as [w1 [H1 B1]].
  destruct (rstrip_split (lstrip s)) as [w2 [H2 B2]].
  exists w1, w2; repeat split; auto.
  - unfold strip; rewrite <- H2; exact H1.
  - intros c r H. unfold strip in H. destruct (lstrip s) as [|d t] eqn:E; [discriminate|].
    pose proof (lstrip_first _ _ _ E) as Hd.
    rewrite rstrip_cons_nonws in H by exact Hd. injection H; intros; subst; exact Hd.
  - intros c r H. exact (rstrip_last _ _ _ H).
Qed.

Lemma trimmed_strip s : trimmed (strip s).
Proof. destruct (strip_core s) as [w1 [w2 [_ [_ [_ H]]]]]; exact H. Qed.

Lemma snoc_case {A} (l : list A) : l = [] \/ exists r c, l = r ++ [c].
Proof. destruct l as [|a l]; [left; reflexivity|right]. destruct (exists_last (l := a :: l)) as [r [c H]]; [discriminate|]. exists r, c; exact H. Qed.

Lemma strip_of_core s core : is_core s core -> strip s = core.
Proof.
  intros [w1 [w2 [-> [B1 [B2 [Hf Hl]]]]]].
  unfold strip. rewrite lstrip_blank_app by exact B1.
  destruct core as [|c r].
  - simpl. rewrite lstrip_blank by exact B2. reflexivity.
  - pose proof (Hf c r eq_refl) as Hc. simpl app. rewrite lstrip_nonws by exact Hc.
    change (c :: r ++ w2) with ((c :: r) ++ w2). rewrite rstrip_app_blank by exact B2.
    destruct (snoc_case (c :: r)) as [H|[t [d H]]]; [discriminate|].
    rewrite H in *. apply rstrip_app_nonws. exact (Hl d t eq_refl).
Qed.
Lemma core_unique s c1 c2 : is_core s c1 -> is_core s c2 -> c1 = c2.
Proof. intros H1 H2. apply strip_of_core in H1, H2; congruence. Qed.

Lemma strip_trimmed s : trimmed s -> strip s = s.
Proof.
  intros H; apply strip_of_core; exists [], []; rewrite app_nil_r; repeat split; auto using blank_nil; apply H.
Qed.
Lemma strip_strip s : strip (strip s) = strip s.
Proof. apply strip_trimmed, trimmed_strip. Qed.
Lemma strip_pad w1 s w2 : blank w1 -> blank w2 -> strip (w1 ++ s ++ w2) = strip s.
Proof.
  intros B1 B2. apply strip_of_core.
  destruct (strip_core s) as [a [b [Hs [Ba [Bb Ht]]]]].
  exists (w1 ++ a), (b ++ w2). split; [|auto using blank_app].
  rewrite Hs at 1. rewrite <- !app_assoc. reflexivity.
Qed.
Lemma strip_pad_l w1 s : blank w1 -> strip (w1 ++ s) = strip s.
Proof. intros B. rewrite <- (app_nil_r s) at 1. apply strip_pad; auto using blank_nil. Qed.
Lemma strip_pad_r s w : blank w -> strip (s ++ w) = strip s.
Proof. intros B. change (s ++ w) with ([] ++ s ++ w). apply strip_pad; auto using blank_nil. Qed.
Lemma trimmed_nil : trimmed [].
Proof. split; intros c r H; [discriminate|destruct r; discriminate]. Qed.
Lemma trimmed_one_or c r d : is_ws c = false -> is_ws d = false -> trimmed (c :: r ++ [d]).
Proof.
  intros Hc Hd; split; intros x t H.
  - injection H; intros; subst; exact Hc.
  - change (c :: r ++ [d]) with ((c :: r) ++ [d]) in H. apply app_inj_tail in H. destruct H; subst; exact Hd.
Qed.
Lemma trimmed_nonblank s : trimmed s -> s <> [] -> ~ blank s.
Proof. destruct s as [|c r]; [congruence|]. intros [H _] _ B. apply blank_inv in B. rewrite (H c r eq_refl) in B. destruct B; discriminate. Qed.
Lemma strip_nil_blank s : strip s = [] <-> blank s.
Proof.
  split.
  - intros H. destruct (strip_core s) as [w1 [w2 [Hs [B1 [B2 _]]]]]. rewrite H in Hs. rewrite Hs. apply blank_app; [exact B1|exact B2].
  - intros B. unfold strip. rewrite lstrip_blank by exact B. reflexivity.
Qed.
Lemma strip_cons_nonempty c s : is_ws c = false -> strip (c :: s) <> [].
Proof. intros H E. apply strip_nil_blank in E. apply blank_inv in E. rewrite H in E; destruct E; discriminate. Qed.

Lemma startswith_spec p s : startswith p s = true <-> begins p s.
Proof.
  split.
  - revert s; induction p as [|a p IH]; intros s H; [exists s; reflexivity|].
    destruct s as [|b s]; [discriminate|]. simpl in H. apply andb_prop in H; destruct H as [Ha Hr].
    apply N.eqb_eq in Ha; subst. destruct (IH _ Hr) as [r ->]. exists r; reflexivity.
  - intros [r ->]. induction p as [|a p IH]; [reflexivity|]. simpl. rewrite N.eqb_refl; exact IH.
Qed.
Lemma startswith_false p s : startswith p s = false <-> ~ begins p s.
Proof. rewrite <- startswith_spec. destruct (startswith p s); split; congruence. Qed.
Lemma endswith_spec p s : endswith p s = true <-> ends p s.
Proof.
  unfold endswith. rewrite startswith_spec. split; intros [r H].
  - exists (rev r). apply (f_equal (@rev N)) in H. rewrite rev_involutive, rev_app_distr, rev_involutive in H. exact H.
  - exists (rev r). rewrite H, rev_app_distr. reflexivity.
Qed.
Lemma endswith_false p s : endswith p s = false <-> ~ ends p s.
Proof. rewrite <- endswith_spec. destruct (endswith p s); split; congruence. Qed.

(* split("\n") and "\n".join *)
Lemma split_on_nonempty c s : split_on c s <> [].
Proof. destruct s as [|a s]; simpl; [discriminate|]. destruct (N.eqb a c); [discriminate|]. destruct (split_on c s); discriminate. Qed.
Lemma split_on_no c s : no_char c s -> split_on c s = [s].
Proof.
  induction s as [|a s IH]; intros H; [reflexivity|]. simpl.
  destruct (N.eqb_spec a c) as [->|Hne]; [exfalso; apply H; left; reflexivity|].
  rewrite IH; [reflexivity|]. intros Hc; apply H; right; exact Hc.
Qed.
Lemma split_on_app c a b : no_char c a -> split_on c (a ++ c :: b) = a :: split_on c b.
Proof.
  induction a as [|x a IH]; intros H; simpl; [rewrite N.eqb_refl; reflexivity|].
  destruct (N.eqb_spec x c) as [->|Hne]; [exfalso; apply H; left; reflexivity|].
  rewrite IH; [reflexivity|]. intros Hc; apply H; right; exact Hc.
Qed.
Lemma split_join c l : l <> [] -> Forall (no_char c) l -> split_on c (join [c] l) = l.
Proof.
  induction l as [|x l IH]; intros Hne HF; [congruence|].
  inversion HF; subst. destruct l as [|y l].
  - simpl. apply split_on_no; assumption.
  - change (join [c] (x :: y :: l)) with (x ++ c :: join [c] (y :: l)).
    rewrite split_on_app by assumption. rewrite IH; [reflexivity|discriminate|assumption].
Qed.
Lemma split_on_parts c s : Forall (no_char c) (split_on c s).
Proof.
  induction s as [|a s IH]; simpl; [repeat constructor; intros []|].
  destruct (N.eqb_spec a c) as [->|Hne]; [constructor; [intros []|exact IH]|].
  destruct (split_on c s) as [|h t]; [repeat constructor; intros [H|[]]; congruence|].
  inversion IH; subst. constructor; [|assumption]. intros [H|H]; [congruence|]. contradiction.
Qed.
Lemma join_split c s : join [c] (split_on c s) = s.
Proof.
  induction s as [|a s IH]; [reflexivity|]. simpl.
  destruct (N.eqb_spec a c) as [->|Hne].
  - destruct (split_on c s) as [|h t] eqn:E; [exfalso; exact (split_on_nonempty c s E)|].
    change (join [c] ([] :: h :: t)) with (c :: join [c] (h :: t)). rewrite IH. reflexivity.
  - destruct (split_on c s) as [|h t] eqn:E; [exfalso; exact (split_on_nonempty c s E)|].
    destruct t; simpl in *; congruence.
Qed.

(* split("=", maxsplit=1) *)
Lemma split_once_no c s : no_char c s -> split_once c s = [s].
Proof.
  induction s as [|a s IH]; intros H; [reflexivity|]. simpl.
  destruct (N.eqb_spec a c) as [->|Hne]; [exfalso; apply H; left; reflexivity|].
  rewrite IH; [reflexivity|]. intros Hc; apply H; right; exact Hc.
Qed.
Lemma split_once_app c a b : no_char c a -> split_once c (a ++ c :: b) = [a; b].
Proof.
  induction a as [|x a IH]; intros H; simpl; [rewrite N.eqb_refl; reflexivity|].
  destruct (N.eqb_spec x c) as [->|Hne]; [exfalso; apply H; left; reflexivity|].
  rewrite IH; [reflexivity|]. intros Hc; apply H; right; exact Hc.
Qed.
Lemma split_once_cases c s :
  (no_char c s /\ split_once c s = [s]) \/
  (exists a b, no_char c a /\ s = a ++ c :: b /\ split_once c s = [a; b]).
Proof.
  induction s as [|x s IH]; [left; split; [intros []|reflexivity]|].
  simpl. destruct (N.eqb_spec x c) as [->|Hne].
  - right. exists [], s; repeat split; intros [].
  - destruct IH as [[Hn ->]|[a [b [Ha [-> ->]]]]].
    + left; split; [|reflexivity]. intros [H|H]; [congruence|contradiction].
    + right. exists (x :: a), b; repeat split. intros [H|H]; [congruence|contradiction].
Qed.

(* find *)
Lemma find_char_app c a b : no_char c a -> find_char c (a ++ c :: b) = Some (List.length a).
Proof.
  induction a as [|x a IH]; intros H; simpl; [rewrite N.eqb_refl; reflexivity|].
  destruct (N.eqb_spec x c) as [->|Hne]; [exfalso; apply H; left; reflexivity|].
  rewrite IH; [reflexivity|]. intros Hc; apply H; right; exact Hc.
Qed.
Lemma find_char_none c s : find_char c s = None <-> no_char c s.
Proof.
  induction s as [|x s IH]; simpl; [split; [intros _ []|reflexivity]|].
  destruct (N.eqb_spec x c) as [->|Hne].
  - split; [discriminate|intros H; exfalso; apply H; left; reflexivity].
  - destruct (find_char c s); simpl; split; try discriminate.
    + intros H; exfalso. assert (no_char c s) by (intros Hc; apply H; right; exact Hc). apply IH in H0; discriminate.
    + intros _ [H|H]; [congruence|]. destruct IH as [IH _]. exact (IH eq_refl H).
    + intros _; reflexivity.
Qed.
Lemma remove_char_no c s : no_char c s -> remove_char c s = s.
Proof.
  induction s as [|x s IH]; intros H; [reflexivity|]. simpl.
  destruct (N.eqb_spec x c) as [->|Hne]; [exfalso; apply H; left; reflexivity|].
  simpl. rewrite IH; [reflexivity|]. intros Hc; apply H; right; exact Hc.
Qed.
Lemma remove_char_app c a b : remove_char c (a ++ b) = remove_char c a ++ remove_char c b.
Proof. apply filter_app. Qed.

Lemma no_char_app c a b : no_char c (a ++ b) <-> no_char c a /\ no_char c b.
Proof. unfold no_char. rewrite in_app_iff. tauto. Qed.
Lemma no_char_cons c x s : no_char c (x :: s) <-> x <> c /\ no_char c s.
Proof. unfold no_char. simpl. split; [intros H; split; [intros E|intros E]; apply H; auto | intros [H1 H2] [E|E]; auto]. Qed.
Lemma no_char_nil c : no_char c [].
Proof. intros []. Qed.
Lemma no_char_repeat c x n : x <> c -> no_char c (repeat x n).
Proof. intros H E. apply repeat_spec in E. congruence. Qed.
Lemma no_char_ljust c n s : c <> c_sp -> no_char c s -> no_char c (ljust n s).
Proof. intros H Hs. unfold ljust. apply no_char_app; split; [exact Hs|]. apply no_char_repeat; congruence. Qed.
Definition no_charb (c : N) (s : str) : bool := negb (mem_char c s).
Lemma no_charb_spec c s : no_charb c s = true <-> no_char c s.
Proof.
  unfold no_charb, mem_char, no_char. rewrite negb_true_iff. split.
  - intros H Hc. assert (existsb (N.eqb c) s = true); [|congruence]. apply existsb_exists. exists c; split; [exact Hc|apply N.eqb_refl].
  - intros H. destruct (existsb (N.eqb c) s) eqn:E; [|reflexivity]. apply existsb_exists in E. destruct E as [x [Hx E]]. apply N.eqb_eq in E; subst; contradiction.
Qed.

Definition trimmedb (s : str) : bool :=
  match s with [] => true | c :: _ => negb (is_ws c) && negb (is_ws (last s 0%N)) end.
Lemma trimmedb_spec s : trimmedb s = true <-> trimmed s.
Proof.
  destruct s as [|c r]; [split; [intros _; apply trimmed_nil|reflexivity]|].
  unfold trimmedb. rewrite andb_true_iff, !negb_true_iff. split.
  - intros [H1 H2]; split; intros x t E.
    + injection E; intros; subst; exact H1.
    + rewrite E in H2. rewrite last_last in H2. exact H2.
  - intros [H1 H2]; split; [exact (H1 c r eq_refl)|].
    destruct (exists_last (l := c :: r)) as [t [d E]]; [discriminate|]. rewrite E, last_last. exact (H2 d t E).
Qed.

(* membership *)
Lemma mem_str_spec x l : mem_str x l = true <-> In x l.
Proof.
  unfold mem_str. rewrite existsb_exists. split.
  - intros [y [Hy E]]. apply str_eqb_eq in E. subst; exact Hy.
  - intros H; exists x; split; [exact H|apply str_eqb_refl].
Qed.
Lemma mem_str_false x l : mem_str x l = false <-> ~ In x l.
Proof. rewrite <- mem_str_spec. destruct (mem_str x l); split; congruence. Qed.
