(* Documents that are read: no index is out of range. *)
From Coq Require Import NArith List Bool String Arith Lia Permutation.
From Verif Require Import PyStr PyDec PyVal Schema KvnPre KvnTree KvnSeg XmlBind KvnBuild StrFacts PreFacts SegFacts BuildFacts ReadFacts GapFacts PlaceFacts InsertFacts CommentFacts ErrFacts RejectFacts.
Import ListNotations.
Local Open Scope string_scope.
Local Open Scope list_scope.

Definition PN (e : exn) : Prop := e <> IndexError.
Lemma only_get_in {A} (l : list A) i : i < List.length l -> only PN (get l i).
Proof. intros H. unfold get. destruct (nth_error l i) eqn:E; [apply only_ok|]. apply nth_error_None in E. lia. Qed.

(* ---- ranges ---- *)
Lemma chop_fits hi l : forall i, List.length l <= hi + 1 - i -> only PN (chop i hi l).
Proof.
  induction l as [|n l IH]; intros i H; cbn [chop]; [apply only_ok|]. cbn [List.length] in H. destruct (Nat.ltb_spec hi i); [lia|].
  apply only_bind; [apply IH; lia|intros; apply only_ok].
Qed.
Lemma trim_fits ks h il : List.length h <= 1 -> NoDup il -> h ++ il <> [] -> (forall x, In x (h ++ il) -> x < List.length ks) -> only PN (trim (sort_nat (h ++ il)) ks).
Proof.
  intros Lh D Ne B. set (s := sort_nat (h ++ il)). assert (Si : forall x, In x s <-> In x (h ++ il)) by (intros x; apply sort_nat_in).
  assert (Ns : s <> []) by (apply sort_ne; exact Ne).
  unfold trim. destruct (gap s) as [|g0 gs] eqn:G; [apply only_ok|]. rewrite <- G.
  apply only_bind.
  - apply only_map. intros a Ha. apply only_get_in. unfold gap in Ha. apply filter_In in Ha. destruct Ha as [Ha _]. apply in_seq in Ha.
    assert (list_max s < List.length ks) by (apply B, Si, list_max_in, Ns). lia.
  - intros dk _. destruct (cramped dk); [|apply only_ok]. apply chop_fits.
    assert (Ls : List.length s = List.length (h ++ il)).
    { unfold s. generalize (h ++ il). clear. assert (I : forall x l, List.length (insert_nat x l) = S (List.length l)) by (intros x l; induction l as [|y l IH]; cbn; [reflexivity|destruct (Nat.leb x y); cbn; lia]).
      intros l. induction l as [|x l IH]; cbn [sort_nat]; [reflexivity|]. rewrite I, IH. reflexivity. }
    rewrite Ls, app_length. assert (Hg : In g0 (gap s)) by (rewrite G; left; reflexivity). unfold gap in Hg. apply filter_In in Hg. destruct Hg as [Hg1 Hg2]. apply negb_true_iff in Hg2.
    assert (Ng : ~ In g0 s) by (intros X; assert (mem_nat g0 s = true) by (unfold mem_nat; apply existsb_exists; exists g0; split; [exact X|apply Nat.eqb_refl]); congruence).
    assert (L : List.length (g0 :: il) <= List.length (seq (list_min s) (list_max s + 1 - list_min s))).
    { apply NoDup_incl_length; [constructor; [|exact D]; intros X; apply Ng, Si, in_or_app; right; exact X|]. intros x [<-|Hx]; [exact Hg1|].
      assert (Hs : In x s) by (apply Si, in_or_app; right; exact Hx). apply in_seq. pose proof (list_min_le s x Hs). pose proof (list_max_ge s x Hs). lia. }
    rewrite seq_length in L. cbn [List.length] in L. lia.
Qed.
Lemma range_fits ks h il i sg : List.length h <= 1 -> NoDup il -> (forall x, In x (h ++ il) -> x < List.length ks) -> only PN (range_of_indices (h ++ il) i ks sg).
Proof.
  intros Lh D B. rewrite range_trim. apply only_bind.
  - destruct (h ++ il) as [|x r] eqn:E; [apply only_ok|]. rewrite <- E in *. apply trim_fits; try assumption. rewrite E. discriminate.
  - intros r _. destruct r; apply only_ok.
Qed.

Section Total.
Variables (u : env) (ks : list str) (ls : list line).
Hypothesis Hn : List.length ls = List.length ks.
Hypothesis Hu : NoDup (filter (startswith (lit "USER_DEFINED")) ks).

Lemma list0_lt tags i x : In x (index_list0 tags i ks) -> x < List.length ks.
Proof. intros X. apply index_list0_in in X. destruct X as [t [_ [_ X]]]. apply index_start_bounds in X. lia. Qed.
Lemma comments_lt i j x : In x (comment_indexes ks i j) -> x < List.length ks.
Proof. intros X. apply comment_indexes_in in X. destruct X as [_ X]. apply nth_error_Some. congruence. Qed.
Lemma gmm_fits tags i sg : NoDup tags -> (tags = [kw_comment] -> i < List.length ks) -> only PN (get_min_max tags i ks None sg).
Proof.
  intros D Hi. unfold get_min_max. cbn [extend_tags]. apply only_bind.
  - unfold process_comment_lines. destruct (mem_str kw_comment tags) eqn:M; [|apply only_ok]. destruct (Nat.eqb_spec (List.length tags) 1) as [L|L]; [|destruct (index_list0 _ _ _); apply only_ok].
    apply only_bind; [|intros; apply only_ok]. apply only_get_in. apply Hi. destruct tags as [|t [|t2 tags]]; try discriminate. apply mem_str_spec in M. destruct M as [->|[]]. reflexivity.
  - intros il E. apply only_bind; [|intros; apply only_ok]. apply (range_fits ks [] il); [cbn; lia| |].
    + apply (found_distinct [] ks tags i); assumption.
    + cbn [app]. intros x Hx. unfold process_comment_lines in E. destruct (mem_str kw_comment tags) eqn:M; [|injection E as <-; eapply list0_lt; exact Hx]. destruct (Nat.eqb_spec (List.length tags) 1) as [L|L].
      * inv_ok E. injection E as <-. apply get_ok in E0. assert (Ln : i < List.length ks) by (apply nth_error_Some; congruence). destruct (str_eqb a kw_comment); [apply in_app_or in Hx; destruct Hx as [Hx|[<-|[]]]; [eapply list0_lt; exact Hx|exact Ln]|eapply list0_lt; exact Hx].
      * destruct (index_list0 tags i ks) as [|z zs] eqn:Ez; [injection E as <-; destruct Hx|]. rewrite <- Ez in *. injection E as <-. apply in_app_or in Hx. destruct Hx as [Hx|Hx]; [eapply list0_lt; exact Hx|eapply comments_lt; exact Hx].
Qed.
Lemma sub_nodup {A} (l m : list A) : sub l m -> NoDup m -> NoDup l.
Proof.
  induction 1 as [m|x l m S IH|x l m S IH]; intros D; [constructor| |]; inversion D as [|? ? N D']; subst; [|apply IH; assumption].
  constructor; [|apply IH; assumption]. intros X. apply N. eapply sub_in; eassumption.
Qed.
Lemma sub_map_filter {A} (f : A -> bool) (l m : list A) : sub l m -> sub (filter f l) (filter f m).
Proof. induction 1 as [m|x l m S IH|x l m S IH]; cbn; [constructor| |]; destruct (f x); try constructor; assumption. Qed.

(* user defined parameters *)
Definition ud : str := lit "USER_DEFINED".
Lemma user_tags_nodup i : NoDup (filter (startswith ud) (skipn i ks)).
Proof. eapply sub_nodup; [|exact Hu]. apply sub_map_filter. rewrite <- (firstn_skipn i ks) at 2. apply sub_app_r, sub_refl. Qed.
Lemma list0_app a b i : index_list0 (a ++ b) i ks = index_list0 a i ks ++ index_list0 b i ks.
Proof. unfold index_list0. rewrite filter_app. apply filter_map_app. Qed.
Lemma user_fits i sg : only PN (get_min_max [kw_comment; ud] i ks (Some ud) sg).
Proof.
  unfold get_min_max. cbn [extend_tags]. set (U := filter (startswith ud) (skipn i ks)).
  assert (D : NoDup U) by apply user_tags_nodup. clearbody U.
  assert (L : exists h, List.length h <= 1 /\ index_list0 ([kw_comment; ud] ++ U) i ks = h ++ index_list0 U i ks).
  { exists (index_list0 [kw_comment; ud] i ks). split; [|apply list0_app]. unfold index_list0. change (filter (fun t => negb (str_eqb t kw_comment)) [kw_comment; ud]) with [ud]. cbn [filter_map]. destruct (index_start ud ks i); cbn; lia. }
  destruct L as [h [Lh Eh]]. set (tags := [kw_comment; ud] ++ U) in *. assert (M : mem_str kw_comment tags = true) by reflexivity. assert (L2 : Nat.eqb (List.length tags) 1 = false) by reflexivity.
  unfold process_comment_lines. rewrite M, L2. clear M L2.
  apply only_bind; [destruct (index_list0 tags i ks); apply only_ok|]. intros il E. apply only_bind; [|intros; apply only_ok].
  assert (C : il = [] \/ exists j, il = h ++ (index_list0 U i ks ++ comment_indexes ks i j)).
  { destruct (index_list0 tags i ks) as [|z zs] eqn:Ez; [injection E as <-; left; reflexivity|]. rewrite <- Ez in *. injection E as <-. right. eexists. rewrite app_assoc, <- Eh. reflexivity. }
  destruct C as [->|[j ->]]; [apply (range_fits ks [] []); [cbn; lia|constructor|intros x []]|]. apply range_fits; [exact Lh|apply found_nodup; exact D|].
  intros x Hx. rewrite app_assoc in Hx. apply in_app_or in Hx. destruct Hx as [Hx|Hx]; [rewrite <- Eh in Hx; eapply list0_lt; exact Hx|eapply comments_lt; exact Hx].
Qed.
Lemma user_none i sg mm T : get_min_max [kw_comment; ud] i ks (Some ud) sg = Ok (mm, T) -> fst mm = snd mm -> T = [kw_comment; ud].
Proof.
  unfold get_min_max. cbn [extend_tags]. set (U := filter (startswith ud) (skipn i ks)). intros H Em. inv_ok H. inv_ok H. injection H as <- <-.
  destruct U as [|k U'] eqn:EU; [reflexivity|]. exfalso.
  assert (Hk : In k U) by (rewrite EU; left; reflexivity). unfold U in Hk. apply filter_In in Hk. destruct Hk as [Hk Sk].
  assert (Nk : k <> kw_comment) by (intros ->; discriminate).
  assert (Hi : exists j, index_start k ks i = Some j).
  { apply In_nth_error in Hk. destruct Hk as [m Hm]. assert (Hm2 : nth_error ks (i + m) = Some k) by (rewrite <- Hm; clear; revert ks; induction i as [|n IH]; intros [|x l]; cbn; auto; destruct m; reflexivity).
    apply (PlaceFacts.index_start_some k ks (i + m) Hm2). lia. }
  destruct Hi as [j Hj].
  assert (Ne : index_list0 ([kw_comment; ud] ++ k :: U') i ks <> []).
  { intros X. assert (Y : In j (index_list0 ([kw_comment; ud] ++ k :: U') i ks)) by (apply index_list0_in; exists k; split; [right; right; left; reflexivity|split; [exact Nk|exact Hj]]). rewrite X in Y. destruct Y. }
  unfold process_comment_lines in E. change (mem_str kw_comment ([kw_comment; ud] ++ k :: U')) with true in E. cbn [List.length app] in E. change (Nat.eqb (S (S (S (List.length U')))) 1) with false in E. cbn [app] in Ne.
  destruct (index_list0 (kw_comment :: ud :: k :: U') i ks) as [|z zs]; [congruence|]. injection E as <-. apply range_shape in E0. destruct E0 as [[X _]|[_ [_ [m [_ [Lm Sm]]]]]]; [discriminate|lia].
Qed.

(* ---- elements ---- *)
Definition fit1 (e : elem) : Prop :=
  ~ In (e_cls e) odd_classes /\ (user e = true -> e_kws e = [kw_comment; ud]) /\ (user e = false -> NoDup (e_kws e)) /\
  (e_kws e = [kw_comment] -> e_subs e <> []) /\ (e_subs e <> [] -> exists s, In s (e_subs e) /\ e_islist s = false).
Definition fits (e : elem) : Prop := forall z, In z (all_elems e) -> fit1 z.
Lemma fits_here e : fits e -> fit1 e.
Proof. intros W. apply W. rewrite all_elems_eq. left. reflexivity. Qed.
Lemma fits_sub e s : fits e -> In s (e_subs e) -> fits s.
Proof. intros W H x Hx. apply W. rewrite all_elems_eq. right. apply in_flat_map. exists s. split; assumption. Qed.
Lemma own_fits e i : fit1 e -> (e_kws e = [kw_comment] -> i < List.length ks) -> only PN (own_range u e ks ls i).
Proof.
  intros [N [W1 [W2 _]]] Hi. rewrite own_range_plain by exact N. apply only_bind; [|intros [mm T] _; apply only_ok].
  destruct (user e) eqn:Ue; [rewrite (W1 eq_refl); apply user_fits|apply gmm_fits; auto].
Qed.
Lemma own_none e i mm e1 : fit1 e -> own_range u e ks ls i = Ok (mm, e1) -> fst mm = snd mm -> e1 = e.
Proof.
  intros [N [W1 [W2 _]]] H Em. destruct (user e) eqn:Ue.
  - rewrite own_range_plain, Ue, (W1 eq_refl) in H by exact N. inv_ok H. destruct a as [m T]. injection H as <- <-. apply user_none in E; [|exact Em]. subst T. rewrite <- (W1 eq_refl). apply set_kws_same.
  - exact (proj1 (own_easy u ks ls e i mm e1 N Ue H)).
Qed.

Lemma subs_ne lo : forall ss idx mx gs, (exists s, In s ss /\ e_islist s = false) -> ident_subs u ks ls lo ss idx = Ok (mx, gs) -> gs <> [].
Proof.
  induction ss as [|s ss IH]; intros idx mx gs [s0 [I L]]; [destruct I|]. cbn [ident_subs]. destruct (e_islist s) eqn:Ls.
  - intros H. inv_ok H. destruct a as [i1 es]. inv_ok H. destruct a as [i2 gs2]. injection H as <- <-. destruct I as [<-|I]; [congruence|]. intros X. apply app_eq_nil in X. destruct X as [_ X]. revert X. eapply IH; [exists s0; split; [exact I|exact L]|exact E0].
  - intros H. inv_ok H. destruct a as [[i1 smm] s']. inv_ok H. inv_ok H. destruct a0 as [i2 gs2]. injection H as <- <-. discriminate.
Qed.
Lemma ident_done e i mx mm e' : fits e -> identify u e ks ls i = Ok (mx, mm, e') -> (e_subs e = [] /\ (fst mm = snd mm -> e' = e)) \/ e_subs e' <> [].
Proof.
  intros W H. pose proof (fits_here e W) as V. rewrite identify_eq in H. inv_ok H. destruct a as [mm1 e1]. destruct (e_subs e) as [|s ss] eqn:Es.
  - injection H as <- <- <-. left. split; [reflexivity|]. eapply own_none; eassumption.
  - inv_ok H. destruct a as [mx1 gs]. injection H as <- <- <-. right. cbn [e_subs set_subs]. eapply subs_ne; [|exact E0]. rewrite <- Es. apply V. rewrite Es. discriminate.
Qed.
Lemma retry_only e i mx mm e' lo : fits e -> identify u e ks ls i = Ok (mx, mm, e') ->
  only PN (if Nat.eqb (fst mm) (snd mm) && match e_subs e' with [] => true | _ => false end
           then do r2 <- own_range u e' ks ls lo; Ok (set_mm (snd r2) (fst r2)) else Ok (set_mm e' mm)).
Proof.
  intros W H. destruct (Nat.eqb_spec (fst mm) (snd mm)) as [Em|]; [|apply only_ok]. cbn [andb]. destruct (ident_done e i mx mm e' W H) as [[Es Ee]|Ne]; [|destruct (e_subs e'); [congruence|apply only_ok]].
  rewrite (Ee Em), Es. apply only_bind; [|intros; apply only_ok]. pose proof (fits_here e W) as V. apply own_fits; [exact V|]. intros X. destruct (proj1 (proj2 (proj2 (proj2 V))) X Es).
Qed.
Lemma list_only one n : (forall i, only PN (one i)) -> forall f i last, only PN (identify_list one n f i last).
Proof.
  intros O. induction f as [|f IH]; intros i last; [apply only_err; discriminate|]. rewrite identify_list_S. apply only_bind; [apply O|]. intros [[mx [lo hi]] e] _.
  destruct (_ && _); [apply only_ok|]. destruct (Nat.ltb last lo); [apply only_ok|]. cbv zeta. destruct (Nat.leb n mx); [apply only_ok|]. apply only_bind; [apply IH|]. intros [a b] _. apply only_ok.
Qed.
Lemma list_only_lt one n : (forall i, i < n -> only PN (one i)) -> forall f i last, i < n -> only PN (identify_list one n f i last).
Proof.
  intros O. induction f as [|f IH]; intros i last L; [apply only_err; discriminate|]. rewrite identify_list_S. apply only_bind; [apply O; exact L|]. intros [[mx [lo hi]] e] _.
  destruct (_ && _); [apply only_ok|]. destruct (Nat.ltb last lo); [apply only_ok|]. cbv zeta. destruct (Nat.leb_spec n mx); [apply only_ok|]. apply only_bind; [apply IH; assumption|]. intros [a b] _. apply only_ok.
Qed.
Lemma subs_only lo ss : (forall s, In s ss -> fits s /\ forall i, only PN (identify u s ks ls i)) -> forall idx, only PN (ident_subs u ks ls lo ss idx).
Proof.
  induction ss as [|s ss IH]; intros H idx; cbn [ident_subs]; [apply only_ok|]. destruct (H s (or_introl eq_refl)) as [W O].
  assert (IH' : forall idx, only PN (ident_subs u ks ls lo ss idx)) by (apply IH; intros x Hx; apply H; right; exact Hx).
  destruct (e_islist s).
  - apply only_bind; [apply list_only; exact O|]. intros [a b] _. apply only_bind; [apply IH'|]. intros [c d] _. apply only_ok.
  - apply only_bind; [apply O|]. intros [[i1 smm] s'] Hs. apply only_bind; [eapply retry_only; eassumption|]. intros s2 _. apply only_bind; [apply IH'|]. intros [c d] _. apply only_ok.
Qed.
Definition free (e : elem) : Prop := forall z, In z (all_elems e) -> e_kws z <> [kw_comment].
Lemma free_only e : fits e -> free e -> forall i, only PN (identify u e ks ls i).
Proof.
  induction e as [n c subs k l s m t F] using elem_ind'. intros W Fr i. rewrite identify_eq. apply only_bind.
  - apply own_fits; [apply fits_here; exact W|]. intros X. destruct (Fr (Elem n c subs k l s m t)); [rewrite all_elems_eq; left; reflexivity|exact X].
  - intros [mm e1] _. cbn [e_subs]. destruct subs as [|s0 subs]; [apply only_ok|]. apply only_bind; [|intros [a b] _; apply only_ok]. apply subs_only.
    rewrite Forall_forall in F. intros x Hx. split; [exact (fits_sub _ x W Hx)|]. apply F; [exact Hx|exact (fits_sub _ x W Hx)|].
    intros z Hz. apply Fr. rewrite all_elems_eq. right. apply in_flat_map. exists x. split; [exact Hx|exact Hz].
Qed.

(* ---- elements that stand before the data ---- *)
Variable front : list str.
Hypothesis Hl : forall t, nth_error ks (List.length ks - 1) = Some t -> t <> kw_comment -> ~ In t front.
Definition ahead1 (e : elem) : Prop := user e = false /\ e_kws e <> [kw_comment] /\ (forall t, In t (e_kws e) -> t <> kw_comment -> In t front).
Lemma own_ahead e i mm e1 : fit1 e -> ahead1 e -> own_range u e ks ls i = Ok (mm, e1) -> i < List.length ks -> snd mm < List.length ks.
Proof.
  intros [N _] [Ue [Nk If]] H Li. destruct (own_easy u ks ls e i mm e1 N Ue H) as [-> G]. unfold get_min_max in G. cbn [extend_tags] in G. inv_ok G. inv_ok G. injection G as <-.
  apply range_shape in E0. destruct E0 as [[_ ->]|[_ [_ [m [Im [_ ->]]]]]]; [exact Li|].
  assert (T : index_list0 (e_kws e) i ks <> [] /\ m <= list_max (index_list0 (e_kws e) i ks)).
  { unfold process_comment_lines in E. destruct (mem_str kw_comment (e_kws e)) eqn:M.
    - destruct (Nat.eqb_spec (List.length (e_kws e)) 1) as [L|L].
      + destruct (e_kws e) as [|t [|t2 r]]; try discriminate. apply mem_str_spec in M. destruct M as [->|[]]. congruence.
      + destruct (index_list0 (e_kws e) i ks) as [|z zs] eqn:Ez; [injection E as <-; destruct Im|]. rewrite <- Ez in *. injection E as <-. split; [rewrite Ez; discriminate|]. apply in_app_or in Im. destruct Im as [Im|Im]; [apply list_max_ge; exact Im|]. apply comment_indexes_in in Im. lia.
    - injection E as <-. split; [intros X; rewrite X in Im; destruct Im|apply list_max_ge; exact Im]. }
  destruct T as [T1 T2]. pose proof (list_max_in _ T1) as X. pose proof (list0_lt _ _ _ X) as Y. apply index_list0_in in X. destruct X as [t [X1 [X2 X3]]]. apply index_start_nth in X3.
  destruct (Nat.eq_dec (list_max (index_list0 (e_kws e) i ks)) (List.length ks - 1)) as [Q|Q]; [|lia]. rewrite Q in X3. destruct (Hl t X3 X2). apply If; assumption.
Qed.
Definition ahead (e : elem) : Prop := forall z, In z (all_elems e) -> ahead1 z /\ forall s, In s (e_subs z) -> e_islist s = false.
Lemma ahead_sub e s : ahead e -> In s (e_subs e) -> ahead s.
Proof. intros W H x Hx. apply W. rewrite all_elems_eq. right. apply in_flat_map. exists s. split; assumption. Qed.
Lemma ahead_free e : ahead e -> free e.
Proof. intros W z Hz. apply (W z Hz). Qed.
Lemma ahead_lt e : fits e -> ahead e -> forall i mx mm e', identify u e ks ls i = Ok (mx, mm, e') -> i < List.length ks -> mx < List.length ks.
Proof.
  induction e as [n c subs k l s m t F] using elem_ind'. intros W A i mx mm e' H Li. rewrite identify_eq in H. inv_ok H. destruct a as [mm1 e1]. pose proof (A _ ltac:(rewrite all_elems_eq; left; reflexivity)) as [A1 A2].
  assert (L1 : snd mm1 < List.length ks) by (eapply own_ahead; [exact (fits_here _ W)|exact A1|exact E|exact Li]). cbn [e_subs] in *.
  destruct subs as [|s0 subs]; [injection H as <- _ _; exact L1|]. inv_ok H. destruct a as [mx1 gs]. injection H as <- _ _. revert E0.
  assert (Q : forall ss, (forall x, In x ss -> In x (s0 :: subs)) -> forall idx mx gs, idx < List.length ks -> ident_subs u ks ls (fst mm1) ss idx = Ok (mx, gs) -> mx < List.length ks).
  { induction ss as [|x ss IH]; intros Hs idx mx gs' Lx; cbn [ident_subs]; [intros H; injection H as <- _; exact Lx|]. rewrite (A2 x (Hs x (or_introl eq_refl))). intros H. inv_ok H. destruct a as [[i1 smm] x']. inv_ok H. inv_ok H. destruct a0 as [i2 gs2]. injection H as <- _.
    eapply IH; [intros y Hy; apply Hs; right; exact Hy| |exact E2]. rewrite Forall_forall in F. eapply F; [apply Hs; left; reflexivity|eapply fits_sub; [exact W|apply Hs; left; reflexivity]|eapply ahead_sub; [exact A|apply Hs; left; reflexivity]|exact E0|exact Lx]. }
  apply Q; [auto|exact L1].
Qed.

(* ---- the path to the data ---- *)
Inductive safe : elem -> Prop :=
| safe_data e : Forall free (e_subs e) -> safe e
| safe_node e pre s post : ahead1 e -> e_subs e = pre ++ s :: post -> Forall (fun x => ahead x /\ e_islist x = false) pre -> safe s -> Forall free post -> safe e.
Lemma safe_subs lo pre s post : (forall x, In x (pre ++ s :: post) -> fits x) -> Forall (fun x => ahead x /\ e_islist x = false) pre -> (forall i, i < List.length ks -> only PN (identify u s ks ls i)) -> Forall free post ->
  forall idx, idx < List.length ks -> only PN (ident_subs u ks ls lo (pre ++ s :: post) idx).
Proof.
  intros W A S Fp. assert (P : forall idx, only PN (ident_subs u ks ls lo post idx)).
  { apply subs_only. intros x Hx. assert (Wx : fits x) by (apply W; apply in_or_app; right; right; exact Hx). split; [exact Wx|]. apply free_only; [exact Wx|]. rewrite Forall_forall in Fp. exact (Fp x Hx). }
  induction pre as [|x pre IH]; intros idx Li; cbn [app ident_subs].
  - assert (Ws : fits s) by (apply W; left; reflexivity). destruct (e_islist s).
    + apply only_bind; [rewrite Hn; apply list_only_lt; assumption|]. intros [a b] _. apply only_bind; [apply P|]. intros [c d] _. apply only_ok.
    + apply only_bind; [apply S; exact Li|]. intros [[i1 smm] s'] Hs. apply only_bind; [eapply retry_only; eassumption|]. intros s2 _. apply only_bind; [apply P|]. intros [c d] _. apply only_ok.
  - inversion A as [|? ? [Ax Lx] A']. subst. assert (Wx : fits x) by (apply W; left; reflexivity). rewrite Lx. apply only_bind; [apply free_only; [exact Wx|apply ahead_free; exact Ax]|]. intros [[i1 smm] s'] Hs.
    apply only_bind; [eapply retry_only; eassumption|]. intros s2 _. apply only_bind; [|intros [c d] _; apply only_ok]. apply IH; [intros y Hy; apply W; right; exact Hy|exact A'|]. eapply ahead_lt; eassumption.
Qed.
Lemma safe_only e : safe e -> fits e -> forall i, i < List.length ks -> only PN (identify u e ks ls i).
Proof.
  induction 1 as [e Fr|e pre s post A Es Ap S IH Fp]; intros W i Li; rewrite identify_eq; (apply only_bind; [apply own_fits; [apply fits_here; exact W|intros _; exact Li]|]); intros [mm e1] O.
  - destruct (e_subs e) as [|s0 subs] eqn:Es; [apply only_ok|]. rewrite <- Es in *. apply only_bind; [|intros [a b] _; apply only_ok]. apply subs_only. rewrite Forall_forall in Fr. intros x Hx. pose proof (fits_sub e x W Hx) as Wx. split; [exact Wx|]. apply free_only; auto.
  - destruct (e_subs e) as [|s0 subs] eqn:Ex; [apply only_ok|]. rewrite <- Ex in *. apply only_bind; [|intros [a b] _; apply only_ok]. rewrite Es. apply safe_subs; try assumption.
    + intros x Hx. apply (fits_sub e x W). rewrite Es. exact Hx.
    + apply IH. apply (fits_sub e s W). rewrite Es. apply in_or_app. right. left. reflexivity.
    + eapply own_ahead; [exact (fits_here e W)|exact A|exact O|exact Li].
Qed.
End Total.

(* ---- building ---- *)
Section Make.
Variable u : env.
Definition calm1 (e : elem) : Prop := ~ In (e_cls e) odd_classes /\ (e_single e <> None -> e_subs e = []).
Definition calms (e : elem) : Prop := forall z, In z (all_elems e) -> calm1 z.
Lemma calms_intro e : calm1 e -> (forall s, In s (e_subs e) -> calms s) -> calms e.
Proof.
  intros C S x Hx. rewrite all_elems_eq in Hx. destruct Hx as [<-|Hx]; [exact C|]. apply in_flat_map in Hx. destruct Hx as [s [Hs Hx]]. exact (S s Hs x Hx).
Qed.
Lemma calms_here e : calms e -> calm1 e.
Proof. intros W. apply W. rewrite all_elems_eq. left. reflexivity. Qed.
Lemma calms_sub e s : calms e -> In s (e_subs e) -> calms s.
Proof. intros W H x Hx. apply W. rewrite all_elems_eq. right. apply in_flat_map. exists s. split; assumption. Qed.
Definition calmer (e e' : elem) : Prop := calms e -> calms e'.
Lemma own_calmer e keys lines i mm e1 : own_range u e keys lines i = Ok (mm, e1) -> calmer e e1.
Proof.
  intros H W. pose proof (calms_here e W) as V. pose proof V as [N V2]. rewrite own_range_plain in H by exact N. inv_ok H. destruct a as [m T]. injection H as <- <-. apply calms_intro; [exact V|]. intros g Hg. exact (calms_sub e g W Hg).
Qed.
Lemma mm_calmer e m : calmer e (set_mm e m).
Proof. intros W. apply calms_intro; [exact (calms_here e W)|]. intros g Hg. exact (calms_sub e g W Hg). Qed.
Lemma identify_calmer keys lines : forall e i a b e', identify u e keys lines i = Ok (a, b, e') -> calmer e e'.
Proof.
  intros e. induction e as [n c subs k l s m t F] using elem_ind'. intros i a b e'. rewrite identify_eq. intros H W. inv_ok H. destruct a0 as [mm e1].
  pose proof (own_calmer _ _ _ _ _ _ E W) as K. pose proof (calms_here _ W) as [N V]. rewrite own_range_plain in E by exact N. inv_ok E. destruct a0 as [m1 T]. injection E as <- <-. cbn [e_subs] in *.
  destruct subs as [|s0 subs]; [injection H as <- <- <-; exact K|]. inv_ok H. destruct a0 as [mx gs]. injection H as <- <- <-. apply calms_intro.
  - split; [exact N|]. intros X. discriminate (V X).
  - cbn [e_subs set_subs set_kws]. eapply ident_subs_prop with (P := calmer) in E.
    + rewrite Forall_forall in E. intros g Hg. destruct (E g Hg) as [z [Hz G]]. apply G. exact (calms_sub _ z W Hz).
    + exact F.
    + intros s1 e2 m2 K1 W1. apply mm_calmer, K1, W1.
    + intros s1 e2 i1 mm1 e3 K1 O W1. eapply own_calmer; [exact O|]. apply K1, W1.
Qed.
Definition whole (ls : list line) : Prop := forall l, In l ls -> 2 <= List.length l.
Lemma list_whole c p items : whole items -> only PN (parse_list u c p items).
Proof.
  intros W. unfold parse_list. apply only_bind.
  - apply only_map. intros l Hl. specialize (W l Hl). destruct p; [unfold child_of_user_line|unfold child_of_line]; do 2 (apply only_bind; [apply only_get_in; lia|intros ? _]); apply only_ok.
  - intros cs _. apply only_bind; [|intros; apply only_ok]. generalize (vars_of (new_obj c)) (@nil string). induction cs as [|[[k ats] t] cs IH]; intros vars seen; cbn [bind_children]; [apply only_ok|].
    destruct (child_ok _); [|apply only_err; discriminate]. destruct (find_elem k (fields_of c)) as [f|]; [|first [apply only_err; discriminate|apply IH]]. cbv zeta. destruct (f_list f); [apply IH|]. destruct (existsb _ _); [apply only_err; discriminate|apply IH].
Qed.
Lemma single_whole c p items : whole items -> items <> [] -> only PN (parse_single u c p items).
Proof.
  intros W Ne. unfold parse_single. apply only_bind; [apply only_get_in; destruct items; [congruence|cbn; lia]|]. intros l Hl. apply get_ok, nth_error_In in Hl. specialize (W l Hl).
  do 2 (apply only_bind; [apply only_get_in; lia|intros ? _]). cbv zeta. destruct (child_ok _); [apply only_ok|apply only_err; discriminate].
Qed.
Lemma root_whole c items : whole items -> only PN (parse_root c items).
Proof.
  intros W. unfold parse_root. apply only_bind; [apply only_map; intros l Hl; apply only_get_in; specialize (W l Hl); lia|]. intros ts _. destruct (forallb _ _); [apply only_ok|apply only_err; discriminate].
Qed.
Lemma build_whole n doc : forall e full, calms e -> whole full -> only PN (build u n doc e full).
Proof.
  induction n as [|n IH]; intros e full W H2; [apply only_err; discriminate|].
  assert (Hf : forall obj, only PN (match obj with
        | VObj c vars =>
          do vars' <- fold_left (fun acc s => do vs <- acc; do sub <- build u n doc s full;
                                   attach (e_name s) sub vs) (e_subs e) (Ok vars);
          Ok (VObj c vars')
        | _ => Err AttributeError
        end)).
  { intros obj. destruct obj; try (apply only_err; discriminate). apply only_bind; [|intros; apply only_ok].
    assert (G : forall subs, (forall s, In s subs -> calms s) -> forall acc, only PN acc -> only PN (fold_left (fun acc s => do vs <- acc; do sub <- build u n doc s full; attach (e_name s) sub vs) subs acc)).
    { clear -IH H2. induction subs as [|s subs IHs]; intros Hs acc O; [exact O|]. cbn [fold_left]. apply IHs.
      - intros x Hx. apply Hs. right. exact Hx.
      - apply only_bind; [exact O|]. intros vs _. apply only_bind; [apply IH; [apply Hs; left; reflexivity|exact H2]|]. intros sub _. unfold attach. destruct (assoc _ _) as [[]|]; try apply only_ok; try (apply only_err; discriminate). destruct sub; apply only_ok. }
    apply G; [intros s Hs; exact (calms_sub e s W Hs)|apply only_ok]. }
  pose proof (calms_here e W) as [N V].
  assert (NN : forall x, In x odd_classes -> String.eqb (e_cls e) x = false) by (intros x Hx; apply String.eqb_neq; intros <-; auto).
  cbn [build].
  rewrite (NN "AemSegment"), (NN "AttitudeStateType"), (NN "StateVectorAccType"), (NN "OemCovarianceMatrixType"), (NN "TrackingDataObservationType") by (cbn; tauto).
  set (local := slice (fst (e_mm e)) (snd (e_mm e)) full).
  assert (Sl : forall l, In l local -> In l full) by (intros l Hl; eapply sub_in; [apply sub_slice|exact Hl]). clearbody local.
  destruct local as [|l0 ll]; destruct (match e_subs e with [] => true | _ => false end) eqn:En; try apply only_ok.
  all: match goal with |- only _ (match ?x with _ => _ end) => set (own := x) end.
  all: assert (So : whole own) by (intros l Hl; apply H2, Sl; subst own; destruct (String.eqb (e_cls e) "UserDefinedType"); [exact Hl|apply filter_In in Hl; apply Hl]); clearbody own.
  all: assert (Es : own = [] -> match e_subs e with [] => true | _ => false end = false -> e_single e = None) by (intros _ X; destruct (e_single e); [destruct (e_subs e); [discriminate|]; discriminate (V ltac:(discriminate))|reflexivity]).
  all: assert (Hmain : match e_subs e with [] => true | _ => false end = false \/ own <> [] -> only PN (if match e_kws e with [a; b] => str_eqb a (lit "id") && str_eqb b (lit "version") | _ => false end
      then parse_root (e_cls e) own else match e_single e with Some p => parse_single u (e_cls e) p own | None => parse_list u (e_cls e) (if String.eqb (e_cls e) "UserDefinedType" then Some (lit "USER_DEFINED") else None) own end)).
  1,3,5: intros Hx; destruct (match e_kws e with [a; b] => str_eqb a (lit "id") && str_eqb b (lit "version") | _ => false end); [apply root_whole; exact So|];
    destruct (e_single e) as [p|] eqn:Ex; [apply single_whole; [exact So|destruct Hx as [Hx|Hx]; [intros D; discriminate (Es D Hx)|exact Hx]]|apply list_whole; exact So].
  all: destruct own as [|o own]; try (apply only_ok); (apply only_bind; [apply Hmain; first [left; exact En|right; discriminate]|intros obj _; apply Hf]).
Qed.
End Make.
