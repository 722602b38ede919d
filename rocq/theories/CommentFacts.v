(* A comment put into a document: compared with the same document with an unknown line at that place, the ranges of the
   sections are the same, and only the section around the comment reads it. *)
From Coq Require Import NArith ZArith List Bool String Arith Lia Sorted.
From Verif Require Import PyStr PyDec PyVal Schema KvnPre KvnTree KvnSeg XmlBind KvnBuild
     Spec SpecComment StrFacts SegFacts BuildFacts ReadFacts GapFacts InsertFacts.
Import ListNotations.
Local Open Scope string_scope.
Local Open Scope list_scope.
Local Arguments find_class : simpl never.
Local Arguments lit : simpl never.

(* ---- which lines a section takes ---- *)
(* the lines from i to mx are comments, or a line of one of the elements comes at or after them *)
Definition reach (ks : list str) (Z : elem -> Prop) (i mx : nat) : Prop :=
  i <= mx /\ forall a, i <= a < mx -> nth_error ks a = Some kw_comment \/
    exists b z t, a <= b /\ Z z /\ nth_error ks b = Some t /\ In t (e_kws z) /\ t <> kw_comment.
Lemma reach_refl ks Z i : reach ks Z i i.
Proof. split; [lia|]. intros a H. lia. Qed.
Lemma reach_trans ks Z i j k : reach ks Z i j -> reach ks Z j k -> reach ks Z i k.
Proof.
  intros [L1 H1] [L2 H2]. split; [lia|]. intros a Ha. destruct (le_lt_dec j a) as [L|L]; [apply H2; lia|apply H1; lia].
Qed.
Lemma reach_more ks (Z Z' : elem -> Prop) i j : (forall z, Z z -> Z' z) -> reach ks Z i j -> reach ks Z' i j.
Proof.
  intros S [L H]. split; [exact L|]. intros a Ha. destruct (H a Ha) as [X|[b [z [t [X1 [X2 X3]]]]]]; [left; exact X|right; exists b, z, t; auto].
Qed.
Lemma sort_ne l : l <> [] -> sort_nat l <> [].
Proof.
  destruct l as [|a l]; [congruence|]. intros _ X. pose proof (proj2 (sort_nat_in a (a :: l)) (or_introl eq_refl)) as Y. rewrite X in Y. destruct Y.
Qed.
Lemma trim_in ks il r x : trim il ks = Ok r -> In x r -> In x il.
Proof.
  unfold trim. intros H Hx. destruct (gap il); [injection H as <-; exact Hx|]. inv_ok H. destruct (cramped a); [eapply chop_in; eassumption|injection H as <-; exact Hx].
Qed.
Lemma trim_full il ks r : il <> [] -> trim (sort_nat il) ks = Ok r -> r <> [].
Proof. apply (trim_ne [] [] 1 (le_n 1) 0). cbn. lia. Qed.
Lemma range_shape il i ks sg mm : range_of_indices il i ks sg = Ok mm ->
  (il = [] /\ mm = (i, i)) \/ (il <> [] /\ In (fst mm) il /\ exists m, In m il /\ fst mm <= m /\ snd mm = S m).
Proof.
  rewrite range_trim. intros H. destruct il as [|x il]; [injection H as <-; left; auto|]. right. split; [discriminate|]. inv_ok H.
  assert (Na : a <> []) by (apply (trim_full (x :: il) ks); [discriminate|exact E]).
  assert (Ia : forall y, In y a -> In y (x :: il)) by (intros y Hy; apply (proj1 (sort_nat_in _ _)); eapply trim_in; eassumption).
  assert (Em : mm = (list_min a, if sg then list_min a + 1 else list_max a + 1)) by (destruct a; [congruence|congruence]). rewrite Em. cbn [fst snd].
  assert (Lm : list_min a <= list_max a) by (apply list_min_le, list_max_in, Na).
  split; [apply Ia, list_min_in, Na|]. exists (if sg then list_min a else list_max a). destruct sg; rewrite Nat.add_1_r; split; try (apply Ia; first [apply list_min_in|apply list_max_in]; exact Na); auto.
Qed.
Lemma gmm_plain tags i ks sg mm T : get_min_max tags i ks None sg = Ok (mm, T) -> T = tags /\
  (mm = (i, i) \/ (i <= fst mm < snd mm /\ snd mm <= List.length ks)) /\
  (forall e, e_kws e = tags -> reach ks (fun z => z = e) i (snd mm)) /\
  ((mem_str kw_comment tags = false \/ List.length tags <> 1) -> fst mm = snd mm -> index_list0 tags i ks = []).
Proof.
  unfold get_min_max. cbn [extend_tags]. intros H. inv_ok H. inv_ok H. injection H as <- <-. split; [reflexivity|].
  assert (B : forall x, In x (index_list0 tags i ks) -> i <= x < List.length ks /\ exists t, nth_error ks x = Some t /\ In t tags /\ t <> kw_comment).
  { intros x X. apply index_list0_in in X. destruct X as [t [T1 [T2 T3]]]. split; [eapply index_start_bounds; exact T3|]. apply index_start_nth in T3. exists t. auto. }
  assert (C : forall x, In x a -> i <= x < List.length ks /\ ((x = i /\ nth_error ks i = Some kw_comment /\ forall y, In y a -> y = i) \/
     exists b t, x <= b /\ nth_error ks b = Some t /\ In t tags /\ t <> kw_comment /\ forall y, In y a -> y <= b)).
  { unfold process_comment_lines in E.
    assert (B0 : index_list0 tags i ks <> [] -> exists b t, b = list_max (index_list0 tags i ks) /\ nth_error ks b = Some t /\ In t tags /\ t <> kw_comment).
    { intros N. destruct (B _ (list_max_in _ N)) as [_ [t X]]. exists (list_max (index_list0 tags i ks)), t. split; [reflexivity|exact X]. }
    assert (P : a = index_list0 tags i ks -> forall x, In x a -> i <= x < List.length ks /\ ((x = i /\ nth_error ks i = Some kw_comment /\ forall y, In y a -> y = i) \/
     exists b t, x <= b /\ nth_error ks b = Some t /\ In t tags /\ t <> kw_comment /\ forall y, In y a -> y <= b)).
    { intros -> x Hx. split; [apply B; exact Hx|]. right. destruct B0 as [b [t [-> [X1 [X2 X3]]]]]; [intros X; rewrite X in Hx; destruct Hx|].
      exists (list_max (index_list0 tags i ks)), t. split; [apply list_max_ge; exact Hx|]. repeat split; try assumption. intros y Hy. apply list_max_ge. exact Hy. }
    destruct (mem_str kw_comment tags) eqn:M; [|injection E as <-; apply P; reflexivity].
    destruct (Nat.eqb_spec (List.length tags) 1) as [L|L].
    - inv_ok E. injection E as <-. destruct (str_eqb a1 kw_comment) eqn:Ea; [|apply P; reflexivity]. apply str_eqb_eq in Ea. subst a1. apply get_ok in E1.
      assert (N0 : index_list0 tags i ks = []).
      { apply mem_str_spec in M. destruct tags as [|t [|t2 tags]]; try discriminate. destruct M as [->|[]]. unfold index_list0. cbn [filter]. rewrite str_eqb_refl. reflexivity. }
      rewrite N0. cbn [app]. intros x [<-|[]]. split; [split; [lia|apply nth_error_Some; congruence]|]. left. split; [reflexivity|]. split; [exact E1|]. intros y [<-|[]]. reflexivity.
    - destruct (index_list0 tags i ks) as [|z zs] eqn:Ez; [injection E as <-; intros x []|]. rewrite <- Ez in *.
      assert (N : index_list0 tags i ks <> []) by (rewrite Ez; discriminate). destruct (B0 N) as [b [t [Eb [X1 [X2 X3]]]]]. injection E as <-. intros x Hx.
      assert (Mx : forall y, In y (index_list0 tags i ks ++ comment_indexes ks i (list_max (index_list0 tags i ks) + 1)) -> y <= b).
      { intros y Hy. apply in_app_or in Hy. destruct Hy as [Hy|Hy]; [rewrite Eb; apply list_max_ge; exact Hy|]. apply comment_indexes_in in Hy. lia. }
      split; [|right; exists b, t; split; [apply Mx; exact Hx|]; auto]. apply in_app_or in Hx. destruct Hx as [Hx|Hx]; [apply B; exact Hx|]. apply comment_indexes_in in Hx.
      destruct Hx as [Hx1 Hx2]. split; [lia|]. apply nth_error_Some. congruence. }
  apply range_shape in E0. destruct E0 as [[-> ->]|[Na [I1 [m [I2 [Lm Em]]]]]].
  - split; [left; reflexivity|]. split; [intros e _; apply reach_refl|]. intros Ht _. unfold process_comment_lines in E.
    destruct (mem_str kw_comment tags) eqn:M; [|injection E as E; exact E]. destruct Ht as [Ht|Ht]; [discriminate|].
    rewrite (proj2 (Nat.eqb_neq _ _) Ht) in E. destruct (index_list0 tags i ks); [reflexivity|discriminate].
  - split; [right; rewrite Em; destruct (C _ I1) as [[X _] _]; destruct (C _ I2) as [[_ Y] _]; lia|]. split; [|rewrite Em; lia].
    intros e <-. split; [rewrite Em; destruct (C _ I2) as [[X _] _]; lia|]. intros x Hx. rewrite Em in Hx. destruct (C _ I2) as [_ [[-> [X _]]|[b [t [X1 [X2 [X3 [X4 X5]]]]]]]].
    + left. replace x with i by lia. exact X.
    + right. exists b, e, t. split; [lia|]. auto.
Qed.

Section Walk.
Variables (u : env) (ks : list str) (ls : list line).
Definition easy (e : elem) : Prop := forall z, In z (all_elems e) -> ~ In (e_cls z) odd_classes /\ user z = false.
Lemma easy_subs e : easy e -> Forall easy (e_subs e) /\ ~ In (e_cls e) odd_classes /\ user e = false.
Proof.
  intros H. split; [|apply H; rewrite all_elems_eq; left; reflexivity]. apply Forall_forall. intros s Hs z Hz. apply H. rewrite all_elems_eq. right. apply in_flat_map. exists s. auto.
Qed.
Lemma own_easy e i mm e1 : ~ In (e_cls e) odd_classes -> user e = false -> own_range u e ks ls i = Ok (mm, e1) ->
  e1 = e /\ get_min_max (e_kws e) i ks None (match e_single e with Some _ => true | None => false end) = Ok (mm, e_kws e).
Proof.
  intros N U H. rewrite own_range_plain in H by exact N. rewrite U in H. inv_ok H. destruct a as [m T]. pose proof (gmm_plain _ _ _ _ _ _ E) as [-> _]. injection H as <- <-.
  split; [apply set_kws_same|exact E].
Qed.
Definition walks (e : elem) : Prop := forall i mx mm e1, identify u e ks ls i = Ok (mx, mm, e1) -> reach ks (fun z => In z (all_elems e)) i mx.
Lemma list_walks s n : walks s -> forall f i mx es, identify_list (identify u s ks ls) n f i i = Ok (mx, es) -> reach ks (fun z => In z (all_elems s)) i mx.
Proof.
  intros W. induction f as [|f IH]; intros i mx es H; [discriminate|]. rewrite identify_list_S in H. inv_ok H. destruct a as [[m1 [lo hi]] e1]. pose proof (W _ _ _ _ E) as R.
  destruct (Nat.eqb m1 lo && Nat.eqb lo hi); [injection H as <- _; exact R|]. destruct (Nat.ltb i lo); [injection H as <- _; apply reach_refl|]. cbv zeta in H.
  destruct (Nat.leb n m1); [injection H as <- _; exact R|]. inv_ok H. destruct a as [m2 es2]. injection H as <- _. eapply reach_trans; [exact R|]. eapply IH. exact E0.
Qed.
Lemma subs_walk lo ss : Forall walks ss -> forall i mx gs, ident_subs u ks ls lo ss i = Ok (mx, gs) -> reach ks (fun z => In z (flat_map all_elems ss)) i mx.
Proof.
  induction 1 as [|s ss W F IH]; intros i mx gs H; cbn [ident_subs] in H; [injection H as <- _; apply reach_refl|].
  assert (M1 : forall a b, reach ks (fun z => In z (all_elems s)) a b -> reach ks (fun z => In z (flat_map all_elems (s :: ss))) a b) by (intros a b; apply reach_more; intros z Hz; cbn [flat_map]; apply in_or_app; left; exact Hz).
  assert (M2 : forall a b, reach ks (fun z => In z (flat_map all_elems ss)) a b -> reach ks (fun z => In z (flat_map all_elems (s :: ss))) a b) by (intros a b; apply reach_more; intros z Hz; cbn [flat_map]; apply in_or_app; right; exact Hz).
  destruct (e_islist s).
  - inv_ok H. destruct a as [m1 es]. inv_ok H. destruct a as [m2 g2]. injection H as <- _. eapply reach_trans; [apply M1; eapply list_walks; eassumption|apply M2; eapply IH; exact E0].
  - inv_ok H. destruct a as [[m1 smm] s1]. inv_ok H. inv_ok H. destruct a0 as [m2 g2]. injection H as <- _. eapply reach_trans; [apply M1; eapply W; exact E|apply M2; eapply IH; exact E1].
Qed.
Lemma identify_walks e : easy e -> walks e.
Proof.
  induction e as [nm cl subs kws il sg mm0 tm IH] using elem_ind'. intros F. destruct (easy_subs _ F) as [Fs [N U]]. cbn [e_subs] in Fs. intros i mx mm e1 H. rewrite identify_eq in H. inv_ok H.
  destruct a as [mm1 e2]. destruct (own_easy _ _ _ _ N U E) as [-> G]. destruct (gmm_plain _ _ _ _ _ _ G) as [_ [_ [R _]]]. specialize (R _ eq_refl). cbn [e_subs] in H.
  assert (R2 : reach ks (fun z => In z (all_elems (Elem nm cl subs kws il sg mm0 tm))) i (snd mm1)) by (eapply reach_more; [|exact R]; intros z ->; left; reflexivity).
  destruct subs as [|s ss]; [injection H as <- _ _; exact R2|]. inv_ok H. destruct a as [m2 g2]. injection H as <- _ _. eapply reach_trans; [exact R2|].
  eapply reach_more; [|eapply subs_walk; [|exact E0]]; [intros z Hz; right; exact Hz|].
  apply Forall_forall. intros s1 Hs. rewrite Forall_forall in IH, Fs. apply IH; auto.
Qed.
End Walk.

(* one field changed *)
Inductive differ (R : pyval -> pyval -> Prop) (n : string) : list (string * pyval) -> list (string * pyval) -> Prop :=
| differ_at pre x y post : ~ In n (map fst pre) -> R x y -> differ R n (pre ++ (n, x) :: post) (pre ++ (n, y) :: post).
Lemma assoc_app {B} n (pre post : list (string * B)) (x : B) : ~ In n (map fst pre) -> assoc n (pre ++ (n, x) :: post) = Some x.
Proof.
  induction pre as [|[k w] pre IH]; intros H; cbn [app assoc]; [rewrite String.eqb_refl; reflexivity|]. cbn [map fst] in H.
  destruct (String.eqb_spec k n) as [E|E]; [exfalso; apply H; left; exact E|]. apply IH. intros X. apply H. right. exact X.
Qed.
Lemma differ_assoc R n m A B : m <> n -> differ R n A B -> assoc m A = assoc m B.
Proof.
  intros N [pre x y post Np Hr]. clear Np. induction pre as [|[k w] pre IH]; cbn [app assoc].
  - destruct (String.eqb_spec n m) as [E|E]; [congruence|reflexivity].
  - destruct (String.eqb k m); [reflexivity|exact IH].
Qed.
Lemma differ_set R n m v A B : m <> n -> differ R n A B -> differ R n (set_var m v A) (set_var m v B).
Proof.
  intros N [pre x y post Np Hr]. induction pre as [|[k w] pre IH]; cbn [app set_var].
  - destruct (String.eqb_spec n m) as [E|E]; [congruence|]. apply (differ_at R n []); [exact Np|exact Hr].
  - cbn [map fst] in Np. destruct (String.eqb_spec k m) as [E|E].
    + apply (differ_at R n ((k, v) :: pre)); assumption.
    + assert (Np2 : ~ In n (map fst pre)) by (intros X; apply Np; right; exact X). specialize (IH Np2). inversion IH as [pre' x' y' post' Np' Hr' E1 E2].
      apply (differ_at R n ((k, w) :: pre') x' y' post'); [|exact Hr']. cbn [map fst]. intros [X|X]; [apply Np; left; exact X|exact (Np' X)].
Qed.
Definition add1 (w v : pyval) : pyval := match w with VList l => VList (l ++ [v]) | _ => w end.
Lemma differ_append (R : pyval -> pyval -> Prop) n m v A B : (m = n -> forall x y, R x y -> R (add1 x v) (add1 y v)) -> differ R n A B -> differ R n (append_var m v A) (append_var m v B).
Proof.
  intros Hm [pre x y post Np Hr]. induction pre as [|[k w] pre IH]; cbn [app append_var].
  - destruct (String.eqb_spec n m) as [E|E]; apply (differ_at R n []); try exact Np; [apply Hm; [symmetry; exact E|exact Hr]|exact Hr].
  - cbn [map fst] in Np. destruct (String.eqb_spec k m) as [E|E].
    + apply (differ_at R n ((k, _) :: pre)); assumption.
    + assert (Np2 : ~ In n (map fst pre)) by (intros X; apply Np; right; exact X). specialize (IH Np2). inversion IH as [pre' x' y' post' Np' Hr' E1 E2].
      apply (differ_at R n ((k, w) :: pre') x' y' post'); [|exact Hr']. cbn [map fst]. intros [X|X]; [apply Np; left; exact X|exact (Np' X)].
Qed.
Lemma attach_other R n m sub A A' B : m <> n -> differ R n A B -> attach m sub A = Ok A' -> exists B', attach m sub B = Ok B' /\ differ R n A' B'.
Proof.
  intros N D H. unfold attach in *. rewrite <- (differ_assoc R n m A B N D). destruct (assoc m A) as [x|]; [|discriminate].
  destruct x; try (injection H as <-; eexists; split; [reflexivity|apply differ_set; assumption]).
  destruct sub; injection H as <-; eexists; (split; [reflexivity|]); try exact D; apply differ_append; try exact D; intros ->; contradiction.
Qed.
Inductive put_at (d n : string) (R : pyval -> pyval -> Prop) : pyval -> pyval -> Prop :=
| at_here pre x y post : ~ In n (map fst pre) -> R x y -> put_at d n R (VObj d (pre ++ (n, x) :: post)) (VObj d (pre ++ (n, y) :: post))
| at_in c pre m x y post : put_at d n R x y -> put_at d n R (VObj c (pre ++ (m, x) :: post)) (VObj c (pre ++ (m, y) :: post))
| at_list a x y b : put_at d n R x y -> put_at d n R (VList (a ++ x :: b)) (VList (a ++ y :: b)).

(* ---- the two documents ---- *)
Section Com.
Variables (KA KB : list str) (J k0 : str) (KB' : list str).
Hypothesis EB : KB = k0 :: KB'.
Let p := List.length KA.
Let k1 := KA ++ J :: KB.
Variable xk : str.
Let k2 := KA ++ xk :: KB.
Hypothesis Xnew : xk = kw_comment \/ ~ In xk (KA ++ KB).
Hypothesis Xthin : mem_char c_sp xk = false.
Hypothesis Xuser : userk xk = false.
Hypothesis XJ : xk <> J.
Definition free (tags : list str) : Prop := xk = kw_comment \/ ~ In xk tags.
Hypothesis Jc : J <> kw_comment.
Hypothesis kc : k0 <> kw_comment.
Variable ka : str.
Hypothesis p0 : 0 < p.
Hypothesis prev : nth_error k1 (p - 1) = Some ka.
Hypothesis ac : ka <> kw_comment.

Lemma nth_same n : n <> p -> nth_error k1 n = nth_error k2 n.
Proof.
  intros N. unfold k1, k2. destruct (le_lt_dec p n) as [L|L]; [|rewrite !nth_error_app1 by exact L; reflexivity]. rewrite !nth_error_app2 by exact L. fold p.
  destruct (n - p) as [|m] eqn:E; [lia|reflexivity].
Qed.
Lemma nth_p1 : nth_error k1 p = Some J.
Proof. unfold k1, p. rewrite nth_error_app2, Nat.sub_diag by lia. reflexivity. Qed.
Lemma nth_p2 : nth_error k2 p = Some xk.
Proof. unfold k2, p. rewrite nth_error_app2, Nat.sub_diag by lia. reflexivity. Qed.
Lemma nth_next : nth_error k1 (S p) = Some k0.
Proof. unfold k1, p. rewrite EB, nth_error_app2 by lia. replace (S (List.length KA) - List.length KA) with 1 by lia. reflexivity. Qed.
Lemma len_same : List.length k1 = List.length k2.
Proof. unfold k1, k2. rewrite !app_length. reflexivity. Qed.
Lemma get_same n : n <> p -> get k1 n = get k2 n.
Proof. intros N. unfold get. rewrite (nth_same n N). reflexivity. Qed.
Lemma skip_high i : p < i -> skipn i k1 = skipn i k2.
Proof.
  intros L. unfold k1, k2. rewrite !skipn_app, !(skipn_all2 KA) by (fold p; lia). fold p. destruct (i - p) as [|m] eqn:E; [lia|reflexivity].
Qed.
Lemma index_same t i : t <> J -> t <> xk -> index_start t k1 i = index_start t k2 i.
Proof.
  intros N1 N2. unfold index_start. destruct (le_lt_dec i p) as [L|L]; [|rewrite (skip_high i L); reflexivity]. unfold k1, k2. rewrite !skipn_app. fold p. replace (i - p) with 0 by lia.
  cbn [skipn]. rewrite !(index_from_app KA). cbn [index_from]. rewrite (proj2 (str_eqb_neq J t)), (proj2 (str_eqb_neq xk t)) by congruence. reflexivity.
Qed.
Lemma list0_same tags i : ~ In J tags -> free tags -> index_list0 tags i k1 = index_list0 tags i k2.
Proof.
  intros N Fr. unfold index_list0. induction tags as [|t tags IH]; [reflexivity|]. assert (N2 : ~ In J tags) by (intros Q; apply N; right; exact Q).
  assert (F2 : free tags) by (destruct Fr as [Fr|Fr]; [left; exact Fr|right; intros Q; apply Fr; right; exact Q]).
  specialize (IH N2 F2). cbn [filter]. destruct (str_eqb t kw_comment) eqn:E; cbn [negb]; [exact IH|]. apply str_eqb_neq in E. cbn [filter_map]. rewrite (index_same t i); [|intros ->; apply N; left; reflexivity|].
  2:{ destruct Fr as [Fr|Fr]; [congruence|]. intros ->. apply Fr. left. reflexivity. }
  destruct (index_start t k2 i); rewrite IH; reflexivity.
Qed.
Lemma list0_high tags i : p < i -> index_list0 tags i k1 = index_list0 tags i k2.
Proof. intros L. unfold index_list0, index_start. rewrite (skip_high i L). reflexivity. Qed.
Lemma comments_same a b : b <= p \/ p < a -> comment_indexes k1 a b = comment_indexes k2 a b.
Proof.
  intros H. unfold comment_indexes. rewrite len_same. apply filter_ext_in. intros x Hx. apply in_seq in Hx. rewrite nth_same by lia. reflexivity.
Qed.
Lemma range_same il i sg : (forall x, In x il -> x < p) \/ (forall x, In x il -> p < x) -> range_of_indices il i k1 sg = range_of_indices il i k2 sg.
Proof.
  intros H. rewrite !range_trim. destruct il as [|x il]; [reflexivity|]. set (l := x :: il) in *. assert (Ns : sort_nat l <> []) by (apply sort_ne; discriminate).
  assert (T : trim (sort_nat l) k1 = trim (sort_nat l) k2); [|rewrite T; reflexivity].
  assert (G : map_res (get k1) (gap (sort_nat l)) = map_res (get k2) (gap (sort_nat l))).
  { assert (A : forall y, In y (gap (sort_nat l)) -> y <> p).
    { intros y Hy. unfold gap in Hy. apply filter_In in Hy. destruct Hy as [Hy _]. apply in_seq in Hy.
      pose proof (proj1 (sort_nat_in _ _) (list_min_in _ Ns)) as M1. pose proof (proj1 (sort_nat_in _ _) (list_max_in _ Ns)) as M2.
      assert (list_min (sort_nat l) <= list_max (sort_nat l)) by (apply list_min_le, list_max_in, Ns). destruct H as [H|H]; specialize (H _ M1) as H1; specialize (H _ M2) as H2; lia. }
    revert A. generalize (gap (sort_nat l)). clear H Ns. clear l il x. intros g. induction g as [|y g IH]; intros A; [reflexivity|]. cbn [map_res]. rewrite (get_same y (A y (or_introl eq_refl))), IH; [reflexivity|].
    intros z Hz. apply A. right. exact Hz. }
  unfold trim. destruct (gap (sort_nat l)); [reflexivity|]. rewrite G. reflexivity.
Qed.

(* elements that have no line behind the place *)
Definition low1 (z : elem) : Prop :=
  ~ In (e_cls z) odd_classes /\ user z = false /\ (~ In J (e_kws z) /\ free (e_kws z)) /\
  forall a t, nth_error k1 a = Some t -> In t (e_kws z) -> t <> kw_comment -> a < p - 1.
Definition low (e : elem) : Prop := forall z, In z (all_elems e) -> low1 z.
Lemma low_reach (Z : elem -> Prop) i mx : (forall z, Z z -> low1 z) -> i < p -> reach k1 Z i mx -> mx < p.
Proof.
  intros H L [R1 R2]. destruct (le_lt_dec p mx) as [X|X]; [|exact X]. exfalso. destruct (R2 (p - 1)) as [Y|[b [z [t [Y1 [Y2 [Y3 [Y4 Y5]]]]]]]]; [lia|congruence|].
  destruct (H z Y2) as [_ [_ [_ Hz]]]. specialize (Hz b t Y3 Y4 Y5). lia.
Qed.
Lemma gmm_low e i sg : low1 e -> i < p -> get_min_max (e_kws e) i k1 None sg = get_min_max (e_kws e) i k2 None sg.
Proof.
  intros [_ [_ [[NJ Fr] H]]] L. unfold get_min_max. cbn [extend_tags]. rewrite <- (list0_same _ i NJ Fr).
  assert (B : forall x, In x (index_list0 (e_kws e) i k1) -> x < p - 1).
  { intros x X. apply index_list0_in in X. destruct X as [t [T1 [T2 T3]]]. apply index_start_nth in T3. exact (H x t T3 T1 T2). }
  assert (P : process_comment_lines (e_kws e) i k1 (index_list0 (e_kws e) i k1) = process_comment_lines (e_kws e) i k2 (index_list0 (e_kws e) i k1) /\
     forall il, process_comment_lines (e_kws e) i k1 (index_list0 (e_kws e) i k1) = Ok il -> forall x, In x il -> x < p).
  { unfold process_comment_lines. destruct (mem_str kw_comment (e_kws e)); [|split; [reflexivity|intros il X; injection X as <-; intros x Hx; specialize (B x Hx); lia]].
    destruct (Nat.eqb _ 1).
    - rewrite (get_same i) by lia. split; [reflexivity|]. intros il X. inv_ok X. injection X as <-. intros x Hx. destruct (str_eqb a kw_comment); [|specialize (B x Hx); lia].
      apply in_app_or in Hx. destruct Hx as [Hx|[<-|[]]]; [specialize (B x Hx); lia|exact L].
    - destruct (index_list0 (e_kws e) i k1) as [|z zs] eqn:Ez; [split; [reflexivity|intros il X; injection X as <-; intros x []]|]. rewrite <- Ez in *.
      assert (N : index_list0 (e_kws e) i k1 <> []) by (rewrite Ez; discriminate). pose proof (B _ (list_max_in _ N)) as M. rewrite comments_same by lia. split; [reflexivity|].
      intros il X. injection X as <-. intros x Hx. apply in_app_or in Hx. destruct Hx as [Hx|Hx]; [specialize (B x Hx); lia|]. apply comment_indexes_in in Hx. lia. }
  destruct P as [P1 P2]. rewrite <- P1. destruct (process_comment_lines (e_kws e) i k1 (index_list0 (e_kws e) i k1)) as [il|] eqn:E; [|reflexivity]. cbn [bind].
  rewrite (range_same il i sg (or_introl (P2 il eq_refl))). reflexivity.
Qed.
Lemma gmm_high tags i pre sg : p < i -> get_min_max tags i k1 pre sg = get_min_max tags i k2 pre sg.
Proof.
  intros L. unfold get_min_max. assert (T : extend_tags tags i k1 pre = extend_tags tags i k2 pre) by (unfold extend_tags; rewrite (skip_high i L); reflexivity). rewrite <- T.
  set (G := extend_tags tags i k1 pre). clearbody G. rewrite <- (list0_high G i L).
  assert (B : forall x, In x (index_list0 G i k1) -> p < x).
  { intros x X. apply index_list0_in in X. destruct X as [t [T1 [T2 T3]]]. apply index_start_bounds in T3. lia. }
  assert (P : process_comment_lines G i k1 (index_list0 G i k1) = process_comment_lines G i k2 (index_list0 G i k1) /\
     forall il, process_comment_lines G i k1 (index_list0 G i k1) = Ok il -> forall x, In x il -> p < x).
  { unfold process_comment_lines. destruct (mem_str kw_comment G); [|split; [reflexivity|intros il X; injection X as <-; exact B]].
    destruct (Nat.eqb _ 1).
    - rewrite (get_same i) by lia. split; [reflexivity|]. intros il X. inv_ok X. injection X as <-. intros x Hx. destruct (str_eqb a kw_comment); [|exact (B x Hx)].
      apply in_app_or in Hx. destruct Hx as [Hx|[<-|[]]]; [exact (B x Hx)|exact L].
    - destruct (index_list0 G i k1) as [|z zs] eqn:Ez; [split; [reflexivity|intros il X; injection X as <-; intros x []]|]. rewrite <- Ez in *.
      rewrite comments_same by lia. split; [reflexivity|].
      intros il X. injection X as <-. intros x Hx. apply in_app_or in Hx. destruct Hx as [Hx|Hx]; [exact (B x Hx)|]. apply comment_indexes_in in Hx. lia. }
  destruct P as [P1 P2]. rewrite <- P1. destruct (process_comment_lines G i k1 (index_list0 G i k1)) as [il|] eqn:E; [|reflexivity]. cbn [bind].
  rewrite (range_same il i sg (or_intror (P2 il eq_refl))). reflexivity.
Qed.
(* no line at all *)
Lemma gmm_none ks tags i sg : (mem_str kw_comment tags = false \/ List.length tags <> 1) -> index_list0 tags i ks = [] -> get_min_max tags i ks None sg = Ok ((i, i), tags).
Proof.
  intros H N. unfold get_min_max. cbn [extend_tags]. rewrite N. unfold process_comment_lines. destruct (mem_str kw_comment tags); [|reflexivity]. destruct H as [H|H]; [discriminate|].
  rewrite (proj2 (Nat.eqb_neq _ _) H). reflexivity.
Qed.

(* ---- the section around the comment ---- *)
Variable q : nat.
Hypothesis pq : S p < q.
Hypothesis once : forall a b k, a < q -> b < q -> nth_error k1 a = Some k -> nth_error k1 b = Some k -> k <> kw_comment -> a = b.
Hypothesis thin : forall a k, a < q -> nth_error k1 a = Some k -> mem_char c_sp k = false.
Definition around (z : elem) : Prop :=
  ~ In (e_cls z) odd_classes /\ user z = false /\ ~ In J (e_kws z) /\ e_single z = None /\ In ka (e_kws z) /\ In k0 (e_kws z) /\ (In kw_comment (e_kws z) /\ In xk (e_kws z)) /\
  (forall t a, In t (e_kws z) -> t <> kw_comment -> nth_error k1 a = Some t -> a < q).
Lemma index_found t a i ks : nth_error ks a = Some t -> i <= a -> index_start t ks i <> None.
Proof.
  intros N L E. unfold index_start in E. assert (X : forall l s, index_from t s l = None -> ~ In t l).
  { clear. induction l as [|x l IH]; intros s H; [intros []|]. cbn [index_from] in H. destruct (str_eqb x t) eqn:E; [discriminate|]. intros [->|X]; [rewrite str_eqb_refl in E; discriminate|exact (IH _ H X)]. }
  apply (X _ _ E). assert (La : a < List.length ks) by (apply nth_error_Some; congruence). rewrite <- (firstn_skipn i ks) in N. rewrite nth_error_app2 in N by (rewrite firstn_length; lia).
  eapply nth_error_In. exact N.
Qed.
Lemma fresh1 a : nth_error k1 a = Some xk -> xk = kw_comment.
Proof.
  intros H. destruct Xnew as [E|N]; [exact E|]. exfalso. apply nth_error_In in H. unfold k1 in H. apply in_app_or in H. apply N, in_or_app.
  destruct H as [H|[H|H]]; [left; exact H|congruence|right; exact H].
Qed.
Lemma around_found z a t i : around z -> nth_error k1 a = Some t -> In t (e_kws z) -> t <> kw_comment -> i <= a -> In a (index_list0 (e_kws z) i k1).
Proof.
  intros [_ [_ [_ [_ [_ [_ [_ H]]]]]]] N I C L. apply index_list0_in. exists t. split; [exact I|]. split; [exact C|].
  destruct (index_start t k1 i) as [b|] eqn:E.
  - pose proof (index_start_nth _ _ _ _ E) as E2. rewrite (once b a t); auto; [apply (H t b)|apply (H t a)]; assumption.
  - exfalso. exact (index_found t a i k1 N L E).
Qed.
Lemma calm_both z i il x : around z -> x = J \/ x = xk -> process_comment_lines (e_kws z) i (KA ++ x :: KB) (index_list0 (e_kws z) i (KA ++ x :: KB)) = Ok il -> il <> [] ->
  trim (sort_nat il) (KA ++ x :: KB) = Ok (sort_nat il) \/ exists er, trim (sort_nat il) (KA ++ x :: KB) = Err er /\ exists y, In y (gap (sort_nat il)) /\ List.length (KA ++ x :: KB) <= y.
Proof.
  intros A Hx H Ne. destruct A as [_ [_ [_ [_ [_ [Ik [[Ic Ix] Nq]]]]]]].
  assert (Nx : forall a k, nth_error (KA ++ x :: KB) a = Some k -> k <> kw_comment -> nth_error k1 a = Some k \/ (a = p /\ k = xk)).
  { intros a k X Y. destruct Hx as [->| ->]; [left; exact X|]. destruct (Nat.eq_dec a p) as [->|N]; [right; fold k2 in X; rewrite nth_p2 in X; split; congruence|]. left. rewrite nth_same by exact N. exact X. }
  assert (Ex : (KA ++ [x]) ++ KB = KA ++ x :: KB) by (rewrite <- app_assoc; reflexivity).
  pose proof (calm (KA ++ [x]) KB k0 KB' EB kc q) as C. rewrite !Ex in C. specialize (C ltac:(rewrite app_length; cbn; fold p; lia)).
  assert (C1 : forall a b k, a < q -> b < q -> nth_error (KA ++ x :: KB) a = Some k -> nth_error (KA ++ x :: KB) b = Some k -> k <> kw_comment -> a = b).
  { intros a b k La Lb Ha Hb Nk. destruct (Nx a k Ha Nk) as [Ha1|[-> ->]], (Nx b _ Hb Nk) as [Hb1|[Hb1 Hb2]].
    - exact (once a b k La Lb Ha1 Hb1 Nk).
    - subst k. destruct (Nk (fresh1 _ Ha1)).
    - destruct (Nk (fresh1 _ Hb1)).
    - congruence. }
  assert (C2 : forall a k, a < q -> nth_error (KA ++ x :: KB) a = Some k -> mem_char c_sp k = false).
  { intros a k La Ha. destruct (str_eqb k kw_comment) eqn:E; [apply str_eqb_eq in E; subst k; reflexivity|]. apply str_eqb_neq in E. destruct (Nx a k Ha E) as [Hk|[-> ->]]; [exact (thin a k La Hk)|exact Xthin]. }
  specialize (C C1 C2 (e_kws z) i il). assert (Nr : near (KA ++ [x]) KB k0 q (e_kws z)).
  { intros _. split; [exact Ic|]. intros t a It Nt Ha. rewrite Ex in Ha. destruct (Nx a t Ha Nt) as [Hk|[-> _]]; [exact (Nq t a It Nt Hk)|lia]. }
  specialize (C Nr Ik H Ne).
  assert (Tr : trim (sort_nat il) (KA ++ x :: KB) = do dk <- map_res (get (KA ++ x :: KB)) (gap (sort_nat il)); if cramped dk then chop (list_min (sort_nat il)) (list_max (sort_nat il)) (sort_nat il) else Ok (sort_nat il)).
  { unfold trim. destruct (gap (sort_nat il)); reflexivity. }
  rewrite Tr. clear Tr. destruct (map_res (get (KA ++ x :: KB)) (gap (sort_nat il))) as [dk|er] eqn:M; [left; cbn [bind]; rewrite (C dk eq_refl); reflexivity|]. right. exists er. split; [reflexivity|].
  clear - M. revert er M. generalize (gap (sort_nat il)). induction l as [|y l IH]; intros er M; [discriminate|]. cbn [map_res] in M. unfold get at 1 in M. destruct (nth_error (KA ++ x :: KB) y) as [k|] eqn:E.
  - cbn [guard_opt bind] in M. destruct (map_res (get (KA ++ x :: KB)) l) as [ks|er2]; [discriminate|]. destruct (IH er2 eq_refl) as [y2 [Y1 Y2]]. exists y2. split; [right; exact Y1|exact Y2].
  - exists y. split; [left; reflexivity|]. apply nth_error_None. exact E.
Qed.
Lemma gmm_around z i mm T : around z -> i < p -> get_min_max (e_kws z) i k1 None false = Ok (mm, T) ->
  get_min_max (e_kws z) i k2 None false = Ok (mm, T) /\ T = e_kws z /\ fst mm < p /\ p < snd mm /\ i <= fst mm.
Proof.
  intros A L H. pose proof A as [_ [_ [NJ [_ [Ia [Ik [[Ic Ix] Nq]]]]]]]. pose proof (gmm_plain _ _ _ _ _ _ H) as [-> [Hs _]].
  pose proof (around_found z (p - 1) ka i A prev Ia ac ltac:(lia)) as F1. pose proof (around_found z (S p) k0 i A nth_next Ik kc ltac:(lia)) as F2.
  assert (Ln : List.length (e_kws z) <> 1).
  { intros X. destruct (e_kws z) as [|t [|t2 r]]; try discriminate. destruct Ic as [Q1|[]], Ia as [Q2|[]]. congruence. }
  unfold get_min_max in *. cbn [extend_tags] in *.
  assert (T2 : forall x, In x (index_list0 (e_kws z) i k2) <-> In x (index_list0 (e_kws z) i k1) \/ (x = p /\ xk <> kw_comment)).
  { intros x. rewrite !index_list0_in. split.
    - intros [t [X1 [X2 X3]]]. destruct (list_eq_dec N.eq_dec t xk) as [->|Nt].
      + right. split; [|exact X2]. apply index_start_nth in X3. destruct (Nat.eq_dec x p) as [->|Np]; [reflexivity|]. rewrite <- nth_same in X3 by exact Np. destruct (X2 (fresh1 _ X3)).
      + left. exists t. rewrite index_same by congruence. auto.
    - intros [[t [X1 [X2 X3]]]|[-> X]].
      + exists t. rewrite <- index_same; [auto|intros ->; exact (NJ X1)|]. intros ->. exact (X2 (fresh1 _ (index_start_nth _ _ _ _ X3))).
      + exists xk. split; [exact Ix|]. split; [exact X|]. destruct (index_start xk k2 i) as [b|] eqn:Eb; [|destruct (index_found xk p i k2 nth_p2 ltac:(lia) Eb)].
        apply index_start_nth in Eb. destruct (Nat.eq_dec b p) as [->|Np]; [reflexivity|]. rewrite <- nth_same in Eb by exact Np. destruct (X (fresh1 _ Eb)). }
  set (t0 := index_list0 (e_kws z) i k1) in *. set (t2 := index_list0 (e_kws z) i k2) in *.
  assert (N0 : t0 <> []) by (intros X; rewrite X in F1; destruct F1).
  assert (N2 : t2 <> []) by (intros X; assert (Y : In (p - 1) t2) by (apply T2; left; exact F1); rewrite X in Y; destruct Y).
  assert (P : forall ks l, l <> [] -> process_comment_lines (e_kws z) i ks l = Ok (l ++ comment_indexes ks i (list_max l + 1))).
  { intros ks l Nl. unfold process_comment_lines. rewrite (proj2 (mem_str_spec _ _) Ic), (proj2 (Nat.eqb_neq _ _) Ln). destruct l; [congruence|reflexivity]. }
  assert (M0 : S p <= list_max t0) by (apply list_max_ge; exact F2).
  assert (M2 : list_max t2 = list_max t0).
  { apply Nat.le_antisymm; [|apply list_max_ge, T2; left; apply list_max_in; exact N0]. pose proof (proj1 (T2 _) (list_max_in _ N2)) as [X|[X _]]; [apply list_max_ge; exact X|lia]. }
  rewrite (P k1 t0 N0) in H. rewrite (P k2 t2 N2), M2. cbn [bind] in *. inv_ok H. injection H as ->. set (il1 := t0 ++ comment_indexes k1 i (list_max t0 + 1)) in *. set (il2 := t2 ++ comment_indexes k2 i (list_max t0 + 1)) in *.
  assert (Bt : forall x, In x t0 -> i <= x < List.length k1).
  { intros x X. apply index_list0_in in X. destruct X as [t [_ [_ X]]]. exact (index_start_bounds _ _ _ _ X). }
  assert (Ne1 : il1 <> []) by (unfold il1; destruct t0; [congruence|discriminate]). assert (Ne2 : il2 <> []) by (unfold il2; destruct t2; [congruence|discriminate]).
  assert (In12 : forall x, In x il2 <-> In x il1 \/ x = p).
  { intros x. unfold il1, il2. rewrite !in_app_iff, !comment_indexes_in. split.
    - intros [X|[X1 X2]]; [apply T2 in X; destruct X as [X|[X _]]; [left; left; exact X|right; exact X]|]. destruct (Nat.eq_dec x p) as [->|N]; [right; reflexivity|]. left. right. rewrite nth_same by exact N. auto.
    - intros [[X|[X1 X2]]| ->]; [left; apply T2; left; exact X|right|].
      + split; [exact X1|]. rewrite <- nth_same; [exact X2|]. intros ->. rewrite nth_p1 in X2. congruence.
      + destruct (list_eq_dec N.eq_dec xk kw_comment) as [Ec|Ec]; [right; split; [lia|]; rewrite <- Ec; exact nth_p2|left; apply T2; right; split; [reflexivity|exact Ec]]. }
  assert (Mx : forall il, il = il1 \/ il = il2 -> list_max (sort_nat il) = list_max t0).
  { intros il Hi. assert (Ni : il <> []) by (destruct Hi as [->| ->]; assumption). apply Nat.le_antisymm.
    - pose proof (proj1 (sort_nat_in _ _) (list_max_in _ (sort_ne _ Ni))) as I. assert (X : In (list_max (sort_nat il)) il2) by (destruct Hi as [->| ->]; [apply In12; left|]; exact I).
      unfold il2 in X. apply in_app_or in X. destruct X as [X|X]; [rewrite <- M2; apply list_max_ge; exact X|apply comment_indexes_in in X; lia].
    - apply list_max_ge, (proj2 (sort_nat_in _ _)). destruct Hi as [->| ->]; unfold il1, il2; apply in_or_app; left; [|apply T2; left]; apply list_max_in; exact N0. }
  assert (Pi : In (p - 1) il1) by (unfold il1; apply in_or_app; left; exact F1).
  assert (Mn : list_min (sort_nat il2) = list_min (sort_nat il1)).
  { pose proof (sort_ne _ Ne1) as S1. pose proof (sort_ne _ Ne2) as S2. apply Nat.le_antisymm.
    - apply list_min_le, (proj2 (sort_nat_in _ _)), In12. left. apply (proj1 (sort_nat_in _ _)), list_min_in, S1.
    - pose proof (proj1 (sort_nat_in _ _) (list_min_in _ S2)) as I. apply In12 in I. destruct I as [I|I]; [apply list_min_le, (proj2 (sort_nat_in _ _)), I|].
      rewrite I. pose proof (list_min_le (sort_nat il1) (p - 1) (proj2 (sort_nat_in _ _) Pi)). lia. }
  assert (Fin : forall il, il = il1 \/ il = il2 -> forall y, In y (gap (sort_nat il)) -> y < List.length k1).
  { intros il Hi y Hy. unfold gap in Hy. apply filter_In in Hy. destruct Hy as [Hy _]. apply in_seq in Hy. rewrite (Mx il Hi) in Hy. pose proof (Bt _ (list_max_in _ N0)).
    pose proof (list_min_le (sort_nat il) (list_max (sort_nat il))) as Z. rewrite (Mx il Hi) in Z.
    assert (In (list_max t0) (sort_nat il)) by (rewrite <- (Mx il Hi); apply list_max_in, sort_ne; destruct Hi as [->| ->]; assumption). specialize (Z H0). lia. }
  rewrite range_trim in E |- *.
  assert (T1 : trim (sort_nat il1) k1 = Ok (sort_nat il1)).
  { destruct (calm_both z i il1 J A (or_introl eq_refl)) as [X|[er [_ [y [Y1 Y2]]]]]; [exact (P k1 t0 N0)|exact Ne1|exact X|]. pose proof (Fin il1 (or_introl eq_refl) y Y1). fold k1 in Y2. lia. }
  assert (T3 : trim (sort_nat il2) k2 = Ok (sort_nat il2)).
  { destruct (calm_both z i il2 xk A (or_intror eq_refl)) as [X|[er [_ [y [Y1 Y2]]]]]; [fold k2; unfold il2; rewrite <- M2; exact (P k2 t2 N2)|exact Ne2|exact X|].
    pose proof (Fin il2 (or_intror eq_refl) y Y1). fold k2 in Y2. rewrite len_same in *. lia. }
  assert (Eq : forall il (ks : list str), il <> [] -> trim (sort_nat il) ks = Ok (sort_nat il) ->
     (do r <- match il with [] => Ok [] | _ :: _ => trim (sort_nat il) ks end; match r with [] => Ok (i, i) | _ :: _ => Ok (list_min r, list_max r + 1) end) = Ok (list_min (sort_nat il), list_max (sort_nat il) + 1)).
  { intros il ks Ni Ti. rewrite Ti. pose proof (sort_ne _ Ni) as Si. destruct il as [|x il]; [congruence|]. cbn [bind]. destruct (sort_nat (x :: il)); [congruence|reflexivity]. }
  rewrite (Eq il1 k1 Ne1 T1) in E. rewrite (Eq il2 k2 Ne2 T3), Mn, (Mx il2 (or_intror eq_refl)). rewrite (Mx il1 (or_introl eq_refl)) in E. injection E as <-. cbn [bind fst snd].
  split; [reflexivity|]. split; [reflexivity|]. pose proof (list_min_le (sort_nat il1) (p - 1) (proj2 (sort_nat_in _ _) Pi)). split; [lia|]. split; [lia|].
  pose proof (proj1 (sort_nat_in _ _) (list_min_in _ (sort_ne _ Ne1))) as I. unfold il1 at 2 in I. apply in_app_or in I. destruct I as [I|I]; [apply Bt in I; lia|apply comment_indexes_in in I; lia].
Qed.

(* ---- identification ---- *)
Variables (u : env) (y1 y2 : list line).
Hypothesis ylen : List.length y1 = List.length y2.
Definition out (mm : nat * nat) : Prop := snd mm <= p \/ p < fst mm.
Definition tame (z : elem) : Prop := ~ In (e_cls z) odd_classes.
Definition avoid (e : elem) : Prop := forall z, In z (all_elems e) -> out (e_mm z) /\ tame z.
Lemma avoid_set e mm : Forall avoid (e_subs e) -> tame e -> out mm -> avoid (set_mm e mm).
Proof.
  intros F N O z Hz. rewrite all_elems_eq in Hz. destruct Hz as [<-|Hz]; [split; [exact O|exact N]|]. cbn [set_mm e_subs] in Hz. apply in_flat_map in Hz. destruct Hz as [s [H1 H2]].
  rewrite Forall_forall in F. exact (F s H1 z H2).
Qed.
Lemma ident_subs_app ks ls lo l1 l2 : forall i, ident_subs u ks ls lo (l1 ++ l2) i =
  do g <- ident_subs u ks ls lo l1 i; let '(m, g1) := g in do h <- ident_subs u ks ls lo l2 m; let '(m2, g2) := h in Ok (m2, g1 ++ g2).
Proof.
  induction l1 as [|s l1 IH]; intros i; cbn [app ident_subs bind].
  - destruct (ident_subs u ks ls lo l2 i) as [[m g]|]; reflexivity.
  - destruct (e_islist s).
    + destruct (identify_list (identify u s ks ls) (List.length ls) (S (List.length ks)) i i) as [[m es]|]; [|reflexivity]. cbn [bind]. rewrite IH.
      destruct (ident_subs u ks ls lo l1 m) as [[m1 g1]|]; [|reflexivity]. cbn [bind]. destruct (ident_subs u ks ls lo l2 m1) as [[m2 g2]|]; [|reflexivity]. cbn [bind]. rewrite app_assoc. reflexivity.
    + destruct (identify u s ks ls i) as [[[m smm] s1]|]; [|reflexivity]. cbn [bind].
      destruct (if Nat.eqb (fst smm) (snd smm) && match e_subs s1 with [] => true | _ => false end then do r2 <- own_range u s1 ks ls lo; Ok (set_mm (snd r2) (fst r2)) else Ok (set_mm s1 smm)) as [s2|]; [|reflexivity].
      cbn [bind]. rewrite IH. destruct (ident_subs u ks ls lo l1 m) as [[m1 g1]|]; [|reflexivity]. cbn [bind]. destruct (ident_subs u ks ls lo l2 m1) as [[m2 g2]|]; reflexivity.
Qed.

Section Zone.
Variables (W : nat -> Prop) (C : elem -> Prop).
Hypothesis own_zone : forall e i mm e1, C e -> W i -> own_range u e k1 y1 i = Ok (mm, e1) ->
  own_range u e k2 y2 i = Ok (mm, e1) /\ W (fst mm) /\ W (snd mm) /\ out mm /\ e_subs e1 = e_subs e /\ forall gs, C (set_subs e1 gs).
Hypothesis tame_zone : forall e, C e -> tame e.
Definition zoned (e : elem) : Prop := forall i mx mm e1, W i -> identify u e k1 y1 i = Ok (mx, mm, e1) ->
  identify u e k2 y2 i = Ok (mx, mm, e1) /\ W mx /\ out mm /\ Forall avoid (e_subs e1) /\ C e1.
Lemma list_zoned s n : zoned s -> forall f i mx es, W i -> identify_list (identify u s k1 y1) n f i i = Ok (mx, es) ->
  identify_list (identify u s k2 y2) n f i i = Ok (mx, es) /\ W mx /\ Forall avoid es.
Proof.
  intros Z. induction f as [|f IH]; intros i mx es Wi H; [discriminate|]. rewrite identify_list_S in H |- *. inv_ok H. destruct a as [[m1 [lo hi]] e1].
  destruct (Z i m1 (lo, hi) e1 Wi E) as [E2 [W1 [O [F C1]]]]. apply tame_zone in C1. rewrite E2. cbn [bind]. destruct (Nat.eqb m1 lo && Nat.eqb lo hi); [injection H as <- <-; auto|].
  destruct (Nat.ltb i lo); [injection H as <- <-; auto|]. cbv zeta in *. destruct (Nat.leb n m1).
  - injection H as <- <-. split; [reflexivity|]. split; [exact W1|]. constructor; [apply avoid_set; assumption|constructor].
  - inv_ok H. destruct a as [m2 es2]. injection H as <- <-. destruct (IH m1 m2 es2 W1 E0) as [E3 [W2 F2]]. rewrite E3. cbn [bind]. split; [reflexivity|]. split; [exact W2|].
    constructor; [apply avoid_set; assumption|exact F2].
Qed.
Lemma subs_zoned lo ss : W lo -> Forall zoned ss -> forall i mx gs, W i -> ident_subs u k1 y1 lo ss i = Ok (mx, gs) ->
  ident_subs u k2 y2 lo ss i = Ok (mx, gs) /\ W mx /\ Forall avoid gs.
Proof.
  intros Wl. induction 1 as [|s ss Z F IH]; intros i mx gs Wi H; cbn [ident_subs] in *; [injection H as <- <-; auto|]. rewrite <- len_same, <- ylen. destruct (e_islist s).
  - inv_ok H. destruct a as [m1 es]. inv_ok H. destruct a as [m2 g2]. injection H as <- <-. destruct (list_zoned s _ Z _ _ _ _ Wi E) as [-> [W1 F1]]. cbn [bind].
    destruct (IH m1 m2 g2 W1 E0) as [-> [W2 F2]]. cbn [bind]. split; [reflexivity|]. split; [exact W2|]. apply Forall_app. auto.
  - inv_ok H. destruct a as [[m1 smm] s1]. inv_ok H. inv_ok H. destruct a0 as [m2 g2]. injection H as <- <-. destruct (Z i m1 smm s1 Wi E) as [-> [W1 [O [F1 C1]]]]. cbn [bind].
    destruct (IH m1 m2 g2 W1 E1) as [-> [W2 F2]].
    assert (R : (if Nat.eqb (fst smm) (snd smm) && match e_subs s1 with [] => true | _ => false end then do r2 <- own_range u s1 k2 y2 lo; Ok (set_mm (snd r2) (fst r2)) else Ok (set_mm s1 smm)) = Ok a /\ avoid a).
    { destruct (Nat.eqb (fst smm) (snd smm) && match e_subs s1 with [] => true | _ => false end) eqn:B.
      - inv_ok E0. destruct a0 as [mm2 s2]. injection E0 as <-. destruct (own_zone s1 lo mm2 s2 C1 Wl E2) as [-> [_ [_ [O2 [Es Cs]]]]]. cbn [bind fst snd]. split; [reflexivity|].
        apply avoid_set; [rewrite Es; exact F1|exact (tame_zone _ (Cs []))|exact O2].
      - injection E0 as <-. split; [reflexivity|]. apply avoid_set; [exact F1|exact (tame_zone _ C1)|exact O]. }
    destruct R as [-> Ra]. cbn [bind]. split; [reflexivity|]. split; [exact W2|]. constructor; assumption.
Qed.
Lemma all_zoned e : (forall z, In z (all_elems e) -> C z) -> zoned e.
Proof.
  induction e as [nm cl subs kws il sg mm0 tm IH] using elem_ind'. intros Hc i mx mm e1 Wi H. rewrite identify_eq in H |- *. inv_ok H. destruct a as [mm1 e2].
  destruct (own_zone _ _ _ _ (Hc _ (or_introl eq_refl)) Wi E) as [-> [W1 [W2 [O [Es Cs]]]]]. cbn [bind e_subs] in *. destruct subs as [|s ss].
  - injection H as <- <- <-. rewrite Es. specialize (Cs (e_subs e2)). replace (set_subs e2 (e_subs e2)) with e2 in Cs by (destruct e2; reflexivity). auto.
  - inv_ok H. destruct a as [m2 g2]. injection H as <- <- <-. assert (Fz : Forall zoned (s :: ss)).
    { apply Forall_forall. intros x Hx. rewrite Forall_forall in IH. apply IH; [exact Hx|]. intros z Hz. apply Hc. right. apply in_flat_map. exists x. auto. }
    destruct (subs_zoned (fst mm1) (s :: ss) W1 Fz (snd mm1) m2 g2 W2 E0) as [-> [W3 F3]]. cbn [bind]. split; [reflexivity|]. split; [exact W3|]. split; [exact O|]. split; [exact F3|apply Cs].
Qed.
End Zone.

Lemma low_zone e i mm e1 : low1 e -> i < p -> own_range u e k1 y1 i = Ok (mm, e1) ->
  own_range u e k2 y2 i = Ok (mm, e1) /\ fst mm < p /\ snd mm < p /\ out mm /\ e_subs e1 = e_subs e /\ forall gs, low1 (set_subs e1 gs).
Proof.
  intros Lw L H. pose proof Lw as [N [Ue [NJ Hl]]]. destruct (own_easy u k1 y1 e i mm e1 N Ue H) as [-> G]. destruct (gmm_plain _ _ _ _ _ _ G) as [_ [S [R _]]].
  assert (M : snd mm < p) by (apply (low_reach (fun z => z = e) i); [intros z ->; exact Lw|exact L|apply R; reflexivity]).
  rewrite own_range_plain, Ue, <- (gmm_low e i _ Lw L), G by exact N. cbn [bind]. rewrite set_kws_same. split; [reflexivity|].
  assert (fst mm <= snd mm) by (destruct S as [->|[[S1 S2] S3]]; cbn [fst snd]; lia). split; [lia|]. split; [exact M|]. split; [left; lia|]. split; [reflexivity|]. intros gs. exact Lw.
Qed.
Definition high1 (z : elem) : Prop := ~ In (e_cls z) odd_classes /\ (user z = false -> ~ In J (e_kws z) /\ forall t, In t (e_kws z) -> userk t = false).
Lemma high_zone e i mm e1 : tame e -> p < i -> own_range u e k1 y1 i = Ok (mm, e1) ->
  own_range u e k2 y2 i = Ok (mm, e1) /\ p < fst mm /\ p < snd mm /\ out mm /\ e_subs e1 = e_subs e /\ forall gs, tame (set_subs e1 gs).
Proof.
  intros N L H. pose proof H as B. destruct mm as [lo hi]. apply own_range_bounds in B. rewrite own_range_plain in H |- * by exact N. rewrite <- gmm_high by exact L. inv_ok H. destruct a as [m T]. injection H as -> <-.
  rewrite E. cbn [bind fst snd]. split; [reflexivity|]. split; [lia|]. split; [lia|]. split; [right; cbn [fst]; lia|]. split; [reflexivity|]. intros gs. exact N.
Qed.

(* ---- the sections behind ---- *)
Variable U : nat.
Hypothesis U1 : forall a h, nth_error k1 a = Some h -> userk h = true -> U <= a.
Hypothesis U2 : forall a h, U <= a -> nth_error k1 a = Some h -> h = kw_comment \/ userk h = true.
Hypothesis U3 : U < List.length k1 -> exists h, nth_error k1 U = Some h /\ userk h = true.
Lemma reach_user (Z : elem -> Prop) i mx : (forall z t, Z z -> In t (e_kws z) -> userk t = false) -> i <= U -> reach k1 Z i mx -> mx <= U.
Proof.
  intros H L [R1 R2]. destruct (le_lt_dec mx U) as [X|X]; [exact X|]. exfalso. destruct (R2 U) as [Y|[b [z [t [Y1 [Y2 [Y3 [Y4 Y5]]]]]]]]; [lia| |].
  - assert (Lu : U < List.length k1) by (apply nth_error_Some; congruence). destruct (U3 Lu) as [h [H1 H2]]. rewrite Y in H1. injection H1 as <-. discriminate H2.
  - destruct (U2 b t Y1 Y3) as [Q|Q]; [contradiction|]. rewrite (H z t Y2 Y4) in Q. discriminate.
Qed.
Variable aft : elem -> elem -> Prop.
Hypothesis order : forall z s, aft z s -> (forall t, In t (e_kws z) -> In t (e_kws s) -> t = kw_comment) /\
  forall a b t1 t2, nth_error k1 a = Some t1 -> In t1 (e_kws s) -> t1 <> kw_comment -> nth_error k1 b = Some t2 -> In t2 (e_kws z) -> t2 <> kw_comment -> b <= a.
Definition quiet (s : elem) (i : nat) : Prop := forall a t, a < i -> nth_error k1 a = Some t -> In t (e_kws s) -> t = kw_comment.
Lemma quiet_reach (Z : elem -> Prop) s i mx : quiet s i -> (forall z, Z z -> aft z s) -> reach k1 Z i mx -> quiet s mx.
Proof.
  intros Q A [R1 R2] a t La Ha Ht. destruct (le_lt_dec i a) as [L|L]; [|exact (Q a t L Ha Ht)]. destruct (R2 a (conj L La)) as [X|[b [z [t2 [X1 [X2 [X3 [X4 X5]]]]]]]]; [congruence|].
  destruct (str_eqb t kw_comment) eqn:E; [apply str_eqb_eq; exact E|]. apply str_eqb_neq in E. destruct (order z s (A z X2)) as [O1 O2]. specialize (O2 a b t t2 Ha Ht E X3 X4 X5).
  assert (a = b) by lia. subst b. rewrite Ha in X3. injection X3 as <-. exact (O1 t X4 Ht).
Qed.
Definition leaf_ok (Z : list elem) (s : elem) : Prop :=
  (user s = true /\ e_single s = None /\ (forall t, In t (e_kws s) -> t = kw_comment \/ userk t = true) /\ 2 <= List.length (e_kws s)) \/
  (user s = false /\ (mem_str kw_comment (e_kws s) = false \/ List.length (e_kws s) <> 1) /\ free (e_kws s) /\ forall z, In z Z -> aft z s).
Inductive tail_ok : list elem -> list elem -> list elem -> Prop :=
| tail_nil Z : tail_ok Z [] Z
| tail_cons Z s r Z' : (forall z, In z (all_elems s) -> high1 z) ->
    (e_islist s = false -> (e_subs s = [] /\ leaf_ok Z s) \/ existsb (fun x => negb (e_islist x)) (e_subs s) = true) ->
    (usr s = false \/ r = []) -> tail_ok (Z ++ all_elems s) r Z' -> tail_ok Z (s :: r) Z'.
Lemma usr_none e : usr e = false -> forall z, In z (all_elems e) -> user z = false.
Proof.
  induction e as [nm cl subs kws il sg mm0 tm IH] using elem_ind'. intros H z Hz. rewrite usr_eq in H. apply orb_false_iff in H. destruct H as [H1 H2]. cbn [all_elems] in Hz. destruct Hz as [<-|Hz]; [exact H1|].
  apply in_flat_map in Hz. destruct Hz as [s [Hs Hz]]. rewrite Forall_forall in IH. apply (IH s Hs); [|exact Hz]. cbn [e_subs] in H2.
  destruct (usr s) eqn:Us; [|reflexivity]. assert (X : existsb usr subs = true) by (apply existsb_exists; exists s; auto). congruence.
Qed.
Lemma subs_some ks ls lo ss : existsb (fun x => negb (e_islist x)) ss = true -> forall i mx gs, ident_subs u ks ls lo ss i = Ok (mx, gs) -> gs <> [].
Proof.
  induction ss as [|s ss IH]; [discriminate|]. cbn [existsb ident_subs]. intros H i mx gs E. destruct (e_islist s); cbn [negb orb] in H.
  - inv_ok E. destruct a as [m es]. inv_ok E. destruct a as [m2 g2]. injection E as _ <-. specialize (IH H m m2 g2 E1). destruct es; [exact IH|discriminate].
  - inv_ok E. destruct a as [[m smm] s1]. inv_ok E. inv_ok E. destruct a0 as [m2 g2]. injection E as _ <-. discriminate.
Qed.
Lemma no_list0 ks tags i : (forall a t, i <= a -> nth_error ks a = Some t -> In t tags -> t = kw_comment) -> index_list0 tags i ks = [].
Proof.
  intros H. destruct (index_list0 tags i ks) as [|x l] eqn:E; [reflexivity|]. exfalso. assert (I : In x (index_list0 tags i ks)) by (rewrite E; left; reflexivity). apply index_list0_in in I.
  destruct I as [t [T1 [T2 T3]]]. pose proof (index_start_bounds _ _ _ _ T3). apply index_start_nth in T3. apply T2. apply (H x t); [lia|assumption|assumption].
Qed.
Lemma list0_none ks tags i : index_list0 tags i ks = [] -> forall a t, i <= a -> nth_error ks a = Some t -> In t tags -> t = kw_comment.
Proof.
  intros N a t L H I. destruct (str_eqb t kw_comment) eqn:E; [apply str_eqb_eq; exact E|]. apply str_eqb_neq in E. exfalso.
  destruct (index_start t ks i) as [b|] eqn:B.
  - assert (Ib : In b (index_list0 tags i ks)) by (apply index_list0_in; exists t; auto). rewrite N in Ib. destruct Ib.
  - unfold index_start in B. assert (X : forall l s, index_from t s l = None -> ~ In t l).
    { clear. induction l as [|x l IH]; intros s H; [intros []|]. cbn [index_from] in H. destruct (str_eqb x t) eqn:E; [discriminate|]. intros [->|X]; [rewrite str_eqb_refl in E; discriminate|exact (IH _ H X)]. }
    apply (X _ _ B). assert (La : a < List.length ks) by (apply nth_error_Some; congruence). rewrite <- (firstn_skipn i ks) in H. rewrite nth_error_app2 in H by (rewrite firstn_length; lia).
    eapply nth_error_In. exact H.
Qed.
Lemma no_user_key i : (forall a t, i <= a -> nth_error k1 a = Some t -> userk t = false) -> i <= U -> forall a t, nth_error k1 a = Some t -> userk t = false.
Proof.
  intros H L a t E. destruct (le_lt_dec i a) as [X|X]; [exact (H a t X E)|]. destruct (userk t) eqn:Ut; [|reflexivity]. pose proof (U1 a t E Ut). lia.
Qed.
Lemma no_filter ks i : (forall a t, nth_error ks a = Some t -> userk t = false) -> filter (startswith (lit "USER_DEFINED")) (skipn i ks) = [].
Proof.
  intros H. destruct (filter _ (skipn i ks)) as [|x l] eqn:E; [reflexivity|]. exfalso. assert (I : In x (filter (startswith (lit "USER_DEFINED")) (skipn i ks))) by (rewrite E; left; reflexivity).
  apply filter_In in I. destruct I as [I1 I2]. assert (I : In x ks) by (rewrite <- (firstn_skipn i ks); apply in_or_app; right; exact I1). apply In_nth_error in I. destruct I as [a I]. specialize (H a x I). unfold userk in H. congruence.
Qed.
Lemma mem_in t l : mem_str t l = true -> In t l.
Proof. unfold mem_str. intros H. apply existsb_exists in H. destruct H as [x [H1 H2]]. apply str_eqb_eq in H2. subst. exact H1. Qed.
Lemma leaf_retry Z s lo i mm s1 : leaf_ok Z s -> high1 s -> e_subs s = [] -> i <= U -> (user s = false -> quiet s i) -> own_range u s k1 y1 i = Ok (mm, s1) -> fst mm = snd mm ->
  own_range u s1 k1 y1 lo = Ok ((lo, lo), s1) /\ own_range u s1 k2 y2 lo = Ok ((lo, lo), s1).
Proof.
  intros Lf [N Hh] _ Li Q H Em. destruct Lf as [[Us [Sg [Kw Ln]]]|[Us [Cm [Fr _]]]].
  - rewrite own_range_plain in H by exact N. rewrite Us, Sg in H. inv_ok H. destruct a as [m T]. injection H as -> <-.
    change (get_min_max (e_kws s ++ filter (startswith (lit "USER_DEFINED")) (skipn i k1)) i k1 None false = Ok (mm, T)) in E.
    destruct (gmm_plain _ _ _ _ _ _ E) as [-> [_ [_ G]]].
    assert (L2 : 2 <= List.length (e_kws s ++ filter (startswith (lit "USER_DEFINED")) (skipn i k1))) by (rewrite app_length; lia).
    assert (G2 : index_list0 (e_kws s ++ filter (startswith (lit "USER_DEFINED")) (skipn i k1)) i k1 = []) by (apply G; [right; lia|exact Em]).
    assert (Nu : forall a t, nth_error k1 a = Some t -> userk t = false).
    { apply (no_user_key i); [|exact Li]. intros a t La Ha. destruct (userk t) eqn:Ut; [|reflexivity].
      assert (X : t = kw_comment).
      { apply (list0_none _ _ _ G2 a t La Ha). apply in_or_app. right. apply filter_In. split; [|exact Ut].
        rewrite <- (firstn_skipn i k1) in Ha. assert (a < List.length k1) by (rewrite <- (firstn_skipn i k1); apply nth_error_Some; congruence).
        rewrite nth_error_app2 in Ha by (rewrite firstn_length; lia). eapply nth_error_In. exact Ha. }
      subst t. discriminate Ut. }
    rewrite (no_filter k1 i Nu), app_nil_r, set_kws_same.
    assert (Nu2 : forall a t, nth_error k2 a = Some t -> userk t = false).
    { intros a t Ha. destruct (Nat.eq_dec a p) as [->|Np]; [|apply (Nu a); rewrite nth_same by exact Np; exact Ha]. rewrite nth_p2 in Ha. injection Ha as <-. exact Xuser. }
    assert (R : forall ks ls, (forall a t, nth_error ks a = Some t -> userk t = false) -> own_range u s ks ls lo = Ok (lo, lo, s)).
    { intros ks ls Hk. rewrite own_range_plain, Us, Sg by exact N. change (get_min_max (e_kws s) lo ks (Some (lit "USER_DEFINED")) false) with (get_min_max (e_kws s ++ filter (startswith (lit "USER_DEFINED")) (skipn lo ks)) lo ks None false).
      rewrite (no_filter ks lo Hk), app_nil_r, gmm_none; [cbn [bind]; rewrite set_kws_same; reflexivity|right; lia|].
      apply no_list0. intros a t La Ha Ht. destruct (Kw t Ht) as [X|X]; [exact X|]. rewrite (Hk a t Ha) in X. discriminate. }
    split; apply R; assumption.
  - destruct (own_easy u k1 y1 s i mm s1 N Us H) as [-> G]. destruct (gmm_plain _ _ _ _ _ _ G) as [_ [_ [_ G4]]]. specialize (G4 Cm Em). specialize (Q Us). destruct (Hh Us) as [NJ _].
    assert (E : index_list0 (e_kws s) lo k1 = []).
    { apply no_list0. intros a t La Ha Ht. destruct (le_lt_dec i a) as [X|X]; [exact (list0_none _ _ _ G4 a t X Ha Ht)|exact (Q a t X Ha Ht)]. }
    rewrite !own_range_plain, Us by exact N. rewrite !gmm_none; [cbn [bind]; rewrite set_kws_same; auto|exact Cm|rewrite <- list0_same by (exact NJ || exact Fr); exact E|exact Cm|exact E].
Qed.
Lemma tail_same Z l Z' : tail_ok Z l Z' -> forall lo i mx gs, lo <= p -> p < i -> i <= U -> (forall s, (forall z, In z Z -> aft z s) -> quiet s i) ->
  ident_subs u k1 y1 lo l i = Ok (mx, gs) ->
  ident_subs u k2 y2 lo l i = Ok (mx, gs) /\ Forall avoid gs /\ p < mx /\ (existsb usr l = false -> mx <= U /\ forall s, (forall z, In z Z' -> aft z s) -> quiet s mx).
Proof.
  induction 1 as [Z|Z s r Z' Hh Hl Hu T IH]; intros lo i mx gs Lo Li Lu Q H; cbn [ident_subs] in *; [injection H as <- <-; auto|]. rewrite <- len_same, <- ylen.
  assert (Zo : zoned (fun x => p < x) tame s) by (apply all_zoned; [exact high_zone|intros ? X; exact X|intros z Hz; exact (proj1 (Hh z Hz))]).
  assert (Wk : usr s = false -> walks u k1 y1 s).
  { intros Us. apply identify_walks. intros z Hz. split; [exact (proj1 (Hh z Hz))|exact (usr_none s Us z Hz)]. }
  assert (Nx : forall m1, usr s = false -> reach k1 (fun z => In z (all_elems s)) i m1 -> m1 <= U /\ forall x, (forall z, In z (Z ++ all_elems s) -> aft z x) -> quiet x m1).
  { intros m1 Us R. split.
    - eapply (reach_user (fun z => In z (all_elems s))); [|exact Lu|exact R]. intros z t Hz Ht. exact (proj2 (proj2 (Hh z Hz) (usr_none s Us z Hz)) t Ht).
    - intros x Hx. eapply (quiet_reach (fun z => In z (all_elems s))); [apply (Q x)| |exact R]; intros z Hz; apply Hx; apply in_or_app; auto. }
  cbn [existsb]. destruct (e_islist s) eqn:Il.
  - inv_ok H. destruct a as [m1 es]. inv_ok H. destruct a as [m2 g2]. injection H as <- <-. pose proof (list_zoned _ _ (fun _ H => H) s (List.length y1) Zo _ _ _ _ Li E) as X. destruct X as [-> [W1 F1]]. cbn [bind].
    destruct Hu as [Us| ->].
    + destruct (Nx m1 Us) as [Lm Qm]; [eapply list_walks; [exact (Wk Us)|exact E]|]. destruct (IH lo m1 m2 g2 Lo W1 Lm Qm E0) as [-> [F2 [P2 N2]]]. cbn [bind]. rewrite Us. cbn [orb].
      split; [reflexivity|]. split; [apply Forall_app; auto|]. auto.
    + cbn [ident_subs] in E0 |- *. injection E0 as <- <-. cbn [bind]. split; [reflexivity|]. split; [apply Forall_app; auto|]. split; [exact W1|]. cbn [existsb]. rewrite orb_false_r. intros Us.
      inversion T; subst. apply Nx; [exact Us|]. eapply list_walks; [exact (Wk Us)|exact E].
  - inv_ok H. destruct a as [[m1 smm] s1]. inv_ok H. inv_ok H. destruct a0 as [m2 g2]. injection H as <- <-. destruct (Zo i m1 smm s1 Li E) as [Ei [W1 [O [F1 C1]]]]. rewrite Ei. cbn [bind].
    assert (R : (if Nat.eqb (fst smm) (snd smm) && match e_subs s1 with [] => true | _ => false end then do r2 <- own_range u s1 k2 y2 lo; Ok (set_mm (snd r2) (fst r2)) else Ok (set_mm s1 smm)) = Ok a /\ avoid a).
    { destruct (Nat.eqb (fst smm) (snd smm) && match e_subs s1 with [] => true | _ => false end) eqn:B; [|injection E0 as <-; split; [reflexivity|]; apply avoid_set; assumption].
      apply andb_true_iff in B. destruct B as [B1 B2]. apply Nat.eqb_eq in B1. destruct (Hl eq_refl) as [[Es Lf]|Ls].
      - rewrite identify_eq in E. inv_ok E. destruct a0 as [mm2 e2]. rewrite Es in E. injection E as <- <- <-.
        assert (Qs : user s = false -> quiet s i). { intros Us. apply Q. destruct Lf as [[X _]|[_ [_ [_ X]]]]; [congruence|exact X]. }
        destruct (leaf_retry Z s lo i mm2 e2 Lf (Hh s ltac:(rewrite all_elems_eq; left; reflexivity)) Es Lu Qs E2 B1) as [R1 R2]. rewrite R1 in E0. rewrite R2. cbn [bind fst snd] in *. injection E0 as <-.
        split; [reflexivity|]. apply avoid_set; [exact F1|exact C1|]. left. exact Lo.
      - exfalso. rewrite identify_eq in E. inv_ok E. destruct a0 as [mm2 e2]. destruct (e_subs s) as [|s0 ss] eqn:Es; [discriminate Ls|]. inv_ok E. destruct a0 as [m3 g3]. injection E as <- <- <-.
        cbn [set_subs e_subs] in B2. apply (subs_some _ _ _ _ Ls _ _ _ E3). destruct g3; [reflexivity|discriminate]. }
    destruct R as [-> Ra]. cbn [bind]. destruct Hu as [Us| ->].
    + destruct (Nx m1 Us) as [Lm Qm]; [exact (Wk Us _ _ _ _ E)|]. destruct (IH lo m1 m2 g2 Lo W1 Lm Qm E1) as [-> [F2 [P2 N2]]]. cbn [bind]. rewrite Us. cbn [orb].
      split; [reflexivity|]. split; [constructor; assumption|]. auto.
    + cbn [ident_subs] in E1 |- *. injection E1 as <- <-. cbn [bind]. split; [reflexivity|]. split; [constructor; [exact Ra|constructor]|]. split; [exact W1|]. cbn [existsb]. rewrite orb_false_r. intros Us.
      inversion T; subst. apply Nx; [exact Us|]. exact (Wk Us _ _ _ _ E).
Qed.

(* ---- the way to the section of the comment ---- *)
Definition calm_kws (z : elem) : Prop := forall t, In t (e_kws z) -> userk t = false.
Variable sec : string.
Variable okn : string -> Prop.
Inductive path : elem -> list elem -> Prop :=
| path_here e Z : around e -> e_cls e = sec -> calm_kws e -> (forall n, In n (map e_name (e_subs e)) -> okn n) -> tail_ok [e] (e_subs e) Z -> path e Z
| path_down e l1 s l2 Zs Z : e_subs e = l1 ++ s :: l2 -> low1 e -> Forall low l1 -> e_islist s = false -> path s Zs -> (usr s = false \/ l2 = []) ->
    tail_ok Zs l2 Z -> ~ In (e_name s) (map e_name l2) -> path e Z.
Inductive spot : elem -> Prop :=
| spot_here e : around e -> e_cls e = sec -> fst (e_mm e) < p -> p < snd (e_mm e) -> Forall avoid (e_subs e) -> (forall n, In n (map e_name (e_subs e)) -> okn n) -> spot e
| spot_down e l1 s l2 : out (e_mm e) -> tame e -> e_subs e = l1 ++ s :: l2 -> Forall avoid l1 -> spot s -> Forall avoid l2 -> ~ In (e_name s) (map e_name l2) -> spot e.
Hypothesis pU : p < U.
Hypothesis first_in : forall s e, around e -> aft e s -> quiet s p.
Lemma path_in e Z : path e Z -> exists d, around d /\ In d Z.
Proof.
  assert (T : forall A l B, tail_ok A l B -> forall x, In x A -> In x B) by (induction 1; intros x Hx; [exact Hx|apply IHtail_ok; apply in_or_app; left; exact Hx]).
  induction 1 as [e Z A Ce C Kn Tl|e l1 s l2 Zs Z Es Lo Fl Il P IH Hu Tl Hn].
  - exists e. split; [exact A|]. eapply T; [exact Tl|left; reflexivity].
  - destruct IH as [d [D1 D2]]. exists d. split; [exact D1|]. eapply T; [exact Tl|exact D2].
Qed.
Lemma names ks ls e i mx mm e1 : identify u e ks ls i = Ok (mx, mm, e1) -> tame e -> e_name e1 = e_name e.
Proof.
  intros H N. rewrite identify_eq in H. inv_ok H. destruct a as [m e2]. rewrite own_range_plain in E by exact N. inv_ok E. destruct a as [m3 T]. injection E as <- <-.
  destruct (e_subs e); [injection H as _ _ <-; reflexivity|]. inv_ok H. destruct a as [m4 g]. injection H as _ _ <-. reflexivity.
Qed.
Lemma own_names ks ls e i mm e1 : own_range u e ks ls i = Ok (mm, e1) -> tame e -> e_name e1 = e_name e.
Proof. intros H N. rewrite own_range_plain in H by exact N. inv_ok H. destruct a as [m3 T]. injection H as <- <-. reflexivity. Qed.
Lemma list_names ks ls s n : tame s -> forall f i mx es, identify_list (identify u s ks ls) n f i i = Ok (mx, es) -> forall x, In x es -> e_name x = e_name s.
Proof.
  intros N. induction f as [|f IH]; intros i mx es H x Hx; [discriminate|]. rewrite identify_list_S in H. inv_ok H. destruct a as [[m1 [lo hi]] e1]. pose proof (names _ _ _ _ _ _ _ E N) as Q.
  destruct (Nat.eqb m1 lo && Nat.eqb lo hi); [injection H as _ <-; destruct Hx|]. destruct (Nat.ltb i lo); [injection H as _ <-; destruct Hx|]. cbv zeta in H. destruct (Nat.leb n m1).
  - injection H as _ <-. destruct Hx as [<-|[]]. exact Q.
  - inv_ok H. destruct a as [m2 es2]. injection H as _ <-. destruct Hx as [<-|Hx]; [exact Q|]. eapply IH; eassumption.
Qed.
Lemma tame_own ks ls e i mm e1 : own_range u e ks ls i = Ok (mm, e1) -> tame e -> tame e1.
Proof. intros H N. rewrite own_range_plain in H by exact N. inv_ok H. destruct a as [m3 T]. injection H as <- <-. exact N. Qed.
Lemma tame_ident ks ls e i mx mm e1 : identify u e ks ls i = Ok (mx, mm, e1) -> tame e -> tame e1.
Proof.
  intros H N. rewrite identify_eq in H. inv_ok H. destruct a as [m e2]. apply tame_own in E; [|exact N].
  destruct (e_subs e); [injection H as _ _ <-; exact E|]. inv_ok H. destruct a as [m4 g]. injection H as _ _ <-. exact E.
Qed.
Lemma subs_names ks ls lo l : Forall tame l -> forall i mx gs, ident_subs u ks ls lo l i = Ok (mx, gs) -> forall x, In x (map e_name gs) -> In x (map e_name l).
Proof.
  induction 1 as [|s l N F IH]; intros i mx gs H x Hx; cbn [ident_subs] in H; [injection H as _ <-; destruct Hx|]. cbn [map]. destruct (e_islist s).
  - inv_ok H. destruct a as [m es]. inv_ok H. destruct a as [m2 g2]. injection H as _ <-. rewrite map_app in Hx. apply in_app_or in Hx. destruct Hx as [Hx|Hx]; [|right; eapply IH; eassumption].
    left. apply in_map_iff in Hx. destruct Hx as [y [<- Hy]]. symmetry. eapply list_names; eassumption.
  - inv_ok H. destruct a as [[m smm] s1]. inv_ok H. inv_ok H. destruct a0 as [m2 g2]. injection H as _ <-. cbn [map] in Hx. destruct Hx as [<-|Hx]; [|right; eapply IH; eassumption]. left.
    pose proof (names _ _ _ _ _ _ _ E N) as Q. pose proof (tame_ident _ _ _ _ _ _ _ E N) as N1. destruct (_ && _) in E0; [|injection E0 as <-; symmetry; exact Q].
    inv_ok E0. destruct a0 as [mm2 s2]. injection E0 as <-. apply own_names in E2; [|exact N1]. cbn [set_mm e_name snd]. congruence.
Qed.
Lemma tail_tame Z l Z' : tail_ok Z l Z' -> Forall tame l.
Proof. induction 1 as [|Z s r Z' Hh Hl Hu T IH]; constructor; [exact (proj1 (Hh s ltac:(rewrite all_elems_eq; left; reflexivity)))|exact IH]. Qed.
Lemma low_zoned s : low s -> zoned (fun x => x < p) low1 s.
Proof. intros H. apply all_zoned; [exact low_zone|intros ? X; exact (proj1 X)|exact H]. Qed.
Lemma path_same e Z : path e Z -> forall i mx mm e1, i < p -> identify u e k1 y1 i = Ok (mx, mm, e1) ->
  identify u e k2 y2 i = Ok (mx, mm, e1) /\ spot (set_mm e1 mm) /\ p < mx /\ (fst mm <> snd mm \/ e_subs e1 <> []) /\
  e_name e1 = e_name e /\ (usr e = false -> mx <= U /\ forall s, (forall z, In z Z -> aft z s) -> quiet s mx).
Proof.
  induction 1 as [e Z A Ce C Kn Tl|e l1 s l2 Zs Z Es Lo Fl Il P IH Hu Tl Hn]; intros i mx mm e1 Li H.
  - pose proof A as [N [Ue [NJ [Sg _]]]]. assert (Nm : e_name e1 = e_name e) by (eapply names; eassumption).
    rewrite identify_eq in H |- *. inv_ok H. destruct a as [mm1 e2]. destruct (own_easy u k1 y1 e i mm1 e2 N Ue E) as [-> G]. rewrite Sg in G. destruct (gmm_around e i _ _ A Li G) as [G2 [_ [P1 [P2 P3]]]].
    destruct (gmm_plain _ _ _ _ _ _ G) as [_ [_ [R _]]]. specialize (R e eq_refl). rewrite own_range_plain, Ue, Sg, G2 by exact N. cbn [bind]. rewrite set_kws_same.
    assert (Lm : snd mm1 <= U) by (eapply (reach_user (fun z => z = e)); [intros z t -> Ht; exact (C t Ht)| |exact R]; lia).
    assert (Qm : forall s, (forall z, In z [e] -> aft z s) -> quiet s (snd mm1)).
    { intros s Hs. eapply (quiet_reach (fun z => z = e)); [|intros z ->; apply Hs; left; reflexivity|exact R]. intros a t La. apply (first_in s e A (Hs e (or_introl eq_refl))). lia. }
    destruct (e_subs e) as [|s0 ss] eqn:Es.
    + injection H as <- <- <-. split; [reflexivity|]. split; [apply spot_here; cbn [set_mm e_mm e_subs]; try assumption; [rewrite Es; constructor|rewrite Es; exact Kn]|]. split; [exact P2|]. split; [left; lia|]. split; [reflexivity|].
      intros _. split; [exact Lm|]. inversion Tl; subst. exact Qm.
    + inv_ok H. destruct a as [m2 g2]. injection H as <- <- <-. destruct (tail_same _ _ _ Tl (fst mm1) (snd mm1) m2 g2 ltac:(lia) P2 Lm Qm E0) as [-> [F2 [P4 N2]]]. cbn [bind].
      split; [reflexivity|]. split; [apply spot_here; cbn [set_mm set_subs e_mm e_subs]; try assumption; intros n Hn; apply Kn; eapply subs_names; [eapply tail_tame; exact Tl|exact E0|exact Hn]|]. split; [exact P4|]. split; [left; lia|]. split; [reflexivity|].
      intros Us. apply N2. rewrite usr_eq, Es in Us. apply orb_false_iff in Us. exact (proj2 Us).
  - pose proof Lo as [N [Ue _]]. assert (Nm : e_name e1 = e_name e) by (eapply names; eassumption). rewrite identify_eq in H |- *. inv_ok H. destruct a as [mm1 e2].
    destruct (low_zone e i mm1 e2 Lo Li E) as [-> [W1 [W2 [O [Es2 _]]]]]. cbn [bind]. destruct (own_easy u k1 y1 e i mm1 e2 N Ue E) as [-> _].
    rewrite Es in *. destruct (l1 ++ s :: l2) as [|x0 xs] eqn:El; [destruct l1; discriminate|]. rewrite <- El in *. inv_ok H. destruct a as [m2 g2]. injection H as <- <- <-.
    rewrite ident_subs_app in E0 |- *. inv_ok E0. destruct a as [m3 g3].
    assert (Fz : Forall (zoned (fun x => x < p) low1) l1) by (eapply Forall_impl; [|exact Fl]; intros; apply low_zoned; assumption).
    destruct (subs_zoned _ _ low_zone (fun _ H => proj1 H) (fst mm1) l1 W1 Fz (snd mm1) m3 g3 W2 E1) as [-> [W3 F3]]. cbn [bind ident_subs] in E0 |- *. rewrite Il in *.
    inv_ok E0. destruct a as [m4 g4]. injection E0 as <- <-. inv_ok E2. destruct a as [[m5 smm] s1]. inv_ok E2. inv_ok E2. destruct a0 as [m6 g6]. injection E2 as <- <-.
    destruct (IH m3 m5 smm s1 W3 E0) as [-> [Sp [P5 [Ne [Ns Nx]]]]]. cbn [bind].
    assert (B : Nat.eqb (fst smm) (snd smm) && match e_subs s1 with [] => true | _ => false end = false).
    { destruct Ne as [Ne|Ne]; [rewrite (proj2 (Nat.eqb_neq _ _) Ne); reflexivity|]. destruct (e_subs s1); [contradiction|apply andb_false_r]. }
    rewrite B in *. injection E3 as <-. cbn [bind].
    assert (T : ident_subs u k2 y2 (fst mm1) l2 m5 = Ok (m6, g6) /\ Forall avoid g6 /\ p < m6 /\ (usr s = false -> existsb usr l2 = false -> m6 <= U /\ forall x, (forall z, In z Z -> aft z x) -> quiet x m6)).
    { destruct Hu as [Us| ->].
      - destruct (Nx Us) as [Lm Qm]. destruct (tail_same _ _ _ Tl (fst mm1) m5 m6 g6 ltac:(lia) P5 Lm Qm E4) as [T1 [T2 [T3 T4]]]. auto.
      - cbn [ident_subs] in E4 |- *. injection E4 as <- <-. inversion Tl; subst. split; [reflexivity|]. split; [constructor|]. split; [exact P5|]. intros Us _. apply Nx. exact Us. }
    destruct T as [-> [F6 [P6 N6]]]. cbn [bind]. split; [reflexivity|]. split; [|split; [exact P6|split; [right; cbn [set_subs e_subs]; destruct g3; discriminate|split; [reflexivity|]]]].
    + eapply (spot_down _ g3 (set_mm s1 smm) g6); cbn [set_mm set_subs e_mm e_subs e_name]; [exact O|exact N|reflexivity|exact F3|exact Sp|exact F6|].
      rewrite Ns. intros X. apply Hn. eapply subs_names; [eapply tail_tame; exact Tl|exact E4|exact X].
    + intros Us. rewrite usr_eq, Es, existsb_app in Us. cbn [existsb] in Us. apply orb_false_iff in Us. destruct Us as [_ Us]. apply orb_false_iff in Us. destruct Us as [_ Us]. apply orb_false_iff in Us. destruct Us. apply N6; assumption.
Qed.

(* ---- building ---- *)
Definition headed (e : elem) (local : list line) : res (option pyval) :=
  let no_subs := match e_subs e with [] => true | _ => false end in
  let prefix := if user e then Some (lit "USER_DEFINED") else None in
  match local, no_subs with
  | [], true => Ok None
  | _, _ =>
    let local' := match prefix with Some _ => local | None => filter (fun l => mem_str (key_of l) (e_kws e)) local end in
    match local', no_subs with
    | [], true => Ok None
    | _, _ => do obj <- (if match e_kws e with [a; b] => str_eqb a (lit "id") && str_eqb b (lit "version") | _ => false end then parse_root (e_cls e) local'
                         else match e_single e with Some p => parse_single u (e_cls e) p local' | None => parse_list u (e_cls e) prefix local' end);
              Ok (Some obj)
    end
  end.
Definition fold_subs n doc full subs (acc : res (list (string * pyval))) :=
  fold_left (fun acc s => do vs <- acc; do sub <- build u n doc s full; attach (e_name s) sub vs) subs acc.
Definition fills n doc full subs (obj : pyval) : res pyval :=
  match obj with
  | VObj c vars => do vars' <- fold_subs n doc full subs (Ok vars); Ok (VObj c vars')
  | _ => Err AttributeError
  end.
Lemma build_tame n doc e full : tame e -> build u (S n) doc e full =
  do o <- headed e (slice (fst (e_mm e)) (snd (e_mm e)) full); match o with None => Ok VNone | Some obj => fills n doc full (e_subs e) obj end.
Proof.
  intros N. cbn [build]. assert (Y : forall d, In d odd_classes -> String.eqb (e_cls e) d = false) by (intros d Hd; apply String.eqb_neq; intros Q; apply N; rewrite Q; exact Hd).
  rewrite (Y "AemSegment"), (Y "AttitudeStateType"), (Y "StateVectorAccType"), (Y "OemCovarianceMatrixType"), (Y "TrackingDataObservationType") by (cbn; tauto).
  unfold headed, user. set (lc := slice (fst (e_mm e)) (snd (e_mm e)) full). set (no := match e_subs e with [] => true | _ => false end).
  set (px := if String.eqb (e_cls e) "UserDefinedType" then Some (lit "USER_DEFINED") else None). cbv zeta.
  set (lc' := match px with Some _ => lc | None => filter (fun l => mem_str (key_of l) (e_kws e)) lc end).
  set (ob := if match e_kws e with [a; b] => str_eqb a (lit "id") && str_eqb b (lit "version") | _ => false end then parse_root (e_cls e) lc'
                         else match e_single e with Some p => parse_single u (e_cls e) p lc' | None => parse_list u (e_cls e) px lc' end).
  assert (X : forall f : pyval -> res pyval, (do o <- (do obj <- ob; Ok (Some obj)); match o with None => Ok VNone | Some obj => f obj end) = (do obj <- ob; f obj)) by (intros f; destruct ob; reflexivity).
  destruct lc as [|l0 ls]; destruct no; try reflexivity; destruct lc' as [|l1 ls']; try reflexivity; rewrite X; reflexivity.
Qed.
Lemma slice_out {A} (LA LB : list A) (a b : A) lo hi : List.length LA = p -> hi <= p \/ p < lo -> slice lo hi (LA ++ a :: LB) = slice lo hi (LA ++ b :: LB).
Proof.
  intros L H. unfold slice. destruct H as [H|H].
  - rewrite !skipn_app, !firstn_app, !skipn_length. destruct (le_lt_dec lo p) as [X|X].
    + replace (hi - lo - (List.length LA - lo)) with 0 by lia. rewrite !firstn_O. reflexivity.
    + replace (hi - lo) with 0 by lia. rewrite !firstn_O. reflexivity.
  - f_equal. rewrite !skipn_app. f_equal. destruct (lo - List.length LA) as [|m] eqn:E; [lia|reflexivity].
Qed.
Lemma slice_in {A} (LA LB : list A) (a : A) lo hi : List.length LA = p -> lo <= p -> p < hi -> slice lo hi (LA ++ a :: LB) = skipn lo LA ++ a :: firstn (hi - p - 1) LB.
Proof.
  intros L H1 H2. unfold slice. rewrite skipn_app, firstn_app, skipn_length. rewrite (firstn_all2 (skipn lo LA)) by (rewrite skipn_length; lia). f_equal.
  replace (lo - List.length LA) with 0 by lia. cbn [skipn]. replace (hi - lo - (List.length LA - lo)) with (S (hi - p - 1)) by lia. reflexivity.
Qed.
Variables (LA LB : list line) (jl xl : line).
Hypothesis y1e : y1 = LA ++ jl :: LB.
Hypothesis y2e : y2 = LA ++ xl :: LB.
Hypothesis LAp : List.length LA = p.
Hypothesis jk : key_of jl = J.
Hypothesis xlk : key_of xl = xk.
Hypothesis LAk : keys_of LA = KA.
Lemma slice_same e : out (e_mm e) -> slice (fst (e_mm e)) (snd (e_mm e)) y1 = slice (fst (e_mm e)) (snd (e_mm e)) y2.
Proof. intros H. rewrite y1e, y2e. apply slice_out; [exact LAp|exact H]. Qed.
Lemma build_avoid d1 d2 n : forall e, avoid e -> build u n d1 e y1 = build u n d2 e y2.
Proof.
  induction n as [|n IH]; intros e H; [reflexivity|]. destruct (H e ltac:(rewrite all_elems_eq; left; reflexivity)) as [O N]. rewrite !build_tame, slice_same by assumption.
  destruct (headed e _) as [[obj|]|]; try reflexivity. cbn [bind]. destruct obj as [| | | | |c vars|]; try reflexivity. cbn [fills]. f_equal.
  assert (Fs : Forall avoid (e_subs e)) by (apply Forall_forall; intros x Hx z Hz; apply H; rewrite all_elems_eq; right; apply in_flat_map; exists x; auto).
  generalize (Ok vars). clear - Fs IH. induction Fs as [|x xs Hx Fs IHs]; intros acc; [reflexivity|]. cbn [fold_subs fold_left]. rewrite (IH x Hx). apply IHs.
Qed.
Lemma fold_avoid d1 d2 n l : Forall avoid l -> forall acc, fold_subs n d1 y1 l acc = fold_subs n d2 y2 l acc.
Proof. induction 1 as [|x xs Hx Fs IHs]; intros acc; [reflexivity|]. cbn [fold_subs fold_left]. rewrite (build_avoid d1 d2 n x Hx). apply IHs. Qed.

Lemma fold_err n doc full l x : fold_subs n doc full l (Err x) = Err x.
Proof. induction l as [|y l IH]; [reflexivity|exact IH]. Qed.
Lemma fold_differ d1 d2 n (R : pyval -> pyval -> Prop) k l : Forall avoid l ->
  (forall x sub A A' B, In x l -> differ R k A B -> attach (e_name x) sub A = Ok A' -> exists B', attach (e_name x) sub B = Ok B' /\ differ R k A' B') ->
  forall A B A', differ R k A B -> fold_subs n d1 y1 l (Ok A) = Ok A' -> exists B', fold_subs n d2 y2 l (Ok B) = Ok B' /\ differ R k A' B'.
Proof.
  induction 1 as [|x l Hx F IH]; intros Hs A B A' D H; [injection H as <-; exists B; split; [reflexivity|exact D]|]. cbn [fold_subs fold_left bind] in H |- *. rewrite <- (build_avoid d1 d2 n x Hx).
  change (fold_subs n d1 y1 l (do sub <- build u n d1 x y1; attach (e_name x) sub A) = Ok A') in H. change (exists B', fold_subs n d2 y2 l (do sub <- build u n d1 x y1; attach (e_name x) sub B) = Ok B' /\ differ R k A' B').
  destruct (build u n d1 x y1) as [sub|]; cbn [bind] in *; [|rewrite fold_err in H; discriminate]. destruct (attach (e_name x) sub A) as [A1|] eqn:E; [|rewrite fold_err in H; discriminate].
  destruct (Hs x sub A A1 B (or_introl eq_refl) D E) as [B1 [-> D1]]. apply (IH (fun y sub A A' B Hy => Hs y sub A A' B (or_intror Hy)) A1 B1 A' D1 H).
Qed.

(* what the line does to its section *)
Variables (fn : string) (R : pyval -> pyval -> Prop).
Hypothesis parse_ins : forall g1 g2 v, (forall l, In l (g1 ++ g2) -> In l (LA ++ LB)) -> parse_list u sec None (g1 ++ g2) = Ok v ->
  exists A B, v = VObj sec A /\ parse_list u sec None (g1 ++ xl :: g2) = Ok (VObj sec B) /\ differ R fn A B.
Hypothesis att : forall m sub A A' B, okn m -> differ R fn A B -> attach m sub A = Ok A' -> exists B', attach m sub B = Ok B' /\ differ R fn A' B'.
Lemma build_spot d1 d2 n : forall e, spot e -> forall v, build u n d1 e y1 = Ok v -> exists w, build u n d2 e y2 = Ok w /\ put_at sec fn R v w.
Proof.
  induction n as [|n IH]; intros e Sp v H; [discriminate|]. destruct Sp as [e A Ce P1 P2 Fs Kn|e l1 x l2 O N Es F1 Sp F2 Nn].
  - pose proof A as [N [Ue [NJ [Sg [Ia [Ik [[Ic Ix] _]]]]]]]. rewrite build_tame in H |- * by exact N. rewrite y1e, slice_in in H by (try exact LAp; lia). rewrite y2e, slice_in by (try exact LAp; lia).
    set (lo := fst (e_mm e)) in *. set (hi := snd (e_mm e)) in *. unfold headed in *. rewrite Ue, Sg, Ce in *.
    assert (Idv : match e_kws e with [a; b] => str_eqb a (lit "id") && str_eqb b (lit "version") | _ => false end = false).
    { destruct (e_kws e) as [|a [|b [|]]]; try reflexivity. destruct Ic as [Q|[Q|[]]]; rewrite Q; [reflexivity|apply andb_false_r]. }
    rewrite Idv in *. set (g1 := filter (fun l => mem_str (key_of l) (e_kws e)) (skipn lo LA)). set (g2 := filter (fun l => mem_str (key_of l) (e_kws e)) (firstn (hi - p - 1) LB)).
    assert (X1 : filter (fun l => mem_str (key_of l) (e_kws e)) (skipn lo LA ++ jl :: firstn (hi - p - 1) LB) = g1 ++ g2).
    { rewrite filter_app. cbn [filter]. rewrite jk, (proj2 (mem_str_false J (e_kws e)) NJ). reflexivity. }
    assert (X2 : filter (fun l => mem_str (key_of l) (e_kws e)) (skipn lo LA ++ xl :: firstn (hi - p - 1) LB) = g1 ++ xl :: g2).
    { rewrite filter_app. cbn [filter]. rewrite xlk, (proj2 (mem_str_spec xk (e_kws e)) Ix). reflexivity. }
    cbv zeta in *. rewrite X1 in H. rewrite X2.
    assert (Ne : g1 <> []).
    { assert (Hp : nth_error (keys_of LA) (p - 1) = Some ka). { pose proof prev as Q. rewrite LAk. unfold k1 in Q. rewrite nth_error_app1 in Q; [exact Q|]. rewrite <- LAk. unfold keys_of. rewrite map_length, LAp. lia. }
      unfold keys_of in Hp. rewrite nth_error_map in Hp. destruct (nth_error LA (p - 1)) as [l|] eqn:El; [|discriminate]. injection Hp as Hp.
      intros X. assert (I : In l g1).
      { apply filter_In. split; [|rewrite Hp; apply mem_str_spec; exact Ia]. rewrite <- (firstn_skipn lo LA) in El. rewrite nth_error_app2 in El by (rewrite firstn_length; lia). eapply nth_error_In. exact El. }
      rewrite X in I. destruct I. }
    assert (Q1 : exists z zs, skipn lo LA = z :: zs) by (destruct (skipn lo LA) as [|z zs] eqn:Ez; [exfalso; apply Ne; unfold g1; rewrite ?Ez; reflexivity|eauto]).
    destruct Q1 as [z [zs Q1]]. rewrite Q1 in *. cbn [app] in *. destruct g1 as [|z1 zs1] eqn:G1; [contradiction|]. rewrite <- G1 in *. clear X1 X2.
    assert (H2 : (do obj <- parse_list u sec None (g1 ++ g2); fills n d1 (LA ++ jl :: LB) (e_subs e) obj) = Ok v).
    { rewrite G1 in *. cbn [app] in *. destruct (parse_list u sec None (z1 :: zs1 ++ g2)); exact H. }
    assert (G : forall o : res (option pyval), o = (do obj <- parse_list u sec None (g1 ++ xl :: g2); Ok (Some obj)) ->
       (exists w, (do obj <- parse_list u sec None (g1 ++ xl :: g2); fills n d2 (LA ++ xl :: LB) (e_subs e) obj) = Ok w /\ put_at sec fn R v w) ->
       exists w, (do o <- o; match o with None => Ok VNone | Some obj => fills n d2 (LA ++ xl :: LB) (e_subs e) obj end) = Ok w /\ put_at sec fn R v w).
    { intros o -> [w [E W]]. exists w. split; [|exact W]. destruct (parse_list u sec None (g1 ++ xl :: g2)); [exact E|discriminate]. }
    assert (Gi : forall l, In l (g1 ++ g2) -> In l (LA ++ LB)).
    { rewrite G1. intros l Hl. apply in_app_or in Hl. apply in_or_app. destruct Hl as [Hl|Hl].
      - left. rewrite <- G1 in Hl. unfold g1 in Hl. apply filter_In in Hl. destruct Hl as [Hl _]. rewrite <- (firstn_skipn lo LA). apply in_or_app. right. exact Hl.
      - right. unfold g2 in Hl. apply filter_In in Hl. destruct Hl as [Hl _]. rewrite <- (firstn_skipn (hi - p - 1) LB). apply in_or_app. left. exact Hl. }
    apply G; [rewrite G1; reflexivity|]. clear G H. inv_ok H2. destruct (parse_ins g1 g2 a Gi E) as [Av [Bv [-> [-> D]]]]. cbn [bind fills] in *. inv_ok H2. injection H2 as <-.
    rewrite <- y1e in E0. rewrite <- y2e. destruct (fold_differ d1 d2 n R fn (e_subs e) Fs (fun x sub A A' B Hx => att (e_name x) sub A A' B (Kn _ (in_map e_name _ _ Hx))) _ _ _ D E0) as [B' [-> D']]. cbn [bind].
    eexists. split; [reflexivity|]. destruct D' as [pre x y post Np Hr]. apply at_here; assumption.
  - rewrite build_tame in H |- * by exact N. rewrite <- slice_same by exact O. destruct (headed e (slice (fst (e_mm e)) (snd (e_mm e)) y1)) as [o|] eqn:Hd; [|discriminate]. cbn [bind] in *.
    destruct o as [obj|].
    2:{ exfalso. unfold headed in Hd. rewrite Es in Hd. destruct (l1 ++ x :: l2) as [|e0 es] eqn:El; [destruct l1; discriminate|]. cbv zeta in Hd.
        assert (X : forall r : res pyval, (do obj <- r; Ok (Some obj)) <> Ok None) by (intros [r|r]; discriminate).
        repeat match type of Hd with context [match ?z with [] => _ | _ :: _ => _ end] => destruct z end; apply X in Hd; exact Hd. }
    destruct obj as [| | | | |c vars|]; try discriminate. cbn [fills] in *. inv_ok H. injection H as <-. rewrite Es in *. unfold fold_subs in E. rewrite fold_left_app in E. fold (fold_subs n d1 y1 l1 (Ok vars)) in E.
    unfold fold_subs. rewrite fold_left_app. fold (fold_subs n d2 y2 l1 (Ok vars)). rewrite <- (fold_avoid d1 d2 n l1 F1). destruct (fold_subs n d1 y1 l1 (Ok vars)) as [vs|] eqn:El.
    2:{ exfalso. cbn [fold_left bind] in E. change (fold_subs n d1 y1 l2 (Err e0) = Ok a) in E. rewrite fold_err in E. discriminate. }
    cbn [fold_left bind] in E |- *. change (fold_subs n d1 y1 l2 (do sub <- build u n d1 x y1; attach (e_name x) sub vs) = Ok a) in E.
    destruct (build u n d1 x y1) as [sub|] eqn:Eb; [|cbn [bind] in E; rewrite fold_err in E; discriminate]. destruct (IH x Sp sub Eb) as [sub2 [-> Pc]]. cbn [bind] in *.
    destruct (attach (e_name x) sub vs) as [va|] eqn:Ea; [|rewrite fold_err in E; discriminate].
    assert (Dv : exists vb, attach (e_name x) sub2 vs = Ok vb /\ differ (put_at sec fn R) (e_name x) va vb).
    { unfold attach in *. destruct (assoc (e_name x) vs) as [z|] eqn:Ez; [|discriminate].
      assert (Sv : exists pre post, vs = pre ++ (e_name x, z) :: post /\ ~ In (e_name x) (map fst pre)).
      { clear - Ez. induction vs as [|[k w] vs IH]; [discriminate|]. cbn [assoc] in Ez. destruct (String.eqb_spec k (e_name x)) as [E|E].
        - injection Ez as ->. subst k. exists [], vs. split; [reflexivity|intros []].
        - destruct (IH Ez) as [pre [post [-> Np]]]. exists ((k, w) :: pre), post. split; [reflexivity|]. cbn [map fst]. intros [X|X]; [exact (E X)|exact (Np X)]. }
      destruct Sv as [pre [post [-> Np]]].
      assert (S1 : forall v, set_var (e_name x) v (pre ++ (e_name x, z) :: post) = pre ++ (e_name x, v) :: post).
      { intros v. clear - Np. induction pre as [|[k w] pre IH]; cbn [app set_var map fst] in *; [rewrite String.eqb_refl; reflexivity|]. destruct (String.eqb_spec k (e_name x)) as [E|E]; [exfalso; apply Np; left; exact E|]. f_equal. apply IH. intros X. apply Np. right. exact X. }
      assert (S2 : forall v, append_var (e_name x) v (pre ++ (e_name x, z) :: post) = pre ++ (e_name x, add1 z v) :: post).
      { intros v. clear - Np. induction pre as [|[k w] pre IH]; cbn [app append_var map fst] in *; [rewrite String.eqb_refl; destruct z; reflexivity|]. destruct (String.eqb_spec k (e_name x)) as [E|E]; [exfalso; apply Np; left; exact E|]. f_equal. apply IH. intros X. apply Np. right. exact X. }
      rewrite S1, S2 in *.
      destruct z; try (injection Ea as <-; eexists; split; [reflexivity|apply differ_at; assumption]).
      assert (Nv : sub <> VNone /\ sub2 <> VNone) by (destruct Pc; split; discriminate). destruct Nv as [Nv1 Nv2].
      destruct sub; try contradiction; destruct sub2; try contradiction; injection Ea as <-; eexists; (split; [reflexivity|]); (apply differ_at; [exact Np|]); cbn [add1]; apply at_list; exact Pc. }
    destruct Dv as [vb [-> D]]. change (fold_left (fun acc s0 => do vs0 <- acc; do sub0 <- build u n d2 s0 y2; attach (e_name s0) sub0 vs0) l2 (Ok vb)) with (fold_subs n d2 y2 l2 (Ok vb)).
    destruct (fold_differ d1 d2 n (put_at sec fn R) (e_name x) l2 F2) with (A := va) (B := vb) (A' := a) as [B' [-> D']]; [|exact D|exact E|].
    + intros x2 sub0 A A' B Hx Dd. apply attach_other; [|exact Dd]. intros Q. apply Nn. rewrite <- Q. apply in_map. exact Hx.
    + cbn [bind]. eexists. split; [reflexivity|]. destruct D' as [pre p1 p2 post _ Pp]. apply at_in. exact Pp.
Qed.
Hypothesis LBk : keys_of LB = KB.
Lemma object_put e Z t v : path e Z -> identify_segments u e y1 = Ok t -> build_object u t y1 = Ok v ->
  identify_segments u e y2 = Ok t /\ exists w, build_object u t y2 = Ok w /\ put_at sec fn R v w.
Proof.
  intros P H B. assert (K1 : keys_of y1 = k1). { rewrite y1e. unfold keys_of. rewrite map_app. cbn [map]. rewrite jk. fold (keys_of LA). fold (keys_of LB). rewrite LAk, LBk. reflexivity. }
  assert (K2 : keys_of y2 = k2). { rewrite y2e. unfold keys_of. rewrite map_app. cbn [map]. rewrite xlk. fold (keys_of LA). fold (keys_of LB). rewrite LAk, LBk. reflexivity. }
  unfold identify_segments in *. rewrite K1 in H. rewrite K2. inv_ok H. destruct a as [[mx mm] e1]. injection H as <-.
  destruct (path_same e Z P 0 mx mm e1 ltac:(lia) E) as [-> [Sp _]]. cbn [bind]. split; [reflexivity|]. apply (build_spot y1 y2 _ _ Sp v B).
Qed.
End Com.

(* ---- a comment among the lines of a section ---- *)
Lemma find_elem_in t fs f : find_elem t fs = Some f -> In f fs.
Proof. unfold find_elem. intros H. apply find_some in H. apply H. Qed.
Section Comment.
Variables (u : env) (sec : string) (s : str).
Definition cml : line := [kw_comment; s].
Definition commented (x y : pyval) : Prop := exists a b, x = VList (a ++ b) /\ y = VList (a ++ VStr s :: b).
Lemma commented_add x y v : commented x y -> commented (add1 x v) (add1 y v).
Proof. intros [a [b [-> ->]]]. exists a, (b ++ [v]). cbn [add1]. rewrite <- !app_assoc. auto. Qed.
Lemma attach_comment m sub A A' B : differ commented "comment" A B -> attach m sub A = Ok A' -> exists B', attach m sub B = Ok B' /\ differ commented "comment" A' B'.
Proof.
  intros D H. destruct (string_dec m "comment") as [->|N]; [|exact (attach_other commented "comment" m sub A A' B N D H)].
  unfold attach in *. pose proof D as D2. destruct D2 as [pre x y post Np [a [b [-> ->]]]]. rewrite assoc_app in H |- * by exact Np.
  destruct sub; injection H as <-; eexists; (split; [reflexivity|]); try exact D; (apply differ_append; [intros _ x y; apply commented_add|exact D]).
Qed.
(* the lines of the section *)
Hypothesis comment_field : exists f, find_elem kw_comment (fields_of sec) = Some f /\ f_list f = true /\ f_ty f = TStr /\ f_name f = "comment".
Hypothesis comment_name : forall f, In f (fields_of sec) -> f_name f = "comment" -> f_list f = true.
Hypothesis comment_new : exists pre l post, vars_of (new_obj sec) = pre ++ ("comment", VList l) :: post /\ ~ In "comment" (map fst pre).
Hypothesis s_text : xml_text s = true.
Hypothesis s_some : s <> [].
Definition comment_child : child := (kw_comment, [], s).
Lemma children_differ cs : forall seen A B A', differ commented "comment" A B -> bind_children u sec (fields_of sec) seen cs A = Ok A' ->
  exists B', bind_children u sec (fields_of sec) seen cs B = Ok B' /\ differ commented "comment" A' B'.
Proof.
  induction cs as [|[[t at0] tx] cs IH]; intros seen A B A' D H; cbn [bind_children] in *; [injection H as <-; exists B; auto|]. destruct (child_ok (t, at0, tx)); [|discriminate].
  destruct (find_elem t (fields_of sec)) as [f|] eqn:E; [|discriminate]. cbv zeta in *. destruct (f_list f) eqn:Fl.
  - eapply IH; [|exact H]. apply differ_append; [intros _ x y; apply commented_add|exact D].
  - destruct (existsb (String.eqb (f_name f)) seen); [discriminate|]. eapply IH; [|exact H]. apply differ_set; [|exact D]. intros X. rewrite (comment_name f (find_elem_in t _ f E) X) in Fl. discriminate.
Qed.
Definition has_comment (A : list (string * pyval)) : Prop := exists pre l post, A = pre ++ ("comment", VList l) :: post /\ ~ In "comment" (map fst pre).
Lemma has_differ A : has_comment A <-> differ (fun x y => x = y /\ exists l, x = VList l) "comment" A A.
Proof.
  split; [intros [pre [l [post [-> N]]]]; apply differ_at; [exact N|split; [reflexivity|exists l; reflexivity]]|]. intros H. inversion H as [pre x y post N [E [l El]] E1 E2]. subst. exists pre, l, post. auto.
Qed.
Lemma has_set m v A : m <> "comment" -> has_comment A -> has_comment (set_var m v A).
Proof. intros N H. apply has_differ. apply has_differ in H. apply differ_set; assumption. Qed.
Lemma has_append m v A : has_comment A -> has_comment (append_var m v A).
Proof. intros H. apply has_differ. apply has_differ in H. apply differ_append; [|exact H]. intros _ x y [-> [l ->]]. split; [reflexivity|]. cbn [add1]. eauto. Qed.
Lemma children_insert c2 c1 : forall seen A A', has_comment A -> bind_children u sec (fields_of sec) seen (c1 ++ c2) A = Ok A' ->
  exists B', bind_children u sec (fields_of sec) seen (c1 ++ comment_child :: c2) A = Ok B' /\ differ commented "comment" A' B'.
Proof.
  induction c1 as [|[[t at0] tx] cs IH]; intros seen A A' Hc H; cbn [app] in *.
  - destruct comment_field as [f [F1 [F2 [F3 F4]]]]. unfold comment_child. cbn [bind_children child_ok forallb]. rewrite s_text, F1. cbn [andb]. cbv zeta. rewrite F2, F4.
    assert (Bc : bind_child u sec f [] s = VStr s) by (unfold bind_child; rewrite F3; unfold conv; destruct s; [contradiction|reflexivity]). rewrite Bc.
    eapply children_differ; [|exact H]. destruct Hc as [pre [l [post [-> N]]]].
    assert (X : append_var "comment" (VStr s) (pre ++ ("comment", VList l) :: post) = pre ++ ("comment", VList (l ++ [VStr s])) :: post).
    { clear - N. induction pre as [|[k w] pre IH]; cbn [app append_var]; [reflexivity|]. cbn [map fst] in N. destruct (String.eqb_spec k "comment") as [E|E]; [exfalso; apply N; left; exact E|]. f_equal. apply IH. intros X. apply N. right. exact X. }
    rewrite X. apply differ_at; [exact N|]. exists l, []. rewrite app_nil_r. auto.
  - cbn [bind_children] in *. destruct (child_ok (t, at0, tx)); [|discriminate]. destruct (find_elem t (fields_of sec)) as [f|] eqn:E; [|discriminate]. cbv zeta in *. destruct (f_list f) eqn:Fl.
    + apply IH; [apply has_append; exact Hc|exact H].
    + destruct (existsb (String.eqb (f_name f)) seen); [discriminate|]. apply IH; [|exact H]. apply has_set; [|exact Hc]. intros X. rewrite (comment_name f (find_elem_in t _ f E) X) in Fl. discriminate.
Qed.
Lemma parse_insert g1 g2 v : parse_list u sec None (g1 ++ g2) = Ok v -> exists A B, v = VObj sec A /\ parse_list u sec None (g1 ++ cml :: g2) = Ok (VObj sec B) /\ differ commented "comment" A B.
Proof.
  unfold parse_list. intros H. inv_ok H. inv_ok H. injection H as <-. assert (M : exists c1 c2, a = c1 ++ c2 /\ map_res child_of_line (g1 ++ cml :: g2) = Ok (c1 ++ comment_child :: c2)).
  { clear E0. revert a E. induction g1 as [|l g1 IH]; intros a E.
    - cbn [app] in E |- *. exists [], a. split; [reflexivity|]. cbn [map_res app]. rewrite E. reflexivity.
    - cbn [app map_res] in E |- *. inv_ok E. inv_ok E. injection E as <-. destruct (IH _ E1) as [c1 [c2 [-> R]]]. exists (a1 :: c1), c2. split; [reflexivity|]. rewrite E0, R. reflexivity. }
  destruct M as [c1 [c2 [-> ->]]]. cbn [bind]. destruct (children_insert c2 c1 [] _ _ comment_new E0) as [B [-> D]]. exists a0, B. cbn [bind]. auto.
Qed.
Lemma put_commented v w : put_at sec "comment" commented v w -> put_comment sec s v w.
Proof. induction 1 as [pre x y po _ [a [b [-> ->]]]|c pre m x y po H IH|a x y b H IH]; [apply put_here|apply put_in; exact IH|apply put_list; exact IH]. Qed.
End Comment.

(* ---- one more field among the lines of a section ---- *)
Section Fields.
Variables (u : env) (sec : string) (xk xt : str) (xu : option str) (f : field).
Let fn := f_name f.
Let attrs : list (string * str) := match xu with Some t => [("units", t)] | None => [] end.
Definition fieldl : line := xk :: xt :: match xu with Some t => [t] | None => [] end.
Hypothesis Ff : find_elem xk (fields_of sec) = Some f.
Hypothesis Fl : f_list f = false.
Hypothesis Fn : forall g, In g (fields_of sec) -> f_name g = fn -> xml_name g = xk.
Hypothesis Fnew : exists pre post, vars_of (new_obj sec) = pre ++ (fn, VNone) :: post /\ ~ In fn (map fst pre).
Hypothesis xok : child_ok (xk, attrs, xt) = true.
Definition filled (x y : pyval) : Prop := x = VNone /\ y = bind_child u sec f attrs xt.
Lemma elem_named t g : find_elem t (fields_of sec) = Some g -> t <> xk -> f_name g <> fn.
Proof.
  intros E N X. pose proof (Fn g (find_elem_in _ _ _ E) X) as Q. unfold find_elem in E. apply find_some in E. destruct E as [_ E]. destruct (f_kind g); try discriminate. apply str_eqb_eq in E. congruence.
Qed.
Lemma field_after cs : (forall c, In c cs -> fst (fst c) <> xk) -> forall sn1 sn2 A B A', (forall n, n <> fn -> existsb (String.eqb n) sn1 = existsb (String.eqb n) sn2) -> differ filled fn A B ->
  bind_children u sec (fields_of sec) sn1 cs A = Ok A' -> exists B', bind_children u sec (fields_of sec) sn2 cs B = Ok B' /\ differ filled fn A' B'.
Proof.
  induction cs as [|[[t at0] tx] cs IH]; intros Ht sn1 sn2 A B A' Hn D H; cbn [bind_children] in *; [injection H as <-; exists B; auto|]. destruct (child_ok (t, at0, tx)); [|discriminate].
  destruct (find_elem t (fields_of sec)) as [g|] eqn:E; [|discriminate]. cbv zeta in *. pose proof (elem_named t g E (Ht _ (or_introl eq_refl))) as Ng. assert (Ht2 : forall c, In c cs -> fst (fst c) <> xk) by (intros c Hc; apply Ht; right; exact Hc). destruct (f_list g) eqn:Gl.
  - eapply (IH Ht2); [exact Hn| |exact H]. apply differ_append; [intros X; contradiction|exact D].
  - rewrite <- (Hn _ Ng). destruct (existsb (String.eqb (f_name g)) sn1); [discriminate|]. eapply (IH Ht2); [|apply differ_set; [exact Ng|exact D]|exact H].
    intros n Nn. cbn [existsb]. rewrite (Hn n Nn). reflexivity.
Qed.
Definition unset (A : list (string * pyval)) : Prop := differ (fun x y => x = y /\ x = VNone) fn A A.
Lemma field_insert c2 c1 : (forall c, In c (c1 ++ c2) -> fst (fst c) <> xk) -> forall sn A A', existsb (String.eqb fn) sn = false -> unset A -> bind_children u sec (fields_of sec) sn (c1 ++ c2) A = Ok A' ->
  exists B', bind_children u sec (fields_of sec) sn (c1 ++ (xk, attrs, xt) :: c2) A = Ok B' /\ differ filled fn A' B'.
Proof.
  induction c1 as [|[[t at0] tx] cs IH]; intros Ht sn A A' Hs Hu H; cbn [app] in *.
  - cbn [bind_children]. rewrite xok, Ff. cbv zeta. rewrite Fl. fold fn. rewrite Hs. eapply (field_after c2 Ht); [| |exact H].
    + intros n Nn. cbn [existsb]. apply String.eqb_neq in Nn. rewrite Nn. reflexivity.
    + inversion Hu as [pre x y post Np [Exy Ex] E1 E2]. subst x y. clear E2.
      assert (X : forall v, set_var fn v (pre ++ (fn, VNone) :: post) = pre ++ (fn, v) :: post).
      { intros v. clear - Np. induction pre as [|[k w] pre IH]; cbn [app set_var]; [rewrite String.eqb_refl; reflexivity|]. cbn [map fst] in Np. destruct (String.eqb_spec k fn) as [E|E]; [exfalso; apply Np; left; exact E|]. f_equal. apply IH. intros X. apply Np. right. exact X. }
      rewrite X. apply differ_at; [exact Np|]. split; reflexivity.
  - cbn [bind_children] in *. destruct (child_ok (t, at0, tx)); [|discriminate]. destruct (find_elem t (fields_of sec)) as [g|] eqn:E; [|discriminate]. cbv zeta in *.
    pose proof (elem_named t g E (Ht _ (or_introl eq_refl))) as Ng. assert (Ht2 : forall c, In c (cs ++ c2) -> fst (fst c) <> xk) by (intros c Hc; apply Ht; right; exact Hc). destruct (f_list g) eqn:Gl.
    + apply (IH Ht2); [exact Hs| |exact H]. apply differ_append; [intros X; contradiction|exact Hu].
    + destruct (existsb (String.eqb (f_name g)) sn); [discriminate|]. apply (IH Ht2); [|apply differ_set; [exact Ng|exact Hu]|exact H].
      cbn [existsb]. rewrite Hs. assert (Q : String.eqb fn (f_name g) = false) by (apply String.eqb_neq; congruence). rewrite Q. reflexivity.
Qed.
Lemma parse_field g1 g2 v : (forall l, In l (g1 ++ g2) -> key_of l <> xk) -> parse_list u sec None (g1 ++ g2) = Ok v ->
  exists A B, v = VObj sec A /\ parse_list u sec None (g1 ++ fieldl :: g2) = Ok (VObj sec B) /\ differ filled fn A B.
Proof.
  unfold parse_list. intros Hk H. inv_ok H. inv_ok H. injection H as <-.
  assert (K : forall l c, child_of_line l = Ok c -> fst (fst c) = key_of l).
  { intros l c X. unfold child_of_line in X. inv_ok X. inv_ok X. injection X as <-. unfold get in E1. destruct l; [discriminate|]. injection E1 as <-. reflexivity. }
  assert (Fx : child_of_line fieldl = Ok (xk, attrs, xt)) by (unfold fieldl, attrs; destruct xu; reflexivity).
  assert (M : exists c1 c2, a = c1 ++ c2 /\ map_res child_of_line (g1 ++ fieldl :: g2) = Ok (c1 ++ (xk, attrs, xt) :: c2) /\ forall c, In c a -> fst (fst c) <> xk).
  { clear E0. revert a E Hk. induction g1 as [|l g1 IH]; intros a E Hk.
    - cbn [app] in E |- *. exists [], a. split; [reflexivity|]. cbn [map_res app]. rewrite E, Fx. split; [reflexivity|]. cbn [app] in Hk. clear Fx. revert a E Hk. induction g2 as [|l g2 IH]; intros a E Hk c Hc; cbn [map_res] in E.
      + injection E as <-. destruct Hc.
      + inv_ok E. inv_ok E. injection E as <-. destruct Hc as [<-|Hc]; [rewrite (K l _ E0); apply Hk; left; reflexivity|]. apply (IH _ E1); [|exact Hc]. intros l2 Hl. apply Hk. right. exact Hl.
    - cbn [app map_res] in E |- *. inv_ok E. inv_ok E. injection E as <-. destruct (IH _ E1) as [c1 [c2 [-> [Rr Hc]]]]; [intros l2 Hl; apply Hk; right; exact Hl|]. exists (a1 :: c1), c2. split; [reflexivity|]. rewrite E0, Rr. split; [reflexivity|].
      intros c [<-|X]; [rewrite (K l _ E0); apply Hk; left; reflexivity|exact (Hc c X)]. }
  destruct M as [c1 [c2 [-> [-> Hc]]]]. cbn [bind]. destruct (field_insert c2 c1 Hc [] (vars_of (new_obj sec)) a0 eq_refl) as [B [Eb D]]; [|exact E0|exists a0, B; split; [reflexivity|]; split; [|exact D]; transitivity (do vs <- Ok B; Ok (VObj sec vs)); [rewrite <- Eb; reflexivity|reflexivity]].
  destruct Fnew as [pre [post [-> N]]]. apply differ_at; [exact N|auto].
Qed.
End Fields.
