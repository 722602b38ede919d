(* Reading back lines laid out section by section. *)
From Coq Require Import NArith ZArith List Bool String Arith Lia.
From Verif Require Import PyStr PyDec PyVal Schema KvnPre KvnTree KvnSeg XmlBind KvnBuild
     Spec SpecKvn SpecObj StrFacts DecFacts PreFacts SegFacts BuildFacts WriteFacts ShiftFacts.
Import ListNotations.
Local Open Scope string_scope.
Local Open Scope list_scope.
Local Arguments find_class : simpl never.
Local Arguments lit : simpl never.

(* ---- index lists that fill a range ---- *)
Lemma list_max_fill il lo hi : (forall n, In n il <-> lo <= n < hi) -> lo < hi -> list_max il = hi - 1.
Proof.
  intros H L. assert (N : il <> []) by (intros E; assert (X : In lo il) by (apply H; lia); rewrite E in X; destruct X).
  pose proof (list_max_in il N) as A. apply H in A. assert (B : In (hi - 1) il) by (apply H; lia).
  apply list_max_ge in B. lia.
Qed.
Lemma list_min_fill il lo hi : (forall n, In n il <-> lo <= n < hi) -> lo < hi -> list_min il = lo.
Proof.
  intros H L. assert (N : il <> []) by (intros E; assert (X : In lo il) by (apply H; lia); rewrite E in X; destruct X).
  pose proof (list_min_in il N) as A. apply H in A. assert (B : In lo il) by (apply H; lia).
  apply list_min_le in B. lia.
Qed.
Lemma mem_nat_spec n l : mem_nat n l = true <-> In n l.
Proof.
  unfold mem_nat. rewrite existsb_exists. split; [intros [x [H E]]; apply Nat.eqb_eq in E; subst; exact H|].
  intros H. exists n. split; [exact H|apply Nat.eqb_refl].
Qed.
Lemma filter_none {A} (f : A -> bool) l : (forall a, In a l -> f a = false) -> filter f l = [].
Proof.
  induction l as [|a l IH]; intros H; [reflexivity|]. cbn. rewrite H by (left; reflexivity).
  apply IH. intros; apply H; right; assumption.
Qed.
Lemma range_fill il lo hi start keys single : (forall n, In n il <-> lo <= n < hi) -> lo < hi ->
  range_of_indices il start keys single = Ok (lo, if single then lo + 1 else hi).
Proof.
  intros H L. unfold range_of_indices.
  assert (Hs : forall n, In n (sort_nat il) <-> lo <= n < hi) by (intros n; rewrite sort_nat_in; apply H).
  assert (N : il <> []) by (intros E; assert (X : In lo il) by (apply H; lia); rewrite E in X; destruct X).
  destruct il as [|i il]; [congruence|]. cbv zeta.
  rewrite (list_min_fill _ _ _ Hs L), (list_max_fill _ _ _ Hs L).
  rewrite (filter_none (fun n => negb (mem_nat n (sort_nat (i :: il))))).
  - cbn [bind]. destruct (sort_nat (i :: il)) as [|a r] eqn:E; [apply sort_nil in E; discriminate|].
    rewrite (list_min_fill _ _ _ Hs L), (list_max_fill _ _ _ Hs L).
    destruct single; [reflexivity|]. f_equal. f_equal. lia.
  - intros n Hn. apply in_seq in Hn. apply negb_false_iff, mem_nat_spec, Hs. lia.
Qed.

(* ---- first occurrences ---- *)
Lemma index_from_app_not x i l1 l2 : ~ In x l1 -> index_from x i (l1 ++ l2) = index_from x (i + List.length l1) l2.
Proof.
  revert i; induction l1 as [|a l1 IH]; intros i H; cbn [app index_from List.length].
  - rewrite Nat.add_0_r. reflexivity.
  - assert (E : str_eqb a x = false) by (apply str_eqb_neq; intros E; apply H; left; exact E).
    rewrite E, IH by (intros X; apply H; right; exact X). f_equal. lia.
Qed.
Lemma index_from_none x i l : ~ In x l -> index_from x i l = None.
Proof. intros H. rewrite <- (app_nil_r l), index_from_app_not by exact H. reflexivity. Qed.
Lemma index_from_app_some x i j l1 l2 : index_from x i l1 = Some j -> index_from x i (l1 ++ l2) = Some j.
Proof.
  revert i; induction l1 as [|a l1 IH]; intros i H; [discriminate|]. cbn [app index_from] in *.
  destruct (str_eqb a x); [exact H|]. apply IH; exact H.
Qed.
Lemma index_from_in x i l : In x l -> exists j, index_from x i l = Some j.
Proof.
  revert i; induction l as [|a l IH]; intros i; [intros []|]. cbn [index_from In].
  destruct (str_eqb a x) eqn:E; [eexists; reflexivity|]. apply str_eqb_neq in E. intros [X|H]; [congruence|apply IH; exact H].
Qed.
Lemma index_from_nodup ks i k x : NoDup ks -> nth_error ks k = Some x -> index_from x i ks = Some (i + k).
Proof.
  revert i k; induction ks as [|a ks IH]; intros i k D H; [destruct k; discriminate|].
  apply NoDup_cons_iff in D. destruct D as [Na D]. cbn [index_from]. destruct k as [|k]; cbn in H.
  - injection H as ->. rewrite str_eqb_refl. f_equal. lia.
  - assert (E : str_eqb a x = false) by (apply str_eqb_neq; intros ->; apply Na; eapply nth_error_In; exact H).
    rewrite E, (IH (S i) k D H). f_equal. lia.
Qed.
Lemma filter_map_in {A B} (f : A -> option B) l b : In b (filter_map f l) <-> exists a, In a l /\ f a = Some b.
Proof.
  induction l as [|a l IH]; cbn [filter_map].
  - split; [intros []|intros [a [[] _]]].
  - destruct (f a) as [b'|] eqn:E; cbn [In]; rewrite IH; split.
    + intros [->|[a' [H1 H2]]]; [exists a; auto|exists a'; auto].
    + intros [a' [[->|H1] H2]]; [left; congruence|right; exists a'; auto].
    + intros [a' [H1 H2]]; exists a'; auto.
    + intros [a' [[->|H1] H2]]; [congruence|exists a'; auto].
Qed.
Lemma index_list0_in tags s keys i : In i (index_list0 tags s keys) <->
  exists t, In t tags /\ t <> kw_comment /\ index_start t keys s = Some i.
Proof.
  unfold index_list0. rewrite filter_map_in. split.
  - intros [t [H1 H2]]. apply filter_In in H1. destruct H1 as [H1 H3]. apply negb_true_iff, str_eqb_neq in H3.
    exists t; auto.
  - intros [t [H1 [H2 H3]]]. exists t. split; [|exact H3]. apply filter_In. split; [exact H1|].
    apply negb_true_iff, str_eqb_neq. exact H2.
Qed.

(* ---- what a keyword list claims ---- *)
Definition claims (T : list str) (own rest : list str) : Prop :=
  exists n ks, own = repeat kw_comment n ++ ks /\ ks <> [] /\ NoDup ks /\ incl ks T /\
    ~ In kw_comment ks /\ (n <> 0 -> In kw_comment T) /\ (In kw_comment T -> List.length T <> 1) /\
    forall t, In t T -> t <> kw_comment -> In t rest -> In t ks.

Lemma repeat_not_in {A} (x y : A) n : x <> y -> ~ In x (repeat y n).
Proof. intros H X. apply repeat_spec in X. congruence. Qed.
Lemma claims_index T own rest i : claims T own rest ->
  (In i (index_list0 T 0 (own ++ rest)) <->
   exists n ks, own = repeat kw_comment n ++ ks /\ ~ In kw_comment ks /\ ks <> [] /\ n <= i < n + List.length ks).
Proof.
  intros [n [ks [-> [Ne [D [I [NC [_ [_ F]]]]]]]]]. rewrite index_list0_in. unfold index_start. cbn [skipn]. split.
  - intros [t [H1 [H2 H3]]]. exists n, ks. split; [reflexivity|]. split; [exact NC|]. split; [exact Ne|].
    rewrite <- app_assoc, index_from_app_not in H3 by (apply repeat_not_in; exact H2). rewrite repeat_length in H3.
    assert (Ht : In t ks).
    { destruct (in_dec (list_eq_dec N.eq_dec) t ks) as [Y|Nn]; [exact Y|].
      rewrite index_from_app_not in H3 by exact Nn. apply F; [exact H1|exact H2|].
      destruct (in_dec (list_eq_dec N.eq_dec) t rest) as [Y|Nr]; [exact Y|]. rewrite index_from_none in H3 by exact Nr. discriminate. }
    destruct (index_from_in t (0 + n) ks Ht) as [j Hj]. pose proof (index_from_app_some _ _ _ _ rest Hj) as X.
    rewrite X in H3. injection H3 as ->. apply index_from_bounds in Hj. lia.
  - intros [n' [ks' [E [NC' [Ne' Hi]]]]].
    assert (n' = n /\ ks' = ks).
    { clear - E NC NC' Ne Ne'. revert n' E. induction n as [|n IH]; intros n' E.
      - cbn in E. destruct n' as [|n']; [split; [reflexivity|symmetry; exact E]|]. exfalso. apply NC. rewrite E. left; reflexivity.
      - destruct n' as [|n']; cbn in E.
        + exfalso. apply NC'. rewrite <- E. left; reflexivity.
        + injection E as E. destruct (IH n' E) as [-> ->]. split; reflexivity. }
    destruct H as [-> ->].
    destruct (nth_error ks (i - n)) as [t|] eqn:Et; [|apply nth_error_None in Et; lia].
    exists t. assert (Ht : In t ks) by (eapply nth_error_In; exact Et). split; [apply I; exact Ht|].
    assert (t <> kw_comment) by (intros ->; contradiction). split; [assumption|].
    rewrite <- app_assoc, index_from_app_not by (apply repeat_not_in; assumption). rewrite repeat_length.
    rewrite (index_from_app_some _ _ (0 + n + (i - n))) by (apply index_from_nodup; assumption). f_equal. lia.
Qed.
Lemma comment_indexes_in keys s e i : In i (comment_indexes keys s e) <->
  s <= i < e /\ nth_error keys i = Some kw_comment.
Proof.
  unfold comment_indexes. rewrite filter_In, in_seq. destruct (nth_error keys i) as [k|] eqn:E.
  - assert (i < List.length keys) by (apply nth_error_Some; congruence). rewrite str_eqb_eq. split.
    + intros [H1 ->]. split; [lia|reflexivity].
    + intros [H1 H2]. injection H2 as ->. split; [lia|reflexivity].
  - split; [intros [_ H]; discriminate|intros [_ H]; discriminate].
Qed.
Lemma nth_repeat_app {A} (x : A) n l i : nth_error (repeat x n ++ l) i = if Nat.ltb i n then Some x else nth_error l (i - n).
Proof.
  destruct (Nat.ltb_spec i n).
  - rewrite nth_error_app1 by (rewrite repeat_length; lia).
    revert i H. induction n as [|n IH]; intros i H; [lia|]. destruct i; [reflexivity|]. cbn. apply IH. lia.
  - rewrite nth_error_app2 by (rewrite repeat_length; lia). rewrite repeat_length. reflexivity.
Qed.

Lemma claims_process T own rest : claims T own rest ->
  exists il, process_comment_lines T 0 (own ++ rest) (index_list0 T 0 (own ++ rest)) = Ok il /\
             forall i, In i il <-> 0 <= i < List.length own.
Proof.
  intros C. pose proof (claims_index T own rest) as Hi. pose proof C as C0.
  destruct C as [n [ks [E [Ne [D [I [NC [Hn [HT F]]]]]]]]].
  assert (H0 : forall i, In i (index_list0 T 0 (own ++ rest)) <-> n <= i < n + List.length ks).
  { intros i. rewrite (Hi i C0). split.
    - intros [n' [ks' [E' [NC' [Ne' Hi']]]]].
      assert (n' = n /\ ks' = ks).
      { rewrite E in E'. clear - E' NC NC' Ne Ne'. revert n' E'. induction n as [|n IH]; intros n' E.
        - cbn in E. destruct n' as [|n']; [split; [reflexivity|symmetry; exact E]|]. exfalso. apply NC. rewrite E. left; reflexivity.
        - destruct n' as [|n']; cbn in E.
          + exfalso. apply NC'. rewrite <- E. left; reflexivity.
          + injection E as E. destruct (IH n' E) as [-> ->]. split; reflexivity. }
      destruct H as [-> ->]. exact Hi'.
    - intros H. exists n, ks. auto. }
  assert (Lk : 0 < List.length ks) by (destruct ks; [congruence|cbn; lia]).
  assert (Lo : List.length own = n + List.length ks) by (rewrite E, app_length, repeat_length; reflexivity).
  unfold process_comment_lines. destruct (mem_str kw_comment T) eqn:M.
  - apply mem_str_spec in M. rewrite (proj2 (Nat.eqb_neq _ _) (HT M)).
    destruct (index_list0 T 0 (own ++ rest)) as [|a il] eqn:L.
    + exfalso. apply (H0 n). lia.
    + eexists. split; [reflexivity|]. intros i. rewrite in_app_iff, H0, comment_indexes_in.
      rewrite (list_max_fill _ _ _ H0) by lia. rewrite Lo.
      rewrite E, <- app_assoc, nth_repeat_app. split.
      * intros [H|[H X]]; [lia|]. destruct (Nat.ltb_spec i n); lia.
      * intros H. destruct (Nat.ltb_spec i n); [right; split; [lia|reflexivity]|left; lia].
  - apply mem_str_false in M. assert (n = 0) by (destruct n; [reflexivity|exfalso; apply M, Hn; discriminate]). subst n.
    eexists. split; [reflexivity|]. intros i. rewrite H0, Lo. lia.
Qed.
Lemma claims_range T own rest single : claims T own rest ->
  get_min_max T 0 (own ++ rest) None single = Ok ((0, if single then 1 else List.length own), T).
Proof.
  intros C. unfold get_min_max. cbn [extend_tags]. destruct (claims_process T own rest C) as [il [E H]].
  rewrite E. cbn [bind]. destruct C as [n [ks [Eo [Ne _]]]].
  rewrite (range_fill il 0 (List.length own) 0 _ single H).
  - destruct single; reflexivity.
  - rewrite Eo, app_length. destruct ks; [congruence|]. cbn. lia.
Qed.

(* nothing found *)
Definition misses (T : list str) (keys : list str) : Prop :=
  (In kw_comment T -> List.length T <> 1) /\ forall t, In t T -> t <> kw_comment -> ~ In t keys.
Lemma in_skipn {A} (x : A) i l : In x (skipn i l) -> In x l.
Proof. revert l; induction i as [|i IH]; intros l H; [exact H|]. destruct l; [destruct H|]. right. apply IH. exact H. Qed.
Lemma misses_range T keys i single : misses T (skipn i keys) ->
  get_min_max T i keys None single = Ok ((i, i), T).
Proof.
  intros [HT H]. unfold get_min_max. cbn [extend_tags].
  assert (E : index_list0 T i keys = []).
  { destruct (index_list0 T i keys) as [|j il] eqn:E; [reflexivity|]. exfalso.
    assert (X : In j (index_list0 T i keys)) by (rewrite E; left; reflexivity).
    apply index_list0_in in X. destruct X as [t [H1 [H2 H3]]]. unfold index_start in H3.
    rewrite index_from_none in H3; [discriminate|]. apply H; assumption. }
  rewrite E. unfold process_comment_lines. destruct (mem_str kw_comment T) eqn:M; [|reflexivity].
  apply mem_str_spec in M. rewrite (proj2 (Nat.eqb_neq _ _) (HT M)). reflexivity.
Qed.
(* a container that has nothing but comments of its own *)
Lemma comment_only_some keys : get_min_max [kw_comment] 0 (kw_comment :: keys) None false = Ok ((0, 1), [kw_comment]).
Proof. reflexivity. Qed.
Lemma comment_only_none k keys : k <> kw_comment ->
  get_min_max [kw_comment] 0 (k :: keys) None false = Ok ((0, 0), [kw_comment]).
Proof.
  intros H. unfold get_min_max. cbn [extend_tags].
  replace (index_list0 [kw_comment] 0 (k :: keys)) with (@nil nat) by reflexivity.
  unfold process_comment_lines. cbn [mem_str existsb]. rewrite str_eqb_refl. cbn [orb List.length Nat.eqb get nth_error guard_opt bind].
  rewrite (proj2 (str_eqb_neq _ _) H). reflexivity.
Qed.
