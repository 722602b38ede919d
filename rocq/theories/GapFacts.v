(* Keyword ranges that stop at a line with a space in it, and where a range can start. *)
From Coq Require Import NArith ZArith List Bool String Arith Lia Sorted.
From Verif Require Import PyStr PyDec PyVal Schema KvnPre KvnTree KvnSeg Spec StrFacts SegFacts ReadFacts.
Import ListNotations.
Local Open Scope list_scope.

(* ---- sorting ---- *)
Lemma insert_strict x l : StronglySorted lt l -> ~ In x l -> StronglySorted lt (insert_nat x l).
Proof.
  induction l as [|y r IH]; intros So N; [constructor; constructor|]. inversion So as [|? ? Sr F]; subst. cbn [insert_nat].
  destruct (Nat.leb_spec x y) as [L|L].
  - assert (x < y) by (assert (x <> y) by (intros ->; apply N; left; reflexivity); lia).
    constructor; [exact So|]. constructor; [assumption|]. eapply Forall_impl; [|exact F]. intros; lia.
  - constructor; [apply IH; [exact Sr|intros X; apply N; right; exact X]|].
    apply Forall_forall. intros z Hz. apply insert_nat_in in Hz. destruct Hz as [->|Hz]; [exact L|]. rewrite Forall_forall in F. apply F; exact Hz.
Qed.
Lemma sort_strict l : NoDup l -> StronglySorted lt (sort_nat l).
Proof.
  induction 1 as [|x l N _ IH]; [constructor|]. cbn [sort_nat]. apply insert_strict; [exact IH|]. rewrite sort_nat_in. exact N.
Qed.

(* ---- chop keeps the run at the start ---- *)
Lemma chop_run l : forall ideal hi, StronglySorted lt l -> (forall x, In x l -> ideal <= x <= hi) ->
  exists l', chop ideal hi l = Ok l' /\ forall x, In x l' <-> (ideal <= x /\ forall y, ideal <= y <= x -> In y l).
Proof.
  induction l as [|n r IH]; intros ideal hi So B.
  - exists []. split; [reflexivity|]. intros x. split; [intros []|]. intros [H1 H2]. exact (H2 x (conj H1 (le_n x))).
  - inversion So as [|? ? Sr F]; subst. rewrite Forall_forall in F. pose proof (B n (or_introl eq_refl)) as Bn.
    rewrite chop_cons. rewrite (proj2 (Nat.ltb_ge hi ideal)) by lia.
    destruct (IH (S ideal) hi Sr) as [r' [E H]].
    { intros x Hx. pose proof (F x Hx). pose proof (B x (or_intror Hx)). lia. }
    rewrite E. cbn [bind]. destruct (Nat.eqb_spec n ideal) as [->|N].
    + exists (ideal :: r'). split; [reflexivity|]. intros x. split.
      * intros [<-|Hx]; [split; [lia|]; intros y Hy; left; lia|]. apply H in Hx. destruct Hx as [H1 H2]. split; [lia|].
        intros y Hy. destruct (Nat.eq_dec y ideal) as [->|Ny]; [left; reflexivity|right; apply H2; lia].
      * intros [H1 H2]. destruct (Nat.eq_dec x ideal) as [->|Nx]; [left; reflexivity|right]. apply H. split; [lia|].
        intros y Hy. destruct (H2 y) as [E2|E2]; [lia|lia|exact E2].
    + exists r'. split; [reflexivity|]. intros x. split.
      * intros Hx. apply H in Hx. destruct Hx as [H1 H2]. exfalso. specialize (H2 (S ideal) ltac:(lia)). apply F in H2. lia.
      * intros [H1 H2]. exfalso. destruct (H2 ideal ltac:(lia)) as [X|X]; [lia|]. apply F in X. lia.
Qed.

Lemma map_res_get (keys : list str) l : (forall i, In i l -> i < List.length keys) ->
  exists ks, map_res (get keys) l = Ok ks /\ Forall2 (fun i k => nth_error keys i = Some k) l ks.
Proof.
  induction l as [|i l IH]; intros H; [exists []; split; [reflexivity|constructor]|].
  destruct IH as [ks [E F]]; [intros j Hj; apply H; right; exact Hj|]. pose proof (H i (or_introl eq_refl)) as L.
  destruct (nth_error keys i) as [k|] eqn:Ek; [|apply nth_error_None in Ek; lia].
  exists (k :: ks). cbn [map_res]. unfold get at 1. rewrite Ek. cbn [guard_opt bind]. rewrite E. split; [reflexivity|]. constructor; assumption.
Qed.
Lemma Forall2_in_l {A B} (P : A -> B -> Prop) l m a : Forall2 P l m -> In a l -> exists b, In b m /\ P a b.
Proof.
  induction 1 as [|x y l m H _ IH]; intros Hi; [destruct Hi|]. destruct Hi as [<-|Hi]; [exists y; split; [left; reflexivity|exact H]|].
  destruct (IH Hi) as [b [B1 B2]]. exists b. split; [right; exact B1|exact B2].
Qed.

Definition span (start : nat) (il : list nat) : res (nat * nat) :=
  match il with [] => Ok (start, start) | _ => Ok (list_min il, list_max il + 1) end.
Lemma range_unfold il start keys : il <> [] ->
  range_of_indices il start keys false =
  (do il' <- match filter (fun n => negb (mem_nat n (sort_nat il))) (seq (list_min (sort_nat il)) (list_max (sort_nat il) + 1 - list_min (sort_nat il))) with
             | [] => Ok (sort_nat il)
             | diff => do dkeys <- map_res (get keys) diff;
                       if existsb (mem_char c_sp) dkeys || has_dup dkeys then chop (list_min (sort_nat il)) (list_max (sort_nat il)) (sort_nat il)
                       else Ok (sort_nat il)
             end;
   span start il').
Proof.
  intros Ne. destruct il as [|i il]; [congruence|]. unfold range_of_indices. cbv zeta.
  destruct (filter _ _); reflexivity.
Qed.
Lemma span_same start a b : (forall x, In x a <-> In x b) -> b <> [] -> span start a = Ok (list_min b, list_max b + 1).
Proof.
  intros H Nb. assert (Na : a <> []) by (destruct b as [|c b]; [congruence|]; intros ->; destruct (proj2 (H c) (or_introl eq_refl))).
  assert (E : span start a = Ok (list_min a, list_max a + 1)) by (destruct a; [congruence|reflexivity]). rewrite E. f_equal. f_equal.
  - apply Nat.le_antisymm; [apply list_min_le, H, list_min_in, Nb|apply list_min_le, H, list_min_in, Na].
  - f_equal. apply Nat.le_antisymm; [apply list_max_ge, H, list_max_in, Na|apply list_max_ge, H, list_max_in, Nb].
Qed.

(* keys without repetition come from different lines *)
Lemma keys_distinct (keys : list str) l ks i j : Forall2 (fun i k => nth_error keys i = Some k) l ks -> has_dup ks = false ->
  In i l -> In j l -> nth_error keys i = nth_error keys j -> i = j.
Proof.
  induction 1 as [|a k l ks Hk F IH]; intros D Hi Hj E; [destruct Hi|]. cbn [has_dup] in D. apply orb_false_iff in D. destruct D as [D1 D2]. apply mem_str_false in D1.
  destruct Hi as [<-|Hi], Hj as [<-|Hj]; [reflexivity| | |apply IH; assumption]; exfalso; apply D1.
  - destruct (Forall2_in_l _ _ _ j F Hj) as [k' [K1 K2]]. replace k with k' by congruence. exact K1.
  - destruct (Forall2_in_l _ _ _ i F Hi) as [k' [K1 K2]]. replace k with k' by congruence. exact K1.
Qed.

(* the outcome: the whole span, or the run at its start *)
Lemma range_cases il start keys : NoDup il -> il <> [] -> (forall i, In i il -> i < List.length keys) ->
  let lo := list_min il in
  exists hi, range_of_indices il start keys false = Ok (lo, hi) /\ lo < hi /\
    ((hi = list_max il + 1 /\
      ((forall i, lo <= i <= list_max il -> In i il) \/
       ((forall i k, lo <= i <= list_max il -> ~ In i il -> nth_error keys i = Some k -> mem_char c_sp k = false) /\
        (forall i j, lo <= i <= list_max il -> ~ In i il -> lo <= j <= list_max il -> ~ In j il ->
           nth_error keys i = nth_error keys j -> i = j)))) \/
     (forall i, lo <= i < hi -> In i il) /\ ~ In hi il).
Proof.
  intros D Ne B lo. assert (Es : forall x, In x (sort_nat il) <-> In x il) by (intros; apply sort_nat_in).
  assert (Nes : sort_nat il <> []) by (destruct il as [|a il]; [congruence|]; intros X; assert (Y : In a (sort_nat (a :: il))) by (apply Es; left; reflexivity); rewrite X in Y; destruct Y).
  assert (Elo : list_min (sort_nat il) = lo).
  { apply Nat.le_antisymm; [apply list_min_le, Es, list_min_in, Ne|apply list_min_le, Es, list_min_in, Nes]. }
  assert (Ehi : list_max (sort_nat il) = list_max il).
  { apply Nat.le_antisymm; [apply list_max_ge, Es, list_max_in, Nes|apply list_max_ge, Es, list_max_in, Ne]. }
  rewrite range_unfold by exact Ne. rewrite Elo, Ehi.
  assert (Llm : lo <= list_max il) by (apply list_min_le; apply list_max_in; exact Ne).
  set (diff := filter (fun n => negb (mem_nat n (sort_nat il))) (seq lo (list_max il + 1 - lo))).
  assert (Id : forall i, In i diff <-> lo <= i <= list_max il /\ ~ In i il).
  { intros i. unfold diff. rewrite filter_In, in_seq, negb_true_iff. rewrite <- not_true_iff_false, mem_nat_spec, Es. split; intros [H1 H2]; (split; [lia|exact H2]). }
  destruct (map_res_get keys diff) as [dk [Edk Fdk]].
  { intros i Hi. apply Id in Hi. assert (list_max il < List.length keys) by (apply B, list_max_in, Ne). lia. }
  destruct diff as [|d0 diff0].
  - cbn [bind]. exists (list_max il + 1). split; [apply span_same; [exact Es|exact Ne]|]. split; [lia|]. left. split; [reflexivity|]. left.
    intros i Hi. destruct (in_dec Nat.eq_dec i il) as [Y|Y]; [exact Y|]. exfalso. apply (Id i). auto.
  - rewrite Edk. cbn [bind].
    destruct (existsb (mem_char c_sp) dk || has_dup dk) eqn:X.
    + destruct (chop_run (sort_nat il) lo (list_max il) (sort_strict il D)) as [l' [El' Hl']].
      { intros x Hx. apply Es in Hx. split; [apply list_min_le; exact Hx|apply list_max_ge; exact Hx]. }
      rewrite El'. cbn [bind].
      assert (I0 : In lo l') by (apply Hl'; split; [lia|]; intros y Hy; apply Es; replace y with lo by lia; apply list_min_in, Ne).
      assert (Nl : l' <> []) by (intros Z; rewrite Z in I0; destruct I0).
      exists (list_max l' + 1). split.
      * rewrite (span_same start l' l') by (reflexivity || exact Nl). f_equal. f_equal.
        apply Nat.le_antisymm; [apply list_min_le; exact I0|]. apply (Hl' (list_min l')). apply list_min_in. exact Nl.
      * pose proof (list_max_in l' Nl) as Im. apply Hl' in Im. destruct Im as [Im1 Im2]. split; [lia|]. right. split.
        -- intros i Hi. apply Es, Im2. lia.
        -- intros Hi. assert (In (list_max l' + 1) l').
           { apply Hl'. split; [lia|]. intros y Hy. destruct (Nat.eq_dec y (list_max l' + 1)) as [->|]; [apply Es; exact Hi|apply Im2; lia]. }
           apply list_max_ge in H. lia.
    + cbn [bind]. exists (list_max il + 1). split; [apply span_same; [exact Es|exact Ne]|]. split; [lia|]. left. split; [reflexivity|]. right.
      apply orb_false_iff in X. destruct X as [X X2]. split.
      * intros i k Hi Ni Hk. destruct (Forall2_in_l _ _ _ i Fdk) as [k' [K1 K2]]; [apply Id; auto|]. rewrite Hk in K2. injection K2 as <-.
        destruct (mem_char c_sp k) eqn:M; [|reflexivity]. rewrite <- X. symmetry. apply existsb_exists. exists k. auto.
      * intros i j Hi Ni Hj Nj E. apply (keys_distinct keys (d0 :: diff0) dk); try assumption; apply Id; auto.
Qed.

(* indices of a keyword list are distinct *)
Lemma index_from_nth x : forall l i j, index_from x i l = Some j -> nth_error l (j - i) = Some x.
Proof.
  induction l as [|a l IH]; intros i j H; [discriminate|]. cbn [index_from] in H. destruct (str_eqb a x) eqn:E.
  - injection H as <-. rewrite Nat.sub_diag. apply str_eqb_eq in E. subst. reflexivity.
  - pose proof (index_from_bounds _ _ _ _ H) as Bd. apply IH in H. replace (j - i) with (S (j - S i)) by lia. exact H.
Qed.
Lemma index_start_nth x l s j : index_start x l s = Some j -> nth_error l j = Some x.
Proof.
  unfold index_start. intros H. pose proof (index_from_bounds _ _ _ _ H) as Bd. apply index_from_nth in H.
  rewrite <- H. clear H. rewrite <- (firstn_skipn s l) at 1. destruct (le_lt_dec s (List.length l)) as [L|L].
  - rewrite nth_error_app2; rewrite firstn_length; [f_equal; lia|lia].
  - rewrite skipn_all2 in Bd by lia. cbn in Bd. lia.
Qed.
Lemma filter_map_nodup {A B} (f : A -> option B) l : NoDup l -> (forall a a' b, f a = Some b -> f a' = Some b -> a = a') -> NoDup (filter_map f l).
Proof.
  intros D Inj. induction D as [|a l N _ IH]; [constructor|]. cbn [filter_map]. destruct (f a) as [b|] eqn:E; [|exact IH].
  constructor; [|exact IH]. intros X. apply filter_map_in in X. destruct X as [a' [X1 X2]]. rewrite (Inj a a' b E X2) in N. contradiction.
Qed.
Lemma index_list0_nodup T s keys : NoDup T -> NoDup (index_list0 T s keys).
Proof.
  intros D. unfold index_list0. apply filter_map_nodup; [apply NoDup_filter; exact D|].
  intros a a' b H1 H2. apply index_start_nth in H1, H2. congruence.
Qed.
Lemma found_nodup T s keys stop : NoDup T -> NoDup (index_list0 T s keys ++ comment_indexes keys s stop).
Proof.
  intros D. pose proof (index_list0_nodup T s keys D) as D1.
  assert (D2 : NoDup (comment_indexes keys s stop)) by (apply NoDup_filter, seq_NoDup).
  assert (X : forall i, In i (index_list0 T s keys) -> ~ In i (comment_indexes keys s stop)).
  { intros i H1 H2. apply index_list0_in in H1. destruct H1 as [t [_ [Hc H1]]]. apply index_start_nth in H1.
    apply comment_indexes_in in H2. destruct H2 as [_ H2]. congruence. }
  revert X. induction D1 as [|a l N _ IH]; intros X; [exact D2|]. cbn. constructor.
  - intros Y. apply in_app_or in Y. destruct Y as [Y|Y]; [contradiction|]. apply (X a); [left; reflexivity|exact Y].
  - apply IH. intros i Hi. apply X. right; exact Hi.
Qed.

(* what get_min_max looks at *)
Lemma found_ok T keys : NoDup T -> (In kw_comment T -> List.length T <> 1) -> index_list0 T 0 keys <> [] ->
  exists il, process_comment_lines T 0 keys (index_list0 T 0 keys) = Ok il /\ NoDup il /\ il <> [] /\
    (forall i, In i il -> i < List.length keys) /\
    (forall i, In i il -> exists k, nth_error keys i = Some k /\ In k T) /\
    (forall i, In i (index_list0 T 0 keys) -> In i il) /\
    (forall i, In i il -> In i (index_list0 T 0 keys) \/ nth_error keys i = Some kw_comment) /\
    (In kw_comment T -> forall i, i <= list_max (index_list0 T 0 keys) -> nth_error keys i = Some kw_comment -> In i il).
Proof.
  intros D HT Ne.
  assert (Bi : forall i, In i (index_list0 T 0 keys) -> exists k, nth_error keys i = Some k /\ In k T).
  { intros i Hi. apply index_list0_in in Hi. destruct Hi as [t [H1 [_ H3]]]. exists t. split; [eapply index_start_nth; exact H3|exact H1]. }
  assert (Lt : forall i k, nth_error keys i = Some k -> i < List.length keys) by (intros i k H; apply nth_error_Some; congruence).
  unfold process_comment_lines. destruct (mem_str kw_comment T) eqn:M.
  - apply mem_str_spec in M. rewrite (proj2 (Nat.eqb_neq _ _) (HT M)).
    destruct (index_list0 T 0 keys) as [|a il] eqn:E; [congruence|]. rewrite <- E in *.
    eexists. split; [reflexivity|]. split; [apply found_nodup; exact D|]. split; [rewrite E; discriminate|].
    assert (Y : forall i, In i (index_list0 T 0 keys ++ comment_indexes keys 0 (list_max (index_list0 T 0 keys) + 1)) -> exists k, nth_error keys i = Some k /\ In k T).
    { intros i Hi. apply in_app_or in Hi. destruct Hi as [Hi|Hi]; [apply Bi; exact Hi|]. apply comment_indexes_in in Hi. exists kw_comment. split; [apply Hi|exact M]. }
    split; [intros i Hi; destruct (Y i Hi) as [k [K _]]; exact (Lt _ _ K)|]. split; [exact Y|].
    split; [intros i Hi; apply in_or_app; left; exact Hi|]. split.
    + intros i Hi. apply in_app_or in Hi. destruct Hi as [Hi|Hi]; [left; exact Hi|]. apply comment_indexes_in in Hi. right. apply Hi.
    + intros _ i Hi Hk. apply in_or_app. right. apply comment_indexes_in. split; [lia|exact Hk].
  - apply mem_str_false in M. eexists. split; [reflexivity|]. split; [apply index_list0_nodup; exact D|]. split; [exact Ne|].
    split; [intros i Hi; destruct (Bi i Hi) as [k [K _]]; exact (Lt _ _ K)|]. split; [exact Bi|]. split; [auto|]. split; [auto|]. contradiction.
Qed.

Lemma dup_at (l : list str) : has_dup l = true -> exists i j k, i < j /\ nth_error l i = Some k /\ nth_error l j = Some k.
Proof.
  induction l as [|a l IH]; intros H; [discriminate|]. cbn [has_dup] in H. apply orb_true_iff in H. destruct H as [H|H].
  - apply mem_str_spec, In_nth_error in H. destruct H as [j Hj]. exists 0, (S j), a. split; [lia|]. split; [reflexivity|exact Hj].
  - destruct (IH H) as [i [j [k [L [Hi Hj]]]]]. exists (S i), (S j), k. split; [lia|]. auto.
Qed.

(* a keyword range that starts with its own lines and is followed by lines of other kinds, one of which has
   a space in its key or two of which have the same key *)
Lemma gap_range_many T own ds rest : NoDup T ->
  (exists n ks, own = repeat kw_comment n ++ ks /\ ks <> [] /\ NoDup ks /\ incl ks T /\
    ~ In kw_comment ks /\ (n <> 0 -> In kw_comment T) /\ (In kw_comment T -> List.length T <> 1)) ->
  Forall (fun k => ~ In k T /\ k <> kw_comment) ds -> existsb (mem_char c_sp) ds || has_dup ds = true ->
  get_min_max T 0 (own ++ ds ++ rest) None false = Ok ((0, List.length own), T).
Proof.
  intros D [n [ks [E [Ne [Dk [I [NC [Hn HT]]]]]]]] Nd Sp.
  set (keys := own ++ ds ++ rest).
  assert (Lo : List.length own = n + List.length ks) by (rewrite E, app_length, repeat_length; reflexivity).
  assert (Lk : 0 < List.length ks) by (destruct ks; [congruence|cbn; lia]).
  assert (Ei : forall i, n <= i < n + List.length ks -> In i (index_list0 T 0 keys)).
  { intros i Hi. destruct (nth_error ks (i - n)) as [t|] eqn:Et; [|apply nth_error_None in Et; lia].
    assert (Ht : In t ks) by (eapply nth_error_In; exact Et). assert (Tc : t <> kw_comment) by (intros ->; contradiction).
    apply index_list0_in. exists t. split; [apply I; exact Ht|]. split; [exact Tc|]. unfold index_start, keys. cbn [skipn].
    rewrite E, <- app_assoc, index_from_app_not by (apply repeat_not_in; assumption). rewrite repeat_length.
    rewrite (index_from_app_some _ _ (0 + n + (i - n))) by (apply index_from_nodup; assumption). f_equal. lia. }
  assert (Ni : index_list0 T 0 keys <> []) by (intros X; specialize (Ei n ltac:(lia)); rewrite X in Ei; destruct Ei).
  destruct (found_ok T keys D HT Ni) as [il [P [Dil [Nil [Bil [Kil [Fil [Cil Mil]]]]]]]].
  assert (Own : forall i, i < List.length own -> In i il).
  { intros i Hi. destruct (le_lt_dec n i) as [L|L]; [apply Fil, Ei; lia|]. apply Mil; [apply Hn; lia| |].
    - assert (X : n <= list_max (index_list0 T 0 keys)) by (apply list_max_ge, Ei; lia). lia.
    - unfold keys. rewrite E, <- app_assoc, nth_repeat_app. rewrite (proj2 (Nat.ltb_lt i n) L). reflexivity. }
  assert (At : forall i k, nth_error ds i = Some k -> nth_error keys (List.length own + i) = Some k).
  { intros i k H. unfold keys. rewrite nth_error_app2 by lia. replace (List.length own + i - List.length own) with i by lia.
    rewrite nth_error_app1; [exact H|]. apply nth_error_Some. congruence. }
  assert (Gap : forall i, i < List.length ds -> ~ In (List.length own + i) il).
  { intros i Hi X. destruct (nth_error ds i) as [k|] eqn:Ek; [|apply nth_error_None in Ek; lia].
    destruct (Kil _ X) as [k' [K1 K2]]. rewrite (At i k Ek) in K1. injection K1 as <-.
    rewrite Forall_forall in Nd. exact (proj1 (Nd k (nth_error_In _ _ Ek)) K2). }
  assert (Nds : 0 < List.length ds) by (destruct ds; [discriminate|cbn; lia]).
  unfold get_min_max. cbn [extend_tags]. rewrite P. cbn [bind].
  destruct (range_cases il 0 keys Dil Nil Bil) as [hi [R [Lh C]]].
  assert (L0 : list_min il = 0) by (pose proof (list_min_le il 0 (Own 0 ltac:(lia))); lia).
  rewrite L0 in *. rewrite R. cbn [bind]. do 3 f_equal. pose proof (Gap 0 Nds) as Gap0. rewrite Nat.add_0_r in Gap0.
  assert (Far : List.length own <= list_max il -> List.length own + List.length ds <= list_max il).
  { intros L. destruct (le_lt_dec (List.length own + List.length ds) (list_max il)) as [L'|L']; [exact L'|exfalso].
    apply (Gap (list_max il - List.length own)); [lia|]. replace (List.length own + (list_max il - List.length own)) with (list_max il) by lia.
    apply list_max_in. exact Nil. }
  destruct C as [[-> [C|[C1 C2]]]|[C1 C2]].
  - destruct (le_lt_dec (List.length own) (list_max il)) as [L|L]; [exfalso; apply Gap0, C; lia|].
    pose proof (list_max_ge il (List.length own - 1) (Own (List.length own - 1) ltac:(lia))). lia.
  - destruct (le_lt_dec (List.length own) (list_max il)) as [L|L].
    + exfalso. specialize (Far L). apply orb_true_iff in Sp. destruct Sp as [Sp|Sp].
      * apply existsb_exists in Sp. destruct Sp as [k [Hk Sp]]. apply In_nth_error in Hk. destruct Hk as [i Hi].
        assert (Li : i < List.length ds) by (apply nth_error_Some; congruence).
        rewrite (C1 (List.length own + i) k) in Sp; [discriminate|lia|apply Gap; exact Li|apply At; exact Hi].
      * destruct (dup_at ds Sp) as [i [j [k [Lij [Hi Hj]]]]].
        assert (Lj : j < List.length ds) by (apply nth_error_Some; congruence).
        assert (List.length own + i = List.length own + j); [|lia].
        apply C2; [lia|apply Gap; lia|lia|apply Gap; exact Lj|]. rewrite (At i k Hi), (At j k Hj). reflexivity.
    + pose proof (list_max_ge il (List.length own - 1) (Own (List.length own - 1) ltac:(lia))). lia.
  - destruct (lt_eq_lt_dec hi (List.length own)) as [[L|L]|L]; [exfalso; apply C2, Own; exact L|exact L|exfalso; apply Gap0, C1; lia].
Qed.
Lemma gap_range T own k rest : NoDup T ->
  (exists n ks, own = repeat kw_comment n ++ ks /\ ks <> [] /\ NoDup ks /\ incl ks T /\
    ~ In kw_comment ks /\ (n <> 0 -> In kw_comment T) /\ (In kw_comment T -> List.length T <> 1)) ->
  ~ In k T -> k <> kw_comment -> mem_char c_sp k = true ->
  get_min_max T 0 (own ++ k :: rest) None false = Ok ((0, List.length own), T).
Proof.
  intros D O NT Nk Sp. apply (gap_range_many T own [k] rest D O); [constructor; [split; assumption|constructor]|].
  cbn [existsb]. rewrite Sp. reflexivity.
Qed.

(* a keyword range always starts at the first keyword or comment found, when there is one *)
Lemma later_range T keys : NoDup T -> (In kw_comment T -> List.length T <> 1) ->
  (forall k, hd_error keys = Some k -> ~ In k T) ->
  (exists t, In t T /\ t <> kw_comment /\ In t keys) ->
  exists lo hi, get_min_max T 0 keys None false = Ok ((lo, hi), T) /\ 0 < lo < hi.
Proof.
  intros D HT H0 [t [H1 [H2 H3]]].
  assert (Ni : index_list0 T 0 keys <> []).
  { intros X. destruct (index_from_in t 0 keys H3) as [j Hj]. assert (Y : In j (index_list0 T 0 keys)) by (apply index_list0_in; exists t; auto).
    rewrite X in Y. destruct Y. }
  destruct (found_ok T keys D HT Ni) as [il [P [Dil [Nil [Bil [Kil _]]]]]].
  unfold get_min_max. cbn [extend_tags]. rewrite P. cbn [bind].
  destruct (range_cases il 0 keys Dil Nil Bil) as [hi [R [Lh _]]]. rewrite R. cbn [bind].
  exists (list_min il), hi. split; [reflexivity|]. split; [|exact Lh].
  destruct (Kil _ (list_min_in il Nil)) as [k [K1 K2]]. destruct (list_min il); [|lia]. exfalso.
  destruct keys as [|k0 keys]; [discriminate|]. cbn in K1. injection K1 as ->. exact (H0 k eq_refl K2).
Qed.
