(* A line with an unknown keyword put into a document: the ranges of the sections move with their lines. *)
From Coq Require Import NArith ZArith List Bool String Arith Lia Sorted.
From Verif Require Import PyStr PyDec PyVal Schema KvnPre KvnTree KvnSeg XmlBind KvnBuild
     Spec StrFacts SegFacts BuildFacts ReadFacts GapFacts.
Import ListNotations.
Local Open Scope string_scope.
Local Open Scope list_scope.
Local Arguments find_class : simpl never.
Local Arguments lit : simpl never.

Section Shift.
Variable p : nat.
(* where line i of the old document stands in the new one *)
Definition sh (i : nat) : nat := if Nat.ltb i p then i else S i.
Lemma sh_lt i : i < p -> sh i = i.
Proof. unfold sh. intros H. apply Nat.ltb_lt in H. rewrite H. reflexivity. Qed.
Lemma sh_ge i : p <= i -> sh i = S i.
Proof. unfold sh. intros H. apply Nat.ltb_ge in H. rewrite H. reflexivity. Qed.
Ltac shx i := let H := fresh "L" in destruct (le_lt_dec p i) as [H|H]; [rewrite ?(sh_ge i H) in *|rewrite ?(sh_lt i H) in *].
Lemma sh_ne i : sh i <> p.
Proof. shx i; lia. Qed.
Lemma sh_mono i j : i < j -> sh i < sh j.
Proof. intros H. shx i; shx j; lia. Qed.
Lemma sh_le i j : i <= j <-> sh i <= sh j.
Proof. shx i; shx j; lia. Qed.
Lemma sh_inj i j : sh i = sh j -> i = j.
Proof. shx i; shx j; lia. Qed.
Lemma sh_self i : i <= sh i.
Proof. shx i; lia. Qed.

(* the same place between lines *)
Definition cut (i i' : nat) : Prop := (i < p /\ i' = i) \/ (i = p /\ (i' = p \/ i' = S p)) \/ (p < i /\ i' = S i).
(* a place reached from another one by taking lines *)
Definition adv (i i' m m' : nat) : Prop := (m = i /\ m' = i') \/ exists n, i <= n /\ m = S n /\ m' = S (sh n).
Lemma cut_sh i : cut i (sh i).
Proof. unfold cut. shx i; lia. Qed.
Lemma cut_S n : cut (S n) (S (sh n)).
Proof. unfold cut. shx n; lia. Qed.
Lemma adv_cut i i' m m' : cut i i' -> adv i i' m m' -> cut m m'.
Proof. intros C [[-> ->]|[n [_ [-> ->]]]]; [exact C|apply cut_S]. Qed.
Lemma adv_trans i i' a a' b b' : adv i i' a a' -> adv a a' b b' -> adv i i' b b'.
Proof.
  intros H [[-> ->]|[n [L [-> ->]]]]; [exact H|]. right. exists n. split; [|auto].
  destruct H as [[-> _]|[m [Lm [-> _]]]]; lia.
Qed.
Lemma cut_le i i' n : cut i i' -> i <= n -> i' <= sh n.
Proof. unfold cut. shx n; lia. Qed.
Lemma adv_pos i i' n : cut i i' -> i <= n -> i' < S (sh n).
Proof. intros C L. pose proof (cut_le _ _ n C L). lia. Qed.

Lemma seq_shift n : forall i i' j', cut i i' -> cut (i + n) j' ->
  filter (fun a => negb (Nat.eqb a p)) (seq i' (j' - i')) = map sh (seq i n).
Proof.
  induction n as [|n IH]; intros i i' j' C D.
  - rewrite Nat.add_0_r in D. cbn [seq map].
    assert (E : j' - i' = 0 \/ (j' - i' = 1 /\ i' = p)) by (unfold cut in *; lia).
    destruct E as [->|[-> ->]]; [reflexivity|]. cbn. rewrite Nat.eqb_refl. reflexivity.
  - replace (i + S n) with (S i + n) in D by lia. cbn [seq map].
    assert (C2 : cut (S i) (S (sh i))) by apply cut_S.
    assert (Lj : S (sh i) <= j') by (unfold cut in D; shx i; lia).
    rewrite <- (IH (S i) (S (sh i)) j' C2 D).
    assert (E : i' = sh i \/ (i' = p /\ sh i = S p)).
    { unfold cut in C. shx i; lia. }
    destruct E as [->|[-> E]].
    + replace (j' - sh i) with (S (j' - S (sh i))) by lia. cbn [seq filter]. pose proof (sh_ne i) as N. apply Nat.eqb_neq in N. rewrite N. reflexivity.
    + rewrite E in *. replace (j' - p) with (S (S (j' - S (S p)))) by lia. cbn [seq filter]. rewrite Nat.eqb_refl. cbn [negb].
      assert (N : Nat.eqb (S p) p = false) by (apply Nat.eqb_neq; lia). rewrite N. reflexivity.
Qed.

Lemma sort_sh l : sort_nat (map sh l) = map sh (sort_nat l).
Proof.
  induction l as [|a l IH]; [reflexivity|]. cbn [map sort_nat]. rewrite IH. generalize (sort_nat l). clear l IH. intros l.
  induction l as [|b l IH]; [reflexivity|]. cbn [map insert_nat]. destruct (Nat.leb_spec a b) as [L|L].
  - apply (proj1 (sh_le _ _)) in L. apply Nat.leb_le in L. rewrite L. reflexivity.
  - apply sh_mono in L. apply Nat.leb_gt in L. rewrite L. cbn [map]. rewrite IH. reflexivity.
Qed.
Lemma min_sh l : l <> [] -> list_min (map sh l) = sh (list_min l).
Proof.
  intros H. assert (H' : map sh l <> []) by (destruct l; [congruence|discriminate]). apply Nat.le_antisymm.
  - apply list_min_le. apply in_map. apply list_min_in. exact H.
  - pose proof (list_min_in _ H') as I. apply in_map_iff in I. destruct I as [x [<- Hx]]. apply (proj1 (sh_le _ _)). apply list_min_le. exact Hx.
Qed.
Lemma max_sh l : l <> [] -> list_max (map sh l) = sh (list_max l).
Proof.
  intros H. assert (H' : map sh l <> []) by (destruct l; [congruence|discriminate]). apply Nat.le_antisymm.
  - pose proof (list_max_in _ H') as I. apply in_map_iff in I. destruct I as [x [<- Hx]]. apply (proj1 (sh_le _ _)). apply list_max_ge. exact Hx.
  - apply list_max_ge. apply in_map. apply list_max_in. exact H.
Qed.
Lemma mem_sh x l : mem_nat (sh x) (map sh l) = mem_nat x l.
Proof.
  unfold mem_nat. induction l as [|a l IH]; [reflexivity|]. cbn [map existsb]. rewrite IH. f_equal.
  destruct (Nat.eqb_spec x a) as [->|N]; [apply Nat.eqb_refl|]. apply Nat.eqb_neq. intros X. apply N. exact (sh_inj _ _ X).
Qed.

(* chop: when the line after the new one is not in the list *)
Lemma chop_sh l : forall ideal hi hi' r, StronglySorted lt l -> ~ In p l -> (forall x, In x l -> ideal <= x) ->
  (p < ideal -> forall x, In x l -> ideal < x) -> hi <= hi' ->
  chop ideal hi l = Ok r -> chop ideal hi' (map sh l) = Ok (map sh r).
Proof.
  induction l as [|n l IH]; intros ideal hi hi' r So Np B1 B2 Lh H.
  - injection H as <-. reflexivity.
  - cbn [map]. rewrite chop_cons in *. destruct (Nat.ltb_spec hi ideal) as [L|L]; [discriminate|].
    rewrite (proj2 (Nat.ltb_ge hi' ideal)) by lia. inv_ok H. inversion So as [|? ? Sr F]; subst. rewrite Forall_forall in F.
    pose proof (B1 n (or_introl eq_refl)) as Bn. assert (Nn : n <> p) by (intros ->; apply Np; left; reflexivity).
    rewrite (IH (S ideal) hi hi' a Sr).
    + cbn [bind]. injection H as <-. f_equal. destruct (Nat.eqb_spec n ideal) as [->|E1].
      * assert (ideal < p) by (destruct (le_lt_dec ideal p) as [X|X]; [lia|specialize (B2 X ideal (or_introl eq_refl)); lia]).
        rewrite sh_lt by assumption. rewrite Nat.eqb_refl. cbn [map]. rewrite sh_lt by assumption. reflexivity.
      * assert (sh n <> ideal) by (shx n; lia). apply Nat.eqb_neq in H. rewrite H. reflexivity.
    + intros X. apply Np. right. exact X.
    + intros x Hx. specialize (F x Hx). lia.
    + intros X x Hx. specialize (F x Hx). destruct (le_lt_dec ideal p) as [Y|Y]; [lia|]. specialize (B2 Y n (or_introl eq_refl)). lia.
    + exact Lh.
    + exact E.
Qed.
(* chop: when everything lies behind the new line *)
Lemma chop_S l : forall ideal hi, chop (S ideal) (S hi) (map S l) = do r <- chop ideal hi l; Ok (map S r).
Proof.
  induction l as [|n l IH]; intros ideal hi; [reflexivity|]. cbn [map]. rewrite !chop_cons.
  change (Nat.ltb (S hi) (S ideal)) with (Nat.ltb hi ideal). destruct (Nat.ltb hi ideal); [reflexivity|].
  rewrite IH. destruct (chop (S ideal) hi l) as [r|]; [|reflexivity]. cbn [bind Nat.eqb]. destruct (Nat.eqb n ideal); reflexivity.
Qed.
Lemma map_sh_S l : (forall x, In x l -> p <= x) -> map sh l = map S l.
Proof. intros H. apply map_ext_in. intros a Ha. apply sh_ge. apply H. exact Ha. Qed.
End Shift.

Section Ins.
Variables (KA KB : list str) (J k0 : str) (KB' : list str).
Hypothesis EB : KB = k0 :: KB'.
Let p := List.length KA.
Let keys := KA ++ KB.
Let keys' := KA ++ J :: KB.
Hypothesis Jc : J <> kw_comment.
Hypothesis Jn : ~ In J keys.
Hypothesis Js : mem_char c_sp J = false.
Hypothesis kc : k0 <> kw_comment.

Lemma nth_sh i : nth_error keys' (sh p i) = nth_error keys i.
Proof.
  unfold keys, keys'. destruct (le_lt_dec p i) as [L|L].
  - rewrite sh_ge by exact L. rewrite !nth_error_app2 by (unfold p in L; lia). unfold p in L. rewrite Nat.sub_succ_l by lia. reflexivity.
  - rewrite sh_lt by exact L. rewrite !nth_error_app1 by exact L. reflexivity.
Qed.
Lemma nth_p' : nth_error keys' p = Some J.
Proof. unfold keys', p. rewrite nth_error_app2, Nat.sub_diag by lia. reflexivity. Qed.
Lemma nth_p : nth_error keys p = Some k0.
Proof. unfold keys, p. rewrite EB, nth_error_app2, Nat.sub_diag by lia. reflexivity. Qed.
Lemma len' : List.length keys' = S (List.length keys).
Proof. unfold keys, keys'. rewrite !app_length. cbn. lia. Qed.
Lemma p_lt : p < List.length keys.
Proof. unfold keys, p. rewrite EB, app_length. cbn. lia. Qed.
Lemma J_nth i : nth_error keys i <> Some J.
Proof. intros H. apply nth_error_In in H. contradiction. Qed.

(* the lines from a place on *)
Lemma skip_cut i i' : cut p i i' -> i <= p /\ i' = i /\ skipn i' keys' = skipn i KA ++ J :: KB /\ skipn i keys = skipn i KA ++ KB \/ p <= i /\ i' = S i /\ skipn i' keys' = skipn i keys.
Proof.
  unfold keys, keys'. intros C. unfold cut in C. destruct (le_lt_dec i p) as [L|L].
  - destruct (Nat.eq_dec i' (S p)) as [->|N].
    + right. assert (i = p) by lia. subst i. split; [lia|]. split; [reflexivity|]. unfold p.
      rewrite !skipn_app, Nat.sub_diag, (skipn_all2 KA) by lia. rewrite (skipn_all KA). replace (S (List.length KA) - List.length KA) with 1 by lia. reflexivity.
    + left. assert (i' = i) by lia. subst i'. split; [exact L|]. split; [reflexivity|]. unfold p in L. rewrite !skipn_app. replace (i - List.length KA) with 0 by lia. split; reflexivity.
  - right. assert (i' = S i) by lia. subst i'. split; [lia|]. split; [reflexivity|]. unfold p in L. rewrite !skipn_app, !(skipn_all2 KA) by lia. cbn [app].
    replace (S i - List.length KA) with (S (i - List.length KA)) by lia. reflexivity.
Qed.
Lemma index_from_S t : forall l i, index_from t (S i) l = option_map S (index_from t i l).
Proof. induction l as [|a l IH]; intros i; [reflexivity|]. cbn [index_from]. destruct (str_eqb a t); [reflexivity|apply IH]. Qed.
Lemma index_from_app t a b : forall i, index_from t i (a ++ b) = match index_from t i a with Some j => Some j | None => index_from t (i + List.length a) b end.
Proof.
  induction a as [|x a IH]; intros i; cbn [app index_from List.length]; [rewrite Nat.add_0_r; reflexivity|].
  destruct (str_eqb x t); [reflexivity|]. rewrite IH. replace (S i + List.length a) with (i + S (List.length a)) by lia. reflexivity.
Qed.
Lemma index_shift t i i' : cut p i i' -> t <> J -> index_start t keys' i' = option_map (sh p) (index_start t keys i).
Proof.
  intros C Nt. unfold index_start. destruct (skip_cut i i' C) as [[L [-> [E1 E2]]]|[L [-> E]]].
  - rewrite E1, E2, !index_from_app. destruct (index_from t i (skipn i KA)) as [j|] eqn:Ej.
    + cbn [option_map]. apply index_from_bounds in Ej. rewrite skipn_length in Ej. rewrite sh_lt by (unfold p in *; lia). reflexivity.
    + cbn [index_from]. assert (X : str_eqb J t = false) by (apply str_eqb_neq; congruence). rewrite X, index_from_S. rewrite skipn_length. unfold p in L.
      replace (i + (List.length KA - i)) with (List.length KA) by lia.
      destruct (index_from t (List.length KA) KB) as [j|] eqn:Ek; [|reflexivity]. cbn [option_map]. apply index_from_bounds in Ek. rewrite sh_ge by (unfold p; lia). reflexivity.
  - rewrite E, index_from_S. destruct (index_from t i (skipn i keys)) as [j|] eqn:Ek; [|reflexivity]. cbn [option_map]. apply index_from_bounds in Ek. rewrite sh_ge by lia. reflexivity.
Qed.
Lemma list0_shift tags i i' : cut p i i' -> ~ In J tags -> index_list0 tags i' keys' = map (sh p) (index_list0 tags i keys).
Proof.
  intros C N. unfold index_list0. induction tags as [|t tags IH]; [reflexivity|].
  assert (N2 : ~ In J tags) by (intros X; apply N; right; exact X). specialize (IH N2). cbn [filter]. destruct (negb (str_eqb t kw_comment)); [|exact IH].
  cbn [filter_map]. rewrite (index_shift t i i' C) by (intros ->; apply N; left; reflexivity). destruct (index_start t keys i); cbn [option_map map]; rewrite IH; reflexivity.
Qed.
Lemma filter_filter {A} (f g : A -> bool) l : (forall a, f a = true -> g a = true) -> filter f (filter g l) = filter f l.
Proof.
  intros H. induction l as [|a l IH]; [reflexivity|]. cbn [filter]. destruct (g a) eqn:G; cbn [filter]; [rewrite IH; reflexivity|].
  destruct (f a) eqn:F; [rewrite (H a F) in G; discriminate|exact IH].
Qed.
Lemma filter_map_comm {A B} (f : B -> bool) (g : A -> B) l : filter f (map g l) = map g (filter (fun a => f (g a)) l).
Proof. induction l as [|a l IH]; [reflexivity|]. cbn [map filter]. destruct (f (g a)); cbn [map]; rewrite IH; reflexivity. Qed.
Lemma cut_min i i' : cut p i i' -> cut p (Nat.min i (List.length keys)) (Nat.min i' (List.length keys')).
Proof. intros C. pose proof p_lt. rewrite len'. unfold cut in *. lia. Qed.
Lemma comments_shift i i' j j' : cut p i i' -> cut p j j' -> comment_indexes keys' i' j' = map (sh p) (comment_indexes keys i j).
Proof.
  intros C D. unfold comment_indexes. apply cut_min in D. set (m := Nat.min j (List.length keys)) in *. set (m' := Nat.min j' (List.length keys')) in *. clearbody m m'.
  destruct (le_lt_dec i m) as [L|L].
  - rewrite <- (filter_filter _ (fun a => negb (Nat.eqb a p))).
    + rewrite (seq_shift p (m - i) i i' m' C) by (replace (i + (m - i)) with m by lia; exact D). rewrite filter_map_comm. f_equal. apply filter_ext. intros a. rewrite nth_sh. reflexivity.
    + intros a Ha. apply negb_true_iff, Nat.eqb_neq. intros ->. rewrite nth_p' in Ha. apply str_eqb_eq in Ha. contradiction.
  - replace (m - i) with 0 by lia. assert (E : m' - i' = 0) by (unfold cut in *; lia). rewrite E. reflexivity.
Qed.
Lemma get_shift i k : get keys i = Ok k -> get keys' (sh p i) = Ok k.
Proof. unfold get. rewrite nth_sh. auto. Qed.
Lemma comment_shift tags i i' il r : cut p i i' -> process_comment_lines tags i keys il = Ok r ->
  process_comment_lines tags i' keys' (map (sh p) il) = Ok (map (sh p) r).
Proof.
  intros C. unfold process_comment_lines. destruct (mem_str kw_comment tags); [|intros H; injection H as <-; reflexivity].
  destruct (Nat.eqb (List.length tags) 1).
  - intros H. inv_ok H. injection H as <-. apply get_ok in E.
    destruct (Nat.eq_dec i p) as [->|N].
    + rewrite nth_p in E. injection E as <-. assert (X : str_eqb k0 kw_comment = false) by (apply str_eqb_neq; exact kc). rewrite X.
      assert (G : exists h, get keys' i' = Ok h /\ str_eqb h kw_comment = false).
      { destruct C as [C|[[_ [->| ->]]|C]]; [lia|exists J|exists k0|lia].
        - unfold get. rewrite nth_p'. split; [reflexivity|apply str_eqb_neq; exact Jc].
        - split; [|exact X]. replace (S p) with (sh p p) by (apply sh_ge; lia). apply get_shift. unfold get. rewrite nth_p. reflexivity. }
      destruct G as [h [G1 G2]]. rewrite G1. cbn [bind]. rewrite G2. reflexivity.
    + assert (Ei : i' = sh p i) by (unfold cut in C; destruct (le_lt_dec p i); [rewrite sh_ge by assumption|rewrite sh_lt by assumption]; lia).
      subst i'. rewrite (get_shift i a) by (unfold get; rewrite E; reflexivity). cbn [bind]. destruct (str_eqb a kw_comment); [rewrite map_app|]; reflexivity.
  - destruct il as [|x il]; intros H; injection H as <-; [reflexivity|]. cbn [map app]. f_equal. f_equal. rewrite map_app. f_equal.
    change (sh p x :: map (sh p) il) with (map (sh p) (x :: il)). rewrite max_sh by discriminate. apply comments_shift; [exact C|].
    rewrite !Nat.add_1_r. apply cut_S.
Qed.

(* gaps *)
Definition gap (il : list nat) : list nat :=
  filter (fun n => negb (mem_nat n il)) (seq (list_min il) (list_max il + 1 - list_min il)).
Definition cramped (dk : list str) : bool := existsb (mem_char c_sp) dk || has_dup dk.
Lemma map_res_sh l ks : map_res (get keys) l = Ok ks -> map_res (get keys') (map (sh p) l) = Ok ks.
Proof.
  revert ks. induction l as [|a l IH]; intros ks H; [exact H|]. cbn [map map_res] in *. inv_ok H. inv_ok H. rewrite (get_shift _ _ E), (IH _ E0). exact H.
Qed.
Lemma map_res_app {A B} (f : A -> res B) l m a b : map_res f l = Ok a -> map_res f m = Ok b -> map_res f (l ++ m) = Ok (a ++ b).
Proof.
  revert a. induction l as [|x l IH]; intros a H K; [injection H as <-; exact K|]. cbn [app map_res] in *. inv_ok H. inv_ok H. injection H as <-.
  rewrite E. cbn [bind]. rewrite (IH _ E0 K). reflexivity.
Qed.
Lemma map_res_in (ks : list str) l : map_res (get keys) l = Ok ks -> forall k, In k ks -> In k keys.
Proof.
  revert ks. induction l as [|a l IH]; intros ks H k Hk; [injection H as <-; destruct Hk|]. cbn [map_res] in H. inv_ok H. inv_ok H. injection H as <-.
  destruct Hk as [<-|Hk]; [apply get_ok in E; eapply nth_error_In; exact E|eapply IH; eassumption].
Qed.
Lemma cramped_ins a b : ~ In J (a ++ b) -> cramped (a ++ J :: b) = cramped (a ++ b).
Proof.
  intros N. unfold cramped. f_equal.
  - rewrite !existsb_app. cbn [existsb]. rewrite Js. reflexivity.
  - assert (Nb : mem_str J b = false) by (apply mem_str_false; intros X; apply N; apply in_or_app; right; exact X).
    induction a as [|x a IH]; cbn [app has_dup]; [rewrite Nb; reflexivity|]. rewrite IH by (intros X; apply N; right; exact X). f_equal.
    unfold mem_str. rewrite !existsb_app. cbn [existsb]. assert (X : str_eqb x J = false) by (apply str_eqb_neq; intros ->; apply N; left; reflexivity). rewrite X. reflexivity.
Qed.
Lemma split_filter l : NoDup l -> filter (fun a => negb (Nat.eqb a p)) l = l \/ exists a b, l = a ++ p :: b /\ filter (fun a => negb (Nat.eqb a p)) l = a ++ b.
Proof.
  intros D. induction D as [|x l N D IH]; [left; reflexivity|]. cbn [filter]. destruct (Nat.eqb_spec x p) as [->|Nx]; cbn [negb].
  - right. exists [], l. split; [reflexivity|]. destruct IH as [IH|[a [b [-> _]]]]; [exact IH|]. exfalso. apply N. apply in_or_app. right. left. reflexivity.
  - destruct IH as [IH|[a [b [-> IH]]]]; [left; rewrite IH; reflexivity|]. right. exists (x :: a), b. rewrite IH. split; reflexivity.
Qed.
Lemma gap_shift il : il <> [] -> filter (fun a => negb (Nat.eqb a p)) (gap (map (sh p) il)) = map (sh p) (gap il).
Proof.
  intros Ne. unfold gap. rewrite min_sh, max_sh by exact Ne. set (lo := list_min il). set (hi := list_max il).
  assert (L : lo <= hi) by (apply list_min_le, list_max_in, Ne).
  assert (E : filter (fun a => negb (Nat.eqb a p)) (seq (sh p lo) (sh p hi + 1 - sh p lo)) = map (sh p) (seq lo (hi + 1 - lo))).
  { apply seq_shift; [apply cut_sh|]. replace (lo + (hi + 1 - lo)) with (S hi) by lia. rewrite Nat.add_1_r. apply cut_S. }
  assert (F : forall (f g : nat -> bool) l, filter f (filter g l) = filter g (filter f l)).
  { clear. intros f g l. induction l as [|a l IH]; [reflexivity|]. cbn [filter]. destruct (f a) eqn:Fa, (g a) eqn:Ga; cbn [filter]; rewrite ?Fa, ?Ga, IH; reflexivity. }
  rewrite F, E, filter_map_comm. f_equal. apply filter_ext. intros a. rewrite mem_sh. reflexivity.
Qed.

(* the part of range_of_indices that may cut a range short *)
Definition trim (il : list nat) (ks : list str) : res (list nat) :=
  match gap il with
  | [] => Ok il
  | d => do dk <- map_res (get ks) d; if cramped dk then chop (list_min il) (list_max il) il else Ok il
  end.
Lemma range_trim il start ks single : range_of_indices il start ks single =
  do r <- match il with [] => Ok [] | _ => trim (sort_nat il) ks end;
  match r with [] => Ok (start, start) | _ => Ok (list_min r, if single then list_min r + 1 else list_max r + 1) end.
Proof. unfold range_of_indices, trim, gap, cramped. destruct il as [|i il]; [reflexivity|]. cbv zeta. f_equal. destruct (filter _ _); reflexivity. Qed.
Lemma trim_shift il r : il <> [] -> trim il keys = Ok r ->
  (StronglySorted lt il /\ ~ In p il) \/ (forall x, In x il -> p <= x) \/ (forall dk, map_res (get keys) (gap il) = Ok dk -> cramped dk = false) ->
  trim (map (sh p) il) keys' = Ok (map (sh p) r).
Proof.
  intros Ne H D. unfold trim in *.
  assert (G : forall dk, map_res (get keys) (gap il) = Ok dk -> exists dk', map_res (get keys') (gap (map (sh p) il)) = Ok dk' /\ cramped dk' = cramped dk).
  { intros dk Hd. pose proof (gap_shift il Ne) as Gs. destruct (split_filter (gap (map (sh p) il))) as [E|[a [b [E1 E2]]]]; [apply NoDup_filter, seq_NoDup| |].
    - rewrite E in Gs. rewrite Gs. exists dk. split; [apply map_res_sh; exact Hd|reflexivity].
    - rewrite E2 in Gs. pose proof (map_res_sh _ _ Hd) as M. rewrite <- Gs in M.
      assert (Sp : forall l m ks, map_res (get keys') (l ++ m) = Ok ks -> exists x y, ks = x ++ y /\ map_res (get keys') l = Ok x /\ map_res (get keys') m = Ok y).
      { clear. induction l as [|c l IH]; intros m ks H; [exists [], ks; auto|]. cbn [app map_res] in *. inv_ok H. inv_ok H. injection H as <-.
        destruct (IH _ _ E0) as [x [y [-> [X Y]]]]. exists (a :: x), y. rewrite E, X. auto. }
      destruct (Sp _ _ _ M) as [x [y [-> [X Y]]]]. exists (x ++ J :: y). rewrite E1. split.
      + apply map_res_app; [exact X|]. cbn [map_res]. unfold get at 1. rewrite nth_p'. cbn [guard_opt bind]. rewrite Y. reflexivity.
      + apply cramped_ins. intros I. apply Jn. exact (map_res_in _ _ Hd _ I). }
  assert (Ch : forall s, chop (list_min il) (list_max il) il = Ok s -> (StronglySorted lt il /\ ~ In p il) \/ (forall x, In x il -> p <= x) ->
    chop (list_min (map (sh p) il)) (list_max (map (sh p) il)) (map (sh p) il) = Ok (map (sh p) s)).
  { intros s Hs [[So Np]|A]; rewrite min_sh, max_sh by exact Ne.
    - destruct (le_lt_dec p (list_min il)) as [L|L].
      + assert (B : forall x, In x il -> p <= x) by (intros x Hx; pose proof (list_min_le il x Hx); lia).
        assert (L2 : p <= list_max il) by (apply B, list_max_in, Ne).
        rewrite map_sh_S, (sh_ge p _ L), (sh_ge p _ L2), chop_S, Hs by exact B. cbn [bind]. f_equal. symmetry. apply map_sh_S. intros x Hx. apply B. eapply chop_in; eassumption.
      + rewrite (sh_lt p _ L). apply (chop_sh p il (list_min il) (list_max il)); try assumption; [intros x Hx; apply list_min_le; exact Hx|lia|apply sh_self].
    - assert (L1 : p <= list_min il) by (apply A, list_min_in, Ne). assert (L2 : p <= list_max il) by (apply A, list_max_in, Ne).
      rewrite map_sh_S, (sh_ge p _ L1), (sh_ge p _ L2), chop_S, Hs by exact A. cbn [bind]. f_equal. symmetry. apply map_sh_S. intros x Hx. apply A. eapply chop_in; eassumption. }
  assert (H2 : exists dk, map_res (get keys) (gap il) = Ok dk /\ (if cramped dk then chop (list_min il) (list_max il) il else Ok il) = Ok r).
  { destruct (gap il) as [|g gs]; [exists []; split; [reflexivity|exact H]|]. inv_ok H. exists a. auto. }
  destruct H2 as [dk [Hd Hr]]. destruct (G dk Hd) as [dk' [Hd' Ec]].
  assert (R : (if cramped dk' then chop (list_min (map (sh p) il)) (list_max (map (sh p) il)) (map (sh p) il) else Ok (map (sh p) il)) = Ok (map (sh p) r)).
  { rewrite Ec. destruct (cramped dk) eqn:Cd; [|injection Hr as <-; reflexivity]. apply Ch; [exact Hr|]. destruct D as [D|[D|D]]; [left; exact D|right; exact D|].
    rewrite (D dk Hd) in Cd. discriminate. }
  destruct (gap (map (sh p) il)) as [|g gs]; [|rewrite Hd'; exact R]. injection Hd' as <-. exact R.
Qed.

(* ---- the keyword range of a section ---- *)
Definition shape (tags : list str) (i i' : nat) (mm mm' : nat * nat) : Prop :=
  (mm = (i, i) /\ mm' = (i', i')) \/
  exists a m t, i <= a <= m /\ mm = (a, S m) /\ mm' = (sh p a, S (sh p m)) /\ nth_error keys a = Some t /\ In t tags.
Lemma shape_cut tags i i' mm mm' : cut p i i' -> shape tags i i' mm mm' -> cut p (fst mm) (fst mm') /\ cut p (snd mm) (snd mm').
Proof. intros C [[-> ->]|[a [m [t [_ [-> [-> _]]]]]]]; cbn; [split; exact C|split; [apply cut_sh|apply cut_S]]. Qed.
Lemma shape_adv tags i i' mm mm' : shape tags i i' mm mm' -> adv p i i' (snd mm) (snd mm').
Proof. intros [[-> ->]|[a [m [t [L [-> [-> _]]]]]]]; cbn; [left; auto|right; exists m; split; [lia|auto]]. Qed.
Lemma shape_empty tags i i' mm mm' : shape tags i i' mm mm' -> Nat.eqb (fst mm) (snd mm) = Nat.eqb (fst mm') (snd mm').
Proof.
  intros [[-> ->]|[a [m [t [L [-> [-> _]]]]]]]; cbn [fst snd]; [rewrite !Nat.eqb_refl; reflexivity|].
  assert (sh p a <= sh p m) by (apply (proj1 (sh_le p a m)); lia). rewrite (proj2 (Nat.eqb_neq _ _)), (proj2 (Nat.eqb_neq _ _)) by lia. reflexivity.
Qed.

Lemma found_in tags i il x : process_comment_lines tags i keys (index_list0 tags i keys) = Ok il -> In x il ->
  i <= x /\ exists t, nth_error keys x = Some t /\ In t tags.
Proof.
  unfold process_comment_lines. intros H Hx.
  assert (B : In x (index_list0 tags i keys) -> i <= x /\ exists t, nth_error keys x = Some t /\ In t tags).
  { intros X. apply index_list0_in in X. destruct X as [t [H1 [_ H3]]]. pose proof (index_start_bounds _ _ _ _ H3). apply index_start_nth in H3. split; [lia|]. exists t. auto. }
  destruct (mem_str kw_comment tags) eqn:M; [|injection H as <-; apply B; exact Hx]. apply mem_str_spec in M.
  destruct (Nat.eqb (List.length tags) 1).
  - inv_ok H. injection H as <-. destruct (str_eqb a kw_comment) eqn:Ea; [|apply B; exact Hx]. apply in_app_or in Hx. destruct Hx as [Hx|[<-|[]]]; [apply B; exact Hx|].
    apply get_ok in E. apply str_eqb_eq in Ea. subst a. split; [lia|]. exists kw_comment. auto.
  - destruct (index_list0 tags i keys) as [|z zs] eqn:Ez; [injection H as <-; destruct Hx|]. rewrite <- Ez in *. injection H as <-.
    apply in_app_or in Hx. destruct Hx as [Hx|Hx]; [apply B; exact Hx|]. apply comment_indexes_in in Hx. destruct Hx as [Hx1 Hx2]. split; [lia|]. exists kw_comment. auto.
Qed.
Lemma found_distinct tags i il : NoDup tags -> process_comment_lines tags i keys (index_list0 tags i keys) = Ok il -> NoDup il.
Proof.
  unfold process_comment_lines. intros D H. destruct (mem_str kw_comment tags) eqn:M; [|injection H as <-; apply index_list0_nodup; exact D].
  destruct (Nat.eqb_spec (List.length tags) 1) as [L|L].
  - inv_ok H. injection H as <-. destruct tags as [|t [|t2 tags]]; try discriminate. apply mem_str_spec in M. destruct M as [->|[]].
    unfold index_list0. cbn [filter]. rewrite str_eqb_refl. cbn [negb filter_map app]. destruct (str_eqb a kw_comment); repeat constructor. intros [].
  - destruct (index_list0 tags i keys) as [|z zs] eqn:Ez; [injection H as <-; constructor|]. rewrite <- Ez in *. injection H as <-. apply found_nodup. exact D.
Qed.

(* the lines around the new one: up to q no keyword but COMMENT is said twice, and none has a space *)
Variable q : nat.
Hypothesis pq : p < q.
Hypothesis once : forall a b k, a < q -> b < q -> nth_error keys a = Some k -> nth_error keys b = Some k -> k <> kw_comment -> a = b.
Hypothesis thin : forall a k, a < q -> nth_error keys a = Some k -> mem_char c_sp k = false.
(* the section of the line after the new one *)
Definition near (tags : list str) : Prop :=
  In k0 tags -> In kw_comment tags /\ forall t a, In t tags -> t <> kw_comment -> nth_error keys a = Some t -> a < q.

Lemma near_len tags : near tags -> In k0 tags -> List.length tags <> 1.
Proof.
  intros N H L. destruct (N H) as [H1 _]. destruct tags as [|t [|t2 tags]]; try discriminate. destruct H as [<-|[]], H1 as [H1|[]]. congruence.
Qed.
Lemma calm tags i il : near tags -> In k0 tags -> process_comment_lines tags i keys (index_list0 tags i keys) = Ok il -> il <> [] ->
  forall dk, map_res (get keys) (gap (sort_nat il)) = Ok dk -> cramped dk = false.
Proof.
  intros N Hk H Ne dk Hd. pose proof (near_len tags N Hk) as Ln. destruct (N Hk) as [Hc Nq]. clear N.
  unfold process_comment_lines in H. rewrite (proj2 (mem_str_spec _ _) Hc), (proj2 (Nat.eqb_neq _ _) Ln) in H.
  set (t0 := index_list0 tags i keys) in *.
  assert (Ne0 : t0 <> []) by (intros X; rewrite X in H; injection H as <-; congruence).
  assert (Ei : il = t0 ++ comment_indexes keys i (list_max t0 + 1)) by (destruct t0; [congruence|injection H as <-; reflexivity]). clear H.
  assert (M0 : list_max t0 < q).
  { pose proof (list_max_in t0 Ne0) as I. apply index_list0_in in I. destruct I as [t [I1 [I2 I3]]]. apply index_start_nth in I3. exact (Nq t _ I1 I2 I3). }
  assert (In0 : forall x, In x il -> i <= x <= list_max t0).
  { intros x Hx. rewrite Ei in Hx. apply in_app_or in Hx. destruct Hx as [Hx|Hx].
    - split; [|apply list_max_ge; exact Hx]. apply index_list0_in in Hx. destruct Hx as [t [_ [_ Hx]]]. apply index_start_bounds in Hx. lia.
    - apply comment_indexes_in in Hx. lia. }
  assert (Ns : sort_nat il <> []) by (destruct il as [|a il']; [congruence|]; intros X; pose proof (proj2 (sort_nat_in a (a :: il')) (or_introl eq_refl)) as Y; rewrite X in Y; destruct Y).
  assert (G : forall x, In x (gap (sort_nat il)) -> x < q /\ nth_error keys x <> Some kw_comment).
  { intros x Hx. unfold gap in Hx. apply filter_In in Hx. destruct Hx as [H1 H2]. apply in_seq in H1.
    pose proof (list_min_in _ Ns) as I1. pose proof (list_max_in _ Ns) as I2. apply (proj1 (sort_nat_in _ _)) in I1, I2. apply In0 in I1, I2.
    assert (Lm : list_min (sort_nat il) <= list_max (sort_nat il)) by (apply list_min_le, list_max_in, Ns).
    split; [lia|]. intros X. apply negb_true_iff in H2. rewrite <- not_true_iff_false in H2. apply H2. apply mem_nat_spec. apply (proj2 (sort_nat_in _ _)). rewrite Ei. apply in_or_app. right.
    apply comment_indexes_in. split; [lia|exact X]. }
  assert (Dn : NoDup (gap (sort_nat il))) by (apply NoDup_filter, seq_NoDup). revert Dn G dk Hd. generalize (gap (sort_nat il)). clear - once thin.
  intros l Dn G dk Hd. unfold cramped. apply orb_false_iff.
  assert (Dk : forall l dk, map_res (get keys) l = Ok dk -> forall k, In k dk -> exists x, In x l /\ nth_error keys x = Some k).
  { clear. induction l as [|a l IH]; intros dk H k Hk; [injection H as <-; destruct Hk|]. cbn [map_res] in H. inv_ok H. inv_ok H. injection H as <-. apply get_ok in E.
    destruct Hk as [<-|Hk]; [exists a; split; [left; reflexivity|exact E]|]. destruct (IH _ E0 k Hk) as [x [X1 X2]]. exists x. split; [right; exact X1|exact X2]. }
  split.
  - destruct (existsb (mem_char c_sp) dk) eqn:X; [|reflexivity]. apply existsb_exists in X. destruct X as [k [X1 X2]]. destruct (Dk l dk Hd k X1) as [x [Y1 Y2]].
    rewrite (thin x k) in X2; [discriminate|apply G; exact Y1|exact Y2].
  - revert dk Hd. induction Dn as [|a l Na Dn IH]; intros dk Hd; [injection Hd as <-; reflexivity|]. cbn [map_res] in Hd. inv_ok Hd. inv_ok Hd. injection Hd as <-. cbn [has_dup].
    rewrite (IH (fun x Hx => G x (or_intror Hx)) _ E0), orb_false_r. apply mem_str_false. intros X. destruct (Dk l a1 E0 _ X) as [x [Y1 Y2]]. apply get_ok in E.
    destruct (G a (or_introl eq_refl)) as [G1 G2]. destruct (G x (or_intror Y1)) as [G3 _].
    assert (a = x) by (apply (once a x a0); try assumption; intros ->; contradiction). subst x. contradiction.
Qed.
Lemma reach tags i il : near tags -> In k0 tags -> i <= p -> process_comment_lines tags i keys (index_list0 tags i keys) = Ok il -> In p il.
Proof.
  intros N Hk L H. pose proof (near_len tags N Hk) as Ln. destruct (N Hk) as [Hc Nq].
  assert (I : In p (index_list0 tags i keys)).
  { apply index_list0_in. exists k0. split; [exact Hk|]. split; [exact kc|].
    destruct (index_start k0 keys i) as [j|] eqn:E.
    - pose proof (index_start_nth _ _ _ _ E) as E2. rewrite (once j p k0 (Nq k0 j Hk kc E2) pq E2 nth_p kc) . reflexivity.
    - exfalso. unfold index_start in E. assert (X : forall l s, index_from k0 s l = None -> ~ In k0 l).
      { clear. induction l as [|a l IH]; intros s H; [intros []|]. cbn [index_from] in H. destruct (str_eqb a k0) eqn:E; [discriminate|]. intros [->|X]; [rewrite str_eqb_refl in E; discriminate|exact (IH _ H X)]. }
      apply (X _ _ E). pose proof nth_p as Np. rewrite <- (firstn_skipn i keys) in Np. rewrite nth_error_app2 in Np by (rewrite firstn_length; lia). eapply nth_error_In. exact Np. }
  unfold process_comment_lines in H. rewrite (proj2 (mem_str_spec _ _) Hc), (proj2 (Nat.eqb_neq _ _) Ln) in H.
  destruct (index_list0 tags i keys) as [|z zs] eqn:Ez; [destruct I|]. injection H as <-. change (In p ((z :: zs) ++ comment_indexes keys i (list_max (z :: zs) + 1))). apply in_or_app. left. exact I.
Qed.

Definition userk (k : str) : bool := startswith (lit "USER_DEFINED") k.
Hypothesis Ju : userk J = false.
Lemma range_shift tags i i' single il mm : cut p i i' -> process_comment_lines tags i keys (index_list0 tags i keys) = Ok il ->
  range_of_indices il i keys single = Ok mm ->
  (il = [] \/ (StronglySorted lt (sort_nat il) /\ ~ In p il) \/ (forall x, In x il -> p <= x) \/ (forall dk, map_res (get keys) (gap (sort_nat il)) = Ok dk -> cramped dk = false)) ->
  exists mm', range_of_indices (map (sh p) il) i' keys' single = Ok mm' /\ shape tags i i' mm mm'.
Proof.
  intros C Hf H D. rewrite range_trim in *. destruct il as [|x il]; [injection H as <-; exists (i', i'); split; [reflexivity|left; auto]|].
  inv_ok H. cbn [map]. change (sh p x :: map (sh p) il) with (map (sh p) (x :: il)). rewrite sort_sh. set (l := x :: il) in *.
  assert (Ns : sort_nat l <> []) by (intros X; pose proof (proj2 (sort_nat_in x l) (or_introl eq_refl)) as Y; rewrite X in Y; destruct Y).
  rewrite (trim_shift (sort_nat l) a Ns E).
  2:{ destruct D as [D|[[D1 D2]|[D|D]]]; [discriminate|left; split; [exact D1|intros X; apply D2; apply (proj1 (sort_nat_in _ _)); exact X]|right; left; intros y Hy; apply D; apply (proj1 (sort_nat_in _ _)); exact Hy|right; right; exact D]. }
  cbn [bind].
  assert (Ia : forall y, In y a -> In y l).
  { intros y Hy. apply (proj1 (sort_nat_in _ _)). unfold trim in E. destruct (gap (sort_nat l)); [injection E as <-; exact Hy|]. inv_ok E.
    destruct (cramped a0); [eapply chop_in; eassumption|injection E as <-; exact Hy]. }
  destruct a as [|y a]; [injection H as <-; exists (i', i'); split; [reflexivity|left; auto]|].
  assert (Na : y :: a <> []) by discriminate. revert Ia H Na. generalize (y :: a). clear a y E. intros a Ia H Na.
  assert (Na' : map (sh p) a <> []) by (destruct a; [congruence|discriminate]).
  assert (Hm : Ok (list_min a, if single then list_min a + 1 else list_max a + 1) = Ok mm) by (destruct a; [congruence|exact H]). injection Hm as <-.
  assert (Em : forall (b : list nat), b <> [] -> match b with [] => Ok (i', i') | _ :: _ => Ok (list_min b, if single then list_min b + 1 else list_max b + 1) end = Ok (list_min b, if single then list_min b + 1 else list_max b + 1)) by (intros [|? ?] ?; [congruence|reflexivity]).
  eexists. split; [apply Em; exact Na'|]. right. rewrite min_sh, max_sh by exact Na.
  destruct (found_in tags i l (list_min a) Hf (Ia _ (list_min_in a Na))) as [F1 [t [F2 F3]]].
  assert (Lm : list_min a <= list_max a) by (apply list_min_le, list_max_in, Na).
  exists (list_min a), (if single then list_min a else list_max a), t. rewrite !Nat.add_1_r. destruct single; repeat split; try assumption; lia.
Qed.
Lemma extend_shift tags i i' pre : cut p i i' -> (forall w, pre = Some w -> w = lit "USER_DEFINED") -> extend_tags tags i' keys' pre = extend_tags tags i keys pre.
Proof.
  intros C Hp. unfold extend_tags. destruct pre as [w|]; [|reflexivity]. specialize (Hp w eq_refl). subst w. f_equal.
  destruct (skip_cut i i' C) as [[L [_ [E1 E2]]]|[L [_ E]]]; [|rewrite E; reflexivity]. rewrite E1, E2, !filter_app. cbn [filter]. unfold userk in Ju. rewrite Ju. reflexivity.
Qed.

(* where the lines with user defined parameters begin *)
Variable U : nat.
Hypothesis U1 : forall a h, nth_error keys a = Some h -> userk h = true -> U <= a.
Hypothesis U2 : forall a h, U <= a -> nth_error keys a = Some h -> h = kw_comment \/ userk h = true.
Hypothesis U3 : U < List.length keys -> exists h, nth_error keys U = Some h /\ userk h = true.

(* an ordinary section *)
Lemma plain_shift tags i i' single mm tags' : cut p i i' -> ~ In J tags -> NoDup tags -> near tags -> (In k0 tags -> single = false) ->
  get_min_max tags i keys None single = Ok (mm, tags') ->
  tags' = tags /\ exists mm', get_min_max tags i' keys' None single = Ok (mm', tags) /\ shape tags i i' mm mm' /\ (In k0 tags -> p < snd mm) /\
  ((forall t, In t tags -> userk t = false) -> i <= U -> snd mm <= U).
Proof.
  intros C NJ D N Ns H. unfold get_min_max in *. cbn [extend_tags] in *. inv_ok H. inv_ok H. injection H as <- <-. split; [reflexivity|].
  rewrite (list0_shift tags i i' C NJ), (comment_shift tags i i' _ _ C E). cbn [bind].
  assert (Dd : a = [] \/ (StronglySorted lt (sort_nat a) /\ ~ In p a) \/ (forall x, In x a -> p <= x) \/ (forall dk, map_res (get keys) (gap (sort_nat a)) = Ok dk -> cramped dk = false)).
  { destruct a as [|x a]; [left; reflexivity|]. right. destruct (in_dec (list_eq_dec N.eq_dec) k0 tags) as [I|I].
    - right. right. exact (calm tags i (x :: a) N I E ltac:(discriminate)).
    - left. split; [apply sort_strict; exact (found_distinct tags i _ D E)|]. intros X. destruct (found_in tags i _ p E X) as [_ [t [T1 T2]]]. rewrite nth_p in T1. injection T1 as <-. contradiction. }
  destruct (range_shift tags i i' single a a0 C E E0 Dd) as [mm' [R S]]. exists mm'. rewrite R. split; [reflexivity|]. split; [exact S|]. split.
  - intros I. rewrite (Ns I) in *. destruct (le_lt_dec i p) as [L|L].
    + pose proof (reach tags i a N I L E) as Ip. assert (Na : a <> []) by (intros ->; destruct Ip).
      assert (Np : sort_nat a <> []) by (intros X; pose proof (proj2 (sort_nat_in p a) Ip) as Y; rewrite X in Y; destruct Y).
      rewrite range_trim in E0. destruct a as [|x a]; [congruence|]. inv_ok E0.
      assert (a1 = sort_nat (x :: a)).
      { unfold trim in E1. destruct (gap (sort_nat (x :: a))) as [|g gs] eqn:G; [injection E1 as <-; reflexivity|]. inv_ok E1. rewrite <- G in E2.
        rewrite (calm tags i (x :: a) N I E ltac:(discriminate) _ E2) in E1. injection E1 as <-. reflexivity. }
      subst a1. assert (Hm : Ok (list_min (sort_nat (x :: a)), list_max (sort_nat (x :: a)) + 1) = Ok a0) by (destruct (sort_nat (x :: a)); [congruence|exact E0]).
      assert (Ea : a0 = (list_min (sort_nat (x :: a)), list_max (sort_nat (x :: a)) + 1)) by congruence. rewrite Ea. cbn [snd]. pose proof (list_max_ge (sort_nat (x :: a)) p (proj2 (sort_nat_in _ _) Ip)). lia.
    + destruct S as [[-> _]|[b [m [t [S1 [-> _]]]]]]; cbn [snd]; lia.
  - intros Nu Li.
    assert (B : forall x, In x a -> x < U).
    { intros x Hx. assert (Z : exists y, x <= y /\ ((exists t, nth_error keys y = Some t /\ In t tags /\ t <> kw_comment) \/ (y = i /\ nth_error keys i = Some kw_comment))).
      { clear - E Hx. unfold process_comment_lines in E.
        assert (B0 : In x (index_list0 tags i keys) -> exists t, nth_error keys x = Some t /\ In t tags /\ t <> kw_comment).
        { intros X. apply index_list0_in in X. destruct X as [t [T1 [T2 T3]]]. apply index_start_nth in T3. exists t. auto. }
        destruct (mem_str kw_comment tags); [|injection E as <-; exists x; split; [lia|left; exact (B0 Hx)]].
        destruct (Nat.eqb (List.length tags) 1).
        - inv_ok E. injection E as <-. destruct (str_eqb a0 kw_comment) eqn:Ea; [|exists x; split; [lia|left; exact (B0 Hx)]].
          apply in_app_or in Hx. destruct Hx as [Hx|[<-|[]]]; [exists x; split; [lia|left; exact (B0 Hx)]|]. exists i. split; [lia|]. right. split; [reflexivity|].
          apply get_ok in E0. apply str_eqb_eq in Ea. subst. exact E0.
        - destruct (index_list0 tags i keys) as [|z zs] eqn:Ez; [injection E as <-; destruct Hx|]. rewrite <- Ez in *. injection E as <-.
          assert (Nz : index_list0 tags i keys <> []) by (rewrite Ez; discriminate). pose proof (list_max_in _ Nz) as Im.
          exists (list_max (index_list0 tags i keys)). split.
          + apply in_app_or in Hx. destruct Hx as [Hx|Hx]; [apply list_max_ge; exact Hx|apply comment_indexes_in in Hx; lia].
          + left. apply index_list0_in in Im. destruct Im as [t [T1 [T2 T3]]]. apply index_start_nth in T3. exists t. auto. }
      destruct Z as [y [Ly [[t [T1 [T2 T3]]]|[-> T1]]]].
      - destruct (le_lt_dec U y) as [L|L]; [|lia]. destruct (U2 y t L T1) as [X|X]; [contradiction|rewrite (Nu t T2) in X; discriminate].
      - destruct (Nat.eq_dec i U) as [->|X]; [|lia]. assert (L : U < List.length keys) by (apply nth_error_Some; congruence).
        destruct (U3 L) as [h [H1 H2]]. rewrite T1 in H1. injection H1 as <-. discriminate. }
    rewrite range_trim in E0. destruct a as [|x a]; [injection E0 as <-; exact Li|]. inv_ok E0.
    assert (Ia : forall y, In y a1 -> In y (x :: a)).
    { intros y Hy. apply (proj1 (sort_nat_in _ _)). unfold trim in E1. destruct (gap (sort_nat (x :: a))); [injection E1 as <-; exact Hy|]. inv_ok E1.
      destruct (cramped a2); [eapply chop_in; eassumption|injection E1 as <-; exact Hy]. }
    destruct a1 as [|y a1]; [injection E0 as <-; exact Li|]. set (w := y :: a1) in *. assert (Na : w <> []) by discriminate. clearbody w. clear y a1.
    assert (Ea : a0 = (list_min w, if single then list_min w + 1 else list_max w + 1)) by congruence. rewrite Ea. cbn [snd].
    pose proof (B _ (Ia _ (list_max_in _ Na))). pose proof (B _ (Ia _ (list_min_in _ Na))). destruct single; lia.
Qed.

(* ---- the lines themselves ---- *)
Variables (LA LB : list line) (j : line).
Hypothesis KAe : KA = keys_of LA.
Hypothesis KBe : KB = keys_of LB.
Hypothesis Je : J = key_of j.
Let x := LA ++ LB.
Let y := LA ++ j :: LB.
Lemma keys_x : keys_of x = keys.
Proof. unfold x, keys, keys_of. rewrite map_app, KAe, KBe. reflexivity. Qed.
Lemma keys_y : keys_of y = keys'.
Proof. unfold y, keys', keys_of. rewrite map_app, KAe, KBe, Je. reflexivity. Qed.
Lemma len_A : List.length LA = p.
Proof. unfold p. rewrite KAe. unfold keys_of. rewrite map_length. reflexivity. Qed.
Lemma skip_lines i i' : cut p i i' -> i <= p /\ i' = i /\ skipn i' y = skipn i LA ++ j :: LB /\ skipn i x = skipn i LA ++ LB \/ p <= i /\ i' = S i /\ skipn i' y = skipn i x.
Proof.
  unfold x, y. intros C. unfold cut in C. pose proof len_A as EA. destruct (le_lt_dec i p) as [L|L].
  - destruct (Nat.eq_dec i' (S p)) as [->|N].
    + right. assert (i = p) by lia. subst i. split; [lia|]. split; [reflexivity|]. rewrite <- EA.
      rewrite !skipn_app, Nat.sub_diag, (skipn_all2 LA) by lia. rewrite (skipn_all LA). replace (S (List.length LA) - List.length LA) with 1 by lia. reflexivity.
    + left. assert (i' = i) by lia. subst i'. split; [exact L|]. split; [reflexivity|]. rewrite !skipn_app. replace (i - List.length LA) with 0 by lia. split; reflexivity.
  - right. assert (i' = S i) by lia. subst i'. split; [lia|]. split; [reflexivity|]. rewrite !skipn_app, !(skipn_all2 LA) by lia. cbn [app].
    replace (S i - List.length LA) with (S (i - List.length LA)) by lia. reflexivity.
Qed.
Lemma slice_after i m : p <= i -> slice (S i) (S m) y = slice i m x.
Proof.
  intros L. unfold slice. assert (C : cut p i (S i)) by (unfold cut; lia). destruct (skip_lines i (S i) C) as [[_ [X _]]|[_ [_ E]]]; [lia|]. rewrite E. reflexivity.
Qed.
Lemma filter_slice (P : line -> bool) a a' b b' : P j = false -> cut p a a' -> cut p b b' -> filter P (slice a' b' y) = filter P (slice a b x).
Proof.
  intros Pj Ca Cb. unfold slice. destruct (skip_lines a a' Ca) as [[L [-> [E1 E2]]]|[L [-> E]]].
  - rewrite E1, E2. pose proof len_A as EA. assert (Ls : List.length (skipn a LA) = p - a) by (rewrite skipn_length; lia).
    destruct (le_lt_dec b' p) as [Lb|Lb].
    + assert (b' = b) by (unfold cut in Cb; lia). subst b'. rewrite !firstn_app. replace (b - a - List.length (skipn a LA)) with 0 by lia. reflexivity.
    + assert (b' = S b) by (unfold cut in Cb; lia). subst b'. rewrite !firstn_app, !(firstn_all2 (skipn a LA)) by lia. rewrite !filter_app. f_equal.
      replace (S b - a - List.length (skipn a LA)) with (S (b - a - List.length (skipn a LA))) by lia. cbn [firstn filter]. rewrite Pj. reflexivity.
  - rewrite E. assert (Eb : b' = S b \/ (b' = b /\ b <= a)) by (unfold cut in Cb; lia). destruct Eb as [->|[-> Lb]]; [reflexivity|].
    replace (b - S a) with 0 by lia. replace (b - a) with 0 by lia. reflexivity.
Qed.

(* ---- user defined parameters ---- *)
Lemma sort_hd l : forall n r, sort_nat l = n :: r -> forall z, In z l -> n <= z.
Proof.
  induction l as [|a l IH]; intros n r H z Hz; [destruct Hz|]. cbn [sort_nat] in H. destruct (sort_nat l) as [|b t] eqn:E.
  - injection H as <- _. destruct Hz as [->|Hz]; [lia|]. apply (proj2 (sort_nat_in _ _)) in Hz. rewrite E in Hz. destruct Hz.
  - cbn [insert_nat] in H. destruct (Nat.leb_spec a b) as [L|L]; injection H as <- _.
    + destruct Hz as [->|Hz]; [lia|]. specialize (IH b t eq_refl z Hz). lia.
    + destruct Hz as [->|Hz]; [lia|]. exact (IH b t eq_refl z Hz).
Qed.
Lemma trim_ne il ks r : il <> [] -> trim (sort_nat il) ks = Ok r -> r <> [].
Proof.
  intros Ne H. destruct (sort_nat il) as [|n t] eqn:E.
  { destruct il as [|a il]; [congruence|]. pose proof (proj2 (sort_nat_in a (a :: il)) (or_introl eq_refl)) as Y. rewrite E in Y. destruct Y. }
  assert (M : list_min (n :: t) = n).
  { apply Nat.le_antisymm; [apply list_min_le; left; reflexivity|]. apply (sort_hd il n t E). apply (proj1 (sort_nat_in _ _)). rewrite E. apply list_min_in. discriminate. }
  unfold trim in H. destruct (gap (n :: t)); [injection H as <-; discriminate|]. inv_ok H. destruct (cramped a); [|injection H as <-; discriminate].
  rewrite M, chop_cons in H. destruct (Nat.ltb _ _); [discriminate|]. inv_ok H. rewrite Nat.eqb_refl in H. injection H as <-. discriminate.
Qed.
Lemma index_some t i : (exists a, i <= a /\ nth_error keys a = Some t) -> index_start t keys i <> None.
Proof.
  intros [a [L H]] E. unfold index_start in E. assert (X : forall l s, index_from t s l = None -> ~ In t l).
  { clear. induction l as [|a l IH]; intros s H; [intros []|]. cbn [index_from] in H. destruct (str_eqb a t) eqn:E; [discriminate|]. intros [->|X]; [rewrite str_eqb_refl in E; discriminate|exact (IH _ H X)]. }
  apply (X _ _ E). assert (La : a < List.length keys) by (apply nth_error_Some; congruence).
  rewrite <- (firstn_skipn i keys) in H. rewrite nth_error_app2 in H by (rewrite firstn_length; lia). eapply nth_error_In. exact H.
Qed.
Lemma user_shift tags i i' mm tags' : cut p i i' -> ~ In J tags -> (forall t, In t tags -> t = kw_comment \/ userk t = true) -> 2 <= List.length tags ->
  (U < List.length keys -> p < i) -> get_min_max tags i keys (Some (lit "USER_DEFINED")) false = Ok (mm, tags') ->
  exists mm', get_min_max tags i' keys' (Some (lit "USER_DEFINED")) false = Ok (mm', tags') /\ shape tags' i i' mm mm' /\
    slice (fst mm) (snd mm) x = slice (fst mm') (snd mm') y /\
    (U < List.length keys -> i <= U -> fst mm <> snd mm) /\ (List.length keys <= U -> tags' = tags).
Proof.
  intros C NJ W Ln Up H. unfold get_min_max in *. rewrite (extend_shift tags i i' (Some (lit "USER_DEFINED")) C) by (intros w X; injection X as <-; reflexivity).
  set (T := extend_tags tags i keys (Some (lit "USER_DEFINED"))) in *. inv_ok H. inv_ok H. injection H as <- <-.
  assert (WT : forall t, In t T -> t = kw_comment \/ userk t = true).
  { intros t Ht. unfold T, extend_tags in Ht. apply in_app_or in Ht. destruct Ht as [Ht|Ht]; [apply W; exact Ht|]. apply filter_In in Ht. right. apply Ht. }
  assert (NT : ~ In J T).
  { intros X. unfold T, extend_tags in X. apply in_app_or in X. destruct X as [X|X]; [contradiction|]. apply filter_In in X. unfold userk in Ju. destruct X as [_ X]. rewrite Ju in X. discriminate. }
  rewrite (list0_shift T i i' C NT), (comment_shift T i i' _ _ C E). cbn [bind].
  assert (LT : 2 <= List.length T) by (unfold T, extend_tags; rewrite app_length; lia).
  destruct (le_lt_dec (List.length keys) U) as [LU|LU].
  - assert (E00 : index_list0 T i keys = []).
    { destruct (index_list0 T i keys) as [|z zs] eqn:Ez; [reflexivity|]. exfalso. assert (I : In z (index_list0 T i keys)) by (rewrite Ez; left; reflexivity).
      apply index_list0_in in I. destruct I as [t [T1 [T2 T3]]]. pose proof (index_start_bounds _ _ _ _ T3). apply index_start_nth in T3.
      destruct (WT t T1) as [X|X]; [contradiction|]. pose proof (U1 z t T3 X). lia. }
    rewrite E00 in E. unfold process_comment_lines in E. assert (Ea : a = []).
    { destruct (mem_str kw_comment T); [|injection E as <-; reflexivity]. rewrite (proj2 (Nat.eqb_neq (List.length T) 1)) in E by lia. injection E as <-. reflexivity. }
    subst a. injection E0 as <-. exists (i', i'). split; [reflexivity|]. split; [left; auto|]. cbn [fst snd]. split; [unfold slice; rewrite !Nat.sub_diag; reflexivity|].
    split; [lia|]. intros _. unfold T, extend_tags. rewrite <- app_nil_r. f_equal. destruct (filter (startswith (lit "USER_DEFINED")) (skipn i keys)) as [|h hs] eqn:F; [reflexivity|]. exfalso.
    assert (I : In h (filter (startswith (lit "USER_DEFINED")) (skipn i keys))) by (rewrite F; left; reflexivity). apply filter_In in I. destruct I as [I1 I2].
    assert (I3 : In h keys) by (rewrite <- (firstn_skipn i keys); apply in_or_app; right; exact I1). apply In_nth_error in I3. destruct I3 as [b I3]. pose proof (U1 b h I3 I2).
    assert (b < List.length keys) by (apply nth_error_Some; congruence). lia.
  - specialize (Up LU). assert (B : forall z, In z a -> p <= z) by (intros z Hz; destruct (found_in T i a z E Hz) as [X _]; lia).
    destruct (range_shift T i i' false a a0 C E E0 (or_intror (or_intror (or_introl B)))) as [mm' [R S]]. exists mm'. rewrite R. split; [reflexivity|]. split; [exact S|].
    split.
    { destruct S as [[-> ->]|[b [m [t [S1 [-> [-> _]]]]]]]; cbn [fst snd]; [unfold slice; rewrite !Nat.sub_diag; reflexivity|].
      rewrite !sh_ge by lia. symmetry. apply slice_after. lia. }
    split; [|lia]. intros _ Li. destruct (U3 LU) as [h [Hh1 Hh2]].
    assert (IT : In h T).
    { unfold T, extend_tags. apply in_or_app. right. apply filter_In. split; [|exact Hh2].
      rewrite <- (firstn_skipn i keys) in Hh1. rewrite nth_error_app2 in Hh1 by (rewrite firstn_length; lia). eapply nth_error_In. exact Hh1. }
    assert (N0 : index_list0 T i keys <> []).
    { intros X. pose proof (index_some h i (ex_intro _ U (conj Li Hh1))) as Y. destruct (index_start h keys i) as [z|] eqn:Z; [|congruence].
      assert (I : In z (index_list0 T i keys)) by (apply index_list0_in; exists h; split; [exact IT|]; split; [intros ->; discriminate|exact Z]). rewrite X in I. destruct I. }
    assert (Na : a <> []).
    { intros ->. unfold process_comment_lines in E. destruct (mem_str kw_comment T); [|congruence]. rewrite (proj2 (Nat.eqb_neq (List.length T) 1)) in E by lia.
      destruct (index_list0 T i keys) as [|z zs]; [congruence|discriminate]. }
    rewrite range_trim in E0. destruct a as [|z a]; [congruence|]. inv_ok E0. pose proof (trim_ne _ _ _ Na E1) as Nt.
    assert (Ea : a0 = (list_min a1, list_max a1 + 1)) by (destruct a1; [congruence|congruence]). rewrite Ea. cbn [fst snd].
    assert (list_min a1 <= list_max a1) by (apply list_min_le, list_max_in, Nt). lia.
Qed.

(* ---- elements ---- *)
Variable u : env.
Definition user (e : elem) : bool := String.eqb (e_cls e) "UserDefinedType".
Definition odd_classes : list string := ["StateVectorAccType"; "AttitudeStateType"; "TrackingDataObservationType"; "OemCovarianceMatrixType"; "AemSegment"].
Definition fine1 (e : elem) : Prop :=
  ~ In (e_cls e) odd_classes /\ ~ In J (e_kws e) /\ e_mm e = (0, 0) /\
  (user e = true -> e_subs e = [] /\ e_islist e = false /\ e_single e = None /\ (forall t, In t (e_kws e) -> t = kw_comment \/ userk t = true) /\ 2 <= List.length (e_kws e)) /\
  (user e = false -> NoDup (e_kws e) /\ (forall t, In t (e_kws e) -> userk t = false) /\ near (e_kws e) /\ (In k0 (e_kws e) -> e_single e = None)) /\
  (e_islist e = true -> ~ In k0 (e_kws e)).
Definition fine (e : elem) : Prop := forall z, In z (all_elems e) -> fine1 z.

Lemma own_range_plain e ks ls i : ~ In (e_cls e) odd_classes -> own_range u e ks ls i =
  do r <- get_min_max (e_kws e) i ks (if user e then Some (lit "USER_DEFINED") else None) (match e_single e with Some _ => true | None => false end);
  let '(mm, tags) := r in Ok (mm, set_kws e tags).
Proof.
  intros N. unfold own_range. assert (X : forall d, In d odd_classes -> String.eqb (e_cls e) d = false) by (intros d Hd; apply String.eqb_neq; intros Q; apply N; rewrite Q; exact Hd).
  rewrite (X "StateVectorAccType"), (X "AttitudeStateType"), (X "TrackingDataObservationType"), (X "OemCovarianceMatrixType") by (cbn; tauto). cbn [orb]. reflexivity.
Qed.
Lemma set_kws_same e : set_kws e (e_kws e) = e.
Proof. destruct e; reflexivity. Qed.

Lemma own_shift e i i' mm e1 : fine1 e -> cut p i i' -> (user e = true -> U < List.length keys -> p < i) -> own_range u e keys x i = Ok (mm, e1) ->
  exists mm', own_range u e keys' y i' = Ok (mm', e1) /\ shape (e_kws e1) i i' mm mm' /\
    (user e = true -> slice (fst mm) (snd mm) x = slice (fst mm') (snd mm') y /\ (U < List.length keys -> i <= U -> fst mm <> snd mm) /\ (List.length keys <= U -> e1 = e)) /\
    (user e = false -> e1 = e /\ (In k0 (e_kws e) -> p < snd mm) /\ (i <= U -> snd mm <= U)) /\
    e1 = set_kws e (e_kws e1).
Proof.
  intros [F1 [F2 [_ [F3 [F4 _]]]]] C Hu H. rewrite own_range_plain in H |- * by exact F1. inv_ok H. destruct a as [mm0 tags]. injection H as <- <-. cbn [set_kws e_kws].
  destruct (user e) eqn:Ue.
  - destruct (F3 eq_refl) as [_ [_ [Es [Fw Fl]]]]. rewrite Es in *. destruct (user_shift _ i i' mm0 tags C F2 Fw Fl (Hu eq_refl) E) as [mm' [R [S [R1 [R2 R3]]]]].
    exists mm'. rewrite R. cbn [bind]. split; [reflexivity|]. split; [exact S|]. split; [intros _; split; [exact R1|split; [exact R2|intros L; rewrite (R3 L); apply set_kws_same]]|]. split; [discriminate|reflexivity].
  - destruct (F4 eq_refl) as [Fd [Fu [Fn Fs]]]. destruct (plain_shift _ i i' _ mm0 tags C F2 Fd Fn (fun I => f_equal (fun o => match o with Some _ => true | None => false end) (Fs I)) E) as [-> [mm' [R [S [R1 R2]]]]].
    exists mm'. rewrite R. cbn [bind]. split; [reflexivity|]. split; [exact S|]. split; [discriminate|]. split; [intros _; split; [apply set_kws_same|split; [exact R1|exact (R2 Fu)]]|reflexivity].
Qed.

(* two elements that hold the same lines, in the old document and in the new one *)
Inductive er : elem -> elem -> Prop :=
| er_intro nm cl subs subs' kws il sg mm mm' tm :
    ~ In cl odd_classes -> (cl = "UserDefinedType" \/ ~ In J kws) -> cut p (fst mm) (fst mm') -> cut p (snd mm) (snd mm') ->
    (cl = "UserDefinedType" -> slice (fst mm) (snd mm) x = slice (fst mm') (snd mm') y) -> Forall2 er subs subs' ->
    er (Elem nm cl subs kws il sg mm tm) (Elem nm cl subs' kws il sg mm' tm).
Lemma er_set_mm e e' mm mm' : er e e' -> cut p (fst mm) (fst mm') -> cut p (snd mm) (snd mm') -> (user e = true -> slice (fst mm) (snd mm) x = slice (fst mm') (snd mm') y) ->
  er (set_mm e mm) (set_mm e' mm').
Proof.
  intros H C1 C2 Hs. destruct H. cbn [set_mm e_name e_cls e_subs e_kws e_islist e_single e_tmpl]. constructor; try assumption.
  cbn [e_cls]. intros Q. apply Hs. unfold user. cbn [e_cls]. rewrite Q. reflexivity.
Qed.
Lemma er_set_subs e e' ss ss' : er e e' -> Forall2 er ss ss' -> er (set_subs e ss) (set_subs e' ss').
Proof. intros H F. destruct H. cbn [set_subs e_name e_cls e_subs e_kws e_islist e_single e_tmpl e_mm]. constructor; assumption. Qed.
Lemma er_subs e e' : er e e' -> Forall2 er (e_subs e) (e_subs e').
Proof. intros H. destruct H. assumption. Qed.
Hypothesis p0 : 0 < p.
Lemma er_refl e tags : ~ In (e_cls e) odd_classes -> (user e = true \/ ~ In J tags) -> e_mm e = (0, 0) -> e_subs e = [] -> er (set_kws e tags) (set_kws e tags).
Proof.
  intros F1 F2 E1 E2. destruct e as [nm cl subs kws il sg mm tm]. cbn in *. subst. unfold set_kws. cbn. assert (C : cut p 0 0) by (unfold cut; lia). constructor; cbn; auto.
  destruct F2 as [F2|F2]; [left; apply String.eqb_eq; exact F2|right; exact F2].
Qed.

(* the element, or one of its parts that come once, holds the keyword after the new line *)
Fixpoint has (e : elem) : bool :=
  match e with Elem _ _ subs kws _ _ _ _ => mem_str k0 kws || existsb (fun s => negb (e_islist s) && has s) subs end.
Fixpoint usr (e : elem) : bool :=
  match e with Elem _ cl subs _ _ _ _ _ => String.eqb cl "UserDefinedType" || existsb usr subs end.
Fixpoint okd (d : bool) (e : elem) : bool :=
  match e with Elem _ cl subs kws _ _ _ _ =>
    if String.eqb cl "UserDefinedType" then d else
    (fix go (d : bool) (ss : list elem) : bool :=
       match ss with
       | [] => true
       | s :: r => okd d s && (negb (usr s) || (negb (e_islist s) && match r with [] => true | _ => false end)) && go (d || (negb (e_islist s) && has s)) r
       end) (d || mem_str k0 kws) subs
  end.
Fixpoint oks (d : bool) (ss : list elem) : bool :=
  match ss with
  | [] => true
  | s :: r => okd d s && (negb (usr s) || (negb (e_islist s) && match r with [] => true | _ => false end)) && oks (d || (negb (e_islist s) && has s)) r
  end.
Lemma okd_eq d e : okd d e = if user e then d else oks (d || mem_str k0 (e_kws e)) (e_subs e).
Proof.
  destruct e as [nm cl subs kws il sg mm tm]. unfold user. cbn [okd e_cls e_kws e_subs]. destruct (String.eqb cl "UserDefinedType"); [reflexivity|].
  generalize (d || mem_str k0 kws). clear. induction subs as [|s r IH]; intros d; [reflexivity|]. cbn [oks]. rewrite IH. reflexivity.
Qed.
Lemma has_eq e : has e = mem_str k0 (e_kws e) || existsb (fun s => negb (e_islist s) && has s) (e_subs e).
Proof. destruct e; reflexivity. Qed.
Lemma usr_eq e : usr e = user e || existsb usr (e_subs e).
Proof. destruct e; reflexivity. Qed.

Lemma x_len : List.length x = List.length keys.
Proof. rewrite <- keys_x. unfold keys_of. rewrite map_length. reflexivity. Qed.
Lemma y_len : List.length y = S (List.length x).
Proof. unfold x, y. rewrite !app_length. cbn. lia. Qed.

Definition moved (e : elem) : Prop := forall d i i' mx mm e1, okd d e = true -> cut p i i' -> i <= U -> (d = true -> p < i) -> identify u e keys x i = Ok (mx, mm, e1) ->
  exists mx' mm' gs', identify u e keys' y i' = Ok (mx', mm', set_subs e1 gs') /\ adv p i i' mx mx' /\ shape (e_kws e1) i i' mm mm' /\
    Forall2 er (e_subs e1) gs' /\ e1 = set_subs (set_kws e (e_kws e1)) (e_subs e1) /\
    (usr e = false -> mx <= U) /\ (d || has e = true -> p < mx) /\
    (user e = true -> slice (fst mm) (snd mm) x = slice (fst mm') (snd mm') y /\ (U < List.length keys -> fst mm <> snd mm) /\ (List.length keys <= U -> e1 = e)) /\
    (user e = false -> e_kws e1 = e_kws e).

Lemma adv_le i i' m m' : adv p i i' m m' -> i <= m.
Proof. intros [[-> _]|[n [L [-> _]]]]; lia. Qed.
Lemma er_made e e1 gs' : fine1 e -> e1 = set_subs (set_kws e (e_kws e1)) (e_subs e1) -> (user e = false -> e_kws e1 = e_kws e) -> Forall2 er (e_subs e1) gs' -> er e1 (set_subs e1 gs').
Proof.
  intros [F1 [F2 [F3 _]]] E Hk F. rewrite E. destruct e as [nm cl subs kws il sg mm tm]. unfold set_subs, set_kws. cbn in *. subst mm. assert (C : cut p 0 0) by (unfold cut; lia).
  constructor; cbn; auto. unfold user in Hk. cbn in Hk. destruct (String.eqb_spec cl "UserDefinedType") as [Q|Q]; [left; exact Q|]. right. rewrite (Hk eq_refl). exact F2.
Qed.
Lemma list_moved s d : fine1 s -> moved s -> usr s = false -> e_islist s = true -> okd d s = true -> forall n n' i i' mx es, n <= n' -> cut p i i' -> i <= U -> (d = true -> p < i) ->
  identify_list (identify u s keys x) (List.length x) n i i = Ok (mx, es) ->
  exists mx' es', identify_list (identify u s keys' y) (List.length y) n' i' i' = Ok (mx', es') /\ adv p i i' mx mx' /\ mx <= U /\ Forall2 er es es'.
Proof.
  intros F M Us Li Od. induction n as [|n IH]; intros n' i i' mx es Ln C Lu Hd H; [discriminate|]. destruct n' as [|n']; [lia|]. rewrite identify_list_S in H |- *.
  inv_ok H. destruct a as [[mx1 [lo hi]] e1]. destruct (M d i i' mx1 (lo, hi) e1 Od C Lu Hd E) as [mx1' [[lo' hi'] [gs' [R [A [S [G [Es [M1 [_ [_ Mk]]]]]]]]]]].
  rewrite R. cbn [bind].
  assert (Ne : user s = false) by (rewrite usr_eq in Us; apply orb_false_iff in Us; apply Us). specialize (M1 Us). specialize (Mk Ne).
  assert (C1 : (Nat.eqb mx1 lo && Nat.eqb lo hi) = (Nat.eqb mx1' lo' && Nat.eqb lo' hi')).
  { pose proof (shape_empty _ _ _ _ _ S) as Se. cbn [fst snd] in Se. rewrite <- Se. destruct (Nat.eqb_spec lo hi) as [Q|Q]; [|rewrite !andb_false_r; reflexivity]. rewrite !andb_true_r.
    destruct S as [[S1 S2]|[a [m [t [S1 [S2 _]]]]]]; [|injection S2 as -> ->; lia]. injection S1 as -> ->. injection S2 as -> ->.
    destruct A as [[-> ->]|[m [A1 [-> ->]]]]; [rewrite !Nat.eqb_refl; reflexivity|]. pose proof (adv_pos p i i' m C A1). rewrite (proj2 (Nat.eqb_neq _ _)), (proj2 (Nat.eqb_neq _ _)) by lia. reflexivity. }
  assert (C2 : Nat.ltb i lo = Nat.ltb i' lo').
  { destruct S as [[S1 S2]|[a [m [t [S1 [S2 [S3 [S4 S5]]]]]]]].
    - injection S1 as -> ->. injection S2 as -> ->. rewrite !Nat.ltb_irrefl. reflexivity.
    - assert (lo = a) by congruence. assert (lo' = sh p a) by congruence. subst lo lo'.
      assert (Na : a <> p).
      { intros ->. rewrite nth_p in S4. injection S4 as <-. rewrite Mk in S5. destruct F as [_ [_ [_ [_ [_ F]]]]]. exact (F Li S5). }
      unfold cut in C. destruct (le_lt_dec p a) as [L|L]; [rewrite sh_ge by exact L|rewrite sh_lt by exact L];
        destruct (Nat.ltb_spec i a) as [X|X]; symmetry; [apply Nat.ltb_lt|apply Nat.ltb_ge|apply Nat.ltb_lt|apply Nat.ltb_ge]; lia. }
  pose proof (adv_cut p _ _ _ _ C A) as Cm.
  assert (C3 : Nat.leb (List.length x) mx1 = Nat.leb (List.length y) mx1').
  { rewrite y_len, x_len. pose proof p_lt. unfold cut in Cm. destruct (Nat.leb_spec (List.length keys) mx1); symmetry; [apply Nat.leb_le|apply Nat.leb_gt]; lia. }
  rewrite <- C1, <- C2, <- C3. destruct (Nat.eqb mx1 lo && Nat.eqb lo hi).
  { injection H as <- <-. exists mx1', []. split; [reflexivity|]. split; [exact A|]. split; [exact M1|constructor]. }
  destruct (Nat.ltb i lo).
  { injection H as <- <-. exists i', []. split; [reflexivity|]. split; [left; auto|]. split; [exact Lu|constructor]. }
  assert (Ee : er (set_mm e1 (lo, hi)) (set_mm (set_subs e1 gs') (lo', hi'))).
  { destruct (shape_cut _ _ _ _ _ C S) as [X1 X2]. apply er_set_mm; [apply (er_made s); auto|exact X1|exact X2|].
    intros Q. rewrite Es in Q. unfold user in Q, Ne. cbn in Q. rewrite Ne in Q. discriminate. }
  cbv zeta in *. destruct (Nat.leb (List.length x) mx1).
  { injection H as <- <-. exists mx1', [set_mm (set_subs e1 gs') (lo', hi')]. split; [reflexivity|]. split; [exact A|]. split; [exact M1|]. constructor; [exact Ee|constructor]. }
  inv_ok H. destruct a as [mx2 es2]. injection H as <- <-.
  destruct (IH n' mx1 mx1' mx2 es2) as [mx2' [es2' [R2 [A2 [M2 F2]]]]]; [lia|exact Cm|exact M1|intros X; specialize (Hd X); apply adv_le in A; lia|exact E0|].
  rewrite R2. cbn [bind]. exists mx2', (set_mm (set_subs e1 gs') (lo', hi') :: es2'). split; [reflexivity|]. split; [eapply adv_trans; eassumption|]. split; [exact M2|]. constructor; assumption.
Qed.
Lemma fine1_same e e1 : fine1 e -> user e = false -> e1 = set_subs (set_kws e (e_kws e)) (e_subs e1) -> fine1 e1.
Proof.
  intros [F1 [F2 [F3 [_ [F5 F6]]]]] Ue E. rewrite E. unfold fine1, user in *. cbn in *. rewrite Ue in *. repeat split; try assumption; try discriminate; apply F5; auto.
Qed.
Lemma retry_moved s s' gs' lo lo' r : fine1 s -> s' = set_subs (set_kws s (e_kws s')) (e_subs s') -> (user s = false -> e_kws s' = e_kws s) ->
  (user s = true -> U < List.length keys -> False) -> (user s = true -> s' = s) ->
  Forall2 er (e_subs s') gs' -> e_subs s' = [] -> cut p lo lo' -> own_range u s' keys x lo = Ok r ->
  exists r', own_range u (set_subs s' gs') keys' y lo' = Ok r' /\ er (set_mm (snd r) (fst r)) (set_mm (snd r') (fst r')).
Proof.
  intros F Es Hk Hu Hs G E0 C H. rewrite E0 in G. inversion G. subst gs'. assert (Q : set_subs s' [] = s') by (rewrite <- E0; destruct s'; reflexivity). rewrite Q. clear Q G.
  assert (F' : fine1 s').
  { destruct (user s) eqn:Us; [rewrite (Hs eq_refl); exact F|]. apply (fine1_same s); [exact F|exact Us|]. rewrite <- (Hk eq_refl). exact Es. }
  assert (Uu : user s' = user s) by (rewrite Es; reflexivity).
  destruct r as [mm e1]. destruct (own_shift s' lo lo' mm e1 F' C) as [mm' [R [S [S1 [S2 S3]]]]]; [rewrite Uu; intros X Y; destruct (Hu X Y)|exact H|].
  exists (mm', e1). split; [exact R|]. cbn [fst snd]. destruct (shape_cut _ _ _ _ _ C S) as [X1 X2].
  assert (E1 : e1 = s').
  { destruct (user s') eqn:Us; [|apply S2; reflexivity]. destruct (S1 eq_refl) as [_ [_ X]]. apply X. destruct (le_lt_dec (List.length keys) U) as [L|L]; [exact L|destruct (Hu (eq_sym Uu) L)]. }
  subst e1. apply er_set_mm; [|exact X1|exact X2|intros X; apply S1; exact X].
  rewrite <- (set_kws_same s'). destruct F' as [F1 [F2 [F3 _]]]. apply er_refl; auto.
Qed.
Lemma subs_moved lo lo' ss : cut p lo lo' -> Forall moved ss -> Forall fine1 ss -> forall d i i' mx gs, oks d ss = true -> cut p i i' -> i <= U -> (d = true -> p < i) ->
  ident_subs u keys x lo ss i = Ok (mx, gs) ->
  exists mx' gs', ident_subs u keys' y lo' ss i' = Ok (mx', gs') /\ adv p i i' mx mx' /\ Forall2 er gs gs' /\ (existsb usr ss = false -> mx <= U) /\
    (d || existsb (fun s => negb (e_islist s) && has s) ss = true -> p < mx).
Proof.
  intros Cl Fm Ff. induction Fm as [|s r Ms Fm IH]; intros d i i' mx gs Od C Lu Hd H.
  - cbn in H |- *. injection H as <- <-. exists i', []. split; [reflexivity|]. split; [left; auto|]. split; [constructor|]. split; [auto|]. rewrite orb_false_r. exact Hd.
  - inversion Ff as [|? ? Fs Fr]. subst. specialize (IH Fr). cbn [oks] in Od. apply andb_true_iff in Od. destruct Od as [Od Or]. apply andb_true_iff in Od. destruct Od as [Od Ou].
    cbn [ident_subs existsb] in *. destruct (e_islist s) eqn:Li.
    + cbn [negb andb] in *. rewrite orb_false_r in *. apply negb_true_iff in Ou. inv_ok H. destruct a as [m1 es]. inv_ok H. destruct a as [m2 g2]. injection H as <- <-.
      destruct (list_moved s d Fs Ms Ou Li Od (S (List.length keys)) (S (List.length keys')) i i' m1 es) as [m1' [es' [R [A [M1 F1]]]]]; try assumption; [rewrite len'; lia|].
      rewrite R. cbn [bind]. assert (Hd1 : d = true -> p < m1) by (intros X; specialize (Hd X); apply adv_le in A; lia).
      destruct (IH d m1 m1' m2 g2 Or (adv_cut p _ _ _ _ C A) M1 Hd1 E0) as [m2' [g2' [R2 [A2 [F2 [M2 H2]]]]]]. rewrite R2. cbn [bind].
      exists m2', (es' ++ g2'). split; [reflexivity|]. split; [eapply adv_trans; eassumption|]. split; [apply Forall2_app; assumption|]. split; [|exact H2].
      intros X. apply orb_false_iff in X. apply M2, X.
    + cbn [negb andb] in *. inv_ok H. destruct a as [[m1 smm] s1]. inv_ok H. inv_ok H. destruct a0 as [m2 g2]. injection H as <- <-.
      destruct (Ms d i i' m1 smm s1 Od C Lu Hd E) as [m1' [smm' [sg' [R [A [S [G [Es [M1 [H1 [Mu Mk]]]]]]]]]]]. rewrite R. cbn [bind].
      assert (Em : match e_subs (set_subs s1 sg') with [] => true | _ => false end = match e_subs s1 with [] => true | _ => false end) by (cbn [set_subs e_subs]; destruct G; reflexivity).
      assert (R3 : exists a', (if Nat.eqb (fst smm') (snd smm') && match e_subs (set_subs s1 sg') with [] => true | _ => false end
           then do r2 <- own_range u (set_subs s1 sg') keys' y lo'; Ok (set_mm (snd r2) (fst r2)) else Ok (set_mm (set_subs s1 sg') smm')) = Ok a' /\ er a a').
      { rewrite Em, <- (shape_empty _ _ _ _ _ S). destruct (Nat.eqb_spec (fst smm) (snd smm)) as [Q|Q]; cbn [andb] in E0 |- *.
        - destruct (e_subs s1) as [|s2 ss2] eqn:E2.
          + inv_ok E0. injection E0 as <-. rewrite <- E2 in G, Es. destruct (retry_moved s s1 sg' lo lo' a0) as [r' [R1 R4]]; try assumption.
            { intros X Y. destruct (Mu X) as [_ [Z _]]. exact (Z Y Q). }
            { intros X. destruct (Mu X) as [_ [Z W]]. destruct (le_lt_dec (List.length keys) U) as [L|L]; [exact (W L)|destruct (Z L Q)]. }
            rewrite R1. cbn [bind]. eexists. split; [reflexivity|exact R4].
          + injection E0 as <-. eexists. split; [reflexivity|]. rewrite <- E2 in G, Es. destruct (shape_cut _ _ _ _ _ C S) as [X1 X2]. apply er_set_mm; [apply (er_made s); auto|exact X1|exact X2|].
            intros X. apply Mu. rewrite Es in X. exact X.
        - injection E0 as <-. eexists. split; [reflexivity|]. destruct (shape_cut _ _ _ _ _ C S) as [X1 X2]. apply er_set_mm; [apply (er_made s); auto|exact X1|exact X2|].
          intros X. apply Mu. rewrite Es in X. exact X. }
      destruct R3 as [a' [R3 Ra]]. rewrite R3. cbn [bind].
      assert (Rest : exists m2' g2', ident_subs u keys' y lo' r m1' = Ok (m2', g2') /\ adv p m1 m1' m2 m2' /\ Forall2 er g2 g2' /\ (usr s || existsb usr r = false -> m2 <= U) /\
         ((d || has s) || existsb (fun s => negb (e_islist s) && has s) r = true -> p < m2)).
      { destruct (usr s) eqn:Us.
        - cbn [negb orb] in Ou. destruct r as [|s3 r]; [|discriminate]. cbn in E1 |- *. injection E1 as <- <-. exists m1', []. split; [reflexivity|]. split; [left; auto|]. split; [constructor|]. split; [discriminate|].
          rewrite orb_false_r. exact H1.
        - destruct (IH (d || has s) m1 m1' m2 g2 Or (adv_cut p _ _ _ _ C A) (M1 eq_refl) H1 E1) as [m2' [g2' [R2 [A2 [F2 [M2 H2]]]]]]. exists m2', g2'. cbn [orb]. auto. }
      destruct Rest as [m2' [g2' [R2 [A2 [F2 [M2 H2]]]]]]. rewrite R2. cbn [bind]. exists m2', (a' :: g2'). split; [reflexivity|]. split; [eapply adv_trans; eassumption|].
      split; [constructor; assumption|]. split; [exact M2|]. rewrite orb_assoc. exact H2.
Qed.
Lemma fine_subs e : fine e -> Forall fine (e_subs e) /\ fine1 e.
Proof.
  intros F. split; [|apply F; rewrite all_elems_eq; left; reflexivity]. apply Forall_forall. intros s Hs z Hz. apply F. rewrite all_elems_eq. right. apply in_flat_map. exists s. auto.
Qed.
Lemma all_moved e : fine e -> moved e.
Proof.
  induction e as [nm cl subs kws il sg mm0 tm IH] using elem_ind'. intros F. destruct (fine_subs _ F) as [Fs F1]. cbn [e_subs] in Fs. clear F.
  assert (Fm : Forall moved subs) by (apply Forall_forall; intros s Hs; rewrite Forall_forall in IH, Fs; apply IH; auto).
  assert (Ff : Forall fine1 subs) by (eapply Forall_impl; [|exact Fs]; intros s Hs; apply fine_subs; exact Hs). clear IH Fs.
  set (e := Elem nm cl subs kws il sg mm0 tm) in *. assert (Esb : e_subs e = subs) by reflexivity. clearbody e. intros d i i' mx mm e1 Od C Lu Hd H. rewrite identify_eq in H |- *.
  rewrite okd_eq in Od. rewrite has_eq, usr_eq, Esb in *.
  inv_ok H. destruct a as [mm1 e2]. destruct (own_shift e i i' mm1 e2 F1 C) as [mm1' [R [S [S1 [S2 S3]]]]]; [intros X _; rewrite X in Od; auto|exact E|]. rewrite R. cbn [bind].
  pose proof (shape_adv _ _ _ _ _ S) as A1. destruct (shape_cut _ _ _ _ _ C S) as [X1 X2]. destruct subs as [|s0 ss].
  - injection H as <- <- <-. exists (snd mm1'), mm1', []. assert (E2 : e_subs e2 = []) by (rewrite S3; exact Esb). assert (Q : set_subs e2 [] = e2) by (rewrite <- E2; destruct e2; reflexivity). rewrite Q.
    split; [reflexivity|]. split; [exact A1|]. split; [exact S|]. rewrite E2. split; [constructor|]. split; [rewrite S3 at 1; rewrite <- Esb at 1; destruct e; reflexivity|].
    cbn [existsb]. rewrite !orb_false_r. split; [intros X; apply S2; assumption|]. split.
    { intros X. apply orb_true_iff in X. destruct X as [X|X]; [specialize (Hd X); apply adv_le in A1; lia|].
      destruct (user e) eqn:Ue; [subst d; specialize (Hd eq_refl); apply adv_le in A1; lia|]. destruct (S2 eq_refl) as [_ [Y _]]. apply Y. apply mem_str_spec. exact X. }
    split; [intros X; destruct (S1 X) as [Y1 [Y2 Y3]]; auto|]. intros X. destruct (S2 X) as [-> _]. reflexivity.
  - assert (Ue : user e = false). { destruct (user e) eqn:Ue; [|reflexivity]. destruct F1 as [_ [_ [_ [F1 _]]]]. destruct (F1 Ue) as [F2 _]. congruence. }
    rewrite Ue in Od. destruct (S2 Ue) as [-> [Sk Su]]. inv_ok H. destruct a as [m2 g2]. injection H as <- <- <-.
    destruct (subs_moved (fst mm1) (fst mm1') (s0 :: ss) X1 Fm Ff (d || mem_str k0 (e_kws e)) (snd mm1) (snd mm1') m2 g2 Od X2 (Su Lu)) as [m2' [g2' [R2 [A2 [F2 [M2 H2]]]]]]; [|exact E0|].
    { intros X. apply orb_true_iff in X. destruct X as [X|X]; [specialize (Hd X); apply adv_le in A1; lia|]. apply Sk, mem_str_spec, X. }
    rewrite R2. cbn [bind]. exists m2', mm1', g2'. split; [reflexivity|]. split; [eapply adv_trans; eassumption|]. split; [exact S|]. split; [exact F2|].
    split; [destruct e; reflexivity|]. split; [intros X; apply orb_false_iff in X; apply M2, X|]. split; [rewrite orb_assoc; exact H2|]. split; [congruence|reflexivity].
Qed.
Lemma segments_moved e t : fine e -> okd false e = true -> identify_segments u e x = Ok t -> exists t', identify_segments u e y = Ok t' /\ er t t'.
Proof.
  intros F O H. unfold identify_segments in *. rewrite keys_x in H. rewrite keys_y. inv_ok H. destruct a as [[mx mm] e1]. injection H as <-.
  destruct (all_moved e F false 0 0 mx mm e1 O) as [mx' [mm' [gs' [R [_ [S [G [Es [_ [_ [Mu Mk]]]]]]]]]]]; [unfold cut; lia|lia|discriminate|exact E|].
  rewrite R. cbn [bind]. eexists. split; [reflexivity|]. destruct (shape_cut _ _ _ _ _ (or_introl (conj p0 eq_refl)) S) as [X1 X2].
  apply er_set_mm; [apply (er_made e); auto; apply F; rewrite all_elems_eq; left; reflexivity|exact X1|exact X2|]. intros X. apply Mu. rewrite Es in X. exact X.
Qed.

Lemma er_depth e : forall e', er e e' -> depth e = depth e'.
Proof.
  induction e as [nm cl subs kws il sg mm0 tm IH] using elem_ind'. intros e' H. inversion H as [? ? ? subs' ? ? ? ? ? ? ? ? ? ? ? F]. subst. rewrite !depth_eq. f_equal. cbn [e_subs]. unfold depths. clear H.
  revert subs' F. induction IH as [|s ss Hs IH IHs]; intros subs' F; inversion F; subst; [reflexivity|]. cbn [fold_right]. f_equal; [apply Hs; assumption|apply IHs; assumption].
Qed.
Lemma build_er doc doc' n : forall e e', er e e' -> build u n doc e x = build u n doc' e' y.
Proof.
  induction n as [|n IH]; intros e e' H; [reflexivity|]. inversion H as [nm cl subs subs' kws il sg mm mm' tm F1 F2 F3 F4 F5 F6 X1 X2]. subst e e'. clear H.
  cbn [build e_cls e_mm e_subs e_kws e_single e_tmpl fst snd].
  assert (Y : forall d, In d odd_classes -> String.eqb cl d = false) by (intros d Hd; apply String.eqb_neq; intros Q; apply F1; rewrite Q; exact Hd).
  rewrite (Y "AemSegment"), (Y "AttitudeStateType"), (Y "StateVectorAccType"), (Y "OemCovarianceMatrixType"), (Y "TrackingDataObservationType") by (cbn; tauto).
  assert (Fl : forall (o : pyval), match o with VObj c vars => do vars' <- fold_left (fun acc s => do vs <- acc; do sub <- build u n doc s x; attach (e_name s) sub vs) subs (Ok vars); Ok (VObj c vars') | _ => Err AttributeError end =
     match o with VObj c vars => do vars' <- fold_left (fun acc s => do vs <- acc; do sub <- build u n doc' s y; attach (e_name s) sub vs) subs' (Ok vars); Ok (VObj c vars') | _ => Err AttributeError end).
  { intros o. destruct o as [| | | | |c vars|]; try reflexivity. f_equal. generalize (Ok vars). clear - F6 IH. induction F6 as [|s s' ss ss' Hs F6 IHs]; intros acc; [reflexivity|]. cbn [fold_left].
    rewrite (IH s s' Hs). replace (e_name s') with (e_name s) by (inversion Hs; reflexivity). apply IHs. }
  assert (Nn : match subs' with [] => true | _ => false end = match subs with [] => true | _ => false end) by (destruct F6; reflexivity). rewrite Nn.
  set (no := match subs with [] => true | _ => false end). destruct (String.eqb_spec cl "UserDefinedType") as [Q|Q].
  - rewrite <- (F5 Q). destruct (slice (fst mm) (snd mm) x) as [|l0 ls]; destruct no; try reflexivity; match goal with |- bind ?a _ = bind ?a _ => destruct a; [apply Fl|reflexivity] end.
  - destruct F2 as [F2|F2]; [contradiction|].
    assert (Fe : filter (fun l => mem_str (key_of l) kws) (slice (fst mm') (snd mm') y) = filter (fun l => mem_str (key_of l) kws) (slice (fst mm) (snd mm) x)).
    { apply filter_slice; [|exact F3|exact F4]. rewrite <- Je. apply mem_str_false. exact F2. }
    rewrite Fe. set (g := filter _ (slice (fst mm) (snd mm) x)) in *. clearbody no.
    assert (G1 : slice (fst mm) (snd mm) x = [] -> g = []) by (intros X; unfold g; rewrite X; reflexivity).
    assert (G2 : slice (fst mm') (snd mm') y = [] -> g = []) by (intros X; rewrite X in Fe; symmetry; exact Fe). clearbody g.
    destruct (slice (fst mm) (snd mm) x) as [|l0 ls], (slice (fst mm') (snd mm') y) as [|l1 ls'], no; try rewrite G1 by reflexivity; try rewrite G2 by reflexivity; try reflexivity;
      try (destruct g; try reflexivity; match goal with |- bind ?a _ = bind ?a _ => destruct a; [apply Fl|reflexivity] end);
      match goal with |- bind ?a _ = bind ?a _ => destruct a; [apply Fl|reflexivity] end.
Qed.
Lemma object_moved e t v : fine e -> okd false e = true -> identify_segments u e x = Ok t -> build_object u t x = Ok v ->
  exists t', identify_segments u e y = Ok t' /\ build_object u t' y = Ok v.
Proof.
  intros F O H B. destruct (segments_moved e t F O H) as [t' [H' E]]. exists t'. split; [exact H'|]. rewrite <- B. unfold build_object. rewrite <- (er_depth _ _ E). symmetry. apply build_er. exact E.
Qed.
End Ins.
