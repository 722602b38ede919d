(* A header keyword said twice: the text is refused. *)
From Coq Require Import NArith ZArith List Bool String Arith Lia Sorted.
From Verif Require Import PyStr PyDec PyVal Schema KvnPre KvnTree KvnSeg XmlBind KvnBuild
     Spec SpecKvn SpecObj SpecMsg SpecDoc SpecFrom StrFacts PreFacts SegFacts BuildFacts ReadFacts GapFacts RelFacts ComposeFacts CoreFacts CheckFacts OrderFacts PropFrom PropVers Demo PropOrder SpecOrder SpecRepeat.
Import ListNotations.
Local Open Scope string_scope.
Local Open Scope list_scope.
Local Arguments find_class : simpl never.
Local Arguments lit : simpl never.

(* ---- lists ---- *)
Lemma Forall2_in_r {A B} (R : A -> B -> Prop) l1 l2 b : Forall2 R l1 l2 -> In b l2 -> exists a, In a l1 /\ R a b.
Proof.
  induction 1 as [|x y l1 l2 H F IH]; intros I0; [destruct I0|]. destruct I0 as [<-|I0]; [exists x; split; [left; reflexivity|exact H]|].
  destruct (IH I0) as [a [I1 H1]]. exists a. split; [right; exact I1|exact H1].
Qed.
Lemma times_split k a b : times k (a ++ b) = times k a + times k b.
Proof. apply count_occ_app. Qed.
Lemma times_in k l : In k l <-> 0 < times k l.
Proof. apply count_occ_In. Qed.
Lemma times_nth k l i : nth_error l i = Some k -> times k l = times k (firstn i l) + S (times k (skipn (S i) l)).
Proof.
  intros H. apply nth_error_split in H. destruct H as [a [b [-> <-]]]. rewrite firstn_app, Nat.sub_diag, firstn_all. cbn [firstn]. rewrite app_nil_r.
  replace (skipn (S (List.length a)) (a ++ k :: b)) with b.
  - rewrite times_split. unfold times at 2. rewrite count_occ_cons_eq by reflexivity. reflexivity.
  - rewrite skipn_app. rewrite skipn_all2 by lia. replace (S (List.length a) - List.length a) with 1 by lia. reflexivity.
Qed.
Lemma times_three k l i j m : i < j < m -> nth_error l i = Some k -> nth_error l j = Some k -> nth_error l m = Some k -> 3 <= times k l.
Proof.
  intros L H1 H2 H3. rewrite (times_nth k l j H2). assert (A : In k (firstn j l)).
  { apply nth_error_In with i. rewrite <- (firstn_skipn j l) in H1. rewrite nth_error_app1 in H1; [exact H1|]. rewrite firstn_length. assert (j < List.length l) by (apply nth_error_Some; congruence). lia. }
  assert (B : In k (skipn (S j) l)).
  { apply nth_error_In with (m - S j). rewrite <- (firstn_skipn (S j) l) in H3. assert (E : List.length (firstn (S j) l) = S j).
    { rewrite firstn_length. assert (m < List.length l) by (apply nth_error_Some; rewrite (firstn_skipn (S j) l) in H3; congruence). lia. }
    rewrite nth_error_app2 in H3 by lia. rewrite E in H3. exact H3. }
  apply times_in in A, B. lia.
Qed.

(* ---- the range of a section whose gaps are distinct words ---- *)
Lemma range_whole il start keys : il <> [] -> (forall i, In i il -> i < List.length keys) ->
  (forall i k, list_min il <= i <= list_max il -> ~ In i il -> nth_error keys i = Some k -> mem_char c_sp k = false) ->
  (forall i j k, list_min il <= i < j -> j <= list_max il -> ~ In i il -> ~ In j il -> nth_error keys i = Some k -> nth_error keys j <> Some k) ->
  range_of_indices il start keys false = Ok (list_min il, list_max il + 1).
Proof.
  intros Ne B Sp Dp. assert (Es : forall x, In x (sort_nat il) <-> In x il) by (intros; apply sort_nat_in).
  assert (Nes : sort_nat il <> []) by (destruct il as [|a il]; [congruence|]; intros X; assert (Y : In a (sort_nat (a :: il))) by (apply Es; left; reflexivity); rewrite X in Y; destruct Y).
  assert (Elo : list_min (sort_nat il) = list_min il).
  { apply Nat.le_antisymm; [apply list_min_le, Es, list_min_in, Ne|apply list_min_le, Es, list_min_in, Nes]. }
  assert (Ehi : list_max (sort_nat il) = list_max il).
  { apply Nat.le_antisymm; [apply list_max_ge, Es, list_max_in, Nes|apply list_max_ge, Es, list_max_in, Ne]. }
  rewrite range_unfold by exact Ne. rewrite Elo, Ehi. set (lo := list_min il) in *.
  assert (Sx : span start (sort_nat il) = Ok (list_min il, list_max il + 1)) by (apply span_same; [exact Es|exact Ne]). fold lo in Sx.
  set (diff := filter (fun n => negb (mem_nat n (sort_nat il))) (seq lo (list_max il + 1 - lo))).
  assert (Id : forall i, In i diff -> lo <= i <= list_max il /\ ~ In i il).
  { intros i. unfold diff. rewrite filter_In, in_seq, negb_true_iff. rewrite <- not_true_iff_false, mem_nat_spec, Es. intros [H1 H2]. split; [lia|exact H2]. }
  assert (Sd : StronglySorted lt diff).
  { unfold diff. generalize (list_max il + 1 - lo). generalize lo. clear. intros a n. revert a. induction n as [|n IH]; intros a; [constructor|]. cbn [seq filter].
    destruct (negb _); [|apply IH]. constructor; [apply IH|]. apply Forall_forall. intros x Hx. apply filter_In in Hx. destruct Hx as [Hx _]. apply in_seq in Hx. lia. }
  destruct (map_res_get keys diff) as [dk [Edk Fdk]].
  { intros i Hi. apply Id in Hi. assert (list_max il < List.length keys) by (apply B, list_max_in, Ne). lia. }
  destruct diff as [|d0 diff0]; [exact Sx|]. rewrite Edk. cbn [bind].
  assert (X : existsb (mem_char c_sp) dk || has_dup dk = false); [|rewrite X; exact Sx]. clear Edk. revert Id Sd Fdk. generalize (d0 :: diff0). intros diff Id Sd Fdk.
  apply orb_false_iff. split.
  - apply not_true_iff_false. intros X. apply existsb_exists in X. destruct X as [k [Ik Hk]]. destruct (Forall2_in_r _ _ _ k Fdk Ik) as [i [Ii Hi]].
    apply Id in Ii. rewrite (Sp i k) in Hk by (apply Ii || exact Hi). discriminate.
  - induction Fdk as [|i k l ks Hi F IH]; [reflexivity|]. cbn [has_dup]. apply orb_false_iff. split.
    + apply mem_str_false. intros X. destruct (Forall2_in_r _ _ _ k F X) as [j [Ij Hj]]. inversion Sd as [|? ? _ L]; subst. rewrite Forall_forall in L. specialize (L j Ij).
      destruct (Id i (or_introl eq_refl)) as [A1 A2]. destruct (Id j (or_intror Ij)) as [B1 B2]. apply (Dp i j k); auto; lia.
    + apply IH; [intros j Hj; apply Id; right; exact Hj|inversion Sd; assumption].
Qed.

(* ---- one value for one field ---- *)
Lemma existsb_in n seen : existsb (String.eqb n) seen = true <-> In n seen.
Proof.
  rewrite existsb_exists. split; [intros [x [I0 E]]; apply String.eqb_eq in E; subst x; exact I0|intros I0; exists n; split; [exact I0|apply String.eqb_refl]].
Qed.
Lemma bind_once u cls fs t f : find_elem t fs = Some f -> f_list f = false -> forall cs seen vars vs, bind_children u cls fs seen cs vars = Ok vs ->
  (In (f_name f) seen -> times t (map (fun c => fst (fst c)) cs) = 0) /\ times t (map (fun c => fst (fst c)) cs) <= 1.
Proof.
  intros Ff Fl. induction cs as [|[[tag attrs] text] cs IH]; intros seen vars vs H; [split; cbn; auto|]. cbn [bind_children] in H.
  destruct (child_ok _); [|discriminate]. destruct (find_elem tag fs) as [g|] eqn:Fg; [|discriminate]. cbn [map fst]. unfold times. cbn [count_occ].
  fold (times t (map (fun c : child => fst (fst c)) cs)). destruct (list_eq_dec N.eq_dec tag t) as [->|Nt].
  - rewrite Ff in Fg. apply some_inj in Fg. subst g. rewrite Fl in H. destruct (existsb (String.eqb (f_name f)) seen) eqn:Es; [discriminate|].
    destruct (IH _ _ _ H) as [A _]. assert (A' := A (or_introl eq_refl)). unfold times in A'. split; [|rewrite A'; lia]. intros X. apply existsb_in in X. congruence.
  - destruct (f_list g); [exact (IH _ _ _ H)|]. destruct (existsb _ seen); [discriminate|]. destruct (IH _ _ _ H) as [A B]. split; [|exact B]. intros X. apply A. right. exact X.
Qed.
Lemma children_tags ls cs : map_res child_of_line ls = Ok cs -> map (fun c => fst (fst c)) cs = keys_of ls.
Proof.
  revert cs. induction ls as [|l ls IH]; intros cs H; cbn [map_res] in H; [injection H as <-; reflexivity|]. inv_ok H. inv_ok H. apply ok_inj in H. subst cs.
  cbn [map]. unfold keys_of. cbn [map]. f_equal; [apply child_key; exact E|apply IH; exact E0].
Qed.
Lemma parse_once u cls ls v t f : parse_list u cls None ls = Ok v -> find_elem t (fields_of cls) = Some f -> f_list f = false -> times t (keys_of ls) <= 1.
Proof.
  unfold parse_list. intros H Ff Fl. inv_ok H. inv_ok H. rewrite <- (children_tags _ _ E). exact (proj2 (bind_once u cls _ t f Ff Fl _ _ _ _ E0)).
Qed.

(* ---- the header ---- *)
Definition head_ok (h : string) (s : elem) : bool :=
  String.eqb (e_cls s) h && match e_subs s with [] => true | _ => false end && match e_single s with None => true | _ => false end &&
  negb (e_islist s) && ordinary h && same_strs (e_kws s) (keywords h) && mem_str kw_comment (keywords h) && Nat.ltb 1 (List.length (keywords h)) &&
  negb (root_kws (e_kws s)) &&
  forallb (fun k => negb (mem_char c_sp k) && (str_eqb k kw_comment || match find_elem k (fields_of h) with Some f => negb (f_list f) | None => false end)) (keywords h).
Lemma header_first c h : In c root_classes -> header_of c h -> exists s rest, e_subs (tree_of c) = s :: rest /\ head_ok h s = true /\
  forallb (fun k => negb (mem_str k (deleted_keywords c))) (keywords h) = true.
Proof.
  assert (X : forall c, In c root_classes -> forall f, In f (fields_of c) -> f_name f = "header" -> forall h, f_ty f = TCls h ->
    exists s rest, e_subs (tree_of c) = s :: rest /\ head_ok h s = true /\ forallb (fun k => negb (mem_str k (deleted_keywords c))) (keywords h) = true).
  { intros c' H. repeat (destruct H as [<-|H]; [intros f I0 En h' Et; vm_compute in I0;
      repeat (destruct I0 as [<-|I0]; [try discriminate En; injection Et as <-; do 2 eexists; (split; [vm_compute; reflexivity|split; vm_compute; reflexivity])|]); destruct I0|]).
    destruct H. }
  intros Hc [f [I0 [En Et]]]. exact (X c Hc f I0 En h Et).
Qed.

(* the lines of a header with repetitions *)
Lemma head_range T ks k R : In kw_comment T -> 1 < List.length T -> (forall t, In t T -> mem_char c_sp t = false) ->
  incl (ks ++ [k]) T -> ~ In k ks -> k <> kw_comment -> (forall t, t <> kw_comment -> times t ks <= 2) ->
  (forall t, In t R -> In t T -> t <> kw_comment -> In t (ks ++ [k])) ->
  get_min_max T 2 (lit "id" :: lit "version" :: (ks ++ [k]) ++ R) None false = Ok ((2, 2 + List.length (ks ++ [k])), T).
Proof.
  intros Tc Tl Ts Ti Nk Kc Tw Rt. set (K := ks ++ [k]) in *. set (keys := lit "id" :: lit "version" :: K ++ R).
  assert (LK : List.length K = S (List.length ks)) by (unfold K; rewrite app_length; cbn; lia).
  assert (Kn : forall i, i < List.length K -> nth_error keys (2 + i) = nth_error K i) by (intros i Hi; cbn; apply nth_error_app1; exact Hi).
  assert (Fi : forall t, In t K -> exists i, index_start t keys 2 = Some (2 + i) /\ i < List.length K /\ nth_error K i = Some t /\ forall j, nth_error K j = Some t -> i <= j).
  { intros t Ht. unfold index_start. change (skipn 2 keys) with (K ++ R). destruct (index_from_in t 2 K Ht) as [j Hj]. pose proof (index_from_bounds _ _ _ _ Hj) as Bj.
    exists (j - 2). rewrite (index_from_app_some _ _ _ _ _ Hj). split; [f_equal; lia|]. split; [lia|]. split; [apply index_from_nth; exact Hj|].
    intros m Hm. clear - Hj Hm. revert m Hm Hj. generalize 2. intros n. revert n. induction K as [|a K IH]; intros n m Hm Hj; [discriminate|]. cbn [index_from] in Hj.
    destruct (str_eqb a t) eqn:E; [injection Hj as <-; lia|]. destruct m as [|m]; [cbn in Hm; injection Hm as ->; rewrite str_eqb_refl in E; discriminate|]. specialize (IH (S n) m Hm Hj). lia. }
  assert (In0 : forall i, In i (index_list0 T 2 keys) <-> exists t, In t K /\ t <> kw_comment /\ index_start t keys 2 = Some i).
  { intros i. rewrite index_list0_in. split; intros [t [H1 [H2 H3]]]; exists t; split; auto.
    unfold index_start in H3. change (skipn 2 keys) with (K ++ R) in H3. destruct (in_dec (list_eq_dec N.eq_dec) t (K ++ R)) as [Y|Y]; [|rewrite index_from_none in H3 by exact Y; discriminate].
    apply in_app_or in Y. destruct Y as [Y|Y]; [exact Y|]. apply Rt; assumption. }
  assert (Ik : In (2 + List.length ks) (index_list0 T 2 keys)).
  { apply In0. exists k. assert (IK : In k K) by (apply in_or_app; right; left; reflexivity). split; [exact IK|]. split; [exact Kc|]. destruct (Fi k IK) as [i [E [L [N _]]]]. rewrite E. f_equal. f_equal.
    destruct (Nat.eq_dec i (List.length ks)) as [->|Ni]; [reflexivity|]. exfalso. apply Nk. apply nth_error_In with i. unfold K in N. rewrite nth_error_app1 in N by lia. exact N. }
  assert (B0 : forall i, In i (index_list0 T 2 keys) -> 2 <= i < 2 + List.length K).
  { intros i Hi. apply In0 in Hi. destruct Hi as [t [H1 [_ H3]]]. destruct (Fi t H1) as [j [E [L _]]]. rewrite E in H3. apply some_inj in H3. lia. }
  assert (N0 : index_list0 T 2 keys <> []) by (intros X; rewrite X in Ik; destruct Ik).
  assert (M0 : list_max (index_list0 T 2 keys) + 1 = 2 + List.length K).
  { pose proof (list_max_ge _ _ Ik) as G1. pose proof (B0 _ (list_max_in _ N0)) as G2. lia. }
  unfold get_min_max. cbn [extend_tags]. unfold process_comment_lines. apply mem_str_spec in Tc. rewrite Tc. replace (Nat.eqb (List.length T) 1) with false by (symmetry; apply Nat.eqb_neq; lia).
  set (il := index_list0 T 2 keys ++ comment_indexes keys 2 (list_max (index_list0 T 2 keys) + 1)).
  assert (Ep : match index_list0 T 2 keys with [] => Ok (index_list0 T 2 keys) | _ :: _ => Ok il end = Ok il)
    by (destruct (index_list0 T 2 keys); [congruence|reflexivity]).
  rewrite Ep. cbn [bind].
  assert (Il : forall i, In i il <-> (exists t, In t K /\ t <> kw_comment /\ index_start t keys 2 = Some i) \/ (2 <= i < 2 + List.length K /\ nth_error keys i = Some kw_comment)).
  { intros i. unfold il. rewrite in_app_iff, In0, comment_indexes_in, M0. reflexivity. }
  assert (Bi : forall i, In i il -> 2 <= i < 2 + List.length K).
  { intros i Hi. unfold il in Hi. apply in_app_or in Hi. destruct Hi as [Hi|Hi]; [apply B0; exact Hi|]. apply comment_indexes_in in Hi. lia. }
  assert (Ikl : In (2 + List.length ks) il) by (apply in_or_app; left; exact Ik).
  assert (Ne : il <> []) by (intros X; rewrite X in Ikl; destruct Ikl).
  assert (I2 : In 2 il).
  { apply Il. destruct (nth_error K 0) as [t|] eqn:E0; [|apply nth_error_None in E0; lia]. destruct (list_eq_dec N.eq_dec t kw_comment) as [->|Nt].
    - right. split; [lia|]. rewrite <- E0. apply (Kn 0). lia.
    - left. exists t. split; [apply nth_error_In with 0; exact E0|]. split; [exact Nt|]. destruct (Fi t (nth_error_In _ _ E0)) as [i [E [_ [_ Mn]]]]. rewrite E. f_equal.
      specialize (Mn 0 E0). lia. }
  assert (Mi : list_min il = 2).
  { pose proof (list_min_le _ _ I2) as G1. pose proof (Bi _ (list_min_in _ Ne)) as G2. lia. }
  assert (Ma : list_max il + 1 = 2 + List.length K).
  { pose proof (list_max_ge _ _ Ikl) as G1. pose proof (Bi _ (list_max_in _ Ne)) as G2. lia. }
  assert (Gap : forall i t, 2 <= i < 2 + List.length K -> ~ In i il -> nth_error keys i = Some t -> t <> kw_comment /\ In t T /\ nth_error K (i - 2) = Some t /\
            exists j, j < i - 2 /\ nth_error K j = Some t).
  { intros i t Hi Ni Ht. assert (Hk : nth_error K (i - 2) = Some t) by (rewrite <- Kn by lia; replace (2 + (i - 2)) with i by lia; exact Ht).
    assert (Tn : t <> kw_comment) by (intros ->; apply Ni, Il; right; auto). assert (It : In t K) by (apply nth_error_In with (i - 2); exact Hk).
    split; [exact Tn|]. split; [apply Ti; exact It|]. split; [exact Hk|]. destruct (Fi t It) as [j [E [L [N Mn]]]]. exists j. split; [|exact N]. specialize (Mn _ Hk).
    destruct (Nat.eq_dec j (i - 2)) as [->|]; [|lia]. exfalso. apply Ni, Il. left. exists t. split; [exact It|]. split; [exact Tn|]. rewrite E. f_equal. lia. }
  rewrite (range_whole il 2 keys Ne).
  - cbn [bind]. rewrite Mi, Ma. reflexivity.
  - intros i Hi. apply Bi in Hi. unfold keys. cbn [List.length]. rewrite app_length. lia.
  - rewrite Mi. intros i t Hi Ni Ht. apply Ts. apply (Gap i t); [lia|exact Ni|exact Ht].
  - rewrite Mi. intros i j t L1 L2 Ni Nj Hi Hj. destruct (Gap i t) as [Tn [_ [G1 [m [Lm Gm]]]]]; [lia|exact Ni|exact Hi|]. destruct (Gap j t) as [_ [_ [G2 _]]]; [lia|exact Nj|exact Hj|].
    assert (T3 : 3 <= times t K) by (apply (times_three t K m (i - 2) (j - 2)); auto; lia). unfold K in T3. rewrite times_split in T3. pose proof (Tw t Tn) as T2.
    unfold times at 2 in T3. cbn [count_occ] in T3. destruct (list_eq_dec N.eq_dec k t) as [->|_]; [|lia]. rewrite (proj1 (count_occ_not_In _ ks t) Nk : times t ks = 0) in T3. lia.
Qed.

Lemma names_lex rs ks : names rs ks -> keys_of (filter_map lex_line rs) = ks.
Proof.
  induction 1 as [|r rs ks B _ IH|r rs k ks H _ IH]; [reflexivity| |]; cbn [filter_map].
  - rewrite lex_line_blank by exact B. exact IH.
  - apply heads_lex in H. destruct H as [vs ->]. unfold keys_of in *. cbn [map key_of hd]. f_equal. exact IH.
Qed.
Lemma fold_stops {A B} (f : res A -> B -> res A) l : (forall e s, f (Err e) s = Err e) -> forall e, fold_left f l (Err e) = Err e.
Proof. intros H. induction l as [|b l IH]; intros e; [reflexivity|]. cbn [fold_left]. rewrite H. apply IH. Qed.

Lemma read_repeated u c h id vs Hl R ks k t :
  In c root_classes -> header_of c h -> find_element (lit id) = Some c -> keys_of Hl = ks ++ [k] -> incl (ks ++ [k]) (keywords h) -> ~ In k ks -> k <> kw_comment ->
  (forall t, t <> kw_comment -> times t ks <= 2) -> (forall t, In t (keys_of R) -> In t (keywords h) -> t <> kw_comment -> In t (ks ++ [k])) ->
  t <> kw_comment -> 2 <= times t ks -> forall v, read_lines u ([lit "id"; lit id] :: (lit "version" :: vs) :: Hl ++ R) <> Ok v.
Proof.
  intros Hc Hh Fe EK Ti Nk Kc Tw Rt Tc T2 v. unfold read_lines.
  assert (Et : forall l, identify_data_type ([lit "id"; lit id] :: l) = guard_opt (find_element (lit id)) AttributeError) by reflexivity. rewrite Et, Fe. cbn [guard_opt bind].
  destruct (header_first c h Hc Hh) as [s [rest [Es [Ho Dh]]]]. rewrite forallb_forall in Dh.
  assert (Hd : forall l, In l Hl -> In (key_of l) (keywords h)).
  { intros l Hi. apply Ti. rewrite <- EK. apply in_map. exact Hi. }
  destruct (deleted_root c Hc) as [D0 D1].
  assert (Ed : delete_keywords c ([lit "id"; lit id] :: (lit "version" :: vs) :: Hl ++ R) = [lit "id"; lit id] :: (lit "version" :: vs) :: Hl ++ delete_keywords c R).
  { unfold delete_keywords. cbn [filter key_of hd]. rewrite D0, D1. cbn [negb]. rewrite filter_app. do 3 f_equal. clear - Hd Dh. induction Hl as [|l Hl IH]; [reflexivity|]. cbn [filter].
    rewrite (Dh (key_of l)) by (apply Hd; left; reflexivity). f_equal. apply IH. intros m Hm. apply Hd. right. exact Hm. }
  rewrite Ed. clear Ed Et. set (R' := delete_keywords c R).
  assert (Rt' : forall t, In t (keys_of R') -> In t (keywords h) -> t <> kw_comment -> In t (ks ++ [k])).
  { intros x Hx. apply Rt. unfold R', delete_keywords, keys_of in *. apply in_map_iff in Hx. destruct Hx as [l [<- Hx]]. apply filter_In in Hx. apply in_map. apply Hx. }
  rewrite (init_object_map_ok c Hc). cbn [bind]. set (L := [lit "id"; lit id] :: (lit "version" :: vs) :: Hl ++ R').
  assert (Kl : keys_of L = lit "id" :: lit "version" :: (ks ++ [k]) ++ keys_of R').
  { unfold L, keys_of. cbn [map key_of hd]. rewrite map_app. unfold keys_of in EK. rewrite EK. reflexivity. }
  destruct (root_tree c Hc) as [Ec [Esi [Ek [_ [Em [O [Rk [[vars [P N]] _]]]]]]]]. set (e := tree_of c) in *.
  assert (Cl : claims [lit "id"; lit "version"] [lit "id"; lit "version"] ((ks ++ [k]) ++ keys_of R')).
  { exists 0, [lit "id"; lit "version"]. split; [reflexivity|]. split; [discriminate|].
    split; [constructor; [|constructor; [|constructor]]; cbn; [intros [Y|[]]; vm_compute in Y; discriminate|intros []]|].
    split; [apply incl_refl|]. split; [intros [Y|[Y|[]]]; vm_compute in Y; discriminate|]. split; [congruence|].
    split; [discriminate|]. auto. }
  assert (Or : forall l, own_range u e (keys_of L) l 0 = Ok ((0, 2), e)).
  { intros l. rewrite (own_range_ordinary u e _ _ 0 (0, 2) (e_kws e)); [rewrite set_kws_same; reflexivity|rewrite Ec; exact O|exact Esi|].
    rewrite Kl, Ek. exact (claims_range _ _ _ false Cl). }
  unfold head_ok in Ho. apply andb_true_iff in Ho; destruct Ho as [Ho H0]. apply andb_true_iff in Ho; destruct Ho as [Ho H1]. apply andb_true_iff in Ho; destruct Ho as [Ho H2].
  apply andb_true_iff in Ho; destruct Ho as [Ho H3]. apply andb_true_iff in Ho; destruct Ho as [Ho H4]. apply andb_true_iff in Ho; destruct Ho as [Ho H5].
  apply andb_true_iff in Ho; destruct Ho as [Ho H6]. apply andb_true_iff in Ho; destruct Ho as [Ho H7]. apply andb_true_iff in Ho; destruct Ho as [Ho H8].
  apply String.eqb_eq in Ho. destruct (e_subs s) as [|] eqn:Ss; [|discriminate]. destruct (e_single s) eqn:Sg; [discriminate|]. apply negb_true_iff in H6.
  unfold same_strs in H4. destruct (list_eq_dec (list_eq_dec N.eq_dec) (e_kws s) (keywords h)) as [Kw|]; [|discriminate]. apply mem_str_spec in H3. apply Nat.ltb_lt in H2. apply negb_true_iff in H1.
  rewrite forallb_forall in H0. clear H4.
  assert (Sp : forall t, In t (keywords h) -> mem_char c_sp t = false).
  { intros x Hx. specialize (H0 x Hx). apply andb_true_iff in H0. destruct H0 as [H0 _]. apply negb_true_iff. exact H0. }
  assert (Hr : own_range u s (keys_of L) L 2 = Ok ((2, 2 + List.length (ks ++ [k])), s)).
  { rewrite (own_range_ordinary u s _ _ 2 (2, 2 + List.length (ks ++ [k])) (e_kws s)); [rewrite set_kws_same; reflexivity|rewrite Ho; exact H5|exact Sg|].
    rewrite Kl, Kw. apply head_range; assumption. }
  assert (Ln : 0 < List.length (ks ++ [k])) by (rewrite app_length; cbn; lia).
  unfold identify_segments. rewrite identify_eq, Or. cbn [bind fst snd]. rewrite Es. cbn [ident_subs]. rewrite H6, identify_eq, Hr, Ss. cbn [bind fst snd].
  replace (Nat.eqb 2 (2 + List.length (ks ++ [k]))) with false by (symmetry; apply Nat.eqb_neq; lia). cbn [andb bind].
  destruct (ident_subs u (keys_of L) L 0 rest (2 + List.length (ks ++ [k]))) as [[mx gs]|x]; [|discriminate]. cbn [bind fst snd].
  set (s' := set_mm s (2, 2 + List.length (ks ++ [k]))). set (e' := set_mm (set_subs e (s' :: gs)) (0, 2)).
  assert (Bs : forall n, exists x, build u (S n) L s' L = Err x).
  { intros n. assert (Sl : slice 2 (2 + List.length (ks ++ [k])) L = Hl).
    { unfold slice, L. cbn [skipn]. rewrite <- EK. unfold keys_of. rewrite map_length. replace (2 + List.length Hl - 2) with (List.length Hl) by lia. rewrite firstn_app, Nat.sub_diag, firstn_all. cbn [firstn]. apply app_nil_r. }
    assert (Fl : filter (fun l => mem_str (key_of l) (keywords h)) Hl = Hl).
    { clear - Hd. induction Hl as [|l Hl IH]; [reflexivity|]. cbn [filter]. rewrite (proj2 (mem_str_spec _ _) (Hd l (or_introl eq_refl))). f_equal. apply IH. intros m Hm. apply Hd. right. exact Hm. }
    destruct (ordinary_spec _ H5) as [A1 [A2 [A3 [A4 [A5 A6]]]]]. cbn [build]. change (e_cls s') with (e_cls s). change (e_mm s') with (2, 2 + List.length (ks ++ [k])).
    change (e_subs s') with (e_subs s). change (e_kws s') with (e_kws s). change (e_single s') with (e_single s). rewrite Ho, A1, A2, A3, A4, A5, A6, Ss, Sg. cbn [fst snd].
    change (match e_kws s with [a; b] => str_eqb a (lit "id") && str_eqb b (lit "version") | _ => false end) with (root_kws (e_kws s)). rewrite H1, Kw.
    match goal with |- context [@slice ?T 2 ?b L] => set (q := @slice T 2 b L); assert (Eq : q = Hl) by exact Sl end. rewrite Eq. clear q Eq Sl.
    match goal with |- context [@filter ?T ?f Hl] => set (q := @filter T f Hl); assert (Eq : q = Hl) by exact Fl end. rewrite Eq. clear q Eq Fl.
    destruct Hl as [|l0 Hl0] eqn:EH; [exfalso; clear - EK Ln; rewrite <- EK in Ln; cbn in Ln; lia|]. rewrite <- EH in *.
    destruct (parse_list u h None Hl) as [o|x] eqn:Pl; [|exists x; reflexivity]. exfalso.
    assert (It : In t (keywords h)) by (apply Ti, in_or_app; left; apply times_in; lia). specialize (H0 t It). apply andb_true_iff in H0. destruct H0 as [_ H0].
    rewrite (proj2 (str_eqb_neq _ _) Tc) in H0. cbn [orb] in H0. destruct (find_elem t (fields_of h)) as [f|] eqn:Ff; [|discriminate]. apply negb_true_iff in H0.
    pose proof (parse_once u h Hl o t f Pl Ff H0) as T1. rewrite EK, times_split in T1. lia. }
  unfold build_object. assert (Dp : exists n, depth e' = S n) by (eexists; reflexivity). destruct Dp as [n ->]. destruct (Bs n) as [x Bx]. remember (S n) as m eqn:Em2. cbn [build].
  destruct (ordinary_spec _ O) as [A1 [A2 [A3 [A4 [A5 A6]]]]].
  assert (Ec' : e_cls e' = c) by exact Ec. assert (Ek' : e_kws e' = [lit "id"; lit "version"]) by exact Ek.
  assert (Em' : e_mm e' = (0, 2)) by reflexivity. assert (Eg : e_subs e' = s' :: gs) by reflexivity.
  rewrite Ec', Ek', Em', Eg, A1, A2, A3, A4, A5, A6. cbn [fst snd].
  assert (Fl : forall X : res pyval, (do obj <- X; match obj with
              | VObj c0 vars0 => do vars' <- fold_left (fun acc s0 => do vs0 <- acc; do sub <- build u m L s0 L; attach (e_name s0) sub vs0) (s' :: gs) (Ok vars0); Ok (VObj c0 vars')
              | _ => Err AttributeError end) <> Ok v).
  { intros [o|y]; [|discriminate]. destruct o; try discriminate. cbn [bind fold_left]. rewrite Bx. cbn [bind]. rewrite fold_stops by reflexivity. discriminate. }
  destruct (slice 0 2 L); destruct (filter _ _); apply Fl.
Qed.

(* A header keyword that stands on two lines within the header makes the text unreadable, for every kind of message.
   The lines of the header are those up to [k], a keyword said once; the full claim - any header keyword on two lines, anywhere
   in the text, is an error - is refuted below. *)
Theorem C51_repeated_header_partial : forall u c id h blanks first hs ks k t after,
  In c root_classes -> class_fixed c "id" = Some id -> header_of c h -> Forall blank blanks -> heads first (lit id) ->
  names hs (ks ++ [k]) -> incl (ks ++ [k]) (keywords h) -> k <> kw_comment -> ~ In k ks ->
  (forall x, x <> kw_comment -> times x ks <= 2) -> t <> kw_comment -> times t ks = 2 ->
  (forall r x, In r after -> heads r x -> In x (keywords h) -> x <> kw_comment -> In x (ks ++ [k])) ->
  Forall one_line (blanks ++ first :: hs ++ after) ->
  forall v, kvn_from_string u (text_of (blanks ++ first :: hs ++ after)) <> Ok v.
Proof.
  intros u c id h blanks first hs ks k t after Hc Ei Hh Bb Hf Hn Ti Kc Nk Tw Tc T2 Ra O v.
  apply heads_lex in Hf. destruct Hf as [vs Lf]. unfold kvn_from_string, pre_process, text_of. rewrite lex_lines_join; [|destruct blanks; discriminate|exact O].
  rewrite gap_lex by exact Bb. cbn [filter_map]. rewrite Lf, filter_map_app.
  assert (Fe : find_element (lit id) = Some c).
  { clear - Hc Ei. repeat (destruct Hc as [<-|Hc]; [vm_compute in Ei; injection Ei as <-; vm_compute; reflexivity|]). destruct Hc. }
  cbn [split_first bind]. apply (read_repeated u c h id vs _ _ ks k t Hc Hh Fe); try assumption; [apply names_lex; exact Hn| |lia].
  intros x Hx. unfold keys_of in Hx. apply in_map_iff in Hx. destruct Hx as [l [<- Hx]]. apply filter_map_in in Hx. destruct Hx as [r [Ir Hr]].
  destruct (lex_cons r l Hr) as [kk [ww ->]]. cbn [key_of hd]. apply (Ra r). exact Ir. exact (lex_heads r kk ww Hr).
Qed.

(* ---- a header with a repeated date, and two repetitions that pass unnoticed ---- *)
Definition namesb (rs : list str) : list str := filter_map head_of rs.
Lemma names_of rs : names rs (namesb rs).
Proof.
  induction rs as [|r rs IH]; [constructor|]. unfold namesb in *. cbn [filter_map]. destruct (head_of r) as [k|] eqn:E.
  - apply names_line; [apply head_of_heads; exact E|exact IH].
  - apply names_blank; [|exact IH]. unfold head_of in E. destruct (lex_line r) as [[|k vs]|] eqn:L; [|discriminate|].
    + apply lex_cons in L. destruct L as [k [vs L]]. discriminate.
    + unfold lex_line in L. destruct (strip (strip r)) eqn:S; [|discriminate]. rewrite strip_strip in S. destruct (core_split r) as [w1 [w2 [E' [B1 B2]]]]. rewrite S in E'. rewrite E'.
      intros x Hx. apply in_app_or in Hx. destruct Hx as [Hx|Hx]; [apply B1|apply B2]; exact Hx.
Qed.
Definition oem_rest : list str := map lit ["META_START"] ++ oem_lines ++ oem_after.
Lemma oem_header : header_of "Oem" "NdmHeader".
Proof. exists (mkField "header" None false (TCls "NdmHeader") KElem None). split; [vm_compute; auto|split; reflexivity]. Qed.
Lemma incl_strs l m : forallb (fun x => mem_str x m) l = true -> incl l m.
Proof. intros H x Hx. rewrite forallb_forall in H. apply mem_str_spec. apply H. exact Hx. Qed.
Example C51_example : let first := lit "CCSDS_OEM_VERS = 2.0" in
  let hs := map lit ["COMMENT two dates"; "CREATION_DATE = 2005-160"; ""; "CREATION_DATE = 2005-161"; "ORIGINATOR = X"] in
  let ks := map lit ["COMMENT"; "CREATION_DATE"; "CREATION_DATE"] in let k := lit "ORIGINATOR" in
  class_fixed "Oem" "id" = Some "CCSDS_OEM_VERS" /\ header_of "Oem" "NdmHeader" /\ heads first (lit "CCSDS_OEM_VERS") /\
  names hs (ks ++ [k]) /\ incl (ks ++ [k]) (keywords "NdmHeader") /\ ~ In k ks /\ (forall x, x <> kw_comment -> times x ks <= 2) /\ times (lit "CREATION_DATE") ks = 2 /\
  (forall r x, In r oem_rest -> heads r x -> In x (keywords "NdmHeader") -> x <> kw_comment -> In x (ks ++ [k])) /\
  Forall one_line ([] ++ first :: hs ++ oem_rest) /\
  kvn_from_string demo_env (text_of ([] ++ first :: hs ++ oem_rest)) = Err XmlReject /\
  (exists v, kvn_from_string demo_env (text_of ([] ++ first :: map lit ["COMMENT two dates"; "CREATION_DATE = 2005-160"; ""; "ORIGINATOR = X"] ++ oem_rest)) = Ok v).
Proof.
  cbv zeta. split; [vm_compute; reflexivity|]. split; [exact oem_header|]. split; [apply head_of_heads; vm_compute; reflexivity|].
  split. { match goal with |- names ?h ?l => replace l with (namesb h) by (vm_compute; reflexivity) end. apply names_of. }
  split; [apply incl_strs; vm_compute; reflexivity|].
  split; [apply mem_str_false; vm_compute; reflexivity|].
  split. { intros x Nx. destruct (list_eq_dec N.eq_dec (lit "CREATION_DATE") x) as [<-|Nd]; [vm_compute; lia|].
    assert (Z : ~ In x (map lit ["COMMENT"; "CREATION_DATE"; "CREATION_DATE"])) by (cbn [map In]; intros [Z|[Z|[Z|[]]]]; [apply Nx; rewrite <- Z; vm_compute; reflexivity|exact (Nd Z)|exact (Nd Z)]).
    unfold times. rewrite (proj1 (count_occ_not_In _ _ x) Z). lia. }
  split; [vm_compute; reflexivity|].
  split. { intros r x Ir Hr Hx Nc. exfalso. revert Hr. apply (awayb_spec (keywords "NdmHeader") oem_rest); [vm_compute; reflexivity|exact Hx|exact Ir]. }
  split; [apply Forall_forall; intros s Hs; repeat (destruct Hs as [<-|Hs]; [apply no_charb_spec; reflexivity|]); destruct Hs|].
  split; [vm_compute; reflexivity|]. eexists. vm_compute. reflexivity.
Qed.
(* the date is said again after the last new keyword: the second date is ignored *)
Theorem C51_trailing_refuted : let first := lit "CCSDS_OEM_VERS = 2.0" in
  let hs := map lit ["CREATION_DATE = 2005-160"; "ORIGINATOR = X"; "CREATION_DATE = 2005-161"] in
  names hs (map lit ["CREATION_DATE"; "ORIGINATOR"; "CREATION_DATE"]) /\ incl (map lit ["CREATION_DATE"; "ORIGINATOR"]) (keywords "NdmHeader") /\
  exists v, kvn_from_string demo_env (text_of (first :: hs ++ oem_rest)) = Ok v /\ at_path ["header"; "creation_date"] v = Some (VStr (lit "2005-160")).
Proof.
  cbv zeta. split. { match goal with |- names ?h ?l => replace l with (namesb h) by (vm_compute; reflexivity) end. apply names_of. }
  split; [apply incl_strs; vm_compute; reflexivity|]. eexists. split; vm_compute; reflexivity.
Qed.
(* the date is said three times: the first is kept, and the originator is lost *)
Theorem C51_thrice_refuted : let first := lit "CCSDS_OEM_VERS = 2.0" in
  let hs := map lit ["CREATION_DATE = 2005-160"; "CREATION_DATE = 2005-161"; "CREATION_DATE = 2005-162"; "ORIGINATOR = X"] in
  names hs (map lit ["CREATION_DATE"; "CREATION_DATE"; "CREATION_DATE"; "ORIGINATOR"]) /\ incl (map lit ["CREATION_DATE"; "ORIGINATOR"]) (keywords "NdmHeader") /\
  exists v, kvn_from_string demo_env (text_of (first :: hs ++ oem_rest)) = Ok v /\ at_path ["header"; "creation_date"] v = Some (VStr (lit "2005-160")) /\
    at_path ["header"; "originator"] v = Some VNone.
Proof.
  cbv zeta. split. { match goal with |- names ?h ?l => replace l with (namesb h) by (vm_compute; reflexivity) end. apply names_of. }
  split; [apply incl_strs; vm_compute; reflexivity|]. eexists. split; [vm_compute; reflexivity|]. split; vm_compute; reflexivity.
Qed.
Print Assumptions C51_repeated_header_partial.
