(* Two neighbouring lines of one section may change places: what is read stays the same. *)
From Coq Require Import NArith ZArith List Bool String Arith Lia Permutation.
From Verif Require Import PyStr PyDec PyVal Schema KvnPre KvnTree KvnSeg XmlBind KvnBuild
     Spec SpecKvn SpecObj SpecMsg SpecDoc SpecFrom StrFacts PreFacts SegFacts BuildFacts ReadFacts GapFacts ComposeFacts CheckFacts OrderFacts PropFrom Demo SpecOrder.
Import ListNotations.
Local Open Scope string_scope.
Local Open Scope list_scope.
Local Arguments find_class : simpl never.
Local Arguments lit : simpl never.

(* ---- the object maps and the classes of a message ---- *)
Definition same_strs (x y : list str) : bool := if list_eq_dec (list_eq_dec N.eq_dec) x y then true else false.
Fixpoint nodup_strs (l : list str) : bool := match l with [] => true | x :: r => negb (mem_str x r) && nodup_strs r end.
Lemma nodup_strs_spec l : nodup_strs l = true -> NoDup l.
Proof.
  induction l as [|x l IH]; intros H; constructor; cbn in H; apply andb_true_iff in H; destruct H as [H1 H2]; [|apply IH; exact H2].
  apply negb_true_iff in H1. apply mem_str_false. exact H1.
Qed.
Definition sub_ok (k : string) (s : elem) : bool :=
  existsb (fun f => match f_ty f with TCls d => String.eqb d (e_cls s) | _ => false end) (fields_of k).
Definition elem_chk (c : string) (e : elem) : bool :=
  let k := e_cls e in
  (negb (rec1 k) || String.eqb c "Tdm") &&
  (negb (String.eqb k "OemCovarianceMatrixType") || String.eqb c "Oem") &&
  (negb (String.eqb k "UserDefinedType") || forallb (fun t => str_eqb t kw_comment || startswith (lit "USER_DEFINED") t) (e_kws e)) &&
  (String.eqb k c || match e_single e with None => same_strs (e_kws e) (keywords k) && nodup_strs (e_kws e) | Some _ => forallb (fun t => mem_str t (attribute_words k)) (e_kws e) end) &&
  (negb (String.eqb k "AttitudeStateType") || forallb (fun s => forallb (fun z => negb (String.eqb (e_cls z) "AemSegment")) (all_elems s)) (e_subs e)) &&
  forallb (sub_ok k) (e_subs e).
Definition tree_chk (c : string) : bool :=
  forallb (elem_chk c) (all_elems (tree_of c)) && String.eqb (e_cls (tree_of c)) c && same_strs (e_kws (tree_of c)) [lit "id"; lit "version"] &&
  forallb (fun s => forallb (fun z => negb (String.eqb (e_cls z) c)) (all_elems s)) (e_subs (tree_of c)).
Lemma tree_checked c : In c root_classes -> tree_chk c = true.
Proof. intros H. repeat (destruct H as [<-|H]; [vm_compute; reflexivity|]). destruct H. Qed.
Lemma root_single c : In c root_classes -> e_single (tree_of c) = None.
Proof. intros H. repeat (destruct H as [<-|H]; [vm_compute; reflexivity|]). destruct H. Qed.
Lemma within_elems c e : forallb (elem_chk c) (all_elems e) = true -> within c (e_cls e) -> forall z, In z (all_elems e) -> within c (e_cls z).
Proof.
  induction e as [n k subs kw l sg m t F] using elem_ind'. intros H W z Hz. rewrite all_elems_eq in *. destruct Hz as [<-|Hz]; [exact W|].
  cbn [forallb] in H. apply andb_true_iff in H. destruct H as [H1 H2]. apply in_flat_map in Hz. destruct Hz as [s [Hs Hz]]. cbn [e_subs] in *.
  rewrite Forall_forall in F. apply (F s Hs); [| |exact Hz].
  - rewrite forallb_forall in H2 |- *. intros v Hv. apply H2. apply in_flat_map. exists s. split; assumption.
  - unfold elem_chk in H1. cbn [e_cls e_subs] in H1. apply andb_true_iff in H1. destruct H1 as [_ H1]. rewrite forallb_forall in H1. specialize (H1 s Hs).
    unfold sub_ok in H1. apply existsb_exists in H1. destruct H1 as [f [Hf E]]. destruct (f_ty f) as [| | |d] eqn:Et; try discriminate. apply String.eqb_eq in E.
    subst d. apply (within_field c k f); [exact W|exact Hf|exact Et].
Qed.

(* ---- keywords ---- *)
Definition first_token (k : str) : str := match split_ws k with t :: _ => t | [] => [] end.
Definition kw_chk (u : env) (k : str) : bool :=
  negb (float_ok u (first_token k)) && negb (isnumeric u (firstn 4 (first_token k))) && match split_ws k with [] => false | _ => true end &&
  negb (str_eqb k (lit "id")) && negb (str_eqb k (lit "version")) && forallb (fun c => negb (mem_str k (deleted_keywords c))) root_classes.
Definition all_keywords : list str := flat_map (fun p => keywords (fst p)) schema.
Lemma keywords_checked u : forallb (kw_chk u) all_keywords = true.
Proof. vm_compute. reflexivity. Qed.
Lemma keyword_chk u k a : In a (keywords k) -> kw_chk u a = true.
Proof.
  intros H. pose proof (keywords_checked u) as W. rewrite forallb_forall in W. apply W. unfold all_keywords. apply in_flat_map.
  assert (X : exists d, find_class k = Some d).
  { unfold keywords, fields_of in H. destruct (find_class k) as [d|]; [exists d; reflexivity|destruct H]. }
  destruct X as [d X]. apply assoc_in in X. exists (k, d). split; [exact X|exact H].
Qed.

(* ---- lines ---- *)
Lemma heads_lex raw k : heads raw k -> exists vs, lex_line raw = Some (k :: vs).
Proof.
  intros [p q k0 Np C Nc|p k0 Np C Ne Nc|w b B].
  - apply strip_of_core in C. subst k0. rewrite lex_line_eq; [eexists; reflexivity|exact Np|apply startswith_false; exact Nc].
  - apply strip_of_core in C. subst k0. rewrite lex_line_nonblank by exact Ne. rewrite (proj2 (startswith_false _ _) Nc). unfold lex_data.
    rewrite split_once_no; [cbn [map]; rewrite strip_strip; eexists; reflexivity|]. intros H. apply Np. destruct (core_split p) as [w1 [w2 [E _]]]. rewrite E.
    apply in_or_app. right. apply in_or_app. left. exact H.
  - replace (w ++ kw_comment ++ b) with (w ++ (kw_comment ++ b) ++ []) by (rewrite app_nil_r; reflexivity). rewrite lex_line_pad; [|exact B|intros c []].
    rewrite lex_line_comment_gen. eexists. reflexivity.
Qed.
Lemma lex_heads raw k vs : lex_line raw = Some (k :: vs) -> heads raw k.
Proof.
  intros H. destruct (startswith kw_comment (strip raw)) eqn:S.
  - assert (Nb : strip raw <> []) by (intros E; rewrite E in S; discriminate). rewrite lex_line_nonblank in H by exact Nb. rewrite S in H.
    apply startswith_spec in S. destruct S as [t S]. destruct (core_split raw) as [w1 [w2 [E [B1 B2]]]]. rewrite E, S. rewrite <- app_assoc.
    unfold lex_comment in H. cbn [map] in H. apply some_inj in H. injection H as Hk _. replace k with kw_comment by (rewrite <- Hk; reflexivity). apply heads_comment. exact B1.
  - destruct (split_once_cases c_eq raw) as [[N _]|[p [q [N [E _]]]]].
    + assert (Nb : strip raw <> []) by (intros E; unfold lex_line in H; rewrite E in H; discriminate). rewrite lex_line_nonblank in H by exact Nb. rewrite S in H.
      unfold lex_data in H. rewrite split_once_no in H; [|intros X; apply N; destruct (core_split raw) as [w1 [w2 [E _]]]; rewrite E; apply in_or_app; right; apply in_or_app; left; exact X].
      cbn [map] in H. rewrite strip_strip in H. apply some_inj in H. injection H as <- _. apply heads_bare; [exact N|apply strip_core|exact Nb|apply startswith_false; exact S].
    + subst raw. assert (Sc : startswith kw_comment (strip p) = false).
      { rewrite strip_app_nonblank in S by reflexivity. rewrite startswith_app_stop in S by (apply no_charb_spec; reflexivity). rewrite startswith_comment_lstrip in S. exact S. }
      rewrite lex_line_eq in H by assumption. apply some_inj in H. injection H as <- _. apply heads_eq; [exact N|apply strip_core|apply startswith_false; exact Sc].
Qed.
Lemma letter_ws c : letter c -> is_ws c = false /\ c <> c_lbr /\ (c < 128)%N /\ is_digit c = false.
Proof.
  intros L. split.
  - destruct (is_ws c) eqn:E; [|reflexivity]. exfalso. unfold letter in L. unfold is_ws, in_range in E.
    repeat (apply orb_true_iff in E; destruct E as [E|E]); rewrite ?andb_true_iff, ?N.leb_le, ?N.eqb_eq in E; lia.
  - unfold letter in L. split; [intros ->; vm_compute in L; destruct L as [[? ?]|[? ?]]; congruence|]. split; [lia|]. unfold is_digit, in_range.
    apply not_true_is_false. intros E. apply andb_true_iff in E. rewrite !N.leb_le in E. lia.
Qed.
Lemma first_of_split c t : is_ws c = false -> forall cur, exists d ts, split_ws_aux cur (c :: t) = (rev cur ++ c :: d) :: ts.
Proof.
  revert c. induction t as [|c' t IH]; intros c Hc cur; cbn [split_ws_aux]; rewrite Hc.
  - exists [], []. reflexivity.
  - destruct (is_ws c') eqn:E.
    + exists []. eexists. reflexivity.
    + destruct (IH c' E (c :: cur)) as [d [ts X]]. cbn [split_ws_aux] in X. rewrite E in X. exists (c' :: d), ts. rewrite X. cbn [rev].
      rewrite <- app_assoc. reflexivity.
Qed.
Lemma rstrip_keep w c t : blank w -> is_ws c = false -> exists t', rstrip (w ++ c :: t) = w ++ c :: t'.
Proof. intros B H. rewrite rstrip_app_nonblank by exact H. eexists. reflexivity. Qed.
Lemma strip_lead w c t : blank w -> is_ws c = false -> exists t', strip (w ++ c :: t) = c :: t'.
Proof. intros B H. rewrite strip_app_nonblank by exact H. rewrite lstrip_blank by exact B. eexists. reflexivity. Qed.
Lemma find_past w c t i : blank w -> c <> c_lbr -> find_char c_lbr (w ++ c :: t) = Some i -> exists t', firstn i (w ++ c :: t) = w ++ c :: t'.
Proof.
  intros B N. revert i. induction w as [|x w IH]; intros i; cbn [app find_char].
  - destruct (N.eqb_spec c c_lbr) as [E|_]; [contradiction|]. destruct (find_char c_lbr t) as [j|]; [|discriminate]. intros H. injection H as <-. exists (firstn j t). reflexivity.
  - assert (Bx : is_ws x = true) by (apply B; left; reflexivity). destruct (N.eqb_spec x c_lbr) as [->|_]; [discriminate|].
    assert (Bw : blank w) by (intros y Hy; apply B; right; exact Hy). destruct (find_char c_lbr (w ++ c :: t)) as [j|]; [|discriminate]. intros H. injection H as <-.
    destruct (IH Bw j eq_refl) as [t' E]. exists t'. cbn [firstn]. rewrite E. reflexivity.
Qed.
Lemma worded_undated u r l a : worded r -> lex_line r = Some l -> key_of l = a -> ~ begins kw_comment a -> undated u 1 l.
Proof.
  intros [p [w [c [t [-> [Np [B L]]]]]]] H K Nc. destruct (letter_ws c L) as [W [Nl [A D]]].
  assert (Sc : startswith kw_comment (strip p) = false).
  { destruct (startswith kw_comment (strip p)) eqn:S; [|reflexivity]. exfalso. apply Nc.
    assert (S' : startswith kw_comment (strip (p ++ c_eq :: w ++ c :: t)) = true).
    { rewrite strip_app_nonblank by reflexivity. rewrite startswith_app_stop by (apply no_charb_spec; reflexivity). rewrite startswith_comment_lstrip. exact S. }
    assert (Nb : strip (p ++ c_eq :: w ++ c :: t) <> []) by (intros E; rewrite E in S'; discriminate). rewrite lex_line_nonblank in H by exact Nb. rewrite S' in H.
    apply some_inj in H. subst l. cbn in K. subst a. exists []. reflexivity. }
  rewrite lex_line_eq in H by assumption. apply some_inj in H. subst l. unfold undated.
  assert (V : exists s r, map strip (split_value (rstrip (w ++ c :: t))) = s :: r /\ exists t', s = c :: t').
  { destruct (rstrip_keep w c t B W) as [t1 ->]. unfold split_value. destruct (endswith _ _).
    - destruct (find_char c_lbr (w ++ c :: t1)) as [i|] eqn:F.
      + destruct (find_past w c t1 i B Nl F) as [t2 ->]. destruct (strip_lead w c t2 B W) as [t3 E]. cbn [map]. rewrite E. do 2 eexists. split; [reflexivity|eexists; reflexivity].
      + destruct (strip_lead w c t1 B W) as [t3 E]. cbn [map]. rewrite E. do 2 eexists. split; [reflexivity|eexists; reflexivity].
    - destruct (strip_lead w c t1 B W) as [t3 E]. cbn [map]. rewrite E. do 2 eexists. split; [reflexivity|eexists; reflexivity]. }
  destruct V as [s [r' [-> [t' ->]]]]. destruct (first_of_split c t' W []) as [d [ts E]]. cbn [rev app] in E. exists (c :: t'), (c :: d).
  split; [reflexivity|]. split; [unfold split_ws; rewrite E; reflexivity|]. cbn [firstn isnumeric forallb]. unfold is_ascii.
  rewrite (proj2 (N.ltb_lt c 128) A), D. reflexivity.
Qed.

Lemma gap_lex gap rs : Forall blank gap -> filter_map lex_line (gap ++ rs) = filter_map lex_line rs.
Proof. induction 1 as [|w gap B _ IH]; [reflexivity|]. cbn [app filter_map]. rewrite lex_line_blank by exact B. exact IH. Qed.
Lemma filter_map_app {A B} (f : A -> option B) l m : filter_map f (l ++ m) = filter_map f l ++ filter_map f m.
Proof. induction l as [|i l IH]; [reflexivity|]. cbn [app filter_map]. rewrite IH. destruct (f i); reflexivity. Qed.
Lemma lex_cons r l : lex_line r = Some l -> exists k vs, l = k :: vs.
Proof. intros H. destruct l as [|k vs]; [|do 2 eexists; reflexivity]. exfalso. unfold lex_line in H. destruct (strip (strip r)); [discriminate|]. apply some_inj in H.
  destruct (startswith kw_comment (strip r)); [discriminate|]. unfold lex_data in H. destruct (split_once_cases c_eq (strip r)) as [[_ E]|[p [q [_ [_ E]]]]]; rewrite E in H; [discriminate|].
  destruct (endswith _ _); [destruct (find_char _ _)|]; discriminate.
Qed.
Lemma paired_swl a b rs del : mem_str a del = false -> mem_str b del = false -> paired a b rs ->
  let L := filter (fun l => negb (mem_str (key_of l) del)) (filter_map lex_line rs) in swl a b L L.
Proof.
  intros Da Db P. cbv zeta. induction P as [|r rs N1 N2 _ IH|r gap s rs H Bg _ IH].
  - constructor.
  - cbn [filter_map]. destruct (lex_line r) as [l|] eqn:E; [|exact IH]. cbn [filter]. destruct (negb _); [|exact IH]. apply swl_other; [|exact IH].
    destruct (lex_cons r l E) as [k [vs ->]]. cbn [key_of hd]. apply lex_heads in E. intros [-> | ->]; contradiction.
  - assert (X : exists k1 k2 v1 v2, lex_line r = Some (k1 :: v1) /\ lex_line s = Some (k2 :: v2) /\ duo a b k1 k2).
    { destruct H as [[H1 H2]|[H1 H2]]; apply heads_lex in H1, H2; destruct H1 as [v1 H1], H2 as [v2 H2]; do 4 eexists; (split; [exact H1|split; [exact H2|]]); [left|right]; split; reflexivity. }
    destruct X as [k1 [k2 [v1 [v2 [E1 [E2 D]]]]]]. cbn [filter_map]. rewrite E1, gap_lex by exact Bg. cbn [filter_map]. rewrite E2. cbn [filter key_of hd].
    assert (M : mem_str k1 del = false /\ mem_str k2 del = false) by (destruct D as [[-> ->]|[-> ->]]; split; assumption). destruct M as [-> ->]. cbn [negb].
    apply swl_same; [exact D|exact IH].
Qed.

(* ---- reading ---- *)
Section Read.
Variables (c : string) (a b : str).
Hypothesis Hc : In c root_classes.
Hypothesis Tg : together c a b.
Hypothesis Sa : ~ stray c a.
Hypothesis Sb : ~ stray c b.
Definition cols_of (col : nat) : Prop := col = 0 \/ (col = 1 /\ c = "Tdm").
Lemma ab_kw k : is_ab a b k -> exists d, within c d /\ In k (keywords d).
Proof.
  destruct Tg as [_ [_ [_ [[d [W H]] A]]]]. intros [-> | ->]; exists d; (split; [exact W|]); [exact H|]. apply A; assumption.
Qed.
Lemma ab_chk u k : is_ab a b k -> kw_chk u k = true.
Proof. intros H. destruct (ab_kw k H) as [d [_ I]]. exact (keyword_chk u d k I). Qed.
Lemma tree_static : all_static a b cols_of (stray c) (tree_of c).
Proof.
  pose proof (tree_checked c Hc) as W. unfold tree_chk in W. apply andb_true_iff in W. destruct W as [W W4]. apply andb_true_iff in W. destruct W as [W W3].
  apply andb_true_iff in W. destruct W as [W1 W2]. apply String.eqb_eq in W2.
  assert (Wt : forall z, In z (all_elems (tree_of c)) -> within c (e_cls z)) by (apply within_elems; [exact W1|rewrite W2; apply within_self]).
  intros z Hz. specialize (Wt z Hz). pose proof W1 as W1'. rewrite forallb_forall in W1'. specialize (W1' z Hz). unfold elem_chk in W1'. cbv zeta in W1'.
  do 5 (apply andb_true_iff in W1'; destruct W1' as [W1' ?]). rename H into C6, H0 into C5, H1 into C4, H2 into C3, H3 into C2, W1' into C1.
  destruct Tg as [Nab [Ca [Cb [_ Al]]]]. specialize (Al (e_cls z) Wt). destruct Al as [Iff [Aa Ab]].
  assert (Root : e_cls z = c -> e_kws z = [lit "id"; lit "version"] /\ e_single z = None).
  { intros E. rewrite all_elems_eq in Hz. destruct Hz as [<-|Hz].
    - unfold same_strs in W3. destruct (list_eq_dec _ _ _) as [X|]; [|discriminate]. split; [exact X|apply root_single; exact Hc].
    - exfalso. apply in_flat_map in Hz. destruct Hz as [s [Hs Hz]]. rewrite forallb_forall in W4. specialize (W4 s Hs). rewrite forallb_forall in W4. specialize (W4 z Hz).
      rewrite E, String.eqb_refl in W4. discriminate. }
  assert (Idv : forall k, is_ab a b k -> ~ In k [lit "id"; lit "version"]).
  { intros k Hk. pose proof (ab_chk demo_env k Hk) as X. unfold kw_chk in X. do 5 (apply andb_true_iff in X; destruct X as [X ?]).
    apply negb_true_iff in H0, H1. apply str_eqb_neq in H0, H1. intros [Y|[Y|[]]]; congruence. }
  assert (Nor : e_cls z <> c -> e_single z = None -> e_kws z = keywords (e_cls z) /\ NoDup (e_kws z)).
  { intros N E. apply orb_true_iff in C4. destruct C4 as [C4|C4]; [apply String.eqb_eq in C4; contradiction|]. rewrite E in C4. apply andb_true_iff in C4. destruct C4 as [C4 D4].
    unfold same_strs in C4. destruct (list_eq_dec _ _ _) as [X|]; [|discriminate]. split; [exact X|apply nodup_strs_spec; exact D4]. }
  split; [intros _; left; reflexivity|]. split; [intros R; rewrite R in C1; right; split; [reflexivity|apply String.eqb_eq; exact C1]|]. split; [|split].
  - intros Lo. unfold loose in Lo. apply orb_true_iff in Lo. destruct Lo as [Lo|Lo].
    + apply String.eqb_eq in Lo. rewrite Lo in C2. cbn [String.eqb Ascii.eqb Bool.eqb negb orb] in C2. apply String.eqb_eq in C2.
      assert (Ne : e_cls z <> c) by (rewrite Lo, C2; discriminate).
      assert (Sg : e_single z = None).
      { destruct (e_single z) as [n|] eqn:Eg; [|reflexivity]. exfalso. clear - Hz Lo Eg Hc C2. subst c.
        assert (X : forallb (fun z => negb (String.eqb (e_cls z) "OemCovarianceMatrixType" && match e_single z with Some _ => true | None => false end)) (all_elems (tree_of "Oem")) = true) by (vm_compute; reflexivity).
        rewrite forallb_forall in X. specialize (X z Hz). rewrite Lo, Eg in X. discriminate. }
      destruct (Nor Ne Sg) as [K _]. rewrite Lo in K. rewrite K. split.
      * split; intros I0; [apply Sa|apply Sb]; right; split; assumption.
      * intros t I0 _. right. split; assumption.
    + rewrite Lo in C3. cbn [negb orb] in C3. rewrite forallb_forall in C3.
      assert (X : forall t, In t (e_kws z) -> t <> kw_comment -> stray c t).
      { intros t I0 N0. specialize (C3 t I0). apply orb_true_iff in C3. destruct C3 as [C3|C3]; [apply str_eqb_eq in C3; contradiction|]. left. apply startswith_spec. exact C3. }
      split; [split; intros I0; [apply Sa|apply Sb]; apply X; assumption|exact X].
  - intros _ _ _. destruct (String.eqb_spec (e_cls z) c) as [E|N].
    + left. destruct (Root E) as [K _]. rewrite K. split; apply Idv; [left|right]; reflexivity.
    + destruct (e_single z) as [n|] eqn:Eg.
      * left. cbn [orb] in C4. rewrite forallb_forall in C4.
        split; intros I0; specialize (C4 _ I0); apply mem_str_spec in C4; contradiction.
      * destruct (Nor N eq_refl) as [K D]. destruct (mem_str a (e_kws z)) eqn:M.
        -- right. split; [|reflexivity]. apply mem_str_spec in M. split; [exact D|]. split; [exact M|]. rewrite K in M |- *. apply Iff. exact M.
        -- left. apply mem_str_false in M. split; [exact M|]. rewrite K in M |- *. intros I0. apply M. apply Iff. exact I0.
  - intros E s Hs. rewrite E in C5. cbn [String.eqb Ascii.eqb Bool.eqb negb orb] in C5. rewrite forallb_forall in C5. specialize (C5 s Hs). rewrite forallb_forall in C5.
    intros v Hv X. specialize (C5 v Hv). rewrite X in C5. discriminate.
Qed.

Lemma read_exchange u A B x y : swl a b A A -> swl a b B B -> duo a b (key_of x) (key_of y) ->
  (c = "Tdm" -> forall l, In l (one A B x y) -> is_ab a b (key_of l) -> undated u 1 l) ->
  ((forall k, In k (keys_of B) -> ~ stray c k) \/ (forall k, In k (keys_of A) -> ~ stray c k /\ k <> kw_comment)) ->
  (do e <- identify_segments u (tree_of c) (one A B x y); build_object u e (one A B x y)) =
  (do e <- identify_segments u (tree_of c) (two A B x y); build_object u e (two A B x y)).
Proof.
  intros pA pB D Cl Fr. pose proof Tg as [Nab [Ca [Cb _]]].
  assert (Hcol : forall col l, cols_of col -> In l (one A B x y) -> is_ab a b (key_of l) -> undated u col l).
  { intros col l [-> | [-> E]] Hl Hk; [|exact (Cl E l Hl Hk)]. pose proof (ab_chk u _ Hk) as X. unfold kw_chk in X. do 5 (apply andb_true_iff in X; destruct X as [X ?]).
    destruct l as [|k vs]; [exfalso; cbn [key_of hd] in *; discriminate|]. cbn [key_of hd] in *. unfold first_token in *. exists k.
    destruct (split_ws k) as [|d ts] eqn:Es; [discriminate|]. exists d. split; [reflexivity|]. split; [reflexivity|]. apply negb_true_iff. assumption. }
  assert (Hfl : forall k, is_ab a b k -> match split_ws k with t :: _ => float_ok u t = false | [] => True end).
  { intros k Hk. pose proof (ab_chk u _ Hk) as X. unfold kw_chk in X. do 5 (apply andb_true_iff in X; destruct X as [X ?]). unfold first_token in X.
    destruct (split_ws k); [exact I|]. apply negb_true_iff. exact X. }
  assert (Hfk : forall k, is_ab a b k -> ~ stray c k) by (intros k [-> | ->]; assumption).
  assert (Hua : forall k, is_ab a b k -> startswith (lit "USER_DEFINED") k = false).
  { intros k Hk. apply startswith_false. intros X. apply (Hfk k Hk). left. exact X. }
  assert (Hud : forall k, startswith (lit "USER_DEFINED") k = true -> stray c k) by (intros k Hk; left; apply startswith_spec; exact Hk).
  assert (Hid : ~ is_ab a b (lit "id")).
  { intros Hk. pose proof (ab_chk u _ Hk) as X. unfold kw_chk in X. do 5 (apply andb_true_iff in X; destruct X as [X ?]). rewrite str_eqb_refl in H1. discriminate. }
  destruct (identify_swap a b Nab A B x y pB D Ca Cb u cols_of (stray c) Hcol Hfl Hua Hfk Hud Fr (tree_of c) tree_static 0 (bd_0 a b A B x y pA pB D)) as [I1 I2].
  unfold identify_segments. rewrite <- I1. destruct (identify u (tree_of c) (keys_of (one A B x y)) (one A B x y) 0) as [[[mx mm] e]|er]; [|reflexivity]. cbn [bind].
  cbn [good_ident] in I2. destruct I2 as [_ [G [Ec [St Fs]]]]. unfold build_object.
  apply (build_swap a b Nab A B x y D u Hid). apply (fine_rel a b A B x y pB D cols_of (stray c)). apply all_fine_intro; [|exact Fs].
  split; [cbn [set_mm e_cls e_mm]; rewrite Ec; exact G|exact St].
Qed.
End Read.

(* In a document for the message type c whose lines with the keywords a and b stand side by side throughout, two such
   lines may change places. *)
Theorem C52_line_order : forall u c id a b blanks first pre r1 gap r2 after,
  In c root_classes -> class_fixed c "id" = Some id -> together c a b -> ~ stray c a -> ~ stray c b ->
  Forall blank blanks -> heads first (lit id) -> Forall blank gap -> heads r1 a -> heads r2 b -> paired a b pre -> paired a b after ->
  (c = "Tdm" -> forall r, In r (pre ++ r1 :: r2 :: after) -> heads r a \/ heads r b -> worded r) ->
  ((forall r k, In r after -> heads r k -> ~ stray c k) \/ (forall r k, In r pre -> heads r k -> ~ stray c k /\ k <> kw_comment)) ->
  Forall one_line (blanks ++ first :: pre ++ r1 :: gap ++ r2 :: after) ->
  kvn_from_string u (text_of (blanks ++ first :: pre ++ r1 :: gap ++ r2 :: after)) =
  kvn_from_string u (text_of (blanks ++ first :: pre ++ r2 :: gap ++ r1 :: after)).
Proof.
  intros u c id a b blanks first pre r1 gap r2 after Hc Ei Tg Sa Sb Bb Hf Bg H1 H2 Pp Pa Wd Fr O.
  apply heads_lex in Hf as Lf. destruct Lf as [vs Lf]. apply heads_lex in H1 as L1. destruct L1 as [v1 L1]. apply heads_lex in H2 as L2. destruct L2 as [v2 L2].
  assert (O2 : Forall one_line (blanks ++ first :: pre ++ r2 :: gap ++ r1 :: after)).
  { rewrite Forall_forall in O |- *. intros r Hr. apply O. rewrite !in_app_iff in *. cbn [In] in *. rewrite !in_app_iff in *. cbn [In] in *. rewrite !in_app_iff in *. cbn [In] in *.
    clear - Hr. intuition. }
  assert (Ex : forall q1 q2 w1 w2, lex_line q1 = Some w1 -> lex_line q2 = Some w2 -> Forall one_line (blanks ++ first :: pre ++ q1 :: gap ++ q2 :: after) ->
    pre_process (text_of (blanks ++ first :: pre ++ q1 :: gap ++ q2 :: after)) =
    Ok (([lit "id"; lit id] :: (lit "version" :: vs) :: filter_map lex_line pre) ++ w1 :: w2 :: filter_map lex_line after)).
  { intros q1 q2 w1 w2 E1 E2 O'. unfold pre_process, text_of. rewrite lex_lines_join; [|destruct blanks; discriminate|exact O'].
    rewrite gap_lex by exact Bb. cbn [filter_map]. rewrite Lf, filter_map_app. cbn [filter_map]. rewrite E1, gap_lex by exact Bg. cbn [filter_map]. rewrite E2. reflexivity. }
  unfold kvn_from_string. rewrite (Ex r1 r2 _ _ L1 L2 O), (Ex r2 r1 _ _ L2 L1 O2). cbn [bind]. unfold read_lines.
  assert (Ty : forall l, identify_data_type (([lit "id"; lit id] :: (lit "version" :: vs) :: filter_map lex_line pre) ++ l) = Ok c).
  { intros l. cbn [app]. unfold identify_data_type. cbn [get nth_error guard_opt bind].
    assert (X : find_element (lit id) = Some c).
    { clear - Hc Ei. repeat (destruct Hc as [<-|Hc]; [vm_compute in Ei; injection Ei as <-; vm_compute; reflexivity|]). destruct Hc. }
    rewrite X. reflexivity. }
  rewrite !Ty. cbn [bind]. rewrite (init_object_map_ok c Hc). cbn [bind].
  assert (Dl : forall k, is_ab a b k -> mem_str k (deleted_keywords c) = false).
  { intros k Hk. pose proof (ab_chk c a b Tg u k Hk) as X. unfold kw_chk in X. apply andb_true_iff in X. destruct X as [_ X]. rewrite forallb_forall in X.
    apply negb_true_iff. apply X. exact Hc. }
  assert (Dd : forall k1 k2 w1 w2, is_ab a b k1 -> is_ab a b k2 ->
    delete_keywords c (([lit "id"; lit id] :: (lit "version" :: vs) :: filter_map lex_line pre) ++ (k1 :: w1) :: (k2 :: w2) :: filter_map lex_line after) =
    one (delete_keywords c ([lit "id"; lit id] :: (lit "version" :: vs) :: filter_map lex_line pre)) (delete_keywords c (filter_map lex_line after)) (k1 :: w1) (k2 :: w2)).
  { intros k1 k2 w1 w2 K1 K2. unfold delete_keywords, one. rewrite filter_app. f_equal. cbn [filter key_of hd]. rewrite (Dl k1 K1), (Dl k2 K2). reflexivity. }
  assert (Ka : is_ab a b a) by (left; reflexivity). assert (Kb : is_ab a b b) by (right; reflexivity).
  match goal with |- bind (identify_segments u _ ?L1) _ = bind (identify_segments u _ ?L2) _ => set (M1 := L1); set (M2 := L2) end.
  assert (E1 : M1 = _) by exact (Dd a b v1 v2 Ka Kb). assert (E2 : M2 = _) by exact (Dd b a v2 v1 Kb Ka). rewrite E1, E2. clear E1 E2 M1 M2.
  set (A := delete_keywords c ([lit "id"; lit id] :: (lit "version" :: vs) :: filter_map lex_line pre)). set (B := delete_keywords c (filter_map lex_line after)).
  change (one A B (b :: v2) (a :: v1)) with (two A B (a :: v1) (b :: v2)).
  assert (Nid : forall k, is_ab a b k -> k <> lit "id" /\ k <> lit "version").
  { intros k Hk. pose proof (ab_chk c a b Tg u k Hk) as X. unfold kw_chk in X. do 5 (apply andb_true_iff in X; destruct X as [X ?]).
    apply negb_true_iff in H0, H3. apply str_eqb_neq in H0, H3. split; assumption. }
  assert (Di : mem_str (lit "id") (deleted_keywords c) = false /\ mem_str (lit "version") (deleted_keywords c) = false).
  { clear - Hc. repeat (destruct Hc as [<-|Hc]; [vm_compute; auto|]). destruct Hc. }
  assert (EA : A = [lit "id"; lit id] :: (lit "version" :: vs) :: delete_keywords c (filter_map lex_line pre)).
  { unfold A, delete_keywords. cbn [filter key_of hd]. destruct Di as [-> ->]. reflexivity. }
  assert (Ln : forall l rs, In l (delete_keywords c (filter_map lex_line rs)) -> exists r, In r rs /\ lex_line r = Some l).
  { intros l rs H. unfold delete_keywords in H. apply filter_In in H. destruct H as [H _]. clear - H. induction rs as [|r rs IH]; [destruct H|]. cbn [filter_map] in H.
    destruct (lex_line r) as [m|] eqn:E; [destruct H as [<-|H]; [exists r; split; [left; reflexivity|exact E]|]|]; destruct (IH H) as [r' [I' E']]; exists r'; split; [right; exact I'|exact E'|right; exact I'|exact E']. }
  apply (read_exchange c a b Hc Tg Sa Sb).
  - rewrite EA. apply swl_other; [intros X; apply Nid in X; cbn [key_of hd] in X; apply (proj1 X); reflexivity|].
    apply swl_other; [intros X; apply Nid in X; cbn [key_of hd] in X; apply (proj2 X); reflexivity|]. apply paired_swl; [apply Dl; exact Ka|apply Dl; exact Kb|exact Pp].
  - apply paired_swl; [apply Dl; exact Ka|apply Dl; exact Kb|exact Pa].
  - left. split; reflexivity.
  - intros E l Hl Hk.
    assert (Kc : forall k, is_ab a b k -> ~ begins kw_comment k).
    { intros k K0 X. pose proof Tg as [_ [Ca [Cb _]]]. destruct K0 as [-> | ->].
      - clear - H1 X Ca. inversion H1 as [p q k N C Nc E1 E2|p k N C Ne Nc E1 E2|w q B0 E1 E2]; subst; try contradiction.
      - clear - H2 X Cb. inversion H2 as [p q k N C Nc E1 E2|p k N C Ne Nc E1 E2|w q B0 E1 E2]; subst; try contradiction. }
    assert (X : exists r, In r (pre ++ r1 :: r2 :: after) /\ lex_line r = Some l).
    { unfold one in Hl. apply in_app_or in Hl. destruct Hl as [Hl|[<-|[<-|Hl]]].
      - rewrite EA in Hl. destruct Hl as [<-|[<-|Hl]]; [exfalso; apply Nid in Hk; apply (proj1 Hk); reflexivity|exfalso; apply Nid in Hk; apply (proj2 Hk); reflexivity|].
        destruct (Ln l pre Hl) as [r [I' E']]. exists r. split; [apply in_or_app; left; exact I'|exact E'].
      - exists r1. split; [apply in_or_app; right; left; reflexivity|exact L1].
      - exists r2. split; [apply in_or_app; right; right; left; reflexivity|exact L2].
      - destruct (Ln l after Hl) as [r [I' E']]. exists r. split; [apply in_or_app; right; right; right; exact I'|exact E']. }
    destruct X as [r [I' E']]. destruct (lex_cons r l E') as [k [vs' ->]]. cbn [key_of hd] in Hk.
    apply (worded_undated u r (k :: vs') k); [|exact E'|reflexivity|apply Kc; exact Hk]. apply (Wd E r I'). apply lex_heads in E'. destruct Hk as [-> | ->]; [left|right]; exact E'.
  - assert (Lk : forall k rs, In k (keys_of (delete_keywords c (filter_map lex_line rs))) -> exists r, In r rs /\ heads r k).
    { intros k rs H. unfold keys_of in H. apply in_map_iff in H. destruct H as [l [<- H]]. destruct (Ln l rs H) as [r [I' E']]. destruct (lex_cons r l E') as [k' [vs' ->]].
      exists r. split; [exact I'|apply (lex_heads r k' vs'); exact E']. }
    destruct Fr as [Fr|Fr].
    + left. intros k H. destruct (Lk k after H) as [r [I' E']]. exact (Fr r k I' E').
    + right. intros k H. rewrite EA in H. destruct H as [<-|[<-|H]].
      * cbn [key_of hd]. split; [|vm_compute; discriminate]. intros [[r X]|[_ X]]; [vm_compute in X; discriminate|]. apply mem_str_spec in X. vm_compute in X. discriminate.
      * cbn [key_of hd]. split; [|vm_compute; discriminate]. intros [[r X]|[_ X]]; [vm_compute in X; discriminate|]. apply mem_str_spec in X. vm_compute in X. discriminate.
      * destruct (Lk k pre H) as [r [I' E']]. exact (Fr r k I' E').
Qed.
Print Assumptions C52_line_order.

(* the lines of a section in any order: lines with different keywords of the same sections, which occur nowhere else *)
Lemma heads_one raw k l : heads raw k -> heads raw l -> k = l.
Proof. intros H1 H2. apply heads_lex in H1, H2. destruct H1 as [v1 H1], H2 as [v2 H2]. rewrite H1 in H2. apply some_inj in H2. congruence. Qed.
Lemma unpaired a b rs : (forall r, In r rs -> ~ heads r a /\ ~ heads r b) -> paired a b rs.
Proof.
  induction rs as [|r rs IH]; intros H; [constructor|]. apply paired_other; [apply H; left; reflexivity|apply H; left; reflexivity|]. apply IH. intros q Hq. apply H. right. exact Hq.
Qed.
Theorem C52_section_order : forall u c id blanks first pre ls ls' ks after,
  In c root_classes -> class_fixed c "id" = Some id -> Forall blank blanks -> heads first (lit id) ->
  Permutation ls ls' -> Forall2 heads ls ks -> NoDup ks -> (forall k l, In k ks -> In l ks -> k <> l -> together c k l) ->
  (forall k r, In k ks -> In r (pre ++ after) -> ~ heads r k) -> (forall k, In k ks -> ~ stray c k) -> (c = "Tdm" -> Forall worded ls) ->
  ((forall r k, In r after -> heads r k -> ~ stray c k) \/ (forall r k, In r pre -> heads r k -> ~ stray c k /\ k <> kw_comment)) ->
  Forall one_line (blanks ++ first :: pre ++ ls ++ after) ->
  kvn_from_string u (text_of (blanks ++ first :: pre ++ ls ++ after)) = kvn_from_string u (text_of (blanks ++ first :: pre ++ ls' ++ after)).
Proof.
  intros u c id blanks first pre ls ls' ks after Hc Ei Bb Hf P. revert pre ks. induction P as [|x l l' P IH|x y l|l l' l'' P1 IH1 P2 IH2]; intros pre ks Hh Nd Tg Nw Ns Wd Fr O.
  - reflexivity.
  - inversion Hh as [|x0 k l0 ks' Hx Hl]; subst. apply NoDup_cons_iff in Nd. destruct Nd as [Nk Nd].
    assert (X : forall m, blanks ++ first :: pre ++ (x :: m) ++ after = blanks ++ first :: (pre ++ [x]) ++ m ++ after) by (intros m; rewrite <- !app_assoc; reflexivity).
    destruct ks' as [|k2 ks']; [inversion Hl; subst; apply Permutation_nil in P; subst; reflexivity|].
    rewrite !X. apply (IH (pre ++ [x]) (k2 :: ks')); [exact Hl|exact Nd| | | | | |rewrite <- X; exact O].
    + intros k1 k3 I1 I2. apply Tg; right; assumption.
    + intros k1 r I1 Ir. rewrite <- app_assoc in Ir. apply in_app_or in Ir. destruct Ir as [Ir|[<-|Ir]].
      * apply Nw; [right; exact I1|apply in_or_app; left; exact Ir].
      * intros Hk. apply Nk. rewrite (heads_one _ _ _ Hx Hk). exact I1.
      * apply Nw; [right; exact I1|apply in_or_app; right; exact Ir].
    + intros k1 I1. apply Ns. right. exact I1.
    + intros E. specialize (Wd E). inversion Wd; assumption.
    + destruct Fr as [Fr|Fr]; [left; exact Fr|]. right. intros r k1 Ir Hk. apply in_app_or in Ir. destruct Ir as [Ir|[<-|[]]]; [exact (Fr r k1 Ir Hk)|].
      rewrite <- (heads_one _ _ _ Hx Hk). split; [apply Ns; left; reflexivity|].
      assert (T : together c k k2) by (apply Tg; [left; reflexivity|right; left; reflexivity|intros ->; apply Nk; left; reflexivity]). apply T.
  - inversion Hh as [|y0 k1 l0 ks' Hy Hl]; subst. inversion Hl as [|x0 k2 l0 ks2 Hx Hl2]; subst.
    apply NoDup_cons_iff in Nd. destruct Nd as [N1 Nd]. apply NoDup_cons_iff in Nd. destruct Nd as [N2 Nd].
    assert (Nl : forall r k, In r l -> heads r k -> In k ks2).
    { clear - Hl2. induction Hl2 as [|r k l ks H _ IH]; intros q j Hq Hj; [destruct Hq|]. destruct Hq as [<-|Hq]; [left; exact (heads_one _ _ _ H Hj)|right; exact (IH q j Hq Hj)]. }
    assert (Nl1 : forall r, In r l -> ~ heads r k1 /\ ~ heads r k2).
    { intros r Hr. split; intros H; apply Nl in H; try exact Hr; [apply N1; right; exact H|contradiction]. }
    cbn [app]. apply (C52_line_order u c id k1 k2 blanks first pre y [] x (l ++ after)); try assumption.
    + apply Tg; [left; reflexivity|right; left; reflexivity|intros ->; apply N1; left; reflexivity].
    + apply Ns. left. reflexivity.
    + apply Ns. right. left. reflexivity.
    + constructor.
    + apply unpaired. intros r Hr. split; apply Nw; [left; reflexivity|apply in_or_app; left; exact Hr|right; left; reflexivity|apply in_or_app; left; exact Hr].
    + apply unpaired. intros r Hr. apply in_app_or in Hr. destruct Hr as [Hr|Hr]; [exact (Nl1 r Hr)|].
      split; apply Nw; [left; reflexivity|apply in_or_app; right; exact Hr|right; left; reflexivity|apply in_or_app; right; exact Hr].
    + intros E r Ir Hk. specialize (Wd E). rewrite Forall_forall in Wd. apply in_app_or in Ir. destruct Ir as [Ir|[<-|[<-|Ir]]].
      * exfalso. destruct Hk as [Hk|Hk]; revert Hk; apply Nw; [left; reflexivity|apply in_or_app; left; exact Ir|right; left; reflexivity|apply in_or_app; left; exact Ir].
      * apply Wd. left. reflexivity.
      * apply Wd. right. left. reflexivity.
      * apply in_app_or in Ir. destruct Ir as [Ir|Ir]; [apply Wd; right; right; exact Ir|].
        exfalso. destruct Hk as [Hk|Hk]; revert Hk; apply Nw; [left; reflexivity|apply in_or_app; right; exact Ir|right; left; reflexivity|apply in_or_app; right; exact Ir].
    + destruct Fr as [Fr|Fr]; [|right; exact Fr]. left. intros r k Ir Hk. apply in_app_or in Ir. destruct Ir as [Ir|Ir]; [|exact (Fr r k Ir Hk)].
      apply Ns. right. right. exact (Nl r k Ir Hk).
  - destruct (Permutation_Forall2 P1 Hh) as [ks' [Pk Hh']].
    assert (Ik : forall k, In k ks' -> In k ks) by (intros k; apply Permutation_in; symmetry; exact Pk).
    rewrite (IH1 pre ks); try assumption. apply (IH2 pre ks'); try assumption.
    + apply (Permutation_NoDup Pk). exact Nd.
    + intros k j H1 H2. apply Tg; apply Ik; assumption.
    + intros k r Hk. apply Nw. apply Ik. exact Hk.
    + intros k Hk. apply Ns. apply Ik. exact Hk.
    + intros E. specialize (Wd E). rewrite Forall_forall in Wd |- *. intros r Hr. apply Wd. apply (Permutation_in r (Permutation_sym P1)). exact Hr.
    + rewrite Forall_forall in O |- *. intros r Hr. apply O. rewrite !in_app_iff in *. cbn [In] in *. rewrite !in_app_iff in *.
      assert (Q : In r l' -> In r l) by (intros Q; apply (Permutation_in r (Permutation_sym P1)); exact Q). clear - Hr Q. intuition.
Qed.
Print Assumptions C52_section_order.

(* ---- examples ---- *)
Definition types_of (k : string) : list string := filter_map (fun f => match f_ty f with TCls d => Some d | _ => None end) (fields_of k).
Fixpoint reach (n : nat) (ks : list string) : list string :=
  match n with O => ks | S m => reach m (nodup string_dec (ks ++ flat_map types_of ks)) end.
Definition closedb (ks : list string) : bool := forallb (fun k => forallb (fun d => existsb (String.eqb d) ks) (types_of k)) ks.
Lemma within_closed c ks : existsb (String.eqb c) ks = true -> closedb ks = true -> forall k, within c k -> In k ks.
Proof.
  intros H C. assert (M : forall d, existsb (String.eqb d) ks = true -> In d ks).
  { intros d X. apply existsb_exists in X. destruct X as [e [I0 E]]. apply String.eqb_eq in E. subst e. exact I0. }
  induction 1 as [|k f d W IH Hf Et]; [apply M; exact H|]. unfold closedb in C. rewrite forallb_forall in C. specialize (C k IH). rewrite forallb_forall in C. apply M, C.
  unfold types_of. clear - Hf Et. induction (fields_of k) as [|g gs IHg]; [destruct Hf|]. cbn [filter_map]. destruct Hf as [->|Hf]; [rewrite Et; left; reflexivity|].
  destruct (f_ty g); [apply IHg|apply IHg|apply IHg|right; apply IHg]; exact Hf.
Qed.
Definition togetherb (ks : list string) (a b : str) : bool :=
  negb (str_eqb a b) && negb (str_eqb a kw_comment) && negb (str_eqb b kw_comment) &&
  forallb (fun k => Bool.eqb (mem_str a (keywords k)) (mem_str b (keywords k)) && negb (mem_str a (attribute_words k)) && negb (mem_str b (attribute_words k))) ks.
Lemma togetherb_spec c ks a b : existsb (String.eqb c) ks = true -> closedb ks = true -> (exists k, within c k /\ In a (keywords k)) -> togetherb ks a b = true -> together c a b.
Proof.
  intros H C X T. unfold togetherb in T. do 3 (apply andb_true_iff in T; destruct T as [T ?]). apply negb_true_iff in T, H1, H2. apply str_eqb_neq in T, H1, H2.
  split; [exact T|]. split; [exact H2|]. split; [exact H1|]. split; [exact X|]. intros k W. apply (within_closed c ks H C) in W. rewrite forallb_forall in H0. specialize (H0 k W).
  do 2 (apply andb_true_iff in H0; destruct H0 as [H0 ?]). apply negb_true_iff in H3, H4. split; [|split; apply mem_str_false; assumption].
  apply Bool.eqb_prop in H0. rewrite <- !mem_str_spec, H0. reflexivity.
Qed.
Definition head_of (r : str) : option str := match lex_line r with Some (k :: _) => Some k | _ => None end.
Lemma head_of_heads r k : head_of r = Some k <-> heads r k.
Proof.
  unfold head_of. split.
  - destruct (lex_line r) as [[|k' vs]|] eqn:E; try discriminate. intros H. apply some_inj in H. subst k'. exact (lex_heads r k vs E).
  - intros H. apply heads_lex in H. destruct H as [vs ->]. reflexivity.
Qed.
Definition strayb (c : string) (k : str) : bool := startswith (lit "USER_DEFINED") k || (String.eqb c "Oem" && mem_str k (keywords "OemCovarianceMatrixType")).
Lemma strayb_spec c k : strayb c k = false -> ~ stray c k.
Proof.
  unfold strayb. intros H. apply orb_false_iff in H. destruct H as [H1 H2]. intros [X|[-> X]]; [apply startswith_spec in X; congruence|]. apply mem_str_spec in X. rewrite X in H2. discriminate.
Qed.
Definition unstrayb (c : string) (r : str) : bool := match head_of r with Some k => negb (strayb c k) && negb (str_eqb k kw_comment) | None => true end.
Lemma unstrayb_spec c rs : forallb (unstrayb c) rs = true -> forall r k, In r rs -> heads r k -> ~ stray c k /\ k <> kw_comment.
Proof.
  intros H r k Ir Hk. rewrite forallb_forall in H. specialize (H r Ir). apply head_of_heads in Hk. unfold unstrayb in H. rewrite Hk in H.
  apply andb_true_iff in H. destruct H as [H1 H2]. apply negb_true_iff in H1, H2. split; [apply strayb_spec; exact H1|apply str_eqb_neq; exact H2].
Qed.
Definition awayb (ks : list str) (r : str) : bool := match head_of r with Some k => negb (mem_str k ks) | None => true end.
Lemma awayb_spec ks rs : forallb (awayb ks) rs = true -> forall k r, In k ks -> In r rs -> ~ heads r k.
Proof.
  intros H k r Ik Ir Hk. rewrite forallb_forall in H. specialize (H r Ir). apply head_of_heads in Hk. unfold awayb in H. rewrite Hk in H. apply negb_true_iff in H. apply mem_str_false in H. contradiction.
Qed.

(* the metadata of an ephemeris message in another order *)
Definition oem_pre : list str := map lit ["CREATION_DATE = 2005-160"; "ORIGINATOR = X"; "META_START"].
Definition oem_lines : list str :=
  map lit ["OBJECT_NAME = MARS"; "OBJECT_ID=1996-062A"; "CENTER_NAME = MARS BARYCENTER"; "REF_FRAME = EME2000"; "TIME_SYSTEM = UTC"; "START_TIME = 2005-160"; "STOP_TIME = 2005-161"].
Definition oem_mixed : list str :=
  map lit ["STOP_TIME = 2005-161"; "REF_FRAME = EME2000"; "OBJECT_ID=1996-062A"; "OBJECT_NAME = MARS"; "START_TIME = 2005-160"; "CENTER_NAME = MARS BARYCENTER"; "TIME_SYSTEM = UTC"].
Definition oem_keys : list str := map lit ["OBJECT_NAME"; "OBJECT_ID"; "CENTER_NAME"; "REF_FRAME"; "TIME_SYSTEM"; "START_TIME"; "STOP_TIME"].
Definition oem_after : list str :=
  map lit ["META_STOP"; "2005-160T00 1 2 3 4 5 6"; "COVARIANCE_START"; "EPOCH = 2005-160"; "1"; "1 2"; "1 2 3"; "1 2 3 4"; "1 2 3 4 5"; "1 2 3 4 5 6"; "COVARIANCE_STOP"].
Definition oem_classes : list string := Eval vm_compute in reach 8 ["Oem"].
Example C52_example : let first := lit "CCSDS_OEM_VERS = 2.0" in
  In "Oem" root_classes /\ class_fixed "Oem" "id" = Some "CCSDS_OEM_VERS" /\ Forall blank [[]] /\ heads first (lit "CCSDS_OEM_VERS") /\
  Permutation oem_lines oem_mixed /\ oem_lines <> oem_mixed /\ Forall2 heads oem_lines oem_keys /\ NoDup oem_keys /\
  (forall k l, In k oem_keys -> In l oem_keys -> k <> l -> together "Oem" k l) /\
  (forall k r, In k oem_keys -> In r (oem_pre ++ oem_after) -> ~ heads r k) /\ (forall k, In k oem_keys -> ~ stray "Oem" k) /\
  (forall r k, In r oem_pre -> heads r k -> ~ stray "Oem" k /\ k <> kw_comment) /\
  Forall one_line ([[]] ++ first :: oem_pre ++ oem_lines ++ oem_after) /\
  exists v, kvn_from_string demo_env (text_of ([[]] ++ first :: oem_pre ++ oem_lines ++ oem_after)) = Ok v /\
            kvn_from_string demo_env (text_of ([[]] ++ first :: oem_pre ++ oem_mixed ++ oem_after)) = Ok v.
Proof.
  cbv zeta. split; [vm_compute; auto 10|]. split; [vm_compute; reflexivity|]. split; [constructor; [intros c []|constructor]|].
  split; [apply head_of_heads; vm_compute; reflexivity|].
  split.
  { unfold oem_lines, oem_mixed. apply Permutation_map. apply NoDup_Permutation.
    - apply nodup_string_spec. reflexivity.
    - apply nodup_string_spec. reflexivity.
    - intros x. split; intros H; repeat (destruct H as [<-|H]; [cbn; auto 10|]); destruct H. }
  split; [vm_compute; discriminate|].
  split; [repeat (constructor; [apply head_of_heads; vm_compute; reflexivity|]); constructor|].
  split; [apply nodup_strs_spec; vm_compute; reflexivity|].
  split.
  { intros k l Hk Hl N. apply (togetherb_spec "Oem" oem_classes); [vm_compute; reflexivity|vm_compute; reflexivity| |].
    - exists "OemMetadata". split.
      + apply (within_field _ "OemSegment" (mkField "metadata" None false (TCls "OemMetadata") KElem None)); [|vm_compute; auto 10|reflexivity].
        apply (within_field _ "OemBody" (mkField "segment" None true (TCls "OemSegment") KElem None)); [|vm_compute; auto 10|reflexivity].
        apply (within_field _ "Oem" (mkField "body" None false (TCls "OemBody") KElem None)); [apply within_self|vm_compute; auto 10|reflexivity].
      + apply mem_str_spec. revert k Hk N. assert (X : forallb (fun k => mem_str k (keywords "OemMetadata")) oem_keys = true) by (vm_compute; reflexivity).
        rewrite forallb_forall in X. intros k Hk _. exact (X k Hk).
    - assert (X : forallb (fun k => forallb (fun l => str_eqb k l || togetherb oem_classes k l) oem_keys) oem_keys = true) by (vm_compute; reflexivity).
      rewrite forallb_forall in X. specialize (X k Hk). rewrite forallb_forall in X. specialize (X l Hl). apply orb_true_iff in X. destruct X as [X|X]; [|exact X].
      apply str_eqb_eq in X. contradiction. }
  split; [apply awayb_spec; vm_compute; reflexivity|].
  split.
  { intros k Hk. apply strayb_spec. assert (X : forallb (fun k => negb (strayb "Oem" k)) oem_keys = true) by (vm_compute; reflexivity). rewrite forallb_forall in X.
    apply negb_true_iff. exact (X k Hk). }
  split; [apply unstrayb_spec; vm_compute; reflexivity|].
  split; [apply Forall_forall; intros s Hs; repeat (destruct Hs as [<-|Hs]; [apply no_charb_spec; reflexivity|]); destruct Hs|].
  eexists. split; vm_compute; reflexivity.
Qed.

(* Without the condition on tracking messages the claim is false: a date at the start of the metadata of a later segment is
   taken for an observation of the segment before. *)
Definition tdm_pre : list str :=
  map lit ["CREATION_DATE = 2005-160"; "ORIGINATOR = X"; "META_START"; "TIME_SYSTEM = UTC"; "START_TIME = 2005-159"; "PARTICIPANT_1 = A"; "META_STOP";
           "DATA_START"; "RANGE = 2005-159 1.2"; "DATA_STOP"; "META_START"].
Definition tdm_after : list str := map lit ["PARTICIPANT_1 = A"; "META_STOP"; "DATA_START"; "RANGE = 2005-159 1.2"; "DATA_STOP"].
Definition observations (v : pyval) : list nat :=
  match v with
  | VObj _ (_ :: (_, VObj _ [(_, VList segs)]) :: _) =>
    map (fun s => match s with VObj _ [_; (_, VObj _ [_; (_, VList os)])] => List.length os | _ => 0 end) segs
  | _ => []
  end.
Definition tdm_classes : list string := Eval vm_compute in reach 8 ["Tdm"].
Definition pairs (a b : str) (rs : list str) : bool :=
  (fix go (rs : list str) : bool :=
     match rs with
     | r :: (s :: rest) as tl =>
       match head_of r, head_of s with
       | Some k, Some l => if (str_eqb k a && str_eqb l b) || (str_eqb k b && str_eqb l a) then go rest
                           else negb (str_eqb k a) && negb (str_eqb k b) && go tl
       | Some k, None => negb (str_eqb k a) && negb (str_eqb k b) && go tl
       | None, _ => go tl
       end
     | r :: [] => awayb [a; b] r
     | [] => true
     end) rs.
Lemma pairs_spec a b rs : pairs a b rs = true -> paired a b rs.
Proof.
  assert (X : forall n rs, List.length rs <= n -> pairs a b rs = true -> paired a b rs).
  { induction n as [|n IH]; intros l Hl H; [destruct l; [constructor|cbn in Hl; lia]|]. destruct l as [|r [|s rest]]; [constructor| |].
    - apply unpaired. intros q [<-|[]]. assert (W : forallb (awayb [a; b]) [r] = true) by (cbn [forallb]; rewrite andb_true_r; exact H).
      split; apply (awayb_spec [a; b] [r] W); cbn; auto.
    - cbn [List.length] in Hl. change (pairs a b (r :: s :: rest)) with (match head_of r, head_of s with
       | Some k, Some l => if (str_eqb k a && str_eqb l b) || (str_eqb k b && str_eqb l a) then pairs a b rest
                           else negb (str_eqb k a) && negb (str_eqb k b) && pairs a b (s :: rest)
       | Some k, None => negb (str_eqb k a) && negb (str_eqb k b) && pairs a b (s :: rest)
       | None, _ => pairs a b (s :: rest) end) in H.
      assert (Oth : forall k, head_of r = Some k -> negb (str_eqb k a) && negb (str_eqb k b) && pairs a b (s :: rest) = true -> paired a b (r :: s :: rest)).
      { intros k Ek W. apply andb_true_iff in W. destruct W as [W W3]. apply andb_true_iff in W. destruct W as [W1 W2]. apply negb_true_iff in W1, W2. apply str_eqb_neq in W1, W2.
        apply paired_other; [intros Z; apply head_of_heads in Z; congruence|intros Z; apply head_of_heads in Z; congruence|]. apply IH; [cbn; lia|exact W3]. }
      destruct (head_of r) as [k|] eqn:E1.
      + destruct (head_of s) as [l|] eqn:E2; [|exact (Oth k eq_refl H)]. destruct (_ || _) eqn:B; [|exact (Oth k eq_refl H)].
        apply (paired_two a b r [] s rest); [|constructor|apply IH; [lia|exact H]]. apply head_of_heads in E1, E2. apply orb_true_iff in B.
        destruct B as [B|B]; apply andb_true_iff in B; destruct B as [B1 B2]; apply str_eqb_eq in B1, B2; subst; [left|right]; split; assumption.
      + apply paired_other; [intros Z; apply head_of_heads in Z; congruence|intros Z; apply head_of_heads in Z; congruence|]. apply IH; [cbn; lia|exact H]. }
  apply (X (List.length rs)). apply le_n.
Qed.
Lemma tdm_together a b : In a (keywords "TdmMetadata") -> togetherb tdm_classes a b = true -> together "Tdm" a b.
Proof.
  intros H. apply (togetherb_spec "Tdm" tdm_classes); [vm_compute; reflexivity|vm_compute; reflexivity|]. exists "TdmMetadata". split; [|exact H].
  apply (within_field _ "TdmSegment" (mkField "metadata" None false (TCls "TdmMetadata") KElem None)); [|vm_compute; auto 10|reflexivity].
  apply (within_field _ "TdmBody" (mkField "segment" None true (TCls "TdmSegment") KElem None)); [|vm_compute; auto 10|reflexivity].
  apply (within_field _ "Tdm" (mkField "body" None false (TCls "TdmBody") KElem None)); [apply within_self|vm_compute; auto 10|reflexivity].
Qed.
Theorem C52_dates_refuted : let first := lit "CCSDS_TDM_VERS = 1.0" in let a := lit "TIME_SYSTEM" in let b := lit "START_TIME" in
  let r1 := lit "TIME_SYSTEM = UTC" in let r2 := lit "START_TIME = 2005-159" in
  together "Tdm" a b /\ ~ stray "Tdm" a /\ ~ stray "Tdm" b /\ heads first (lit "CCSDS_TDM_VERS") /\ heads r1 a /\ heads r2 b /\
  paired a b tdm_pre /\ paired a b tdm_after /\
  (forall r k, In r tdm_after -> heads r k -> ~ stray "Tdm" k) /\ Forall one_line ([] ++ first :: tdm_pre ++ r1 :: [] ++ r2 :: tdm_after) /\
  (exists v, kvn_from_string demo_env (text_of ([] ++ first :: tdm_pre ++ r1 :: [] ++ r2 :: tdm_after)) = Ok v /\ observations v = [1; 1]) /\
  (exists v, kvn_from_string demo_env (text_of ([] ++ first :: tdm_pre ++ r2 :: [] ++ r1 :: tdm_after)) = Ok v /\ observations v = [2; 1]).
Proof.
  cbv zeta. split; [apply tdm_together; [apply mem_str_spec; vm_compute; reflexivity|vm_compute; reflexivity]|].
  split; [apply strayb_spec; vm_compute; reflexivity|]. split; [apply strayb_spec; vm_compute; reflexivity|].
  do 3 (split; [apply head_of_heads; vm_compute; reflexivity|]). split; [apply pairs_spec; vm_compute; reflexivity|]. split; [apply pairs_spec; vm_compute; reflexivity|].
  split; [intros r k Hr Hk; apply (unstrayb_spec "Tdm" tdm_after ltac:(vm_compute; reflexivity) r k Hr Hk)|].
  split; [apply Forall_forall; intros s Hs; repeat (destruct Hs as [<-|Hs]; [apply no_charb_spec; reflexivity|]); destruct Hs|].
  split; eexists; (split; [vm_compute; reflexivity|vm_compute; reflexivity]).
Qed.
(* the same document with two lines whose values begin with letters, in both segments *)
Definition C52_pre : list str :=
  map lit ["CREATION_DATE = 2005-160"; "ORIGINATOR = X"; "META_START"; "PARTICIPANT_1 = A"; "TIME_SYSTEM = UTC"; "META_STOP";
           "DATA_START"; "RANGE = 2005-159 1.2"; "DATA_STOP"; "META_START"].
Definition C52_after : list str := map lit ["META_STOP"; "DATA_START"; "RANGE = 2005-159 1.2"; "DATA_STOP"].
Example C52_pair_example : let first := lit "CCSDS_TDM_VERS = 1.0" in let a := lit "TIME_SYSTEM" in let b := lit "PARTICIPANT_1" in
  let r1 := lit "TIME_SYSTEM = UTC" in let r2 := lit " PARTICIPANT_1=A" in
  together "Tdm" a b /\ ~ stray "Tdm" a /\ ~ stray "Tdm" b /\ heads first (lit "CCSDS_TDM_VERS") /\ heads r1 a /\ heads r2 b /\
  paired a b C52_pre /\ paired a b C52_after /\
  (forall r, In r (C52_pre ++ r1 :: r2 :: C52_after) -> heads r a \/ heads r b -> worded r) /\
  (forall r k, In r C52_after -> heads r k -> ~ stray "Tdm" k) /\ Forall one_line ([] ++ first :: C52_pre ++ r1 :: [[]] ++ r2 :: C52_after) /\
  exists v, kvn_from_string demo_env (text_of ([] ++ first :: C52_pre ++ r1 :: [[]] ++ r2 :: C52_after)) = Ok v /\ observations v = [1; 1].
Proof.
  cbv zeta. split; [apply tdm_together; [apply mem_str_spec; vm_compute; reflexivity|vm_compute; reflexivity]|].
  split; [apply strayb_spec; vm_compute; reflexivity|]. split; [apply strayb_spec; vm_compute; reflexivity|].
  do 3 (split; [apply head_of_heads; vm_compute; reflexivity|]). split; [apply pairs_spec; vm_compute; reflexivity|]. split; [apply pairs_spec; vm_compute; reflexivity|].
  split.
  { assert (Bs : blank (lit " ")) by (intros c [<-|[]]; reflexivity).
    assert (W1 : worded (lit "TIME_SYSTEM = UTC")) by (exists (lit "TIME_SYSTEM "), (lit " "), 85%N, (lit "TC"); split; [reflexivity|split; [apply no_charb_spec; reflexivity|split; [exact Bs|left; lia]]]).
    assert (W2 : worded (lit "PARTICIPANT_1 = A")) by (exists (lit "PARTICIPANT_1 "), (lit " "), 65%N, []; split; [reflexivity|split; [apply no_charb_spec; reflexivity|split; [exact Bs|left; lia]]]).
    assert (W3 : worded (lit " PARTICIPANT_1=A")) by (exists (lit " PARTICIPANT_1"), [], 65%N, []; split; [reflexivity|split; [apply no_charb_spec; reflexivity|split; [intros c []|left; lia]]]).
    intros r Hr. repeat (destruct Hr as [<-|Hr]; [first [intros _; assumption|intros [H|H]; apply head_of_heads in H; vm_compute in H; discriminate]|]). destruct Hr. }
  split; [intros r k Hr Hk; apply (unstrayb_spec "Tdm" C52_after ltac:(vm_compute; reflexivity) r k Hr Hk)|].
  split; [apply Forall_forall; intros s Hs; repeat (destruct Hs as [<-|Hs]; [apply no_charb_spec; reflexivity|]); destruct Hs|].
  eexists; (split; [vm_compute; reflexivity|vm_compute; reflexivity]).
Qed.
