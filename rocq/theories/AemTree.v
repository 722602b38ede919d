(* Attitude segments: choosing the attitude type before building does not change what is identified. *)
From Coq Require Import NArith ZArith List Bool String Arith Lia.
From Verif Require Import PyStr PyDec PyVal Schema KvnPre KvnTree KvnSeg XmlBind KvnBuild
     Spec SpecKvn SpecObj StrFacts DecFacts PreFacts SegFacts BuildFacts WriteFacts ParseFacts ShiftFacts ReadFacts
     ComposeFacts MsgFacts CoreFacts.
Import ListNotations.
Local Open Scope string_scope.
Local Open Scope list_scope.
Local Arguments find_class : simpl never.
Local Arguments lit : simpl never.

Lemma shift_elem_0 e : shift_elem 0 e = e.
Proof.
  induction e as [n c subs kw l s [lo hi] t F] using elem_ind'. cbn [shift_elem e_name e_cls e_subs e_kws e_islist e_single e_mm e_tmpl].
  unfold shift_range. cbn [fst snd plus]. f_equal. induction F as [|x xs Hx _ IH]; [reflexivity|]. cbn [map]. rewrite Hx, IH. reflexivity.
Qed.

(* a tree of elements none of which is built specially *)
Fixpoint plain_tree (e : elem) : bool :=
  ordinary (e_cls e) && forallb plain_tree (e_subs e).
Lemma plain_tree_eq e : plain_tree e = ordinary (e_cls e) && forallb plain_tree (e_subs e).
Proof. destruct e; reflexivity. Qed.

(* the attitude state element for one attitude type *)
Definition choose (n : string) (tm : list str) (s : elem) : elem :=
  set_tmpl (set_subs s (filter (fun x => String.eqb (e_name x) n) (e_subs s))) tm.
Definition choose_in (n : string) (tm : list str) (d : elem) : elem := set_subs d (map (choose n tm) (e_subs d)).
Lemma choose_mm n tm e mm : choose n tm (set_mm e mm) = set_mm (choose n tm e) mm.
Proof. destruct e; reflexivity. Qed.
Lemma shift_name k e : e_name (shift_elem k e) = e_name e. Proof. destruct e; reflexivity. Qed.
Lemma choose_shift n tm k e : choose n tm (shift_elem k e) = shift_elem k (choose n tm e).
Proof.
  destruct e as [nm c subs kw l s mm t]. unfold choose, set_tmpl, set_subs. cbn [shift_elem e_name e_cls e_subs e_kws e_islist e_single e_mm e_tmpl].
  f_equal. rewrite filter_map_comm. f_equal. apply filter_ext. intros x. rewrite shift_name. reflexivity.
Qed.
Lemma choose_in_shift n tm k e : choose_in n tm (shift_elem k e) = shift_elem k (choose_in n tm e).
Proof.
  destruct e as [nm c subs kw l s mm t]. unfold choose_in, set_subs. cbn [shift_elem e_name e_cls e_subs e_kws e_islist e_single e_mm e_tmpl].
  f_equal. rewrite !map_map. apply map_ext. intros x. apply choose_shift.
Qed.

Section Tree.
Variable u : env.

(* building does not look at the document unless it meets a segment of an AEM *)
Lemma build_doc n : forall e d1 d2 full, plain_tree e = true -> build u n d1 e full = build u n d2 e full.
Proof.
  induction n as [|n IH]; intros e d1 d2 full P; [reflexivity|]. rewrite plain_tree_eq in P. apply andb_true_iff in P. destruct P as [O P].
  destruct (ordinary_spec _ O) as [H1 [H2 [H3 [H4 [H5 H6]]]]]. cbn [build]. rewrite H1, H2, H3, H4, H5, H6.
  assert (E : forall acc, fold_left (fun acc s => do vs <- acc; do sub <- build u n d1 s full; attach (e_name s) sub vs) (e_subs e) acc
                        = fold_left (fun acc s => do vs <- acc; do sub <- build u n d2 s full; attach (e_name s) sub vs) (e_subs e) acc).
  { induction (e_subs e) as [|s ss IHs]; intros acc; [reflexivity|]. cbn [forallb] in P. apply andb_true_iff in P. destruct P as [P1 P2].
    cbn [fold_left]. rewrite (IH s d1 d2 full P1). apply IHs. exact P2. }
  destruct (slice _ _ full), (e_subs e) as [|s ss]; try reflexivity;
    (destruct (filter _ _); try reflexivity;
     (match goal with |- bind ?x _ = bind ?x _ => destruct x as [[]|] end; try reflexivity; cbn [bind]; rewrite E; reflexivity)).
Qed.
Lemma plain_same e e' : plain_tree e = true -> e_cls e' = e_cls e -> e_subs e' = e_subs e -> plain_tree e' = true.
Proof. intros P C S. rewrite plain_tree_eq in *. rewrite C, S. exact P. Qed.
Lemma identify_plain e keys lines : forall init mx mm e',
  identify u e keys lines init = Ok (mx, mm, e') -> plain_tree e = true -> plain_tree e' = true.
Proof.
  induction e as [n c subs k l s m t F] using elem_ind'. intros init mx mm e'. rewrite identify_eq. intros H P.
  apply bind_ok in H. destruct H as [[mm1 e1] [E H]]. apply own_range_same in E. destruct E as [_ [S2 [S3 _]]].
  assert (P1 : plain_tree e1 = true) by (eapply plain_same; [exact P|exact S2|exact S3]).
  cbn [e_subs] in *. destruct subs as [|s0 subs]; [injection H; intros; subst; exact P1|].
  apply bind_ok in H. destruct H as [[mx1 gs] [E0 H]]. injection H; intros; subst.
  eapply ident_subs_prop with (P := fun s e => plain_tree s = true -> plain_tree e = true) in E0.
  - rewrite plain_tree_eq in P1. apply andb_true_iff in P1. destruct P1 as [O P1]. rewrite plain_tree_eq. cbn [set_subs e_cls e_subs]. rewrite O. cbn [andb].
    apply forallb_forall. intros g Hg. rewrite Forall_forall in E0. destruct (E0 g Hg) as [s1 [I1 X]]. apply X.
    rewrite S3 in P1. rewrite forallb_forall in P1. apply P1. exact I1.
  - eapply Forall_impl; [|exact F]. cbn. intros s1 Hs i a b e' Hi. eapply Hs; exact Hi.
  - intros s1 e' m' X Y. specialize (X Y). destruct e'; exact X.
  - intros s1 e' init' mm' e2 X Y Z. apply own_range_same in Y. destruct Y as [_ [Y2 [Y3 _]]]. eapply plain_same; [exact (X Z)|exact Y2|exact Y3].
Qed.

(* ---- elements of which nothing is there ---- *)
Fixpoint missed (i : nat) (e : elem) : elem :=
  match e with
  | Elem n c subs kw l s m t => Elem n c (map (fun x => set_mm (missed i x) (i, i)) subs) kw l s m t
  end.
Lemma missed_eq i e : missed i e = set_subs e (map (fun x => set_mm (missed i x) (i, i)) (e_subs e)).
Proof. destruct e; reflexivity. Qed.
Lemma missed_name i e : e_name (missed i e) = e_name e. Proof. destruct e; reflexivity. Qed.
Lemma missed_subs i e : e_subs e <> [] -> e_subs (missed i e) <> [].
Proof. destruct e as [n c [|x xs] kw l s m t]; cbn; [congruence|discriminate]. Qed.
(* the keywords of a tree are among T *)
Fixpoint under (T : list str) (e : elem) : bool :=
  ordinary (e_cls e) && negb (e_islist e) && forallb (fun k => mem_str k T) (e_kws e) && negb (mem_str kw_comment (e_kws e)) && forallb (under T) (e_subs e).
Lemma under_eq T e : under T e = ordinary (e_cls e) && negb (e_islist e) && forallb (fun k => mem_str k T) (e_kws e) && negb (mem_str kw_comment (e_kws e)) && forallb (under T) (e_subs e).
Proof. destruct e; reflexivity. Qed.

Lemma under_spec T e : under T e = true -> ordinary (e_cls e) = true /\ e_islist e = false /\ (forall k, In k (e_kws e) -> In k T) /\
  mem_str kw_comment (e_kws e) = false /\ forallb (under T) (e_subs e) = true.
Proof.
  intros U. rewrite under_eq in U. do 4 (apply andb_true_iff in U; let X := fresh "X" in destruct U as [U X]). apply negb_true_iff in X2, X0.
  rewrite forallb_forall in X1. repeat split; try assumption. intros k Hk. apply mem_str_spec. apply X1. exact Hk.
Qed.

Section Missed.
Variables (T : list str) (keys : list str) (lines : list line).
Hypothesis Cl : forall k, In k T -> ~ In k keys.
Lemma own_missed e i : under T e = true -> own_range u e keys lines i = Ok ((i, i), e).
Proof.
  intros U. apply under_spec in U. destruct U as [U [_ [Uk [Uc _]]]]. destruct (ordinary_spec _ U) as [H1 [H2 [H3 [H4 [H5 H6]]]]].
  unfold own_range. rewrite H2, H3, H4, H5, H6. cbn [orb]. rewrite misses_range.
  - cbn [bind]. rewrite set_kws_same. reflexivity.
  - split.
    + intros X. exfalso. apply mem_str_spec in X. congruence.
    + intros t Ht _ X. apply in_skipn in X. exact (Cl t (Uk t Ht) X).
Qed.
Definition missed_sub (lo i : nat) (s : elem) : elem := set_mm (missed i s) (match e_subs s with [] => lo | _ => i end, match e_subs s with [] => lo | _ => i end).
Lemma subs_missed_gen ss : Forall (fun e => under T e = true -> forall i, identify u e keys lines i = Ok (i, (i, i), missed i e)) ss ->
  forallb (under T) ss = true -> forall lo i, ident_subs u keys lines lo ss i = Ok (i, map (missed_sub lo i) ss).
Proof.
  intros F U lo i. induction F as [|s ss Hs F IH]; [reflexivity|]. cbn [forallb] in U. apply andb_true_iff in U. destruct U as [U1 U2].
  cbn [ident_subs map]. pose proof U1 as U0. apply under_spec in U0. destruct U0 as [_ [Il _]]. rewrite Il.
  rewrite (Hs U1). cbn [bind fst snd]. rewrite Nat.eqb_refl, (IH U2). cbn [andb]. unfold missed_sub at 2.
  destruct s as [n c [|x xs] kw l sg m t]; cbn [missed e_subs map].
  - rewrite (own_missed (Elem n c [] kw l sg m t) lo U1). reflexivity.
  - reflexivity.
Qed.
Lemma ident_missed e : under T e = true -> forall i, identify u e keys lines i = Ok (i, (i, i), missed i e).
Proof.
  induction e as [n c subs k l s m t F] using elem_ind'. intros U i. rewrite identify_eq, (own_missed _ i U). cbn [bind e_subs snd fst].
  destruct subs as [|s0 subs]; [reflexivity|]. pose proof U as U0. apply under_spec in U0. destruct U0 as [_ [_ [_ [_ U0]]]]. cbn [e_subs] in U0.
  rewrite (subs_missed_gen _ F U0). cbn [bind].
  rewrite missed_eq. cbn [e_subs]. do 3 f_equal.
  apply map_ext. intros x. unfold missed_sub. destruct (e_subs x); reflexivity.
Qed.
Lemma subs_missed ss : forallb (under T) ss = true -> forall lo i, ident_subs u keys lines lo ss i = Ok (i, map (missed_sub lo i) ss).
Proof. intros U. apply subs_missed_gen; [|exact U]. apply Forall_forall. intros e _. apply ident_missed. Qed.

(* ---- attitude states ---- *)
Lemma missed_sub_name lo i s : e_name (missed_sub lo i s) = e_name s.
Proof. unfold missed_sub. cbn. apply missed_name. Qed.
Lemma ident_att att i : e_cls att = "AttitudeStateType" -> e_subs att <> [] -> forallb (under T) (e_subs att) = true ->
  identify u att keys lines i =
  do mm <- date_range u lines i 0; Ok (snd mm, mm, set_subs att (map (missed_sub (fst mm) (snd mm)) (e_subs att))).
Proof.
  intros C N U. rewrite identify_eq. unfold own_range. rewrite C. cbn [String.eqb Ascii.eqb Bool.eqb orb].
  destruct (date_range u lines i 0) as [mm|]; [|reflexivity]. cbn [bind]. destruct (e_subs att) as [|s0 ss] eqn:E; [congruence|].
  rewrite subs_missed by exact U. reflexivity.
Qed.
Definition chosen (n : string) (tm : list str) (r : res ident) : res ident :=
  match r with Ok (m, mm, e) => Ok (m, mm, choose n tm e) | Err x => Err x end.
Lemma choose_ident n tm att i : e_cls att = "AttitudeStateType" -> e_subs att <> [] -> forallb (under T) (e_subs att) = true ->
  e_subs (choose n tm att) <> [] -> identify u (choose n tm att) keys lines i = chosen n tm (identify u att keys lines i).
Proof.
  intros C N U N'. rewrite !ident_att; try assumption.
  2:{ cbn [choose set_tmpl set_subs e_subs]. clear - U. induction (e_subs att) as [|s ss IH]; [reflexivity|]. cbn [forallb filter] in *.
      apply andb_true_iff in U. destruct U as [U1 U2]. destruct (String.eqb _ _); cbn [forallb]; rewrite ?U1; apply IH; exact U2. }
  destruct (date_range u lines i 0) as [mm|]; [|reflexivity]. cbn [bind chosen]. do 2 f_equal. destruct att as [nm c subs kw l s m t].
  unfold choose, set_tmpl, set_subs. cbn [e_name e_cls e_subs e_kws e_islist e_single e_mm e_tmpl]. f_equal.
  rewrite filter_map_comm. f_equal. apply filter_ext. intros x. rewrite missed_sub_name. reflexivity.
Qed.
Definition chosen_list (n : string) (tm : list str) (r : res (nat * list elem)) : res (nat * list elem) :=
  match r with Ok (m, es) => Ok (m, map (choose n tm) es) | Err x => Err x end.
Lemma choose_list n tm one one' nl : (forall i, one' i = chosen n tm (one i)) ->
  forall fuel i last, identify_list one' nl fuel i last = chosen_list n tm (identify_list one nl fuel i last).
Proof.
  intros H. induction fuel as [|f IH]; intros i last; [reflexivity|]. rewrite !identify_list_S, H.
  destruct (one i) as [[[mx [lo hi]] e]|]; [|reflexivity]. cbn [chosen bind]. destruct (_ && _)%bool; [reflexivity|]. destruct (Nat.ltb _ _); [reflexivity|].
  cbv zeta. destruct (Nat.leb _ _); [cbn [chosen_list map]; rewrite choose_mm; reflexivity|]. rewrite IH.
  destruct (identify_list one nl f mx mx) as [[m es]|]; [|reflexivity]. cbn [chosen_list bind map]. rewrite choose_mm. reflexivity.
Qed.
Definition chosen_in (n : string) (tm : list str) (r : res ident) : res ident :=
  match r with Ok (m, mm, e) => Ok (m, mm, choose_in n tm e) | Err x => Err x end.
Lemma choose_data n tm data att i : ordinary (e_cls data) = true -> e_subs data = [att] -> e_islist att = true ->
  e_cls att = "AttitudeStateType" -> e_subs att <> [] -> forallb (under T) (e_subs att) = true -> e_subs (choose n tm att) <> [] ->
  identify u (choose_in n tm data) keys lines i = chosen_in n tm (identify u data keys lines i).
Proof.
  intros O Es Il C N U N'. rewrite !identify_eq.
  assert (R : forall j, own_range u (choose_in n tm data) keys lines j
            = match own_range u data keys lines j with Ok (mm, e) => Ok (mm, choose_in n tm e) | Err x => Err x end).
  { intros j. destruct (ordinary_spec _ O) as [H1 [H2 [H3 [H4 [H5 H6]]]]]. unfold own_range. cbn [choose_in set_subs e_cls e_kws e_single].
    rewrite H2, H3, H4, H5, H6. cbn [orb]. destruct (get_min_max _ _ _ _ _) as [[mm tags]|]; reflexivity. }
  rewrite R. destruct (own_range u data keys lines i) as [[mm e1]|]; [|reflexivity]. cbn [bind].
  replace (e_subs (choose_in n tm data)) with [choose n tm att] by (cbn [choose_in set_subs e_subs]; rewrite Es; reflexivity).
  rewrite Es. cbn [ident_subs]. replace (e_islist (choose n tm att)) with true by (cbn; symmetry; exact Il). rewrite Il.
  rewrite (choose_list n tm (identify u att keys lines)) by (intros j; apply choose_ident; assumption).
  destruct (identify_list (identify u att keys lines) _ _ _ _) as [[m es]|]; [|reflexivity]. cbn [chosen_list bind chosen_in].
  rewrite !app_nil_r. reflexivity.
Qed.
End Missed.

(* ---- a segment ---- *)
Lemma lookup_shift key p L i : lookup_line key (p ++ L) (List.length p + i) = lookup_line key L i.
Proof.
  unfold lookup_line. unfold keys_of. rewrite map_app. fold (keys_of p) (keys_of L). rewrite index_start_shift by apply keys_of_length.
  destruct (index_start key (keys_of L) i) as [j|]; [|reflexivity]. cbn [option_map guard_opt bind]. rewrite get_shift by reflexivity. reflexivity.
Qed.
Lemma template_shift p L i : att_template (p ++ L) (List.length p + i) = att_template L i.
Proof. unfold att_template. rewrite !lookup_shift. reflexivity. Qed.

Lemma prepare_chosen n tm seg g1 g2 pre L mm : att_template (pre ++ L) (snd mm) = Ok (Some n, tm) ->
  prepare_aem_segment (set_mm (shift_subs (List.length pre) (set_subs seg [g1; g2])) mm) (pre ++ L)
  = Ok (set_mm (set_subs seg [shift_elem (List.length pre) g1; choose_in n tm (shift_elem (List.length pre) g2)]) mm).
Proof.
  intros H. unfold prepare_aem_segment. cbn [shift_subs set_subs e_subs set_mm map get nth_error guard_opt bind e_mm]. rewrite H. reflexivity.
Qed.
Lemma aem_segment_reads T n tm seg meta data att ml dl rest md vd :
  e_cls seg = "AemSegment" -> e_kws seg = [] -> e_single seg = None -> e_subs seg = [meta; data] ->
  e_islist meta = false -> e_islist data = false -> ordinary (e_cls data) = true -> e_subs data = [att] -> e_islist att = true ->
  e_cls att = "AttitudeStateType" -> e_subs att <> [] -> forallb (under T) (e_subs att) = true -> e_subs (choose n tm att) <> [] ->
  (forall k, In k T -> ~ In k (keys_of (dl ++ rest))) ->
  att_template (ml ++ dl ++ rest) 0 = Ok (Some n, tm) ->
  reads u meta (ml ++ dl ++ rest) md (List.length ml) -> reads u (choose_in n tm data) (dl ++ rest) vd (List.length dl) ->
  vars_of (new_obj (e_cls seg)) = [(e_name meta, VNone); (e_name data, VNone)] -> e_name meta <> e_name data ->
  reads u seg (ml ++ dl ++ rest) (VObj (e_cls seg) [(e_name meta, md); (e_name data, vd)]) (List.length (ml ++ dl)).
Proof.
  intros Cs Ks Ss Es Im Id Od Ed Il Ca Na Ua Nc Cl Tm Rm Rd V Ne.
  destruct Rm as [hm [em [Em [Zm Bm]]]]. destruct Rd as [hd [ed' [Ed' [Zd Bd]]]].
  rewrite (choose_data T (keys_of (dl ++ rest)) (dl ++ rest) Cl n tm data att 0 Od Ed Il Ca Na Ua Nc) in Ed'.
  destruct (identify u data (keys_of (dl ++ rest)) (dl ++ rest) 0) as [[[md0 mmd] ed]|] eqn:E; [|discriminate]. cbn [chosen_in] in Ed'. injection Ed'; intros <- -> ->.
  set (gd := set_mm ed (0, hd)).
  assert (Zd' : 0 < hd \/ e_subs ed <> []).
  { destruct Zd as [Zd|Zd]; [left; exact Zd|right]. cbn [choose_in set_subs e_subs] in Zd. intros X. rewrite X in Zd. apply Zd. reflexivity. }
  set (L := ml ++ dl ++ rest) in *. set (p := List.length ml).
  set (g1 := set_mm em (0, hm)). set (g2 := shift_elem p gd).
  assert (I : ident_subs u (keys_of L) L 0 [meta; data] 0 = Ok (List.length (ml ++ dl), [g1; g2])).
  { cbn [ident_subs]. rewrite Im, Id, Em. cbn [bind fst snd].
    replace (Nat.eqb 0 hm && match e_subs em with [] => true | _ => false end)%bool with false.
    2:{ symmetry. apply andb_false_iff. destruct Zm as [Zm|Zm]; [left; apply Nat.eqb_neq; lia|right; destruct (e_subs em); [congruence|reflexivity]]. }
    cbn [bind]. unfold L. rewrite identify_at, E. cbn [shift_ident bind]. unfold shift_range. cbn [fst snd]. fold p.
    replace (Nat.eqb (p + 0) (p + hd) && match e_subs (shift_subs p ed) with [] => true | _ => false end)%bool with false.
    2:{ symmetry. apply andb_false_iff. destruct Zd' as [X|X]; [left; apply Nat.eqb_neq; lia|right]. destruct ed as [? ? [|] ? ? ? ? ?]; [cbn in X; congruence|reflexivity]. }
    cbn [bind]. rewrite app_length. fold p. unfold g2, gd. rewrite shift_set_mm. unfold shift_range. cbn [fst snd]. reflexivity. }
  exists 0, (set_subs seg [g1; g2]). rewrite identify_eq. unfold own_range. rewrite Cs, Ss, Ks. cbn [String.eqb Ascii.eqb Bool.eqb orb].
  rewrite bare_range. cbn [bind fst snd]. rewrite Es, I. cbn [bind].
  split; [rewrite <- Ks, set_kws_same; reflexivity|]. split; [right; discriminate|].
  intros pre fuel D. destruct fuel as [|f]; [lia|]. rewrite shift_set_mm. cbn [build set_mm e_cls e_mm e_subs e_kws e_single shift_subs set_subs map].
  rewrite Cs. cbn [String.eqb Ascii.eqb Bool.eqb]. unfold shift_range. cbn [fst snd].
  unfold slice. replace (List.length pre + 0 - (List.length pre + 0)) with 0 by lia. cbn [firstn].
  rewrite (prepare_chosen n tm seg g1 g2 pre L (List.length pre + 0, List.length pre + 0)) by (cbn [snd]; rewrite template_shift; exact Tm).
  cbn [bind set_mm set_subs e_subs].
  rewrite parse_nothing. cbn [bind]. rewrite depth_set_mm, depth_eq in D. cbn [set_subs e_subs depths fold_right] in D.
  assert (K1 : e_name g1 = e_name meta) by (apply identify_kept in Em; destruct Em as [X _]; destruct em; exact X).
  assert (K2 : e_name g2 = e_name data) by (apply identify_kept in E; destruct E as [X _]; destruct ed; exact X).
  assert (B1 : build u f (pre ++ L) (shift_elem (List.length pre) g1) (pre ++ L) = Ok md) by (apply Bm; unfold g1 in D; lia).
  assert (B2 : build u f (pre ++ L) (choose_in n tm (shift_elem (List.length pre) g2)) (pre ++ L) = Ok vd).
  { unfold g2. rewrite !choose_in_shift. pose proof (builds_shift u (set_mm (choose_in n tm ed) (0, hd)) ml (dl ++ rest) vd Bd pre f) as X.
    unfold builds in X. fold L p in X. unfold gd. replace (choose_in n tm (set_mm ed (0, hd))) with (set_mm (choose_in n tm ed) (0, hd)) by (destruct ed; reflexivity).
    apply X. rewrite shift_depth, depth_set_mm. unfold g2, gd in D. rewrite shift_depth, depth_set_mm in D. rewrite !depth_eq in *. cbn [choose_in set_subs e_subs].
    assert (Y : depths (map (choose n tm) (e_subs ed)) <= depths (e_subs ed)); [|lia].
    apply depths_le. apply Forall_forall. intros s Hs. apply in_map_iff in Hs. destruct Hs as [s0 [<- Hs]]. apply depths_in in Hs.
    unfold choose. rewrite depth_set_tmpl, depth_eq. cbn [set_subs e_subs]. rewrite depth_eq in Hs. pose proof (depths_filter (fun x => String.eqb (e_name x) n) (e_subs s0)). lia. }
  rewrite Cs in V. cbn [fold_left bind]. rewrite B1. cbn [bind]. rewrite V. cbn [bind].
  replace (e_name (shift_elem (List.length pre) g1)) with (e_name meta) by (rewrite shift_name; symmetry; exact K1).
  unfold attach at 1. cbn [assoc]. rewrite String.eqb_refl. cbn [bind set_var]. rewrite String.eqb_refl. cbn [bind]. rewrite B2. cbn [bind].
  replace (e_name (choose_in n tm (shift_elem (List.length pre) g2))) with (e_name data) by (cbn [choose_in set_subs e_name]; rewrite shift_name; symmetry; exact K2).
  unfold attach. cbn [assoc]. rewrite (proj2 (String.eqb_neq _ _) Ne), String.eqb_refl. cbn [bind set_var]. rewrite (proj2 (String.eqb_neq _ _) Ne), String.eqb_refl. reflexivity.
Qed.
End Tree.
