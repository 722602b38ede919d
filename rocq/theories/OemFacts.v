(* Ephemeris messages: reading the lines of segments with state vectors and covariance matrices. *)
From Coq Require Import NArith ZArith List Bool String Arith Lia.
From Verif Require Import PyStr PyDec PyVal Schema KvnPre KvnTree KvnSeg XmlBind KvnBuild NdmXml KvnWrite
     Spec SpecKvn SpecObj SpecMsg StrFacts DecFacts PreFacts SegFacts BuildFacts WriteFacts ParseFacts ShiftFacts
     ReadFacts ComposeFacts MsgFacts PropWrite CoreFacts UserFacts DataFacts SingleFacts ListFacts RelFacts SegListFacts
     GapFacts SpecEph EphText EphFacts.
Import ListNotations.
Local Open Scope string_scope.
Local Open Scope list_scope.
Local Arguments find_class : simpl never.
Local Arguments lit : simpl never.

Definition numeric_key (k : str) : Prop := exists c s, k = c :: s /\ (is_digit c = true \/ c = 46%N \/ c = 43%N \/ c = 45%N).
Lemma numeric_not_plain k : numeric_key k -> plain_kw k = true -> False.
Proof.
  intros [c [s [-> H]]] P. unfold plain_kw in P. do 2 (apply andb_true_iff in P; destruct P as [P ?]).
  destruct H as [H|[->|[->| ->]]]; try discriminate. destruct (upper_not_digit c) as [_ D]; [assumption|congruence].
Qed.

Section Oem.
Variable u : env.

Lemma leaf_reads_range e own rest c vars : ordinary (e_cls e) = true -> e_single e = None -> root_kws (e_kws e) = false ->
  e_subs e = [] -> own <> [] -> (forall k, In k (keys_of own) -> In k (e_kws e)) ->
  get_min_max (e_kws e) 0 (keys_of (own ++ rest)) None false = Ok ((0, List.length own), e_kws e) ->
  parse_list u (e_cls e) None own = Ok (VObj c vars) ->
  reads u e (own ++ rest) (VObj c vars) (List.length own).
Proof.
  intros O S K Es Ne I C P. exists (List.length own), e. rewrite identify_eq.
  rewrite (own_range_ordinary u e _ _ 0 _ _ O S C). cbn [bind]. rewrite Es, set_kws_same.
  split; [reflexivity|]. split; [left; destruct own; [congruence|cbn; lia]|].
  apply build_leaf; try assumption. unfold own_lines.
  clear - I. induction own as [|l own IH]; [reflexivity|]. cbn [filter]. rewrite (proj2 (mem_str_spec _ _)) by (apply I; left; reflexivity).
  f_equal. apply IH. intros k Hk. apply I. right. exact Hk.
Qed.
(* a section followed by a line whose key is no keyword and contains a space ends there *)
Lemma section_reads_gap s v l rest : leaf_elem s = true -> section (e_cls s) v ->
  ~ In (key_of l) (e_kws s) -> key_of l <> kw_comment -> mem_char c_sp (key_of l) = true ->
  reads u s (sec_lines v ++ l :: rest) v (List.length (sec_lines v)).
Proof.
  intros L S N1 N2 N3. assert (C : claims (e_kws s) (keys_of (sec_lines v)) []) by (apply (section_claims u); [exact L|exact S|intros t _ _ []]).
  pose proof (section_keys_incl u s v L (or_intror S)) as Ki. pose proof (section_lines_ne u s v L S) as Nl.
  destruct S as [vars [-> [W Nz]]]. destruct (leaf_elem_spec s L) as [O [Sg [Es [Lc [Ek [H1 R]]]]]].
  destruct C as [n [ks [E [C1 [C2 [C3 [C4 [C5 [C6 _]]]]]]]]].
  apply leaf_reads_range; try assumption.
  - intros X. rewrite X in Nl. cbn in Nl. lia.
  - intros k Hk. destruct (list_eq_dec N.eq_dec k kw_comment) as [->|Nc]; [|destruct (Ki k Hk); [contradiction|assumption]].
    apply C5. intros ->. cbn [repeat app] in E. rewrite E in Hk. contradiction.
  - rewrite keys_of_app. cbn [keys_of map]. fold (keys_of rest). rewrite <- (keys_of_length (sec_lines _)). apply gap_range; try assumption.
    + rewrite Ek. clear - Lc. unfold leaf_class in Lc. do 3 (apply andb_true_iff in Lc; destruct Lc as [Lc ?]).
      rewrite <- (map_map kw_of lit). apply FinFun.Injective_map_NoDup; [intros a b; apply lit_inj|]. apply no_dup_strings_spec. assumption.
    + exists n, ks. auto 10.
  - cbn [sec_lines]. apply parse_section; assumption.
Qed.

Lemma segment_of seg meta data md ml dl rest vd : bare_elem seg = true -> e_subs seg = [meta; data] ->
  e_islist meta = false -> e_islist data = false ->
  reads u meta (ml ++ dl ++ rest) md (List.length ml) -> reads u data (dl ++ rest) vd (List.length dl) ->
  vars_of (new_obj (e_cls seg)) = [(e_name meta, VNone); (e_name data, VNone)] -> e_name meta <> e_name data ->
  reads u seg (ml ++ dl ++ rest) (VObj (e_cls seg) [(e_name meta, md); (e_name data, vd)]) (List.length (ml ++ dl)).
Proof.
  intros B Es Im Id Rm R N Ne. destruct (bare_elem_spec seg B) as [O [Sg [Ek Eb]]].
  eapply bare_reads; try assumption.
  2:{ rewrite Es, app_length. apply subs_one; [exact Im|exact Rm|].
      rewrite <- (Nat.add_0_r (List.length dl)). apply subs_one; [exact Id|exact R|apply subs_nil]. }
  - discriminate.
  - rewrite N. cbn [attach_all]. unfold attach. cbn [assoc]. rewrite String.eqb_refl. cbn [bind set_var]. rewrite String.eqb_refl.
    cbn [assoc]. rewrite (proj2 (String.eqb_neq _ _) Ne), String.eqb_refl. cbn [bind set_var].
    rewrite (proj2 (String.eqb_neq _ _) Ne), String.eqb_refl. reflexivity.
Qed.

(* a segment and the lines of its state vectors and covariance matrices *)
Definition opart := (oem_part * (list line * list (list line)))%type.
Definition odata (q : opart) : list line :=
  let '((_, cs, _, _), (sls, cls)) := q in comment_lines cs ++ sls ++ List.concat cls.
Definition ometa (q : opart) : pyval := let '((md, _, _, _), _) := q in md.
Definition olines (q : opart) : list line := sec_lines (ometa q) ++ odata q.
Definition spaced (sls : list line) : Prop := exists s r, sls = [s] :: r /\ mem_char c_sp s = true.
Definition opart_ok (q : opart) : Prop :=
  let '((md, cs, states, covs), (sls, cls)) := q in
  section "OemMetadata" md /\ Forall good_text cs /\ List.length cs <= 1 /\ sls <> [] /\
  Forall2 sline sls states /\ Forall2 cblock cls covs.
Definition ocovs (q : opart) : list record := let '((_, _, _, covs), _) := q in covs.
Fixpoint oapart (qs : list opart) : Prop :=
  match qs with
  | [] => True
  | ((md, cs, _, _), (sls, _)) :: r =>
    ((cs = [] /\ spaced sls) \/ forall q, In q r -> forall n, sets (ometa q) n -> sets md n) /\
    match r with
    | [] => True
    | q :: _ => comments_of (ometa q) = [] \/ forall q', In q' r -> ocovs q' = []
    end /\ oapart r
  end.

Definition oem_shape (hdr body seg meta data sv cv : elem) : Prop :=
  (In "Oem" root_classes /\ e_subs (tree_of "Oem") = [hdr; body] /\ e_subs body = [seg] /\ e_subs seg = [meta; data] /\ e_subs data = [sv; cv]) /\
  (sec_elem hdr = true /\ bare_elem body = true /\ e_islist body = false /\ quiet_class (e_cls body) = true /\
   disjointb (deleted_keywords "Oem") (lit "EPOCH" :: e_kws hdr ++ e_kws meta) = true) /\
  (bare_elem seg = true /\ e_islist seg = true /\ quiet_class (e_cls seg) = true) /\
  (leaf_elem meta = true /\ e_islist meta = false /\ sec_class (e_cls meta) = true /\ has_comments (e_cls meta) = true) /\
  (data_elem data = true /\ e_islist data = false /\ quiet_class (e_cls data) = true) /\
  state_elem sv /\ cov_elem cv /\
  (disjointb (e_kws hdr) (e_kws meta) = true /\ disjointb (e_kws hdr) covT = true /\ disjointb (e_kws meta) covT = true) /\
  (forallb plain_kw (e_kws hdr) = true /\ forallb plain_kw (e_kws meta) = true) /\
  (e_name hdr = "header" /\ e_name body = "body" /\ e_name seg = "segment" /\ e_name meta = "metadata" /\ e_name data = "data" /\
   e_name sv = "state_vector" /\ e_name cv = "covariance_matrix") /\
  (e_cls hdr = "NdmHeader" /\ e_cls body = "OemBody" /\ e_cls seg = "OemSegment" /\ e_cls meta = "OemMetadata" /\ e_cls data = "OemData") /\
  (vars_of (new_obj "Oem") = [("header", VNone); ("body", VNone)] /\ vars_of (new_obj (e_cls body)) = [("segment", VList [])] /\
   vars_of (new_obj (e_cls seg)) = [("metadata", VNone); ("data", VNone)] /\
   defaults (tl (fields_of (e_cls data))) = [("state_vector", VList []); ("covariance_matrix", VList [])]).
Lemma oem_shape_ok : exists hdr body seg meta data sv cv, oem_shape hdr body seg meta data sv cv.
Proof.
  exists (at_name ["header"] (tree_of "Oem")), (at_name ["body"] (tree_of "Oem")), (at_name ["body"; "segment"] (tree_of "Oem")),
    (at_name ["body"; "segment"; "metadata"] (tree_of "Oem")), (at_name ["body"; "segment"; "data"] (tree_of "Oem")),
    (at_name ["body"; "segment"; "data"; "state_vector"] (tree_of "Oem")), (at_name ["body"; "segment"; "data"; "covariance_matrix"] (tree_of "Oem")).
  split; [split; [cbn [In root_classes]; tauto|]|]; repeat (apply conj); vm_compute; reflexivity.
Qed.

Lemma sline_key l r : sline l r -> exists s, l = [s] /\ numeric_key s.
Proof.
  intros [s [ts [extra [-> [Tr [C [D _]]]]]]]. exists s. split; [reflexivity|]. destruct (columned_first _ _ _ C Tr) as [s' ->].
  destruct (date_head _ D) as [c [e [-> Hc]]]. exists c, (e ++ s'). split; [reflexivity|left; exact Hc].
Qed.
Lemma cblock_key ls r k : cblock ls r -> In k (keys_of ls) -> k = lit "EPOCH" \/ numeric_key k.
Proof.
  intros [_ [rows [tss [dss [-> [F _]]]]]] [<-|X]; [left; reflexivity|right].
  apply in_map_iff in X. destruct X as [l [<- Hl]]. destruct (Forall2_in_l _ _ _ _ F Hl) as [td [_ Hc]].
  destruct (crow_head u _ _ _ Hc) as [c [s [-> [Hn _]]]]. exists c, s. auto.
Qed.
Lemma odata_keys q k : opart_ok q -> In k (keys_of (odata q)) ->
  k = kw_comment \/ (k = lit "EPOCH" /\ ocovs q <> []) \/ numeric_key k.
Proof.
  destruct q as [[[[md cs] states] covs] [sls cls]]. intros [_ [_ [_ [_ [Fs Fc]]]]] H. cbn [odata ocovs] in *. rewrite !keys_of_app in H.
  apply in_app_or in H. destruct H as [H|H]; [left; exact (comment_keys _ _ H)|]. right. apply in_app_or in H. destruct H as [H|H].
  - right. apply in_map_iff in H. destruct H as [l [<- Hl]]. destruct (Forall2_in_l _ _ _ _ Fs Hl) as [r [_ Hr]]. destruct (sline_key _ _ Hr) as [s [-> Hs]]. exact Hs.
  - apply in_map_iff in H. destruct H as [l [<- Hl]]. apply in_concat in Hl. destruct Hl as [b [Hb Hl]]. destruct (Forall2_in_l _ _ _ _ Fc Hb) as [r [Ir Hr]].
    destruct (cblock_key _ _ (key_of l) Hr (in_map key_of _ _ Hl)) as [E|E]; [left; split; [exact E|]|right; exact E]. intros X. rewrite X in Ir. destruct Ir.
Qed.
Definition later (r : list opart) : list line := flat_map olines r.

Section Shape.
Variables hdr body seg meta data sv cv : elem.
Hypothesis Sp : oem_shape hdr body seg meta data sv cv.
Lemma olines_keys q k : opart_ok q -> In k (keys_of (olines q)) ->
  k = kw_comment \/ In k (e_kws meta) \/ (k = lit "EPOCH" /\ ocovs q <> []) \/ numeric_key k.
Proof.
  intros Q H. unfold olines in H. rewrite keys_of_app in H. apply in_app_or in H. destruct H as [H|H].
  - destruct Sp as [_ [_ [_ [[Lm _] [_ [_ [_ [_ [_ [_ [[_ [_ [_ [C _]]]] _]]]]]]]]]]].
    destruct q as [[[[md cs] states] covs] [sls cls]]. destruct Q as [Sm _]. cbn [ometa] in H.
    destruct (section_keys_incl u meta md Lm) with (k := k) as [E|E]; [right; rewrite C; exact Sm|exact H|auto|auto].
  - destruct (odata_keys q k Q H) as [E|E]; auto.
Qed.
Lemma later_keys r k : Forall opart_ok r -> In k (keys_of (later r)) ->
  k = kw_comment \/ In k (e_kws meta) \/ (k = lit "EPOCH" /\ exists q, In q r /\ ocovs q <> []) \/ numeric_key k.
Proof.
  induction 1 as [|q r Q _ IH]; [intros []|]. cbn [later flat_map]. rewrite keys_of_app. intros H. apply in_app_or in H. destruct H as [H|H].
  - destruct (olines_keys q k Q H) as [E|[E|[[E X]|E]]]; auto. right; right; left. split; [exact E|]. exists q. split; [left; reflexivity|exact X].
  - destruct (IH H) as [E|[E|[[E [q' [I X]]]|E]]]; auto. right; right; left. split; [exact E|]. exists q'. split; [right; exact I|exact X].
Qed.
Lemma plain_meta k : In k (e_kws meta) -> plain_kw k = true.
Proof. destruct Sp as [_ [_ [_ [_ [_ [_ [_ [_ [[_ P] _]]]]]]]]]. rewrite forallb_forall in P. apply P. Qed.
Lemma plain_cov k : In k covT -> plain_kw k = true.
Proof. destruct (cov_texts u) as [_ [P _]]. rewrite forallb_forall in P. apply P. Qed.
Lemma plain_comment : plain_kw kw_comment = true. Proof. vm_compute. reflexivity. Qed.
Lemma meta_not_cov k : In k (e_kws meta) -> k <> kw_comment -> ~ In k covT.
Proof. destruct Sp as [_ [_ [_ [_ [_ [_ [_ [[_ [_ D]] _]]]]]]]]. intros H N. exact (disjointb_spec _ _ _ D H N). Qed.
Lemma epoch_cov : In (lit "EPOCH") covT. Proof. destruct (cov_texts u) as [_ [_ [I _]]]. exact I. Qed.
Lemma epoch_not_comment : lit "EPOCH" <> kw_comment. Proof. intros X. apply lit_inj in X. discriminate. Qed.
Lemma epoch_not_meta : ~ In (lit "EPOCH") (e_kws meta).
Proof. intros H. exact (meta_not_cov _ H epoch_not_comment epoch_cov). Qed.

(* the first line of metadata *)
Lemma meta_first md : section "OemMetadata" md -> exists l r, sec_lines md = l :: r /\ keyed l /\
  (comments_of md = [] -> ~ In (key_of l) covT).
Proof.
  intros Sm. destruct Sp as [_ [_ [_ [[Lm [_ [_ Hc]]] [_ [_ [_ [_ [_ [_ [[_ [_ [_ [C _]]]] _]]]]]]]]]]].
  rewrite <- C in Sm. destruct (leaf_elem_spec meta Lm) as [_ [_ [_ [Lc _]]]].
  destruct (section_split u _ _ Lc Hc Sm) as [ts [rest [E1 [G [E2 [[l [r [-> Hk]]] _]]]]]].
  assert (X : exists l0 r0, sec_lines md = l0 :: r0) by (rewrite E2; destruct ts; do 2 eexists; reflexivity). destruct X as [l0 [r0 E0]].
  assert (Il : In (key_of l0) (keys_of (sec_lines md))) by (rewrite E0; left; reflexivity).
  pose proof (section_keys_incl u meta md Lm (or_intror Sm) _ Il) as Ki. exists l0, r0. split; [exact E0|]. split.
  - assert (P : plain_kw (key_of l0) = true) by (destruct Ki as [->|Ki]; [exact plain_comment|apply plain_meta; exact Ki]).
    destruct l0 as [|k x]; [discriminate|]. exists k, x. split; [reflexivity|exact P].
  - intros Ec. rewrite Ec in E1. destruct ts; [|discriminate]. cbn [comment_lines map app] in E2. rewrite E2 in E0. injection E0 as -> _.
    destruct Ki as [Ki|Ki]; [contradiction|]. apply meta_not_cov; assumption.
Qed.
Lemma later_first r : Forall opart_ok r -> later r = [] \/ exists l R, later r = l :: R /\ keyed l.
Proof.
  intros F. destruct F as [|q r Q F]; [left; reflexivity|right]. cbn [later flat_map]. unfold olines.
  destruct q as [[[[md cs] states] covs] [sls cls]]. destruct Q as [Sm _]. cbn [ometa]. destruct (meta_first md Sm) as [l [x [-> [K _]]]].
  do 2 eexists. split; [reflexivity|exact K].
Qed.

Lemma odata_reads q r : Forall opart_ok (q :: r) -> oapart (q :: r) ->
  exists vd, oem_segment (fst q) = VObj "OemSegment" [("metadata", ometa q); ("data", vd)] /\
  reads u data (odata q ++ later r) vd (List.length (odata q)).
Proof.
  intros F A. pose proof (Forall_inv F) as Q. pose proof (Forall_inv_tail F) as Fr. destruct q as [[[[md cs] states] covs] [sls cls]].
  cbn [fst oem_segment ometa]. eexists. split; [reflexivity|]. destruct Q as [Sm [G [Lcs [Ns [Fs Fc]]]]].
  destruct Sp as [[_ [_ [_ [_ Es]]]] [_ [_ [_ [[Dd _] [Ss [Sc [_ [_ [[_ [_ [_ [_ [_ [Nsv Ncv]]]]]] [[_ [_ [_ [_ Cd]]]] [_ [_ [_ Df]]]]]]]]]]]]]].
  pose proof (later_first r Fr) as Hf.
  assert (Ht : comment_lines cs = takes (hd_error cs)) by (rewrite takes_comment; destruct cs as [|a [|]]; [reflexivity|apply app_nil_r|cbn in Lcs; lia]).
  assert (Hk : forall t, In t covT -> t <> kw_comment -> In t (keys_of (later r)) -> t = lit "EPOCH").
  { intros t H1 H2 H3. destruct (later_keys r t Fr H3) as [E|[E|[[E _]|E]]]; [contradiction|destruct (meta_not_cov t E H2 H1)|exact E|].
    destruct (numeric_not_plain t E (plain_cov t H1)). }
  assert (Hc : cov_clear (later r)).
  { destruct A as [_ [A _]]. destruct r as [|q' r']; [left; intros t _ _ []|]. destruct A as [A|A].
    - right. intros k E. pose proof (Forall_inv Fr) as Q'. destruct q' as [[[[md' cs'] states'] covs'] [sls' cls']]. destruct Q' as [Sm' _]. cbn [ometa] in A.
      destruct (meta_first md' Sm') as [l [x [El [_ N]]]]. cbn [later flat_map] in E. unfold olines in E. cbn [ometa] in E. rewrite El in E. cbn in E. injection E as <-. exact (N A).
    - left. intros t H1 H2 H3. destruct (later_keys _ t Fr H3) as [E|[E|[[E [q [I X]]]|E]]]; [contradiction|destruct (meta_not_cov t E H2 H1)|exact (X (A q I))|].
      destruct (numeric_not_plain t E (plain_cov t H1)). }
  unfold odata. rewrite <- app_assoc, Ht, app_length, <- Cd.
  apply (data_block u data cs ((sls ++ List.concat cls) ++ later r)
    (map (fun v => (e_name sv, v)) (map oem_state states) ++ map (fun v => (e_name cv, v)) (map oem_cov covs) ++ [])).
  - exact Dd.
  - exact G.
  - intros X. apply app_eq_nil in X. destruct X as [X _]. apply app_eq_nil in X. destruct X. contradiction.
  - intros _. destruct Fs as [|l s sls states Hl Fs]; [congruence|]. destruct (sline_key _ _ Hl) as [x [-> Hx]]. cbn. intros X. injection X as ->.
    exact (numeric_not_plain _ Hx plain_comment).
  - destruct Fs as [|l s sls states Hl Fs]; [congruence|]. discriminate.
  - rewrite Es, <- app_assoc, app_length. apply subs_list; [apply Ss| |].
    + apply states_list; try assumption. destruct Fc as [|b c cls covs Hb Fc]; [exact Hf|]. right. destruct (cblock_head _ _ Hb) as [_ [x ->]]. cbn [List.concat app].
      do 2 eexists. split; [reflexivity|apply epoch_keyed].
    + rewrite <- (Nat.add_0_r (List.length (List.concat cls))). apply subs_list; [apply Sc| |apply subs_nil]. apply covs_list; assumption.
  - rewrite Df, attach_all_app, Nsv, Ncv, app_nil_r. rewrite attach_list.
    2:{ eexists. reflexivity. } 2:{ clear. induction states; constructor; [discriminate|assumption]. }
    cbn [bind]. rewrite attach_list.
    2:{ eexists. reflexivity. } 2:{ clear. induction covs; constructor; [discriminate|assumption]. }
    assert (Ef : firstn 1 (texts cs) = texts cs) by (destruct cs as [|a [|]]; [reflexivity|reflexivity|cbn in Lcs; lia]). rewrite Ef. reflexivity.
Qed.

Lemma opart_reads q r : Forall opart_ok (q :: r) -> oapart (q :: r) ->
  reads u seg (olines q ++ later r) (oem_segment (fst q)) (List.length (olines q)).
Proof.
  intros F A. destruct (odata_reads q r F A) as [vd [Eo Rd]]. rewrite Eo. pose proof (Forall_inv F) as Q. pose proof (Forall_inv_tail F) as Fr.
  assert (Rm : reads u meta (sec_lines (ometa q) ++ odata q ++ later r) (ometa q) (List.length (sec_lines (ometa q)))).
  { destruct Sp as [_ [_ [_ [[Lm _] [_ [_ [_ [_ [_ [_ [[_ [_ [_ [C _]]]] _]]]]]]]]]]].
    destruct q as [[[[md cs] states] covs] [sls cls]]. pose proof Q as Q0. destruct Q as [Sm [G [Lcs [Ns [Fs Fc]]]]]. cbn [ometa]. rewrite <- C in Sm.
    destruct A as [[[-> [s [x [-> Hs]]]]|A] _].
    - cbn [odata comment_lines map app]. inversion Fs as [|? r0 ? states' Hl _]; subst. destruct (sline_key _ _ Hl) as [s' [E Hn]]. injection E as <-.
      apply section_reads_gap; [exact Lm|exact Sm| | |exact Hs].
      + intros X. exact (numeric_not_plain _ Hn (plain_meta _ X)).
      + intros X. cbn [key_of hd] in X. rewrite X in Hn. exact (numeric_not_plain _ Hn plain_comment).
    - apply section_reads; [exact Lm|exact Sm|]. rewrite keys_of_app. 
      assert (Kd : forall q', opart_ok q' -> known (e_kws meta) (keys_of (sec_lines md)) (keys_of (odata q'))).
      { intros q' Q' t H1 H2 H3. exfalso. destruct (odata_keys q' t Q' H3) as [E|[[E _]|E]]; [contradiction|rewrite E in H1; exact (epoch_not_meta H1)|].
        exact (numeric_not_plain t E (plain_meta t H1)). }
      apply known_app; [apply Kd; exact Q0|]. clear - u A Fr Kd Sm Lm C. induction Fr as [|q' r Q' Fr IH]; [intros t _ _ []|].
      cbn [later flat_map]. unfold olines. rewrite !keys_of_app. apply known_app; [apply known_app; [|apply Kd; exact Q']|].
      + apply (later_known u); [exact Lm|exact Sm| |exact (A q' (or_introl eq_refl))].
        destruct q' as [[[[md' cs'] states'] covs'] [sls' cls']]. destruct Q' as [Sm' _]. rewrite C. exact Sm'.
      + apply IH. intros q0 I. exact (A q0 (or_intror I)). }
  destruct Sp as [[_ [_ [_ [Es _]]]] [_ [[B _] [[_ [Im _]] [[_ [Id _]] [_ [_ [_ [_ [[_ [_ [_ [Nm [Nd _]]]]] [[_ [_ [Cs _]]] [_ [_ [V _]]]]]]]]]]]]]].
  unfold olines. rewrite <- app_assoc. rewrite <- Cs, <- Nm, <- Nd.
  apply segment_of; try assumption; [rewrite Nm, Nd; exact V|rewrite Nm, Nd; discriminate].
Qed.
Lemma oapart_app a b : oapart (a ++ b) -> oapart b.
Proof. induction a as [|[[[[md cs] states] covs] [sls cls]] a IH]; cbn [app]; intros H; [exact H|]. apply IH, H. Qed.
Lemma oparts_list qs : qs <> [] -> Forall opart_ok qs -> oapart qs ->
  list_reads u seg (later qs) (map (fun q => oem_segment (fst q)) qs) [].
Proof.
  intros Ne F A.
  assert (E1 : forall l, later l = flat_map fst (map (fun q => (olines q, oem_segment (fst q))) l)).
  { clear. induction l as [|p ps IH]; [reflexivity|]. cbn. unfold later in IH. rewrite IH. reflexivity. }
  assert (E2 : map (fun q => oem_segment (fst q)) qs = map snd (map (fun q => (olines q, oem_segment (fst q))) qs)) by (rewrite map_map; reflexivity).
  rewrite E1, E2. apply items_list; [destruct qs; [congruence|discriminate]|].
  intros a own v b E.
  assert (X : exists pa p pb, qs = pa ++ p :: pb /\ own = olines p /\ v = oem_segment (fst p) /\ b = map (fun q => (olines q, oem_segment (fst q))) pb).
  { clear - E. revert qs E. induction a as [|x a IH]; intros [|p ps] E; try discriminate.
    - cbn in E. injection E as <- <- <-. exists [], p, ps. auto.
    - cbn in E. injection E as _ E. destruct (IH ps E) as [pa [q [pb [-> H]]]]. exists (p :: pa), q, pb. auto. }
  destruct X as [pa [p [pb [-> [-> [-> ->]]]]]]. rewrite <- E1. apply oapart_app in A. apply Forall_app in F. destruct F as [_ F].
  split; [|apply opart_reads; assumption]. pose proof (Forall_inv F) as Q. destruct p as [[[[md cs] states] covs] [sls cls]]. destruct Q as [Sm _].
  destruct (meta_first md Sm) as [l [x [El _]]]. unfold olines. cbn [ometa]. rewrite El. cbn. lia.
Qed.

(* the whole message *)
Lemma oem_subs header qs pre : section "NdmHeader" header -> qs <> [] -> Forall opart_ok qs -> oapart qs ->
  subs_at u pre (sec_lines header ++ later qs) (e_subs (tree_of "Oem")) (List.length (sec_lines header) + (List.length (later qs) + 0))
    [("header", header); ("body", VObj "OemBody" [("segment", VList (map (fun q => oem_segment (fst q)) qs))])].
Proof.
  intros Sh Ne F A. pose proof (oparts_list qs Ne F A) as Ll.
  destruct Sp as [[_ [E1 [E2 _]]] [[Xh [Xb [Ib _]]] [[_ [Is _]] [[Lm _] [_ [_ [_ [[D1 [D2 _]] [[Ph _] [[Nh [Nb [Ns _]]] [[Ch [Cb _]] [_ [V2 _]]]]]]]]]]]]].
  destruct (sec_elem_spec hdr Xh) as [Lh [Ih _]]. rewrite <- Ch in Sh.
  assert (Rb : reads u body (later qs) (VObj (e_cls body) [("segment", VList (map (fun q => oem_segment (fst q)) qs))]) (List.length (later qs))).
  { destruct (bare_elem_spec body Xb) as [O [Sg [Ek Eb]]]. eapply bare_reads with (att := map (fun v => (e_name seg, v)) (map (fun q => oem_segment (fst q)) qs) ++ []); try assumption.
    - destruct qs; [congruence|discriminate].
    - rewrite E2. pose proof (subs_list u seg [] [] (later qs) [] (map (fun q => oem_segment (fst q)) qs) 0 [] Is) as Q. rewrite app_nil_r, Nat.add_0_r in Q. apply Q; [exact Ll|apply subs_nil].
    - rewrite V2, Ns, app_nil_r. rewrite attach_list; [reflexivity|eexists; reflexivity|].
      clear. induction qs as [|[[[[md cs] states] covs] y] qs IH]; constructor; [discriminate|exact IH]. }
  rewrite E1, <- Nh, <- Nb, <- Cb. apply subs_one; [exact Ih|apply section_reads; [exact Lh|exact Sh|]|].
  - intros t H1 H2 H3. exfalso. rewrite forallb_forall in Ph. destruct (later_keys qs t F H3) as [E|[E|[[E _]|E]]].
    + contradiction.
    + exact (disjointb_spec _ _ _ D1 H1 H2 E).
    + apply (disjointb_spec _ _ _ D2 H1 H2). rewrite E. exact epoch_cov.
    + exact (numeric_not_plain t E (Ph t H1)).
  - rewrite <- (app_nil_r (later qs)) at 1. apply subs_one; [exact Ib|rewrite app_nil_r; exact Rb|apply subs_nil].
Qed.
End Shape.
End Oem.
