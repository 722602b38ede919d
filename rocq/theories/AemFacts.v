(* AEM: segments, bodies and messages are read. *)
From Coq Require Import NArith ZArith List Bool String Arith Lia.
From Verif Require Import PyStr PyDec PyVal Schema KvnPre KvnTree KvnSeg XmlBind KvnBuild NdmXml KvnWrite
     Spec SpecKvn SpecObj SpecMsg SpecDoc SpecEph SpecAem StrFacts DecFacts PreFacts SegFacts BuildFacts WriteFacts ParseFacts ShiftFacts
     ReadFacts ComposeFacts MsgFacts PropWrite CoreFacts UserFacts DataFacts SingleFacts ListFacts RelFacts SegListFacts
     CheckFacts GapFacts EphText EphFacts OemFacts AemTree AemState.
Import ListNotations.
Local Open Scope string_scope.
Local Open Scope list_scope.
Local Arguments find_class : simpl never.
Local Arguments lit : simpl never.

Section Aem.
Variable u : env.

(* ---- what the metadata declares ---- *)
Lemma index_from_app x l r : forall i, In x l -> index_from x i (l ++ r) = index_from x i l.
Proof.
  induction l as [|a l IH]; intros i H; [destruct H|]. cbn [app index_from]. destruct (str_eqb a x) eqn:E; [reflexivity|].
  destruct H as [->|H]; [rewrite str_eqb_refl in E; discriminate|]. apply IH. exact H.
Qed.
Lemma lookup_own c md rest k t : leaf_class c = true -> section c md -> In (Say (k, t, [])) (section_items md) -> k <> kw_comment ->
  lookup_line k (sec_lines md ++ rest) 0 = Ok t.
Proof.
  intros L [vars [-> [W _]]] H Nc. destruct (section_keys u c vars L W) as [n [ks [E [D [_ [NC _]]]]]].
  cbn [section_items sec_lines] in *. apply in_map_iff in H. destruct H as [e [He H]]. injection He as ->.
  unfold lookup_line, index_start. cbn [skipn]. rewrite keys_of_app.
  assert (Ik : In k (keys_of (map line_of (entries (fields_of c) vars)))).
  { rewrite <- (key_line_of k t []). apply in_map, in_map. exact H. }
  rewrite index_from_app by exact Ik.
  assert (G : forall es i, In (k, t, []) es -> NoDup (filter (fun x => negb (str_eqb x kw_comment)) (keys_of (map line_of es))) ->
     exists j, index_from k i (keys_of (map line_of es)) = Some (i + j) /\ nth_error (map line_of es) j = Some [k; t]).
  { clear - Nc. induction es as [|e es IH]; intros i H Nd; [destruct H|]. cbn [map keys_of index_from] in *. fold (keys_of (map line_of es)) in *.
    destruct (str_eqb (key_of (line_of e)) k) eqn:Ek.
    - apply str_eqb_eq in Ek. exists 0. rewrite Nat.add_0_r. split; [reflexivity|]. destruct H as [->|H]; [reflexivity|]. exfalso.
      cbn [filter] in Nd. rewrite Ek in Nd. rewrite (proj2 (str_eqb_neq k kw_comment) Nc) in Nd. cbn [negb] in Nd. apply NoDup_cons_iff in Nd. destruct Nd as [Nd _].
      apply Nd. apply filter_In. split; [|rewrite (proj2 (str_eqb_neq k kw_comment) Nc); reflexivity].
      rewrite <- (key_line_of k t []). apply in_map, in_map. exact H.
    - destruct H as [->|H]; [rewrite key_line_of, str_eqb_refl in Ek; discriminate|]. destruct (IH (S i) H) as [j [J1 J2]].
      + cbn [filter] in Nd. destruct (negb _); [apply NoDup_cons_iff in Nd; apply Nd|exact Nd].
      + exists (S j). split; [rewrite J1; f_equal; lia|exact J2]. }
  destruct (G _ 0 H) as [j [J1 J2]].
  { rewrite E, filter_app. replace (filter _ (repeat kw_comment n)) with (@nil str).
    - cbn [app]. apply NoDup_filter. exact D.
    - clear. induction n as [|n IH]; [reflexivity|]. cbn [repeat filter]. rewrite str_eqb_refl. exact IH. }
  rewrite J1. cbn [guard_opt bind Nat.add]. unfold get. rewrite nth_error_app1 by (apply nth_error_Some; rewrite J2; discriminate). rewrite J2. reflexivity.
Qed.
Lemma declared_template md k rest : section "AemMetadata" md -> declares md k ->
  att_template (sec_lines md ++ rest) 0 = Ok (Some (state_name k), template k).
Proof.
  intros Sm D. assert (Lc : leaf_class "AemMetadata" = true) by (vm_compute; reflexivity).
  assert (G : forall a b, In (lit a, b, []) (declared k) -> a <> "COMMENT" -> lookup_line (lit a) (sec_lines md ++ rest) 0 = Ok b).
  { intros a b H N. apply (lookup_own "AemMetadata"); [exact Lc|exact Sm|exact (D _ H)|intros X; apply lit_inj in X; contradiction]. }
  unfold att_template. 
  destruct k as [o|o|o s|s|s]; cbn [declared] in G; (rewrite (G "ATTITUDE_TYPE" _ (or_introl eq_refl)) by discriminate); cbn [bind];
    try destruct o; try destruct s as [[[] []] []];
    try (rewrite (G "QUATERNION_TYPE" _ (or_intror (or_introl eq_refl))) by discriminate);
    try (rewrite (G "EULER_ROT_SEQ" _ (or_intror (or_introl eq_refl))) by discriminate);
    try (rewrite (G "EULER_ROT_SEQ" _ (or_intror (or_intror (or_introl eq_refl)))) by discriminate);
    vm_compute; reflexivity.
Qed.

(* ---- segments ---- *)
Definition apart := (aem_part * list line)%type.
Definition adata (q : apart) : list line := let '((_, _, cs, _), als) := q in comment_lines cs ++ als.
Definition ameta (q : apart) : pyval := let '((md, _, _, _), _) := q in md.
Definition alines (q : apart) : list line := sec_lines (ameta q) ++ adata q.
Definition apart_ok (q : apart) : Prop := aem_part_ok (fst q) /\ let '((_, k, _, rs), als) := q in Forall2 (aline k) als rs.
Definition alater (r : list apart) : list line := flat_map alines r.

Definition aem_shape (hdr body seg meta data : elem) : Prop :=
  (In "Aem" root_classes /\ e_subs (tree_of "Aem") = [hdr; body] /\ e_subs body = [seg] /\ e_subs seg = [meta; data] /\ e_subs data = [att_elem]) /\
  (sec_elem hdr = true /\ bare_elem body = true /\ e_islist body = false /\ e_islist seg = true) /\
  (leaf_elem meta = true /\ e_islist meta = false /\ has_comments (e_cls meta) = true /\ data_elem data = true /\ e_islist data = false /\
   ordinary (e_cls data) = true /\ e_kws seg = [] /\ e_single seg = None) /\
  (disjointb (e_kws hdr) (e_kws meta) = true /\ disjointb att_keys (e_kws meta) = true /\ forallb plain_kw att_keys = true /\ mem_str kw_comment att_keys = false /\
   forallb plain_kw (e_kws hdr) = true /\ forallb plain_kw (e_kws meta) = true /\
   disjointb (deleted_keywords "Aem") (e_kws hdr ++ e_kws meta) = true /\ forallb plain_kw (deleted_keywords "Aem") = true) /\
  (e_name hdr = "header" /\ e_name body = "body" /\ e_name seg = "segment" /\ e_name meta = "metadata" /\ e_name data = "data") /\
  (e_cls hdr = "NdmHeader" /\ e_cls body = "AemBody" /\ e_cls seg = "AemSegment" /\ e_cls meta = "AemMetadata" /\ e_cls data = "AemData") /\
  (vars_of (new_obj "Aem") = [("header", VNone); ("body", VNone)] /\ vars_of (new_obj (e_cls body)) = [("segment", VList [])] /\
   vars_of (new_obj (e_cls seg)) = [("metadata", VNone); ("data", VNone)] /\
   defaults (tl (fields_of (e_cls data))) = [("attitude_state", VList [])]).
Lemma aem_shape_ok : exists hdr body seg meta data, aem_shape hdr body seg meta data.
Proof.
  exists (at_name ["header"] (tree_of "Aem")), (at_name ["body"] (tree_of "Aem")), (at_name ["body"; "segment"] (tree_of "Aem")),
    (at_name ["body"; "segment"; "metadata"] (tree_of "Aem")), (at_name ["body"; "segment"; "data"] (tree_of "Aem")).
  split; [split; [cbn [In root_classes]; tauto|]|]; repeat (apply conj); vm_compute; reflexivity.
Qed.

Lemma aline_key k l r : aline k l r -> exists s, l = [s] /\ numeric_key s /\ mem_char c_sp s = true.
Proof.
  intros [s [ts [extra [ds [-> [Tr [Sp [C [D _]]]]]]]]]. exists s. split; [reflexivity|]. split.
  - destruct (columned_first _ _ _ C Tr) as [s' ->]. destruct (date_head _ D) as [c [e [-> Hc]]]. exists c, (e ++ s'). split; [reflexivity|left; exact Hc].
  - unfold mem_char. apply existsb_exists. exists c_sp. split; [exact Sp|apply N.eqb_refl].
Qed.
Lemma ameta_section q : apart_ok q -> section "AemMetadata" (ameta q).
Proof. destruct q as [[[[md k] cs] rs] als]. intros [[Sm _] _]. exact Sm. Qed.
Lemma adata_keys q k : apart_ok q -> In k (keys_of (adata q)) -> k = kw_comment \/ numeric_key k.
Proof.
  destruct q as [[[[md kd] cs] rs] als]. intros [_ F] H. cbn [adata] in H. rewrite keys_of_app in H.
  apply in_app_or in H. destruct H as [H|H]; [left; exact (comment_keys _ _ H)|right].
  apply in_map_iff in H. destruct H as [l [<- Hl]]. destruct (Forall2_in_l _ _ _ _ F Hl) as [r [_ Hr]]. destruct (aline_key _ _ _ Hr) as [s [-> [Hs _]]]. exact Hs.
Qed.

Section Shape.
Variables hdr body seg meta data : elem.
Hypothesis Sp : aem_shape hdr body seg meta data.
Lemma alines_keys q k : apart_ok q -> In k (keys_of (alines q)) -> k = kw_comment \/ In k (e_kws meta) \/ numeric_key k.
Proof.
  intros Q H. unfold alines in H. rewrite keys_of_app in H. apply in_app_or in H. destruct H as [H|H].
  - destruct Sp as [_ [_ [[Lm _] [_ [_ [[_ [_ [_ [C _]]]] _]]]]]]. pose proof (ameta_section q Q) as Sm.
    destruct (section_keys_incl u meta (ameta q) Lm) with (k := k) as [E|E]; [right; rewrite C; exact Sm|exact H|auto|auto].
  - destruct (adata_keys q k Q H) as [E|E]; auto.
Qed.
Lemma alater_keys r k : Forall apart_ok r -> In k (keys_of (alater r)) -> k = kw_comment \/ In k (e_kws meta) \/ numeric_key k.
Proof.
  induction 1 as [|q r Q _ IH]; [intros []|]. cbn [alater flat_map]. rewrite keys_of_app. intros H. apply in_app_or in H. destruct H as [H|H].
  - exact (alines_keys q k Q H).
  - exact (IH H).
Qed.
Lemma aplain_meta k : In k (e_kws meta) -> plain_kw k = true.
Proof. destruct Sp as [_ [_ [_ [[_ [_ [_ [_ [_ [P _]]]]]] _]]]]. rewrite forallb_forall in P. apply P. Qed.
Lemma att_clear t : In t att_keys -> plain_kw t = true /\ t <> kw_comment /\ ~ In t (e_kws meta).
Proof.
  intros H. destruct Sp as [_ [_ [_ [[_ [D [P [Nc _]]]] _]]]]. rewrite forallb_forall in P.
  assert (X : t <> kw_comment) by (intros ->; apply mem_str_spec in H; congruence).
  split; [exact (P t H)|]. split; [exact X|]. exact (disjointb_spec _ _ _ D H X).
Qed.
Lemma rest_clear t R : In t att_keys -> (forall k, In k (keys_of R) -> k = kw_comment \/ In k (e_kws meta) \/ numeric_key k) -> ~ In t (keys_of R).
Proof.
  intros H K X. destruct (att_clear t H) as [P [N M]]. destruct (K t X) as [E|[E|E]]; [contradiction|contradiction|]. exact (numeric_not_plain t E P).
Qed.
Lemma ameta_first q : apart_ok q -> exists l r, sec_lines (ameta q) = l :: r /\ keyed l.
Proof.
  intros Q. pose proof (ameta_section q Q) as Sm. destruct Sp as [_ [_ [[Lm _] [_ [_ [[_ [_ [_ [C _]]]] _]]]]]]. rewrite <- C in Sm.
  pose proof (section_lines_ne u meta _ Lm Sm) as N. destruct (sec_lines (ameta q)) as [|l r] eqn:E; [cbn in N; lia|].
  exists l, r. split; [reflexivity|]. assert (Il : In (key_of l) (keys_of (sec_lines (ameta q)))) by (rewrite E; left; reflexivity).
  assert (P : plain_kw (key_of l) = true) by (destruct (section_keys_incl u meta _ Lm (or_intror Sm) _ Il) as [->|Ki]; [vm_compute; reflexivity|apply aplain_meta; exact Ki]).
  destruct l as [|k x]; [discriminate|]. exists k, x. split; [reflexivity|exact P].
Qed.
Lemma alater_first r : Forall apart_ok r -> alater r = [] \/ exists l R, alater r = l :: R /\ keyed l.
Proof.
  intros F. destruct F as [|q r Q F]; [left; reflexivity|right]. cbn [alater flat_map]. unfold alines.
  destruct (ameta_first q Q) as [l [x [-> K]]]. do 2 eexists. split; [reflexivity|exact K].
Qed.

Definition aapart (qs : list apart) : Prop := aem_apart (map fst qs).
Lemma aapart_cons md k cs rs als r : aapart (((md, k, cs, rs), als) :: r) ->
  (cs = [] \/ forall q, In q r -> forall n, sets (ameta q) n -> sets md n) /\ aapart r.
Proof.
  unfold aapart. cbn [map fst aem_apart]. intros [A C]. split; [|exact C].
  destruct A as [A|A]; [left; exact A|right]. intros [[[[md' k'] cs'] rs'] als'] I n. apply (A md' k' cs' rs'). apply in_map_iff. exists ((md', k', cs', rs'), als'). auto.
Qed.
Definition akind (q : apart) : kind := let '((_, k, _, _), _) := q in k.
Lemma adata_reads q r : Forall apart_ok (q :: r) ->
  exists vd, aem_segment (fst q) = VObj "AemSegment" [("metadata", ameta q); ("data", vd)] /\
  reads u (choose_in (state_name (akind q)) (template (akind q)) data) (adata q ++ alater r) vd (List.length (adata q)).
Proof.
  intros F. pose proof (Forall_inv F) as Q. pose proof (Forall_inv_tail F) as Fr. pose proof Q as Q0. destruct q as [[[[md k] cs] rs] als].
  cbn [fst aem_segment ameta akind]. eexists. split; [reflexivity|]. destruct Q as [[Sm [_ [G [Lcs Ns]]]] Fo]. cbn [fst] in *.
  pose proof Sp as [[_ [_ [_ [_ Es]]]] [_ [[_ [_ [_ [Dd _]]]] [_ [_ [[_ [_ [_ [_ Cd]]]] [_ [_ [_ Df]]]]]]]]].
  set (D := choose_in (state_name k) (template k) data).
  assert (Ed : e_subs D = [chosen_att k]) by (unfold D, choose_in; cbn [set_subs e_subs]; rewrite Es; reflexivity).
  assert (Cd' : e_cls D = "AemData") by exact Cd.
  assert (Ht : comment_lines cs = takes (hd_error cs)) by (rewrite takes_comment; destruct cs as [|a [|]]; [reflexivity|apply app_nil_r|cbn in Lcs; lia]).
  assert (Nl : als <> []) by (intros ->; inversion Fo; subst; congruence).
  unfold adata. rewrite <- app_assoc, Ht, app_length, <- Cd'.
  assert (Nm : e_name (chosen_att k) = "attitude_state") by (destruct k; reflexivity).
  apply (data_block u D cs (als ++ alater r) (map (fun v => (e_name (chosen_att k), v)) (map (attitude k) rs) ++ [])).
  - unfold data_elem in *. rewrite Ed. unfold D, choose_in. cbn [set_subs e_cls e_kws e_single e_islist]. rewrite Es in Dd. exact Dd.
  - exact G.
  - intros X. apply app_eq_nil in X. destruct X as [X _]. contradiction.
  - intros _. destruct Fo as [|l r0 als rs Hl Fo]; [congruence|]. destruct (aline_key _ _ _ Hl) as [s [-> [Hn _]]]. cbn [app first_key hd_error option_map key_of hd].
    intros X. injection X as ->. assert (P : plain_kw kw_comment = true) by (vm_compute; reflexivity). exact (numeric_not_plain _ Hn P).
  - destruct rs; [congruence|]. discriminate.
  - rewrite Ed. rewrite <- (Nat.add_0_r (List.length als)). apply subs_list; [destruct k; reflexivity| |apply subs_nil].
    apply states_read; try assumption.
    + intros t Ht'. apply (rest_clear t _ Ht'). intros w Hw. rewrite keys_of_app in Hw. apply in_app_or in Hw. destruct Hw as [Hw|Hw]; [|exact (alater_keys r w Fr Hw)].
      destruct (adata_keys _ w Q0) as [E|E]; [cbn [adata]; rewrite keys_of_app; apply in_or_app; right; exact Hw|auto|auto].
    + apply alater_first. exact Fr.
  - rewrite Cd', <- Cd, Df, Nm, app_nil_r, attach_list.
    2:{ eexists. reflexivity. }
    2:{ clear - Fo. induction Fo as [|l r als rs [s [ts [ex [ds [_ [_ [_ [_ [_ [_ [L [F Es]]]]]]]]]]]] _ IH]; constructor; [|assumption].
        assert (Ln : List.length (snd r) = width k) by (rewrite Es, map_length, <- L; clear - F; induction F; cbn; congruence).
        destruct r as [e xs]. cbn [snd] in Ln. clear - Ln. destruct k; cbn [width] in Ln;
          repeat (destruct xs as [|? xs]; [discriminate|]; cbn [List.length] in Ln; apply eq_add_S in Ln); (destruct xs; [|discriminate]); discriminate. }
    assert (Ef : firstn 1 (texts cs) = texts cs) by (destruct cs as [|a [|]]; [reflexivity|reflexivity|cbn in Lcs; lia]). rewrite Ef. reflexivity.
Qed.

Lemma apart_reads q r : Forall apart_ok (q :: r) -> aapart (q :: r) ->
  reads u seg (alines q ++ alater r) (aem_segment (fst q)) (List.length (alines q)).
Proof.
  intros F A. destruct (adata_reads q r F) as [vd [Eo Rd]]. rewrite Eo. pose proof (Forall_inv F) as Q. pose proof (Forall_inv_tail F) as Fr.
  assert (Rm : reads u meta (sec_lines (ameta q) ++ adata q ++ alater r) (ameta q) (List.length (sec_lines (ameta q)))).
  { pose proof Sp as [_ [_ [[Lm _] [_ [_ [[_ [_ [_ [C _]]]] _]]]]]]. pose proof (ameta_section q Q) as Sm. rewrite <- C in Sm.
    pose proof Q as Q0. destruct q as [[[[md k] cs] rs] als]. destruct (aapart_cons _ _ _ _ _ _ A) as [[->|A1] _]; cbn [ameta] in *.
    - destruct Q as [[_ [_ [_ [_ Nr]]]] Fo]. destruct Fo as [|l r0 als rs Hl Fo]; [congruence|]. cbn [adata comment_lines map app].
      destruct (aline_key _ _ _ Hl) as [s [-> [Hn Hs]]]. apply section_reads_gap; [exact Lm|exact Sm| | |exact Hs].
      + intros X. exact (numeric_not_plain _ Hn (aplain_meta _ X)).
      + intros X. cbn [key_of hd] in X. rewrite X in Hn. assert (P : plain_kw kw_comment = true) by (vm_compute; reflexivity). exact (numeric_not_plain _ Hn P).
    - apply section_reads; [exact Lm|exact Sm|]. rewrite keys_of_app.
      assert (Kd : forall q', apart_ok q' -> known (e_kws meta) (keys_of (sec_lines md)) (keys_of (adata q'))).
      { intros q' Q' t H1 H2 H3. exfalso. destruct (adata_keys q' t Q' H3) as [E|E]; [contradiction|exact (numeric_not_plain t E (aplain_meta t H1))]. }
      apply known_app; [apply Kd; exact Q0|]. clear - u A1 Fr Kd Sm Lm C. induction Fr as [|q' r Q' Fr IH]; [intros t _ _ []|].
      cbn [alater flat_map]. unfold alines. rewrite !keys_of_app. apply known_app; [apply known_app; [|apply Kd; exact Q']|].
      + apply (later_known u); [exact Lm|exact Sm| |exact (A1 q' (or_introl eq_refl))]. rewrite C. exact (ameta_section q' Q').
      + apply IH. intros q0 I. exact (A1 q0 (or_intror I)). }
  assert (Tm : att_template (sec_lines (ameta q) ++ adata q ++ alater r) 0 = Ok (Some (state_name (akind q)), template (akind q))).
  { apply declared_template; [exact (ameta_section q Q)|]. destruct q as [[[[md k] cs] rs] als]. destruct Q as [[_ [D _]] _]. exact D. }
  assert (Cl : forall k, In k att_keys -> ~ In k (keys_of (adata q ++ alater r))).
  { intros t Ht. apply (rest_clear t _ Ht). intros w Hw. rewrite keys_of_app in Hw. apply in_app_or in Hw. destruct Hw as [Hw|Hw]; [|exact (alater_keys r w Fr Hw)].
    destruct (adata_keys _ w Q Hw); auto. }
  destruct Sp as [[_ [_ [_ [Es Ed]]]] [_ [[_ [Im [_ [_ [Id [Od [Ks Ss]]]]]]] [_ [[_ [_ [_ [Nm Nd]]]] [[_ [_ [Cs _]]] [_ [_ [V _]]]]]]]]].
  unfold alines. rewrite <- app_assoc. rewrite <- Cs, <- Nm, <- Nd.
  apply (aem_segment_reads u att_keys (state_name (akind q)) (template (akind q)) seg meta data att_elem); try assumption.
  - vm_compute. reflexivity.
  - vm_compute. reflexivity.
  - vm_compute. discriminate.
  - vm_compute. reflexivity.
  - destruct (akind q); vm_compute; discriminate.
  - rewrite Nm, Nd; exact V.
  - rewrite Nm, Nd; discriminate.
Qed.
Lemma aapart_app a b : aapart (a ++ b) -> aapart b.
Proof. induction a as [|[[[[md k] cs] rs] als] a IH]; cbn [app]; intros H; [exact H|]. apply IH. apply aapart_cons in H. apply H. Qed.
Lemma aparts_list qs : qs <> [] -> Forall apart_ok qs -> aapart qs ->
  list_reads u seg (alater qs) (map (fun q => aem_segment (fst q)) qs) [].
Proof.
  intros Ne F A.
  assert (E1 : forall l, alater l = flat_map fst (map (fun q => (alines q, aem_segment (fst q))) l)).
  { clear. induction l as [|p ps IH]; [reflexivity|]. cbn. unfold alater in IH. rewrite IH. reflexivity. }
  assert (E2 : map (fun q => aem_segment (fst q)) qs = map snd (map (fun q => (alines q, aem_segment (fst q))) qs)) by (rewrite map_map; reflexivity).
  rewrite E1, E2. apply items_list; [destruct qs; [congruence|discriminate]|].
  intros a own v b E.
  assert (X : exists pa p pb, qs = pa ++ p :: pb /\ own = alines p /\ v = aem_segment (fst p) /\ b = map (fun q => (alines q, aem_segment (fst q))) pb).
  { clear - E. revert qs E. induction a as [|x a IH]; intros [|p ps] E; try discriminate.
    - cbn in E. injection E as <- <- <-. exists [], p, ps. auto.
    - cbn in E. injection E as _ E. destruct (IH ps E) as [pa [q [pb [-> H]]]]. exists (p :: pa), q, pb. auto. }
  destruct X as [pa [p [pb [-> [-> [-> ->]]]]]]. rewrite <- E1. apply aapart_app in A. apply Forall_app in F. destruct F as [_ F].
  split; [|apply apart_reads; assumption]. pose proof (Forall_inv F) as Q. destruct (ameta_first p Q) as [l [x [El _]]]. unfold alines. rewrite El. cbn. lia.
Qed.

(* the whole message *)
Lemma aem_subs header qs pre : section "NdmHeader" header -> qs <> [] -> Forall apart_ok qs -> aapart qs ->
  subs_at u pre (sec_lines header ++ alater qs) (e_subs (tree_of "Aem")) (List.length (sec_lines header) + (List.length (alater qs) + 0))
    [("header", header); ("body", VObj "AemBody" [("segment", VList (map (fun q => aem_segment (fst q)) qs))])].
Proof.
  intros Sh Ne F A. pose proof (aparts_list qs Ne F A) as Ll.
  destruct Sp as [[_ [E1 [E2 _]]] [[Xh [Xb [Ib Is]]] [_ [[D1 [_ [_ [_ [Ph _]]]]] [[Nh [Nb [Ns _]]] [[Ch [Cb _]] [_ [V2 _]]]]]]]].
  destruct (sec_elem_spec hdr Xh) as [Lh [Ih _]]. rewrite <- Ch in Sh.
  assert (Rb : reads u body (alater qs) (VObj (e_cls body) [("segment", VList (map (fun q => aem_segment (fst q)) qs))]) (List.length (alater qs))).
  { destruct (bare_elem_spec body Xb) as [O [Sg [Ek Eb]]]. eapply bare_reads with (att := map (fun v => (e_name seg, v)) (map (fun q => aem_segment (fst q)) qs) ++ []); try assumption.
    - destruct qs; [congruence|discriminate].
    - rewrite E2. pose proof (subs_list u seg [] [] (alater qs) [] (map (fun q => aem_segment (fst q)) qs) 0 [] Is) as Q. rewrite app_nil_r, Nat.add_0_r in Q. apply Q; [exact Ll|apply subs_nil].
    - rewrite V2, Ns, app_nil_r. rewrite attach_list; [reflexivity|eexists; reflexivity|].
      clear. induction qs as [|[[[[md k] cs] rs] y] qs IH]; constructor; [discriminate|exact IH]. }
  rewrite E1, <- Nh, <- Nb, <- Cb. apply subs_one; [exact Ih|apply section_reads; [exact Lh|exact Sh|]|].
  - intros t H1 H2 H3. exfalso. rewrite forallb_forall in Ph. destruct (alater_keys qs t F H3) as [E|[E|E]].
    + contradiction.
    + exact (disjointb_spec _ _ _ D1 H1 H2 E).
    + exact (numeric_not_plain t E (Ph t H1)).
  - rewrite <- (app_nil_r (alater qs)) at 1. apply subs_one; [exact Ib|rewrite app_nil_r; exact Rb|apply subs_nil].
Qed.
(* the lines that are left after removing the markers *)
Lemma akept ls : (forall k, In k (keys_of ls) -> k = kw_comment \/ In k (e_kws hdr) \/ In k (e_kws meta) \/ numeric_key k) -> delete_keywords "Aem" ls = ls.
Proof.
  intros H. unfold delete_keywords. apply filter_all. intros l Hl. apply negb_true_iff. apply not_true_iff_false. intros X. apply mem_str_spec in X.
  destruct Sp as [_ [_ [_ [[_ [_ [_ [_ [_ [_ [D P]]]]]]] _]]]]. rewrite forallb_forall in P.
  assert (Nc : key_of l <> kw_comment). { intros Y. rewrite Y in X. revert X. cbn. intros X. repeat (destruct X as [X|X]; [apply lit_inj in X; discriminate|]). destruct X. }
  specialize (H (key_of l) (in_map key_of _ _ Hl)). destruct H as [H|[H|[H|H]]]; [contradiction| | |exact (numeric_not_plain _ H (P _ X))];
    apply (disjointb_spec _ _ _ D X Nc); apply in_or_app; auto.
Qed.
End Shape.
End Aem.
