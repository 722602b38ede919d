(* Properties C22-C24: what the KVN writer writes. *)
From Coq Require Import NArith ZArith List Bool String Arith Lia.
From Verif Require Import PyStr PyDec PyVal Schema KvnPre KvnTree KvnSeg XmlBind KvnBuild NdmXml
     KvnWrite NdmIo Spec SpecIo SpecKvn SpecObj StrFacts DecFacts PreFacts SegFacts BuildFacts
     IoFacts WriteFacts Demo.
Import ListNotations.
Local Open Scope string_scope.
Local Open Scope list_scope.

(* ---- C22 ---- *)
Lemma root_fixed c : In c root_classes -> exists id ver,
  In (lit id, c) type_table /\ class_fixed c "id" = Some id /\ class_fixed c "version" = Some ver /\
  (exists fi fv, find_field "id" (fields_of c) = Some fi /\ f_fixed fi = Some id /\
                 find_field "version" (fields_of c) = Some fv /\ f_fixed fv = Some ver) /\
  (exists mn, meta_name c = Some mn /\ String.eqb mn "ndm" = false) /\
  forallb is_ascii (lit id) = true /\ ascii_upper (lit id) = lit id /\
  plain_text (lit id) = true /\ startswith (lit "CCSDS_") (lit id) = true /\ one_line (lit ver).
Proof.
  intros H. repeat (destruct H as [<-|H]; [do 2 eexists; split; [cbn [In type_table]; tauto|];
    split; [vm_compute; reflexivity|]; split; [vm_compute; reflexivity|];
    split; [do 2 eexists; vm_compute; repeat split; reflexivity|];
    split; [eexists; vm_compute; split; reflexivity|];
    split; [vm_compute; reflexivity|]; split; [vm_compute; reflexivity|]; split; [vm_compute; reflexivity|];
    split; [vm_compute; reflexivity|]; apply no_charb_spec; vm_compute; reflexivity|]). destruct H.
Qed.

Lemma type_table_inj a b c : In (a, c) type_table -> In (b, c) type_table -> a = b.
Proof.
  intros H1 H2. cbn [type_table In] in H1, H2.
  repeat (destruct H1 as [H1|H1]; [injection H1 as <- <-;
    repeat (destruct H2 as [H2|H2]; [first [discriminate H2|injection H2; intros; subst; reflexivity]|]); destruct H2|]). destruct H1.
Qed.

Lemma fill_spelled_plain u key k t : upper u key = k -> spelled (k, t, []) (fill_kvn u key t []).
Proof.
  intros <-. unfold fill_kvn. destruct (ljust_split 20 (upper u key)) as [w [-> B]].
  replace ((upper u key ++ w) ++ lit " = " ++ t) with (upper u key ++ (w ++ [c_sp]) ++ [c_eq; c_sp] ++ t)
    by (rewrite <- !app_assoc; reflexivity).
  apply sp_plain. apply blank_app; [exact B|apply (blank_repeat 1)].
Qed.
Lemma fill_spelled_unit u key k t un : upper u key = k -> un <> [] -> spelled (k, t, un) (fill_kvn u key t un).
Proof.
  intros <- H. unfold fill_kvn. destruct un as [|a un]; [congruence|].
  destruct (ljust_split 20 (upper u key)) as [w [-> B]]. destruct (ljust_split 18 t) as [w2 [-> B2]].
  replace ((upper u key ++ w) ++ lit " = " ++ (t ++ w2) ++ lit "[" ++ (a :: un) ++ lit "]")
    with (upper u key ++ (w ++ [c_sp]) ++ [c_eq; c_sp] ++ t ++ w2 ++ [c_lbr] ++ (a :: un) ++ [c_rbr])
    by (rewrite <- !app_assoc; reflexivity).
  apply sp_unit; [|exact B2|exact H]. apply blank_app; [exact B|apply (blank_repeat 1)].
Qed.

(* the first line of the text, and whatever follows it *)
Theorem C22_first_line : forall u c vars t,
  In c root_classes -> assoc "id" vars = None -> assoc "version" vars = None ->
  kvn_to_string u (VObj c vars) = Ok t ->
  exists id ver first rest,
    In (id, c) type_table /\ class_fixed c "version" = Some ver /\
    spelled (id, lit ver, []) first /\ one_line first /\ t = first ++ rest /\ (rest = [] \/ begins [c_nl] rest).
Proof.
  intros u c vars t Hc Hi Hv H.
  destruct (root_fixed c Hc) as [id [ver [Ht [_ [Ev [[fi [fv [F1 [F2 [F3 F4]]]]] [[mn [Mn Nn]] [A [U [P [S O]]]]]]]]]]].
  unfold kvn_to_string in H. rewrite Mn in H. cbn [guard_opt bind] in H. rewrite Nn in H. cbn [bind] in H.
  unfold py_getattr in H. rewrite Hi, Hv, F1, F2, F3, F4 in H. cbn [bind py_str] in H.
  destruct (collate_vars _ _ _) as [out|] eqn:E; [|discriminate]. cbn [bind] in H. injection H as <-.
  destruct (collate_extends u (VObj c vars)) as [_ X]. apply X in E. destruct E as [more ->].
  assert (UE : upper u (lit id) = lit id) by (rewrite upper_of_ascii by exact A; exact U).
  apply plain_text_spec in P. destruct P as [_ [_ [O1 _]]].
  exists (lit id), ver, (fill_kvn u (lit id) (lit ver) []).
  exists (match more with [] => [] | _ => c_nl :: join [c_nl] more end).
  split; [exact Ht|]. split; [exact Ev|]. split; [apply fill_spelled_plain; exact UE|].
  split; [apply fill_kvn_one_line; [rewrite UE; exact O1|exact O|exact one_line_nil]|].
  split; [destruct more as [|m more]; [cbn; rewrite app_nil_r; reflexivity|reflexivity]|].
  destruct more; [left; reflexivity|right]. eexists; reflexivity.
Qed.
Print Assumptions C22_first_line.

Lemma spelled_line_key id t first : trimmed id -> no_char c_eq id -> spelled (id, t, []) first -> line_key first id.
Proof.
  intros T N H. inversion H; subst; [|congruence].
  apply (lk_eq _ (id ++ w) ([c_sp] ++ t)).
  - rewrite <- app_assoc. reflexivity.
  - apply no_char_app. split; [exact N|]. apply blank_no_char; [reflexivity|assumption].
  - exists [], w. repeat split; try apply T; auto. intros ? [].
Qed.

Theorem C22_recognised_and_same_class : forall u c vars t,
  In c root_classes -> assoc "id" vars = None -> assoc "version" vars = None ->
  kvn_to_string u (VObj c vars) = Ok t ->
  identify_format t = Ok FKvn /\
  forall v, kvn_from_string u t = Ok v -> exists vars', v = VObj c vars'.
Proof.
  intros u c vars t Hc Hi Hv H.
  destruct (C22_first_line u c vars t Hc Hi Hv H) as [id [ver [first [rest [Ht [_ [Sp [O [-> Hr]]]]]]]]].
  destruct (root_fixed c Hc) as [id' [ver' [Ht' [_ [_ [_ [_ [_ [_ [P [S _]]]]]]]]]]].
  pose proof (type_table_inj _ _ _ Ht Ht') as Ei.
  subst id. pose proof P as P'. apply plain_text_spec in P'. destruct P' as [_ [T [_ [N _]]]].
  apply startswith_spec in S. destruct S as [r Er]. split.
  - apply (proj2 (identify_format_iff _ (strip (first ++ rest)) FKvn (strip_core _))).
    apply ll_kvn. inversion Sp; subst; [|congruence]. rewrite Er. rewrite <- !app_assoc.
    change (lit "CCSDS_" ++ r ++ w ++ [c_eq; c_sp] ++ lit ver ++ rest)
      with (67%N :: lit "CSDS" ++ 95%N :: (r ++ w ++ [c_eq; c_sp] ++ lit ver ++ rest)).
    change (67%N :: lit "CSDS" ++ 95%N :: (r ++ w ++ [c_eq; c_sp] ++ lit ver ++ rest))
      with (lit "CCSDS" ++ 95%N :: (r ++ w ++ [c_eq; c_sp] ++ lit ver ++ rest)).
    rewrite strip_app_nonblank by reflexivity.
    exists (rstrip (r ++ w ++ [c_eq; c_sp] ++ lit ver ++ rest)). reflexivity.
  - assert (SO : exists more, split_on c_nl (first ++ rest) = [] ++ first :: more).
    { destruct Hr as [->|[x ->]].
      - rewrite app_nil_r, split_on_no by exact O. exists []. reflexivity.
      - change ([c_nl] ++ x) with (c_nl :: x). rewrite split_on_app by exact O. eexists; reflexivity. }
    destruct SO as [more SO]. apply (type_known u _ [] first more (lit id') c SO).
    + constructor.
    + exact (spelled_line_key _ _ _ T N Sp).
    + exact Ht'.
Qed.
Print Assumptions C22_recognised_and_same_class.

Example C22_example :
  In "Omm" root_classes /\
  exists vars t, kvn_from_string demo_env omm_doc = Ok (VObj "Omm" vars) /\
    assoc "id" vars = None /\ assoc "version" vars = None /\
    kvn_to_string demo_env (VObj "Omm" vars) = Ok t /\ begins (lit "CCSDS_OMM_VERS       = 2.0") t.
Proof.
  split; [cbn [In root_classes]; tauto|]. do 2 eexists. split; [vm_compute; reflexivity|].
  split; [reflexivity|]. split; [reflexivity|]. split; [vm_compute; reflexivity|]. eexists; reflexivity.
Qed.

(* ---- C23: for every class and every field of the schema that has a keyword ---- *)
Theorem C23_keywords : forall u c m fs f k,
  In (c, CData m fs) schema -> In f fs -> f_kw f = Some k -> isupper (lit k) = true ->
  upper u (lit (f_name f)) = lit k.
Proof.
  intros u c m fs f k Hc Hf Hk Hu.
  assert (A : forallb (fun cd => match snd cd with
                | CData _ fs => forallb (fun f => match f_kw f with
                    | Some k => if isupper (lit k) then forallb is_ascii (lit (f_name f)) &&
                                  str_eqb (ascii_upper (lit (f_name f))) (lit k) else true
                    | None => true end) fs
                | CEnum _ => true end) schema = true) by (vm_compute; reflexivity).
  rewrite forallb_forall in A. apply A in Hc. cbn [snd] in Hc. rewrite forallb_forall in Hc.
  apply Hc in Hf. rewrite Hk, Hu in Hf. apply andb_true_iff in Hf. destruct Hf as [H1 H2].
  rewrite upper_of_ascii by exact H1. apply str_eqb_eq. exact H2.
Qed.
Print Assumptions C23_keywords.
(* the line written for such a field carries that keyword, the value and the unit *)
Theorem C23_written : forall u c m fs f k t un,
  In (c, CData m fs) schema -> In f fs -> f_kw f = Some k -> isupper (lit k) = true ->
  spelled (lit k, t, un) (fill_kvn u (lit (f_name f)) t un).
Proof.
  intros u c m fs f k t un Hc Hf Hk Hu. pose proof (C23_keywords u c m fs f k Hc Hf Hk Hu) as E.
  destruct un as [|a un]; [apply fill_spelled_plain; exact E|apply fill_spelled_unit; [exact E|discriminate]].
Qed.
Print Assumptions C23_written.
Example C23_example : exists c m fs f,
  In (c, CData m fs) schema /\ In f fs /\ f_name f = "mean_motion" /\ f_kw f = Some "MEAN_MOTION" /\
  isupper (lit "MEAN_MOTION") = true.
Proof.
  exists "MeanElementsType". do 2 eexists.
  exists (mkField "mean_motion" (Some "MEAN_MOTION") false (TCls "RevType") KElem None).
  split.
  - assert (F : find_class "MeanElementsType" = Some c_MeanElementsType) by reflexivity.
    unfold find_class in F. assert (X : forall k l (d : cdef), assoc k l = Some d -> In (k, d) l).
    { clear. induction l as [|[a v] l IH]; cbn; [discriminate|]. intros d. destruct (String.eqb_spec a k); [|intros H; right; apply IH; exact H].
      intros H; injection H as <-; left; congruence. }
    exact (X _ _ _ F).
  - split; [cbn [In]; tauto|]. repeat split.
Qed.

(* ---- C24 ---- *)
Lemma section_leaf c : In c section_classes ->
  leaf_class c = true /\ mem_string c special_output_data_classes = false /\
  mem_string "units" (map f_name (fields_of c)) = false.
Proof.
  intros H. repeat (destruct H as [<-|H]; [split; [vm_compute; reflexivity|]; split; vm_compute; reflexivity|]). destruct H.
Qed.
Lemma wf_vars_names fs vars : wf_vars fs vars -> map fst vars = map f_name fs.
Proof. induction 1 as [|f kv fs vars [E _] _ IH]; [reflexivity|]. cbn. rewrite E, IH. reflexivity. Qed.

Lemma sub_field u f v out : kw_field_ok f = true -> wf_field f v ->
  exists raws, collate_sub u (f_name f) v out = Ok (out ++ raws) /\
               Forall2 spelled (field_entries (kw_of f) v) raws.
Proof.
  intros H W. pose proof (kw_field_spec u f H) as [_ [_ [T [_ [U [_ [_ [XL XN]]]]]]]].
  destruct W as [L|v L W|ts L G].
  - destruct (XN L) as [_ [N1 N2]]. exists []. rewrite sub_none, app_nil_r by assumption. split; [reflexivity|constructor].
  - destruct (XN L) as [_ [N1 _]]. eexists.
    assert (E : collate_sub u (f_name f) v out
                = Ok (out ++ [fill_kvn u (lit (f_name f)) (fst (shown v)) (snd (shown v))])).
    { destruct W as [t v W|c m fv fu d F D|c m fv fu d un F D W].
      - destruct (wf_scalar_cases u t v T W) as [S [Un _]]. rewrite Un. apply sub_scalar; assumption.
      - assert (V : value_class_ok [fv; fu] = true) by (cbn -[find_class] in T; rewrite F in T; exact T).
        apply sub_value_obj; [exact D|exact N1|exact (value_class_not_special _ _ _ F V)|exact I].
      - assert (V : value_class_ok [fv; fu] = true) by (cbn -[find_class] in T; rewrite F in T; exact T).
        destruct (quantity_unit _ _ _ _ _ _ eq_refl F T W) as [ec [em [s [-> P]]]].
        apply plain_text_spec in P. destruct P as [Ne _].
        apply sub_value_obj; [exact D|exact N1|exact (value_class_not_special _ _ _ F V)|exact Ne]. }
    split; [exact E|].
    replace (field_entries (kw_of f) v) with [(lit (kw_of f), fst (shown v), snd (shown v))].
    + constructor; [|constructor]. destruct (snd (shown v)) as [|a un] eqn:Su.
      * apply fill_spelled_plain; exact U.
      * apply fill_spelled_unit; [exact U|discriminate].
    + destruct v; try reflexivity; exfalso; inversion W; subst; match goal with X : wf_scalar _ _ |- _ => inversion X end.
  - destruct (XL L) as [-> [-> _]]. rewrite sub_comments. eexists. split; [reflexivity|].
    cbn [field_entries]. rewrite map_map. cbn [shown fst snd]. clear. induction ts as [|t ts IH]; [constructor|].
    constructor; [|exact IH]. apply fill_spelled_plain. reflexivity.
Qed.
Lemma vars_spelled u fs vars : forallb kw_field_ok fs = true -> wf_vars fs vars ->
  forall out, exists raws, collate_vars (collate_sub u) vars out = Ok (out ++ raws) /\
                           Forall2 spelled (entries fs vars) raws.
Proof.
  intros H W. induction W as [|f [k v] fs vars [E W] Ws IH]; intros out.
  - exists []. rewrite app_nil_r. split; [reflexivity|constructor].
  - cbn [forallb] in H. apply andb_true_iff in H. destruct H as [Hf Hs]. cbn [fst snd] in E, W. subst k.
    destruct (sub_field u f v out Hf W) as [r1 [E1 F1]]. destruct (IH Hs (out ++ r1)) as [r2 [E2 F2]].
    exists (r1 ++ r2). cbn [collate_vars]. rewrite E1, E2, <- app_assoc. split; [reflexivity|].
    cbn [entries]. apply Forall2_app; assumption.
Qed.

(* [open_]/[close_]: a marker such as META_START for the classes that have one, and blank lines *)
Definition frame (l : list str) : Prop :=
  Forall (fun r => r = [] \/ In r [lit "META_START"; lit "META_STOP"]) l.
Theorem C24_section_lines : forall u key c vars out,
  In c section_classes -> wf_vars (fields_of c) vars -> key <> "comment" -> key <> "user_defined" ->
  exists open_ raws close_,
    collate_sub u key (VObj c vars) out = Ok (out ++ open_ ++ raws ++ close_) /\
    Forall2 spelled (entries (fields_of c) vars) raws /\ frame open_ /\ frame close_.
Proof.
  intros u key c vars out Hc W K1 K2. destruct (section_leaf c Hc) as [L [S U]].
  unfold leaf_class in L. repeat (apply andb_true_iff in L; destruct L as [L ?]).
  rewrite sub_obj; [|assumption|assumption|rewrite (wf_vars_names _ _ W); exact U|exact S].
  destruct (vars_spelled u _ _ L W (out ++ hdr_lines c true)) as [raws [E F]]. rewrite E. cbn [bind].
  assert (Fr : forall b, frame (hdr_lines c b)).
  { intros b. clear - Hc. unfold hdr_lines, frame.
    repeat (destruct Hc as [<-|Hc]; [destruct b; vm_compute;
      repeat (constructor; [first [left; reflexivity|right; left; reflexivity|right; right; left; reflexivity]|]); constructor|]).
    destruct Hc. }
  unfold close_section. destruct (_ && _)%bool.
  - exists (hdr_lines c true), raws, ([[]] ++ hdr_lines c false). rewrite <- !app_assoc.
    split; [reflexivity|]. split; [exact F|]. split; [apply Fr|].
    constructor; [left; reflexivity|apply Fr].
  - exists (hdr_lines c true), raws, (hdr_lines c false). rewrite <- !app_assoc.
    split; [reflexivity|]. split; [exact F|]. split; apply Fr.
Qed.
Print Assumptions C24_section_lines.

(* a section with comments, an absent field, a zero with and without a unit *)
Definition demo_section : list (string * pyval) :=
  [("comment", VList [VStr (lit "a b")]); ("mass", VObj "MassType" [("value", VDec (DFin false 0 0)); ("units", VEnum "MassUnits" "KG" (lit "kg"))]);
   ("solar_rad_area", VNone); ("solar_rad_coeff", VDec (DFin false 0 0)); ("drag_area", VNone);
   ("drag_coeff", VDec (DFin true 25 (-1)))].
Lemma demo_section_wf : wf_vars (fields_of "SpacecraftParametersType") demo_section.
Proof.
  unfold fields_of, wf_vars, demo_section.
  change (find_class "SpacecraftParametersType") with (Some c_SpacecraftParametersType).
  assert (G : good_text (lit "a b")).
  { split; [discriminate|]. split; [apply trimmedb_spec; reflexivity|]. split; [apply no_charb_spec; reflexivity|].
    apply Forall_forall. apply forallb_forall. reflexivity. }
  constructor; [split; [reflexivity|apply (wf_comments _ [lit "a b"]); [reflexivity|repeat constructor; apply G]]|].
  constructor; [split; [reflexivity|apply wf_present; [reflexivity|]]|].
  { eapply wf_quantity; [reflexivity|apply wf_amount_dec; exact I|]. do 4 eexists. split; [reflexivity|]. split; [reflexivity|]. split; [left; reflexivity|reflexivity]. }
  constructor; [split; [reflexivity|apply wf_absent; reflexivity]|].
  constructor; [split; [reflexivity|apply wf_present; [reflexivity|apply wf_simple, wf_dec; exact I]]|].
  constructor; [split; [reflexivity|apply wf_absent; reflexivity]|].
  constructor; [split; [reflexivity|apply wf_present; [reflexivity|apply wf_simple, wf_dec; exact I]]|].
  constructor.
Qed.
Example C24_example :
  In "SpacecraftParametersType" section_classes /\ wf_vars (fields_of "SpacecraftParametersType") demo_section /\
  collate_sub demo_env "spacecraft_parameters" (VObj "SpacecraftParametersType" demo_section) [] =
  Ok (map lit ["COMMENT              = a b"; "MASS                 = 0                 [kg]";
               "SOLAR_RAD_COEFF      = 0"; "DRAG_COEFF           = -2.5"; ""]).
Proof.
  split; [cbn [In section_classes]; tauto|]. split; [exact demo_section_wf|]. vm_compute; reflexivity.
Qed.
