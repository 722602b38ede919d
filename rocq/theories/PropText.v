(* Property C44: the text written for a message says its fields, in order, and nothing else. *)
From Coq Require Import NArith ZArith List Bool String Arith Lia.
From Verif Require Import PyStr PyDec PyVal Schema KvnPre KvnTree KvnSeg XmlBind KvnBuild NdmXml KvnWrite
     Spec SpecKvn SpecObj SpecMsg SpecDoc SpecEph StrFacts DecFacts PreFacts BuildFacts WriteFacts
     PropWrite CoreFacts UserFacts SingleFacts DocFacts EphText EphFacts SayFacts CheckFacts Demo PropRound PropCdm CheckEph PropOem.
Import ListNotations.
Local Open Scope string_scope.
Local Open Scope list_scope.
Local Arguments find_class : simpl never.
Local Arguments lit : simpl never.

Ltac key_ok := split; discriminate.
Ltac computed := vm_compute; reflexivity.

Lemma single_says u c body segment data hc mc header md id ver dvars l :
  In c root_classes -> class_fixed c "id" = Some id -> class_fixed c "version" = Some ver ->
  quiet_class body = true -> quiet_class segment = true -> quiet_class data = true ->
  sec_class hc = true -> mem_string hc special_output_header_classes = false -> sec_class mc = true -> mem_string mc special_output_header_classes = false ->
  mem_string "units" (map fst dvars) = false ->
  section hc header -> section mc md -> says_vars u dvars l ->
  exists raws, kvn_to_string u (single_message c body segment data header md dvars) = Ok (text_of raws) /\ Forall one_line raws /\
    document (first_item id ver :: section_items header ++ section_items md ++ l) raws.
Proof.
  intros Hc Ei Ev Qb Qs Qd Sc Hs Mc Hm U Sh Sm H. apply says_message; try assumption; try reflexivity.
  apply says_cons; [apply (says_opt u _ hc); [assumption|assumption|key_ok|right; exact Sh]|]. apply says_one.
  apply says_node; [key_ok|exact Qb|reflexivity|]. apply says_one.
  apply says_node; [key_ok|exact Qs|reflexivity|].
  apply says_cons; [apply (says_opt u _ mc); [assumption|assumption|key_ok|right; exact Sm]|]. apply says_one.
  apply says_node; [key_ok|exact Qd|exact U|exact H].
Qed.
Lemma sections_names shape secs : sections shape secs -> map fst secs = map fst shape.
Proof. induction 1 as [|[n c] [m v] shape secs [E _] _ IH]; [reflexivity|]. cbn [map fst] in *. congruence. Qed.
Lemma says_data u cs shape secs user : Forall good_text cs -> shape_ok shape = true -> sections shape secs -> opt_user u user ->
  says_vars u (("comment", VList (texts cs)) :: secs ++ [("user_defined_parameters", user)])
    (comment_items cs ++ parts_items secs ++ user_items user).
Proof.
  intros G Sk Se Us. apply says_cons; [apply says_comments; exact G|]. apply says_app; [eapply says_sections; eassumption|].
  apply says_one. apply says_user; [key_ok|exact Us].
Qed.

Theorem C44_omm_text : forall u header md cs secs user,
  section "NdmHeader" header -> section "OmmMetadata" md -> Forall good_text cs -> sections omm_sections secs -> opt_user u user ->
  exists raws, kvn_to_string u (omm header md (texts cs) secs user) = Ok (text_of raws) /\ Forall one_line raws /\
    document (first_item "CCSDS_OMM_VERS" "2.0" :: section_items header ++ section_items md ++
              comment_items cs ++ parts_items secs ++ user_items user) raws.
Proof.
  intros u header md cs secs user Sh Sm G Se Us. apply (single_says u "Omm" "OmmBody" "OmmSegment" "OmmData" "NdmHeader" "OmmMetadata" header md "CCSDS_OMM_VERS" "2.0"); [|computed|computed|computed|computed|computed|computed|computed|computed|computed| |exact Sh|exact Sm|].
  - cbn [In root_classes]; tauto.
  - cbn [map fst]. rewrite map_app, (sections_names _ _ Se). reflexivity.
  - apply (says_data u cs omm_sections); try assumption. computed.
Qed.
Print Assumptions C44_omm_text.
Theorem C44_rdm_text : forall u header md cs secs user,
  section "RdmHeader" header -> section "RdmMetadata" md -> Forall good_text cs -> sections rdm_sections secs -> opt_user u user ->
  exists raws, kvn_to_string u (rdm header md (texts cs) secs user) = Ok (text_of raws) /\ Forall one_line raws /\
    document (first_item "CCSDS_RDM_VERS" "1.0" :: section_items header ++ section_items md ++
              comment_items cs ++ parts_items secs ++ user_items user) raws.
Proof.
  intros u header md cs secs user Sh Sm G Se Us. apply (single_says u "Rdm" "RdmBody" "RdmSegment" "RdmData" "RdmHeader" "RdmMetadata" header md "CCSDS_RDM_VERS" "1.0"); [|computed|computed|computed|computed|computed|computed|computed|computed|computed| |exact Sh|exact Sm|].
  - cbn [In root_classes]; tauto.
  - cbn [map fst]. rewrite map_app, (sections_names _ _ Se). reflexivity.
  - apply (says_data u cs rdm_sections); try assumption. computed.
Qed.
Print Assumptions C44_rdm_text.

Lemma says_section_list u key c l : plain_key key -> sec_class c = true -> mem_string c special_output_header_classes = false -> Forall (section c) l ->
  says (collate_sub u key (VList l)) (flat_map section_items l).
Proof.
  intros K Sc Hm F. pose proof (says_list u key l (map section_items l) K) as H.
  assert (M : forall b, list_marker_items l b = []).
  { intros b. destruct F as [|x l [vars [-> _]] _]; [reflexivity|]. cbn [list_marker_items]. unfold marker_items. rewrite Hm. reflexivity. }
  rewrite !M, app_nil_r in H. rewrite flat_map_concat_map. apply H. clear H M. induction F as [|x l Sx _ IH]; [constructor|].
  cbn [map]. constructor; [|exact IH]. eapply says_item_section; eassumption.
Qed.
Theorem C44_opm_text : forall u header md cs secs mans user,
  section "NdmHeader" header -> section "OpmMetadata" md -> Forall good_text cs -> sections opm_sections secs ->
  Forall (section "ManeuverParametersType") mans -> opt_user u user ->
  exists raws, kvn_to_string u (opm header md (texts cs) secs mans user) = Ok (text_of raws) /\ Forall one_line raws /\
    document (first_item "CCSDS_OPM_VERS" "2.0" :: section_items header ++ section_items md ++
              comment_items cs ++ parts_items secs ++ flat_map section_items mans ++ user_items user) raws.
Proof.
  intros u header md cs secs mans user Sh Sm G Se Fm Us. apply (single_says u "Opm" "OpmBody" "OpmSegment" "OpmData" "NdmHeader" "OpmMetadata" header md "CCSDS_OPM_VERS" "2.0"); [|computed|computed|computed|computed|computed|computed|computed|computed|computed| |exact Sh|exact Sm|].
  - cbn [In root_classes]; tauto.
  - cbn [map fst]. rewrite map_app, (sections_names _ _ Se). reflexivity.
  - apply says_cons; [apply says_comments; exact G|]. apply says_app; [apply (says_sections u opm_sections); [computed|exact Se]|].
    apply says_cons; [apply (says_section_list u _ "ManeuverParametersType"); [key_ok|computed|computed|exact Fm]|].
    apply says_one. apply says_user; [key_ok|exact Us].
Qed.
Print Assumptions C44_opm_text.

Lemma relative_says u v : relative_data v -> says (collate_sub u "relative_metadata_data" v) (relative_items v).
Proof.
  intros [before [rsv [after [-> [Wb [Or [Wa _]]]]]]]. 
  assert (L : List.length before = 4).
  { pose proof (f_equal (@List.length string) (wf_vars_names _ _ Wb)) as X. rewrite !map_length in X. rewrite X. computed. }
  assert (N : mem_string "units" (map fst (before ++ ("relative_state_vector", rsv) :: after)) = false).
  { rewrite map_app. cbn [map fst]. rewrite (wf_vars_names _ _ Wb), (wf_vars_names _ _ Wa). computed. }
  apply says_node; [key_ok|computed|exact N|].
  destruct before as [|b1 [|b2 [|b3 [|b4 [|]]]]]; try discriminate L. cbn [relative_items firstn app nth_error skipn].
  change (b1 :: b2 :: b3 :: b4 :: ("relative_state_vector", rsv) :: after) with ([b1; b2; b3; b4] ++ ("relative_state_vector", rsv) :: after).
  apply says_app; [apply says_fields; [computed|exact Wb]|]. apply says_cons.
  - apply (says_opt u _ "RelativeStateVectorType"); [computed|computed|key_ok|exact Or].
  - apply says_fields; [computed|exact Wa].
Qed.
Lemma segments_say u segment data mc shape ps : quiet_class segment = true -> quiet_class data = true ->
  sec_class mc = true -> mem_string mc special_output_header_classes = false -> shape_ok shape = true ->
  mem_string "units" (map fst shape) = false ->
  Forall (fun p : segment_parts => let '(md, cs, secs) := p in section mc md /\ Forall good_text cs /\ sections shape secs) ps ->
  says (collate_sub u "segment" (VList (map (segment_object segment data) ps))) (flat_map segment_items ps).
Proof.
  intros Qs Qd Mc Hm Sk Nu F. pose proof (says_list u "segment" (map (segment_object segment data) ps) (map segment_items ps) ltac:(key_ok)) as H.
  unfold quiet_class in Qs. apply andb_true_iff in Qs. destruct Qs as [Q1 Q2]. apply negb_true_iff in Q1, Q2.
  assert (M : forall b, list_marker_items (map (segment_object segment data) ps) b = []).
  { intros b. destruct ps as [|[[md cs] secs] ps]; [reflexivity|]. cbn [map segment_object list_marker_items]. unfold marker_items. rewrite Q2. reflexivity. }
  rewrite !M, app_nil_r in H. rewrite flat_map_concat_map. apply H. clear H M. induction F as [|[[md cs] secs] ps [Sm [G Se]] _ IH]; [constructor|].
  cbn [map]. constructor; [|exact IH]. cbn [segment_object segment_items]. apply says_item_obj; [exact Q1|].
  apply says_cons; [apply (says_opt u _ mc); [assumption|assumption|key_ok|right; exact Sm]|]. apply says_one.
  apply says_node; [key_ok|exact Qd|cbn [map fst]; rewrite (sections_names _ _ Se); exact Nu|].
  apply says_cons; [apply says_comments; exact G|]. eapply says_sections; eassumption.
Qed.
Theorem C44_cdm_text : forall u header relative ps,
  section "CdmHeader" header -> relative_data relative -> Forall cdm_segment_ok ps ->
  exists raws, kvn_to_string u (cdm_message header relative (map (segment_object "CdmSegment" "CdmData") ps)) = Ok (text_of raws) /\
    Forall one_line raws /\
    document (first_item "CCSDS_CDM_VERS" "1.0" :: section_items header ++ relative_items relative ++ flat_map segment_items ps) raws.
Proof.
  intros u header relative ps Sh Rl F. apply (says_message u "Cdm"); [cbn [In root_classes]; tauto|computed|computed|computed|computed|].
  apply says_cons; [apply (says_opt u _ "CdmHeader"); [computed|computed|key_ok|right; exact Sh]|]. apply says_one.
  apply says_node; [key_ok|computed|reflexivity|]. apply says_cons; [apply relative_says; exact Rl|]. apply says_one.
  apply (segments_say u "CdmSegment" "CdmData" "CdmMetadata" cdm_sections); [computed|computed|computed|computed|computed|computed|].
  eapply Forall_impl; [|exact F]. intros [[md cs] secs] [Sm [G [Se _]]]. auto.
Qed.
Print Assumptions C44_cdm_text.

(* ---- OEM ---- *)
Lemma bare_document s : document [Bare s] [s].
Proof. apply doc_item; [|constructor]. rewrite <- (app_nil_r s) at 2. apply (spelt_bare s [] []); apply blank_nil. Qed.
Lemma bares_document l : document (map Bare l) l.
Proof. induction l as [|s l IH]; [constructor|]. exact (document_app [Bare s] (map Bare l) [s] l (bare_document s) IH). Qed.
Lemma says_state u r : good_state r -> says (write_item u "state_vector" (oem_state r)) [spaced_out (fst r :: map show_dec (snd r))].
Proof.
  intros G out. exists [state_line r]. split; [apply write_state_raw; exact G|]. destruct (state_written r G) as [_ [O _]].
  split; [constructor; [exact O|constructor]|]. exact (bare_document _).
Qed.
Lemma frame_key u : upper u (lit "cov_ref_frame") = lit "COV_REF_FRAME".
Proof. reflexivity. Qed.
Lemma write_framed_raw u key m dss out : good_framed m -> triangle 1 (snd (snd m)) dss ->
  write_item u key (framed_cov m) out =
  Ok (out ++ fill_kvn u (lit "epoch") (fst (snd m)) [] ::
      match fst m with Some f => [fill_kvn u (lit "cov_ref_frame") f []] | None => [] end ++ map (join gap) (map (map show_dec) dss)).
Proof.
  intros [Gf [_ [L Fi]]] T. destruct m as [fr r]. cbn [fst snd] in *.
  unfold write_item, framed_cov. cbn [fst snd]. replace (mem_string "OemCovarianceMatrixType" special_output_data_classes) with true by reflexivity.
  unfold special_data_lines. cbn [String.eqb Ascii.eqb Bool.eqb]. unfold covariance_lines.
  assert (R : cov_rows (S (List.length (map show_dec (snd r)))) 1 (map show_dec (snd r)) = Ok (map (join gap) (map (map show_dec) dss))).
  { rewrite (cov_rows_triangle _ (map (map show_dec) dss) 1); [reflexivity|apply triangle_map; exact T|discriminate| |lia].
    apply Forall_forall. intros v Hv ->. apply in_map_iff in Hv. destruct Hv as [d [Ev Hd]].
    assert (Nt : number_text (show_dec d) d) by (apply show_dec_number, finite_canonical; rewrite Forall_forall in Fi; apply Fi; exact Hd).
    rewrite Ev in Nt. destruct Nt as [_ [Nt _]]. inversion Nt as [|? ? [[X _] _] _]; subst. vm_compute in X. congruence. }
  destruct fr as [[|c f]|].
  - destruct (Gf [] eq_refl) as [X _]. congruence.
  - cbn [py_getattr assoc String.eqb Ascii.eqb Bool.eqb bind py_iter map_res py_str truthy filter_map snd].
    rewrite columns_values by (rewrite L; reflexivity). cbn [bind]. rewrite R. reflexivity.
  - cbn [py_getattr assoc String.eqb Ascii.eqb Bool.eqb bind py_iter map_res py_str truthy filter_map snd].
    rewrite columns_values by (rewrite L; reflexivity). cbn [bind]. rewrite R. reflexivity.
Qed.
Lemma says_framed u m : good_framed m -> exists l, framed_written m l /\ says (write_item u "covariance_matrix" (framed_cov m)) l.
Proof.
  intros G. pose proof G as [Gf [Ge [L Fi]]]. destruct (triangle_21 (snd (snd m)) L) as [dss T].
  eexists. split; [exists (map (map show_dec) dss); split; [apply triangle_map; exact T|reflexivity]|].
  intros out. eexists. split; [exact (write_framed_raw u "covariance_matrix" m dss out G T)|]. split.
  - destruct (write_cov u "covariance_matrix" (snd m) (conj Ge (conj L Fi))) as [rows [T2 [_ A]]]. destruct (A out) as [raws [E2 [O _]]].
    rewrite (write_cov_raw u "covariance_matrix" (snd m) dss out (conj Ge (conj L Fi)) T) in E2. injection E2 as E2. apply app_inv_head in E2. subst raws.
    inversion O as [|? ? O1 O2]; subst. constructor; [exact O1|]. apply Forall_app. split; [|exact O2].
    destruct (fst m) as [f|]; [|constructor]. constructor; [|constructor]. destruct (Gf f eq_refl) as [_ [_ [Of _]]].
    apply fill_kvn_one_line; [rewrite frame_key; apply no_charb_spec; reflexivity|exact Of|exact one_line_nil].
  - apply doc_item; [apply spelt_say, spelled_said, fill_spelled_plain; apply (epoch_key u)|]. apply document_app.
    + destruct (fst m) as [f|]; [|constructor]. apply doc_item; [|constructor]. apply spelt_say, spelled_said, fill_spelled_plain. apply frame_key.
    + unfold spaced_out. rewrite <- (map_map (join [c_sp; c_sp]) Bare). apply bares_document.
Qed.
Lemma says_segment u p : framed_segment_ok p -> exists l, framed_said p l /\ says (write_item u "segment" (framed_segment p)) l.
Proof.
  destruct p as [[[md cs] states] covs]. intros [Sm [G [Gs Gc]]].
  assert (C : exists blocks, Forall2 framed_written covs blocks /\ Forall2 (fun x il => says (write_item u "covariance_matrix" x) il) (map framed_cov covs) blocks).
  { induction Gc as [|r covs Gr _ [blocks [I1 I2]]]; [exists []; split; constructor|]. destruct (says_framed u r Gr) as [l [L1 L2]].
    exists (l :: blocks). cbn [map]. split; constructor; assumption. }
  destruct C as [blocks [C1 C2]]. eexists. split; [exists blocks; split; [exact C1|reflexivity]|].
  cbn [framed_segment]. apply says_item_obj; [reflexivity|].
  match goal with |- says_vars _ _ (?a ++ ?b ++ ?c ++ ?r) => replace (a ++ b ++ c ++ r) with ((a ++ b ++ c) ++ r) by (rewrite <- !app_assoc; reflexivity) end.
  apply says_cons.
  { pose proof (says_section u "metadata" "OemMetadata" md ltac:(computed) ltac:(key_ok) Sm) as X. exact X. }
  apply says_one. apply says_node; [key_ok|reflexivity|reflexivity|]. apply says_cons; [apply says_comments; exact G|]. apply says_cons.
  - pose proof (says_list u "state_vector" (map oem_state states) (map (fun r => [spaced_out (fst r :: map show_dec (snd r))]) states) ltac:(key_ok)) as X.
    replace (list_marker_items (map oem_state states) true) with (@nil item) in X by (destruct states; reflexivity).
    replace (list_marker_items (map oem_state states) false) with (@nil item) in X by (destruct states; reflexivity). rewrite app_nil_r in X.
    replace (List.concat (map (fun r => [spaced_out (fst r :: map show_dec (snd r))]) states)) with (map (fun r => spaced_out (fst r :: map show_dec (snd r))) states) in X
      by (clear; induction states; [reflexivity|cbn [map List.concat app]; congruence]).
    apply X. clear X. induction Gs as [|r states Gr _ IH]; [constructor|]. cbn [map]. constructor; [apply says_state; exact Gr|exact IH].
  - apply says_one. pose proof (says_list u "covariance_matrix" (map framed_cov covs) blocks ltac:(key_ok) C2) as X.
    destruct covs as [|r covs]; [inversion C1; subst; exact X|exact X].
Qed.
(* META_START, metadata, META_STOP, one line for each state vector, and the covariance matrices between COVARIANCE_START
   and COVARIANCE_STOP: the epoch, the reference frame if there is one, and rows of one to six numbers *)
Theorem C44_oem_frames_text : forall u header ps, section "NdmHeader" header -> Forall framed_segment_ok ps ->
  exists ls raws, Forall2 framed_said ps ls /\ kvn_to_string u (oem_message header (map framed_segment ps)) = Ok (text_of raws) /\
    Forall one_line raws /\
    document (first_item "CCSDS_OEM_VERS" "2.0" :: section_items header ++ List.concat ls) raws.
Proof.
  intros u header ps Sh F.
  assert (C : exists ls, Forall2 framed_said ps ls /\ Forall2 (fun x il => says (write_item u "segment" x) il) (map framed_segment ps) ls).
  { induction F as [|p ps P _ [ls [I1 I2]]]; [exists []; split; constructor|]. destruct (says_segment u p P) as [l [L1 L2]].
    exists (l :: ls). cbn [map]. split; constructor; assumption. }
  destruct C as [ls [C1 C2]]. exists ls.
  assert (X : exists raws, kvn_to_string u (oem_message header (map framed_segment ps)) = Ok (text_of raws) /\ Forall one_line raws /\
    document (first_item "CCSDS_OEM_VERS" "2.0" :: section_items header ++ List.concat ls) raws).
  { apply (says_message u "Oem"); [cbn [In root_classes]; tauto|computed|computed|computed|computed|].
    apply says_cons; [apply (says_opt u _ "NdmHeader"); [computed|computed|key_ok|right; exact Sh]|]. apply says_one.
    apply says_node; [key_ok|computed|reflexivity|]. apply says_one.
    pose proof (says_list u "segment" (map framed_segment ps) ls ltac:(key_ok) C2) as X.
    replace (list_marker_items (map framed_segment ps) true) with (@nil item) in X by (destruct ps as [|[[[]]]]; reflexivity).
    replace (list_marker_items (map framed_segment ps) false) with (@nil item) in X by (destruct ps as [|[[[]]]]; reflexivity).
    rewrite app_nil_r in X. exact X. }
  destruct X as [raws X]. exists raws. auto.
Qed.
Print Assumptions C44_oem_frames_text.
(* the same without frames *)
Definition unframed (p : oem_part) : framed_part := let '(md, cs, states, covs) := p in (md, cs, states, map (fun r => (None, r)) covs).
Lemma unframed_ok p : oem_segment_ok p -> framed_segment_ok (unframed p).
Proof.
  destruct p as [[[md cs] states] covs]. intros [A [B [_ [_ [C D]]]]]. split; [exact A|]. split; [exact B|]. split; [exact C|].
  apply Forall_map. eapply Forall_impl; [|exact D]. intros r R. split; [discriminate|exact R].
Qed.
Lemma unframed_segment p : framed_segment (unframed p) = oem_segment p.
Proof. destruct p as [[[md cs] states] covs]. cbn [unframed framed_segment oem_segment]. rewrite map_map. reflexivity. Qed.
Lemma unframed_said p l : framed_said (unframed p) l -> oem_written p l.
Proof.
  destruct p as [[[md cs] states] covs]. intros [blocks [F ->]]. exists blocks. split.
  - revert F. generalize blocks. induction covs as [|r covs IH]; intros bs F; inversion F; subst; constructor; [assumption|apply IH; assumption].
  - destruct covs; reflexivity.
Qed.
Theorem C44_oem_text : forall u header ps, section "NdmHeader" header -> Forall oem_segment_ok ps ->
  exists ls raws, Forall2 oem_written ps ls /\ kvn_to_string u (oem_message header (map oem_segment ps)) = Ok (text_of raws) /\
    Forall one_line raws /\
    document (first_item "CCSDS_OEM_VERS" "2.0" :: section_items header ++ List.concat ls) raws.
Proof.
  intros u header ps Sh F. destruct (C44_oem_frames_text u header (map unframed ps) Sh) as [ls [raws [W H]]].
  { apply Forall_map. eapply Forall_impl; [|exact F]. exact unframed_ok. }
  exists ls, raws. rewrite map_map in H. rewrite (map_ext _ _ unframed_segment) in H. split; [|exact H].
  clear - W. revert ls W. induction ps as [|p ps IH]; intros ls W; inversion W; subst; constructor; [apply unframed_said; assumption|apply IH; assumption].
Qed.
Print Assumptions C44_oem_text.

(* the messages of the other examples; what the first of them looks like *)
Example C44_example : section "NdmHeader" demo_header /\ section "OmmMetadata" omm_meta /\
  Forall good_text [lit "d 1"; lit "d 2"] /\ sections omm_sections (omm_parts ["e 1"; "e 2"] ["s"]) /\ opt_user demo_env demo_user /\
  section "RdmHeader" rdm_header /\ section "RdmMetadata" rdm_meta /\ sections rdm_sections (rdm_parts ["e 1"; "e 2"] ["s"]) /\
  section "OpmMetadata" opm_meta /\ sections opm_sections (opm_parts ["e 1"; "e 2"] ["s"]) /\ Forall (section "ManeuverParametersType") demo_mans /\
  section "CdmHeader" cdm_header /\ relative_data rel_full /\ Forall cdm_segment_ok cdm_two /\ Forall oem_segment_ok demo_oem.
Proof.
  split; [met|]. split; [met|]. split; [eapply allb; [apply good_textb_spec|by_compute]|]. split; [apply sectionsb_spec; by_compute|].
  split; [exact demo_user_ok|]. split; [met|]. split; [met|]. split; [apply sectionsb_spec; by_compute|]. split; [met|].
  split; [apply sectionsb_spec; by_compute|]. split; [repeat (constructor; [met|]); constructor|]. split; [apply C29_example|].
  split; [apply C29_example|]. split; [apply C29_example|]. apply C30_example.
Qed.
(* matrices with and without a frame *)
Example C44_frames_example : exists p, framed_segment_ok p /\ let '(_, _, _, ms) := p in map fst ms = [Some (lit "RTN"); None].
Proof.
  destruct C30_example as [_ [_ [F _]]]. unfold demo_oem in F. inversion F as [|p ps P _]; subst. clear F.
  match type of P with oem_segment_ok (?md, ?cs, ?states, ?covs) =>
    exists (md, cs, states, [(Some (lit "RTN"), hd (nil, nil) covs); (None, hd (nil, nil) covs)]) end.
  destruct P as [A [B [_ [_ [C D]]]]]. split; [|reflexivity]. split; [exact A|]. split; [exact B|]. split; [exact C|].
  assert (R : good_cov (hd (nil, nil) (let '(_, _, _, covs) := hd (VNone, nil, nil, nil) demo_oem in covs))) by (inversion D; assumption).
  constructor; [|constructor; [|constructor]]; (split; [|exact R]); intros f X; [injection X as <-; apply good_textb_spec; by_compute|discriminate].
Qed.
