(* Property C45: documents that say the same things in the same order are read alike, and a document that says the
   fields of a message in the order of the writer is read as that message. *)
From Coq Require Import NArith ZArith List Bool String Arith Lia.
From Verif Require Import PyStr PyDec PyVal Schema KvnPre KvnTree KvnSeg XmlBind KvnBuild NdmXml KvnWrite
     Spec SpecKvn SpecObj SpecMsg SpecDoc SpecEph StrFacts DecFacts PreFacts BuildFacts WriteFacts
     PropWrite CoreFacts UserFacts SingleFacts PropRound PropCdm DocFacts EphText EphFacts SayFacts CheckFacts Demo CheckEph PropText PropOemDoc.
Import ListNotations.
Local Open Scope string_scope.
Local Open Scope list_scope.
Local Arguments find_class : simpl never.
Local Arguments lit : simpl never.

Lemma same_items_read u items r1 r2 : items <> [] -> Forall item_ok items -> document items r1 -> document items r2 ->
  Forall one_line r1 -> Forall one_line r2 -> kvn_from_string u (text_of r1) = kvn_from_string u (text_of r2).
Proof.
  intros Ne F D1 D2 O1 O2.
  assert (N1 : r1 <> []) by (intros ->; inversion D1; subst; congruence). assert (N2 : r2 <> []) by (intros ->; inversion D2; subst; congruence).
  unfold kvn_from_string, pre_process, text_of. rewrite !lex_lines_join by assumption.
  rewrite (document_lex _ _ F D1), (document_lex _ _ F D2). reflexivity.
Qed.
Lemma written_read u items raws raws' v w : Forall item_ok items -> items <> [] ->
  kvn_to_string u v = Ok (text_of raws) /\ Forall one_line raws /\ document items raws ->
  (exists t, kvn_to_string u v = Ok t /\ kvn_from_string u t = Ok w) ->
  document items raws' -> Forall one_line raws' -> kvn_from_string u (text_of raws') = Ok w.
Proof.
  intros F Ne [W [O D]] [t [W2 R]] D' O'. rewrite W in W2. injection W2 as <-. rewrite <- R. apply (same_items_read u items); assumption.
Qed.

Lemma opt_items_ok (u : env) c v : leaf_class c = true -> opt_section c v -> Forall item_ok (section_items v).
Proof. intros L [->|Sv]; [constructor|]. apply (section_items_ok u c v L Sv). Qed.
Lemma sec_leaf c : sec_class c = true -> leaf_class c = true.
Proof. unfold sec_class. intros H. apply andb_true_iff in H. apply H. Qed.
Lemma parts_ok (u : env) shape secs : shape_ok shape = true -> sections shape secs -> Forall item_ok (parts_items secs).
Proof.
  intros H F. induction F as [|[n c] [m v] shape secs [E O] _ IH]; [constructor|].
  cbn [shape_ok forallb fst snd] in *. apply andb_true_iff in H. destruct H as [H Hs]. do 3 (apply andb_true_iff in H; destruct H as [H _]).
  cbn [parts_items flat_map snd]. apply Forall_app. split; [apply (opt_items_ok u c); [apply sec_leaf; exact H|exact O]|apply IH; exact Hs].
Qed.
Lemma user_items_ok u v : opt_user u v -> Forall item_ok (user_items v).
Proof.
  intros [->|[ps [[_ [_ G]] ->]]]; [constructor|]. cbn [user_block user_items]. rewrite map_map. apply Forall_map. eapply Forall_impl; [|exact G].
  intros [n t] [[[Ne [T [O _]]] [Eq _]] [[Nt [Tt _]] Un]]. cbn [fst snd user_param] in *. right.
  split; [apply trimmed_app; [apply trimmedb_spec; reflexivity|exact T|discriminate|exact Ne]|].
  split; [apply no_char_app; split; [apply no_charb_spec; reflexivity|exact Eq]|].
  split; [intros [x X]; discriminate X|]. split; [exact Tt|left; auto].
Qed.
Lemma first_item_ok c id ver : In c root_classes -> class_fixed c "id" = Some id -> class_fixed c "version" = Some ver -> item_ok (first_item id ver).
Proof.
  intros Hc Ei Ev.
  destruct (root_fixed c Hc) as [id' [ver' [Ht [Ei' [Ev' [_ [_ [_ [_ [P [_ Ol]]]]]]]]]]]. rewrite Ei in Ei'. rewrite Ev in Ev'. injection Ei' as <-. injection Ev' as <-.
  assert (Tv : trimmed (lit ver) /\ ~ unit_like (lit ver)).
  { clear - Hc Ev. repeat (destruct Hc as [<-|Hc]; [vm_compute in Ev; injection Ev as <-; split;
      [apply trimmedb_spec; reflexivity|intros [Hin _]; revert Hin; apply no_charb_spec; reflexivity]|]). destruct Hc. }
  apply plain_text_spec in P. destruct P as [_ [Tk [Ok1 [Eq _]]]].
  assert (C : ~ begins kw_comment (lit id)).
  { apply startswith_false. clear - Hc Ei. repeat (destruct Hc as [<-|Hc]; [vm_compute in Ei; injection Ei as <-; reflexivity|]). destruct Hc. }
  right. destruct Tv. auto 10.
Qed.

Theorem C45_omm_document : forall u header md cs secs user raws,
  section "NdmHeader" header -> section "OmmMetadata" md -> Forall good_text cs ->
  sections omm_sections secs -> some_section secs -> opt_user u user ->
  document (first_item "CCSDS_OMM_VERS" "2.0" :: section_items header ++ section_items md ++
            comment_items cs ++ parts_items secs ++ user_items user) raws -> Forall one_line raws ->
  kvn_from_string u (text_of raws) = Ok (omm header md (data_comments (texts cs) secs)
                                           (give_comments (section_comments (texts cs) secs) secs) user).
Proof.
  intros u header md cs secs user raws Sh Sm G Se Ss Us D O.
  destruct (C44_omm_text u header md cs secs user Sh Sm G Se Us) as [raws0 W].
  refine (written_read u _ raws0 raws _ _ _ _ W (C26_omm_read_back u header md cs secs user Sh Sm G Se Ss Us) D O); [|discriminate].
  constructor; [apply (first_item_ok "Omm"); [cbn [In root_classes]; tauto|computed|computed]|]. repeat (apply Forall_app; split).
  - apply (section_items_ok u "NdmHeader"); [computed|exact Sh].
  - apply (section_items_ok u "OmmMetadata"); [computed|exact Sm].
  - apply (comment_items_ok cs G).
  - apply (parts_ok u omm_sections); [computed|exact Se].
  - apply (user_items_ok u); exact Us.
Qed.
Print Assumptions C45_omm_document.
Theorem C45_rdm_document : forall u header md cs secs user raws,
  section "RdmHeader" header -> section "RdmMetadata" md -> Forall good_text cs ->
  sections rdm_sections secs -> some_section secs -> opt_user u user ->
  document (first_item "CCSDS_RDM_VERS" "1.0" :: section_items header ++ section_items md ++
            comment_items cs ++ parts_items secs ++ user_items user) raws -> Forall one_line raws ->
  kvn_from_string u (text_of raws) = Ok (rdm header md (data_comments (texts cs) secs)
                                           (give_comments (section_comments (texts cs) secs) secs) user).
Proof.
  intros u header md cs secs user raws Sh Sm G Se Ss Us D O.
  destruct (C44_rdm_text u header md cs secs user Sh Sm G Se Us) as [raws0 W].
  refine (written_read u _ raws0 raws _ _ _ _ W (C28_rdm_read_back u header md cs secs user Sh Sm G Se Ss Us) D O); [|discriminate].
  constructor; [apply (first_item_ok "Rdm"); [cbn [In root_classes]; tauto|computed|computed]|]. repeat (apply Forall_app; split).
  - apply (section_items_ok u "RdmHeader"); [computed|exact Sh].
  - apply (section_items_ok u "RdmMetadata"); [computed|exact Sm].
  - apply (comment_items_ok cs G).
  - apply (parts_ok u rdm_sections); [computed|exact Se].
  - apply (user_items_ok u); exact Us.
Qed.
Print Assumptions C45_rdm_document.
Theorem C45_opm_document : forall u header md cs secs mans user raws,
  section "NdmHeader" header -> section "OpmMetadata" md -> Forall good_text cs ->
  sections opm_sections secs -> some_section secs ->
  Forall (section "ManeuverParametersType") mans -> no_new_fields mans -> opt_user u user ->
  document (first_item "CCSDS_OPM_VERS" "2.0" :: section_items header ++ section_items md ++
            comment_items cs ++ parts_items secs ++ flat_map section_items mans ++ user_items user) raws -> Forall one_line raws ->
  kvn_from_string u (text_of raws) = Ok (opm header md (data_comments (texts cs) secs)
                                           (give_comments (section_comments (texts cs) secs) secs) mans user).
Proof.
  intros u header md cs secs mans user raws Sh Sm G Se Ss Fm Nf Us D O.
  destruct (C44_opm_text u header md cs secs mans user Sh Sm G Se Fm Us) as [raws0 W].
  refine (written_read u _ raws0 raws _ _ _ _ W (C27_opm_read_back u header md cs secs mans user Sh Sm G Se Ss Fm Nf Us) D O); [|discriminate].
  constructor; [apply (first_item_ok "Opm"); [cbn [In root_classes]; tauto|computed|computed]|]. repeat (apply Forall_app; split).
  - apply (section_items_ok u "NdmHeader"); [computed|exact Sh].
  - apply (section_items_ok u "OpmMetadata"); [computed|exact Sm].
  - apply (comment_items_ok cs G).
  - apply (parts_ok u opm_sections); [computed|exact Se].
  - clear - u Fm. induction Fm as [|m mans Hm _ IH]; [constructor|]. cbn [flat_map]. apply Forall_app. split; [|exact IH].
    apply (section_items_ok u "ManeuverParametersType"); [computed|exact Hm].
  - apply (user_items_ok u); exact Us.
Qed.
Print Assumptions C45_opm_document.

Lemma relative_items_ok (u : env) v : relative_data v -> Forall item_ok (relative_items v).
Proof.
  intros [before [rsv [after [-> [Wb [Or [Wa _]]]]]]].
  assert (L : List.length before = 4).
  { pose proof (f_equal (@List.length string) (wf_vars_names _ _ Wb)) as X. rewrite !map_length in X. rewrite X. computed. }
  destruct before as [|b1 [|b2 [|b3 [|b4 [|]]]]]; try discriminate L. cbn [relative_items firstn app nth_error skipn].
  repeat (apply Forall_app; split).
  - apply Forall_map. apply (entries_ok u); [computed|exact Wb].
  - apply (opt_items_ok u "RelativeStateVectorType"); [computed|exact Or].
  - apply Forall_map. apply (entries_ok u); [computed|exact Wa].
Qed.
Theorem C45_cdm_document : forall u header relative ps raws,
  section "CdmHeader" header -> relative_data relative -> ps <> [] -> Forall cdm_segment_ok ps -> no_new_keys ps ->
  document (first_item "CCSDS_CDM_VERS" "1.0" :: section_items header ++ relative_items relative ++ flat_map segment_items ps) raws ->
  Forall one_line raws ->
  kvn_from_string u (text_of raws) = Ok (cdm_message header relative (map (settle "CdmSegment" "CdmData") ps)).
Proof.
  intros u header relative ps raws Sh Rl Ne Fp Nn D O. destruct (C44_cdm_text u header relative ps Sh Rl Fp) as [raws0 W].
  refine (written_read u _ raws0 raws _ _ _ _ W (C29_cdm_read_back u header relative ps Sh Rl Ne Fp Nn) D O); [|discriminate].
  constructor; [apply (first_item_ok "Cdm"); [cbn [In root_classes]; tauto|computed|computed]|]. repeat (apply Forall_app; split).
  - apply (section_items_ok u "CdmHeader"); [computed|exact Sh].
  - apply (relative_items_ok u); exact Rl.
  - clear - u Fp. induction Fp as [|[[md cs] secs] ps [Sm [G [Se _]]] _ IH]; [constructor|]. cbn [flat_map segment_items]. apply Forall_app. split; [|exact IH].
    repeat (apply Forall_app; split); [apply (section_items_ok u "CdmMetadata"); [computed|exact Sm]|apply (comment_items_ok cs G)|].
    apply (parts_ok u cdm_sections); [computed|exact Se].
Qed.
Print Assumptions C45_cdm_document.

Definition C45_items : list item := first_item "CCSDS_OPM_VERS" "2.0" :: section_items demo_header ++ section_items opm_meta ++
  comment_items [lit "d 1"; lit "d 2"] ++ parts_items (opm_parts ["e 1"; "e 2"] ["s"]) ++ flat_map section_items demo_mans ++ user_items demo_user.
Example C45_example : section "NdmHeader" demo_header /\ section "OpmMetadata" opm_meta /\
  Forall good_text [lit "d 1"; lit "d 2"] /\ sections opm_sections (opm_parts ["e 1"; "e 2"] ["s"]) /\
  some_section (opm_parts ["e 1"; "e 2"] ["s"]) /\ Forall (section "ManeuverParametersType") demo_mans /\ no_new_fields demo_mans /\
  opt_user demo_env demo_user /\ document C45_items (odd C45_items) /\ Forall one_line (odd C45_items).
Proof.
  destruct C27_example as [A [B [_ [C [D [E [F [G _]]]]]]]]. split; [exact A|]. split; [exact B|].
  split; [eapply allb; [apply good_textb_spec|by_compute]|]. repeat (split; [assumption|]). split; [apply odd_document|apply odd_one_line; by_compute].
Qed.
Definition C45_cdm_items : list item := first_item "CCSDS_CDM_VERS" "1.0" :: section_items cdm_header ++ relative_items rel_full ++ flat_map segment_items cdm_two.
Example C45_cdm_example : section "CdmHeader" cdm_header /\ relative_data rel_full /\ cdm_two <> [] /\
  Forall cdm_segment_ok cdm_two /\ no_new_keys cdm_two /\ document C45_cdm_items (odd C45_cdm_items) /\ Forall one_line (odd C45_cdm_items).
Proof.
  destruct C29_example as [A [B [C [D E]]]]. repeat (split; [assumption|]). split; [apply odd_document|apply odd_one_line; by_compute].
Qed.
