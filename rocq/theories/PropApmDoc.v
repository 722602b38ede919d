(* Properties C44 and C45 for attitude parameter messages: what the writer's text says, and documents that say it. *)
From Coq Require Import NArith ZArith List Bool String Arith Lia.
From Verif Require Import PyStr PyDec PyVal Schema KvnPre KvnTree KvnSeg XmlBind KvnBuild NdmXml KvnWrite
     Spec SpecKvn SpecObj SpecMsg SpecDoc SpecApm StrFacts DecFacts PreFacts BuildFacts WriteFacts
     PropWrite CoreFacts UserFacts SingleFacts ListFacts PropRound PropCdm DocFacts EphText EphFacts SayFacts CheckFacts Demo CheckEph
     PropText PropOemDoc PropDoc ApmFacts PropApm.
Import ListNotations.
Local Open Scope string_scope.
Local Open Scope list_scope.
Local Arguments find_class : simpl never.
Local Arguments lit : simpl never.

Lemma rotation_classes :
  comp_class "RotationAngleComponentType" "angle" "AngleKeywordType" "AngleUnits" angle_names /\
  comp_class "RotationRateComponentType" "rate" "AngleRateKeywordType" "AngleRateUnits" rate_names.
Proof.
  destruct apm_shape as [hdr [body [seg [meta [data [q [eu [sp [sc [man [ql [qr [an [ra [_ [_ [_ [_ [_ [_ [_ [Ra [Rr _]]]]]]]]]]]]]]]]]]]]]]].
  split; [apply Ra|apply Rr].
Qed.
Lemma component_says u comp p axes units ms v key : comp_class comp p axes units ms -> component comp p axes units v -> plain_key key ->
  says (collate_sub u key v) (component_items v) /\ Forall item_ok (component_items v).
Proof.
  intros C H K. destruct (comp_written u _ _ _ _ _ v key C H K) as [c [k1 [x [k2 [c2 [m [s [k3 [un [tu [-> [Et [Ko [Gx [Bx [Pu W]]]]]]]]]]]]]]]].
  cbn [component_items]. rewrite Et. clear Et. destruct Ko as [Eu [Tk [Nk [Ok C0]]]]. destruct Gx as [[_ [Tx [Ox _]]] Nx]. apply startswith_false in C0. split.
  - intros out. eexists. split; [apply W|].
    assert (Sp : spelled (lit s, fst (shown x), tu) (fill_kvn u (lit s) (fst (shown x)) tu)).
    { destruct Pu as [->|Pu]; [apply fill_spelled_plain; exact Eu|]. apply plain_text_spec in Pu. destruct Pu as [Nu _]. apply fill_spelled_unit; assumption. }
    split.
    + constructor; [|constructor]. apply fill_kvn_one_line; [rewrite Eu; exact Ok|exact Ox|]. destruct Pu as [->|Pu]; [exact one_line_nil|].
      apply plain_text_spec in Pu. apply Pu.
    + apply doc_item; [apply spelt_say, spelled_said; exact Sp|constructor].
  - constructor; [|constructor]. right. do 4 (split; [assumption|]). destruct Pu as [->|Pu]; [left; auto|right].
    apply plain_text_spec in Pu. destruct Pu as [P1 [P2 [P3 [_ [P5 [P6 _]]]]]]. auto 10.
Qed.
Lemma rotation_says u cont comp p axes units ms v key : comp_class comp p axes units ms -> quiet_class cont = true ->
  opt_rotation cont (component comp p axes units) v -> plain_key key ->
  says (collate_sub u key v) (rotation_items v) /\ Forall item_ok (rotation_items v).
Proof.
  intros C Q H K. destruct H as [->|[->|[a [b [d [-> [Pa [Pb Pd]]]]]]]].
  - split; [apply says_none; exact K|constructor].
  - split; [|constructor]. apply says_node; [exact K|exact Q|reflexivity|]. cbn [rotation_items rotation flat_map snd].
    change (@nil item) with (@nil item ++ @nil item ++ @nil item ++ @nil item).
    apply says_cons; [apply says_none; key_ok|]. apply says_cons; [apply says_none; key_ok|]. apply says_cons; [apply says_none; key_ok|apply says_nil].
  - destruct (component_says u _ _ _ _ _ a "rotation1" C Pa ltac:(key_ok)) as [Sa Ia].
    destruct (component_says u _ _ _ _ _ b "rotation2" C Pb ltac:(key_ok)) as [Sb Ib].
    destruct (component_says u _ _ _ _ _ d "rotation3" C Pd ltac:(key_ok)) as [Sd Id].
    cbn [rotation_items rotation flat_map snd]. split; [|repeat (apply Forall_app; split); try assumption; constructor].
    apply says_node; [exact K|exact Q|reflexivity|]. apply says_cons; [exact Sa|]. apply says_cons; [exact Sb|]. apply says_cons; [exact Sd|apply says_nil].
Qed.

Definition q_shape : list (string * string) := [("quaternion", "QuaternionType"); ("quaternion_rate", "QuaternionRateType")].
Lemma quat_says u v : quat_ok v -> says (collate_sub u "quaternion_state" v) (quat_items v) /\ Forall item_ok (quat_items v).
Proof.
  intros [vars [a [b [-> [W [_ [Ha Hb]]]]]]]. destruct q_names as [E1 [_ [E3 _]]].
  assert (L : List.length vars = 5) by (rewrite E1 in W; apply q_length; exact W).
  destruct (firstn_exact 5 vars [("quaternion", a); ("quaternion_rate", b)] L) as [X1 X2].
  assert (Se : sections q_shape [("quaternion", a); ("quaternion_rate", b)]).
  { constructor; [split; [reflexivity|exact Ha]|constructor; [split; [reflexivity|exact Hb]|constructor]]. }
  unfold quat_state. cbn [quat_items]. rewrite X1, X2. split.
  - apply says_node; [key_ok|computed|rewrite map_app, (wf_vars_names _ _ W); computed|].
    apply says_app; [apply says_fields; [rewrite E1; exact E3|exact W]|]. apply (says_sections u q_shape); [computed|exact Se].
  - apply Forall_app. split; [apply Forall_map; apply (entries_ok u); [rewrite E1; exact E3|exact W]|apply (parts_ok u q_shape); [computed|exact Se]].
Qed.
Lemma euler_says u v : euler_ok v -> says (collate_sub u "euler_elements_three" v) (euler_items v) /\ Forall item_ok (euler_items v).
Proof.
  intros [->|[vars [an [ra [-> [W [_ [Ha Hr]]]]]]]]; [split; [apply says_none; key_ok|constructor]|].
  destruct e_names as [E1 [_ E3]]. destruct rotation_classes as [Ca Cr].
  assert (L : List.length vars = 6) by (rewrite E1 in W; apply e_length; exact W).
  destruct (firstn_exact 6 vars [("rotation_angles", an); ("rotation_rates", ra)] L) as [X1 X2].
  destruct (rotation_says u "RotationAngleType" _ _ _ _ _ an "rotation_angles" Ca ltac:(computed) Ha ltac:(key_ok)) as [Sa Ia].
  destruct (rotation_says u "RotationRateType" _ _ _ _ _ ra "rotation_rates" Cr ltac:(computed) Hr ltac:(key_ok)) as [Sr Ir].
  unfold euler_elements. cbn [euler_items]. rewrite X1, X2. cbn [flat_map snd]. split.
  - apply says_node; [key_ok|computed|rewrite map_app, (wf_vars_names _ _ W); computed|].
    apply says_app; [apply says_fields; [rewrite E1; exact E3|exact W]|]. apply says_cons; [exact Sa|]. apply says_cons; [exact Sr|apply says_nil].
  - repeat (apply Forall_app; split); try assumption; [|constructor]. apply Forall_map; apply (entries_ok u); [rewrite E1; exact E3|exact W].
Qed.

Theorem C44_apm_text : forall u header md cs quat euler secs mans,
  section "NdmHeader" header -> section "ApmMetadata" md -> Forall good_text cs -> quat_ok quat -> euler_ok euler ->
  sections apm_sections secs -> Forall (section "AttManeuverParametersType") mans ->
  exists raws, kvn_to_string u (apm header md (texts cs) quat euler secs mans) = Ok (text_of raws) /\ Forall one_line raws /\
    document (first_item "CCSDS_APM_VERS" "1.0" :: section_items header ++ section_items md ++
              comment_items cs ++ quat_items quat ++ euler_items euler ++ parts_items secs ++ flat_map section_items mans) raws.
Proof.
  intros u header md cs quat euler secs mans Sh Sm G Hq He Se Fm.
  apply (single_says u "Apm" "ApmBody" "ApmSegment" "ApmData" "NdmHeader" "ApmMetadata" header md "CCSDS_APM_VERS" "1.0"); [|computed|computed|computed|computed|computed|computed|computed|computed|computed| |exact Sh|exact Sm|].
  - cbn [In root_classes]; tauto.
  - cbn [map fst]. rewrite map_app, (sections_names _ _ Se). reflexivity.
  - apply says_cons; [apply says_comments; exact G|]. apply says_cons; [apply (quat_says u); exact Hq|]. apply says_cons; [apply (euler_says u); exact He|].
    apply says_app; [apply (says_sections u apm_sections); [computed|exact Se]|].
    apply says_one. apply (says_section_list u _ "AttManeuverParametersType"); [key_ok|computed|computed|exact Fm].
Qed.
Print Assumptions C44_apm_text.

Theorem C45_apm_document : forall u header md cs quat euler secs mans raws,
  section "NdmHeader" header -> section "ApmMetadata" md -> Forall good_text cs -> quat_ok quat -> euler_ok euler ->
  sections apm_sections secs -> Forall (section "AttManeuverParametersType") mans -> no_new_fields mans ->
  document (first_item "CCSDS_APM_VERS" "1.0" :: section_items header ++ section_items md ++
            comment_items cs ++ quat_items quat ++ euler_items euler ++ parts_items secs ++ flat_map section_items mans) raws -> Forall one_line raws ->
  kvn_from_string u (text_of raws) = Ok (apm header md (firstn 1 (texts cs ++ comments_of quat))
                                           (with_comments (skipn 1 (texts cs ++ comments_of quat)) quat)
                                           (filled_euler euler) secs mans).
Proof.
  intros u header md cs quat euler secs mans raws Sh Sm G Hq He Se Fm Nf D O.
  destruct (C44_apm_text u header md cs quat euler secs mans Sh Sm G Hq He Se Fm) as [raws0 W].
  refine (written_read u _ raws0 raws _ _ _ _ W (C47_apm_read_back u header md cs quat euler secs mans Sh Sm G Hq He Se Fm Nf) D O); [|discriminate].
  constructor; [apply (first_item_ok "Apm"); [cbn [In root_classes]; tauto|computed|computed]|]. repeat (apply Forall_app; split).
  - apply (section_items_ok u "NdmHeader"); [computed|exact Sh].
  - apply (section_items_ok u "ApmMetadata"); [computed|exact Sm].
  - apply (comment_items_ok cs G).
  - apply (quat_says u); exact Hq.
  - apply (euler_says u); exact He.
  - apply (parts_ok u apm_sections); [computed|exact Se].
  - clear - u Fm. induction Fm as [|m mans Hm _ IH]; [constructor|]. cbn [flat_map]. apply Forall_app. split; [|exact IH].
    apply (section_items_ok u "AttManeuverParametersType"); [computed|exact Hm].
Qed.
Print Assumptions C45_apm_document.

Definition C45_apm_items : list item := first_item "CCSDS_APM_VERS" "1.0" :: section_items demo_header ++ section_items apm_meta ++
  comment_items [lit "d 1"] ++ quat_items (demo_quat ["q 1"; "q 2"]) ++ euler_items (demo_euler ["e"] demo_angles demo_rates) ++
  parts_items apm_parts ++ flat_map section_items apm_mans.
Example C45_apm_example : section "NdmHeader" demo_header /\ section "ApmMetadata" apm_meta /\ Forall good_text [lit "d 1"] /\
  quat_ok (demo_quat ["q 1"; "q 2"]) /\ euler_ok (demo_euler ["e"] demo_angles demo_rates) /\ sections apm_sections apm_parts /\
  Forall (section "AttManeuverParametersType") apm_mans /\ no_new_fields apm_mans /\
  document C45_apm_items (odd C45_apm_items) /\ Forall one_line (odd C45_apm_items).
Proof.
  destruct C47_example as [A [B [C [D [E [F [G [H _]]]]]]]]. repeat (split; [assumption|]). split; [apply odd_document|apply odd_one_line; by_compute].
Qed.
