(* Properties C30, C32, C33: reading orbit ephemeris documents. *)
From Coq Require Import NArith ZArith List Bool String Arith Lia.
From Verif Require Import PyStr PyDec PyVal Schema KvnPre KvnTree KvnSeg XmlBind KvnBuild NdmXml KvnWrite
     Spec SpecKvn SpecObj SpecMsg SpecDoc StrFacts DecFacts PreFacts SegFacts BuildFacts WriteFacts ParseFacts ShiftFacts
     ReadFacts ComposeFacts MsgFacts PropWrite CoreFacts UserFacts DataFacts SingleFacts ListFacts RelFacts SegListFacts
     CheckFacts Demo PropRound PropCdm GapFacts SpecEph EphText EphFacts OemFacts DocFacts CheckEph PropOem.
Import ListNotations.
Local Open Scope string_scope.
Local Open Scope list_scope.
Local Arguments find_class : simpl never.
Local Arguments lit : simpl never.

Section Doc.
Variable u : env.
Lemma state_said s r : state_text s r -> sline [s] r /\ item_ok (Bare s).
Proof.
  intros [Tr [Eq [D [ts [extra [C [F [L X]]]]]]]].
  assert (Hs : sline [s] r) by (exists s, ts, extra; auto 10). split; [exact Hs|].
  destruct (columned_first _ _ _ C Tr) as [s' ->]. destruct (date_head _ D) as [c [x [E Hc]]].
  split; [rewrite E; discriminate|]. split; [exact Tr|]. split; [exact Eq|]. rewrite E. intros [y Y]. cbn in Y. injection Y as Y _. subst c. discriminate.
Qed.
Lemma states_said ss states : Forall2 state_text ss states ->
  Forall2 sline (map item_line (map Bare ss)) states /\ Forall item_ok (map Bare ss).
Proof.
  induction 1 as [|s r ss states H _ [I1 I2]]; [split; constructor|]. destruct (state_said s r H). cbn [map]. split; constructor; assumption.
Qed.
Lemma rows_said tss rows : Forall2 row_text tss rows -> forall ds, Forall2 number_text (List.concat tss) ds -> Forall finite ds ->
  exists dss, Forall2 (fun l td => crow l (fst td) (snd td)) (map item_line (map Bare rows)) (combine tss dss) /\
    List.length tss = List.length dss /\ ds = List.concat dss /\ Forall item_ok (map Bare rows).
Proof.
  induction 1 as [|ts s tss rows [Ne [Tr C]] _ IH]; intros ds F Fi; cbn [List.concat] in F.
  - inversion F; subst. exists []. repeat split; constructor.
  - apply Forall2_app_inv_l in F. destruct F as [d1 [d2 [F1 [F2 ->]]]]. apply Forall_app in Fi. destruct Fi as [Fi1 Fi2].
    destruct (IH d2 F2 Fi2) as [dss [I1 [I2 [-> I4]]]]. exists (d1 :: dss). cbn [map combine List.concat].
    assert (R : crow [s] ts d1) by (exists s; auto 10).
    split; [constructor; assumption|]. split; [cbn; congruence|]. split; [reflexivity|]. constructor; [|exact I4].
    destruct (crow_head u _ _ _ R) as [c [s' [E [Hc _]]]]. injection E as ->. split; [discriminate|]. split; [exact Tr|]. split.
    + intros X. destruct (columned_chars _ _ _ C X) as [W|[t [I J]]]; [discriminate|].
      destruct (Forall2_in_l _ _ _ _ F1 I) as [d [_ Hd]]. exact (number_no_eq t d Hd J).
    + intros [y Y]. cbn in Y. injection Y as Y _. subst c. destruct Hc as [Hc|[Hc|[Hc|Hc]]]; discriminate.
Qed.
Lemma epoch_entry e : good_value e -> entry_ok (lit "EPOCH", e, []).
Proof.
  intros [[Ne [Tr _]] Nu]. right. split; [apply trimmedb_spec; reflexivity|]. split; [apply no_charb_spec; reflexivity|].
  split; [apply startswith_false; reflexivity|]. auto.
Qed.
Lemma cov_block l r : cov_said l r -> cblock (map item_line l) r /\ Forall item_ok l.
Proof.
  intros [G [Fi [L [tss [rows [-> [R F]]]]]]]. destruct (rows_said tss rows R _ F Fi) as [dss [R1 [R2 [R3 R4]]]]. split.
  - split; [apply G|]. exists (map item_line (map Bare rows)), tss, dss. auto.
  - constructor; [apply epoch_entry; exact G|exact R4].
Qed.
Lemma cov_blocks ls covs : Forall2 cov_said ls covs -> Forall2 cblock (map (map item_line) ls) covs /\ Forall item_ok (List.concat ls).
Proof.
  induction 1 as [|l r ls covs H _ [I1 I2]]; [split; constructor|]. destruct (cov_block l r H). cbn [map List.concat]. split; [constructor; assumption|apply Forall_app; auto].
Qed.
Lemma comment_items_ok cs : Forall good_text cs -> Forall item_ok (comment_items cs) /\
  map item_line (comment_items cs) = comment_lines cs.
Proof.
  induction 1 as [|c cs [Ne [Tr _]] _ [I1 I2]]; [split; [constructor|reflexivity]|]. split.
  - constructor; [left; auto|exact I1].
  - change (map item_line (comment_items (c :: cs))) with ([kw_comment; c] :: map item_line (comment_items cs)). rewrite I2. reflexivity.
Qed.
Lemma marker_ok s : In s [lit "META_START"; lit "META_STOP"; lit "COVARIANCE_START"; lit "COVARIANCE_STOP"] -> item_ok (Bare s).
Proof.
  intros H. repeat (destruct H as [<-|H]; [split; [discriminate|split; [apply trimmedb_spec; reflexivity|split; [apply no_charb_spec; reflexivity|apply startswith_false; reflexivity]]]|]).
  destruct H.
Qed.

Lemma part_said P p l : oem_part_ok p -> oem_said P p l ->
  exists q, fst q = p /\ opart_ok q /\ ((forall s, P s -> In c_sp s) -> ospaced q) /\ Forall item_ok l /\ map item_line l = owritten q.
Proof.
  destruct p as [[[md cs] states] covs]. intros [Sm [G [Lc Ns]]] [ss [blocks [F1 [FP [F2 ->]]]]].
  destruct (states_said ss states F1) as [S1 S2]. destruct (cov_blocks blocks covs F2) as [C1 C2]. destruct (comment_items_ok cs G) as [G1 G2].
  exists ((md, cs, states, covs), (map item_line (map Bare ss), map (map item_line) blocks)). split; [reflexivity|].
  destruct (section_items_ok u "OemMetadata" md ltac:(vm_compute; reflexivity) Sm) as [M1 M2].
  split; [split; [exact Sm|]; split; [exact G|]; split; [exact Lc|]; split; [|split; assumption]|].
  { destruct ss; [inversion F1; subst; congruence|discriminate]. }
  split.
  { intros HP. unfold ospaced. cbn [fst snd]. destruct FP as [|s ss Hs _]; [inversion F1; subst; congruence|]. exists s, (map item_line (map Bare ss)). split; [reflexivity|].
    unfold mem_char. apply existsb_exists. exists c_sp. split; [apply HP; exact Hs|apply N.eqb_refl]. }
  split.
  - repeat (apply Forall_app; split); try assumption; [constructor; [apply marker_ok; cbn; tauto|constructor]|constructor; [apply marker_ok; cbn; tauto|constructor]|].
    destruct covs as [|cv0 covs]; [constructor|]. repeat (apply Forall_app; split); try assumption; constructor; try constructor; apply marker_ok; cbn; tauto.
  - rewrite !map_app, M2, G2. cbn [owritten]. 
    replace (markers "OemMetadata" true) with [[lit "META_START"]] by (vm_compute; reflexivity).
    replace (markers "OemMetadata" false) with [[lit "META_STOP"]] by (vm_compute; reflexivity).
    replace (map item_line [Bare (lit "META_START")]) with [[lit "META_START"]] by reflexivity.
    replace (map item_line [Bare (lit "META_STOP")]) with [[lit "META_STOP"]] by reflexivity. rewrite <- !app_assoc.
    do 5 f_equal. destruct covs as [|cv0 covs].
    + inversion F2; subst. reflexivity.
    + replace (list_markers (map oem_cov (cv0 :: covs)) true) with [[lit "COVARIANCE_START"]] by (vm_compute; reflexivity).
      replace (list_markers (map oem_cov (cv0 :: covs)) false) with [[lit "COVARIANCE_STOP"]] by (vm_compute; reflexivity).
      rewrite !map_app, concat_map. reflexivity.
Qed.
Lemma parts_said P ps ls : Forall oem_part_ok ps -> Forall2 (oem_said P) ps ls ->
  exists qs, map fst qs = ps /\ Forall opart_ok qs /\ ((forall s, P s -> In c_sp s) -> Forall ospaced qs) /\ Forall item_ok (List.concat ls) /\
  map item_line (List.concat ls) = flat_map owritten qs.
Proof.
  intros O F. induction F as [|p l ps ls H _ IH]; [exists []; repeat split; constructor|].
  inversion O; subst. destruct (part_said P p l H2 H) as [q [<- [Q1 [Q2 [Q3 Q4]]]]]. destruct (IH H3) as [qs [<- [I1 [I2 [I3 I4]]]]].
  exists (q :: qs). cbn [map flat_map List.concat]. split; [reflexivity|]. split; [constructor; assumption|]. split; [intros HP; constructor; auto|].
  split; [apply Forall_app; auto|]. rewrite map_app, Q4, I4. reflexivity.
Qed.

Lemma oem_read P header ps ls raws : section "NdmHeader" header -> ps <> [] -> Forall oem_part_ok ps ->
  Forall2 (oem_said P) ps ls ->
  ((forall s, P s -> In c_sp s) /\ oem_apart ps \/ List.length ps = 1) ->
  document (first_item "CCSDS_OEM_VERS" "2.0" :: section_items header ++ List.concat ls) raws -> Forall one_line raws ->
  kvn_from_string u (text_of raws) = Ok (oem_message header (map oem_segment ps)).
Proof.
  intros Sh Ne O F A D Ol. destruct (parts_said P ps ls O F) as [qs [<- [F1 [F2 [F3 F4]]]]].
  destruct oem_shape_ok as [hdr [body [seg [meta [data [sv [cv Sp]]]]]]].
  assert (Nq : qs <> []) by (intros ->; exact (Ne eq_refl)).
  assert (Aq : oapart qs).
  { destruct A as [[HP A]|A]; [exact (oapart_of qs (F2 HP) A)|]. destruct qs as [|[[[[md cs] states] covs] [sls cls]] [|]]; try discriminate A.
    split; [right; intros q []|]. split; exact I. }
  pose proof (oem_subs u hdr body seg meta data sv cv Sp header qs (head_lines "Oem") Sh Nq F1 Aq) as S.
  destruct (section_items_ok u "NdmHeader" header ltac:(vm_compute; reflexivity) Sh) as [H1 H2].
  unfold oem_message. rewrite !map_map in *.
  eapply document_read with (items := section_items header ++ List.concat ls); try reflexivity; try eassumption.
  - destruct Sp as [[Hc _] _]. exact Hc.
  - apply Forall_app. auto.
  - rewrite map_app, H2, F4.
    rewrite deleted_app, (deleted_header u hdr body seg meta data sv cv Sp header Sh), (deleted_all u hdr body seg meta data sv cv Sp qs F1). exact S.
  - discriminate.
  - destruct Sp as [_ [_ [_ [_ [_ [_ [_ [_ [_ [_ [_ [V _]]]]]]]]]]]]. rewrite V. reflexivity.
Qed.
End Doc.

(* A document that says the header, and segment by segment the metadata, the data lines and the covariance matrices of an
   OEM, in any spacing, reads as that OEM.  The data lines must contain a space character, see below. *)
Theorem C30_oem_document_partial : forall u header ps ls raws,
  section "NdmHeader" header -> ps <> [] -> Forall oem_part_ok ps -> oem_apart ps ->
  Forall2 (oem_said (In c_sp)) ps ls ->
  document (first_item "CCSDS_OEM_VERS" "2.0" :: section_items header ++ List.concat ls) raws -> Forall one_line raws ->
  kvn_from_string u (text_of raws) = Ok (oem_message header (map oem_segment ps)).
Proof. intros u header ps ls raws Sh Ne O A F D Ol. eapply oem_read; eauto. Qed.
Print Assumptions C30_oem_document_partial.

(* Every data line of n columns gives the state vector with these columns; what follows the ninth is ignored. *)
Theorem C32_state_lines : forall u header md ss states raws,
  section "NdmHeader" header -> section "OemMetadata" md -> states <> [] -> Forall2 state_text ss states ->
  document (first_item "CCSDS_OEM_VERS" "2.0" :: section_items header ++ [Bare (lit "META_START")] ++ section_items md ++
            [Bare (lit "META_STOP")] ++ map Bare ss) raws -> Forall one_line raws ->
  kvn_from_string u (text_of raws) = Ok (oem_message header [oem_segment (md, [], states, [])]).
Proof.
  intros u header md ss states raws Sh Sm Ne F D Ol.
  apply (oem_read u (fun _ => True) header [(md, [], states, [])] [[Bare (lit "META_START")] ++ section_items md ++ [Bare (lit "META_STOP")] ++ map Bare ss]);
    [exact Sh|discriminate| | |right; reflexivity| |exact Ol].
  - constructor; [|constructor]. split; [exact Sm|]. split; [constructor|]. split; [cbn; lia|exact Ne].
  - constructor; [|constructor]. exists ss, []. split; [exact F|]. split; [rewrite Forall_forall; auto|]. split; [constructor|]. rewrite app_nil_r. reflexivity.
  - cbn [List.concat]. rewrite app_nil_r. exact D.
Qed.
Print Assumptions C32_state_lines.

(* Rows of numbers are read into the components of the lower triangle, row by row. *)
Theorem C33_covariance_rows_read : forall u header md ss states blocks covs raws,
  section "NdmHeader" header -> section "OemMetadata" md -> states <> [] -> covs <> [] ->
  Forall2 state_text ss states -> Forall2 cov_said blocks covs ->
  document (first_item "CCSDS_OEM_VERS" "2.0" :: section_items header ++ [Bare (lit "META_START")] ++ section_items md ++
            [Bare (lit "META_STOP")] ++ map Bare ss ++ [Bare (lit "COVARIANCE_START")] ++ List.concat blocks ++
            [Bare (lit "COVARIANCE_STOP")]) raws -> Forall one_line raws ->
  kvn_from_string u (text_of raws) = Ok (oem_message header [oem_segment (md, [], states, covs)]).
Proof.
  intros u header md ss states blocks covs raws Sh Sm Ne Nc F Fb D Ol.
  apply (oem_read u (fun _ => True) header [(md, [], states, covs)] [[Bare (lit "META_START")] ++ section_items md ++ [Bare (lit "META_STOP")] ++ map Bare ss ++
    [Bare (lit "COVARIANCE_START")] ++ List.concat blocks ++ [Bare (lit "COVARIANCE_STOP")]]);
    [exact Sh|discriminate| | |right; reflexivity| |exact Ol].
  - constructor; [|constructor]. split; [exact Sm|]. split; [constructor|]. split; [cbn; lia|exact Ne].
  - constructor; [|constructor]. exists ss, blocks. split; [exact F|]. split; [rewrite Forall_forall; auto|]. split; [exact Fb|]. destruct covs; [congruence|reflexivity].
  - cbn [List.concat]. rewrite app_nil_r. exact D.
Qed.
Print Assumptions C33_covariance_rows_read.

(* ---- concrete documents ---- *)
(* columns parted by tabs and spaces, plus signs, exponents, three numbers, nine numbers and something behind them *)
Definition demo_lines : list str :=
  [lit "2004-01-02T00:00:00   +1.5  -.5 " ++ [9%N] ++ lit "2e3"; lit "2004-01-03" ++ [9%N] ++ lit "1";
   lit "2004-01-04 1 2 3 4 5 6 7 8 9 not-a-number [x]"].
Definition demo_records : list record :=
  [(lit "2004-01-02T00:00:00", [DFin false 15 (-1); DFin true 5 (-1); DFin false 2 3]);
   (lit "2004-01-03", [DFin false 1 0]);
   (lit "2004-01-04", map (fun k => DFin false k 0) [1; 2; 3; 4; 5; 6; 7; 8; 9]%N)].
Lemma demo_lines_ok : Forall2 state_text demo_lines demo_records.
Proof. apply (all2b_spec (state_textb demo_env)); [apply state_textb_spec|by_compute]. Qed.
Definition C32_items : list item := first_item "CCSDS_OEM_VERS" "2.0" :: section_items demo_header ++ [Bare (lit "META_START")] ++
  section_items (oem_meta ["m"] []) ++ [Bare (lit "META_STOP")] ++ map Bare demo_lines.
Example C32_example : section "NdmHeader" demo_header /\ section "OemMetadata" (oem_meta ["m"] []) /\ demo_records <> [] /\
  Forall2 state_text demo_lines demo_records /\ document C32_items (odd C32_items) /\ Forall one_line (odd C32_items).
Proof.
  split; [met|]. split; [met|]. split; [discriminate|]. split; [exact demo_lines_ok|]. split; [apply odd_document|apply odd_one_line; by_compute].
Qed.
(* two matrices: one in the usual rows, one in rows of other lengths *)
Definition demo_rows : list (list str) :=
  [map lit ["1.0"; "2.0  3"; "4 5 6"; "7 8 9 10"; "11 12 13 14 15"; "16 17 18 19 20 2.1e1"];
   map lit ["1 2 3 4 5 6 7 8 9 10 11"; "12"; "13 14 15 16 17 18 19 20 -2.1e1"]].
Definition whole (k : N) : dec := DFin false k 0.
Definition demo_matrices : list record :=
  [(lit "2004-01-01", [DFin false 10 (-1); DFin false 20 (-1)] ++ map (fun i => whole (N.of_nat i)) (seq 3 18) ++ [DFin false 21 0]);
   (lit "2004 01 02", map (fun i => whole (N.of_nat i)) (seq 1 20) ++ [DFin true 21 0])].
Definition demo_blocks : list (list item) :=
  [Say (lit "EPOCH", lit "2004-01-01", []) :: map Bare (nth 0 demo_rows []); Say (lit "EPOCH", lit "2004 01 02", []) :: map Bare (nth 1 demo_rows [])].
Definition C33_items : list item := first_item "CCSDS_OEM_VERS" "2.0" :: section_items demo_header ++ [Bare (lit "META_START")] ++
  section_items (oem_meta ["m"] []) ++ [Bare (lit "META_STOP")] ++ map Bare demo_lines ++ [Bare (lit "COVARIANCE_START")] ++ List.concat demo_blocks ++
  [Bare (lit "COVARIANCE_STOP")].
Lemma demo_blocks_ok : Forall2 cov_said demo_blocks demo_matrices.
Proof. unfold demo_blocks, demo_matrices. constructor; [|constructor; [|constructor]]; apply (cov_saidb_spec demo_env); by_compute. Qed.
Example C33_example : section "NdmHeader" demo_header /\ section "OemMetadata" (oem_meta ["m"] []) /\ demo_records <> [] /\ demo_matrices <> [] /\
  Forall2 state_text demo_lines demo_records /\ Forall2 cov_said demo_blocks demo_matrices /\
  document C33_items (odd C33_items) /\ Forall one_line (odd C33_items).
Proof.
  split; [met|]. split; [met|]. split; [discriminate|]. split; [discriminate|]. split; [exact demo_lines_ok|]. split; [exact demo_blocks_ok|].
  split; [apply odd_document|apply odd_one_line; by_compute].
Qed.
Definition spaced_lines : list str := firstn 1 demo_lines ++ [lit "2004-01-03 1"] ++ skipn 2 demo_lines.
Definition said_of (md : pyval) (cs : list str) : list item :=
  [Bare (lit "META_START")] ++ section_items md ++ [Bare (lit "META_STOP")] ++ comment_items cs ++ map Bare spaced_lines ++
  [Bare (lit "COVARIANCE_START")] ++ List.concat demo_blocks ++ [Bare (lit "COVARIANCE_STOP")].
Definition two_parts : list oem_part :=
  [(oem_meta ["m"] ["useable_start_time"], [lit "c"], demo_records, demo_matrices); (oem_meta [] ["useable_start_time"], [], demo_records, demo_matrices)].
Definition two_said : list (list item) := [said_of (oem_meta ["m"] ["useable_start_time"]) [lit "c"]; said_of (oem_meta [] ["useable_start_time"]) []].
Definition C30_items : list item := first_item "CCSDS_OEM_VERS" "2.0" :: section_items demo_header ++ List.concat two_said.
Lemma oem_part_okb md cs states covs : sectionb "OemMetadata" md && forallb good_textb cs && Nat.leb (List.length cs) 1 && match states with [] => false | _ => true end = true ->
  oem_part_ok (md, cs, states, covs).
Proof.
  intros H. do 3 (apply andb_true_iff in H; destruct H as [H ?]). split; [apply sectionb_spec; exact H|]. split; [eapply allb; [apply good_textb_spec|assumption]|].
  split; [apply Nat.leb_le; assumption|]. destruct states; discriminate.
Qed.
Lemma spaced_lines_ok : Forall2 state_text spaced_lines demo_records /\ Forall (In c_sp) spaced_lines.
Proof.
  split; [apply (all2b_spec (state_textb demo_env)); [apply state_textb_spec|by_compute]|].
  apply (allb (mem_char c_sp)); [|by_compute]. intros s H. apply existsb_exists in H. destruct H as [c [I E]]. apply N.eqb_eq in E. subst c. exact I.
Qed.
Example C30_document_example : section "NdmHeader" demo_header /\ two_parts <> [] /\ Forall oem_part_ok two_parts /\ oem_apart two_parts /\
  Forall2 (oem_said (In c_sp)) two_parts two_said /\ document C30_items (odd C30_items) /\ Forall one_line (odd C30_items).
Proof.
  split; [met|]. split; [discriminate|]. split; [constructor; [apply oem_part_okb; by_compute|constructor; [apply oem_part_okb; by_compute|constructor]]|].
  split; [apply oem_apartb_spec; by_compute|]. split; [|split; [apply odd_document|apply odd_one_line; by_compute]].
  destruct spaced_lines_ok as [L1 L2].
  constructor; [|constructor; [|constructor]]; exists spaced_lines, demo_blocks; (split; [exact L1|]; split; [exact L2|]; split; [exact demo_blocks_ok|reflexivity]).
Qed.
(* Columns parted by tabs only: the metadata of the first segment is then taken to reach into the second. *)
Definition tab_line : str := lit "2004-01-03" ++ [9%N] ++ lit "1".
Definition tab_parts : list oem_part :=
  [(oem_meta [] ["useable_start_time"], [], [(lit "2004-01-03", [whole 1])], []); (oem_meta [] [], [], [(lit "2004-01-03", [whole 1])], [])].
Definition tab_said (md : pyval) : list item := [Bare (lit "META_START")] ++ section_items md ++ [Bare (lit "META_STOP")] ++ map Bare [tab_line].
Theorem C30_tabs_refuted : exists header ps ls raws,
  section "NdmHeader" header /\ ps <> [] /\ Forall oem_part_ok ps /\ oem_apart ps /\
  Forall2 (oem_said (fun _ => True)) ps ls /\
  document (first_item "CCSDS_OEM_VERS" "2.0" :: section_items header ++ List.concat ls) raws /\ Forall one_line raws /\
  kvn_from_string demo_env (text_of raws) = Err XmlReject.
Proof.
  exists demo_header, tab_parts, [tab_said (oem_meta [] ["useable_start_time"]); tab_said (oem_meta [] [])]. eexists.
  split; [met|]. split; [discriminate|]. split; [constructor; [apply oem_part_okb; by_compute|constructor; [apply oem_part_okb; by_compute|constructor]]|].
  split; [apply oem_apartb_spec; by_compute|]. split; [|split; [apply odd_document|split; [apply odd_one_line; by_compute|by_compute]]].
  assert (L : Forall2 state_text [tab_line] [(lit "2004-01-03", [whole 1])]) by (apply (all2b_spec (state_textb demo_env)); [apply state_textb_spec|by_compute]).
  constructor; [|constructor; [|constructor]]; exists [tab_line], []; (split; [exact L|]; split; [repeat constructor|]; split; [constructor|reflexivity]).
Qed.
Print Assumptions C30_tabs_refuted.
