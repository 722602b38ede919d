(* One write and read is enough: what the reader returns is written with the same lines and read back unchanged. *)
From Coq Require Import NArith ZArith List Bool String Lia.
From Verif Require Import PyStr PyDec PyVal Schema KvnPre KvnTree KvnSeg XmlBind KvnBuild NdmXml KvnWrite
     Spec SpecKvn SpecObj SpecMsg SpecDoc SpecApm StrFacts DecFacts PreFacts BuildFacts WriteFacts
     PropWrite CoreFacts DataFacts UserFacts SingleFacts ListFacts PropRound PropCdm DocFacts EphText EphFacts SayFacts CheckFacts Demo CheckEph
     PropText PropOemDoc PropDoc ApmFacts PropApm PropApmDoc.
Import ListNotations.
Local Open Scope string_scope.
Local Open Scope list_scope.
Local Arguments find_class : simpl never.
Local Arguments lit : simpl never.

Lemma comment_entries ts : map Say (field_entries "COMMENT" (VList (texts ts))) = comment_items ts.
Proof. cbn [field_entries]. unfold texts, comment_items. rewrite !map_map. reflexivity. Qed.

(* a section with other comments *)
Lemma section_items_split (u : env) c v : leaf_class c = true -> has_comments c = true -> section c v ->
  exists ts rest, comments_of v = texts ts /\ Forall good_text ts /\ section_items v = comment_items ts ++ rest /\
    forall ts', Forall good_text ts' -> section c (with_comments (texts ts') v) /\
                comments_of (with_comments (texts ts') v) = texts ts' /\
                section_items (with_comments (texts ts') v) = comment_items ts' ++ rest.
Proof.
  intros Lf H Sv. destruct (section_split u c v Lf H Sv) as [ts [r [E1 [G [_ [_ A]]]]]].
  destruct Sv as [vars [-> [W _]]]. destruct (has_comments_spec c H) as [fs E]. rewrite E in W.
  inversion W as [|? [k v] ? vars0 [Ek Wf] Ws]; subst. cbn [fst snd f_name comment_field] in *. subst k.
  destruct (wf_comment_value v Wf) as [ts0 [-> G0]]. cbn [comments_of] in E1.
  exists ts, (map Say (entries fs vars0)). split; [exact E1|]. split; [exact G|]. cbn [with_comments comments_of section_items]. rewrite E1, E.
  cbn [entries comment_field f_kw]. split; [rewrite map_app, comment_entries; reflexivity|]. intros ts' G'. destruct (A ts' G') as [A1 _].
  split; [exact A1|]. split; [reflexivity|]. rewrite map_app, comment_entries. reflexivity.
Qed.
Lemma section_not_none c v : section c v -> v <> VNone.
Proof. intros [vars [-> _]]. discriminate. Qed.

Definition shape_ok (shape : list (string * string)) : bool := forallb (fun nc => leaf_class (snd nc) && has_comments (snd nc)) shape.
Lemma give_items (u : env) shape secs : shape_ok shape = true -> sections shape secs -> some_section secs ->
  exists ts rest, first_comments secs = texts ts /\ Forall good_text ts /\ parts_items secs = comment_items ts ++ rest /\
    forall ts', Forall good_text ts' ->
      sections shape (give_comments (texts ts') secs) /\ some_section (give_comments (texts ts') secs) /\
      first_comments (give_comments (texts ts') secs) = texts ts' /\
      parts_items (give_comments (texts ts') secs) = comment_items ts' ++ rest /\
      Forall2 (fun a b => forall n, sets (snd a) n <-> sets (snd b) n) secs (give_comments (texts ts') secs).
Proof.
  intros Sh F. revert Sh. induction F as [|[n c] [m v] shape secs [En O] F IH]; intros Sh Ss; [destruct Ss as [n [v [[] _]]]|].
  cbn [shape_ok forallb fst snd] in *. subst m. apply andb_true_iff in Sh. destruct Sh as [Sc Sh]. apply andb_true_iff in Sc. destruct Sc as [Lc Hc].
  destruct O as [->|O].
  - destruct IH as [ts [rest [E1 [G [E2 A]]]]]; [exact Sh| |].
    { destruct Ss as [k [w [[Hin|Hin] Nv]]]; [congruence|]. exists k, w. auto. }
    exists ts, rest. split; [exact E1|]. split; [exact G|]. split; [exact E2|].
    intros ts' G'. destruct (A ts' G') as [A1 [A2 [A3 [A4 A5]]]]. cbn [give_comments]. split; [|split; [|split; [|split]]].
    + constructor; [split; [reflexivity|left; reflexivity]|exact A1].
    + destruct A2 as [k [w [Hin Nv]]]. exists k, w. split; [right; exact Hin|exact Nv].
    + exact A3.
    + exact A4.
    + constructor; [tauto|exact A5].
  - destruct (section_items_split u c v Lc Hc O) as [ts [rest [E1 [G [E2 A]]]]].
    assert (Ev : exists vars, v = VObj c vars) by (destruct O as [vars [-> _]]; eexists; reflexivity). destruct Ev as [vars Ev].
    exists ts, (rest ++ parts_items secs). split; [cbn [first_comments]; rewrite Ev; rewrite <- Ev; exact E1|]. split; [exact G|].
    split; [cbn [parts_items flat_map snd]; rewrite E2, <- app_assoc; reflexivity|].
    intros ts' G'. destruct (A ts' G') as [A1 [A2 A3]].
    assert (Eg : give_comments (texts ts') ((n, v) :: secs) = (n, with_comments (texts ts') v) :: secs) by (rewrite Ev; reflexivity).
    rewrite Eg. split; [|split; [|split; [|split]]].
    + constructor; [split; [reflexivity|right; exact A1]|exact F].
    + exists n, (with_comments (texts ts') v). split; [left; reflexivity|exact (section_not_none _ _ A1)].
    + destruct A1 as [vars' [Ev' _]]. cbn [first_comments]. rewrite Ev'. rewrite <- Ev'. exact A2.
    + cbn [parts_items flat_map snd]. rewrite A3, <- app_assoc. reflexivity.
    + constructor; [|clear; induction secs; constructor; [tauto|assumption]]. cbn [snd].
      rewrite Ev in O |- *. destruct O as [vs [Ev2 [W _]]]. injection Ev2 as ->. destruct (has_comments_spec c Hc) as [fs E]. rewrite E in W.
      inversion W as [|? [k w] ? vars0 [Ek Wf] Ws]; subst. cbn [fst snd f_name comment_field] in *. subst k.
      destruct (wf_comment_value w Wf) as [ts0 [-> _]]. cbn [with_comments]. intros k.
      split; intros [c' [vs [x [E' [Hi Is]]]]]; injection E' as <- <-; (destruct Hi as [Hi|Hi]; [injection Hi as <- <-; destruct Is|]);
        do 3 eexists; (split; [reflexivity|split; [right; exact Hi|exact Is]]).
Qed.

(* the comments are where the reader puts them after one read *)
Lemma settle_data (u : env) shape cs secs : shape_ok shape = true -> sections shape secs -> some_section secs -> Forall good_text cs ->
  exists cs' secs', data_comments (texts cs) secs = texts cs' /\ give_comments (section_comments (texts cs) secs) secs = secs' /\
    Forall good_text cs' /\ sections shape secs' /\ some_section secs' /\ comments_settled (texts cs') secs' /\
    comment_items cs' ++ parts_items secs' = comment_items cs ++ parts_items secs /\
    Forall2 (fun a b => forall n, sets (snd a) n <-> sets (snd b) n) secs secs'.
Proof.
  intros Sh F Ss G. destruct (give_items u shape secs Sh F Ss) as [ts [rest [E1 [Gt [E2 A]]]]].
  set (all := cs ++ ts). assert (Ga : Forall good_text all) by (apply Forall_app; split; assumption).
  assert (G1 : Forall good_text (firstn 1 all)) by (destruct Ga; cbn [firstn]; auto).
  assert (G2 : Forall good_text (skipn 1 all)) by (destruct Ga; cbn [skipn]; auto).
  destruct (A _ G2) as [A1 [A2 [A3 [A4 A5]]]].
  exists (firstn 1 all), (give_comments (texts (skipn 1 all)) secs).
  unfold data_comments, section_comments. rewrite E1. unfold texts at 1 2 4 5. rewrite <- !map_app. fold all.
  rewrite firstn_map, skipn_map. split; [reflexivity|]. split; [reflexivity|]. split; [exact G1|]. split; [exact A1|]. split; [exact A2|].
  split; [|split; [|exact A5]].
  - unfold comments_settled. rewrite A3. destruct all as [|x r]; [right; split; reflexivity|left; reflexivity].
  - rewrite A4, E2, !app_assoc. f_equal. unfold comment_items. rewrite <- !map_app, firstn_skipn. reflexivity.
Qed.

Definition written_twice (u : env) (m : pyval) (items : list item) : Prop :=
  exists raws raws' v,
    kvn_to_string u m = Ok (text_of raws) /\ document items raws /\ kvn_from_string u (text_of raws) = Ok v /\
    kvn_to_string u v = Ok (text_of raws') /\ document items raws' /\ kvn_from_string u (text_of raws') = Ok v.
Lemma twice u m v items items' :
  (exists raws, kvn_to_string u m = Ok (text_of raws) /\ Forall one_line raws /\ document items raws) ->
  (exists t, kvn_to_string u m = Ok t /\ kvn_from_string u t = Ok v) ->
  (exists raws, kvn_to_string u v = Ok (text_of raws) /\ Forall one_line raws /\ document items' raws) ->
  (exists t, kvn_to_string u v = Ok t /\ kvn_from_string u t = Ok v) -> items' = items ->
  written_twice u m items.
Proof.
  intros [raws [W [_ D]]] [t [W1 R]] [raws' [W' [_ D']]] [t' [W1' R']] ->. exists raws, raws', v.
  rewrite W in W1. injection W1 as <-. rewrite W' in W1'. injection W1' as <-. auto 6.
Qed.

Theorem C48_omm_stable : forall u header md cs secs user,
  section "NdmHeader" header -> section "OmmMetadata" md -> Forall good_text cs ->
  sections omm_sections secs -> some_section secs -> opt_user u user ->
  written_twice u (omm header md (texts cs) secs user)
    (first_item "CCSDS_OMM_VERS" "2.0" :: section_items header ++ section_items md ++
     comment_items cs ++ parts_items secs ++ user_items user).
Proof.
  intros u header md cs secs user Sh Sm G Se Ss Us.
  destruct (settle_data u omm_sections cs secs ltac:(computed) Se Ss G) as [cs' [secs' [E1 [E2 [G' [Se' [Ss' [C [I _]]]]]]]]].
  apply (twice u _ (omm header md (texts cs') secs' user) _ (first_item "CCSDS_OMM_VERS" "2.0" :: section_items header ++ section_items md ++
     comment_items cs' ++ parts_items secs' ++ user_items user)).
  - apply C44_omm_text; assumption.
  - destruct (C26_omm_read_back u header md cs secs user) as [t [W R]]; try assumption. exists t. rewrite E1, E2 in R. split; assumption.
  - apply C44_omm_text; assumption.
  - apply C26_omm_round_trip_partial; assumption.
  - rewrite !(app_assoc (comment_items _)), I. reflexivity.
Qed.
Theorem C48_rdm_stable : forall u header md cs secs user,
  section "RdmHeader" header -> section "RdmMetadata" md -> Forall good_text cs ->
  sections rdm_sections secs -> some_section secs -> opt_user u user ->
  written_twice u (rdm header md (texts cs) secs user)
    (first_item "CCSDS_RDM_VERS" "1.0" :: section_items header ++ section_items md ++
     comment_items cs ++ parts_items secs ++ user_items user).
Proof.
  intros u header md cs secs user Sh Sm G Se Ss Us.
  destruct (settle_data u rdm_sections cs secs ltac:(computed) Se Ss G) as [cs' [secs' [E1 [E2 [G' [Se' [Ss' [C [I _]]]]]]]]].
  apply (twice u _ (rdm header md (texts cs') secs' user) _ (first_item "CCSDS_RDM_VERS" "1.0" :: section_items header ++ section_items md ++
     comment_items cs' ++ parts_items secs' ++ user_items user)).
  - apply C44_rdm_text; assumption.
  - destruct (C28_rdm_read_back u header md cs secs user) as [t [W R]]; try assumption. exists t. rewrite E1, E2 in R. split; assumption.
  - apply C44_rdm_text; assumption.
  - apply C28_rdm_round_trip_partial; assumption.
  - rewrite !(app_assoc (comment_items _)), I. reflexivity.
Qed.
Theorem C48_opm_stable : forall u header md cs secs mans user,
  section "NdmHeader" header -> section "OpmMetadata" md -> Forall good_text cs ->
  sections opm_sections secs -> some_section secs ->
  Forall (section "ManeuverParametersType") mans -> no_new_fields mans -> opt_user u user ->
  written_twice u (opm header md (texts cs) secs mans user)
    (first_item "CCSDS_OPM_VERS" "2.0" :: section_items header ++ section_items md ++
     comment_items cs ++ parts_items secs ++ flat_map section_items mans ++ user_items user).
Proof.
  intros u header md cs secs mans user Sh Sm G Se Ss Fm Nn Us.
  destruct (settle_data u opm_sections cs secs ltac:(computed) Se Ss G) as [cs' [secs' [E1 [E2 [G' [Se' [Ss' [C [I _]]]]]]]]].
  apply (twice u _ (opm header md (texts cs') secs' mans user) _ (first_item "CCSDS_OPM_VERS" "2.0" :: section_items header ++ section_items md ++
     comment_items cs' ++ parts_items secs' ++ flat_map section_items mans ++ user_items user)).
  - apply C44_opm_text; assumption.
  - destruct (C27_opm_read_back u header md cs secs mans user) as [t [W R]]; try assumption. exists t. rewrite E1, E2 in R. split; assumption.
  - apply C44_opm_text; assumption.
  - apply C27_opm_round_trip_partial; assumption.
  - rewrite !(app_assoc (comment_items _)), I. reflexivity.
Qed.

(* conjunction data messages: each object is settled on its own *)
Lemma settle_object (u : env) p : cdm_segment_ok p ->
  exists p', settle "CdmSegment" "CdmData" p = segment_object "CdmSegment" "CdmData" p' /\ cdm_segment_ok p' /\ cdm_segment_settled p' /\
    segment_items p' = segment_items p /\ fst (fst p') = fst (fst p) /\
    Forall2 (fun a b => forall n, sets (snd a) n <-> sets (snd b) n) (snd p) (snd p').
Proof.
  destruct p as [[md cs] secs]. intros [Sm [G [Se Ss]]].
  destruct (settle_data u cdm_sections cs secs ltac:(computed) Se Ss G) as [cs' [secs' [E1 [E2 [G' [Se' [Ss' [C [I Fs]]]]]]]]].
  exists (md, cs', secs'). cbn [settle segment_object]. rewrite E1, E2. split; [reflexivity|]. split; [repeat split; assumption|].
  split; [exact C|]. split; [cbn [segment_items]; rewrite I; reflexivity|]. split; [reflexivity|exact Fs].
Qed.
Definition alike (p p' : segment_parts) : Prop :=
  fst (fst p') = fst (fst p) /\ Forall2 (fun a b => forall n, sets (snd a) n <-> sets (snd b) n) (snd p) (snd p').
Lemma subsets_alike (a a' b b' : list (string * pyval)) :
  Forall2 (fun a b => forall n, sets (snd a) n <-> sets (snd b) n) a a' -> Forall2 (fun a b => forall n, sets (snd a) n <-> sets (snd b) n) b b' ->
  Forall2 (fun later earlier => forall n, sets (snd later) n -> sets (snd earlier) n) a b ->
  Forall2 (fun later earlier => forall n, sets (snd later) n -> sets (snd earlier) n) a' b'.
Proof.
  intros Fa Fb F. revert a' b' Fa Fb. induction F as [|x y a b Hxy F IH]; intros a' b' Fa Fb; inversion Fa; inversion Fb; subst; constructor.
  - intros n Hn. match goal with A : forall n, sets (snd x) n <-> _, B : forall n, sets (snd y) n <-> _ |- _ => apply B, Hxy, A; exact Hn end.
  - apply IH; assumption.
Qed.
Lemma no_new_alike ps ps' : Forall2 alike ps ps' -> no_new_keys ps -> no_new_keys ps'.
Proof.
  induction 1 as [|[[md cs] secs] [[md' cs'] secs'] ps ps' [Em Fs] F IH]; intros N; [exact I|]. cbn [fst snd] in *. subst md'.
  destruct N as [N1 N2]. split; [|exact (IH N2)]. intros md2 cs2 secs2 Hin.
  assert (X : exists p, In p ps /\ alike p (md2, cs2, secs2)).
  { clear - F Hin. induction F as [|p q ps qs A F IH]; [destruct Hin|]. destruct Hin as [->|Hin]; [exists p; split; [left; reflexivity|exact A]|].
    destruct (IH Hin) as [r [R1 R2]]. exists r. split; [right; exact R1|exact R2]. }
  destruct X as [[[md1 cs1] secs1] [Hin1 [Em1 Fs1]]]. cbn [fst snd] in *. subst md2. destruct (N1 _ _ _ Hin1) as [Nm Ns]. split; [exact Nm|].
  exact (subsets_alike _ _ _ _ Fs1 Fs Ns).
Qed.
Theorem C48_cdm_stable : forall u header relative ps,
  section "CdmHeader" header -> relative_data relative -> ps <> [] -> Forall cdm_segment_ok ps -> no_new_keys ps ->
  written_twice u (cdm_message header relative (map (segment_object "CdmSegment" "CdmData") ps))
    (first_item "CCSDS_CDM_VERS" "1.0" :: section_items header ++ relative_items relative ++ flat_map segment_items ps).
Proof.
  intros u header relative ps Sh Rl Ne Fp Nn.
  assert (X : exists ps', map (settle "CdmSegment" "CdmData") ps = map (segment_object "CdmSegment" "CdmData") ps' /\
    Forall cdm_segment_ok ps' /\ Forall cdm_segment_settled ps' /\ flat_map segment_items ps' = flat_map segment_items ps /\ Forall2 alike ps ps').
  { clear Ne Nn. induction Fp as [|p ps Hp _ IH]; [exists []; repeat split; constructor|]. destruct IH as [ps' [A [B [C [D E]]]]].
    destruct (settle_object u p Hp) as [p' [A1 [B1 [C1 [D1 [E1 E2]]]]]]. exists (p' :: ps'). cbn [map flat_map].
    rewrite A, A1, D, D1. split; [reflexivity|]. split; [constructor; assumption|]. split; [constructor; assumption|]. split; [reflexivity|].
    constructor; [split; assumption|exact E]. }
  destruct X as [ps' [A [B [C [D E]]]]].
  apply (twice u _ (cdm_message header relative (map (segment_object "CdmSegment" "CdmData") ps')) _
    (first_item "CCSDS_CDM_VERS" "1.0" :: section_items header ++ relative_items relative ++ flat_map segment_items ps')).
  - apply C44_cdm_text; assumption.
  - destruct (C29_cdm_read_back u header relative ps) as [t [W R]]; try assumption. exists t. rewrite A in R. split; assumption.
  - apply C44_cdm_text; assumption.
  - apply C29_cdm_round_trip_partial; try assumption; [|exact (no_new_alike _ _ E Nn)]. inversion E; subst; [contradiction|discriminate].
  - rewrite D. reflexivity.
Qed.

(* attitude parameter messages: the parts left out are filled in by the first read *)
Lemma quat_items_split (u : env) v : quat_ok v ->
  exists ts rest, comments_of v = texts ts /\ Forall good_text ts /\ quat_items v = comment_items ts ++ rest /\
    forall ts', Forall good_text ts' -> quat_ok (with_comments (texts ts') v) /\
                comments_of (with_comments (texts ts') v) = texts ts' /\
                quat_items (with_comments (texts ts') v) = comment_items ts' ++ rest.
Proof.
  intros Q. destruct (quat_split u v Q) as [ts [rest0 [E [G [_ [_ A]]]]]].
  destruct Q as [vars [q [r [-> [W _]]]]]. destruct q_names as [E1 _]. rewrite E1 in W. pose proof (q_length vars W) as L.
  inversion W as [|? [k v] ? vars0 [En Wf] Ws]; subst. cbn [fst snd f_name comment_field] in *. subst k.
  destruct (wf_comment_value v Wf) as [ts0 [-> G0]]. cbn [quat_state comments_of app] in E.
  assert (QI : forall ts', quat_items (VObj "QuaternionStateType" ((("comment", VList (texts ts')) :: vars0) ++ [("quaternion", q); ("quaternion_rate", r)]))
             = comment_items ts' ++ map Say (entries q_fields vars0) ++ parts_items [("quaternion", q); ("quaternion_rate", r)]).
  { intros ts'. cbn [quat_items].
    destruct (firstn_exact 5 (("comment", VList (texts ts')) :: vars0) [("quaternion", q); ("quaternion_rate", r)] L) as [X1 X2].
    rewrite X1, X2, E1. cbn [entries comment_field f_kw]. rewrite map_app, comment_entries, <- app_assoc. reflexivity. }
  exists ts, (map Say (entries q_fields vars0) ++ parts_items [("quaternion", q); ("quaternion_rate", r)]).
  split; [exact E|]. split; [exact G|]. unfold quat_state. rewrite E. split; [apply QI|].
  intros ts' G'. destruct (A ts' G') as [A1 _]. split; [|split; [reflexivity|apply QI]].
  unfold quat_state in A1. rewrite E in A1. exact A1.
Qed.
Lemma settle_quat (u : env) cs quat : quat_ok quat -> Forall good_text cs ->
  exists cs' quat', firstn 1 (texts cs ++ comments_of quat) = texts cs' /\ with_comments (skipn 1 (texts cs ++ comments_of quat)) quat = quat' /\
    Forall good_text cs' /\ quat_ok quat' /\ comments_settled (texts cs') [("quaternion_state", quat')] /\
    comment_items cs' ++ quat_items quat' = comment_items cs ++ quat_items quat.
Proof.
  intros Q G. destruct (quat_items_split u quat Q) as [ts [rest [E1 [Gt [E2 A]]]]].
  set (all := cs ++ ts). assert (Ga : Forall good_text all) by (apply Forall_app; split; assumption).
  assert (G1 : Forall good_text (firstn 1 all)) by (destruct Ga; cbn [firstn]; auto).
  assert (G2 : Forall good_text (skipn 1 all)) by (destruct Ga; cbn [skipn]; auto).
  destruct (A _ G2) as [A1 [A2 A3]].
  exists (firstn 1 all), (with_comments (texts (skipn 1 all)) quat). rewrite E1. unfold texts at 1 2 4 5. rewrite <- !map_app. fold all.
  rewrite firstn_map, skipn_map. split; [reflexivity|]. split; [reflexivity|]. split; [exact G1|]. split; [exact A1|]. split.
  - assert (F : first_comments [("quaternion_state", with_comments (texts (skipn 1 all)) quat)] = texts (skipn 1 all)).
    { destruct A1 as [vars [q [r [Ev _]]]]. rewrite Ev in A2 |- *. exact A2. }
    unfold comments_settled. rewrite F. destruct all as [|x l]; [right; split; reflexivity|left; reflexivity].
  - rewrite A3, E2, !app_assoc. f_equal. unfold comment_items. rewrite <- !map_app, firstn_skipn. reflexivity.
Qed.
Lemma filled_rotation_ok c part v : opt_rotation c part v ->
  opt_rotation c part (filled_rotation c v) /\ filled_rotation c (filled_rotation c v) = filled_rotation c v /\
  rotation_items (filled_rotation c v) = rotation_items v.
Proof.
  intros [->|[->|[a [b [d [-> H]]]]]].
  - split; [right; left; reflexivity|split; reflexivity].
  - split; [right; left; reflexivity|split; reflexivity].
  - split; [right; right; exists a, b, d; split; [reflexivity|exact H]|split; reflexivity].
Qed.
Lemma filled_euler_ok v : euler_ok v -> euler_ok (filled_euler v) /\ all_filled (filled_euler v) /\ euler_items (filled_euler v) = euler_items v.
Proof.
  destruct e_names as [E1 _]. intros [->|[vars [an [ra [-> [W [S0 [Oa Or]]]]]]]].
  - split; [right; exists no_euler; do 2 eexists; split; [reflexivity|]; split; [rewrite E1; exact no_euler_wf|];
      split; [right; reflexivity|split; right; left; reflexivity]|split; [reflexivity|by_compute]].
  - destruct (filled_rotation_ok _ _ _ Oa) as [A1 [A2 A3]]. destruct (filled_rotation_ok _ _ _ Or) as [B1 [B2 B3]].
    assert (L : List.length vars = 6) by (apply e_length; rewrite <- E1; exact W).
    assert (X : forall an ra, filled_euler (euler_elements vars an ra) =
                  euler_elements vars (filled_rotation "RotationAngleType" an) (filled_rotation "RotationRateType" ra)).
    { clear - L. intros an ra. do 6 (destruct vars as [|? vars]; [discriminate L|]). destruct vars; [reflexivity|discriminate L]. }
    assert (Y : forall an ra, euler_items (euler_elements vars an ra) =
                  map Say (entries (firstn 6 (fields_of "EulerElementsThreeType")) vars) ++ rotation_items an ++ rotation_items ra ++ []).
    { clear - L. intros an ra. unfold euler_elements. cbn [euler_items].
      destruct (firstn_exact 6 vars [("rotation_angles", an); ("rotation_rates", ra)] L) as [X1 X2]. rewrite X1, X2. reflexivity. }
    rewrite X. split; [|split; [unfold all_filled; rewrite X, A2, B2; reflexivity|rewrite !Y, A3, B3; reflexivity]].
    right. do 3 eexists. split; [reflexivity|]. split; [exact W|]. split; [|split; assumption].
    destruct S0 as [S0|S0]; [left; exact S0|right]. destruct vars as [|[k x] vars]; [discriminate L|exact S0].
Qed.
Theorem C48_apm_stable : forall u header md cs quat euler secs mans,
  section "NdmHeader" header -> section "ApmMetadata" md -> Forall good_text cs ->
  quat_ok quat -> euler_ok euler -> sections apm_sections secs ->
  Forall (section "AttManeuverParametersType") mans -> no_new_fields mans ->
  written_twice u (apm header md (texts cs) quat euler secs mans)
    (first_item "CCSDS_APM_VERS" "1.0" :: section_items header ++ section_items md ++
     comment_items cs ++ quat_items quat ++ euler_items euler ++ parts_items secs ++ flat_map section_items mans).
Proof.
  intros u header md cs quat euler secs mans Sh Sm G Hq He Se Fm Nf.
  destruct (settle_quat u cs quat Hq G) as [cs' [quat' [E1 [E2 [G' [Hq' [C J]]]]]]].
  destruct (filled_euler_ok euler He) as [He' [Af Ie]].
  apply (twice u _ (apm header md (texts cs') quat' (filled_euler euler) secs mans) _ (first_item "CCSDS_APM_VERS" "1.0" ::
    section_items header ++ section_items md ++ comment_items cs' ++ quat_items quat' ++ euler_items (filled_euler euler) ++
    parts_items secs ++ flat_map section_items mans)).
  - apply C44_apm_text; assumption.
  - destruct (C47_apm_read_back u header md cs quat euler secs mans) as [t [W R]]; try assumption. exists t. rewrite E1, E2 in R. split; assumption.
  - apply C44_apm_text; assumption.
  - apply C47_apm_round_trip_partial; assumption.
  - rewrite Ie, !(app_assoc (comment_items _)), J. reflexivity.
Qed.

(* messages that the first cycle changes *)
Example C48_omm_example : section "NdmHeader" demo_header /\ section "OmmMetadata" omm_meta /\ Forall good_text [] /\
  sections omm_sections (omm_parts ["e 1"; "e 2"] ["s"]) /\ some_section (omm_parts ["e 1"; "e 2"] ["s"]) /\ opt_user demo_env demo_user /\
  ~ comments_settled [] (omm_parts ["e 1"; "e 2"] ["s"]).
Proof.
  destruct C26_example as [A [B [_ [C [D [E _]]]]]]. repeat (split; [assumption|]). split; [constructor|]. repeat (split; [assumption|]).
  intros [X|[_ X]]; [discriminate X|vm_compute in X; discriminate X].
Qed.
Example C48_rdm_example : section "RdmHeader" rdm_header /\ section "RdmMetadata" rdm_meta /\ Forall good_text [lit "d 1"; lit "d 1"] /\
  sections rdm_sections (rdm_parts ["e 1"; "e 2"] ["s"]) /\ some_section (rdm_parts ["e 1"; "e 2"] ["s"]) /\ opt_user demo_env demo_user /\
  ~ comments_settled (texts [lit "d 1"; lit "d 1"]) (rdm_parts ["e 1"; "e 2"] ["s"]).
Proof.
  destruct C28_example as [A [B [G [C [D [E _]]]]]]. repeat (split; [assumption|]). inversion G; subst.
  split; [repeat (constructor; [assumption|]); constructor|]. repeat (split; [assumption|]). intros [X|[X _]]; discriminate X.
Qed.
Example C48_opm_example : section "NdmHeader" demo_header /\ section "OpmMetadata" opm_meta /\ Forall good_text [] /\
  sections opm_sections (opm_parts ["e 1"; "e 2"] ["s"]) /\ some_section (opm_parts ["e 1"; "e 2"] ["s"]) /\
  Forall (section "ManeuverParametersType") demo_mans /\ no_new_fields demo_mans /\ opt_user demo_env demo_user /\
  ~ comments_settled [] (opm_parts ["e 1"; "e 2"] ["s"]).
Proof.
  destruct C27_example as [A [B [_ [C [D [E [F [G _]]]]]]]]. repeat (split; [assumption|]). split; [constructor|]. repeat (split; [assumption|]).
  intros [X|[_ X]]; [discriminate X|vm_compute in X; discriminate X].
Qed.
Definition cdm_loose : list segment_parts :=
  [(cdm_meta ["o 1"; "o 2"] ["operator_phone"], [lit "d 1"; lit "d 2"], cdm_part ["a"] ["s"] (cdm_od ["x"; "y"]));
   (cdm_meta ["p"] ["operator_phone"; "operator_email"], [], cdm_part ["a"] ["s"] VNone)].
Example C48_cdm_example : section "CdmHeader" cdm_header /\ relative_data rel_full /\ cdm_loose <> [] /\
  Forall cdm_segment_ok cdm_loose /\ no_new_keys cdm_loose /\ Forall (fun p => ~ cdm_segment_settled p) cdm_loose.
Proof.
  destruct C29_example as [A [B _]]. split; [exact A|]. split; [exact B|]. split; [discriminate|].
  split; [repeat (constructor; [apply cdm_okb; by_compute|]); constructor|]. split; [apply no_new_keysb_spec; by_compute|].
  constructor; [intros [X|[X _]]; discriminate X|]. constructor; [intros [X|[_ X]]; [discriminate X|vm_compute in X; discriminate X]|constructor].
Qed.
Example C48_apm_example : section "NdmHeader" demo_header /\ section "ApmMetadata" apm_meta /\ Forall good_text [] /\
  quat_ok (demo_quat ["q 1"; "q 2"]) /\ euler_ok VNone /\ sections apm_sections apm_parts /\
  Forall (section "AttManeuverParametersType") apm_mans /\ no_new_fields apm_mans /\
  ~ comments_settled [] [("quaternion_state", demo_quat ["q 1"; "q 2"])] /\ ~ all_filled VNone.
Proof.
  destruct C47_example as [A [B [_ [Q [_ [F [G [H _]]]]]]]]. split; [exact A|]. split; [exact B|]. split; [constructor|]. split; [exact Q|].
  split; [left; reflexivity|]. split; [exact F|]. split; [exact G|]. split; [exact H|].
  split; [intros [X|[_ X]]; [discriminate X|vm_compute in X; discriminate X]|discriminate].
Qed.
Print Assumptions C48_omm_stable.
Print Assumptions C48_rdm_stable.
Print Assumptions C48_opm_stable.
Print Assumptions C48_cdm_stable.
Print Assumptions C48_apm_stable.
