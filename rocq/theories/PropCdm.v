(* Property C29: conjunction data messages, written and read back. *)
From Coq Require Import NArith ZArith List Bool String Arith Lia.
From Verif Require Import PyStr PyDec PyVal Schema KvnPre KvnTree KvnSeg XmlBind KvnBuild NdmXml KvnWrite
     Spec SpecKvn SpecObj SpecMsg StrFacts DecFacts PreFacts SegFacts BuildFacts WriteFacts ParseFacts ShiftFacts
     ReadFacts ComposeFacts MsgFacts PropWrite CoreFacts UserFacts DataFacts SingleFacts ListFacts RelFacts SegListFacts
     CheckFacts Demo PropRound.
Import ListNotations.
Local Open Scope string_scope.
Local Open Scope list_scope.
Local Arguments find_class : simpl never.
Local Arguments lit : simpl never.

(* what the object map of a CDM looks like *)
Definition cdm_shape (hdr body rel rsv seg meta data : elem) (ss : list elem) (fs1 : list field) (f0 : field) (fs2 : list field) : Prop :=
  (In "Cdm" root_classes /\ e_subs (tree_of "Cdm") = [hdr; body] /\ e_subs body = [rel; seg] /\ deleted_keywords "Cdm" = []) /\
  (sec_elem hdr = true /\ bare_elem body = true /\ e_islist body = false /\ e_islist seg = true /\ quiet_class (e_cls body) = true) /\
  rel_shape rel rsv fs1 f0 fs2 /\ sec_elem rsv = true /\ quiet_class (e_cls rel) = true /\
  seg_shape seg meta data ss /\ disjoint_all (hdr :: rel :: rsv :: meta :: ss) = true /\
  (e_name hdr = "header" /\ e_name body = "body" /\ e_name rel = "relative_metadata_data" /\ e_name seg = "segment" /\ e_name rsv = "relative_state_vector") /\
  (vars_of (new_obj "Cdm") = [("header", VNone); ("body", VNone)] /\
   vars_of (new_obj (e_cls body)) = [("relative_metadata_data", VNone); ("segment", VList [])]) /\
  (e_cls hdr = "CdmHeader" /\ e_cls body = "CdmBody" /\ e_cls rel = "RelativeMetadataData" /\ e_cls rsv = "RelativeStateVectorType" /\
   e_cls seg = "CdmSegment" /\ e_cls meta = "CdmMetadata" /\ e_cls data = "CdmData") /\
  (map (fun s => (e_name s, e_cls s)) ss = cdm_sections /\ forallb (fun s => negb (e_islist s)) ss = true) /\
  (firstn 4 (fields_of "RelativeMetadataData") = comment_field :: fs1 /\ skipn 5 (fields_of "RelativeMetadataData") = fs2 /\
   mem_string "units" (map f_name (fields_of "RelativeMetadataData")) = false).
Lemma cdm_shape_ok : exists hdr body rel rsv seg meta data ss fs1 f0 fs2, cdm_shape hdr body rel rsv seg meta data ss fs1 f0 fs2.
Proof.
  exists (at_name ["header"] (tree_of "Cdm")), (at_name ["body"] (tree_of "Cdm")), (at_name ["body"; "relative_metadata_data"] (tree_of "Cdm")),
    (at_name ["body"; "relative_metadata_data"; "relative_state_vector"] (tree_of "Cdm")), (at_name ["body"; "segment"] (tree_of "Cdm")),
    (at_name ["body"; "segment"; "metadata"] (tree_of "Cdm")), (at_name ["body"; "segment"; "data"] (tree_of "Cdm")),
    (e_subs (at_name ["body"; "segment"; "data"] (tree_of "Cdm"))), (firstn 3 (skipn 1 (fields_of "RelativeMetadataData"))),
    (nth 4 (fields_of "RelativeMetadataData") comment_field), (skipn 5 (fields_of "RelativeMetadataData")).
  split; [split; [cbn [In root_classes]; tauto|]; repeat (apply conj); by_compute|].
  split; [repeat (apply conj); by_compute|].
  split; [repeat (apply conj); by_compute|]. split; [by_compute|]. split; [by_compute|].
  split.
  { split; [repeat (apply conj); by_compute|]. split; [repeat (apply conj); by_compute|].
    split; [apply fields_match; by_compute|]. split; repeat (apply conj); by_compute. }
  split; [by_compute|]. split; [repeat (apply conj); by_compute|]. split; [repeat (apply conj); by_compute|].
  split; [repeat (apply conj); by_compute|]. split; [repeat (apply conj); by_compute|]. repeat (apply conj); by_compute.
Qed.

(* two keyword lists known to be disjoint share no keyword *)
Ltac apart := match goal with
  | D : disjointb ?A ?B = true, N : ?t <> kw_comment, H1 : In ?t ?A, H2 : In ?t ?B |- _ => exfalso; exact (disjointb_spec A B t D H1 N H2)
  | D : forall x, In x ?L -> disjointb ?A (e_kws x) = true, N : ?t <> kw_comment, I : In ?s ?L, H1 : In ?t ?A, H2 : In ?t (e_kws ?s) |- _ =>
      exfalso; exact (disjointb_spec A (e_kws s) t (D s I) H1 N H2)
  end.
Lemma rel_keys (u : env) rel rsv fs1 f0 fs2 before v after (t : str) : rel_shape rel rsv fs1 f0 fs2 -> sec_elem rsv = true ->
  wf_vars (comment_field :: fs1) before -> opt_section (e_cls rsv) v -> wf_vars fs2 after ->
  In t (keys_of (rel_lines fs1 fs2 before v after)) -> t = kw_comment \/ In t (e_kws rel) \/ In t (e_kws rsv).
Proof.
  intros [_ [_ [[Ef [_ [_ [_ [Kw Nl]]]]] [_ [_ [Ek _]]]]]] Sr Wb Or Wa Hi.
  rewrite forallb_app in Kw, Nl. apply andb_true_iff in Kw. destruct Kw as [Kw1 Kw2]. apply andb_true_iff in Nl. destruct Nl as [Nl1 Nl2].
  unfold rel_lines in Hi. rewrite !keys_of_app in Hi. rewrite Ek.
  assert (X : forall fs vars, forallb kw_field_ok fs = true -> wf_vars fs vars -> In t (keys_of (map line_of (entries fs vars))) ->
            t = kw_comment \/ In t (kws_of fs)).
  { intros fs vars K W H. destruct (list_eq_dec N.eq_dec t kw_comment) as [E|E]; [left; exact E|right].
    destruct (key_set u fs vars t "" K W E H) as [f [F1 [-> _]]]. unfold kws_of. apply (in_map (fun f => lit (kw_of f))). exact F1. }
  apply in_app_or in Hi. destruct Hi as [Hi|Hi].
  - assert (Kc : forallb kw_field_ok (comment_field :: fs1) = true) by (cbn [forallb]; rewrite comment_field_ok; exact Kw1).
    destruct (X (comment_field :: fs1) before Kc Wb Hi) as [Y|[Y|Y]].
    + left; exact Y.
    + left; symmetry; exact Y.
    + right; left. right. unfold kws_of. rewrite map_app. apply in_or_app. left; exact Y.
  - apply in_app_or in Hi. destruct Hi as [Hi|Hi].
    + destruct (sec_elem_spec rsv Sr) as [Lr _]. destruct (section_keys_incl u rsv v Lr Or t Hi) as [Y|Y]; auto.
    + destruct (X fs2 after Kw2 Wa Hi) as [Y|Y]; [left; exact Y|]. right; left. right. unfold kws_of. rewrite map_app. apply in_or_app. right; exact Y.
Qed.

(* Writing a well-formed CDM in which no object sets a field or section that an earlier object lacks, and reading
   the text, gives the message back with its comments settled. *)
Theorem C29_cdm_read_back : forall u header relative ps,
  section "CdmHeader" header -> relative_data relative -> ps <> [] -> Forall cdm_segment_ok ps -> no_new_keys ps ->
  exists t, kvn_to_string u (cdm_message header relative (map (segment_object "CdmSegment" "CdmData") ps)) = Ok t /\
            kvn_from_string u t = Ok (cdm_message header relative (map (settle "CdmSegment" "CdmData") ps)).
Proof.
  intros u header relative ps Sh [before [rv [after [-> [Wb [Or [Wa Sb]]]]]]] Ne Fp Nn.
  destruct cdm_shape_ok as [hdr [body [rel [rsv [seg [meta [data [ss [fs1 [f0 [fs2 Sp]]]]]]]]]]].
  destruct Sp as [[Hc [E1 [E2 Ed]]] [[Xh [Xb [Ib [Is Qb]]]] [Rs [Sr [Qr [Ss [Dj [Nms [Vs [Cs [Sec Fs]]]]]]]]]]].
  destruct Nms as [Nh [Nb [Nr [Ns Nv]]]]. destruct Vs as [V1 V2]. destruct Cs as [C1 [C2 [C3 [C4 [C5 [C6 C7]]]]]].
  destruct Sec as [Em Ei]. destruct Fs as [F1 [F2 Nu]].
  rewrite F1 in Wb. rewrite F2 in Wa. rewrite <- C4 in Or. rewrite <- C1 in Sh.
  assert (Fp' : Forall (part_ok meta ss) ps).
  { eapply Forall_impl; [|exact Fp]. intros [[md cs] secs] [Q1 [Q2 [Q3 Q4]]]. cbn [part_ok]. rewrite C6. split; [exact Q1|]. split; [exact Q2|].
    split; [apply (sections_sec_of cdm_sections); assumption|exact Q4]. }
  destruct (sec_elem_spec hdr Xh) as [Lh [Ih [Ch [Mh Kh]]]].
  cbn [disjoint_all forallb] in Dj. repeat (apply andb_true_iff in Dj; let A := fresh "D" in destruct Dj as [A Dj]).
  repeat match goal with X : (_ && _)%bool = true |- _ => apply andb_true_iff in X; destruct X end.
  repeat match goal with X : forallb _ ss = true |- _ => rewrite forallb_forall in X end.
  assert (Lm : leaf_elem meta = true /\ forallb leaf_elem ss = true).
  { destruct Ss as [[_ [_ [_ [_ [Sm _]]]]] [[Xs _] _]]. split; [apply (sec_elem_spec meta Sm)|apply sec_elems_leaf; exact Xs]. }
  destruct Lm as [Lm Ls].
  set (bl := flat_map part_lines ps).
  set (rl := rel_lines fs1 fs2 before rv after).
  assert (Kb : forall t, In t (keys_of bl) -> t = kw_comment \/ In t (e_kws meta) \/ exists s, In s ss /\ In t (e_kws s)).
  { intros t Ht. exact (parts_keys u meta ss ps t Lm Ls Fp' Ht). }
  assert (Kr : forall t, In t (keys_of rl) -> t = kw_comment \/ In t (e_kws rel) \/ In t (e_kws rsv)).
  { intros t Ht. eapply (rel_keys u); eassumption. }
  assert (Rr : reads u rel (rl ++ bl) (VObj (e_cls rel) (before ++ (e_name rsv, rv) :: after)) (List.length rl)).
  { apply (rel_reads u rel rsv fs1 f0 fs2); try assumption. intros t Ht Hn Hi. destruct (Kb t Hi) as [Y|[Y|[s [Y1 Y2]]]]; [contradiction| |].
    - destruct Ht as [Ht|Ht]; apart.
    - destruct Ht as [Ht|Ht]; apart. }
  assert (Rb : reads u body ((rl ++ bl) ++ []) (VObj (e_cls body) [("relative_metadata_data", VObj (e_cls rel) (before ++ (e_name rsv, rv) :: after));
                                 ("segment", VList (map (settle (e_cls seg) (e_cls data)) ps))]) (List.length (rl ++ bl))).
  { destruct (bare_elem_spec body Xb) as [O [Sg [Ek Eb]]]. rewrite app_nil_r, app_length. eapply bare_reads; try assumption.
    2:{ rewrite E2. apply subs_one; [apply Rs|exact Rr|].
        pose proof (subs_list u seg [] ([] ++ rl) bl [] (map (settle (e_cls seg) (e_cls data)) ps) 0 [] Is) as Q.
        rewrite app_nil_r, Nat.add_0_r in Q. apply Q; [|apply subs_nil]. apply (parts_list u seg meta data ss); assumption. }
    - discriminate.
    - rewrite V2, Nr, Ns, app_nil_r. cbn [attach_all]. unfold attach at 1. cbn [assoc String.eqb Ascii.eqb Bool.eqb bind set_var].
      rewrite attach_list.
      + reflexivity.
      + eexists. reflexivity.
      + clear. induction ps as [|[[md cs] secs] ps IH]; constructor; [discriminate|exact IH]. }
  assert (Kh1 : known (e_kws hdr) (keys_of (sec_lines header)) (keys_of ((rl ++ bl) ++ []))).
  { intros t Ht Hn Hi. exfalso. rewrite app_nil_r, keys_of_app in Hi. apply in_app_or in Hi. destruct Hi as [Hi|Hi].
    - destruct (Kr t Hi) as [Y|[Y|Y]]; [contradiction| |]; apart.
    - destruct (Kb t Hi) as [Y|[Y|[s [Y1 Y2]]]]; [contradiction| |]; apart. }
  unfold cdm_message. rewrite <- C2, <- C3, <- C5, <- C7, <- Nv.
  eapply round_trip_core with (ls := sec_lines header ++ rl ++ bl); try assumption; try reflexivity.
  - apply emits_vars_cons; [apply (emits_opt u _ _ _ Ch (Mh true) (Mh false)); [split; discriminate|right; exact Sh]|].
    rewrite <- (app_nil_r (rl ++ bl)). apply emits_vars_cons; [|apply emits_vars_nil].
    apply emits_node; [split; discriminate|exact Qb|reflexivity|]. apply emits_vars_cons.
    + destruct (sec_elem_spec rsv Sr) as [Lr [_ [Cr [Mr Kr0]]]].
      destruct Rs as [_ [_ [[Ef [En [_ [_ [Kw _]]]]] _]]]. rewrite forallb_app in Kw. apply andb_true_iff in Kw. destruct Kw as [Kw1 Kw2].
      apply emits_node; [split; discriminate|exact Qr| |].
      * rewrite map_app. cbn [map fst]. rewrite (wf_vars_names _ _ Wb), (wf_vars_names _ _ Wa). rewrite <- C3, Ef in Nu. rewrite <- En.
        change (comment_field :: fs1 ++ f0 :: fs2) with ((comment_field :: fs1) ++ f0 :: fs2) in Nu. rewrite map_app in Nu. exact Nu.
      * unfold rl, rel_lines. apply emits_vars_app; [apply emits_fields; [cbn [forallb]; rewrite comment_field_ok; exact Kw1|exact Wb]|].
        apply emits_vars_cons; [apply (emits_opt u _ _ _ Cr (Mr true) (Mr false)); [exact Kr0|exact Or]|apply emits_fields; assumption].
    + rewrite <- (app_nil_r bl). apply emits_vars_cons; [|apply emits_vars_nil]. apply (emits_parts u _ seg meta data ss); [exact Ss|split; discriminate|exact Fp'].
  - unfold delete_keywords. rewrite Ed. cbn [mem_str existsb negb].
    replace (filter (fun _ : line => true) (sec_lines header ++ rl ++ bl)) with (sec_lines header ++ (rl ++ bl) ++ []).
    2:{ rewrite app_nil_r. symmetry. clear. induction (sec_lines header ++ rl ++ bl) as [|a l IH]; [reflexivity|]. cbn. rewrite IH. reflexivity. }
    rewrite E1. apply subs_one; [exact Ih|apply section_reads; eassumption|].
    apply subs_one; [exact Ib|exact Rb|apply subs_nil].
  - discriminate.
  - rewrite V1, Nh, Nb. reflexivity.
Qed.

Lemma settle_same segment data p : (let '(_, cs, secs) := p in comments_settled (texts cs) secs) ->
  settle segment data p = segment_object segment data p.
Proof. destruct p as [[md cs] secs]. intros H. destruct (settled_same _ _ H) as [A B]. cbn [settle segment_object]. rewrite A, B. reflexivity. Qed.

(* Writing and reading gives the same CDM back when the comments are where the reader puts them and no object sets
   a field or section that an earlier object lacks.  The unrestricted claim fails in both respects, see below. *)
Theorem C29_cdm_round_trip_partial : forall u header relative ps,
  section "CdmHeader" header -> relative_data relative -> ps <> [] -> Forall cdm_segment_ok ps -> no_new_keys ps ->
  Forall cdm_segment_settled ps ->
  exists t, kvn_to_string u (cdm_message header relative (map (segment_object "CdmSegment" "CdmData") ps)) = Ok t /\
            kvn_from_string u t = Ok (cdm_message header relative (map (segment_object "CdmSegment" "CdmData") ps)).
Proof.
  intros u header relative ps Sh Rl Ne Fp Nn Fs. destruct (C29_cdm_read_back u header relative ps Sh Rl Ne Fp Nn) as [t [W R]].
  exists t. split; [exact W|]. rewrite R. do 2 f_equal. apply map_ext_in. intros p Hp. apply settle_same.
  rewrite Forall_forall in Fs. exact (Fs p Hp).
Qed.

(* ---- concrete messages ---- *)
Definition subsetsb (w v : pyval) : bool :=
  match w with
  | VObj _ a => forallb (fun nx => match snd nx with
      | VNone | VList _ => true
      | _ => match v with
             | VObj _ b => existsb (fun my => String.eqb (fst my) (fst nx) && match snd my with VNone | VList _ => false | _ => true end) b
             | _ => false end
      end) a
  | _ => true
  end.
Lemma subsetsb_spec w v : subsetsb w v = true -> forall n, sets w n -> sets v n.
Proof.
  intros H n [c [vars [x [-> [Hi Hs]]]]]. cbn [subsetsb] in H. rewrite forallb_forall in H. specialize (H _ Hi). cbn [fst snd] in H.
  destruct v as [| | | | |c' b|]; try (destruct x; try destruct Hs; discriminate H).
  assert (X : existsb (fun my => String.eqb (fst my) n && match snd my with VNone | VList _ => false | _ => true end) b = true)
    by (destruct x; try destruct Hs; exact H).
  apply existsb_exists in X. destruct X as [[m y] [X1 X2]]. apply andb_true_iff in X2. destruct X2 as [X2 X3]. apply String.eqb_eq in X2. cbn [fst snd] in *. subst m.
  exists c', b, y. split; [reflexivity|]. split; [exact X1|]. destruct y; try discriminate; exact I.
Qed.
Fixpoint all2b {A B} (f : A -> B -> bool) (l : list A) (m : list B) : bool :=
  match l, m with [], [] => true | a :: l, b :: m => f a b && all2b f l m | _, _ => false end.
Lemma all2b_spec {A B} (f : A -> B -> bool) (P : A -> B -> Prop) : (forall a b, f a b = true -> P a b) ->
  forall l m, all2b f l m = true -> Forall2 P l m.
Proof.
  intros H. induction l as [|a l IH]; intros [|b m] E; try discriminate; [constructor|]. cbn in E. apply andb_true_iff in E. destruct E as [E1 E2].
  constructor; [apply H; exact E1|apply IH; exact E2].
Qed.
Fixpoint no_new_keysb (ps : list segment_parts) : bool :=
  match ps with
  | [] => true
  | (md, _, secs) :: r =>
    forallb (fun p => let '(md', _, secs') := p in
               subsetsb md' md && all2b (fun a b => subsetsb (snd a) (snd b)) secs' secs) r && no_new_keysb r
  end.
Lemma no_new_keysb_spec ps : no_new_keysb ps = true -> no_new_keys ps.
Proof.
  induction ps as [|[[md cs] secs] r IH]; intros H; [exact I|]. cbn [no_new_keysb] in H. apply andb_true_iff in H. destruct H as [H1 H2].
  split; [|apply IH; exact H2]. intros md' cs' secs' Hi. rewrite forallb_forall in H1. specialize (H1 _ Hi). cbn beta iota in H1.
  apply andb_true_iff in H1. destruct H1 as [A B]. split; [apply subsetsb_spec; exact A|].
  revert B. apply all2b_spec. intros a b X. apply subsetsb_spec. exact X.
Qed.

Definition cdm_header : pyval := demo_but "CdmHeader" ["h 1"; "h 2"] [].
Definition rel_of (cs : list string) (rsv : pyval) (absent : list string) : pyval :=
  match demo_but "RelativeMetadataData" cs absent with VObj c vars => VObj c (firstn 4 vars ++ ("relative_state_vector", rsv) :: skipn 5 vars) | v => v end.
Definition rel_full : pyval := rel_of ["r 1"; "r 2"] (demo_but "RelativeStateVectorType" [] []) ["screen_volume_shape"].
Definition cdm_meta (cs absent : list string) : pyval := demo_but "CdmMetadata" cs absent.
Definition cdm_part (c1 c2 : list string) (od : pyval) : list (string * pyval) :=
  [("od_parameters", od); ("additional_parameters", demo_only "AdditionalParametersType" c1 ["mass"; "area_pc"]);
   ("state_vector", demo_but "CdmStateVectorType" c2 []); ("covariance_matrix", demo_but "CdmCovarianceMatrixType" [] [])].
Definition cdm_od (cs : list string) : pyval := demo_only "OdParametersType" cs ["obs_used"; "weighted_rms"].
Definition cdm_two : list segment_parts :=
  [(cdm_meta ["o 1"; "o 2"] ["operator_phone"], [lit "d 1"], cdm_part ["a"] ["s"] (cdm_od ["x"; "y"]));
   (cdm_meta ["p"] ["operator_phone"; "operator_email"], [], cdm_part [] ["s"] VNone)].
Lemma cdm_okb p : (let '(md, cs, secs) := p in
    sectionb "CdmMetadata" md && forallb good_textb cs && sectionsb cdm_sections secs &&
    existsb (fun nv => match snd nv with VNone => false | _ => true end) secs) = true -> cdm_segment_ok p.
Proof.
  destruct p as [[md cs] secs]. intros H. do 3 (apply andb_true_iff in H; destruct H as [H ?]). cbn [cdm_segment_ok].
  split; [apply sectionb_spec; exact H|]. split; [apply Forall_forall; intros x Hx; apply good_textb_spec; rewrite forallb_forall in H2; apply H2; exact Hx|].
  split; [apply sectionsb_spec; assumption|apply some_sectionb_spec; assumption].
Qed.
Lemma rel_datab before rsv after :
  wf_varsb (firstn 4 (fields_of "RelativeMetadataData")) before && opt_sectionb "RelativeStateVectorType" rsv &&
  wf_varsb (skipn 5 (fields_of "RelativeMetadataData")) after &&
  existsb (fun nv => match snd nv with VNone | VList _ => false | _ => true end) before = true ->
  relative_data (VObj "RelativeMetadataData" (before ++ ("relative_state_vector", rsv) :: after)).
Proof.
  intros H. do 3 (apply andb_true_iff in H; destruct H as [H ?]). exists before, rsv, after. split; [reflexivity|].
  split; [apply wf_varsb_spec; exact H|]. split; [apply opt_sectionb_spec; assumption|]. split; [apply wf_varsb_spec; assumption|].
  match goal with X : existsb _ _ = true |- _ => apply existsb_exists in X; destruct X as [[n x] [Hi X]] end.
  exists n, x. split; [exact Hi|]. destruct x; try discriminate; exact I.
Qed.
Definition vars_part (v : pyval) : list (string * pyval) := match v with VObj _ l => l | _ => [] end.
Lemma rel_of_ok cs rsv absent : 
  wf_varsb (firstn 4 (fields_of "RelativeMetadataData")) (firstn 4 (vars_part (demo_but "RelativeMetadataData" cs absent))) && opt_sectionb "RelativeStateVectorType" rsv &&
  wf_varsb (skipn 5 (fields_of "RelativeMetadataData")) (skipn 5 (vars_part (demo_but "RelativeMetadataData" cs absent))) &&
  existsb (fun nv => match snd nv with VNone | VList _ => false | _ => true end) (firstn 4 (vars_part (demo_but "RelativeMetadataData" cs absent))) = true ->
  relative_data (rel_of cs rsv absent).
Proof. intros H. apply rel_datab in H. exact H. Qed.

Example C29_example : section "CdmHeader" cdm_header /\ relative_data rel_full /\ cdm_two <> [] /\
  Forall cdm_segment_ok cdm_two /\ no_new_keys cdm_two.
Proof.
  split; [met|]. split; [apply rel_of_ok; by_compute|]. split; [discriminate|].
  split; [repeat (constructor; [apply cdm_okb; by_compute|]); constructor|]. apply no_new_keysb_spec. by_compute.
Qed.
Definition cdm_settled_two : list segment_parts :=
  [(cdm_meta ["o 1"; "o 2"] ["operator_phone"], [lit "d 1"], cdm_part ["a"] ["s"] (cdm_od ["x"; "y"]));
   (cdm_meta ["p"] ["operator_phone"; "operator_email"], [], cdm_part [] ["s"] (cdm_od []))].
Example C29_settled_example : Forall cdm_segment_ok cdm_settled_two /\ no_new_keys cdm_settled_two /\ Forall cdm_segment_settled cdm_settled_two.
Proof.
  split; [repeat (constructor; [apply cdm_okb; by_compute|]); constructor|]. split; [apply no_new_keysb_spec; by_compute|].
  constructor; [left; reflexivity|]. constructor; [right; split; reflexivity|]. constructor.
Qed.
(* Comments of the first section of a data block move to the block. *)
Theorem C29_cdm_round_trip_refuted : exists header relative p t v,
  section "CdmHeader" header /\ relative_data relative /\ cdm_segment_ok p /\
  kvn_to_string demo_env (cdm_message header relative [segment_object "CdmSegment" "CdmData" p]) = Ok t /\
  kvn_from_string demo_env t = Ok v /\ v <> cdm_message header relative [segment_object "CdmSegment" "CdmData" p].
Proof.
  exists cdm_header, rel_full, (cdm_meta [] [], [], cdm_part [] [] (cdm_od ["x"])). do 2 eexists. split; [met|]. split; [apply rel_of_ok; by_compute|].
  split; [apply cdm_okb; by_compute|]. split; [by_compute|]. split; [by_compute|].
  intros H. apply (f_equal (at_path ["body"; "segment"; "segment"; "data"; "comment"])) in H. vm_compute in H. discriminate.
Qed.
(* A field that only the metadata of the second object has makes the reader fail. *)
Definition cdm_later : list segment_parts :=
  [(cdm_meta [] ["operator_phone"], [], cdm_part [] [] (cdm_od []));
   (cdm_meta [] [], [], cdm_part [] [] (cdm_od []))].
Theorem C29_cdm_metadata_refuted : exists header relative ps t,
  section "CdmHeader" header /\ relative_data relative /\ List.length ps = 2 /\ Forall cdm_segment_ok ps /\ Forall cdm_segment_settled ps /\
  kvn_to_string demo_env (cdm_message header relative (map (segment_object "CdmSegment" "CdmData") ps)) = Ok t /\
  kvn_from_string demo_env t = Err XmlReject.
Proof.
  exists cdm_header, rel_full, cdm_later. eexists. split; [met|]. split; [apply rel_of_ok; by_compute|]. split; [reflexivity|].
  split; [repeat (constructor; [apply cdm_okb; by_compute|]); constructor|].
  split; [repeat (constructor; [right; split; reflexivity|]); constructor|]. split; [by_compute|]. by_compute.
Qed.
(* A section that only the second object has is read as one of the first object, and the second object is lost,
   without any error. *)
Definition cdm_later_section : list segment_parts :=
  [(cdm_meta [] [], [], cdm_part [] [] VNone);
   (cdm_meta [] [], [], cdm_part [] [] (cdm_od []))].
Theorem C29_cdm_objects_mixed_refuted : exists header relative md1 md2 secs1 secs2 od t v objects,
  section "CdmHeader" header /\ relative_data relative /\
  Forall cdm_segment_ok [(md1, [], ("od_parameters", VNone) :: secs1); (md2, [], ("od_parameters", od) :: secs2)] /\
  od <> VNone /\
  kvn_to_string demo_env (cdm_message header relative (map (segment_object "CdmSegment" "CdmData")
      [(md1, [], ("od_parameters", VNone) :: secs1); (md2, [], ("od_parameters", od) :: secs2)])) = Ok t /\
  kvn_from_string demo_env t = Ok v /\ at_path ["body"; "segment"] v = Some (VList objects) /\ List.length objects = 1 /\
  at_path ["data"; "od_parameters"] (hd VNone objects) = Some od.
Proof.
  exists cdm_header, rel_full, (cdm_meta [] []), (cdm_meta [] []), (tl (cdm_part [] [] VNone)), (tl (cdm_part [] [] VNone)), (cdm_od []).
  do 3 eexists. split; [met|]. split; [apply rel_of_ok; by_compute|].
  split; [repeat (constructor; [apply cdm_okb; by_compute|]); constructor|]. split; [discriminate|].
  split; [by_compute|]. split; [by_compute|]. split; [by_compute|]. split; [by_compute|]. by_compute.
Qed.
Print Assumptions C29_cdm_read_back.
Print Assumptions C29_cdm_round_trip_partial.
Print Assumptions C29_cdm_objects_mixed_refuted.
