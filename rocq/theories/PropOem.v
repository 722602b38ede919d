(* Properties C30, C32, C33: orbit ephemeris messages. *)
From Coq Require Import NArith ZArith List Bool String Arith Lia.
From Verif Require Import PyStr PyDec PyVal Schema KvnPre KvnTree KvnSeg XmlBind KvnBuild NdmXml KvnWrite
     Spec SpecKvn SpecObj SpecMsg StrFacts DecFacts PreFacts SegFacts BuildFacts WriteFacts ParseFacts ShiftFacts
     ReadFacts ComposeFacts MsgFacts PropWrite CoreFacts UserFacts DataFacts SingleFacts ListFacts RelFacts SegListFacts
     CheckFacts Demo PropRound PropCdm GapFacts SpecDoc SpecEph EphText EphFacts OemFacts CheckEph.
Import ListNotations.
Local Open Scope string_scope.
Local Open Scope list_scope.
Local Arguments find_class : simpl never.
Local Arguments lit : simpl never.


(* ---- writing ---- *)
Section Written.
Variable u : env.
Definition owritten (q : opart) : list line :=
  let '((md, cs, _, covs), (sls, cls)) := q in
  (markers "OemMetadata" true ++ sec_lines md ++ markers "OemMetadata" false) ++
  comment_lines cs ++ sls ++ list_markers (map oem_cov covs) true ++ List.concat cls ++ list_markers (map oem_cov covs) false.
Definition ospaced (q : opart) : Prop := spaced (fst (snd q)).

Lemma state_spaced r : good_state r -> mem_char c_sp (state_line r) = true.
Proof.
  intros [_ [L _]]. unfold state_line. destruct (snd r) as [|d ds]; [cbn in L; lia|]. cbn [map].
  change (join gap (fst r :: show_dec d :: map show_dec ds)) with (fst r ++ gap ++ join gap (show_dec d :: map show_dec ds)).
  unfold mem_char. apply existsb_exists. exists c_sp. split; [apply in_or_app; right; left; reflexivity|apply N.eqb_refl].
Qed.
Lemma states_written states : Forall good_state states ->
  Forall2 sline (map (fun r => [state_line r]) states) states /\
  Forall2 (fun x ls => adds (write_item u "state_vector" x) ls) (map oem_state states) (map (fun r => [[state_line r]]) states).
Proof.
  induction 1 as [|r states G _ [I1 I2]]; [split; constructor|]. cbn [map]. split; constructor; try assumption; [apply (state_written r G)|apply write_state; exact G].
Qed.
Lemma covs_written covs : Forall good_cov covs -> exists cls, Forall2 cblock cls covs /\
  Forall2 (fun x ls => adds (write_item u "covariance_matrix" x) ls) (map oem_cov covs) cls.
Proof.
  induction 1 as [|r covs G _ [cls [I1 I2]]]; [exists []; split; constructor|].
  destruct (write_cov u "covariance_matrix" r G) as [rows [_ [C A]]]. exists (cov_lines r rows :: cls). cbn [map]. split; constructor; assumption.
Qed.
Lemma concat_single {A B} (f : A -> B) l : List.concat (map (fun r => [f r]) l) = map f l.
Proof. induction l; [reflexivity|]. cbn. congruence. Qed.

Lemma segment_written p : oem_segment_ok p -> exists q, fst q = p /\ opart_ok q /\ ospaced q /\
  adds (write_item u "segment" (oem_segment p)) (owritten q).
Proof.
  destruct p as [[[md cs] states] covs]. intros [Sm [G [L [Ns [Gs Gc]]]]].
  destruct (states_written states Gs) as [S1 S2]. destruct (covs_written covs Gc) as [cls [C1 C2]].
  exists ((md, cs, states, covs), (map (fun r => [state_line r]) states, cls)). split; [reflexivity|]. split.
  { split; [exact Sm|]. split; [exact G|]. split; [exact L|]. split; [destruct states; [congruence|discriminate]|]. split; assumption. }
  split.
  { destruct states as [|r states]; [congruence|]. exists (state_line r), (map (fun r => [state_line r]) states). split; [reflexivity|].
    apply state_spaced. inversion Gs; assumption. }
  cbn [oem_segment owritten]. apply adds_item_obj; [reflexivity|]. apply emits_vars_cons.
  { apply emits_section; [vm_compute; reflexivity|split; discriminate|exact Sm]. }
  match goal with |- emits_vars _ _ ?X => rewrite <- (app_nil_r X) end. apply emits_vars_cons; [|apply emits_vars_nil].
  apply emits_node; [split; discriminate|reflexivity|reflexivity|]. apply emits_comment_vars; [exact G|].
  apply emits_vars_cons.
  { pose proof (emits_list u "state_vector" (map oem_state states) (map (fun r => [[state_line r]]) states) ltac:(discriminate) ltac:(discriminate) S2) as E.
    rewrite concat_single in E. replace (list_markers (map oem_state states) true) with (@nil line) in E by (destruct states; reflexivity).
    replace (list_markers (map oem_state states) false) with (@nil line) in E by (destruct states; reflexivity). rewrite app_nil_r in E. exact E. }
  match goal with |- emits_vars _ _ ?X => rewrite <- (app_nil_r X) end. apply emits_vars_cons; [|apply emits_vars_nil].
  apply emits_list; [discriminate|discriminate|exact C2].
Qed.
Lemma segments_written ps : Forall oem_segment_ok ps -> exists qs, map fst qs = ps /\ Forall opart_ok qs /\ Forall ospaced qs /\
  emits u "segment" (VList (map oem_segment ps)) (flat_map owritten qs).
Proof.
  intros F.
  assert (X : exists qs, map fst qs = ps /\ Forall opart_ok qs /\ Forall ospaced qs /\
     Forall2 (fun x ls => adds (write_item u "segment" x) ls) (map oem_segment ps) (map owritten qs)).
  { induction F as [|p ps P _ [qs [E [F1 [F2 F3]]]]]; [exists []; repeat split; constructor|].
    destruct (segment_written p P) as [q [E0 [Q1 [Q2 Q3]]]]. exists (q :: qs). cbn [map]. rewrite E0, E. repeat split; constructor; assumption. }
  destruct X as [qs [E [F1 [F2 F3]]]]. exists qs. split; [exact E|]. split; [exact F1|]. split; [exact F2|].
  pose proof (emits_list u "segment" _ _ ltac:(discriminate) ltac:(discriminate) F3) as Em.
  replace (list_markers (map oem_segment ps) true) with (@nil line) in Em by (destruct ps as [|[[[]]]]; reflexivity).
  replace (list_markers (map oem_segment ps) false) with (@nil line) in Em by (destruct ps as [|[[[]]]]; reflexivity).
  rewrite app_nil_r in Em. rewrite flat_map_concat_map. exact Em.
Qed.
Lemma oapart_of qs : Forall ospaced qs -> oem_apart (map fst qs) -> oapart qs.
Proof.
  induction 1 as [|q qs S _ IH]; [intros _; exact I|]. destruct q as [[[[md cs] states] covs] [sls cls]]. cbn [map fst oem_apart oapart].
  intros [A1 [A2 A3]]. split; [|split; [|apply IH; exact A3]].
  - destruct A1 as [A1|A1]; [left; split; [exact A1|exact S]|right]. intros [[[[md' cs'] states'] covs'] y] Hi n Hs. cbn [ometa] in Hs.
    apply (A1 md' cs' states' covs'); [|exact Hs]. apply in_map_iff. exists ((md', cs', states', covs'), y). auto.
  - destruct qs as [|q' r]; [exact I|]. destruct q' as [[[[md' cs'] states'] covs'] y]. cbn [map fst ometa] in *. destruct A2 as [A2|A2]; [left; exact A2|right].
    intros [[[[md2 cs2] states2] covs2] y2] Hi. cbn [ocovs]. apply (A2 md2 cs2 states2). destruct Hi as [Hi|Hi]; [left; congruence|right].
    apply in_map_iff. exists ((md2, cs2, states2, covs2), y2). auto.
Qed.

(* ---- the markers are left out when reading ---- *)
Lemma kept ls : (forall k, In k (keys_of ls) -> ~ In k (deleted_keywords "Oem")) -> delete_keywords "Oem" ls = ls.
Proof.
  intros H. unfold delete_keywords. apply filter_all. intros l Hl. apply negb_true_iff. apply not_true_iff_false. intros X. apply mem_str_spec in X.
  exact (H (key_of l) (in_map key_of _ _ Hl) X).
Qed.
Lemma deleted_app a b : delete_keywords "Oem" (a ++ b) = delete_keywords "Oem" a ++ delete_keywords "Oem" b.
Proof. apply filter_app. Qed.
Lemma deleted_plain k : In k (deleted_keywords "Oem") -> plain_kw k = true.
Proof.
  intros H. assert (P : forallb plain_kw (deleted_keywords "Oem") = true) by (vm_compute; reflexivity). rewrite forallb_forall in P. exact (P k H).
Qed.
Lemma deleted_none ms : Forall (fun l => In (key_of l) (deleted_keywords "Oem")) ms -> delete_keywords "Oem" ms = [].
Proof. intros F. apply filter_none. intros l Hl. rewrite Forall_forall in F. apply F in Hl. apply negb_false_iff. apply mem_str_spec. exact Hl. Qed.
Lemma meta_markers b : delete_keywords "Oem" (markers "OemMetadata" b) = [].
Proof. destruct b; vm_compute; reflexivity. Qed.
Lemma cov_markers covs b : delete_keywords "Oem" (list_markers (map oem_cov covs) b) = [].
Proof. destruct covs; [reflexivity|]. destruct b; vm_compute; reflexivity. Qed.

Section Shape.
Variables hdr body seg meta data sv cv : elem.
Hypothesis Sp : oem_shape hdr body seg meta data sv cv.
Lemma not_deleted k : k = kw_comment \/ In k (e_kws hdr) \/ In k (e_kws meta) \/ k = lit "EPOCH" \/ numeric_key k -> ~ In k (deleted_keywords "Oem").
Proof.
  intros H X. assert (Nc : k <> kw_comment). { intros ->. revert X. cbn. intros X. repeat (destruct X as [X|X]; [apply lit_inj in X; discriminate|]). destruct X. }
  destruct Sp as [_ [[_ [_ [_ [_ D]]]] _]].
  destruct H as [H|[H|[H|[H|H]]]]; [contradiction| | | |exact (numeric_not_plain k H (deleted_plain k X))]; apply (disjointb_spec _ _ k D X Nc).
  - right. apply in_or_app. left; exact H.
  - right. apply in_or_app. right; exact H.
  - left. symmetry. exact H.
Qed.
Lemma deleted_written q : opart_ok q -> delete_keywords "Oem" (owritten q) = olines q.
Proof.
  intros Q. pose proof (olines_keys u hdr body seg meta data sv cv Sp q) as K. rewrite <- (kept (olines q)).
  2:{ intros k Hk. apply not_deleted. destruct (K k Q Hk) as [E|[E|[[E _]|E]]]; auto. }
  destruct q as [[[[md cs] states] covs] [sls cls]]. unfold owritten, olines, odata, ometa. rewrite !deleted_app, !meta_markers, !cov_markers. cbn [app].
  rewrite !app_nil_r. reflexivity.
Qed.
Lemma deleted_all qs : Forall opart_ok qs -> delete_keywords "Oem" (flat_map owritten qs) = later qs.
Proof.
  induction 1 as [|q qs Q _ IH]; [reflexivity|]. cbn [flat_map later]. rewrite deleted_app, deleted_written by exact Q. rewrite IH. reflexivity.
Qed.
Lemma deleted_header header : section "NdmHeader" header -> delete_keywords "Oem" (sec_lines header) = sec_lines header.
Proof.
  intros Sh. apply kept. intros k Hk. apply not_deleted. destruct Sp as [_ [[Xh _] [_ [_ [_ [_ [_ [_ [_ [_ [[Ch _] _]]]]]]]]]]].
  destruct (sec_elem_spec hdr Xh) as [Lh _]. rewrite <- Ch in Sh. destruct (section_keys_incl u hdr header Lh (or_intror Sh) k Hk); auto.
Qed.
End Shape.
End Written.

(* Writing an OEM and reading the text gives the message back, for segments that the reader can tell apart.  Without that
   condition the claim fails, see below. *)
Theorem C30_oem_round_trip_partial : forall u header ps, section "NdmHeader" header -> ps <> [] ->
  Forall oem_segment_ok ps -> oem_apart ps ->
  exists t, kvn_to_string u (oem_message header (map oem_segment ps)) = Ok t /\
            kvn_from_string u t = Ok (oem_message header (map oem_segment ps)).
Proof.
  intros u header ps Sh Ne F A. destruct (segments_written u ps F) as [qs [<- [F1 [F2 Em]]]].
  destruct oem_shape_ok as [hdr [body [seg [meta [data [sv [cv Sp]]]]]]].
  assert (Nq : qs <> []) by (intros ->; exact (Ne eq_refl)).
  pose proof (oem_subs u hdr body seg meta data sv cv Sp header qs (head_lines "Oem") Sh Nq F1 (oapart_of qs F2 A)) as S.
  unfold oem_message. rewrite !map_map in *.
  eapply round_trip_core with (ls := sec_lines header ++ flat_map owritten qs); try reflexivity.
  - destruct Sp as [[Hc _] _]. exact Hc.
  - apply emits_vars_cons.
    + destruct Sp as [_ [[Xh _] [_ [_ [_ [_ [_ [_ [_ [_ [[Ch _] _]]]]]]]]]]]. destruct (sec_elem_spec hdr Xh) as [Lh [Ih [Cc [Mh Kh]]]].
      apply (emits_opt u _ _ _ Cc (Mh true) (Mh false)); [split; discriminate|right; rewrite Ch; exact Sh].
    + rewrite <- (app_nil_r (flat_map owritten qs)). apply emits_vars_cons; [|apply emits_vars_nil].
      apply emits_node; [split; discriminate|reflexivity|reflexivity|].
      rewrite <- (app_nil_r (flat_map owritten qs)). apply emits_vars_cons; [exact Em|apply emits_vars_nil].
  - rewrite deleted_app, (deleted_header u hdr body seg meta data sv cv Sp header Sh), (deleted_all u hdr body seg meta data sv cv Sp qs F1). exact S.
  - discriminate.
  - destruct Sp as [_ [_ [_ [_ [_ [_ [_ [_ [_ [_ [_ [V _]]]]]]]]]]]]. rewrite V. reflexivity.
Qed.
Print Assumptions C30_oem_round_trip_partial.

(* ---- concrete messages ---- *)
Definition tenths (z : Z) : dec := DFin (Z.ltb z 0) (Z.abs_N z) (-1).
Definition demo_state (e : string) (l : list Z) : record := (lit e, map tenths l).
Definition demo_cov (e : string) (k : Z) : record := (lit e, map (fun i => tenths (k + Z.of_nat i)%Z) (seq 0 21)).
Definition oem_meta (cs absent : list string) : pyval := demo_but "OemMetadata" cs absent.
(* two segments: comments everywhere, one to nine numbers, infinities, negative numbers, several matrices *)
Definition demo_oem : list oem_part :=
  [(oem_meta ["m 1"; "m 2"] ["useable_start_time"], [lit "d"],
    [demo_state "2004-01-01T00:00:00" [1; -2; 3; 4; 5; 6]%Z; demo_state "2004-01-02" [7]%Z; (lit "2004-001T01Z", [DInf true; DFin false 12 3])],
    [demo_cov "2004-01-01" 5; demo_cov "2004-01-02" (-50)]);
   (oem_meta [] ["useable_start_time"; "useable_stop_time"], [],
    [demo_state "2004-01-03T00:00:00.5" [1; -2; 3; 4; 5; 6; 7; 8; 9]%Z], [demo_cov "2004-01-01" 5]);
   (oem_meta [] ["useable_start_time"], [lit "last"], [demo_state "2005-01-01" [1; 2]%Z], [])].
Example C30_example : section "NdmHeader" demo_header /\ demo_oem <> [] /\ Forall oem_segment_ok demo_oem /\ oem_apart demo_oem.
Proof.
  split; [met|]. split; [discriminate|]. split; [eapply allb; [apply oem_segment_okb_spec|by_compute]|]. apply oem_apartb_spec. by_compute.
Qed.

(* A field that only a later segment's metadata has pulls the comment of the data block into the metadata. *)
Theorem C30_data_comment_refuted : exists header ps t v,
  section "NdmHeader" header /\ Forall oem_segment_ok ps /\
  kvn_to_string demo_env (oem_message header (map oem_segment ps)) = Ok t /\
  kvn_from_string demo_env t = Ok v /\ v <> oem_message header (map oem_segment ps).
Proof.
  exists demo_header, [(oem_meta ["m 1"] ["useable_start_time"], [lit "d"], [demo_state "2004-01-02" [1]%Z], []);
                       (oem_meta [] [], [], [demo_state "2004-01-03" [1; 2; 3]%Z], [])].
  do 2 eexists. split; [met|]. split; [eapply allb; [apply oem_segment_okb_spec|by_compute]|]. split; [by_compute|]. split; [by_compute|].
  intros H. apply (f_equal (fun v => match v with VObj _ [_; (_, VObj _ [(_, VList (VObj _ [(_, md); _] :: _))])] => List.length (comments_of md) | _ => 0 end)) in H.
  vm_compute in H. discriminate.
Qed.
Print Assumptions C30_data_comment_refuted.
(* A comment at the start of a later segment makes the reader invent a covariance matrix in the segment before it. *)
Definition matrices (v : pyval) : list nat :=
  match v with
  | VObj _ [_; (_, VObj _ [(_, VList segs)])] =>
    map (fun s => match s with VObj _ [_; (_, VObj _ [_; _; (_, VList covs)])] => List.length covs | _ => 0 end) segs
  | _ => []
  end.
Theorem C30_extra_matrix_refuted : exists header ps t v,
  section "NdmHeader" header /\ Forall oem_segment_ok ps /\
  kvn_to_string demo_env (oem_message header (map oem_segment ps)) = Ok t /\
  kvn_from_string demo_env t = Ok v /\ v <> oem_message header (map oem_segment ps) /\
  matrices (oem_message header (map oem_segment ps)) = [1; 1] /\ matrices v = [2; 1].
Proof.
  exists demo_header, [(oem_meta [] [], [], [demo_state "2004-01-02" [1]%Z], [demo_cov "2004-01-01" 5]);
                       (oem_meta ["x"] [], [], [demo_state "2004-01-03" [1; 2; 3]%Z], [demo_cov "2004-01-01" 5])].
  do 2 eexists. split; [met|]. split; [eapply allb; [apply oem_segment_okb_spec|by_compute]|]. split; [by_compute|]. split; [by_compute|].
  split; [|split; by_compute]. intros H. apply (f_equal matrices) in H. vm_compute in H. discriminate.
Qed.
Print Assumptions C30_extra_matrix_refuted.
(* Two comments of a data block make the reader see two segments. *)
Theorem C30_two_comments_refuted : exists header p t v,
  section "NdmHeader" header /\ (let '(md, cs, states, covs) := p in
    section "OemMetadata" md /\ Forall good_text cs /\ states <> [] /\ Forall good_state states /\ Forall good_cov covs) /\
  kvn_to_string demo_env (oem_message header [oem_segment p]) = Ok t /\
  kvn_from_string demo_env t = Ok v /\ v <> oem_message header [oem_segment p] /\ List.length (matrices v) = 2.
Proof.
  exists demo_header, (oem_meta [] [], [lit "a"; lit "b"], [demo_state "2004-01-02" [1]%Z], [demo_cov "2004-01-01" 5]).
  do 2 eexists. split; [met|]. split.
  { split; [met|]. split; [eapply allb; [apply good_textb_spec|by_compute]|]. split; [discriminate|].
    split; [eapply allb; [apply good_stateb_spec|by_compute]|eapply allb; [apply good_covb_spec|by_compute]]. }
  split; [by_compute|]. split; [by_compute|]. split; [|by_compute]. intros H. apply (f_equal matrices) in H. vm_compute in H. discriminate.
Qed.
Print Assumptions C30_two_comments_refuted.

(* Components of a state vector and of a matrix by name. *)
Definition component (n : string) (v : pyval) : pyval := match v with VObj _ vars => match assoc n vars with Some x => x | None => VNone end | _ => VNone end.
Definition first_state (v : pyval) : pyval :=
  match v with VObj _ [_; (_, VObj _ [(_, VList (VObj _ [_; (_, VObj _ [_; (_, VList (s :: _)); _])] :: _))])] => s | _ => VNone end.
Definition state_message (states covs : list pyval) : pyval :=
  oem_message demo_header [VObj "OemSegment" [("metadata", oem_meta [] []);
    ("data", VObj "OemData" [("comment", VList []); ("state_vector", VList states); ("covariance_matrix", VList covs)])]].
(* a state vector whose components are numbers with or without units, or absent *)
Definition state_with (xs : list (string * pyval)) : pyval :=
  VObj "StateVectorAccType" (("epoch", VStr (lit "2004-01-02")) ::
    map (fun nc => (fst nc, match assoc (fst nc) xs with Some v => v | None => VNone end)) state_columns).
Definition quantity (c : string) (z : Z) (un : pyval) : pyval := VObj c [("value", VDec (tenths z)); ("units", un)].
Definition km : pyval := VEnum "PositionUnits" "KM" (lit "km").
(* Units of the components are not written. *)
Theorem C30_units_refuted : exists t v,
  wf_vars (fields_of "StateVectorAccType") (vars_part (state_with [("x", quantity "PositionType" 1 km)])) /\
  kvn_to_string demo_env (state_message [state_with [("x", quantity "PositionType" 1 km)]] []) = Ok t /\
  kvn_from_string demo_env t = Ok v /\
  component "x" (first_state v) = quantity "PositionType" 1 VNone.
Proof. do 2 eexists. split; [apply wf_varsb_spec; by_compute|]. split; [by_compute|]. split; by_compute. Qed.
Print Assumptions C30_units_refuted.
(* An absent component before a present one: the later ones take its place. *)
Theorem C30_gap_refuted : exists t v,
  wf_vars (fields_of "StateVectorAccType") (vars_part (state_with [("x", quantity "PositionType" 1 VNone); ("z", quantity "PositionType" 3 VNone)])) /\
  kvn_to_string demo_env (state_message [state_with [("x", quantity "PositionType" 1 VNone); ("z", quantity "PositionType" 3 VNone)]] []) = Ok t /\
  kvn_from_string demo_env t = Ok v /\
  component "y" (first_state v) = quantity "PositionType" 3 VNone /\ component "z" (first_state v) = VNone.
Proof. do 2 eexists. split; [apply wf_varsb_spec; by_compute|]. split; [by_compute|]. split; [by_compute|]. split; by_compute. Qed.
Print Assumptions C30_gap_refuted.
(* The comment of a covariance matrix is written under the keyword COVARIANCE_MATRIX, and the matrix is not read back. *)
Definition commented_cov : pyval :=
  match oem_cov (demo_cov "2004-01-01" 5) with VObj c ((n, _) :: r) => VObj c ((n, VList [VStr (lit "note")]) :: r) | v => v end.
Theorem C30_matrix_comment_refuted : exists t v,
  wf_vars (fields_of "OemCovarianceMatrixType") (vars_part commented_cov) /\
  kvn_to_string demo_env (state_message [oem_state (demo_state "2004-01-02" [1]%Z)] [commented_cov]) = Ok t /\
  kvn_from_string demo_env t = Ok v /\ matrices v = [0].
Proof. do 2 eexists. split; [apply wf_varsb_spec; by_compute|]. split; [by_compute|]. split; by_compute. Qed.
Print Assumptions C30_matrix_comment_refuted.
