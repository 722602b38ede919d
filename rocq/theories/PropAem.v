(* Properties C36 and C44 for attitude ephemeris messages. *)
From Coq Require Import NArith ZArith List Bool String Arith Lia.
From Verif Require Import PyStr PyDec PyVal Schema KvnPre KvnTree KvnSeg XmlBind KvnBuild NdmXml KvnWrite
     Spec SpecKvn SpecObj SpecMsg SpecDoc StrFacts DecFacts PreFacts SegFacts BuildFacts WriteFacts ParseFacts ShiftFacts
     ReadFacts ComposeFacts MsgFacts PropWrite CoreFacts UserFacts DataFacts SingleFacts ListFacts RelFacts SegListFacts
     CheckFacts Demo PropFind PropRound PropCdm GapFacts SpecEph SpecAem EphText EphFacts OemFacts AemTree AemState AemFacts DocFacts CheckEph PropOem PropOemDoc SayFacts PropText.
Import ListNotations.
Local Open Scope string_scope.
Local Open Scope list_scope.
Local Arguments find_class : simpl never.
Local Arguments lit : simpl never.

(* ---- reading documents ---- *)
Section Doc.
Variable u : env.
Lemma att_item k s r : attitude_text k s r -> aline k [s] r /\ item_ok (Bare s).
Proof.
  intros [Tr [Ne [Sp [D [Ty [ts [extra [C [L F]]]]]]]]]. split.
  - assert (X : exists ds, Forall2 number_text ts ds /\ snd r = map expanded ds).
    { clear - F. induction F as [|t d ts ds [d0 [H ->]] _ [ds0 [I1 I2]]]; [exists []; split; constructor|]. exists (d0 :: ds0). cbn [map]. split; [constructor; assumption|congruence]. }
    destruct X as [ds [X1 X2]]. exists s, ts, extra, ds. auto 12.
  - destruct (columned_first _ _ _ C Tr) as [s' E]. destruct (date_head _ D) as [c [e [Ee Hc]]]. rewrite Ee in E. cbn [app] in E.
    split; [rewrite E; discriminate|]. split; [exact Tr|]. split; [exact Ne|].
    rewrite E. intros [x B]. injection B as B _. subst c. discriminate Hc.
Qed.
Lemma att_items k ss rs : Forall2 (attitude_text k) ss rs -> Forall2 (aline k) (map item_line (map Bare ss)) rs /\ Forall item_ok (map Bare ss).
Proof. induction 1 as [|s r ss rs H _ [I1 I2]]; [split; constructor|]. destruct (att_item k s r H). cbn [map]. split; constructor; assumption. Qed.
Lemma aem_marker s : In s [lit "META_START"; lit "META_STOP"; lit "DATA_START"; lit "DATA_STOP"] -> item_ok (Bare s) /\ delete_keywords "Aem" [[s]] = [].
Proof.
  intros H. repeat (destruct H as [<-|H]; [split; [split; [discriminate|split; [apply trimmedb_spec; reflexivity|split; [apply no_charb_spec; reflexivity|apply startswith_false; reflexivity]]]|reflexivity]|]).
  destruct H.
Qed.
Section Shape.
Variables hdr body seg meta data : elem.
Hypothesis Sp : aem_shape hdr body seg meta data.
Lemma aem_item p l : aem_part_ok p -> aem_said p l ->
  exists q, fst q = p /\ apart_ok q /\ Forall item_ok l /\ delete_keywords "Aem" (map item_line l) = alines q.
Proof.
  destruct p as [[[md k] cs] rs]. intros P [ss [F ->]]. destruct (att_items k ss rs F) as [S1 S2]. pose proof P as [Sm [_ [G _]]]. destruct (comment_items_ok cs G) as [G1 G2].
  exists ((md, k, cs, rs), map item_line (map Bare ss)). split; [reflexivity|]. assert (Q : apart_ok ((md, k, cs, rs), map item_line (map Bare ss))) by (split; assumption). split; [exact Q|].
  destruct (section_items_ok u "AemMetadata" md ltac:(vm_compute; reflexivity) Sm) as [M1 M2].
  destruct (aem_marker (lit "META_START")) as [A1 A2]; [cbn; tauto|]. destruct (aem_marker (lit "META_STOP")) as [B1 B2]; [cbn; tauto|].
  destruct (aem_marker (lit "DATA_START")) as [C1 C2]; [cbn; tauto|]. destruct (aem_marker (lit "DATA_STOP")) as [D1 D2]; [cbn; tauto|]. split.
  - repeat (apply Forall_app; split); try assumption; repeat (constructor; try assumption).
  - rewrite !map_app, M2, G2.
    replace (map item_line [Bare (lit "META_STOP"); Bare (lit "DATA_START")]) with ([[lit "META_STOP"]] ++ [[lit "DATA_START"]]) by reflexivity.
    replace (map item_line [Bare (lit "META_START")]) with [[lit "META_START"]] by reflexivity.
    replace (map item_line [Bare (lit "DATA_STOP")]) with [[lit "DATA_STOP"]] by reflexivity.
    unfold delete_keywords in *. rewrite !filter_app. fold (delete_keywords "Aem" [[lit "META_START"]]) in *.
    change (@filter (list str)) with (@filter line) in *. rewrite B2, C2, D2. unfold delete_keywords in *. rewrite A2. cbn [app]. rewrite app_nil_r, <- !filter_app.
    apply (akept hdr body seg meta data Sp). intros w Hw.
    destruct (alines_keys u hdr body seg meta data Sp _ w Q Hw) as [E|[E|E]]; auto.
Qed.
Lemma aem_items ps ls : Forall aem_part_ok ps -> Forall2 aem_said ps ls ->
  exists qs, map fst qs = ps /\ Forall apart_ok qs /\ Forall item_ok (List.concat ls) /\
  delete_keywords "Aem" (map item_line (List.concat ls)) = alater qs.
Proof.
  intros O F. induction F as [|p l ps ls H _ IH]; [exists []; repeat split; constructor|].
  inversion O; subst. destruct (aem_item p l) as [q [<- [Q1 [Q2 Q3]]]]; try assumption. destruct IH as [qs [<- [I1 [I2 I3]]]]; [assumption|].
  exists (q :: qs). cbn [map List.concat alater flat_map]. split; [reflexivity|]. split; [constructor; assumption|].
  split; [apply Forall_app; auto|]. rewrite map_app. unfold delete_keywords in *. rewrite filter_app, Q3, I3. reflexivity.
Qed.
End Shape.
End Doc.

(* A document that says the header, and segment by segment the metadata and the attitude states of an AEM, in any spacing,
   reads as that AEM: columns are assigned by QUATERNION_TYPE and EULER_ROT_SEQ, numbers lose their positive exponents, and
   further columns are ignored.  Partial: not the SPIN types, and only segments that the reader can tell apart. *)
Theorem C36_aem_document_partial : forall u header ps ls raws,
  section "NdmHeader" header -> ps <> [] -> Forall aem_part_ok ps -> aem_apart ps -> Forall2 aem_said ps ls ->
  document (first_item "CCSDS_AEM_VERS" "1.0" :: section_items header ++ List.concat ls) raws -> Forall one_line raws ->
  kvn_from_string u (text_of raws) = Ok (aem_message header (map aem_segment ps)).
Proof.
  intros u header ps ls raws Sh Ne O A F D Ol. destruct aem_shape_ok as [hdr [body [seg [meta [data Sp]]]]].
  destruct (aem_items u hdr body seg meta data Sp ps ls O F) as [qs [<- [F1 [F2 F3]]]].
  assert (Nq : qs <> []) by (intros ->; exact (Ne eq_refl)).
  pose proof (aem_subs u hdr body seg meta data Sp header qs (head_lines "Aem") Sh Nq F1 A) as X.
  destruct (section_items_ok u "NdmHeader" header ltac:(vm_compute; reflexivity) Sh) as [H1 H2].
  unfold aem_message. rewrite !map_map in *.
  eapply document_read with (items := section_items header ++ List.concat ls); try reflexivity; try eassumption.
  - destruct Sp as [[Hc _] _]. exact Hc.
  - apply Forall_app. auto.
  - rewrite map_app, H2. unfold delete_keywords. rewrite filter_app. fold (delete_keywords "Aem" (sec_lines header)).
    fold (delete_keywords "Aem" (map item_line (List.concat ls))). rewrite F3.
    rewrite (akept hdr body seg meta data Sp); [exact X|]. intros k Hk. destruct Sp as [_ [[Xh _] [_ [_ [_ [[Ch _] _]]]]]].
    destruct (sec_elem_spec hdr Xh) as [Lh _]. rewrite <- Ch in Sh. destruct (section_keys_incl u hdr header Lh (or_intror Sh) k Hk); auto.
  - discriminate.
  - destruct Sp as [_ [_ [_ [_ [_ [_ [V _]]]]]]]. rewrite V. reflexivity.
Qed.
Print Assumptions C36_aem_document_partial.

(* ---- writing ---- *)
Definition kw_quat : str := lit "QUATERNION_TYPE".
Definition scalar_last (o : place) : bool := match o with Last => true | First => false end.
(* the columns that the writer uses after the lines [out] *)
Definition ready (k : kind) (out : list str) : Prop :=
  match k with Quat o | QuatDeriv o | QuatRate o _ => quat_is_last out = Ok (scalar_last o) | _ => True end.
Lemma find_skip {A} (f : A -> bool) a b : Forall (fun x => f x = false) a -> find f (a ++ b) = find f b.
Proof. induction 1 as [|x a H _ IH]; [reflexivity|]. cbn [app find]. rewrite H. exact IH. Qed.
Lemma quat_kept out raws : Forall (fun x => startswith kw_quat x = false) raws -> quat_is_last (out ++ raws) = quat_is_last out.
Proof. intros F. unfold quat_is_last. rewrite rev_app_distr, find_skip; [reflexivity|]. apply Forall_rev. exact F. Qed.
Lemma ready_kept k out raws : ready k out -> Forall (fun x => startswith kw_quat x = false) raws -> ready k (out ++ raws).
Proof. intros R F. destruct k; cbn [ready] in *; try exact I; rewrite quat_kept; assumption. Qed.
Lemma kw_quat_stop c : is_ws c = true \/ c = c_eq -> no_char c kw_quat.
Proof. intros [H| ->]; [|apply no_charb_spec; reflexivity]. intros I. repeat (destruct I as [<-|I]; [discriminate H|]). destruct I. Qed.
Lemma blank_quat w : blank w -> startswith kw_quat w = false.
Proof. intros B. destruct w as [|c w]; [reflexivity|]. apply startswith_false. intros [r E]. injection E as -> _. apply blank_inv in B. destruct B as [B _]. discriminate. Qed.
Lemma spelled_quat k t un raw : spelled (k, t, un) raw -> startswith kw_quat raw = startswith kw_quat k.
Proof.
  assert (P : forall w r, blank w -> startswith kw_quat (k ++ w ++ c_eq :: r) = startswith kw_quat k).
  { intros w r B. destruct w as [|c w]; cbn [app]; apply startswith_app_stop, kw_quat_stop; [right; reflexivity|left]. apply blank_inv in B. exact (proj1 B). }
  intros H. inversion H; subst; cbn [app]; apply P; assumption.
Qed.
Lemma same_entry k t1 un1 t2 un2 : forall es, k <> kw_comment -> In (k, t1, un1) es -> In (k, t2, un2) es ->
  NoDup (filter (fun x => negb (str_eqb x kw_comment)) (keys_of (map line_of es))) -> (t1, un1) = (t2, un2).
Proof.
  intros es Nc. induction es as [|e es IH]; intros H1 H2 Nd; [destruct H1|]. cbn [map keys_of] in Nd. fold (keys_of (map line_of es)) in Nd. cbn [filter] in Nd.
  assert (Ik : forall t un, In (k, t, un) es -> In k (filter (fun x => negb (str_eqb x kw_comment)) (keys_of (map line_of es)))).
  { intros t un H. apply filter_In. split; [rewrite <- (key_line_of k t un); apply in_map, in_map; exact H|]. rewrite (proj2 (str_eqb_neq k kw_comment) Nc). reflexivity. }
  destruct H1 as [->|H1], H2 as [E|H2].
  - congruence.
  - exfalso. rewrite key_line_of, (proj2 (str_eqb_neq k kw_comment) Nc) in Nd. cbn [negb] in Nd. apply NoDup_cons_iff in Nd. apply Nd. exact (Ik _ _ H2).
  - exfalso. subst e. rewrite key_line_of, (proj2 (str_eqb_neq k kw_comment) Nc) in Nd. cbn [negb] in Nd. apply NoDup_cons_iff in Nd. apply Nd. exact (Ik _ _ H1).
  - apply IH; try assumption. destruct (negb _); [apply NoDup_cons_iff in Nd; apply Nd|exact Nd].
Qed.
Lemma Forall2_in_r {A B} (R : A -> B -> Prop) l1 l2 b : Forall2 R l1 l2 -> In b l2 -> exists a, In a l1 /\ R a b.
Proof. induction 1 as [|x y l1 l2 H _ IH]; intros I; [destruct I|]. destruct I as [<-|I]; [exists x; split; [left; reflexivity|exact H]|]. destruct (IH I) as [a [I1 I2]]. exists a. split; [right; exact I1|exact I2]. Qed.
Lemma quat_line o w : blank w -> startswith (lit "LAST") (strip (last (split_on c_eq (kw_quat ++ w ++ [c_eq; c_sp] ++ lit (place_text o))) [])) = scalar_last o.
Proof.
  intros B. cbn [app]. rewrite app_assoc, split_on_app.
  - destruct o; vm_compute; reflexivity.
  - apply no_char_app. split; [apply kw_quat_stop; right; reflexivity|]. intros I. apply B in I. discriminate.
Qed.
Lemma meta_quat u md o : section "AemMetadata" md -> In (Say (kw_quat, lit (place_text o), [])) (section_items md) ->
  forall out raws, collate_sub u "metadata" md out = Ok (out ++ raws) -> quat_is_last (out ++ raws) = Ok (scalar_last o).
Proof.
  intros [vars [-> [W _]]] H out raws E. assert (Lc : leaf_class "AemMetadata" = true) by (vm_compute; reflexivity).
  destruct (section_keys u "AemMetadata" vars Lc W) as [n [ks [Ek [D [Inc _]]]]]. cbn [section_items sec_lines] in *.
  apply in_map_iff in H. destruct H as [e [He H]]. injection He as ->.
  assert (K : forall k t un, In (k, t, un) (entries (fields_of "AemMetadata") vars) -> startswith kw_quat k = true -> (k, t, un) = (kw_quat, lit (place_text o), [])).
  { intros k t un I Hk. assert (Ik : In k (keys_of (map line_of (entries (fields_of "AemMetadata") vars)))) by (rewrite <- (key_line_of k t un); apply in_map, in_map; exact I).
    assert (Eq : k = kw_quat).
    { rewrite Ek in Ik. apply in_app_or in Ik. destruct Ik as [Ik|Ik]; [apply repeat_spec in Ik; subst k; discriminate|]. apply Inc in Ik.
      assert (C : forallb (fun k => negb (startswith kw_quat k) || str_eqb k kw_quat) (map (fun f => lit (kw_of f)) (fields_of "AemMetadata")) = true) by (vm_compute; reflexivity).
      rewrite forallb_forall in C. specialize (C k Ik). cbn beta in C. rewrite Hk in C. cbn [negb orb] in C. apply str_eqb_eq in C. exact C. }
    subst k. assert (X : (t, un) = (lit (place_text o), [])).
    { apply (same_entry kw_quat t un (lit (place_text o)) [] _ ltac:(discriminate) I H). rewrite Ek, filter_app.
      replace (filter _ (repeat kw_comment n)) with (@nil str) by (clear; induction n as [|n IH]; [reflexivity|]; cbn [repeat filter]; rewrite str_eqb_refl; exact IH).
      cbn [app]. apply NoDup_filter. exact D. }
    revert X. clear. intros X. injection X as -> ->. reflexivity. }
  rewrite sub_obj in E; [|discriminate|discriminate|rewrite (wf_vars_names _ _ W); vm_compute; reflexivity|reflexivity].
  assert (Fs : forallb kw_field_ok (fields_of "AemMetadata") = true) by (vm_compute; reflexivity).
  destruct (vars_spelled u _ _ Fs W (out ++ hdr_lines "AemMetadata" true)) as [rs [E1 F]]. rewrite E1 in E. cbn [bind] in E.
  destruct (says_close "metadata" vars ((out ++ hdr_lines "AemMetadata" true) ++ rs)) as [ws [E2 [B _]]]. rewrite E2 in E.
  injection E as E. rewrite <- E. rewrite <- !app_assoc. rewrite !app_assoc. rewrite quat_kept by (repeat constructor). rewrite quat_kept.
  2:{ eapply Forall_impl; [|exact B]. exact blank_quat. }
  unfold quat_is_last. rewrite rev_app_distr.
  assert (X : exists y, find (startswith kw_quat) (rev rs) = Some y).
  { destruct (find (startswith kw_quat) (rev rs)) as [y|] eqn:X; [eauto|]. exfalso. destruct (Forall2_in_l _ _ _ _ F H) as [raw [Ir Hr]].
    apply find_none with (x := raw) in X; [|apply in_rev in Ir; exact Ir]. rewrite (spelled_quat _ _ _ _ Hr) in X. discriminate. }
  destruct X as [y X]. replace (find (startswith (lit "QUATERNION_TYPE")) (rev rs ++ rev (out ++ hdr_lines "AemMetadata" true))) with (Some y).
  2:{ symmetry. clear - X. induction (rev rs) as [|a l IH]; [discriminate|]. cbn [app find] in *. unfold kw_quat in X. destruct (startswith (lit "QUATERNION_TYPE") a); [exact X|]. apply IH. exact X. }
  apply find_some in X. destruct X as [Iy Hy]. apply in_rev in Iy. destruct (Forall2_in_r _ _ _ _ F Iy) as [[[k t] un] [Ie He]].
  rewrite (spelled_quat _ _ _ _ He) in Hy. pose proof (K _ _ _ Ie Hy) as Q. injection Q as -> -> ->. cbn [guard_opt bind]. f_equal.
  inversion He; subst; [|congruence]. apply quat_line. assumption.
Qed.

Local Arguments show_dec : simpl never.
Local Arguments join : simpl never.
Local Arguments quat_is_last : simpl never.
Local Arguments fill_out_single_line : simpl never.
Lemma write_attitude u k r out : writable k -> plain_attitude k r -> ready k out ->
  write_item u "attitude_state" (attitude k r) out = Ok (out ++ [state_line r]).
Proof.
  destruct r as [e xs]. intros W [G [_ L]] R. cbn [fst snd] in *.
  assert (Ee : forall l, fill_out_single_line (e :: l) = Ok (join gap (e :: l))).
  { intros l. unfold fill_out_single_line. destruct (str_eqb e [c_nl]) eqn:X; [|reflexivity]. apply str_eqb_eq in X. subst e. destruct G as [_ [_ [O _]]]. exfalso. apply O. left. reflexivity. }
  assert (P : forall c vars ls, attitude_line vars out = Ok ls -> c = "AttitudeStateType" ->
    write_item u "attitude_state" (VObj c vars) out = Ok (out ++ ls)).
  { intros c vars ls H ->. unfold write_item. replace (mem_string "AttitudeStateType" special_output_data_classes) with true by reflexivity.
    unfold special_data_lines. cbn [String.eqb Ascii.eqb Bool.eqb]. rewrite H. reflexivity. }
  destruct k as [o|o|o s|s|s]; [|destruct W| | |]; cbn [width] in L;
    repeat (destruct xs as [|? xs]; [discriminate|]; cbn [List.length] in L; apply eq_add_S in L); (destruct xs; [|discriminate]); clear L;
    try (destruct s as [[a b] c]); cbn [attitude snd fst]; unfold one_state; (apply P; [|reflexivity]); unfold attitude_line, state_line; cbn [ready] in R;
    cbn [map state_names String.eqb Ascii.eqb Bool.eqb snd fst filter truthy quaternion rates angles].
  - destruct o; cbn [quaternion map_res py_vars snd fst filter String.eqb Ascii.eqb Bool.eqb negb bind map_res py_vars];
      replace (startswith (lit "Quaternion") (lit "QuaternionEphemerisType")) with true by reflexivity; rewrite R; cbn; rewrite Ee; reflexivity.
  - destruct o; cbn [quaternion map_res py_vars snd fst filter String.eqb Ascii.eqb Bool.eqb negb bind map_res py_vars];
      replace (startswith (lit "Quaternion") (lit "QuaternionEulerRateType")) with true by reflexivity; rewrite R; cbn; rewrite Ee; reflexivity.
  - replace (startswith (lit "Quaternion") (lit "EulerAngleType")) with false by reflexivity. cbn. rewrite Ee. reflexivity.
  - replace (startswith (lit "Quaternion") (lit "EulerAngleRateType")) with false by reflexivity. cbn. rewrite Ee. reflexivity.
Qed.
Lemma state_line_one k r : plain_attitude k r -> one_line (state_line r) /\ startswith kw_quat (state_line r) = false.
Proof.
  destruct r as [e xs]. intros [[Ne [_ [O _]]] [Nq _]]. cbn [fst snd] in *. unfold state_line. cbn [fst snd].
  split.
  { apply join_no_char; [discriminate|]. constructor; [exact O|]. apply Forall_map. apply Forall_forall. intros d _. apply numtext_no_char; [reflexivity|apply numtext_show_dec]. }
  destruct xs as [|d l]; [apply startswith_false; exact Nq|]. cbn [map].
  change (join gap (e :: show_dec d :: map show_dec l)) with (e ++ c_sp :: c_sp :: join gap (show_dec d :: map show_dec l)).
  rewrite startswith_app_stop by (apply kw_quat_stop; left; reflexivity). apply startswith_false. exact Nq.
Qed.
Lemma write_attitudes u k rs : writable k -> Forall (plain_attitude k) rs -> forall out, ready k out ->
  write_items u "attitude_state" (map (attitude k) rs) out = Ok (out ++ map state_line rs).
Proof.
  intros W F. induction F as [|r rs P _ IH]; intros out R; [rewrite app_nil_r; reflexivity|]. cbn [map write_items].
  rewrite (write_attitude u k r out W P R). cbn [bind]. rewrite IH, <- app_assoc; [reflexivity|]. apply ready_kept; [exact R|]. constructor; [|constructor].
  apply (state_line_one k r P).
Qed.
Lemma says_aem_segment u p : aem_plain p -> says (write_item u "segment" (aem_segment p)) (aem_written p).
Proof.
  destruct p as [[[md k] cs] rs]. intros [Sm [D [G [W F]]]]. cbn [aem_segment aem_written].
  match goal with |- says _ (?a ++ ?b ++ [?c; ?c2] ++ ?r) => replace (a ++ b ++ [c; c2] ++ r) with ((a ++ b ++ [c]) ++ [c2] ++ r) by (rewrite <- !app_assoc; reflexivity) end.
  apply says_item_obj; [reflexivity|]. intros out.
  destruct (says_section u "metadata" "AemMetadata" md ltac:(computed) ltac:(key_ok) Sm out) as [r1 [E1 [O1 D1]]].
  assert (R : ready k (out ++ r1)).
  { destruct k as [o|o|o s|s|s]; cbn [ready]; try exact I; apply (meta_quat u md o Sm); try exact E1; apply (D (kw_quat, lit (place_text o), [])); cbn; auto. }
  set (r2 := map (fun t => fill_kvn u (lit "comment") t []) cs). 
  assert (R2 : ready k (((out ++ r1) ++ hdr_lines "AemData" true) ++ r2)).
  { apply ready_kept; [apply ready_kept; [exact R|repeat constructor]|]. apply Forall_map. apply Forall_forall. intros t _. reflexivity. }
  assert (E2 : collate_vars (collate_sub u) [("comment", VList (texts cs)); ("attitude_state", VList (map (attitude k) rs))] ((out ++ r1) ++ hdr_lines "AemData" true) =
    Ok (((out ++ r1) ++ hdr_lines "AemData" true) ++ r2 ++ map state_line rs)).
  { cbn [collate_vars]. unfold texts. rewrite sub_comments. fold r2. rewrite sub_list by discriminate.
    assert (Lh : forall b, list_hdr (map (attitude k) rs) b = []).
    { intros b. destruct F as [|[e xs] rs [_ [_ L]] _]; [reflexivity|]. cbn [map]. cbn [snd] in L.
      destruct k; cbn [width] in L; repeat (destruct xs as [|? xs]; [discriminate|]; cbn [List.length] in L; apply eq_add_S in L); (destruct xs; [|discriminate]); reflexivity. }
    rewrite !Lh, app_nil_r. rewrite write_attitudes by assumption. cbn [bind]. rewrite app_nil_r, <- !app_assoc. reflexivity. }
  destruct (says_close "data" [("comment", VList (texts cs)); ("attitude_state", VList (map (attitude k) rs))] (((out ++ r1) ++ hdr_lines "AemData" true) ++ r2 ++ map state_line rs)) as [ws [E3 [B Ow]]].
  exists (r1 ++ hdr_lines "AemData" true ++ (r2 ++ map state_line rs) ++ ws ++ hdr_lines "AemData" false). split; [|split].
  - cbn [collate_vars]. rewrite E1. rewrite sub_obj; [|discriminate|discriminate|reflexivity|reflexivity].
    rewrite E2. cbn [bind]. rewrite E3. rewrite <- !app_assoc. reflexivity.
  - repeat (apply Forall_app; split); try assumption; try apply hdr_lines_lex.
    + destruct (says_comments u cs G out) as [r2' [E2' [O2 _]]]. unfold texts in E2'. rewrite sub_comments in E2'. injection E2' as E2'. apply app_inv_head in E2'. subst r2'. exact O2.
    + apply Forall_map. eapply Forall_impl; [|exact F]. intros r P. apply (state_line_one k r P).
  - apply document_app; [exact D1|].
    match goal with |- document ([?x] ++ ?a ++ ?b ++ [?y]) _ => change [x] with (marker_items "AemData" true); change [y] with (marker_items "AemData" false); rewrite (app_assoc a b) end.
    apply document_app; [apply hdr_document|]. rewrite (app_assoc (r2 ++ map state_line rs) ws). apply document_app; [|apply hdr_document].
    apply document_blanks; [exact B|]. apply document_app.
    + destruct (says_comments u cs G out) as [r2' [E2' [_ D2]]]. unfold texts in E2'. rewrite sub_comments in E2'. injection E2' as E2'. apply app_inv_head in E2'. subst r2'. exact D2.
    + unfold spaced_out. rewrite <- (map_map (fun r => state_line r) Bare). apply bares_document.
Qed.
(* META_START, metadata, META_STOP, and one line for each attitude state between DATA_START and DATA_STOP: the epoch and
   the columns in the order that the metadata declares *)
Theorem C44_aem_text : forall u header ps, section "NdmHeader" header -> Forall aem_plain ps ->
  exists raws, kvn_to_string u (aem_message header (map aem_segment ps)) = Ok (text_of raws) /\ Forall one_line raws /\
    document (first_item "CCSDS_AEM_VERS" "1.0" :: section_items header ++ flat_map aem_written ps) raws.
Proof.
  intros u header ps Sh F. apply (says_message u "Aem"); [cbn [In root_classes]; tauto|computed|computed|computed|computed|].
  apply says_cons; [apply (says_opt u _ "NdmHeader"); [computed|computed|key_ok|right; exact Sh]|]. apply says_one.
  apply says_node; [key_ok|computed|reflexivity|]. apply says_one. rewrite flat_map_concat_map.
  pose proof (says_list u "segment" (map aem_segment ps) (map aem_written ps) ltac:(key_ok)) as X.
  replace (list_marker_items (map aem_segment ps) true) with (@nil item) in X by (destruct ps as [|[[[]]]]; reflexivity).
  replace (list_marker_items (map aem_segment ps) false) with (@nil item) in X by (destruct ps as [|[[[]]]]; reflexivity).
  rewrite app_nil_r in X. apply X. clear X. induction F as [|p ps P _ IH]; [constructor|]. cbn [map]. constructor; [apply says_aem_segment; exact P|exact IH].
Qed.
Print Assumptions C44_aem_text.

(* ---- round trip ---- *)
Lemma settled_expanded d : settled d -> expanded d = d.
Proof. destruct d as [n c [|e|e]| |]; try reflexivity. cbn. lia. Qed.
Lemma attitude_written k r : good_attitude k r -> attitude_text k (state_line r) (fst r, map expanded (snd r)).
Proof.
  intros [D [Ty [L C]]]. pose proof (numbers_ok _ C) as F. destruct (numbers_words _ _ F) as [W E].
  assert (W1 : Forall word (fst r :: map show_dec (snd r))) by (constructor; [apply D|exact W]).
  split; [apply join_trimmed; exact W1|]. split; [apply join_no_char; [discriminate|constructor; [apply D|exact E]]|].
  split.
  { unfold state_line. destruct (snd r) as [|d ds]; [destruct k; discriminate L|]. cbn [map].
    change (join gap (fst r :: show_dec d :: map show_dec ds)) with (fst r ++ gap ++ join gap (show_dec d :: map show_dec ds)).
    apply in_or_app. right. left. reflexivity. }
  split; [exact D|]. split; [exact Ty|]. exists (map show_dec (snd r)), []. rewrite app_nil_r. split; [apply columned_join; exact W1|].
  split; [rewrite map_length; exact L|]. cbn [snd]. clear - C. induction C as [|d ds Cd _ IH]; [constructor|]. cbn [map]. constructor; [|exact IH].
  exists d. split; [apply show_dec_number; exact Cd|reflexivity].
Qed.
Lemma aem_ok_plain p : aem_segment_ok p -> aem_plain p.
Proof.
  destruct p as [[[md k] cs] rs]. intros [[Sm [D [G _]]] [W F]]. split; [exact Sm|]. split; [exact D|]. split; [exact G|]. split; [exact W|].
  eapply Forall_impl; [|exact F]. intros [e xs] [De [_ [L _]]]. split; [apply De|]. split; [|exact L]. cbn [fst] in *.
  intros [r E]. destruct (date_head _ De) as [c [x [E2 Hc]]]. rewrite E2 in E. injection E as -> _. discriminate.
Qed.
Lemma aem_written_said p : aem_segment_ok p -> aem_said (aem_expanded p) (aem_written p).
Proof.
  destruct p as [[[md k] cs] rs]. intros [_ [_ F]]. exists (map state_line rs). split; [|cbn [aem_written]; rewrite map_map; reflexivity].
  induction F as [|r rs H _ IH]; [constructor|]. cbn [map]. constructor; [apply attitude_written; exact H|exact IH].
Qed.
Lemma aem_expanded_ok p : aem_part_ok p -> aem_part_ok (aem_expanded p).
Proof.
  destruct p as [[[md k] cs] rs]. intros [A [B [C [D E]]]]. split; [exact A|]. split; [exact B|]. split; [exact C|]. split; [exact D|]. destruct rs; [congruence|discriminate].
Qed.
Lemma aem_expanded_apart ps : aem_apart ps -> aem_apart (map aem_expanded ps).
Proof.
  induction ps as [|[[[md k] cs] rs] ps IH]; [trivial|]. intros [A B]. cbn [map aem_expanded aem_apart]. split; [|apply IH; exact B].
  destruct A as [A|A]; [left; exact A|right]. intros md' k' cs' rs' H. apply in_map_iff in H. destruct H as [[[[md0 k0] cs0] rs0] [E H]].
  cbn [aem_expanded] in E. apply (f_equal (fun x => fst (fst (fst x)))) in E. cbn [fst] in E. subst md0. exact (A _ _ _ _ H).
Qed.
(* Writing an AEM and reading the text gives the message back with its numbers written out, for the attitude types
   QUATERNION, QUATERNION/RATE, EULER_ANGLE and EULER_ANGLE/RATE, epochs that do not contain "Type", and segments that the
   reader can tell apart.  Each of the conditions is needed, see below. *)
Theorem C36_aem_round_trip_partial : forall u header ps, section "NdmHeader" header -> ps <> [] ->
  Forall aem_segment_ok ps -> aem_apart ps ->
  exists t, kvn_to_string u (aem_message header (map aem_segment ps)) = Ok t /\
            kvn_from_string u t = Ok (aem_message header (map aem_segment (map aem_expanded ps))).
Proof.
  intros u header ps Sh Ne F A. destruct (C44_aem_text u header ps Sh) as [raws [E [O D]]].
  { eapply Forall_impl; [|exact F]. exact aem_ok_plain. }
  exists (text_of raws). split; [exact E|]. rewrite flat_map_concat_map in D. apply (C36_aem_document_partial u header (map aem_expanded ps) (map aem_written ps) raws); try assumption.
  - destruct ps; [congruence|discriminate].
  - apply Forall_map. eapply Forall_impl; [|exact F]. intros p P. apply aem_expanded_ok, P.
  - apply aem_expanded_apart. exact A.
  - clear - F. induction F as [|p ps P _ IH]; [constructor|]. cbn [map]. constructor; [apply aem_written_said; exact P|exact IH].
Qed.
Print Assumptions C36_aem_round_trip_partial.
(* If no number has a positive exponent, it is the same message. *)
Theorem C36_aem_kept_partial : forall u header ps, section "NdmHeader" header -> ps <> [] ->
  Forall aem_segment_ok ps -> Forall aem_settled ps -> aem_apart ps ->
  exists t, kvn_to_string u (aem_message header (map aem_segment ps)) = Ok t /\
            kvn_from_string u t = Ok (aem_message header (map aem_segment ps)).
Proof.
  intros u header ps Sh Ne F St A. destruct (C36_aem_round_trip_partial u header ps Sh Ne F A) as [t [W R]]. exists t. split; [exact W|]. rewrite R. do 2 f_equal.
  f_equal. rewrite <- (map_id ps) at 2. apply map_ext_in. intros p H. rewrite Forall_forall in St. apply St in H. destruct p as [[[md k] cs] rs]. cbn [aem_settled aem_expanded] in *.
  f_equal. rewrite <- (map_id rs) at 2. apply map_ext_in. intros [e ds] Hr. rewrite Forall_forall in H. apply H in Hr. cbn [fst snd] in *. f_equal.
  rewrite <- (map_id ds) at 2. apply map_ext_in. intros d Hd. rewrite Forall_forall in Hr. apply settled_expanded, Hr, Hd.
Qed.
Print Assumptions C36_aem_kept_partial.

(* ---- concrete messages ---- *)
Fixpoint withoutb (w s : str) : bool := negb (startswith w s) && match s with [] => true | _ :: r => withoutb w r end.
Lemma withoutb_spec w s : withoutb w s = true -> without w s.
Proof.
  induction s as [|c s IH]; cbn [withoutb]; intros H a b E; apply andb_true_iff in H; destruct H as [H1 H2]; apply negb_true_iff in H1; apply startswith_false in H1.
  - apply H1. destruct a as [|x a]; [exists b; exact E|discriminate].
  - destruct a as [|x a]; [apply H1; exists b; exact E|]. injection E as _ E. exact (IH H2 a b E).
Qed.
Definition good_attitudeb (k : kind) (r : record) : bool :=
  date_textb (fst r) && withoutb (lit "Type") (fst r) && Nat.eqb (List.length (snd r)) (width k) && forallb canonicalb (snd r).
Lemma good_attitudeb_spec k r : good_attitudeb k r = true -> good_attitude k r.
Proof.
  unfold good_attitudeb. intros H. do 3 (apply andb_true_iff in H; destruct H as [H ?]). split; [apply date_textb_spec; exact H|].
  split; [apply withoutb_spec; assumption|]. split; [apply Nat.eqb_eq; assumption|]. eapply allb; [|eassumption].
  intros d Hd. unfold canonicalb, canonical in *. destruct d as [| |? ? [p|]]; try exact I. all: destruct p; try discriminate; exact I.
Qed.
Definition entry_eqb (a b : entry) : bool := let '(k, t, un) := a in let '(k', t', un') := b in str_eqb k k' && str_eqb t t' && str_eqb un un'.
Definition declaresb (md : pyval) (k : kind) : bool :=
  forallb (fun e => existsb (fun i => match i with Say e' => entry_eqb e e' | Bare _ => false end) (section_items md)) (declared k).
Lemma declaresb_spec md k : declaresb md k = true -> declares md k.
Proof.
  unfold declaresb. intros H e He. rewrite forallb_forall in H. apply H in He. apply existsb_exists in He. destruct He as [[[[k' t'] un']|] [Hi E]]; [|discriminate].
  destruct e as [[k0 t] un]. cbn [entry_eqb] in E. do 2 (apply andb_true_iff in E; destruct E as [E ?]).
  repeat match goal with X : str_eqb _ _ = true |- _ => apply str_eqb_eq in X; subst end. exact Hi.
Qed.
Definition aem_part_okb (p : aem_part) : bool :=
  let '(md, k, cs, rs) := p in
  sectionb "AemMetadata" md && declaresb md k && forallb good_textb cs && Nat.leb (List.length cs) 1 && match rs with [] => false | _ => true end.
Lemma aem_part_okb_spec p : aem_part_okb p = true -> aem_part_ok p.
Proof.
  destruct p as [[[md k] cs] rs]. unfold aem_part_okb. intros H. do 4 (apply andb_true_iff in H; destruct H as [H ?]).
  split; [apply sectionb_spec; exact H|]. split; [apply declaresb_spec; assumption|]. split; [eapply allb; [apply good_textb_spec|assumption]|]. split; [apply Nat.leb_le; assumption|destruct rs; discriminate].
Qed.
Definition aem_segment_okb (p : aem_part) : bool :=
  aem_part_okb p && let '(_, k, _, rs) := p in match k with QuatDeriv _ => false | _ => true end && forallb (good_attitudeb k) rs.
Lemma aem_segment_okb_spec p : aem_segment_okb p = true -> aem_segment_ok p.
Proof.
  intros H. apply andb_true_iff in H. destruct H as [A B]. split; [apply aem_part_okb_spec; exact A|]. destruct p as [[[md k] cs] rs].
  apply andb_true_iff in B. destruct B as [B C]. split; [destruct k; [exact I|discriminate|exact I..]|]. eapply allb; [apply good_attitudeb_spec|exact C].
Qed.
Fixpoint aem_apartb (ps : list aem_part) : bool :=
  match ps with
  | [] => true
  | (md, _, cs, _) :: r => (match cs with [] => true | _ => false end || forallb (fun p => let '(md', _, _, _) := p in subsetsb md' md) r) && aem_apartb r
  end.
Lemma aem_apartb_spec ps : aem_apartb ps = true -> aem_apart ps.
Proof.
  induction ps as [|[[[md k] cs] rs] r IH]; intros H; [exact I|]. cbn [aem_apartb] in H. apply andb_true_iff in H. destruct H as [H H0]. split; [|apply IH; exact H0].
  apply orb_true_iff in H. destruct H as [H|H]; [left; destruct cs; [reflexivity|discriminate]|right].
  intros md' k' cs' rs' Hi. rewrite forallb_forall in H. specialize (H _ Hi). cbn beta iota in H. apply subsetsb_spec. exact H.
Qed.

Definition enum_named (c : string) (t : str) : pyval :=
  match find_class c with
  | Some (CEnum ms) => match find (fun m => str_eqb (lit (snd m)) t) ms with Some (m, v) => VEnum c m (lit v) | None => VNone end
  | _ => VNone
  end.
(* metadata that declares the attitude type k, with every other optional field but the named ones *)
Definition aem_meta (k : kind) (cs absent : list string) : pyval :=
  let value key := match find (fun e => str_eqb (fst (fst e)) (lit key)) (declared k) with Some (_, t, _) => t | None => [] end in
  match demo_but "AemMetadata" cs absent with
  | VObj c vars => VObj c (map (fun nv =>
      (fst nv, if String.eqb (fst nv) "attitude_type" then enum_named "AttitudeTypeType" (value "ATTITUDE_TYPE")
               else if String.eqb (fst nv) "quaternion_type" then enum_named "QuaternionTypeType" (value "QUATERNION_TYPE")
               else if String.eqb (fst nv) "euler_rot_seq" then enum_named "RotseqType" (value "EULER_ROT_SEQ")
               else snd nv)) vars)
  | v => v
  end.
Definition turn312 : turns := (AxisZ, AxisX, AxisY).
(* four segments, one of each type, with both orders of the quaternion, comments and large numbers *)
Definition demo_aem : list aem_part :=
  [(aem_meta (QuatRate Last turn312) ["m 1"; "m 2"] [], QuatRate Last turn312, [lit "d"],
    [(lit "2005-159T17:41:00", map tenths [1; 2; 3; 4; 5; 6; -7]%Z); (lit "2005-160", [DFin true 7 3; DInf false; tenths 0; tenths 1; tenths 2; tenths 3; tenths 4])]);
   (aem_meta (Quat First) ["n"] [], Quat First, [], [(lit "2005-159", map tenths [1; 2; 3; 4]%Z)]);
   (aem_meta (Euler turn312) [] ["rate_frame"], Euler turn312, [], [(lit "2005-159", map tenths [1; 2; 3]%Z)]);
   (aem_meta (EulerRate turn312) [] [], EulerRate turn312, [lit "e"], [(lit "2005-159", map tenths [1; 2; 3; 4; 5; 6]%Z)])].
Example C36_example : section "NdmHeader" demo_header /\ demo_aem <> [] /\ Forall aem_segment_ok demo_aem /\ aem_apart demo_aem /\ Forall aem_plain demo_aem /\
  Forall aem_settled (tl demo_aem).
Proof.
  assert (F : Forall aem_segment_ok demo_aem) by (eapply allb; [apply aem_segment_okb_spec|by_compute]).
  split; [met|]. split; [discriminate|]. split; [exact F|]. split; [apply aem_apartb_spec; by_compute|].
  split; [eapply Forall_impl; [|exact F]; exact aem_ok_plain|].
  repeat constructor; cbn; lia.
Qed.
(* the first attitude state of that message as read from its text: Q1 Q2 Q3 QC, then the rates about Z, X and Y *)
Example C36_read_back : exists t v q r, kvn_to_string demo_env (aem_message demo_header (map aem_segment demo_aem)) = Ok t /\ kvn_from_string demo_env t = Ok v /\
  at_path ["body"; "segment"; "segment"; "data"; "attitude_state"; "attitude_state"; "quaternion_euler_rate"; "quaternion"] v =
    Some (VObj "QuaternionType" [("qc", VDec (tenths 4)); ("q1", VDec (tenths 1)); ("q2", VDec (tenths 2)); ("q3", VDec (tenths 3))]) /\
  at_path ["body"; "segment"; "segment"; "data"; "attitude_state"; "attitude_state"; "quaternion_euler_rate"; "rotation_rates"; "rotation1"] v = Some (VObj q r) /\
  assoc "rate" r = Some (VEnum "AngleRateKeywordType" "Z_RATE" (lit "Z_RATE")) /\ assoc "value" r = Some (VDec (tenths 5)).
Proof. do 4 eexists. split; [by_compute|]. split; [by_compute|]. split; [by_compute|]. split; [by_compute|]. split; by_compute. Qed.

(* a document with odd spacing, exponents, further columns, and the QUATERNION/DERIVATIVE type *)
Definition seen_rows : list str :=
  [lit "2005-159T17:41:00    1.2 1.5E+3 -0.1 .5   1 2 3 4"; lit "2005-160 +1 2. 3e-1 4 5 6 7 8 and more"].
Definition seen_states : list record :=
  [(lit "2005-159T17:41:00", [tenths 12; DFin false 1500 0; tenths (-1); tenths 5; DFin false 1 0; DFin false 2 0; DFin false 3 0; DFin false 4 0]);
   (lit "2005-160", [DFin false 1 0; DFin false 2 0; tenths 3; DFin false 4 0; DFin false 5 0; DFin false 6 0; DFin false 7 0; DFin false 8 0])].
Definition seen_aem (k : kind) (cs : list string) : aem_part := (aem_meta k cs [], k, [lit "d"], seen_states).
Definition seen_aem_said (k : kind) (cs : list string) : list item :=
  [Bare (lit "META_START")] ++ section_items (aem_meta k cs []) ++ [Bare (lit "META_STOP"); Bare (lit "DATA_START")] ++
  comment_items [lit "d"] ++ map Bare seen_rows ++ [Bare (lit "DATA_STOP")].
Definition seen_aem_parts : list aem_part := [seen_aem (QuatDeriv First) ["m"]; seen_aem (QuatDeriv Last) ["n"]].
Definition C36_items : list item := first_item "CCSDS_AEM_VERS" "1.0" :: section_items demo_header ++
  List.concat [seen_aem_said (QuatDeriv First) ["m"]; seen_aem_said (QuatDeriv Last) ["n"]].
Lemma seen_states_ok o : Forall2 (attitude_text (QuatDeriv o)) seen_rows seen_states.
Proof.
  assert (H : forall s e ts extra ds ds0, trimmedb s = true -> no_charb c_eq s = true -> existsb (N.eqb c_sp) s = true -> date_textb e = true -> withoutb (lit "Type") e = true ->
    split_ws s = e :: ts ++ extra -> List.length ts = 8 -> Forall2 number_text ts ds0 -> ds = map expanded ds0 ->
    attitude_text (QuatDeriv o) s (e, ds)).
  { intros s e ts extra ds ds0 H1 H2 H3 H4 H5 E L F ->.
    split; [apply trimmedb_spec; assumption|]. split; [apply no_charb_spec; assumption|].
    split; [apply existsb_exists in H3; destruct H3 as [c [Hc X]]; apply N.eqb_eq in X; subst c; exact Hc|].
    split; [apply date_textb_spec; assumption|]. split; [apply withoutb_spec; assumption|]. exists ts, extra. cbn [fst snd].
    split; [rewrite <- E; apply split_columned|]. split; [exact L|]. clear - F. induction F as [|t d ts ds H _ IH]; [constructor|]. cbn [map]. constructor; [exists d; auto|exact IH]. }
  constructor; [|constructor; [|constructor]].
  - apply (H _ _ (map lit ["1.2"; "1.5E+3"; "-0.1"; ".5"; "1"; "2"; "3"; "4"]) [] _
      [tenths 12; DFin false 15 2; tenths (-1); tenths 5; DFin false 1 0; DFin false 2 0; DFin false 3 0; DFin false 4 0]);
      [by_compute|by_compute|by_compute|by_compute|by_compute|by_compute|reflexivity| |by_compute].
    repeat (constructor; [apply (number_textb_spec demo_env); by_compute|]). constructor.
  - apply (H _ _ (map lit ["+1"; "2."; "3e-1"; "4"; "5"; "6"; "7"; "8"]) [lit "and"; lit "more"] _
      [DFin false 1 0; DFin false 2 0; tenths 3; DFin false 4 0; DFin false 5 0; DFin false 6 0; DFin false 7 0; DFin false 8 0]);
      [by_compute|by_compute|by_compute|by_compute|by_compute|by_compute|reflexivity| |by_compute].
    repeat (constructor; [apply (number_textb_spec demo_env); by_compute|]). constructor.
Qed.
Example C36_document_example : section "NdmHeader" demo_header /\ seen_aem_parts <> [] /\ Forall aem_part_ok seen_aem_parts /\ aem_apart seen_aem_parts /\
  Forall2 aem_said seen_aem_parts [seen_aem_said (QuatDeriv First) ["m"]; seen_aem_said (QuatDeriv Last) ["n"]] /\
  document C36_items (odd C36_items) /\ Forall one_line (odd C36_items).
Proof.
  split; [met|]. split; [discriminate|]. split; [eapply allb; [apply aem_part_okb_spec|by_compute]|]. split; [apply aem_apartb_spec; by_compute|].
  split; [constructor; [|constructor; [|constructor]]; (exists seen_rows; split; [apply seen_states_ok|reflexivity])|].
  split; [apply odd_document|apply odd_one_line; by_compute].
Qed.

(* ---- the conditions are needed ---- *)
Definition attitudes (v : pyval) : list pyval :=
  match v with
  | VObj _ [_; (_, VObj _ [(_, VList segs)])] =>
    flat_map (fun s => match s with VObj _ [_; (_, VObj _ [_; (_, VList os)])] => os | _ => [] end) segs
  | _ => []
  end.
Definition aem_segments (v : pyval) : nat := match v with VObj _ [_; (_, VObj _ [(_, VList segs)])] => List.length segs | _ => 0 end.
(* "Type" disappears from an epoch. *)
Theorem C36_epoch_refuted : exists header p t v,
  section "NdmHeader" header /\ aem_part_ok p /\ Forall date_text (let '(_, _, _, rs) := p in map fst rs) /\
  kvn_to_string demo_env (aem_message header [aem_segment p]) = Ok t /\ kvn_from_string demo_env t = Ok v /\
  (let '(_, _, _, rs) := p in map fst rs) = [lit "2005-159Type"] /\
  attitudes v = [attitude (Quat First) (lit "2005-159", map tenths [1; 2; 3; 4]%Z)].
Proof.
  exists demo_header, (aem_meta (Quat First) [] [], Quat First, [], [(lit "2005-159Type", map tenths [1; 2; 3; 4]%Z)]). do 2 eexists.
  split; [met|]. split; [apply aem_part_okb_spec; by_compute|]. split; [eapply allb; [apply date_textb_spec|by_compute]|].
  split; [by_compute|]. split; [by_compute|]. split; by_compute.
Qed.
Print Assumptions C36_epoch_refuted.
(* With two comments in a data block the text is written, but reading it raises ValueError: the second comment starts a
   segment without metadata. *)
Theorem C36_two_comments_refuted : exists header p t,
  section "NdmHeader" header /\ aem_plain p /\ kvn_to_string demo_env (aem_message header [aem_segment p]) = Ok t /\
  kvn_from_string demo_env t = Err ValueError.
Proof.
  exists demo_header, (aem_meta (Quat First) [] [], Quat First, [lit "a"; lit "b"], [(lit "2005-159", map tenths [1; 2; 3; 4]%Z)]). eexists.
  split; [met|]. split.
  { split; [apply sectionb_spec; by_compute|]. split; [apply declaresb_spec; by_compute|]. split; [eapply allb; [apply good_textb_spec|by_compute]|].
    split; [exact I|]. constructor; [|constructor]. split; [apply good_textb_spec; by_compute|]. split; [apply startswith_false; by_compute|reflexivity]. }
  split; [by_compute|]. by_compute.
Qed.
Print Assumptions C36_two_comments_refuted.
(* A comment in the data of the first segment and a field that only the second segment has: the comment becomes one of the
   metadata. *)
Theorem C36_comment_moves_refuted : exists header ps t v,
  section "NdmHeader" header /\ Forall aem_segment_ok ps /\
  kvn_to_string demo_env (aem_message header (map aem_segment ps)) = Ok t /\ kvn_from_string demo_env t = Ok v /\
  at_path ["body"; "segment"; "segment"; "data"; "comment"] (aem_message header (map aem_segment ps)) = Some (VList [VStr (lit "d")]) /\
  at_path ["body"; "segment"; "segment"; "data"; "comment"] v = Some (VList []) /\
  at_path ["body"; "segment"; "segment"; "metadata"; "comment"] v = Some (VList [VStr (lit "d")]).
Proof.
  exists demo_header, [(aem_meta (Quat First) [] ["rate_frame"], Quat First, [lit "d"], [(lit "2005-159", map tenths [1; 2; 3; 4]%Z)]);
                       (aem_meta (Quat First) [] [], Quat First, [], [(lit "2005-159", map tenths [1; 2; 3; 4]%Z)])]. do 2 eexists.
  split; [met|]. split; [eapply allb; [apply aem_segment_okb_spec|by_compute]|]. split; [by_compute|]. split; [by_compute|]. split; [by_compute|]. split; [by_compute|]. by_compute.
Qed.
Print Assumptions C36_comment_moves_refuted.
(* The schema also has the lower-case spellings, and both are mistaken: the writer takes "last" for FIRST, the reader takes
   "first" for LAST.  A quaternion with "last" is written as QC Q1 Q2 Q3 and read back as another one. *)
Definition lower_meta (what : string) (c : string) (t : string) : pyval :=
  match aem_meta (Quat Last) [] [] with
  | VObj d vars => VObj d (map (fun nv => (fst nv, if String.eqb (fst nv) what then enum_named c (lit t) else snd nv)) vars)
  | v => v
  end.
Theorem C36_lower_case_last_refuted : exists md t v,
  section "AemMetadata" md /\ In (Say (lit "QUATERNION_TYPE", lit "last", [])) (section_items md) /\
  kvn_to_string demo_env (aem_message demo_header [aem_segment (md, Quat Last, [], [(lit "2005-159", map tenths [1; 2; 3; 4]%Z)])]) = Ok t /\
  (exists a b, t = a ++ lit "2005-159  0.4  0.1  0.2  0.3" ++ b) /\
  kvn_from_string demo_env t = Ok v /\ attitudes v = [attitude (Quat Last) (lit "2005-159", map tenths [4; 1; 2; 3]%Z)].
Proof.
  exists (lower_meta "quaternion_type" "QuaternionTypeType" "last"). do 2 eexists. split; [apply sectionb_spec; by_compute|].
  split; [do 12 right; left; by_compute|]. split; [by_compute|]. split.
  { match goal with |- exists a b, ?t = _ => exists (firstn (List.length t - 42) t), (skipn (List.length t - 14) t) end. by_compute. }
  split; [by_compute|]. by_compute.
Qed.
Print Assumptions C36_lower_case_last_refuted.
Theorem C36_lower_case_first_refuted : exists v,
  read (PropFind.aem_head ++ PropFind.aem_meta ["ATTITUDE_TYPE = QUATERNION"; "QUATERNION_TYPE = first"] ++ PropFind.tdm_data ["2005-159 0.1 0.2 0.3 0.4"]) = Ok v /\
  at_path (PropFind.p_att ++ ["quaternion_state"; "quaternion"; "qc"]) v = Some (VDec (tenths 4)).
Proof. eexists. split; [by_compute|]. by_compute. Qed.
Print Assumptions C36_lower_case_first_refuted.
(* With "quaternion" the text is written, but reading it raises IndexError. *)
Theorem C36_lower_case_type_refuted : exists md t,
  section "AemMetadata" md /\ In (Say (lit "ATTITUDE_TYPE", lit "quaternion", [])) (section_items md) /\
  kvn_to_string demo_env (aem_message demo_header [aem_segment (md, Quat Last, [], [(lit "2005-159", map tenths [1; 2; 3; 4]%Z)])]) = Ok t /\
  kvn_from_string demo_env t = Err IndexError.
Proof.
  exists (lower_meta "attitude_type" "AttitudeTypeType" "quaternion"). eexists. split; [apply sectionb_spec; by_compute|].
  split; [do 11 right; left; by_compute|]. split; [by_compute|]. by_compute.
Qed.
Print Assumptions C36_lower_case_type_refuted.
(* Metadata without QUATERNION_TYPE: a quaternion cannot be written. *)
Theorem C36_no_quaternion_type_refuted : exists md,
  section "AemMetadata" md /\ In (Say (lit "ATTITUDE_TYPE", lit "QUATERNION", [])) (section_items md) /\
  kvn_to_string demo_env (aem_message demo_header [aem_segment (md, Quat Last, [], [(lit "2005-159", map tenths [1; 2; 3; 4]%Z)])]) = Err StopIter.
Proof.
  exists (lower_meta "quaternion_type" "QuaternionTypeType" ""). split; [apply sectionb_spec; by_compute|].
  split; [do 11 right; left; by_compute|]. by_compute.
Qed.
Print Assumptions C36_no_quaternion_type_refuted.
