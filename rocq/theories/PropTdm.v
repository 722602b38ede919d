(* Properties C34, C35 and C44 for tracking data messages. *)
From Coq Require Import NArith ZArith List Bool String Arith Lia.
From Verif Require Import PyStr PyDec PyVal Schema KvnPre KvnTree KvnSeg XmlBind KvnBuild NdmXml KvnWrite
     Spec SpecKvn SpecObj SpecMsg SpecDoc StrFacts DecFacts PreFacts SegFacts BuildFacts WriteFacts ParseFacts ShiftFacts
     ReadFacts ComposeFacts MsgFacts PropWrite CoreFacts UserFacts DataFacts SingleFacts ListFacts RelFacts SegListFacts
     CheckFacts Demo PropRound PropCdm GapFacts SpecEph SpecTdm EphText EphFacts OemFacts TdmFacts DocFacts CheckEph PropOem PropOemDoc SayFacts PropText.
Import ListNotations.
Local Open Scope string_scope.
Local Open Scope list_scope.
Local Arguments find_class : simpl never.
Local Arguments lit : simpl never.

(* ---- reading documents ---- *)
Section Doc.
Variable u : env.
Lemma obs_key_text n k : obs_key n k -> trimmed (lit k) /\ no_char c_eq (lit k) /\ ~ begins kw_comment (lit k) /\ one_line (lit k) /\ upper u (lit n) = lit k.
Proof.
  intros [f [Hf [<- K]]]. destruct obs_fields as [_ [_ [_ [_ [_ [Of _]]]]]]. rewrite forallb_forall in Of. apply Of in Hf. unfold obs_field in Hf.
  do 2 (apply andb_true_iff in Hf; destruct Hf as [Hf ?]). match goal with X : negb _ = true |- _ => apply negb_true_iff in X; rename X into L end.
  destruct (kw_field_key u f Hf L) as [E [T [Q [O C]]]]. unfold kw_of in *. rewrite K in *. apply startswith_false in C. auto 10.
Qed.
Lemma obs_item o i : obs_said o i -> oline o (item_line i) /\ item_ok i.
Proof.
  destruct o as [[n e] d]. intros [k [t [un [w [extra [K [-> [D [Tr [C [Nt U]]]]]]]]]]]. destruct (obs_key_text n k K) as [T [Q [B _]]]. split.
  - exists k, t. unfold item_line, line_of. destruct un as [|c un]; eexists; exists w, extra; auto 10.
  - right. auto 10.
Qed.
Lemma obs_items os is : Forall2 obs_said os is -> Forall2 oline os (map item_line is) /\ Forall item_ok is.
Proof. induction 1 as [|o i os is H _ [I1 I2]]; [split; constructor|]. destruct (obs_item o i H). cbn [map]. split; constructor; assumption. Qed.
Lemma tdm_marker s : In s [lit "META_START"; lit "META_STOP"; lit "DATA_START"; lit "DATA_STOP"] -> item_ok (Bare s) /\ delete_keywords "Tdm" [[s]] = [].
Proof.
  intros H. repeat (destruct H as [<-|H]; [split; [split; [discriminate|split; [apply trimmedb_spec; reflexivity|split; [apply no_charb_spec; reflexivity|apply startswith_false; reflexivity]]]|reflexivity]|]).
  destruct H.
Qed.
Section Shape.
Variables hdr body seg meta data ob : elem.
Hypothesis Sp : tdm_shape hdr body seg meta data ob.
Lemma tdm_item p l : tdm_part_ok p -> tdm_said p l ->
  exists q, fst q = p /\ tpart_ok q /\ Forall item_ok l /\ delete_keywords "Tdm" (map item_line l) = tlines q.
Proof.
  destruct p as [[md cs] os]. intros P [is [F ->]]. destruct (obs_items os is F) as [S1 S2]. pose proof P as [Sm [G _]]. destruct (comment_items_ok cs G) as [G1 G2].
  exists ((md, cs, os), map item_line is). split; [reflexivity|]. assert (Q : tpart_ok ((md, cs, os), map item_line is)) by (split; assumption). split; [exact Q|].
  destruct (section_items_ok u "TdmMetadata" md ltac:(vm_compute; reflexivity) Sm) as [M1 M2].
  destruct (tdm_marker (lit "META_START")) as [A1 A2]; [cbn; tauto|]. destruct (tdm_marker (lit "META_STOP")) as [B1 B2]; [cbn; tauto|].
  destruct (tdm_marker (lit "DATA_START")) as [C1 C2]; [cbn; tauto|]. destruct (tdm_marker (lit "DATA_STOP")) as [D1 D2]; [cbn; tauto|]. split.
  - repeat (apply Forall_app; split); try assumption; repeat (constructor; try assumption).
  - rewrite !map_app, M2, G2.
    replace (map item_line [Bare (lit "META_STOP"); Bare (lit "DATA_START")]) with ([[lit "META_STOP"]] ++ [[lit "DATA_START"]]) by reflexivity.
    replace (map item_line [Bare (lit "META_START")]) with [[lit "META_START"]] by reflexivity.
    replace (map item_line [Bare (lit "DATA_STOP")]) with [[lit "DATA_STOP"]] by reflexivity.
    unfold delete_keywords in *. rewrite !filter_app. fold (delete_keywords "Tdm" [[lit "META_START"]]) in *.
    change (@filter (list str)) with (@filter line) in *. rewrite B2, C2, D2. unfold delete_keywords in *. rewrite A2. cbn [app]. rewrite app_nil_r, <- !filter_app.
    apply (tkept hdr body seg meta data ob Sp). intros k Hk.
    destruct (tlines_keys u hdr body seg meta data ob Sp _ k Q Hk) as [E|[E|E]]; auto.
Qed.
Lemma tdm_items ps ls : Forall tdm_part_ok ps -> Forall2 tdm_said ps ls ->
  exists qs, map fst qs = ps /\ Forall tpart_ok qs /\ Forall item_ok (List.concat ls) /\
  delete_keywords "Tdm" (map item_line (List.concat ls)) = tlater qs.
Proof.
  intros O F. induction F as [|p l ps ls H _ IH]; [exists []; repeat split; constructor|].
  inversion O; subst. destruct (tdm_item p l) as [q [<- [Q1 [Q2 Q3]]]]; try assumption. destruct IH as [qs [<- [I1 [I2 I3]]]]; [assumption|].
  exists (q :: qs). cbn [map List.concat tlater flat_map]. split; [reflexivity|]. split; [constructor; assumption|].
  split; [apply Forall_app; auto|]. rewrite map_app. unfold delete_keywords in *. rewrite filter_app, Q3, I3. reflexivity.
Qed.
End Shape.
End Doc.

(* A document that says the header, and segment by segment the metadata and the observations of a TDM, in any spacing,
   reads as that TDM, for segments that the reader can tell apart.  Angles are included; units and whatever follows the
   number are ignored. *)
Theorem C34_tdm_document_partial : forall u header ps ls raws,
  section "TdmHeader" header -> ps <> [] -> Forall tdm_part_ok ps -> tdm_apart ps -> Forall2 tdm_said ps ls ->
  document (first_item "CCSDS_TDM_VERS" "2.0" :: section_items header ++ List.concat ls) raws -> Forall one_line raws ->
  kvn_from_string u (text_of raws) = Ok (tdm_message header (map tdm_segment ps)).
Proof.
  intros u header ps ls raws Sh Ne O A F D Ol. destruct tdm_shape_ok as [hdr [body [seg [meta [data [ob Sp]]]]]].
  destruct (tdm_items u hdr body seg meta data ob Sp ps ls O F) as [qs [<- [F1 [F2 F3]]]].
  assert (Nq : qs <> []) by (intros ->; exact (Ne eq_refl)).
  pose proof (tdm_subs u hdr body seg meta data ob Sp header qs (head_lines "Tdm") Sh Nq F1 A) as S.
  destruct (section_items_ok u "TdmHeader" header ltac:(vm_compute; reflexivity) Sh) as [H1 H2].
  unfold tdm_message. rewrite !map_map in *.
  eapply document_read with (items := section_items header ++ List.concat ls); try reflexivity; try eassumption.
  - destruct Sp as [[Hc _] _]. exact Hc.
  - apply Forall_app. auto.
  - rewrite map_app, H2. unfold delete_keywords. rewrite filter_app. fold (delete_keywords "Tdm" (sec_lines header)).
    fold (delete_keywords "Tdm" (map item_line (List.concat ls))). rewrite F3.
    rewrite (tkept hdr body seg meta data ob Sp); [exact S|]. intros k Hk. destruct Sp as [_ [[Xh _] [_ [_ [_ [[Ch _] _]]]]]].
    destruct (sec_elem_spec hdr Xh) as [Lh _]. rewrite <- Ch in Sh. destruct (section_keys_incl u hdr header Lh (or_intror Sh) k Hk); auto.
  - discriminate.
  - destruct Sp as [_ [_ [_ [_ [_ [_ [V _]]]]]]]. rewrite V. reflexivity.
Qed.
Print Assumptions C34_tdm_document_partial.

(* ---- writing ---- *)
Lemma measured_one n d f fs : NoDup (map f_name fs) -> In f fs -> f_name f = n -> f_ty f = TDec -> ~ In "epoch" (map f_name fs) ->
  filter_map (fun kv => match snd kv with
                        | VDec d => if String.eqb (fst kv) "epoch" then None else Some (fst kv, d)
                        | _ => None end)
    (map (fun g => (f_name g, if String.eqb (f_name g) n then measured g d else VNone)) fs) = [(n, d)].
Proof.
  intros D Hf <- T Ne.
  assert (No : forall gs, ~ In (f_name f) (map f_name gs) -> filter_map (fun kv => match snd kv with
                        | VDec d => if String.eqb (fst kv) "epoch" then None else Some (fst kv, d)
                        | _ => None end)
    (map (fun g => (f_name g, if String.eqb (f_name g) (f_name f) then measured g d else VNone)) gs) = []).
  { clear. induction gs as [|g gs IH]; intros N; [reflexivity|]. cbn [map filter_map fst snd] in *.
    destruct (String.eqb (f_name g) (f_name f)) eqn:E; [apply String.eqb_eq in E; exfalso; apply N; left; exact E|]. apply IH. intros X. apply N. right. exact X. }
  induction fs as [|g fs IH]; [destruct Hf|]. cbn [map] in D, Ne. inversion D as [|? ? N D']; subst. cbn [map filter_map fst snd].
  destruct (String.eqb (f_name g) (f_name f)) eqn:E.
  - apply String.eqb_eq in E. destruct Hf as [->|Hf]; [|exfalso; apply N; rewrite E; apply in_map; exact Hf]. unfold measured at 1. rewrite T.
    replace (String.eqb (f_name f) "epoch") with false by (symmetry; apply String.eqb_neq; intros X; apply Ne; left; exact X). rewrite (No fs N). reflexivity.
  - destruct Hf as [->|Hf]; [rewrite String.eqb_refl in E; discriminate|]. apply IH; [exact D'|exact Hf|]. intros X. apply Ne. right. exact X.
Qed.
Lemma track u n e d rest :
  filter_map (fun kv => match snd kv with
                        | VDec d => if String.eqb (fst kv) "epoch" then None else Some (fst kv, d)
                        | _ => None end) rest = [(n, d)] ->
  tracking_line u (("epoch", VStr e) :: rest) = Ok [fill_multi_kvn u (lit n) e (show_dec d)].
Proof. intros H. unfold tracking_line. cbn [filter_map snd]. rewrite H. reflexivity. Qed.
Lemma write_track u k vars out l : tracking_line u vars = Ok l -> write_item u k (VObj "TrackingDataObservationType" vars) out = Ok (out ++ l).
Proof. intros H. cbn. rewrite H. reflexivity. Qed.
Lemma write_obs u n e d f out : In f observables -> f_name f = n -> f_ty f = TDec ->
  write_item u "observation" (observation (n, e, d)) out = Ok (out ++ [fill_multi_kvn u (lit n) e (show_dec d)]).
Proof.
  intros Hf En T. destruct obs_names as [D Ne]. apply write_track, track. exact (measured_one n d f observables D Hf En T Ne).
Qed.
Lemma blank_repeat n : blank (repeat c_sp n).
Proof. intros c H. apply repeat_spec in H. subst c. reflexivity. Qed.
Lemma says_obs u o : plain_obs o -> exists i, obs_written o i /\ says (write_item u "observation" (observation o)) [i].
Proof.
  destruct o as [[n e] d]. intros [G [f [Hf [En T]]]].
  assert (K : exists k, obs_key n k).
  { destruct obs_fields as [_ [_ [_ [_ [_ [Of _]]]]]]. rewrite forallb_forall in Of. pose proof (Of f Hf) as X. unfold obs_field in X.
    do 2 (apply andb_true_iff in X; destruct X as [X _]). destruct (kw_field_spec u f X) as [_ [_ [_ [Kf _]]]]. exists (kw_of f), f. auto. }
  destruct K as [k K]. exists (Say (lit k, e ++ repeat c_sp (30 - List.length e) ++ show_dec d, [])). split; [exists k; auto|].
  destruct (obs_key_text u n k K) as [_ [_ [_ [O U]]]]. intros out. exists [fill_multi_kvn u (lit n) e (show_dec d)].
  split; [apply (write_obs u n e d f); assumption|]. unfold fill_multi_kvn, ljust. rewrite U. split.
  - constructor; [|constructor]. destruct G as [_ [_ [Oe _]]].
    assert (Sp : forall m, one_line (repeat c_sp m)) by (intros m X; apply repeat_spec in X; discriminate).
    unfold one_line in *. repeat (apply no_char_app; split); try assumption; try apply Sp; try (apply no_charb_spec; reflexivity).
    apply numtext_no_char; [reflexivity|apply numtext_show_dec].
  - apply doc_item; [|constructor]. apply spelt_say.
    pose proof (said_plain (lit k) (e ++ repeat c_sp (30 - List.length e) ++ show_dec d) [] (repeat c_sp (20 - List.length (lit k)) ++ [c_sp]) [c_sp] [c_sp]) as X.
    cbn [app] in X. rewrite <- !app_assoc in *. apply X; try (intros c [<-|[]]; reflexivity); [apply blank_nil|].
    intros c Hc. apply in_app_or in Hc. destruct Hc as [Hc|[<-|[]]]; [exact (blank_repeat _ c Hc)|reflexivity].
Qed.
Lemma says_all_obs u os : Forall plain_obs os -> exists is, Forall2 obs_written os is /\ says (collate_sub u "observation" (VList (map observation os))) is.
Proof.
  intros F.
  assert (X : exists is, Forall2 obs_written os is /\ Forall2 (fun x il => says (write_item u "observation" x) il) (map observation os) (map (fun i => [i]) is)).
  { induction F as [|o os P _ [is [I1 I2]]]; [exists []; split; constructor|]. destruct (says_obs u o P) as [i [H1 H2]]. exists (i :: is). cbn [map]. split; constructor; assumption. }
  destruct X as [is [I1 I2]]. exists is. split; [exact I1|]. pose proof (says_list u "observation" _ _ ltac:(key_ok) I2) as X.
  replace (list_marker_items (map observation os) true) with (@nil item) in X by (destruct os as [|[[]]]; reflexivity).
  replace (list_marker_items (map observation os) false) with (@nil item) in X by (destruct os as [|[[]]]; reflexivity). rewrite app_nil_r in X.
  replace (List.concat (map (fun i : item => [i]) is)) with is in X by (clear; induction is; [reflexivity|cbn [map List.concat app]; congruence]). exact X.
Qed.
Lemma says_tdm_segment u p : tdm_plain p -> exists l, tdm_written p l /\ says (write_item u "segment" (tdm_segment p)) l.
Proof.
  destruct p as [[md cs] os]. intros [Sm [G F]]. destruct (says_all_obs u os F) as [is [I1 I2]].
  eexists. split; [exists is; split; [exact I1|reflexivity]|].
  cbn [tdm_segment]. apply says_item_obj; [reflexivity|].
  match goal with |- says_vars _ _ (?a ++ ?b ++ [?c; ?c2] ++ ?r) => replace (a ++ b ++ [c; c2] ++ r) with ((a ++ b ++ [c]) ++ [c2] ++ r) by (rewrite <- !app_assoc; reflexivity) end.
  apply says_cons.
  { pose proof (says_section u "metadata" "TdmMetadata" md ltac:(computed) ltac:(key_ok) Sm) as X. exact X. }
  apply says_one.
  match goal with |- says (collate_sub u "data" (VObj "TdmData" ?vs)) _ => pose proof (says_obj u "data" "TdmData" vs (comment_items cs ++ is)) as X end.
  rewrite <- !app_assoc in X. apply X; [key_ok|reflexivity|reflexivity|].
  apply says_cons; [apply says_comments; exact G|]. apply says_one. exact I2.
Qed.
(* META_START, metadata, META_STOP, and one line for each observation between DATA_START and DATA_STOP *)
Theorem C44_tdm_text : forall u header ps, section "TdmHeader" header -> Forall tdm_plain ps ->
  exists ls raws, Forall2 tdm_written ps ls /\ kvn_to_string u (tdm_message header (map tdm_segment ps)) = Ok (text_of raws) /\
    Forall one_line raws /\
    document (first_item "CCSDS_TDM_VERS" "2.0" :: section_items header ++ List.concat ls) raws.
Proof.
  intros u header ps Sh F.
  assert (C : exists ls, Forall2 tdm_written ps ls /\ Forall2 (fun x il => says (write_item u "segment" x) il) (map tdm_segment ps) ls).
  { induction F as [|p ps P _ [ls [I1 I2]]]; [exists []; split; constructor|]. destruct (says_tdm_segment u p P) as [l [L1 L2]].
    exists (l :: ls). cbn [map]. split; constructor; assumption. }
  destruct C as [ls [C1 C2]]. exists ls.
  assert (X : exists raws, kvn_to_string u (tdm_message header (map tdm_segment ps)) = Ok (text_of raws) /\ Forall one_line raws /\
    document (first_item "CCSDS_TDM_VERS" "2.0" :: section_items header ++ List.concat ls) raws).
  { apply (says_message u "Tdm"); [cbn [In root_classes]; tauto|computed|computed|computed|computed|].
    apply says_cons; [apply (says_opt u _ "TdmHeader"); [computed|computed|key_ok|right; exact Sh]|]. apply says_one.
    apply says_node; [key_ok|computed|reflexivity|]. apply says_one.
    pose proof (says_list u "segment" (map tdm_segment ps) ls ltac:(key_ok) C2) as X.
    replace (list_marker_items (map tdm_segment ps) true) with (@nil item) in X by (destruct ps as [|[[]]]; reflexivity).
    replace (list_marker_items (map tdm_segment ps) false) with (@nil item) in X by (destruct ps as [|[[]]]; reflexivity).
    rewrite app_nil_r in X. exact X. }
  destruct X as [raws X]. exists raws. auto.
Qed.
Print Assumptions C44_tdm_text.

(* An observation of any of the 45 observables (of 47) that are plain numbers can be written. *)
Theorem C35_number_observables_partial : forall u header md cs os, section "TdmHeader" header -> section "TdmMetadata" md ->
  Forall good_text cs -> Forall plain_obs os ->
  exists t, kvn_to_string u (tdm_message header [tdm_segment (md, cs, os)]) = Ok t.
Proof.
  intros u header md cs os Sh Sm G F. destruct (C44_tdm_text u header [(md, cs, os)] Sh) as [ls [raws [_ [E _]]]]; [constructor; [split; [exact Sm|split; assumption]|constructor]|].
  exists (text_of raws). exact E.
Qed.
Print Assumptions C35_number_observables_partial.

(* ---- round trip ---- *)
Lemma obs_written_said o i : good_obs o -> obs_written o i -> obs_said o i.
Proof.
  destruct o as [[n e] d]. intros [D [L [C _]]] [k [K ->]]. pose proof (show_dec_number d C) as Nt. pose proof (number_word _ _ Nt) as W.
  exists k, (e ++ repeat c_sp (30 - List.length e) ++ show_dec d), [], (show_dec d), []. split; [exact K|]. split; [reflexivity|]. split; [exact D|].
  pose proof D as [[[Ne _] _] [We _]].
  assert (Cl : columned [e; show_dec d] (e ++ repeat c_sp (30 - List.length e) ++ show_dec d)).
  { apply (col_word [] e [show_dec d] (repeat c_sp (30 - List.length e) ++ show_dec d)); [intros c []|exact We| |].
    - pose proof (col_word (repeat c_sp (30 - List.length e)) (show_dec d) [] []) as X. rewrite app_nil_r in X. apply X; [apply blank_repeat|exact W|apply col_end; intros c []|left; reflexivity].
    - right. destruct (30 - List.length e) as [|m] eqn:E; [lia|]. exists c_sp, (repeat c_sp m ++ show_dec d). split; reflexivity. }
  split.
  { pose proof (numtext_show_dec d) as Ns. pose proof (numtext_trimmed _ Ns) as [_ T2]. destruct We as [_ We]. split.
    - intros c r E. destruct e as [|c0 e]; [congruence|]. cbn in E. injection E as -> _. inversion We; assumption.
    - intros c r E. destruct W as [Wn _]. destruct (snoc_case (show_dec d)) as [X|[r' [c' X]]]; [congruence|]. rewrite X in E, T2. rewrite !app_assoc in E.
      apply app_inj_tail in E. destruct E as [_ <-]. exact (T2 _ _ eq_refl). }
  split; [exact Cl|]. split; [exact Nt|]. left. split; [reflexivity|]. intros [_ [r E]]. destruct W as [Wn _].
  destruct (snoc_case (show_dec d)) as [X|[r' [c' X]]]; [congruence|]. pose proof (numtext_no_char c_rbr _ eq_refl (numtext_show_dec d)) as Nr.
  rewrite X in E, Nr. rewrite !app_assoc in E. apply app_inj_tail in E. destruct E as [_ ->]. apply Nr. apply in_or_app. right. left. reflexivity.
Qed.
Lemma tdm_written_said p l : tdm_segment_ok p -> tdm_written p l -> tdm_said p l.
Proof.
  destruct p as [[md cs] os]. intros [_ G] [is [F ->]]. exists is. split; [|reflexivity].
  induction F as [|o i os is H _ IH]; [constructor|]. inversion G; subst. constructor; [apply obs_written_said; assumption|apply IH; assumption].
Qed.
Lemma tdm_ok_plain p : tdm_segment_ok p -> tdm_plain p.
Proof.
  destruct p as [[md cs] os]. intros [[Sm [G _]] F]. split; [exact Sm|]. split; [exact G|]. eapply Forall_impl; [|exact F].
  intros [[n e] d] [[[Ge _] _] [_ [_ X]]]. split; assumption.
Qed.
(* Writing a TDM and reading the text gives the message back, for segments that the reader can tell apart, observations
   that are not angles, and epochs of fewer than thirty characters.  Each of the conditions is needed, see below. *)
Theorem C34_tdm_round_trip_partial : forall u header ps, section "TdmHeader" header -> ps <> [] ->
  Forall tdm_segment_ok ps -> tdm_apart ps ->
  exists t, kvn_to_string u (tdm_message header (map tdm_segment ps)) = Ok t /\
            kvn_from_string u t = Ok (tdm_message header (map tdm_segment ps)).
Proof.
  intros u header ps Sh Ne F A. destruct (C44_tdm_text u header ps Sh) as [ls [raws [W [E [O D]]]]].
  { eapply Forall_impl; [|exact F]. exact tdm_ok_plain. }
  exists (text_of raws). split; [exact E|]. apply (C34_tdm_document_partial u header ps ls raws); try assumption.
  - eapply Forall_impl; [|exact F]. intros p P. apply P.
  - clear - F W. induction W as [|p l ps ls H _ IH]; [constructor|]. inversion F; subst. constructor; [apply tdm_written_said; assumption|apply IH; assumption].
Qed.
Print Assumptions C34_tdm_round_trip_partial.

(* ---- concrete messages ---- *)
Definition good_obsb (o : obs) : bool :=
  let '(n, e, d) := o in
  date_textb e && Nat.ltb (List.length e) 30 && canonicalb d &&
  existsb (fun f => String.eqb (f_name f) n && match f_ty f with TDec => true | _ => false end) observables.
Lemma number_obsb n : existsb (fun f => String.eqb (f_name f) n && match f_ty f with TDec => true | _ => false end) observables = true ->
  exists f, In f observables /\ f_name f = n /\ f_ty f = TDec.
Proof.
  intros H. apply existsb_exists in H. destruct H as [f [I E]]. apply andb_true_iff in E. destruct E as [E T]. exists f.
  split; [exact I|]. split; [apply String.eqb_eq; exact E|]. destruct (f_ty f); try discriminate. reflexivity.
Qed.
Lemma good_obsb_spec o : good_obsb o = true -> good_obs o.
Proof.
  destruct o as [[n e] d]. unfold good_obsb. intros H. do 3 (apply andb_true_iff in H; destruct H as [H ?]).
  split; [apply date_textb_spec; exact H|]. split; [apply Nat.ltb_lt; assumption|].
  split; [|apply number_obsb; assumption]. unfold canonicalb, canonical in *. destruct d as [| |? ? [p|]]; try exact I.
  all: destruct p; try discriminate; exact I.
Qed.
Definition tdm_part_okb (p : tdm_part) : bool :=
  let '(md, cs, os) := p in
  sectionb "TdmMetadata" md && forallb good_textb cs && Nat.leb (List.length cs) 1 && match os with [] => false | _ => true end.
Lemma tdm_part_okb_spec p : tdm_part_okb p = true -> tdm_part_ok p.
Proof.
  destruct p as [[md cs] os]. unfold tdm_part_okb. intros H. do 3 (apply andb_true_iff in H; destruct H as [H ?]).
  split; [apply sectionb_spec; exact H|]. split; [eapply allb; [apply good_textb_spec|assumption]|]. split; [apply Nat.leb_le; assumption|destruct os; discriminate].
Qed.
Definition tdm_segment_okb (p : tdm_part) : bool := tdm_part_okb p && let '(_, _, os) := p in forallb good_obsb os.
Lemma tdm_segment_okb_spec p : tdm_segment_okb p = true -> tdm_segment_ok p.
Proof.
  intros H. apply andb_true_iff in H. destruct H as [A B]. split; [apply tdm_part_okb_spec; exact A|]. destruct p as [[md cs] os].
  eapply allb; [apply good_obsb_spec|exact B].
Qed.
Definition undatedb (t : str) : bool :=
  match split_ws t with [] => false | w :: _ => existsb (fun c => N.ltb c 128 && negb (is_digit c)) (firstn 4 w) end.
Lemma undatedb_spec t : undatedb t = true -> undated t.
Proof.
  unfold undatedb. intros H. pose proof (split_columned t) as C. destruct (split_ws t) as [|w ts]; [discriminate|].
  apply existsb_exists in H. destruct H as [c [I E]]. apply andb_true_iff in E. destruct E as [E1 E2]. exists w, ts, c.
  split; [exact C|]. split; [exact I|]. split; [apply N.ltb_lt; exact E1|apply negb_true_iff; exact E2].
Qed.
Definition starts_undatedb (md : pyval) : bool := match section_items md with Say (_, t, _) :: _ => undatedb t | _ => false end.
Lemma starts_undatedb_spec md : starts_undatedb md = true -> starts_undated md.
Proof.
  unfold starts_undatedb, starts_undated. intros H. destruct (section_items md) as [|[[[k t] un]|] l]; try discriminate.
  exists k, t, un, l. split; [reflexivity|apply undatedb_spec; exact H].
Qed.
Fixpoint repeatedb (l : list string) : bool := match l with [] => false | n :: r => mem_string n r || repeatedb r end.
Lemma repeatedb_spec l : repeatedb l = true -> ~ NoDup l.
Proof.
  induction l as [|n r IH]; [discriminate|]. intros H D. inversion D as [|? ? N D']; subst. cbn [repeatedb] in H. apply orb_true_iff in H. destruct H as [H|H]; [|exact (IH H D')].
  apply N. apply existsb_exists in H. destruct H as [m [I E]]. apply String.eqb_eq in E. subst m. exact I.
Qed.
Fixpoint tdm_apartb (ps : list tdm_part) : bool :=
  match ps with
  | [] => true
  | (md, cs, os) :: r =>
    (match cs with [] => repeatedb (map (fun o => fst (fst o)) os) | _ => false end || forallb (fun p => let '(md', _, _) := p in subsetsb md' md) r) &&
    match r with [] => true | (md', _, _) :: _ => starts_undatedb md' end && tdm_apartb r
  end.
Lemma tdm_apartb_spec ps : tdm_apartb ps = true -> tdm_apart ps.
Proof.
  induction ps as [|[[md cs] os] r IH]; intros H; [exact I|]. cbn [tdm_apartb] in H. do 2 (apply andb_true_iff in H; destruct H as [H ?]).
  split; [|split; [|apply IH; assumption]].
  - apply orb_true_iff in H. destruct H as [H|H].
    + left. destruct cs; [|discriminate]. split; [reflexivity|apply repeatedb_spec; exact H].
    + right. intros md' cs' os' Hi. rewrite forallb_forall in H. specialize (H _ Hi). cbn beta iota in H. apply subsetsb_spec. exact H.
  - destruct r as [|[[md' cs'] os'] r']; [exact I|]. apply starts_undatedb_spec. assumption.
Qed.

Definition tdm_header : pyval := demo_but "TdmHeader" ["h 1"; "h 2"] [].
Definition tdm_meta (cs absent : list string) : pyval := demo_but "TdmMetadata" cs absent.
(* three segments: comments, a repeated observable, fields that only the third segment has *)
Definition demo_tdm : list tdm_part :=
  [(tdm_meta ["m 1"; "m 2"] [], [lit "d"],
    [("range", lit "2005-159T17:41:00", tenths 12); ("receive_freq", lit "2005-159T17:41:01.5", DFin true 7 3); ("range", lit "2005-160", DInf false)]);
   (tdm_meta ["second"] ["mode"], [], [("transmit_freq_1", lit "2005-06-01", tenths 5); ("transmit_freq_1", lit "2005-06-02", tenths (-5))]);
   (tdm_meta ["third"] [], [lit "last"], [("vlbi_delay", lit "2005-06-01", tenths 5)])].
Example C34_example : section "TdmHeader" tdm_header /\ demo_tdm <> [] /\ Forall tdm_segment_ok demo_tdm /\ tdm_apart demo_tdm /\ Forall tdm_plain demo_tdm.
Proof.
  assert (F : Forall tdm_segment_ok demo_tdm) by (eapply allb; [apply tdm_segment_okb_spec|by_compute]).
  split; [met|]. split; [discriminate|]. split; [exact F|]. split; [apply tdm_apartb_spec; by_compute|].
  eapply Forall_impl; [|exact F]. exact tdm_ok_plain.
Qed.
(* a document with angles, a unit, words after the number and odd spacing *)
Definition seen : list obs := [("angle_1", lit "2005-159T17:41:00", tenths 12); ("range", lit "2005-160", DFin false 15 2)].
Definition seen_items : list item :=
  [Say (lit "ANGLE_1", lit "2005-159T17:41:00    1.2", lit "deg"); Say (lit "RANGE", lit "2005-160 1.5E+3 and more", [])].
Definition seen_said (md : pyval) : list item :=
  [Bare (lit "META_START")] ++ section_items md ++ [Bare (lit "META_STOP"); Bare (lit "DATA_START")] ++
  comment_items [lit "d"] ++ seen_items ++ [Bare (lit "DATA_STOP")].
Definition seen_parts : list tdm_part := [(tdm_meta ["m"] [], [lit "d"], seen); (tdm_meta ["n"] ["mode"], [lit "d"], seen)].
Definition C34_items : list item := first_item "CCSDS_TDM_VERS" "2.0" :: section_items tdm_header ++
  List.concat [seen_said (tdm_meta ["m"] []); seen_said (tdm_meta ["n"] ["mode"])].
Lemma seen_ok : Forall2 obs_said seen seen_items.
Proof.
  unfold seen, seen_items. constructor; [|constructor; [|constructor]].
  - exists "ANGLE_1", (lit "2005-159T17:41:00    1.2"), (lit "deg"), (lit "1.2"), [].
    split; [eexists; split; [left; reflexivity|split; reflexivity]|]. split; [reflexivity|]. split; [apply date_textb_spec; by_compute|].
    split; [apply trimmedb_spec; by_compute|]. split; [exact (split_columned (lit "2005-159T17:41:00    1.2"))|].
    split; [apply (number_textb_spec demo_env); by_compute|]. right. split; [discriminate|]. split; [apply no_charb_spec; by_compute|].
    split; [apply trimmedb_spec; by_compute|]. split; apply no_charb_spec; by_compute.
  - exists "RANGE", (lit "2005-160 1.5E+3 and more"), [], (lit "1.5E+3"), [lit "and"; lit "more"].
    split; [eexists; split; [do 13 right; left; reflexivity|split; reflexivity]|]. split; [reflexivity|]. split; [apply date_textb_spec; by_compute|].
    split; [apply trimmedb_spec; by_compute|]. split; [exact (split_columned (lit "2005-160 1.5E+3 and more"))|].
    split; [apply (number_textb_spec demo_env); by_compute|]. left. split; [reflexivity|]. intros [_ [r E]].
    apply (f_equal (fun s => last s 0%N)) in E. rewrite last_last in E. vm_compute in E. discriminate.
Qed.
Example C34_document_example : section "TdmHeader" tdm_header /\ seen_parts <> [] /\ Forall tdm_part_ok seen_parts /\ tdm_apart seen_parts /\
  Forall2 tdm_said seen_parts [seen_said (tdm_meta ["m"] []); seen_said (tdm_meta ["n"] ["mode"])] /\
  document C34_items (odd C34_items) /\ Forall one_line (odd C34_items).
Proof.
  split; [met|]. split; [discriminate|]. split; [eapply allb; [apply tdm_part_okb_spec|by_compute]|]. split; [apply tdm_apartb_spec; by_compute|].
  split; [constructor; [|constructor; [|constructor]]; exists seen_items; split; try exact seen_ok; reflexivity|].
  split; [apply odd_document|apply odd_one_line; by_compute].
Qed.
(* every observable that is a number, in one message *)
Definition all_numbers : list obs :=
  map (fun f => (f_name f, lit "2005-160", tenths 7)) (filter (fun f => match f_ty f with TDec => true | _ => false end) observables).
Example C35_example : section "TdmHeader" tdm_header /\ section "TdmMetadata" (tdm_meta [] []) /\ Forall good_text [lit "d"] /\
  List.length all_numbers = 45 /\ Forall plain_obs all_numbers.
Proof.
  split; [met|]. split; [met|]. split; [eapply allb; [apply good_textb_spec|by_compute]|]. split; [by_compute|].
  assert (F : Forall good_obs all_numbers) by (eapply allb; [apply good_obsb_spec|by_compute]). eapply Forall_impl; [|exact F].
  intros [[n e] d] [[[Ge _] _] [_ [_ X]]]. split; assumption.
Qed.

(* ---- the conditions are needed ---- *)
(* what the refutations keep: [good_obs] without the bound on the epoch, and any number of comments *)
Definition loose_obs (o : obs) : Prop :=
  let '(n, e, d) := o in date_text e /\ canonical d /\ exists f, In f observables /\ f_name f = n /\ f_ty f = TDec.
Definition observations (v : pyval) : list pyval :=
  match v with
  | VObj _ [_; (_, VObj _ [(_, VList segs)])] =>
    flat_map (fun s => match s with VObj _ [_; (_, VObj _ [_; (_, VList os)])] => os | _ => [] end) segs
  | _ => []
  end.
Definition tdm_segments (v : pyval) : nat := match v with VObj _ [_; (_, VObj _ [(_, VList segs)])] => List.length segs | _ => 0 end.
(* An epoch of thirty or more characters is written without a separator before the number: the number is read as the end
   of the epoch, and the observation has no value. *)
Definition long_epoch : str := lit "2005-159T17:41:00.12345678901234".
Theorem C34_long_epoch_refuted : exists header md t v,
  section "TdmHeader" header /\ section "TdmMetadata" md /\ loose_obs ("range", long_epoch, tenths 12) /\
  kvn_to_string demo_env (tdm_message header [tdm_segment (md, [], [("range", long_epoch, tenths 12)])]) = Ok t /\
  kvn_from_string demo_env t = Ok v /\
  map (component "epoch") (observations v) = [VStr (long_epoch ++ lit "1.2")] /\ map (component "range") (observations v) = [VNone].
Proof.
  exists tdm_header, (tdm_meta [] []). do 2 eexists. split; [met|]. split; [met|].
  split; [split; [apply date_textb_spec; by_compute|split; [exact I|apply number_obsb; by_compute]]|].
  split; [by_compute|]. split; [by_compute|]. split; by_compute.
Qed.
Print Assumptions C34_long_epoch_refuted.
(* Two comments of a data block make the reader see two segments, the first without observations. *)
Theorem C34_two_comments_refuted : exists header md os t v,
  section "TdmHeader" header /\ section "TdmMetadata" md /\ Forall good_text [lit "a"; lit "b"] /\ Forall good_obs os /\
  kvn_to_string demo_env (tdm_message header [tdm_segment (md, [lit "a"; lit "b"], os)]) = Ok t /\
  kvn_from_string demo_env t = Ok v /\ tdm_segments v = 2.
Proof.
  exists tdm_header, (tdm_meta [] []), [("range", lit "2005-159", tenths 12)]. do 2 eexists. split; [met|]. split; [met|].
  split; [eapply allb; [apply good_textb_spec|by_compute]|]. split; [eapply allb; [apply good_obsb_spec|by_compute]|].
  split; [by_compute|]. split; by_compute.
Qed.
Print Assumptions C34_two_comments_refuted.
(* A metadata field that only the second segment has: the text is written, and rejected on reading. *)
Theorem C34_later_field_refuted : exists header ps t,
  section "TdmHeader" header /\ Forall tdm_segment_ok ps /\
  kvn_to_string demo_env (tdm_message header (map tdm_segment ps)) = Ok t /\ kvn_from_string demo_env t = Err XmlReject.
Proof.
  exists tdm_header, [(tdm_meta [] ["mode"], [], [("range", lit "2005-159", tenths 12)]); (tdm_meta [] [], [], [("range", lit "2005-159", tenths 12)])].
  eexists. split; [met|]. split; [eapply allb; [apply tdm_segment_okb_spec|by_compute]|]. split; [by_compute|]. by_compute.
Qed.
Print Assumptions C34_later_field_refuted.
(* The same with a comment and a repeated observable: the comment of the data becomes one of the metadata. *)
Theorem C34_comment_moves_refuted : exists header ps t v,
  section "TdmHeader" header /\ Forall tdm_segment_ok ps /\
  kvn_to_string demo_env (tdm_message header (map tdm_segment ps)) = Ok t /\ kvn_from_string demo_env t = Ok v /\
  v <> tdm_message header (map tdm_segment ps).
Proof.
  exists tdm_header, [(tdm_meta [] ["mode"], [lit "d"], [("range", lit "2005-159", tenths 12); ("range", lit "2005-160", tenths 12)]);
                      (tdm_meta [] [], [], [("range", lit "2005-159", tenths 12)])].
  do 2 eexists. split; [met|]. split; [eapply allb; [apply tdm_segment_okb_spec|by_compute]|]. split; [by_compute|]. split; [by_compute|].
  intros H. apply (f_equal (fun v => match v with VObj _ [_; (_, VObj _ [(_, VList (VObj _ [(_, md); _] :: _))])] => List.length (comments_of md) | _ => 0 end)) in H.
  vm_compute in H. discriminate.
Qed.
Print Assumptions C34_comment_moves_refuted.
(* A later segment whose metadata starts with the comment "12": IndexError on reading what was written. *)
Theorem C34_short_number_refuted : exists header ps t,
  section "TdmHeader" header /\ Forall tdm_segment_ok ps /\
  kvn_to_string demo_env (tdm_message header (map tdm_segment ps)) = Ok t /\ kvn_from_string demo_env t = Err IndexError.
Proof.
  exists tdm_header, [(tdm_meta [] [], [], [("range", lit "2005-159", tenths 12)]); (tdm_meta ["12"] [], [], [("range", lit "2005-159", tenths 12)])].
  eexists. split; [met|]. split; [eapply allb; [apply tdm_segment_okb_spec|by_compute]|]. split; [by_compute|]. by_compute.
Qed.
Print Assumptions C34_short_number_refuted.
