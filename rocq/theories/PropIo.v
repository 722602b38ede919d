(* Properties C01-C09, C40, C41: formats, files, reader and writer objects, combined messages. *)
From Coq Require Import NArith ZArith List Bool String Arith Lia.
From Verif Require Import PyStr PyDec PyVal Schema KvnPre KvnTree KvnSeg XmlBind KvnBuild
     NdmXml KvnWrite NdmIo Spec SpecIo StrFacts IoFacts XmlFacts Demo.
Import ListNotations.

(* ---- C01 ---- *)
(* every text has exactly one core: the hypothesis [is_core] below is always met *)
Theorem C01_core_exists : forall src, exists core, is_core src core /\ forall c, is_core src c -> c = core.
Proof. intros src. exists (strip src). split; [apply strip_core|]. intros c H. symmetry. apply strip_of_core, H. Qed.
Print Assumptions C01_core_exists.

Theorem C01_format_decision : forall src core, is_core src core ->
  (forall f, identify_format src = Ok f <-> looks_like core f) /\
  (identify_format src = Err ValueError <-> forall f, ~ looks_like core f).
Proof.
  intros src core H. split; [intros f; apply identify_format_iff, H|]. split.
  - intros E f L. apply (identify_format_iff _ _ f H) in L. congruence.
  - apply identify_format_none, H.
Qed.
Print Assumptions C01_format_decision.

Theorem C01_from_string : forall u et_root xs_parse src core, is_core src core ->
  (looks_like core FKvn -> io_from_string u et_root xs_parse src = kvn_from_string u src) /\
  (looks_like core FXml -> io_from_string u et_root xs_parse src
                           = snd (xml_from_string et_root xs_parse xmlio_new src)) /\
  (looks_like core FJson -> io_from_string u et_root xs_parse src = Err NotImplementedErr) /\
  ((forall f, ~ looks_like core f) -> io_from_string u et_root xs_parse src = Err ValueError).
Proof. exact io_from_string_spec. Qed.
Print Assumptions C01_from_string.

Theorem C01_white_space : forall w1 s w2, blank w1 -> blank w2 ->
  identify_format (w1 ++ s ++ w2) = identify_format s.
Proof. exact identify_format_pad. Qed.
Print Assumptions C01_white_space.

Example C01_example :
  is_core (lit "  CCSDS_OEM_VERS = 2.0 ") (lit "CCSDS_OEM_VERS = 2.0") /\
  looks_like (lit "CCSDS_OEM_VERS = 2.0") FKvn /\
  looks_like (lit "<ndm></ndm>") FXml /\ looks_like (lit "[]") FJson /\
  (forall f, ~ looks_like (lit "<ndm") f) /\ blank (lit "  ").
Proof.
  split; [exact (strip_core (lit "  CCSDS_OEM_VERS = 2.0 "))|].
  split; [apply ll_kvn; exists (lit "OEM_VERS = 2.0"); reflexivity|].
  split; [apply ll_xml; [exists (lit "ndm></ndm>")|exists (lit "<ndm></ndm")]; reflexivity|].
  split; [apply ll_json; [exists (lit "]")|exists (lit "[")]; reflexivity|].
  split.
  - intros f H. assert (E : identify_format (lit "<ndm") = Ok f).
    { apply (identify_format_iff _ (lit "<ndm") f); [exact (strip_core (lit "<ndm"))|exact H]. }
    discriminate.
  - intros c H. repeat (destruct H as [<-|H]; [reflexivity|]). destruct H.
Qed.

(* ---- C02 ---- *)
Theorem C02_json_refused : forall u et_root xs_parse xs_render can_open can_encode src core v fs p cfg,
  is_core src core -> begins (lit "[") core -> ends (lit "]") core ->
  io_from_string u et_root xs_parse src = Err NotImplementedErr /\
  io_to_string u xs_render v FJson cfg = Err NotImplementedErr /\
  io_to_file u xs_render can_open can_encode fs v FJson p cfg = (fs, Err NotImplementedErr).
Proof.
  intros u et xp xr co ce src core v fs p cfg H B E. split; [|split; reflexivity].
  apply (io_from_string_spec u et xp src core H). apply ll_json; assumption.
Qed.
Print Assumptions C02_json_refused.
Example C02_example : is_core (lit " [{}] ") (lit "[{}]") /\ begins (lit "[") (lit "[{}]") /\ ends (lit "]") (lit "[{}]").
Proof.
  split; [exact (strip_core (lit " [{}] "))|]. split; [exists (lit "{}]")|exists (lit "[{}")]; reflexivity.
Qed.

(* ---- C03 ---- *)
(* reading a path (given as str or as Path) or bytes is reading the text, whatever line ends the
   file is stored with; so for the readers of a single format; a file written by to_file reads back
   as the text that to_string returns, unless that text contains a carriage return *)
Theorem C03_read_alike : forall u et_root xs_parse decode fs q raw t b,
  fs (path_name q) = Some raw -> reads_as raw t -> decode b = Some t ->
  io_from_path u et_root xs_parse fs q = io_from_string u et_root xs_parse t /\
  io_from_bytes u et_root xs_parse decode b = io_from_string u et_root xs_parse t /\
  kvn_from_path u fs q = kvn_from_string u t /\
  xml_from_path et_root xs_parse fs q = snd (xml_from_string et_root xs_parse xmlio_new t) /\
  xml_from_bytes et_root xs_parse decode b = snd (xml_from_string et_root xs_parse xmlio_new t).
Proof.
  intros u et xp decode fs q raw t b Hf Ht Hb. apply read_newlines_spec in Ht as <-.
  unfold io_from_path, kvn_from_path, xml_from_path, io_from_bytes, xml_from_bytes, read_text.
  rewrite Hf, Hb. repeat split.
Qed.
Print Assumptions C03_read_alike.
(* every file has exactly one text *)
Theorem C03_text_exists : forall raw, exists t, reads_as raw t /\ forall t', reads_as raw t' -> t' = t.
Proof.
  intros raw. exists (read_newlines raw). split; [apply read_newlines_spec; reflexivity|].
  intros t' H. apply read_newlines_spec in H. congruence.
Qed.
Print Assumptions C03_text_exists.
(* a file that is missing or cannot be decoded is an error of the readers, and nothing else *)
Theorem C03_missing : forall u et_root xs_parse decode fs q b,
  fs (path_name q) = None -> decode b = None ->
  io_from_path u et_root xs_parse fs q = Err OSErr /\ kvn_from_path u fs q = Err OSErr /\ xml_from_path et_root xs_parse fs q = Err OSErr /\
  io_from_bytes u et_root xs_parse decode b = Err ValueError /\ xml_from_bytes et_root xs_parse decode b = Err ValueError.
Proof.
  intros u et xp decode fs q b Hf Hb. unfold io_from_path, kvn_from_path, xml_from_path, io_from_bytes, xml_from_bytes, read_text.
  rewrite Hf, Hb. repeat split.
Qed.
Print Assumptions C03_missing.
Theorem C03_write_then_read : forall u et_root xs_parse xs_render can_open can_encode fs v f p q cfg fs' t,
  io_to_file u xs_render can_open can_encode fs v f p cfg = (fs', Ok tt) ->
  io_to_string u xs_render v f cfg = Ok (Some t) -> path_name q = path_name p ->
  no_char c_return t ->
  io_from_path u et_root xs_parse fs' q = io_from_string u et_root xs_parse t.
Proof. exact file_round. Qed.
Print Assumptions C03_write_then_read.
Example C03_example :
  let fs := fun _ : str => @None str in
  exists t fs', io_to_string demo_env (fun _ _ => Err Opaque) (empty_message "Omm") FKvn (None, None) = Ok (Some t)
   /\ io_to_file demo_env (fun _ _ => Err Opaque) (fun _ => true) (fun _ => true) fs (empty_message "Omm")
        FKvn (PPath (lit "a")) (None, None) = (fs', Ok tt) /\ no_char c_return t /\
  reads_as (lit "A" ++ [c_return; c_nl] ++ lit "B" ++ [c_return; c_return]) (lit "A" ++ [c_nl] ++ lit "B" ++ [c_nl; c_nl]).
Proof.
  eexists; eexists; split; [vm_compute; reflexivity|split; [vm_compute; reflexivity|split; [|apply read_newlines_spec; reflexivity]]].
  intros H. vm_compute in H. repeat (destruct H as [H|H]; [discriminate|]). exact H.
Qed.
(* For texts with a carriage return see C58_return_refuted. *)

(* ---- C04 ---- *)
Theorem C04_failed_conversion : forall u xs_render can_open can_encode fs v f p cfg e,
  io_to_string u xs_render v f cfg = Err e ->
  exists e', io_to_file u xs_render can_open can_encode fs v f p cfg = (fs, Err e').
Proof. exact to_file_convert_fails. Qed.
Print Assumptions C04_failed_conversion.
Theorem C04_success : forall u xs_render can_open can_encode fs v f p cfg fs',
  io_to_file u xs_render can_open can_encode fs v f p cfg = (fs', Ok tt) ->
  match io_to_string u xs_render v f cfg with
  | Ok (Some t) => (exists raw, fs' (path_name p) = Some raw /\ on_disk u t raw) /\ forall q, q <> path_name p -> fs' q = fs q
  | Ok None => forall q, fs' q = fs q
  | Err _ => False
  end.
Proof.
  intros u xr co ce fs v f p cfg fs' H. apply (to_file_ok u xr co ce) in H. unfold to_string in H.
  destruct (io_to_string u xr v f cfg) as [[t|]|]; [|exact H|exact H]. destruct H as [H F]. split; [|exact F].
  eexists. split; [exact H|apply on_disk_written].
Qed.
Print Assumptions C04_success.
Theorem C04_other_files : forall u xs_render can_open can_encode fs v f p cfg q,
  q <> path_name p -> fst (io_to_file u xs_render can_open can_encode fs v f p cfg) q = fs q.
Proof. exact to_file_frame. Qed.
Print Assumptions C04_other_files.
Example C04_example :
  (* a combined message of two messages cannot be converted *)
  io_to_string demo_env (fun _ _ => Err Opaque)
    (VObj "Ndm" (ndm_vars [empty_message "Omm"; empty_message "Omm"] [])) FKvn (None, None)
  = Err NotImplementedErr /\
  (* an OMM can, and is written *)
  exists fs', io_to_file demo_env (fun _ _ => Err Opaque) (fun _ => true) (fun _ => true) (fun _ => None)
        (empty_message "Omm") FKvn (PPath (lit "a")) (None, None) = (fs', Ok tt) /\
    fs' (lit "a") = Some (lit "CCSDS_OMM_VERS       = 2.0").
Proof. split; [vm_compute; reflexivity|]. eexists; split; vm_compute; reflexivity. Qed.

(* ---- C41: an existing file survives every failing to_file.  False: text that cannot be
   encoded is only noticed after the file has been truncated. ---- *)
Theorem C41_refuted : exists u xs_render can_open can_encode fs v p cfg e,
  let r := io_to_file u xs_render can_open can_encode fs v FKvn (PPath p) cfg in
  snd r = Err e /\ fs p = Some (lit "precious") /\ fst r p = Some [].
Proof.
  exists demo_env, (fun _ _ => Err Opaque), (fun _ => true), (fun _ => false),
    (fun _ => Some (lit "precious")), (empty_message "Omm"), (lit "a"), (None, None), ValueError.
  vm_compute. repeat split.
Qed.
Print Assumptions C41_refuted.

(* ---- C05 ---- *)
Theorem C05_no_memory : forall u history src,
  snd (kvnio_read u (kvnio_history u history) src) = snd (kvnio_read u kvnio_new src) /\
  snd (kvnio_read u (kvnio_history u history) src) = kvn_from_string u src.
Proof. intros. rewrite !kvnio_read_fresh. split; reflexivity. Qed.
Print Assumptions C05_no_memory.
Example C05_example :
  (* a history that leaves traces in the reader, followed by a readable document *)
  kvnio_history demo_env [lit "CCSDS_XXX_VERS = 1"; omm_doc] <> kvnio_new /\
  exists v, snd (kvnio_read demo_env (kvnio_history demo_env [lit "CCSDS_XXX_VERS = 1"; omm_doc]) omm_doc) = Ok v.
Proof. split; [intros H; apply (f_equal ki_tree) in H; vm_compute in H; discriminate|]. eexists. vm_compute. reflexivity. Qed.

(* ---- C06: the schema location of every call is honoured.  False for a re-used writer object;
   the first call's location is used for ever; true through NdmIo. ---- *)
Theorem C06_refuted : exists xs_render calls,
  xml_calls xs_render xmlio_new calls <> map (fun vc => xs_render (snd vc) (fst vc)) calls.
Proof.
  exists (fun cfg _ => match fst cfg with Some s => Ok s | None => Ok [] end),
    [(VNone, (Some (lit "a"), None)); (VNone, (Some (lit "b"), None))].
  vm_compute. discriminate.
Qed.
Print Assumptions C06_refuted.
Theorem C06_first_location_wins : forall xs_render v cfg rest,
  xml_calls xs_render xmlio_new ((v, cfg) :: rest)
  = map (fun vc => xs_render cfg (fst vc)) ((v, cfg) :: rest).
Proof. exact xml_calls_char. Qed.
Print Assumptions C06_first_location_wins.
Theorem C06_through_NdmIo : forall u xs_render calls,
  map (fun vc => io_to_string u xs_render (fst vc) FXml (snd vc)) calls
  = map (fun vc => match xs_render (snd vc) (fst vc) with Ok s => Ok (Some s) | Err e => Err e end) calls.
Proof. intros. apply map_ext. intros [v cfg]. reflexivity. Qed.
Print Assumptions C06_through_NdmIo.

(* ---- C07 ---- *)
Theorem C07_combined : forall et_root xs_parse st src vars,
  xs_parse src = Ok (VObj "Ndm" vars) ->
  (forall t, et_root src = Some t -> ~ message_tag t) ->
  combined_of raw_message vars ->
  exists vars' ms, concrete_vars vars vars' /\ messages vars' ms /\
    (forall m, ms = [m] -> snd (xml_from_string et_root xs_parse st src) = Ok m) /\
    (List.length ms <> 1 -> snd (xml_from_string et_root xs_parse st src) = Ok (VObj "Ndm" vars')).
Proof. exact xml_combined. Qed.
Print Assumptions C07_combined.
Theorem C07_single_root : forall et_root xs_parse st src t c vars,
  xs_parse src = Ok (VObj c vars) -> c <> "Ndm"%string -> et_root src = Some t -> message_tag t ->
  snd (xml_from_string et_root xs_parse st src) = Ok (VObj c vars).
Proof. exact xml_single. Qed.
Print Assumptions C07_single_root.
Definition two_raw : list (string * pyval) :=
  ndm_vars [VObj "OmmType" [("header"%string, VNone)]] [VObj "OpmType" []].
Example C07_example : combined_of raw_message two_raw /\ message_tag (lit "omm") /\ ~ message_tag (lit "ndm").
Proof.
  split; [|split].
  - unfold two_raw, ndm_vars, combined_of.
    constructor; [left; left; reflexivity|]. constructor; [left; right; reflexivity|].
    repeat (constructor; [right; eexists; split; [reflexivity|]|]); try constructor; try constructor.
    + exists "OmmType"%string, "Omm"%string. eexists; split; [reflexivity|constructor].
    + exists "OpmType"%string, "Opm"%string. eexists; split; [reflexivity|constructor].
  - unfold message_tag. cbn [In]. tauto.
  - intros H. repeat (destruct H as [H|H]; [vm_compute in H; discriminate|]). destruct H.
Qed.

(* ---- C08 ---- *)
(* the variables of an Ndm object are those of its class *)
Definition ndm_object (vars : list (string * pyval)) : Prop :=
  map fst vars = ["message_id"; "comment"; "aem"; "apm"; "cdm"; "oem"; "omm"; "opm"; "rdm"; "tdm"]%string.
Lemma ndm_object_no_id vars : ndm_object vars -> assoc "id" vars = None.
Proof.
  unfold ndm_object. intros H.
  assert (G : forall l (v : list (string * pyval)), map fst v = l -> ~ In "id"%string l -> assoc "id" v = None).
  { clear. intros l v; revert l; induction v as [|[k x] v IH]; intros l <-; [reflexivity|]. cbn. intros N.
    destruct (String.eqb k "id") eqn:E; [apply String.eqb_eq in E; destruct N; left; exact E|].
    apply (IH _ eq_refl). intros Hin; apply N; right; exact Hin. }
  apply (G _ _ H). intros Hin. repeat (destruct Hin as [Hin|Hin]; [discriminate|]). destruct Hin.
Qed.
Lemma concrete_user l l' : Forall2 concrete l l' -> Forall user_message l'.
Proof.
  induction 1 as [|a b l l' H _ IH]; constructor; [|exact IH]. destruct H as [c d vs S]. exists c, d, vs. split; [reflexivity|exact S].
Qed.
Lemma messages_user vars vars' ms : concrete_vars vars vars' -> messages vars' ms -> Forall user_message ms.
Proof.
  intros C; revert ms; induction C as [|k v r r' Hk _ IH|k l l' r r' Hk F _ IH]; intros ms M; inversion M; subst; try contradiction.
  - constructor.
  - apply IH; assumption.
  - apply Forall_app; split; [eapply concrete_user; exact F|apply IH; assumption].
Qed.
Theorem C08_agree : forall u et_root xs_parse st src vars vars',
  xs_parse src = Ok (VObj "Ndm" vars) -> (forall t, et_root src = Some t -> ~ message_tag t) ->
  combined_of raw_message vars -> concrete_vars vars vars' -> ndm_object vars' ->
  (kvn_to_string u (VObj "Ndm" vars') = Err NotImplementedErr <->
   snd (xml_from_string et_root xs_parse st src) = Ok (VObj "Ndm" vars')).
Proof.
  intros u et xp st src vars vars' Hp Ht Hc Hv Hn.
  destruct (xml_combined et xp st src vars Hp Ht Hc) as [vars2 [ms [Hv2 [Hm [H1 H2]]]]].
  assert (vars2 = vars').
  { pose proof (downcast_vars_spec _ _ Hv). pose proof (downcast_vars_spec _ _ Hv2). congruence. }
  subst vars2. destruct (Nat.eq_dec (List.length ms) 1) as [L|L].
  - destruct ms as [|m [|m2 ms]]; try discriminate. rewrite (H1 m eq_refl).
    rewrite (kvn_single_ndm u _ m Hm (ndm_object_no_id _ Hn)). split; [discriminate|].
    intros E. injection E as E. pose proof (messages_user _ _ _ Hv Hm) as U. inversion U as [|? ? [c [d [vs [Em S]]]] _]; subst.
    injection Em; intros; subst d. inversion S.
  - rewrite (H2 L). split; [reflexivity|]. intros _. eapply kvn_multi; eassumption.
Qed.
Print Assumptions C08_agree.
Example C08_example : combined_of raw_message two_raw /\ ndm_object two_raw /\
  exists vars', concrete_vars two_raw vars' /\ ndm_object vars'.
Proof.
  split; [apply C07_example|]. split; [reflexivity|].
  destruct (concrete_vars_total _ (proj1 C07_example)) as [vars' H]. exists vars'. split; [exact H|].
  apply downcast_vars_spec in H. vm_compute in H. injection H; intros <-. reflexivity.
Qed.

(* ---- C09: a combined message holding one message writes like that message.  False: the writer
   never unwraps it and always raises AttributeError. ---- *)
Theorem C09_refuted : exists u vars m t,
  messages vars [m] /\ kvn_to_string u m = Ok t /\ kvn_to_string u (VObj "Ndm" vars) <> Ok t.
Proof.
  exists demo_env, (ndm_vars [empty_message "Omm"] []), (empty_message "Omm"). eexists. split.
  - unfold ndm_vars.
    apply (ms_head "message_id"); [left; reflexivity|]. apply (ms_head "comment"); [right; reflexivity|].
    repeat (apply (ms_list _ []); [intros [H|H]; discriminate|]).
    apply (ms_list _ [empty_message "Omm"] _ []); [intros [H|H]; discriminate|].
    repeat (apply (ms_list _ []); [intros [H|H]; discriminate|]). constructor.
  - split; [vm_compute; reflexivity|]. vm_compute. discriminate.
Qed.
Print Assumptions C09_refuted.
Theorem C09_always_fails : forall u vars m, messages vars [m] -> ndm_object vars ->
  kvn_to_string u (VObj "Ndm" vars) = Err AttributeError.
Proof. intros u vars m H N. apply (kvn_single_ndm u vars m H (ndm_object_no_id _ N)). Qed.
Print Assumptions C09_always_fails.

(* ---- C40: an unknown output format is reported.  False: None is returned, no file is written
   and nothing is raised. ---- *)
Theorem C40_refuted : forall u xs_render can_open can_encode fs v p cfg,
  io_to_string u xs_render v FOther cfg = Ok None /\
  io_to_file u xs_render can_open can_encode fs v FOther p cfg = (fs, Ok tt).
Proof. intros. split; reflexivity. Qed.
Print Assumptions C40_refuted.

(* ---- C42: to_file accepts a path given as str or as Path for every format.  False for KVN. ---- *)
Theorem C42_refuted : exists u xs_render can_open can_encode fs v p cfg fs',
  io_to_file u xs_render can_open can_encode fs v FKvn (PPath p) cfg = (fs', Ok tt) /\
  io_to_file u xs_render can_open can_encode fs v FKvn (PStr p) cfg = (fs, Err AttributeError).
Proof.
  exists demo_env, (fun _ _ => Err Opaque), (fun _ => true), (fun _ => true), (fun _ => None),
    (empty_message "Omm"), (lit "a"), (None, None). eexists. split; vm_compute; reflexivity.
Qed.
Print Assumptions C42_refuted.
Theorem C42_xml_alike : forall u xs_render can_open can_encode fs v p cfg,
  io_to_file u xs_render can_open can_encode fs v FXml (PPath p) cfg
  = io_to_file u xs_render can_open can_encode fs v FXml (PStr p) cfg.
Proof. reflexivity. Qed.
Print Assumptions C42_xml_alike.
