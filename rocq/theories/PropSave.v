(* Property C55: messages saved to files and loaded again. *)
From Coq Require Import NArith ZArith List Bool String Arith Lia.
From Verif Require Import PyStr PyDec PyVal Schema KvnPre KvnTree KvnSeg XmlBind KvnBuild NdmXml KvnWrite NdmIo
     Spec SpecIo SpecKvn SpecObj SpecMsg SpecEph SpecTdm SpecAem SpecApm SpecSave IoFacts PropIo PropWrite CheckFacts CheckEph Demo
     PropRound PropCdm PropOem PropTdm PropAem PropApm.
Import ListNotations.
Local Open Scope string_scope.
Local Open Scope list_scope.

Lemma keeps_round u v : keeps u v -> exists t, kvn_to_string u v = Ok t /\ kvn_from_string u t = Ok v.
Proof.
  intros []; [apply C26_omm_round_trip_partial|apply C28_rdm_round_trip_partial|apply C27_opm_round_trip_partial|apply C29_cdm_round_trip_partial
    |apply C30_oem_round_trip_partial|apply C34_tdm_round_trip_partial|apply C36_aem_kept_partial|apply C47_apm_round_trip_partial]; assumption.
Qed.
Lemma keeps_root u v : keeps u v -> exists c vars, v = VObj c vars /\ In c root_classes /\ assoc "id" vars = None /\ assoc "version" vars = None.
Proof. intros []; (eexists; eexists; split; [reflexivity|]); (split; [vm_compute; tauto|split; reflexivity]). Qed.
(* written, recognised as KVN and read back *)
Lemma keeps_io u et_root xs_parse v t : keeps u v -> kvn_to_string u v = Ok t -> io_from_string u et_root xs_parse t = Ok v.
Proof.
  intros K W. destruct (keeps_round u v K) as [t' [W' R]]. rewrite W in W'. injection W' as <-.
  destruct (keeps_root u v K) as [c [vars [-> [Hc [Hi Hv]]]]]. destruct (C22_recognised_and_same_class u c vars t Hc Hi Hv W) as [F _].
  unfold io_from_string. rewrite F. exact R.
Qed.

(* Two messages that the format can hold have different texts. *)
Theorem C55_distinct : forall u v v', keeps u v -> keeps u v' -> kvn_to_string u v = kvn_to_string u v' -> v = v'.
Proof.
  intros u v v' K K' E. destruct (keeps_round u v K) as [t [W R]]. destruct (keeps_round u v' K') as [t' [W' R']].
  rewrite W, W' in E. injection E as <-. congruence.
Qed.
Print Assumptions C55_distinct.

(* Saving such a message can only fail for reasons of the file system. *)
Theorem C55_saves : forall u xs_render can_open can_encode fs v name cfg, keeps u v -> can_open name = true -> (forall t, can_encode t = true) ->
  exists fs', io_to_file u xs_render can_open can_encode fs v FKvn (PPath name) cfg = (fs', Ok tt).
Proof.
  intros u xr co ce fs v name cfg K O E. destruct (keeps_round u v K) as [t [W _]]. unfold io_to_file, kvn_to_file, write_text. rewrite W, O, E. eexists. reflexivity.
Qed.
Print Assumptions C55_saves.

Lemma saved_frame u xr co ce fs saves fs' n : all_saved u xr co ce fs saves fs' -> ~ In n (map fst saves) -> fs' n = fs n.
Proof.
  intros H. induction H as [fs|fs name v cfg fs1 saves fs2 H _ IH]; [reflexivity|]. intros N. cbn [map fst In] in N.
  rewrite IH by tauto. change fs1 with (fst (fs1, @Ok unit tt)). rewrite <- H. apply to_file_frame. cbn. intros ->. apply N. left. reflexivity.
Qed.
(* After any number of saves every file holds the message that was last saved under its name, whichever way it is loaded and whatever
   the line ends of the platform; other files are as before.  (With a carriage return in a value this fails: C58_return_refuted.) *)
Theorem C55_last_saved : forall u et_root xs_parse xs_render can_open can_encode fs saves fs' n,
  all_saved u xs_render can_open can_encode fs saves fs' ->
  (forall before v after q, saves = before ++ (n, v) :: after -> ~ In n (map fst after) -> keeps u v -> no_returns u v -> path_name q = n ->
     io_from_path u et_root xs_parse fs' q = Ok v /\ kvn_from_path u fs' q = Ok v) /\
  (~ In n (map fst saves) -> fs' n = fs n).
Proof.
  intros u et xp xr co ce fs saves fs' n H. split; [|exact (saved_frame u xr co ce fs saves fs' n H)].
  induction H as [fs|fs name w cfg fs1 saves fs2 H1 H2 IH]; intros before v after q E N K Nr Q; [destruct before; discriminate|].
  destruct before as [|b before]; [|injection E as _ E; exact (IH before v after q E N K Nr Q)].
  injection E as -> -> ->. destruct (keeps_round u v K) as [t [W R]]. pose proof (saved_frame u xr co ce fs1 after fs2 n H2 N) as F.
  unfold io_to_file, kvn_to_file, write_text in H1. rewrite W in H1. destruct (co n); [|discriminate]. destruct (ce t); [|discriminate]. injection H1 as <-.
  assert (Fn : fs2 n = Some (write_newlines (os_crlf u) t)) by (rewrite F; unfold fs_set; replace (str_eqb n n) with true by (symmetry; apply str_eqb_eq; reflexivity); reflexivity).
  unfold io_from_path, kvn_from_path, read_text. rewrite Q, Fn. cbn [guard_opt bind]. rewrite newlines_back by exact (Nr t W). split; [exact (keeps_io u et xp v t K W)|exact R].
Qed.
Print Assumptions C55_last_saved.
(* an OMM saved, an OEM saved over it, and an OMM saved under another name *)
Definition demo_omm : pyval := omm demo_header omm_meta (texts [lit "d 1"]) (omm_parts ["e 1"; "e 2"] ["s"]) demo_user.
Lemma demo_omm_keeps : keeps demo_env demo_omm.
Proof. destruct C26_example as [A [B [C [D [E [F G]]]]]]. apply keeps_omm; assumption. Qed.
Definition demo_eph : pyval := oem_message demo_header (map oem_segment demo_oem).
Lemma demo_eph_keeps : keeps demo_env demo_eph.
Proof. destruct C30_example as [A [B [C D]]]. apply keeps_oem; assumption. Qed.
Example C55_example : let saves := [(lit "a", demo_omm); (lit "a", demo_eph); (lit "b", demo_omm)] in
  Forall (fun nv => keeps demo_env (snd nv) /\ no_returns demo_env (snd nv)) saves /\ ~ In (lit "a") (map fst [(lit "b", demo_omm)]) /\
  exists fs', all_saved demo_env (fun _ _ => Err Opaque) (fun _ => true) (fun _ => true) (fun _ => None) saves fs'.
Proof.
  cbv zeta. split.
  { assert (N : forall v t, kvn_to_string demo_env v = Ok t -> forallb (fun c => negb (N.eqb c 13)) t = true -> no_returns demo_env v).
    { intros v t E F t' E' H. rewrite E in E'. injection E' as <-. rewrite forallb_forall in F. specialize (F _ H). discriminate F. }
    repeat (constructor; [split; [first [exact demo_omm_keeps|exact demo_eph_keeps]|eapply N; vm_compute; reflexivity]|]). constructor. }
  split; [intros [H|[]]; discriminate H|].
  assert (S : forall v, keeps demo_env v -> forall fs name, exists fs', io_to_file demo_env (fun _ _ => Err Opaque) (fun _ => true) (fun _ => true) fs v FKvn (PPath name) (None, None) = (fs', Ok tt)).
  { intros v K fs name. apply C55_saves; [exact K|reflexivity|reflexivity]. }
  destruct (S _ demo_omm_keeps (fun _ => None) (lit "a")) as [f1 E1]. destruct (S _ demo_eph_keeps f1 (lit "a")) as [f2 E2].
  destruct (S _ demo_omm_keeps f2 (lit "b")) as [f3 E3]. exists f3.
  eapply saved_one; [exact E1|]. eapply saved_one; [exact E2|]. eapply saved_one; [exact E3|]. apply saved_none.
Qed.
(* Without the condition on comments (part of [keeps]) messages with the same text need not be the same: a comment of the data block
   and a comment of its first section look alike. *)
Theorem C55_distinct_refuted : exists header md secs secs' cs t, section "NdmHeader" header /\ section "OmmMetadata" md /\ Forall good_text cs /\
  sections omm_sections secs /\ some_section secs /\ sections omm_sections secs' /\ some_section secs' /\
  kvn_to_string demo_env (omm header md (texts cs) secs VNone) = Ok t /\ kvn_to_string demo_env (omm header md [] secs' VNone) = Ok t /\
  omm header md (texts cs) secs VNone <> omm header md [] secs' VNone.
Proof.
  exists demo_header, omm_meta, (omm_parts [] []), (omm_parts ["e 1"] []), [lit "e 1"]. eexists. split; [met|]. split; [met|].
  split; [constructor; [apply good_textb_spec; by_compute|constructor]|]. split; [apply sectionsb_spec; by_compute|]. split; [apply some_sectionb_spec; by_compute|].
  split; [apply sectionsb_spec; by_compute|]. split; [apply some_sectionb_spec; by_compute|]. split; [by_compute|]. split; [by_compute|].
  intros H. apply (f_equal (at_path ["body"; "segment"; "data"; "comment"])) in H. vm_compute in H. discriminate.
Qed.
