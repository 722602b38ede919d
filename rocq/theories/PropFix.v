(* Property C68: what the written text depends on, and copies of a file. *)
From Coq Require Import NArith ZArith List Bool String Arith Lia.
From Verif Require Import PyStr PyDec PyVal Schema KvnPre KvnTree KvnSeg XmlBind KvnBuild NdmXml KvnWrite NdmIo
     Spec SpecIo SpecKvn SpecObj SpecMsg SpecApm SpecAgain SpecSave SpecFix IoFacts PropIo CheckFacts Demo PropRound PropCdm PropApm PropStable PropSave CheckAgain PropAgain.
Import ListNotations.
Local Open Scope string_scope.
Local Open Scope list_scope.

Lemma well_formed_settles u v : well_formed u v -> settles u v.
Proof.
  intros []; [apply omm_settles|apply rdm_settles|apply opm_settles|apply cdm_settles|]; try assumption. match goal with K : keeps u ?w |- _ => exists w; auto end.
Qed.
(* Writing, reading and writing again gives the same text. *)
Theorem C68_converts : forall u v, well_formed u v -> converts (kvn_to_string u) (kvn_from_string u) v.
Proof. intros u v W. apply settles_converts, well_formed_settles, W. Qed.
Print Assumptions C68_converts.
(* The text tells messages apart, but for the place of comments. *)
Theorem C68_distinct : forall u v w, well_formed u v -> well_formed u w -> kvn_to_string u v = kvn_to_string u w ->
  uncommented v = uncommented w /\ all_comments v = all_comments w.
Proof.
  intros u v w V W E. destruct (well_formed_settles u v V) as [v' [K [T [B S]]]]. destruct (well_formed_settles u w W) as [w' [K' [T' [B' S']]]].
  assert (v' = w') by (apply (C55_distinct u); congruence). subst w'. split; congruence.
Qed.
Print Assumptions C68_distinct.

(* A message is saved and the file copied by loading and saving, over and over under any names: every copy has the content of the
   first file and loads as the same message, which has the values and the comments of the message that was saved. *)
Theorem C68_copies : forall u et_root xs_parse xs_render can_open can_encode fs0 v n cfg fs ms fs2,
  well_formed u v -> no_returns u v -> io_to_file u xs_render can_open can_encode fs0 v FKvn (PPath n) cfg = (fs, Ok tt) ->
  copied u et_root xs_parse xs_render can_open can_encode fs n ms fs2 ->
  exists v', uncommented v' = uncommented v /\ all_comments v' = all_comments v /\
    forall m, In m (n :: ms) -> fs2 m = fs n /\ io_from_path u et_root xs_parse fs2 (PPath m) = Ok v'.
Proof.
  intros u et xp xr co ce fs0 v n cfg fs ms fs2 V Nr S C. destruct (well_formed_settles u v V) as [v' [K [T [B Cm]]]]. destruct (keeps_round u v' K) as [t [W R]].
  assert (Wv : kvn_to_string u v = Ok t) by congruence. pose proof (Nr t Wv) as Nt.
  assert (Load : forall f m, f m = Some (write_newlines (os_crlf u) t) -> io_from_path u et xp f (PPath m) = Ok v').
  { intros f m F. unfold io_from_path, read_text. cbn [path_name]. rewrite F. cbn [guard_opt bind]. rewrite newlines_back by exact Nt. exact (keeps_io u et xp v' t K W). }
  assert (Save : forall f m cfg f' w, kvn_to_string u w = Ok t -> io_to_file u xr co ce f w FKvn (PPath m) cfg = (f', Ok tt) ->
    f' m = Some (write_newlines (os_crlf u) t) /\ forall k, f k = Some (write_newlines (os_crlf u) t) -> f' k = Some (write_newlines (os_crlf u) t)).
  { intros f m cfg' f' w Ww H. unfold io_to_file, kvn_to_file, write_text in H. rewrite Ww in H. destruct (co m); [|discriminate]. destruct (ce t); [|discriminate]. injection H as <-. unfold fs_set. split.
    - replace (str_eqb m m) with true by (symmetry; apply str_eqb_eq; reflexivity). reflexivity.
    - intros k Hk. destruct (str_eqb _ _); [reflexivity|exact Hk]. }
  destruct (Save _ _ _ _ _ Wv S) as [Fn _]. exists v'. split; [exact B|]. split; [exact Cm|].
  assert (X : (forall k, fs k = Some (write_newlines (os_crlf u) t) -> fs2 k = Some (write_newlines (os_crlf u) t)) /\ forall m, In m ms -> fs2 m = Some (write_newlines (os_crlf u) t)).
  { clear - C Fn Load Save W. induction C as [f k|f k w m cfg' f1 ms f2 L H _ IH]; [split; [auto|intros m []]|]. rewrite (Load f k Fn) in L. injection L as <-.
    destruct (Save _ _ _ _ _ W H) as [F1 Keep]. destruct (IH F1) as [A1 A2]. split; [intros j Hj; apply A1, Keep, Hj|]. intros j [<-|Hj]; [apply A1, F1|apply A2, Hj]. }
  destruct X as [X1 X2]. intros m [<-|Hm]; (split; [rewrite Fn|apply Load]); auto.
Qed.
Print Assumptions C68_copies.

(* ---- concrete cases: comments that are not where the reader puts them ---- *)
Definition loose_omm : pyval := omm demo_header omm_meta (texts [lit "d 1"; lit "d 2"]) (omm_parts ["e 1"] ["s"]) demo_user.
Definition loose_cdm : pyval := cdm_message cdm_header rel_full (map (segment_object "CdmSegment" "CdmData") cdm_loose).
Lemma loose_omm_formed : well_formed demo_env loose_omm.
Proof.
  destruct C26_example as [A [B [_ [_ [_ [F _]]]]]]. apply well_formed_omm; try assumption.
  - repeat (constructor; [apply good_textb_spec; by_compute|]). constructor.
  - apply sectionsb_spec. by_compute.
  - apply some_sectionb_spec. by_compute.
Qed.
Lemma loose_cdm_formed : well_formed demo_env loose_cdm.
Proof. destruct C48_cdm_example as [A [B [C [D [E _]]]]]. apply well_formed_cdm; assumption. Qed.
Definition reread (m : pyval) : res pyval := match kvn_to_string demo_env m with Ok t => kvn_from_string demo_env t | Err e => Err e end.
(* the comments do move *)
Example C68_example : well_formed demo_env loose_omm /\ well_formed demo_env loose_cdm /\ no_returns demo_env loose_omm /\
  reread loose_omm <> Ok loose_omm /\ reread loose_cdm <> Ok loose_cdm /\
  exists fs fs2, io_to_file demo_env (fun _ _ => Err Opaque) (fun _ => true) (fun _ => true) (fun _ => None) loose_omm FKvn (PPath (lit "a")) (None, None) = (fs, Ok tt) /\
    copied demo_env (fun _ => None) (fun _ => Err Opaque) (fun _ _ => Err Opaque) (fun _ => true) (fun _ => true) fs (lit "a") [lit "b"; lit "a"; lit "c"] fs2.
Proof.
  split; [exact loose_omm_formed|]. split; [exact loose_cdm_formed|]. split.
  - assert (N : forall v t, kvn_to_string demo_env v = Ok t -> forallb (fun c => negb (N.eqb c 13)) t = true -> no_returns demo_env v).
    { intros v t E F t' E' H. rewrite E in E'. injection E' as <-. rewrite forallb_forall in F. specialize (F _ H). discriminate F. }
    eapply N; vm_compute; reflexivity.
  - split; [intros H; apply (f_equal (fun r => all_at ["body"; "segment"; "data"; "comment"] (ok_or_none r))) in H; vm_compute in H; discriminate H|].
    split; [intros H; apply (f_equal (fun r => flat_map (all_at ["data"; "comment"]) (match all_at ["body"; "segment"] (ok_or_none r) with [VList l] => l | _ => [] end))) in H; vm_compute in H; discriminate H|].
    do 2 eexists. split; [unfold io_to_file, kvn_to_file, write_text; let w := eval vm_compute in (kvn_to_string demo_env loose_omm) in replace (kvn_to_string demo_env loose_omm) with w by (vm_compute; reflexivity); reflexivity|].
    eapply copied_one with (cfg := (None, None)); [vm_compute; reflexivity|vm_compute; reflexivity|]. eapply copied_one with (cfg := (None, None)); [vm_compute; reflexivity|vm_compute; reflexivity|]. eapply copied_one with (cfg := (None, None)); [vm_compute; reflexivity|vm_compute; reflexivity|]. constructor.
Qed.
(* An attitude parameter message without Euler elements: the reader fills them in, and the text is longer the second time. *)
Theorem C68_apm_text_refuted : exists header md cs quat euler secs mans t v t',
  section "NdmHeader" header /\ section "ApmMetadata" md /\ Forall good_text cs /\ quat_ok quat /\ euler_ok euler /\ sections apm_sections secs /\
  Forall (section "AttManeuverParametersType") mans /\ no_new_fields mans /\
  kvn_to_string demo_env (apm header md (texts cs) quat euler secs mans) = Ok t /\ kvn_from_string demo_env t = Ok v /\
  kvn_to_string demo_env v = Ok t' /\ (List.length t < List.length t')%nat.
Proof.
  destruct C48_apm_example as [A [B [C [D [E [F [G [H _]]]]]]]].
  exists demo_header, apm_meta, [], (demo_quat ["q 1"; "q 2"]), VNone, apm_parts, apm_mans. do 3 eexists.
  do 8 (split; [assumption|]). split; [by_compute|]. split; [by_compute|]. split; [by_compute|]. apply Nat.ltb_lt. by_compute.
Qed.
Print Assumptions C68_apm_text_refuted.
