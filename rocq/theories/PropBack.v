(* C65: a message that was read can be written. *)
From Coq Require Import NArith ZArith List Bool String Arith Lia.
From Verif Require Import PyStr PyDec PyVal Schema KvnPre KvnTree KvnSeg XmlBind KvnBuild KvnWrite SpecBack
     StrFacts PreFacts SegFacts BuildFacts WriteFacts ErrFacts BackFacts BackRead BackErrs PropSeg Demo.
Import ListNotations.
Local Open Scope string_scope.
Local Open Scope list_scope.

Lemma root_named c : In c back_roots -> (exists mn, meta_name c = Some mn /\ String.eqb mn "ndm" = false) /\
  (~ In "id" (attrs c) /\ ~ In "version" (attrs c)) /\ mem_string c special_output_data_classes = false /\ mem_string "units" (attrs c) = false /\
  exists ids vs, forall vars, map fst vars = attrs c -> py_getattr (VObj c vars) "id" = Ok (VStr ids) /\ py_getattr (VObj c vars) "version" = Ok vs /\ exists s, py_str vs = Ok s.
Proof.
  intros H.
  assert (R : forall c n, ~ In n (attrs c) -> forall vars : list (string * pyval), map fst vars = attrs c -> assoc n vars = None).
  { intros k n N vars E. destruct (assoc n vars) as [x|] eqn:A; [|reflexivity]. exfalso. apply N. rewrite <- E. apply assoc_in in A. apply (in_map fst) in A. exact A. }
  assert (B : forallb (fun c => negb (mem_string "id" (attrs c)) && negb (mem_string "version" (attrs c))) back_roots = true) by (vm_compute; reflexivity).
  rewrite forallb_forall in B. specialize (B c H). apply andb_true_iff in B. destruct B as [B1 B2]. apply negb_true_iff in B1, B2.
  assert (N1 : ~ In "id" (attrs c)) by (intros I; apply mem_string_in in I; congruence). assert (N2 : ~ In "version" (attrs c)) by (intros I; apply mem_string_in in I; congruence). clear B1 B2.
  repeat (destruct H as [<-|H]; [split; [eexists; split; vm_compute; reflexivity|]; split; [split; assumption|]; split; [reflexivity|]; split; [vm_compute; reflexivity|];
    do 2 eexists; intros vars E; unfold py_getattr; rewrite (R _ _ N1 _ E), (R _ _ N2 _ E); split; [vm_compute; reflexivity|]; split; [vm_compute; reflexivity|]; eexists; vm_compute; reflexivity|]).
  destruct H.
Qed.
Lemma read_shape u src c vars : empty_read u -> kvn_from_string u src = Ok (VObj c vars) -> c <> "Aem" ->
  (forall m x, In (m, x) vars -> shaped m x) /\
  exists first, kvn_to_string u (VObj c vars) = do o <- collate_vars (collate_sub u) vars [first]; Ok (join [c_nl] o).
Proof.
  intros Em H Na. unfold kvn_from_string in H. inv_ok H. rename a into ls. unfold read_lines in H. inv_ok H. rename a into c0.
  assert (Hin : In c0 root_classes).
  { unfold identify_data_type in E0. inv_ok E0. inv_ok E0. unfold guard_opt in E0. destruct (find_element a0) eqn:F; [|discriminate]. injection E0 as <-. apply find_element_in in F. exact F. }
  rewrite (init_object_map_ok c0 Hin) in H. cbn [bind] in H.
  assert (Hb : c0 = "Aem" \/ In c0 back_roots) by (clear - Hin; repeat (destruct Hin as [<-|Hin]; [cbn; tauto|]); destruct Hin).
  assert (Ec : c = c0).
  { destruct (read_lines_class u ls c0 E0 (VObj c vars)) as [vs Hv]; [|congruence]. unfold read_lines. rewrite E0. cbn [bind]. rewrite (init_object_map_ok c0 Hin). exact H. }
  destruct Hb as [Hb|Hb]; [congruence|]. subst c0. apply read_built in H; [|exact Em|exact Hb]. rewrite (root_cls c Hin) in H.
  destruct H as [H|[vs [H [Nm D]]]]; [discriminate|]. injection H as <-.
  destruct (root_named c Hb) as [[mn [Mn En]] [_ [Sp [Un [ids [ver Hg]]]]]]. destruct (Hg vars Nm) as [G1 [G2 [s G3]]].
  split; [|exists (fill_kvn u ids s []); unfold kvn_to_string; rewrite Mn; cbn [guard_opt bind]; rewrite En; cbn [bind]; rewrite G1, G2; cbn [bind]; rewrite G3; reflexivity].
  destruct D as [V|[_ [S|[_ A]]]]; [| |exact A]; exfalso.
  - assert (X : In "units" (map fst vars)) by (destruct V as [x [un [_ [_ [->|[p [a [m [z [-> _]]]]]]]]]]; cbn; auto). rewrite Nm in X. apply mem_string_in in X. congruence.
  - destruct S as [[-> _]|[[-> _]|[-> _]]]; discriminate.
Qed.
Theorem C65_written : forall u src c vars, empty_read u -> kvn_from_string u src = Ok (VObj c vars) -> c <> "Aem" ->
  ~ odd_unit (VObj c vars) -> ~ no_number (VObj c vars) -> exists t, kvn_to_string u (VObj c vars) = Ok t.
Proof.
  intros u src c vars Em H Na O N. destruct (read_shape u src c vars Em H Na) as [A [first ->]].
  destruct (vars_total (collate_sub u) vars) with (out := [first]) as [o ->]; [|eexists; reflexivity].
  intros n x out I. apply all_written; [exact (A n x I)|exact (well_attr _ _ _ _ (conj O N) I)].
Qed.
Print Assumptions C65_written.
Theorem C65_raises : forall u src c vars e, empty_read u -> kvn_from_string u src = Ok (VObj c vars) -> c <> "Aem" ->
  kvn_to_string u (VObj c vars) = Err e ->
  (e = AttributeError /\ odd_unit (VObj c vars)) \/ (e = IndexError /\ no_number (VObj c vars)).
Proof.
  intros u src c vars e Em H Na. destruct (read_shape u src c vars Em H Na) as [A [first ->]]. revert e.
  change (fair (VObj c vars) (do o <- collate_vars (collate_sub u) vars [first]; Ok (join [c_nl] o))).
  apply fair_bind; [|intros; apply fair_ok; eexists; reflexivity]. apply vars_fair. intros n x out I.
  eapply fair_up; [|apply all_fair; exact (A n x I)]. intros y Hy. eapply inside_attr; [exact I|exact Hy].
Qed.
Print Assumptions C65_raises.

(* ---- which units stop the writing ---- *)
Fixpoint oddb (v : pyval) : bool :=
  match v with
  | VObj c vars => existsb (fun nx => String.eqb (fst nx) "units" && match snd nx with VStr (_ :: _) => true | _ => false end) vars || existsb (fun nx => oddb (snd nx)) vars
  | VList l => existsb oddb l
  | _ => false
  end.
Fixpoint bareb (v : pyval) : bool :=
  match v with
  | VObj c vars => (String.eqb c "TrackingDataObservationType" && negb (existsb (fun nx => negb (String.eqb (fst nx) "epoch") && match snd nx with VDec _ => true | _ => false end) vars)) || existsb (fun nx => bareb (snd nx)) vars
  | VList l => existsb bareb l
  | _ => false
  end.
Lemma oddb_spec v : oddb v = false -> ~ odd_unit v.
Proof.
  intros B [c [vars [s [I [U N]]]]]. induction I as [|c0 n y vars0 J I IH|y l J I IH].
  - cbn in B. apply orb_false_iff in B. destruct B as [B _]. assert (X : existsb (fun nx => String.eqb (fst nx) "units" && match snd nx with VStr (_ :: _) => true | _ => false end) vars = true); [|congruence].
    apply existsb_exists. exists ("units", VStr s). split; [exact U|]. cbn. destruct s; [congruence|reflexivity].
  - apply IH. cbn in B. apply orb_false_iff in B. destruct B as [_ B]. destruct (oddb y) eqn:E; [|reflexivity]. exfalso.
    assert (X : existsb (fun nx => oddb (snd nx)) vars0 = true) by (apply existsb_exists; exists (n, y); split; [exact J|exact E]). congruence.
  - apply IH. cbn in B. destruct (oddb y) eqn:E; [|reflexivity]. exfalso. assert (X : existsb oddb l = true) by (apply existsb_exists; exists y; split; [exact J|exact E]). congruence.
Qed.
Lemma bareb_spec v : bareb v = false -> ~ no_number v.
Proof.
  intros B [vars [I U]]. induction I as [|c0 n y vars0 J I IH|y l J I IH].
  - cbn in B. apply orb_false_iff in B. destruct B as [B _]. apply negb_false_iff, existsb_exists in B. destruct B as [[n x] [J B]]. apply andb_true_iff in B. destruct B as [B1 B2]. cbn in B1, B2.
    destruct x; try discriminate. rewrite (U n d J) in B1. discriminate.
  - apply IH. cbn in B. apply orb_false_iff in B. destruct B as [_ B]. destruct (bareb y) eqn:E; [|reflexivity]. exfalso.
    assert (X : existsb (fun nx => bareb (snd nx)) vars0 = true) by (apply existsb_exists; exists (n, y); split; [exact J|exact E]). congruence.
  - apply IH. cbn in B. destruct (bareb y) eqn:E; [|reflexivity]. exfalso. assert (X : existsb bareb l = true) by (apply existsb_exists; exists y; split; [exact J|exact E]). congruence.
Qed.
Lemma vars_each f vars : forall out o, collate_vars f vars out = Ok o -> forall n x, In (n, x) vars -> exists out' o', f n x out' = Ok o'.
Proof.
  induction vars as [|[m y] vars IH]; intros out o H n x I; [destruct I|]. cbn [collate_vars] in H. destruct (f m y out) as [o1|] eqn:E; [|discriminate].
  destruct I as [I|I]; [injection I as <- <-; eauto|exact (IH _ _ H n x I)].
Qed.
Lemma assoc_split {A} n pre (x : A) post : ~ In n (map fst pre) -> assoc n (pre ++ (n, x) :: post) = Some x.
Proof.
  induction pre as [|[k y] pre IH]; intros N; cbn [app assoc]; [rewrite String.eqb_refl; reflexivity|]. destruct (String.eqb k n) eqn:E; [apply String.eqb_eq in E; destruct N; left; exact E|].
  apply IH. intros I. apply N. right. exact I.
Qed.
Lemma odd_stops u n x out o : has_odd_unit x -> n <> "comment" -> collate_sub u n x out <> Ok o.
Proof.
  intros [c [pre [s [post [-> [Np Ns]]]]]] Nc H. cbn [collate_sub] in H. apply String.eqb_neq in Nc. rewrite Nc in H.
  assert (M : mem_string "units" (map fst (pre ++ ("units", VStr s) :: post)) = true) by (apply mem_string_in; rewrite map_app; apply in_or_app; right; left; reflexivity).
  rewrite M in H. inv_ok H. clear H. inv_ok E. clear E. unfold value_obj_line in E0. inv_ok E0. inv_ok E0.
  cbn [py_getattr] in E1. rewrite (assoc_split _ _ _ _ Np) in E1. injection E1 as <-. inv_ok E0. inv_ok E0. destruct s as [|ch s]; [congruence|]. cbn [truthy] in E0. discriminate.
Qed.
Theorem C65_unit : forall u v t x, kvn_to_string u v = Ok t -> line_of x v -> ~ has_odd_unit x.
Proof.
  assert (G : forall u x v, line_of x v -> forall c vars, v = VObj c vars -> forall out o, collate_vars (collate_sub u) vars out = Ok o -> ~ has_odd_unit x).
  { intros u x v L. induction L as [c0 n vars0 I N1 N2|c0 n c' vars0 vars' I R U L IH|c0 n l c' vars0 vars' I N1 N2 J R L IH]; intros c vars E out o H; injection E as -> ->;
      destruct (vars_each _ _ _ _ H _ _ I) as [out1 [o1 H1]].
    - intros O. exact (odd_stops _ _ _ _ _ O N1 H1).
    - cbn [collate_sub] in H1. inv_ok H1. clear H1. destruct (String.eqb n "comment"); [discriminate|].
      destruct (mem_string "units" (map fst vars')) eqn:M; [apply mem_string_in in M; destruct (U M)|]. destruct (String.eqb n "user_defined"); [discriminate|].
      destruct (mem_string c' special_output_data_classes) eqn:S; [apply mem_string_in in S; destruct (R S)|]. inv_ok E. eapply IH; [reflexivity|exact E0].
    - apply String.eqb_neq in N1, N2. cbn [collate_sub] in H1. rewrite N1, N2 in H1. inv_ok H1. clear H1. inv_ok E. clear E.
      match type of E0 with _ l ?o1 = _ => generalize dependent o1 end. revert a0. clear I. induction l as [|y l IHl]; [destruct J|]. intros o2 o3.
      destruct J as [->|J].
      + intros X. inv_ok X. destruct (mem_string c' special_output_data_classes) eqn:S; [apply mem_string_in in S; destruct (R S)|]. inv_ok E. eapply IH; [reflexivity|exact E0].
      + destruct y; try discriminate. intros X. inv_ok X. exact (IHl J _ _ X). }
  intros u v t x H L. unfold kvn_to_string in H. destruct v as [| | | | |c vars|]; try discriminate. inv_ok H. inv_ok H. destruct a0; [discriminate|]. inv_ok H. inv_ok H. destruct a0; try discriminate. inv_ok H. inv_ok H.
  eapply G; [exact L|reflexivity|exact E4].
Qed.
Print Assumptions C65_unit.

(* ---- cases ---- *)
Lemma demo_empty : empty_read demo_env. Proof. split; [intros; right; reflexivity|reflexivity]. Qed.
Definition back_omm : str := doc
  ["CCSDS_OMM_VERS = 2.0"; "COMMENT first"; "CREATION_DATE = 2021-01-01T00:00:00"; "ORIGINATOR = ME";
   "OBJECT_NAME = SAT"; "OBJECT_ID ="; "CENTER_NAME = EARTH"; "REF_FRAME = odd frame"; "TIME_SYSTEM = UTC"; "MEAN_ELEMENT_THEORY = SGP4";
   "EPOCH = 2021-01-01T00:00:00"; "MEAN_MOTION = fast [rev/day]"; "ECCENTRICITY = 0.001"; "INCLINATION = 51.6 [deg]";
   "RA_OF_ASC_NODE = 1"; "ARG_OF_PERICENTER = 2 [deg]"; "MEAN_ANOMALY = 3 [deg]"; "USER_DEFINED_ODD = x"].
Definition back_oem : str := doc
  ["CCSDS_OEM_VERS = 2.0"; "CREATION_DATE = 2021-01-01T00:00:00"; "ORIGINATOR = ME"; "META_START"; "OBJECT_NAME = SAT"; "OBJECT_ID = 2021-001A"; "CENTER_NAME = EARTH";
   "REF_FRAME = TEME"; "TIME_SYSTEM = UTC"; "START_TIME = 2021-01-01"; "STOP_TIME = 2021-01-02"; "META_STOP"; "2021-01-01 1 2 3 4 5 6"; "2021-01-02 1 2 3";
   "COVARIANCE_START"; "EPOCH = 2021-01-01"; "11"; "21 22"; "31 32 33"; "COVARIANCE_STOP"].
Definition back_tdm : str := doc
  ["CCSDS_TDM_VERS = 1.0"; "CREATION_DATE = 2005-160"; "ORIGINATOR = X"; "META_START"; "TIME_SYSTEM = UTC"; "PARTICIPANT_1 = A"; "META_STOP"; "DATA_START"; "RANGE = 2005-159 1.2"; "DATA_STOP"].
Example C65_example : empty_read demo_env /\ Forall (fun s => exists c vars, kvn_from_string demo_env s = Ok (VObj c vars) /\ c <> "Aem" /\ ~ odd_unit (VObj c vars) /\ ~ no_number (VObj c vars)) [back_omm; back_oem; back_tdm].
Proof.
  split; [exact demo_empty|]. repeat constructor; (do 2 eexists; split; [vm_compute; reflexivity|]; split; [discriminate|]; split; [apply oddb_spec; vm_compute; reflexivity|apply bareb_spec; vm_compute; reflexivity]).
Qed.
(* a message with a unit that its enumeration does not have is read, and cannot be written *)
Theorem C65_any_unit_refuted : ~ (forall u src v, empty_read u -> kvn_from_string u src = Ok v -> ~ no_number v -> exists t, kvn_to_string u v = Ok t).
Proof.
  intros H. destruct (kvn_from_string demo_env (doc ["CCSDS_OMM_VERS = 2.0"; "ORIGINATOR = ME"; "EPOCH = 2021-01-01"; "INCLINATION = 51.6 [degrees]"])) as [v|e] eqn:E; [|vm_compute in E; discriminate].
  destruct (H demo_env _ v demo_empty E) as [t T].
  - apply bareb_spec. vm_compute in E. injection E as <-. vm_compute. reflexivity.
  - vm_compute in E. injection E as <-. vm_compute in T. discriminate.
Qed.
(* an angle of a tracking data message is read, and cannot be written *)
Theorem C65_angle_refuted : ~ (forall u src v, empty_read u -> kvn_from_string u src = Ok v -> ~ odd_unit v -> exists t, kvn_to_string u v = Ok t).
Proof.
  intros H. destruct (kvn_from_string demo_env (doc ["CCSDS_TDM_VERS = 1.0"; "CREATION_DATE = 2005-160"; "ORIGINATOR = X"; "META_START"; "TIME_SYSTEM = UTC"; "PARTICIPANT_1 = A"; "META_STOP"; "DATA_START"; "ANGLE_1 = 2005-159 45.5"; "DATA_STOP"])) as [v|e] eqn:E; [|vm_compute in E; discriminate].
  destruct (H demo_env _ v demo_empty E) as [t T].
  - apply oddb_spec. vm_compute in E. injection E as <-. vm_compute. reflexivity.
  - vm_compute in E. injection E as <-. vm_compute in T. discriminate.
Qed.
(* the object with the unit has its own line in the message *)
Example C65_unit_example : exists v x, kvn_from_string demo_env (doc ["CCSDS_OMM_VERS = 2.0"; "ORIGINATOR = ME"; "EPOCH = 2021-01-01"; "INCLINATION = 51.6 [degrees]"]) = Ok v /\ line_of x v /\ has_odd_unit x /\
  kvn_to_string demo_env v = Err AttributeError.
Proof.
  do 2 eexists. split; [vm_compute; reflexivity|]. split; [|split; [|vm_compute; reflexivity]].
  2: { exists "InclinationType", [("value", VDec (DFin false 516 (-1)))], (lit "degrees"), []. split; [reflexivity|]. split; [cbn; intuition discriminate|discriminate]. }
  Ltac pick := first [left; reflexivity|right; pick].
  Ltac apart := cbn; intuition discriminate.
  eapply line_section with (n := "body"); [pick|apart|apart|]. eapply line_section with (n := "segment"); [pick|apart|apart|]. eapply line_section with (n := "data"); [pick|apart|apart|].
  eapply line_section with (n := "mean_elements"); [pick|apart|apart|]. eapply line_here with (n := "inclination"); [|discriminate|discriminate]. vm_compute. pick.
Qed.
(* an attitude record that stops before its angles is read, and cannot be written *)
Theorem C65_attitude_refuted : ~ (forall u src v, empty_read u -> kvn_from_string u src = Ok v -> ~ odd_unit v -> ~ no_number v -> exists t, kvn_to_string u v = Ok t).
Proof.
  intros H. destruct (kvn_from_string demo_env (doc ["CCSDS_AEM_VERS = 1.0"; "CREATION_DATE = 2005-160"; "ORIGINATOR = X"; "META_START"; "OBJECT_NAME = A"; "OBJECT_ID = B"; "CENTER_NAME = EARTH"; "REF_FRAME_A = EME2000"; "REF_FRAME_B = SC_BODY_1"; "ATTITUDE_DIR = A2B";
    "TIME_SYSTEM = UTC"; "START_TIME = 2005-159"; "STOP_TIME = 2005-160"; "ATTITUDE_TYPE = SPIN"; "META_STOP"; "DATA_START"; "2005-159"; "DATA_STOP"])) as [v|e] eqn:E; [|vm_compute in E; discriminate].
  destruct (H demo_env _ v demo_empty E) as [t T].
  - apply oddb_spec. vm_compute in E. injection E as <-. vm_compute. reflexivity.
  - apply bareb_spec. vm_compute in E. injection E as <-. vm_compute. reflexivity.
  - vm_compute in E. injection E as <-. vm_compute in T. discriminate.
Qed.
Example C65_raises_example : exists c vars, kvn_from_string demo_env (doc ["CCSDS_TDM_VERS = 1.0"; "CREATION_DATE = 2005-160"; "ORIGINATOR = X"; "META_START"; "TIME_SYSTEM = UTC"; "PARTICIPANT_1 = A"; "META_STOP"; "DATA_START"; "ANGLE_1 = 2005-159 45.5"; "DATA_STOP"]) = Ok (VObj c vars) /\
  c <> "Aem" /\ kvn_to_string demo_env (VObj c vars) = Err IndexError.
Proof. do 2 eexists. split; [vm_compute; reflexivity|]. split; [discriminate|vm_compute; reflexivity]. Qed.
