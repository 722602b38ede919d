(* Properties C15-C20: documents. *)
From Coq Require Import NArith ZArith List Bool String Arith Lia.
From Verif Require Import PyStr PyDec PyVal Schema KvnPre KvnTree KvnSeg XmlBind KvnBuild
     NdmXml KvnWrite NdmIo Spec SpecKvn StrFacts PreFacts SegFacts BuildFacts Demo.
Import ListNotations.

(* ---- C15 ---- *)
Theorem C15_markers : forall u c k bs first r1 r2 src1 src2,
  In (k, c) type_table -> line_key first k -> Forall blank bs ->
  split_on c_nl src1 = bs ++ first :: r1 -> split_on c_nl src2 = bs ++ first :: r2 ->
  same_but_markers c r1 r2 ->
  kvn_from_string u src1 = kvn_from_string u src2.
Proof. exact markers_ignored. Qed.
Print Assumptions C15_markers.
Example C15_example :
  line_key (lit "CCSDS_OEM_VERS = 2.0") (lit "CCSDS_OEM_VERS") /\
  same_but_markers "Oem" [lit " META_START"; lit "A = 1"; lit "META_STOP"] [lit "A = 1"; lit "COVARIANCE_STOP "].
Proof.
  split.
  - apply (lk_eq _ (lit "CCSDS_OEM_VERS ") (lit " 2.0")); [reflexivity|apply no_charb_spec; reflexivity|].
    exact (strip_core (lit "CCSDS_OEM_VERS ")).
  - apply sm_left; [exists (lit "META_START"); split; [exact (strip_core (lit " META_START"))|cbn [In section_markers String.eqb]; left; reflexivity]|].
    apply sm_line.
    apply sm_left; [exists (lit "META_STOP"); split; [exact (strip_core (lit "META_STOP"))|right; left; reflexivity]|].
    apply sm_right; [exists (lit "COVARIANCE_STOP"); split; [exact (strip_core (lit "COVARIANCE_STOP "))|right; right; right; left; reflexivity]|].
    apply sm_nil.
Qed.

(* ---- C16 ---- *)
Theorem C16_known_type : forall u src bs first rest k c,
  split_on c_nl src = bs ++ first :: rest -> Forall blank bs -> line_key first k ->
  In (k, c) type_table -> forall v, kvn_from_string u src = Ok v -> exists vars, v = VObj c vars.
Proof. exact type_known. Qed.
Print Assumptions C16_known_type.
Theorem C16_unknown_type : forall u src bs first rest k,
  split_on c_nl src = bs ++ first :: rest -> Forall blank bs -> ~ blank first -> line_key first k ->
  (forall c, ~ In (k, c) type_table) -> kvn_from_string u src = Err AttributeError.
Proof. exact type_unknown. Qed.
Print Assumptions C16_unknown_type.
Theorem C16_blank_document : forall u src,
  Forall blank (split_on c_nl src) -> kvn_from_string u src = Err IndexError.
Proof. exact type_blank. Qed.
Print Assumptions C16_blank_document.
Example C16_example :
  (exists rest, split_on c_nl omm_doc = [] ++ lit "CCSDS_OMM_VERS = 2.0" :: rest) /\
  line_key (lit "CCSDS_OMM_VERS = 2.0") (lit "CCSDS_OMM_VERS") /\
  In (lit "CCSDS_OMM_VERS", "Omm"%string) type_table /\
  (exists vars, kvn_from_string demo_env omm_doc = Ok (VObj "Omm" vars)) /\
  kvn_from_string demo_env (lit "CCSDS_OMM_VER = 2.0") = Err AttributeError.
Proof.
  split; [eexists; vm_compute; reflexivity|]. split.
  - apply (lk_eq _ (lit "CCSDS_OMM_VERS ") (lit " 2.0")); [reflexivity|apply no_charb_spec; reflexivity|].
    exact (strip_core (lit "CCSDS_OMM_VERS ")).
  - split; [cbn [In type_table]; tauto|]. split; [eexists; vm_compute; reflexivity|vm_compute; reflexivity].
Qed.

(* ---- C17 ---- *)
(* loops of the model carry an explicit bound; running out of it is the result [Err OutOfFuel].
   The bound of the list loop is one more than the number of lines. *)
Theorem C17_reading_terminates : forall u src, kvn_from_string u src <> Err OutOfFuel.
Proof. exact kvn_from_string_fueled. Qed.
Print Assumptions C17_reading_terminates.
(* rounds needed by the list loop: any bound above the number of remaining lines suffices, and a
   larger one changes nothing *)
Theorem C17_rounds : forall u s keys lines fuel init,
  List.length lines <= List.length keys -> List.length lines - init < fuel ->
  identify_list (identify u s keys lines) (List.length lines) fuel init init <> Err OutOfFuel.
Proof.
  intros u s keys lines fuel init L F. apply identify_list_fueled; [apply identify_order|apply identify_fueled, L|exact F].
Qed.
Print Assumptions C17_rounds.
Example C17_example : kvn_from_string demo_env (lit "CCSDS_OEM_VERS = 2.0") = Err IndexError.
Proof. vm_compute. reflexivity. Qed.

(* ---- C18 ---- *)
Theorem C18_ranges : forall u c lines e, In c root_classes ->
  identify_segments u (tree_of c) lines = Ok e -> well_ranged (List.length lines) e.
Proof. exact identify_segments_ranged. Qed.
Print Assumptions C18_ranges.
(* the index returned by the identification of any section never lies before the index it was
   started from *)
Theorem C18_forward : forall u e keys lines init mx lo hi e',
  identify u e keys lines init = Ok (mx, (lo, hi), e') -> init <= lo /\ lo <= hi /\ hi <= mx.
Proof.
  intros u e keys lines init mx lo hi e' H. pose proof (identify_order u e keys lines init) as O.
  rewrite H in O. exact O.
Qed.
Print Assumptions C18_forward.
Definition opm_doc : str := doc
  ["CCSDS_OPM_VERS = 2.0"; "CREATION_DATE = 2021-01-01T00:00:00"; "ORIGINATOR = ME";
   "OBJECT_NAME = SAT"; "OBJECT_ID = 2021-001A"; "CENTER_NAME = EARTH"; "REF_FRAME = TEME"; "TIME_SYSTEM = UTC";
   "EPOCH = 2021-01-01T00:00:00"; "X = 1 [km]"; "Y = 2 [km]"; "Z = 3 [km]"; "X_DOT = 4 [km/s]"; "Y_DOT = 5 [km/s]";
   "Z_DOT = 6 [km/s]";
   "MAN_EPOCH_IGNITION = 2021-01-01T00:00:00"; "MAN_DURATION = 1 [s]"; "MAN_DELTA_MASS = -1 [kg]"; "MAN_REF_FRAME = RSW";
   "MAN_DV_1 = 1 [km/s]"; "MAN_DV_2 = 1 [km/s]"; "MAN_DV_3 = 1 [km/s]";
   "MAN_EPOCH_IGNITION = 2021-01-02T00:00:00"; "MAN_DURATION = 1 [s]"; "MAN_DELTA_MASS = -1 [kg]"; "MAN_REF_FRAME = RSW";
   "MAN_DV_1 = 1 [km/s]"; "MAN_DV_2 = 1 [km/s]"; "MAN_DV_3 = 1 [km/s]"]%string.
Definition opm_lines : list line :=
  match pre_process opm_doc with Ok l => delete_keywords "Opm" l | Err _ => [] end.
Example C18_example :
  In "Opm"%string root_classes /\
  (* two maneuvers are found, one after the other *)
  exists e, identify_segments demo_env (tree_of "Opm") opm_lines = Ok e /\
    map e_mm (filter (fun x => String.eqb (e_name x) "maneuver_parameters") (all_elems e)) = [(16, 23); (23, 30)].
Proof. split; [cbn [In root_classes]; tauto|]. eexists. split; vm_compute; reflexivity. Qed.

(* ---- C19: a keyword that does not belong to the message is rejected.  False: it is dropped. ---- *)
Theorem C19_refuted : exists u src line v,
  kvn_from_string u src = Ok v /\
  line = lit "NO_SUCH_KEYWORD = 1" /\
  kvn_from_string u (src ++ [c_nl] ++ line) = Ok v.
Proof.
  exists demo_env, omm_doc. eexists. eexists. split; [vm_compute; reflexivity|]. split; [reflexivity|vm_compute; reflexivity].
Qed.
Print Assumptions C19_refuted.

(* ---- C20: every comment of the data section is kept.  False: a comment after the last keyword
   of the data section is lost, and a comment of the first data section moves to the data
   container (from where a second one would not be taken). ---- *)
Theorem C20_refuted : exists u src v,
  kvn_from_string u src = Ok v /\ kvn_from_string u (src ++ [c_nl] ++ lit "COMMENT lost") = Ok v.
Proof. exists demo_env, omm_doc. eexists. split; vm_compute; reflexivity. Qed.
Print Assumptions C20_refuted.
(* comments of a section: written by the section, read into its container *)
Theorem C20_moves_refuted : exists u v t v',
  at_path ["body"; "segment"; "data"; "comment"]%string v = Some (VList []) /\
  at_path ["body"; "segment"; "data"; "mean_elements"; "comment"]%string v = Some (VList [VStr (lit "a")]) /\
  kvn_to_string u v = Ok t /\ kvn_from_string u t = Ok v' /\
  at_path ["body"; "segment"; "data"; "comment"]%string v' = Some (VList [VStr (lit "a")]) /\
  at_path ["body"; "segment"; "data"; "mean_elements"; "comment"]%string v' = Some (VList []).
Proof.
  exists demo_env,
    (upd ["body"; "segment"; "data"; "comment"]%string (VList [])
      (upd ["body"; "segment"; "data"; "mean_elements"; "comment"]%string (VList [VStr (lit "a")])
        (ok_or_none (kvn_from_string demo_env omm_doc)))).
  eexists. eexists. split; [vm_compute; reflexivity|]. split; [vm_compute; reflexivity|].
  split; [vm_compute; reflexivity|]. split; [vm_compute; reflexivity|]. split; vm_compute; reflexivity.
Qed.
Print Assumptions C20_moves_refuted.
