(* Documents and messages on which the properties C31, C35, C37, C38, C39 fail.
   Every claim is about kvn_from_string and kvn_to_string on a concrete document, computed. *)
From Coq Require Import NArith ZArith List Bool String.
From Verif Require Import PyStr PyDec PyVal Schema KvnPre XmlBind KvnBuild NdmXml KvnWrite Demo.
Import ListNotations.
Local Open Scope string_scope.
Local Open Scope list_scope.

Ltac by_compute := vm_compute; reflexivity.

(* the number n times ten to the e, without units, as an object of class c *)
Definition plain_number (c : string) (n : N) (e : Z) : pyval := VObj c [("value", VDec (DFin false n e)); ("units", VNone)].
Definition read (lines : list string) : res pyval := kvn_from_string demo_env (doc lines).

(* ---- OEM ---- *)
Definition oem_head : list string :=
  ["CCSDS_OEM_VERS = 2.0"; "CREATION_DATE = 2021-01-01T00:00:00"; "ORIGINATOR = ME"].
Definition oem_meta (more : list string) : list string :=
  ["META_START"] ++ more ++ ["OBJECT_NAME = SAT"; "OBJECT_ID = 2021-001A"; "CENTER_NAME = EARTH"; "REF_FRAME = EME2000";
   "TIME_SYSTEM = UTC"; "START_TIME = 2021-01-01T00:00:00"; "STOP_TIME = 2021-01-01T01:00:00"; "META_STOP"].
Definition oem_state : list string := ["2021-01-01T00:00:00 1 2 3 4 5 6"; "2021-01-01T00:01:00 7 8 9 10 11 12"].
Definition oem_cov (frame : list string) : list string :=
  ["COVARIANCE_START"; "EPOCH = 2021-01-01T00:00:00"] ++ frame ++
  ["1"; "2 3"; "4 5 6"; "7 8 9 10"; "11 12 13 14 15"; "16 17 18 19 20 21"; "COVARIANCE_STOP"].
Definition p_cov : list string := ["body"; "segment"; "segment"; "data"; "covariance_matrix"; "covariance_matrix"].

(* C31 is false: with COV_REF_FRAME the frame is not read and every number moves to the next component,
   the first one holding the text COV_REF_FRAME and the last number being lost;
   without it the same 21 numbers are read in place. *)
Theorem C31_covariance_frame_refuted : exists v,
  read (oem_head ++ oem_meta [] ++ oem_state ++ oem_cov ["COV_REF_FRAME = RTN"]) = Ok v /\
  at_path (p_cov ++ ["cov_ref_frame"]) v = Some VNone /\
  at_path (p_cov ++ ["cx_x"; "value"]) v = Some (VStr (lit "COV_REF_FRAME")) /\
  at_path (p_cov ++ ["cy_x"]) v = Some (plain_number "PositionCovarianceType" 1 0) /\
  at_path (p_cov ++ ["cz_dot_z_dot"]) v = Some (plain_number "VelocityCovarianceType" 20 0).
Proof. eexists. split; [by_compute|]. repeat split; by_compute. Qed.
Print Assumptions C31_covariance_frame_refuted.

Example C31_without_frame : exists v,
  read (oem_head ++ oem_meta [] ++ oem_state ++ oem_cov []) = Ok v /\
  at_path (p_cov ++ ["cov_ref_frame"]) v = Some VNone /\
  at_path (p_cov ++ ["cx_x"]) v = Some (plain_number "PositionCovarianceType" 1 0) /\
  at_path (p_cov ++ ["cy_x"]) v = Some (plain_number "PositionCovarianceType" 2 0) /\
  at_path (p_cov ++ ["cz_dot_z_dot"]) v = Some (plain_number "VelocityCovarianceType" 21 0).
Proof. eexists. split; [by_compute|]. repeat split; by_compute. Qed.

(* ---- TDM ---- *)
Definition tdm_head : list string :=
  ["CCSDS_TDM_VERS = 2.0"; "CREATION_DATE = 2021-01-01T00:00:00"; "ORIGINATOR = ME"].
Definition tdm_meta (more : list string) : list string :=
  ["META_START"; "TIME_SYSTEM = UTC"; "PARTICIPANT_1 = A"] ++ more ++ ["META_STOP"].
Definition tdm_data (obs : list string) : list string := ["DATA_START"] ++ obs ++ ["DATA_STOP"].
Definition tdm_range : list string := ["RANGE = 2021-01-01T00:00:00 1.5"].
Definition p_obs : list string := ["body"; "segment"; "segment"; "data"; "observation"; "observation"].

(* C35 is false: an angle observation is read with its value but cannot be written. *)
Theorem C35_angle_write_refuted : forall k, In k ["ANGLE_1"; "ANGLE_2"] -> exists v a,
  read (tdm_head ++ tdm_meta [] ++ tdm_data [(k ++ " = 2021-01-01T00:00:00 1.5")%string]) = Ok v /\
  In a ["angle_1"; "angle_2"] /\
  at_path (p_obs ++ [a]) v = Some (plain_number "AngleType" 15 (-1)) /\
  kvn_to_string demo_env v = Err IndexError.
Proof.
  intros k [<- | [<- | []]]; [exists (ok_or_none (read (tdm_head ++ tdm_meta [] ++ tdm_data ["ANGLE_1 = 2021-01-01T00:00:00 1.5"]))), "angle_1"
                              |exists (ok_or_none (read (tdm_head ++ tdm_meta [] ++ tdm_data ["ANGLE_2 = 2021-01-01T00:00:00 1.5"]))), "angle_2"];
    (split; [by_compute|]; split; [simpl; auto|]; split; by_compute).
Qed.
Print Assumptions C35_angle_write_refuted.

(* ---- AEM ---- *)
Definition aem_head : list string :=
  ["CCSDS_AEM_VERS = 1.0"; "CREATION_DATE = 2021-01-01T00:00:00"; "ORIGINATOR = ME"].
Definition aem_meta (more : list string) : list string :=
  ["META_START"; "OBJECT_NAME = SAT"; "OBJECT_ID = 2021-001A"; "CENTER_NAME = EARTH"; "REF_FRAME_A = TEME";
   "REF_FRAME_B = SC_BODY_1"; "ATTITUDE_DIR = A2B"; "TIME_SYSTEM = UTC"; "START_TIME = 2021-01-01T00:00:00";
   "STOP_TIME = 2021-01-01T01:00:00"] ++ more ++ ["META_STOP"].
Definition p_att : list string := ["body"; "segment"; "segment"; "data"; "attitude_state"; "attitude_state"].

(* C37 is false: QUATERNION/DERIVATIVE attitude lines are read but cannot be written; *)
Theorem C37_derivative_write_refuted : exists v,
  read (aem_head ++ aem_meta ["ATTITUDE_TYPE = QUATERNION/DERIVATIVE"; "QUATERNION_TYPE = FIRST"] ++
        tdm_data ["2021-01-01T00:00:00 0.5 0.1 0.2 0.3 0.01 0.02 0.03 0.04"]) = Ok v /\
  at_path (p_att ++ ["quaternion_derivative"; "quaternion"; "qc"]) v = Some (VDec (DFin false 5 (-1))) /\
  at_path (p_att ++ ["quaternion_derivative"; "quaternion_rate"; "q3_dot"; "value"]) v = Some (VDec (DFin false 4 (-2))) /\
  kvn_to_string demo_env v = Err KeyError.
Proof. eexists. split; [by_compute|]. repeat split; by_compute. Qed.
Print Assumptions C37_derivative_write_refuted.

(* SPIN and SPIN/NUTATION attitude lines are read as the epoch alone: all the columns after it are lost,
   and the object read from a SPIN line cannot be written. *)
Theorem C37_spin_read_refuted : exists v,
  read (aem_head ++ aem_meta ["ATTITUDE_TYPE = SPIN"] ++ tdm_data ["2021-01-01T00:00:00 0.5 0.1 0.2 0.3"]) = Ok v /\
  at_path (p_att ++ ["spin"]) v = Some (VObj "SpinType"
     [("epoch", VStr (lit "2021-01-01T00:00:00")); ("spin_alpha", VNone); ("spin_delta", VNone); ("spin_angle", VNone); ("spin_angle_vel", VNone)]) /\
  kvn_to_string demo_env v = Err TypeError.
Proof. eexists. split; [by_compute|]. split; by_compute. Qed.
Print Assumptions C37_spin_read_refuted.
Theorem C37_spin_nutation_read_refuted : exists v vars,
  read (aem_head ++ aem_meta ["ATTITUDE_TYPE = SPIN/NUTATION"] ++ tdm_data ["2021-01-01T00:00:00 0.5 0.1 0.2 0.3 1 2 3"]) = Ok v /\
  at_path (p_att ++ ["spin_nutation"]) v = Some (VObj "SpinNutationType" (("epoch", VStr (lit "2021-01-01T00:00:00")) :: vars)) /\
  List.length vars = 7 /\ forallb (fun nv => match snd nv with VNone => true | _ => false end) vars = true.
Proof. do 2 eexists. split; [by_compute|]. split; [by_compute|]. split; reflexivity. Qed.
Print Assumptions C37_spin_nutation_read_refuted.

(* ---- user-defined parameters ---- *)
Definition omm_lines (more : list string) : list string :=
  ["CCSDS_OMM_VERS = 2.0"; "CREATION_DATE = 2021-01-01T00:00:00"; "ORIGINATOR = ME";
   "OBJECT_NAME = SAT"; "OBJECT_ID = 2021-001A"; "CENTER_NAME = EARTH"; "REF_FRAME = TEME";
   "TIME_SYSTEM = UTC"; "MEAN_ELEMENT_THEORY = SGP4"; "EPOCH = 2021-01-01T00:00:00";
   "MEAN_MOTION = 15.0 [rev/day]"; "ECCENTRICITY = 0.001"; "INCLINATION = 51.6 [deg]";
   "RA_OF_ASC_NODE = 1 [deg]"; "ARG_OF_PERICENTER = 2 [deg]"; "MEAN_ANOMALY = 3 [deg]"] ++ more.
Definition p_user : list string := ["body"; "segment"; "data"; "user_defined_parameters"].
(* the user-defined block with the given names and values *)
Definition user_params (ps : list (string * string)) : pyval :=
  VObj "UserDefinedType" [("comment", VList []);
    ("user_defined", VList (map (fun nv => VObj "UserDefinedParameterType" [("value", VStr (lit (snd nv))); ("parameter", VStr (lit (fst nv)))]) ps))].

(* C38 is false: a lower-case name comes back in upper case; *)
Theorem C38_name_case_refuted : exists v t w,
  read (omm_lines ["USER_DEFINED_foo = Bar"]) = Ok v /\ at_path p_user v = Some (user_params [("foo", "Bar")]) /\
  kvn_to_string demo_env v = Ok t /\ kvn_from_string demo_env t = Ok w /\ at_path p_user w = Some (user_params [("FOO", "Bar")]).
Proof. do 3 eexists. split; [by_compute|]. split; [by_compute|]. split; [by_compute|]. split; by_compute. Qed.
Print Assumptions C38_name_case_refuted.
(* the second of two last lines for one name is lost; *)
Theorem C38_repeated_name_refuted : exists v,
  read (omm_lines ["USER_DEFINED_X = 1"; "USER_DEFINED_Y = 2"; "USER_DEFINED_Y = 3"]) = Ok v /\
  at_path p_user v = Some (user_params [("X", "1"); ("Y", "2")]).
Proof. eexists. split; by_compute. Qed.
Print Assumptions C38_repeated_name_refuted.
(* a comment before the block becomes a parameter called COMMENT; *)
Theorem C38_comment_refuted : exists v,
  read (omm_lines ["COMMENT note"; "USER_DEFINED_X = 1"]) = Ok v /\
  at_path p_user v = Some (user_params [("COMMENT", "note"); ("X", "1")]).
Proof. eexists. split; by_compute. Qed.
Print Assumptions C38_comment_refuted.
(* the text USER_DEFINED_ inside a name is removed; *)
Theorem C38_prefix_inside_refuted : exists v,
  read (omm_lines ["USER_DEFINED_A_USER_DEFINED_B = 1"]) = Ok v /\ at_path p_user v = Some (user_params [("A_B", "1")]).
Proof. eexists. split; by_compute. Qed.
Print Assumptions C38_prefix_inside_refuted.
(* and a text in square brackets at the end of the value is dropped. *)
Theorem C38_bracket_refuted : exists v,
  read (omm_lines ["USER_DEFINED_X = 1 [m]"]) = Ok v /\ at_path p_user v = Some (user_params [("X", "1")]).
Proof. eexists. split; by_compute. Qed.
Print Assumptions C38_bracket_refuted.

(* ---- segments ---- *)
(* The segments of the message in a document. *)
Definition segments (v : pyval) : list pyval := match at_path ["body"; "segment"] v with Some (VList l) => l | _ => [] end.

(* C39 is false: two tracking segments readable one by one cannot be read together when only the second has a MODE; *)
Theorem C39_later_keyword_refuted : exists v1 v2,
  read (tdm_head ++ tdm_meta [] ++ tdm_data tdm_range) = Ok v1 /\
  read (tdm_head ++ tdm_meta ["MODE = SEQUENTIAL"] ++ tdm_data tdm_range) = Ok v2 /\
  List.length (segments v1) = 1 /\ List.length (segments v2) = 1 /\
  read (tdm_head ++ tdm_meta [] ++ tdm_data tdm_range ++ tdm_meta ["MODE = SEQUENTIAL"] ++ tdm_data tdm_range) = Err XmlReject /\
  exists v, read (tdm_head ++ tdm_meta ["MODE = SEQUENTIAL"] ++ tdm_data tdm_range ++ tdm_meta [] ++ tdm_data tdm_range) = Ok v /\
            segments v = segments v2 ++ segments v1.
Proof. do 2 eexists. split; [by_compute|]. split; [by_compute|]. split; [by_compute|]. split; [by_compute|]. split; [by_compute|]. eexists. split; by_compute. Qed.
Print Assumptions C39_later_keyword_refuted.
(* in an OEM the comment of the second segment's metadata becomes a covariance matrix of the first segment; *)
Theorem C39_comment_moves_refuted : exists v1 v2 v m e,
  read (oem_head ++ oem_meta [] ++ oem_state) = Ok v1 /\ segments v1 = [VObj "OemSegment" [("metadata", m); ("data", VObj "OemData"
     [("comment", VList []); ("state_vector", e); ("covariance_matrix", VList [])])]] /\
  read (oem_head ++ oem_meta ["COMMENT q"] ++ oem_state ++ oem_cov []) = Ok v2 /\
  at_path ["metadata"; "comment"] (hd VNone (segments v2)) = Some (VList [VStr (lit "q")]) /\
  read (oem_head ++ oem_meta [] ++ oem_state ++ oem_meta ["COMMENT q"] ++ oem_state ++ oem_cov []) = Ok v /\
  List.length (segments v) = 2 /\
  (exists c, hd VNone (segments v) = VObj "OemSegment" [("metadata", m); ("data", VObj "OemData"
     [("comment", VList []); ("state_vector", e); ("covariance_matrix", VList [c])])] /\
     at_path ["comment"] c = Some (VList [VStr (lit "q")]) /\ at_path ["epoch"] c = Some VNone) /\
  at_path ["metadata"; "comment"] (nth 1 (segments v) VNone) = Some (VList []).
Proof.
  do 5 eexists. split; [by_compute|]. split; [by_compute|]. split; [by_compute|]. split; [by_compute|]. split; [by_compute|]. split; [by_compute|].
  split; [|by_compute]. eexists. split; [by_compute|]. split; by_compute.
Qed.
Print Assumptions C39_comment_moves_refuted.
(* and two comments at the start of the data split one segment into two, the first without ephemeris, the second without metadata. *)
Theorem C39_data_comments_refuted : exists v,
  read (oem_head ++ oem_meta [] ++ ["COMMENT a"; "COMMENT b"] ++ oem_state ++ oem_cov []) = Ok v /\
  List.length (segments v) = 2 /\
  at_path ["data"; "state_vector"] (nth 0 (segments v) VNone) = Some (VList []) /\
  at_path ["metadata"] (nth 1 (segments v) VNone) = Some VNone.
Proof. eexists. split; [by_compute|]. repeat split; by_compute. Qed.
Print Assumptions C39_data_comments_refuted.
