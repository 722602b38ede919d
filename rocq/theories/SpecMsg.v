(* Messages as objects: what the fields hold and where comments end up. *)
From Coq Require Import NArith ZArith List Bool String.
From Verif Require Import PyStr PyDec PyVal Schema KvnPre Spec SpecKvn SpecObj.
Import ListNotations.
Local Open Scope string_scope.
Local Open Scope list_scope.

(* named optional sections of the given classes, in order *)
Definition sections (shape : list (string * string)) (secs : list (string * pyval)) : Prop :=
  Forall2 (fun nc nv => fst nv = fst nc /\ opt_section (snd nc) (snd nv)) shape secs.
Definition some_section (secs : list (string * pyval)) : Prop :=
  exists n v, In (n, v) secs /\ v <> VNone.

(* the comments of a section, and the section with other comments *)
Definition comments_of (v : pyval) : list pyval :=
  match v with VObj _ ((_, VList l) :: _) => l | _ => [] end.
Definition with_comments (l : list pyval) (v : pyval) : pyval :=
  match v with VObj c ((n, VList _) :: r) => VObj c ((n, VList l) :: r) | _ => v end.
(* the same for the first section that is there *)
Fixpoint first_comments (secs : list (string * pyval)) : list pyval :=
  match secs with
  | [] => []
  | (_, VNone) :: r => first_comments r
  | (_, v) :: _ => comments_of v
  end.
Fixpoint give_comments (l : list pyval) (secs : list (string * pyval)) : list (string * pyval) :=
  match secs with
  | [] => []
  | (n, VNone) :: r => (n, VNone) :: give_comments l r
  | (n, v) :: r => (n, with_comments l v) :: r
  end.
(* The reader gives the first comment line of a data block to the block and the following ones
   to the section they precede. *)
Definition data_comments (cs : list pyval) (secs : list (string * pyval)) : list pyval :=
  firstn 1 (cs ++ first_comments secs).
Definition section_comments (cs : list pyval) (secs : list (string * pyval)) : list pyval :=
  skipn 1 (cs ++ first_comments secs).
(* the comments already are where the reader puts them *)
Definition comments_settled (cs : list pyval) (secs : list (string * pyval)) : Prop :=
  List.length cs = 1 \/ (cs = [] /\ first_comments secs = []).
Definition texts (cs : list str) : list pyval := map VStr cs.

(* a message with one segment *)
Definition single_message (c body segment data : string) (header metadata : pyval)
           (dvars : list (string * pyval)) : pyval :=
  VObj c [("header", header);
          ("body", VObj body [("segment", VObj segment
             [("metadata", metadata); ("data", VObj data dvars)])])].

Definition omm (header metadata : pyval) (cs : list pyval) (secs : list (string * pyval)) (user : pyval) : pyval :=
  single_message "Omm" "OmmBody" "OmmSegment" "OmmData" header metadata
    (("comment", VList cs) :: secs ++ [("user_defined_parameters", user)]).
Definition omm_sections : list (string * string) :=
  [("mean_elements", "MeanElementsType"); ("spacecraft_parameters", "SpacecraftParametersType");
   ("tle_parameters", "TleParametersType"); ("covariance_matrix", "OpmCovarianceMatrixType")].

Definition rdm (header metadata : pyval) (cs : list pyval) (secs : list (string * pyval)) (user : pyval) : pyval :=
  single_message "Rdm" "RdmBody" "RdmSegment" "RdmData" header metadata
    (("comment", VList cs) :: secs ++ [("user_defined_parameters", user)]).
Definition rdm_sections : list (string * string) :=
  [("atmospheric_reentry_parameters", "AtmosphericReentryParametersType");
   ("ground_impact_parameters", "GroundImpactParametersType"); ("state_vector", "StateVectorType");
   ("covariance_matrix", "OpmCovarianceMatrixType"); ("spacecraft_parameters", "RdmSpacecraftParametersType");
   ("od_parameters", "OdParametersType")].

Definition opm (header metadata : pyval) (cs : list pyval) (secs : list (string * pyval))
           (maneuvers : list pyval) (user : pyval) : pyval :=
  single_message "Opm" "OpmBody" "OpmSegment" "OpmData" header metadata
    (("comment", VList cs) :: secs ++ [("maneuver_parameters", VList maneuvers); ("user_defined_parameters", user)]).
Definition opm_sections : list (string * string) :=
  [("state_vector", "StateVectorType"); ("keplerian_elements", "KeplerianElementsType");
   ("spacecraft_parameters", "SpacecraftParametersType"); ("covariance_matrix", "OpmCovarianceMatrixType")].

(* the field [n] of a section has a value *)
Definition sets (v : pyval) (n : string) : Prop :=
  exists c vars x, v = VObj c vars /\ In (n, x) vars /\ is_set x.
(* repeated sections none of which has a field that one before it lacks *)
Fixpoint no_new_fields (vs : list pyval) : Prop :=
  match vs with
  | [] => True
  | v :: r => (forall w n, In w r -> sets w n -> sets v n) /\ no_new_fields r
  end.

(* the relative data of a CDM: keywords, an optional state vector, more keywords *)
Definition relative_data (v : pyval) : Prop :=
  exists before rsv after,
    v = VObj "RelativeMetadataData" (before ++ ("relative_state_vector", rsv) :: after) /\
    wf_vars (firstn 4 (fields_of "RelativeMetadataData")) before /\
    opt_section "RelativeStateVectorType" rsv /\
    wf_vars (skipn 5 (fields_of "RelativeMetadataData")) after /\
    exists n x, In (n, x) before /\ is_set x.

(* a segment: metadata, comments of the data block, sections *)
Definition segment_parts := (pyval * list str * list (string * pyval))%type.
Definition segment_object (segment data : string) (p : segment_parts) : pyval :=
  let '(md, cs, secs) := p in
  VObj segment [("metadata", md); ("data", VObj data (("comment", VList (texts cs)) :: secs))].
(* the segment with its comments where the reader puts them *)
Definition settle (segment data : string) (p : segment_parts) : pyval :=
  let '(md, cs, secs) := p in
  VObj segment [("metadata", md);
    ("data", VObj data (("comment", VList (data_comments (texts cs) secs)) ::
                        give_comments (section_comments (texts cs) secs) secs))].
(* no segment has a field that one before it lacks *)
Fixpoint no_new_keys (ps : list segment_parts) : Prop :=
  match ps with
  | [] => True
  | (md, _, secs) :: r =>
    (forall md' cs' secs', In (md', cs', secs') r ->
       (forall n, sets md' n -> sets md n) /\
       Forall2 (fun later earlier => forall n, sets (snd later) n -> sets (snd earlier) n) secs' secs) /\
    no_new_keys r
  end.
Definition cdm_sections : list (string * string) :=
  [("od_parameters", "OdParametersType"); ("additional_parameters", "AdditionalParametersType");
   ("state_vector", "CdmStateVectorType"); ("covariance_matrix", "CdmCovarianceMatrixType")].
Definition cdm_segment_ok (p : segment_parts) : Prop :=
  let '(md, cs, secs) := p in
  section "CdmMetadata" md /\ Forall good_text cs /\ sections cdm_sections secs /\ some_section secs.
Definition cdm_segment_settled (p : segment_parts) : Prop :=
  let '(_, cs, secs) := p in comments_settled (texts cs) secs.
Definition cdm_message (header relative : pyval) (segments : list pyval) : pyval :=
  VObj "Cdm" [("header", header);
              ("body", VObj "CdmBody" [("relative_metadata_data", relative); ("segment", VList segments)])].
