(* Messages that the text format can hold, and sequences of saves. *)
From Coq Require Import NArith List String.
From Verif Require Import PyStr PyVal Schema NdmXml KvnWrite NdmIo Spec SpecIo SpecKvn SpecObj SpecMsg SpecEph SpecTdm SpecAem SpecApm.
Import ListNotations.
Local Open Scope string_scope.
Local Open Scope list_scope.

(* messages made of valid parts, arranged so that the reader can tell them apart: the hypotheses of the round trips C26-C30, C34,
   C36 and C47 *)
Inductive keeps (u : env) : pyval -> Prop :=
| keeps_omm header md cs secs user : section "NdmHeader" header -> section "OmmMetadata" md -> Forall good_text cs ->
    sections omm_sections secs -> some_section secs -> opt_user u user -> comments_settled (texts cs) secs ->
    keeps u (omm header md (texts cs) secs user)
| keeps_rdm header md cs secs user : section "RdmHeader" header -> section "RdmMetadata" md -> Forall good_text cs ->
    sections rdm_sections secs -> some_section secs -> opt_user u user -> comments_settled (texts cs) secs ->
    keeps u (rdm header md (texts cs) secs user)
| keeps_opm header md cs secs mans user : section "NdmHeader" header -> section "OpmMetadata" md -> Forall good_text cs ->
    sections opm_sections secs -> some_section secs -> Forall (section "ManeuverParametersType") mans -> no_new_fields mans ->
    opt_user u user -> comments_settled (texts cs) secs -> keeps u (opm header md (texts cs) secs mans user)
| keeps_cdm header relative ps : section "CdmHeader" header -> relative_data relative -> ps <> [] -> Forall cdm_segment_ok ps ->
    no_new_keys ps -> Forall cdm_segment_settled ps -> keeps u (cdm_message header relative (map (segment_object "CdmSegment" "CdmData") ps))
| keeps_oem header ps : section "NdmHeader" header -> ps <> [] -> Forall oem_segment_ok ps -> oem_apart ps ->
    keeps u (oem_message header (map oem_segment ps))
| keeps_tdm header ps : section "TdmHeader" header -> ps <> [] -> Forall tdm_segment_ok ps -> tdm_apart ps ->
    keeps u (tdm_message header (map tdm_segment ps))
| keeps_aem header ps : section "NdmHeader" header -> ps <> [] -> Forall aem_segment_ok ps -> Forall aem_settled ps -> aem_apart ps ->
    keeps u (aem_message header (map aem_segment ps))
| keeps_apm header md cs quat euler secs mans : section "NdmHeader" header -> section "ApmMetadata" md -> Forall good_text cs ->
    quat_ok quat -> euler_ok euler -> sections apm_sections secs -> Forall (section "AttManeuverParametersType") mans -> no_new_fields mans ->
    comments_settled (texts cs) [("quaternion_state", quat)] -> all_filled euler ->
    keeps u (apm header md (texts cs) quat euler secs mans).

(* no carriage return in the text of the message *)
Definition no_returns (u : env) (v : pyval) : Prop := forall t, kvn_to_string u v = Ok t -> no_char c_return t.

(* messages saved as KVN one after the other, under file names *)
Inductive all_saved (u : env) (xs_render : xcfg -> pyval -> res str) (can_open can_encode : str -> bool) :
  fsys -> list (str * pyval) -> fsys -> Prop :=
| saved_none fs : all_saved u xs_render can_open can_encode fs [] fs
| saved_one fs name v cfg fs1 saves fs2 :
    io_to_file u xs_render can_open can_encode fs v FKvn (PPath name) cfg = (fs1, Ok tt) ->
    all_saved u xs_render can_open can_encode fs1 saves fs2 -> all_saved u xs_render can_open can_encode fs ((name, v) :: saves) fs2.
