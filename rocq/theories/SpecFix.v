(* Messages made of valid parts, wherever their comments stand. *)
From Coq Require Import NArith List String.
From Verif Require Import PyStr PyVal Schema NdmXml KvnWrite NdmIo Spec SpecIo SpecKvn SpecObj SpecMsg SpecSave.
Import ListNotations.
Local Open Scope string_scope.
Local Open Scope list_scope.

(* as [keeps] (SpecSave.v), for the first four types without the condition on the place of the comments *)
Inductive well_formed (u : env) : pyval -> Prop :=
| well_formed_omm header md cs secs user : section "NdmHeader" header -> section "OmmMetadata" md -> Forall good_text cs ->
    sections omm_sections secs -> some_section secs -> opt_user u user -> well_formed u (omm header md (texts cs) secs user)
| well_formed_rdm header md cs secs user : section "RdmHeader" header -> section "RdmMetadata" md -> Forall good_text cs ->
    sections rdm_sections secs -> some_section secs -> opt_user u user -> well_formed u (rdm header md (texts cs) secs user)
| well_formed_opm header md cs secs mans user : section "NdmHeader" header -> section "OpmMetadata" md -> Forall good_text cs ->
    sections opm_sections secs -> some_section secs -> Forall (section "ManeuverParametersType") mans -> no_new_fields mans ->
    opt_user u user -> well_formed u (opm header md (texts cs) secs mans user)
| well_formed_cdm header relative ps : section "CdmHeader" header -> relative_data relative -> ps <> [] -> Forall cdm_segment_ok ps ->
    no_new_keys ps -> well_formed u (cdm_message header relative (map (segment_object "CdmSegment" "CdmData") ps))
| well_formed_other v : keeps u v -> well_formed u v.

(* a file loaded and saved under another name, this one loaded and saved under another, and so on *)
Inductive copied (u : env) (et_root : str -> option str) (xs_parse : str -> res pyval) (xs_render : xcfg -> pyval -> res str) (can_open can_encode : str -> bool) :
  fsys -> str -> list str -> fsys -> Prop :=
| copied_none fs n : copied u et_root xs_parse xs_render can_open can_encode fs n [] fs
| copied_one fs n v m cfg fs1 ms fs2 : io_from_path u et_root xs_parse fs (PPath n) = Ok v ->
    io_to_file u xs_render can_open can_encode fs v FKvn (PPath m) cfg = (fs1, Ok tt) ->
    copied u et_root xs_parse xs_render can_open can_encode fs1 m ms fs2 -> copied u et_root xs_parse xs_render can_open can_encode fs n (m :: ms) fs2.
