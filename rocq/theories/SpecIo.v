(* Vocabulary for the properties of format identification and of combined messages. *)
From Coq Require Import NArith ZArith List Bool String.
From Verif Require Import PyStr PyVal NdmIo Spec.
Import ListNotations.
Local Open Scope string_scope.
Local Open Scope list_scope.

(* what the documentation says about the decision, on a text without outer white space *)
Inductive looks_like (core : str) : format -> Prop :=
| ll_kvn : begins (lit "CCSDS_") core -> looks_like core FKvn
| ll_xml : begins (lit "<") core -> ends (lit ">") core -> looks_like core FXml
| ll_json : begins (lit "[") core -> ends (lit "]") core -> looks_like core FJson.

(* ---- vocabulary: files ---- *)
Definition c_return : N := 13.
(* the text [t] of a file that holds the characters [raw]: lines may end with LF, CR LF or CR *)
Inductive reads_as : str -> str -> Prop :=
| ra_end : reads_as [] []
| ra_char c raw t : c <> c_return -> reads_as raw t -> reads_as (c :: raw) (c :: t)
| ra_crlf raw t : reads_as raw t -> reads_as (c_return :: c_nl :: raw) (c_nl :: t)
| ra_cr raw t : ~ begins [c_nl] raw -> reads_as raw t -> reads_as (c_return :: raw) (c_nl :: t).
(* the characters of a file with the text [t]: the lines of the text, with the line ends of the platform *)
Definition on_disk (u : env) (t raw : str) : Prop :=
  exists ls, ls <> [] /\ Forall one_line ls /\ t = join [c_nl] ls /\ raw = join (if os_crlf u then [c_return; c_nl] else [c_nl]) ls.

(* ---- vocabulary: combined messages ---- *)
(* the schema's base class of a message and the class users see *)
Inductive specialises : string -> string -> Prop :=
| sp_aem : specialises "AemType" "Aem" | sp_apm : specialises "ApmType" "Apm"
| sp_cdm : specialises "CdmType" "Cdm" | sp_oem : specialises "OemType" "Oem"
| sp_omm : specialises "OmmType" "Omm" | sp_opm : specialises "OpmType" "Opm"
| sp_rdm : specialises "RdmType" "Rdm" | sp_tdm : specialises "TdmType" "Tdm".

Definition header_var (k : string) : Prop := k = "message_id" \/ k = "comment".
Definition raw_message (v : pyval) : Prop :=
  exists c d vs, v = VObj c vs /\ specialises c d.
Definition user_message (v : pyval) : Prop :=
  exists c d vs, v = VObj d vs /\ specialises c d.
(* the variables of a combined message: header variables, and lists of messages *)
Definition combined_of (P : pyval -> Prop) (vars : list (string * pyval)) : Prop :=
  Forall (fun kv => header_var (fst kv) \/ exists l, snd kv = VList l /\ Forall P l) vars.
(* all messages of a combined message, in order *)
Inductive messages : list (string * pyval) -> list pyval -> Prop :=
| ms_nil : messages [] []
| ms_head k v r l : header_var k -> messages r l -> messages ((k, v) :: r) l
| ms_list k l0 r l : ~ header_var k -> messages r l -> messages ((k, VList l0) :: r) (l0 ++ l).

(* a message made concrete: same content, the user's class *)
Inductive concrete : pyval -> pyval -> Prop :=
| conc c d vs : specialises c d -> concrete (VObj c vs) (VObj d vs).
Inductive concrete_vars : list (string * pyval) -> list (string * pyval) -> Prop :=
| cv_nil : concrete_vars [] []
| cv_head k v r r' : header_var k -> concrete_vars r r' -> concrete_vars ((k, v) :: r) ((k, v) :: r')
| cv_list k l l' r r' : ~ header_var k -> Forall2 concrete l l' -> concrete_vars r r' ->
                        concrete_vars ((k, VList l) :: r) ((k, VList l') :: r').

(* the root tags of the eight message types *)
Definition message_tag (t : str) : Prop :=
  In t [lit "aem"; lit "apm"; lit "cdm"; lit "oem"; lit "omm"; lit "opm"; lit "rdm"; lit "tdm"].

