(* ndm_xml_io.py.  The XML engines (ElementTree, xsdata parser and serializer) are
   oracles; everything the repository itself decides is concrete. *)
From Coq Require Import NArith List Bool String Arith.
From Verif Require Import PyStr PyDec PyVal Schema KvnPre.
Import ListNotations.

(* vars(v) *)
Definition py_vars (v : pyval) : res (list (string * pyval)) :=
  match v with VObj _ vs => Ok vs | _ => Err TypeError end.

(* for x in v *)
Definition py_iter (v : pyval) : res (list pyval) :=
  match v with
  | VList l => Ok l
  | VStr s => Ok (map (fun c => VStr [c]) s)
  | _ => Err TypeError
  end.

(* len(v) *)
Definition py_len (v : pyval) : res nat :=
  match v with
  | VList l => Ok (List.length l)
  | VStr s => Ok (List.length s)
  | _ => Err TypeError
  end.

(* ndm_xml_io.py 283-290 / 322-329: the variables with non-zero members, apart from
   "message_id" and "comment" *)
Fixpoint non_zero_elems (vars : list (string * pyval)) : res (list (string * pyval)) :=
  match vars with
  | [] => Ok []
  | (k, v) :: r =>
    if String.eqb k "message_id" || String.eqb k "comment" then non_zero_elems r
    else do n <- py_len v;
         do r' <- non_zero_elems r;
         Ok (if Nat.ltb 0 n then (k, v) :: r' else r')
  end.

(* ndm_xml_io.py 305-341 _is_multi_ndm *)
Definition is_multi_ndm (ndm : pyval) : res bool :=
  do vars <- py_vars ndm;
  do nz <- non_zero_elems vars;
  match nz with
  | [(_, v)] => do n <- py_len v; Ok (negb (Nat.eqb n 1))
  | _ => Ok true
  end.

(* ndm_xml_io.py 264-302 _strip_multi_ndm *)
Definition strip_multi_ndm (ndm : pyval) : res pyval :=
  do vars <- py_vars ndm;
  do nz <- non_zero_elems vars;
  match nz with
  | [(_, v)] => do n <- py_len v;
                if Nat.eqb n 1 then do l <- py_iter v; get l 0 else Ok ndm
  | _ => Ok ndm
  end.

(* master_2_0.py: type(x).__subclasses__()[0] of the schema classes *)
Definition first_subclass (c : string) : option string :=
  assoc c [("AemType", "Aem"); ("ApmType", "Apm"); ("CdmType", "Cdm"); ("NdmType", "Ndm");
           ("OemType", "Oem"); ("OmmType", "Omm"); ("OpmType", "Opm"); ("RdmType", "Rdm");
           ("TdmType", "Tdm");
           ("OemCovarianceMatrixAbstractType", "OemCovarianceMatrixType");
           ("OpmCovarianceMatrixAbstractType", "OpmCovarianceMatrixType")]%string.

(* ndm_xml_io.py 134-136: one list item; a non-object item (never produced by the schema)
   is treated as a class without subclasses *)
Definition downcast (v : pyval) : res pyval :=
  match v with
  | VObj c vs => match first_subclass c with
                 | Some d => Ok (VObj d vs)
                 | None => Err IndexError
                 end
  | _ => Err IndexError
  end.

(* ndm_xml_io.py 131-136: all items of all message lists *)
Fixpoint downcast_vars (vars : list (string * pyval)) : res (list (string * pyval)) :=
  match vars with
  | [] => Ok []
  | (k, v) :: r =>
    if String.eqb k "comment" || String.eqb k "message_id" then
      do r' <- downcast_vars r; Ok ((k, v) :: r')
    else
      do l <- py_iter v;
      do l' <- map_res downcast l;
      do r' <- downcast_vars r;
      Ok ((k, VList l') :: r')
  end.

(* ndm_xml_io.py 28-35, 41-57: root tag -> message class *)
Definition xml_find_element (tag : str) : option string :=
  find (fun c => match meta_name c with
                 | Some m => str_eqb (lit m) tag
                 | None => false
                 end) root_classes.

(* schema_location, no_namespace_schema_location *)
Definition xcfg := (option str * option str)%type.

(* instance variables of NdmXmlIo (lines 65-67) *)
Record xmlio := mkXmlio { xi_parser : bool; xi_ser : option xcfg }.
Definition xmlio_new : xmlio := mkXmlio false None.

Section Xml.
Variable et_root : str -> option str.          (* ElementTree.XML(s).tag; None = ParseError *)
Variable xs_parse : str -> res pyval.          (* XmlParser.from_string *)
Variable xs_render : xcfg -> pyval -> res str. (* XmlSerializer(config).render *)

(* ndm_xml_io.py 231-261: the ndm_combi flag (an unknown tag gives None.clazz,
   an AttributeError, which is caught) *)
Definition xml_is_combi (src : str) : bool :=
  match et_root src with
  | Some tag => match xml_find_element tag with Some _ => false | None => true end
  | None => true
  end.

(* ndm_xml_io.py 106-144 *)
Definition xml_from_string (st : xmlio) (src : str) : xmlio * res pyval :=
  let st1 := mkXmlio true (xi_ser st) in
  let combi := xml_is_combi src in
  (st1,
   do ndm <- xs_parse src;
   do ndm1 <- match ndm with
              | VObj c vars => if String.eqb c "Ndm"
                               then do vs <- downcast_vars vars; Ok (VObj c vs)
                               else Ok ndm
              | _ => Ok ndm
              end;
   if combi then strip_multi_ndm ndm1 else Ok ndm1).

(* ndm_xml_io.py 146-173: the serializer is created on the first call only *)
Definition xml_to_string (st : xmlio) (v : pyval) (cfg : xcfg) : xmlio * res str :=
  let ser := match xi_ser st with Some c => c | None => cfg end in
  (mkXmlio (xi_parser st) (Some ser), xs_render ser v).
End Xml.
