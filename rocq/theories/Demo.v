(* Concrete environments, documents and objects used by the non-vacuity examples. *)
From Coq Require Import NArith ZArith List Bool String.
From Verif Require Import PyStr PyDec PyVal Schema KvnPre XmlBind.
Import ListNotations.

(* an environment in which no character above 127 is numeric, alphabetic or a digit *)
Definition demo_env : env :=
  mkEnv (fun _ => false) (fun _ => false) (fun c => [c]) (fun _ => None) (fun _ _ => VStr []) false.

(* a document from its lines *)
Definition doc (l : list string) : str := join [c_nl] (map lit l).

Local Open Scope string_scope.

(* a minimal OMM *)
Definition omm_doc : str := doc
  ["CCSDS_OMM_VERS = 2.0"; "CREATION_DATE = 2021-01-01T00:00:00"; "ORIGINATOR = ME";
   "OBJECT_NAME = SAT"; "OBJECT_ID = 2021-001A"; "CENTER_NAME = EARTH"; "REF_FRAME = TEME";
   "TIME_SYSTEM = UTC"; "MEAN_ELEMENT_THEORY = SGP4"; "COMMENT a"; "EPOCH = 2021-01-01T00:00:00";
   "MEAN_MOTION = 15.0 [rev/day]"; "ECCENTRICITY = 0.001"; "INCLINATION = 51.6 [deg]";
   "RA_OF_ASC_NODE = 1 [deg]"; "ARG_OF_PERICENTER = 2 [deg]"; "MEAN_ANOMALY = 3 [deg]"].

(* a message with nothing in it *)
Definition empty_message (c : string) : pyval := new_obj c.
(* a combined message with the given messages *)
Definition ndm_vars (omms opms : list pyval) : list (string * pyval) :=
  [("message_id", VNone); ("comment", VList []); ("aem", VList []); ("apm", VList []);
   ("cdm", VList []); ("oem", VList []); ("omm", VList omms); ("opm", VList opms);
   ("rdm", VList []); ("tdm", VList [])].

(* replace the variable at a path of attribute names (and list positions, as decimal names) *)
Fixpoint upd_var (f : pyval -> pyval) (n : string) (vars : list (string * pyval)) : list (string * pyval) :=
  match vars with
  | [] => []
  | (k, v) :: r => if String.eqb k n then (k, f v) :: r else (k, v) :: upd_var f n r
  end.
Fixpoint upd (path : list string) (x : pyval) (v : pyval) : pyval :=
  match path with
  | [] => x
  | n :: p => match v with
              | VObj c vars => VObj c (upd_var (upd p x) n vars)
              | VList (a :: l) => VList (upd p x a :: l)
              | _ => v
              end
  end.
(* the value at a path; a list stands for its first element *)
Fixpoint at_path (path : list string) (v : pyval) : option pyval :=
  match path with
  | [] => Some v
  | n :: p => match v with
              | VObj _ vars => match assoc n vars with Some x => at_path p x | None => None end
              | VList (a :: _) => at_path p a
              | _ => None
              end
  end.
Definition ok_or_none (r : res pyval) : pyval := match r with Ok v => v | Err _ => VNone end.

(* a value for every simple field type *)
Definition demo_scalar (t : ftype) : pyval :=
  match t with
  | TStr => VStr (lit "A-1 b")
  | TInt => VInt 7
  | TDec => VDec (DFin true 25 (-1))
  | TCls c => match find_class c with Some (CEnum ((m, v) :: _)) => VEnum c m (lit v) | _ => VNone end
  end.
Definition demo_value (t : ftype) : pyval :=
  match t with
  | TCls c => match find_class c with
              | Some (CData _ [_; fu]) => VObj c [("value", VDec (DFin false 15 (-1))); ("units", demo_scalar (f_ty fu))]
              | _ => demo_scalar t
              end
  | _ => demo_scalar t
  end.
(* an object of a section class with the given comments, all fields but the named ones set *)
Definition demo_but (c : string) (cs : list string) (absent : list string) : pyval :=
  VObj c (map (fun f => (f_name f, if f_list f then VList (map (fun s => VStr (lit s)) cs)
                                   else if existsb (String.eqb (f_name f)) absent then VNone else demo_value (f_ty f)))
              (fields_of c)).
(* the same with only the named fields set *)
Definition demo_only (c : string) (cs : list string) (present : list string) : pyval :=
  VObj c (map (fun f => (f_name f, if f_list f then VList (map (fun s => VStr (lit s)) cs)
                                   else if existsb (String.eqb (f_name f)) present then demo_value (f_ty f) else VNone))
              (fields_of c)).
