(* Well-formed section objects and the entries they stand for, in terms of the schema only. *)
From Coq Require Import NArith ZArith List Bool String.
From Verif Require Import PyStr PyDec PyVal Schema KvnPre XmlBind DecFacts Spec SpecKvn.
Import ListNotations.
Local Open Scope string_scope.
Local Open Scope list_scope.

(* free text that fits on one line and in XML *)
Definition good_text (s : str) : Prop :=
  s <> [] /\ trimmed s /\ one_line s /\ Forall (fun c => xml_char c = true) s.
(* the text of a keyword: must not look like "value [unit]" *)
Definition good_value (s : str) : Prop := good_text s /\ ~ unit_like s.

(* A text that is not a number: it has an ASCII character other than white space that no number has (numbers are
   made of digits, signs, points, underscores and the letters of "e", "infinity", "nan" and "snan"). *)
Definition number_chars : str := lit "0123456789+-._aefinstyAEFINSTY".
Definition not_number (s : str) : Prop := exists c, In c s /\ (c < 128)%N /\ is_ws c = false /\ ~ In c number_chars.

(* a value of a simple type; a text that does not fit the type stands for itself *)
Inductive wf_scalar : ftype -> pyval -> Prop :=
| wf_str s : good_value s -> wf_scalar TStr (VStr s)
| wf_int z : wf_scalar TInt (VInt z)
| wf_dec d : canonical d -> wf_scalar TDec (VDec d)
| wf_enum c ms m v : find_class c = Some (CEnum ms) -> In (m, v) ms ->
    wf_scalar (TCls c) (VEnum c m (lit v))
| wf_odd_int s : good_value s -> not_number s -> wf_scalar TInt (VStr s)
| wf_odd_dec s : good_value s -> not_number s -> wf_scalar TDec (VStr s)
| wf_odd_enum c ms s : find_class c = Some (CEnum ms) -> good_value s ->
    (forall m v, In (m, v) ms -> split_ws (lit v) <> split_ws s) -> wf_scalar (TCls c) (VStr s).
(* the value of a number with a unit; a text that is not a number stands for itself *)
Inductive wf_amount : pyval -> Prop :=
| wf_amount_dec d : canonical d -> wf_amount (VDec d)
| wf_amount_odd s : good_value s -> no_char c_lbr s -> not_number s -> wf_amount (VStr s).
(* a unit is a member of its enumeration *)
Definition wf_unit (t : ftype) (v : pyval) : Prop :=
  exists c ms m x, t = TCls c /\ find_class c = Some (CEnum ms) /\ In (m, x) ms /\ v = VEnum c m (lit x).

(* a value of a keyword field: simple, or a number with its unit (which may be left out) *)
Inductive wf_value : ftype -> pyval -> Prop :=
| wf_simple t v : wf_scalar t v -> wf_value t v
| wf_number c m fv fu x :
    find_class c = Some (CData m [fv; fu]) -> wf_amount x ->
    wf_value (TCls c) (VObj c [("value", x); ("units", VNone)])
| wf_quantity c m fv fu x un :
    find_class c = Some (CData m [fv; fu]) -> wf_amount x -> wf_unit (f_ty fu) un ->
    wf_value (TCls c) (VObj c [("value", x); ("units", un)]).

(* the value of a field: absent, present, or a list of comments *)
Inductive wf_field (f : field) : pyval -> Prop :=
| wf_absent : f_list f = false -> wf_field f VNone
| wf_present v : f_list f = false -> wf_value (f_ty f) v -> wf_field f v
| wf_comments ts : f_list f = true -> Forall good_text ts -> wf_field f (VList (map VStr ts)).

(* the variables of an object, in schema order *)
Definition wf_vars (fs : list field) (vars : list (string * pyval)) : Prop :=
  Forall2 (fun f kv => fst kv = f_name f /\ wf_field f (snd kv)) fs vars.

(* text and unit of a value *)
Definition shown (v : pyval) : str * str :=
  match v with
  | VStr s => (s, [])
  | VInt z => (show_Z z, [])
  | VDec d => (show_dec d, [])
  | VEnum _ _ s => (s, [])
  | VObj _ [(_, VDec d); (_, VEnum _ _ un)] => (show_dec d, un)
  | VObj _ [(_, VDec d); (_, VNone)] => (show_dec d, [])
  | VObj _ [(_, VStr s); (_, VEnum _ _ un)] => (s, un)
  | VObj _ [(_, VStr s); (_, VNone)] => (s, [])
  | _ => ([], [])
  end.

(* keyword, text, unit *)
Definition entry := (str * str * str)%type.
Definition field_entries (kw : string) (v : pyval) : list entry :=
  match v with
  | VNone => []
  | VList l => map (fun x => (lit kw, fst (shown x), snd (shown x))) l
  | _ => [(lit kw, fst (shown v), snd (shown v))]
  end.
Fixpoint entries (fs : list field) (vars : list (string * pyval)) : list entry :=
  match fs, vars with
  | f :: fs', (_, v) :: vars' =>
    field_entries match f_kw f with Some k => k | None => "" end v ++ entries fs' vars'
  | _, _ => []
  end.
(* how an entry looks when it has been read *)
Definition line_of (e : entry) : line :=
  let '(k, t, un) := e in match un with [] => [k; t] | _ => [k; t; un] end.
(* how an entry looks in the text *)
Inductive spelled : entry -> str -> Prop :=
| sp_plain k t w : blank w -> spelled (k, t, []) (k ++ w ++ [c_eq; c_sp] ++ t)
| sp_unit k t un w1 w2 : blank w1 -> blank w2 -> un <> [] ->
    spelled (k, t, un) (k ++ w1 ++ [c_eq; c_sp] ++ t ++ w2 ++ [c_lbr] ++ un ++ [c_rbr]).

(* a section: an object all of whose fields are keywords, with something in it *)
Definition is_set (v : pyval) : Prop := match v with VNone | VList _ => False | _ => True end.
Definition section (c : string) (v : pyval) : Prop :=
  exists vars, v = VObj c vars /\ wf_vars (fields_of c) vars /\
               exists n x, In (n, x) vars /\ is_set x.
(* an optional section *)
Definition opt_section (c : string) (v : pyval) : Prop := v = VNone \/ section c v.
(* the classes all of whose fields are keywords, apart from those written in a layout of their
   own (state vectors, OEM covariances, observations, user-defined parameters) *)
Definition section_classes : list string :=
  ["AemMetadata"; "SpinType"; "SpinNutationType"; "ApmMetadata"; "QuaternionType";
   "QuaternionRateType"; "EulerElementsSpinType"; "AttSpacecraftParametersType";
   "AttManeuverParametersType"; "CdmHeader"; "RelativeStateVectorType"; "CdmMetadata";
   "AdditionalParametersType"; "CdmStateVectorType"; "CdmCovarianceMatrixType"; "OemMetadata";
   "OmmMetadata"; "MeanElementsType"; "TleParametersType"; "NdmHeader"; "OpmMetadata";
   "KeplerianElementsType"; "SpacecraftParametersType"; "ManeuverParametersType"; "RdmHeader";
   "RdmMetadata"; "AtmosphericReentryParametersType"; "GroundImpactParametersType";
   "StateVectorType"; "OpmCovarianceMatrixType"; "RdmSpacecraftParametersType";
   "OdParametersType"; "TdmHeader"; "TdmMetadata"].

(* ---- user-defined parameters ---- *)
Definition user_param (p : str * str) : pyval :=
  VObj "UserDefinedParameterType" [("value", VStr (snd p)); ("parameter", VStr (fst p))].
Definition user_block (ps : list (str * str)) : pyval :=
  VObj "UserDefinedType" [("comment", VList []); ("user_defined", VList (map user_param ps))].
Definition user_prefix : str := lit "USER_DEFINED_".
(* a name in upper case that fits in a keyword and does not contain the prefix again *)
Definition good_name (u : env) (n : str) : Prop :=
  good_text n /\ no_char c_eq n /\ upper u n = n /\ ~ (exists a b, n = a ++ user_prefix ++ b).
Definition good_params (u : env) (ps : list (str * str)) : Prop :=
  ps <> [] /\ NoDup (map fst ps) /\ Forall (fun p => good_name u (fst p) /\ good_value (snd p)) ps.
Definition opt_user (u : env) (v : pyval) : Prop :=
  v = VNone \/ exists ps, good_params u ps /\ v = user_block ps.
