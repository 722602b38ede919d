(* The flat XML fragments the KVN reader builds (ndm_kvn_io.py 1344-1397) and what
   lxml + xsdata 21.5 make of them (third-party behaviour, part of the trusted base). *)
From Coq Require Import NArith List Bool String.
From Verif Require Import PyStr PyDec PyVal Schema KvnPre.
Import ListNotations.

(* characters lxml accepts in text and attribute values (XML 1.0 Char) *)
Definition xml_char (c : N) : bool :=
  N.eqb c 9 || N.eqb c 10 || N.eqb c 13 || in_range 32 55295 c
  || in_range 57344 65533 c || in_range 65536 1114111 c.
Definition xml_text (s : str) : bool := forallb xml_char s.

Section Bind.
Variable u : env.

(* xsdata EnumConverter.deserialize: the first member whose value equals the text or the
   text with its white space collapsed *)
Definition conv_enum (c : string) (ms : list (string * string)) (s0 : str) : pyval :=
  let s := strip s0 in
  let j := join [c_sp] (split_ws s) in
  match find (fun m => str_eqb (lit (snd m)) s || str_eqb (lit (snd m)) j) ms with
  | Some m => VEnum c (fst m) (lit (snd m))
  | None => VStr s0
  end.

(* xsdata conversion of text to the type of field [fld] of class [cls]; on failure xsdata warns
   and keeps the text.  Empty text: oracle. *)
Definition conv (cls fld : string) (t : ftype) (s : str) : pyval :=
  match s with
  | [] => x_empty u cls fld
  | _ =>
    match t with
    | TStr => VStr s
    | TInt => match py_int u s with Some z => VInt z | None => VStr s end
    | TDec => match py_decimal u s with Some d => VDec d | None => VStr s end
    | TCls c => match find_class c with
                | Some (CEnum ms) => conv_enum c ms s
                | _ => VStr s
                end
    end
  end.

(* dataclass default of a field *)
Definition field_default (f : field) : pyval := if f_list f then VList [] else VNone.
(* fields that live in vars(obj): everything but the init=False class attributes *)
Definition init_fields (fs : list field) : list field :=
  filter (fun f => match f_fixed f with Some _ => false | None => true end) fs.
(* [cls()] *)
Definition new_obj (c : string) : pyval :=
  VObj c (map (fun f => (f_name f, field_default f)) (init_fields (fields_of c))).

(* an element <tag attrs>text</tag> bound to a value class (value + attributes);
   attributes the class does not have are ignored *)
Definition bind_value_obj (c : string) (attrs : list (string * str)) (text : str) : pyval :=
  VObj c (map (fun f =>
                 (f_name f,
                  match f_kind f with
                  | KText => conv c (f_name f) (f_ty f) text
                  | KAttr => match assoc (f_name f) attrs with
                             | Some a => conv c (f_name f) (f_ty f) a
                             | None => field_default f
                             end
                  | KElem => field_default f
                  end)) (init_fields (fields_of c))).

(* a child element bound to a field *)
Definition bind_child (cls : string) (f : field) (attrs : list (string * str)) (text : str)
  : pyval :=
  match f_ty f with
  | TCls c => match find_class c with
              | Some (CData _ _) => bind_value_obj c attrs text
              | _ => conv cls (f_name f) (f_ty f) text
              end
  | _ => conv cls (f_name f) (f_ty f) text
  end.

(* element name of a field: metadata["name"] or the attribute name *)
Definition xml_name (f : field) : str :=
  lit (match f_kw f with Some n => n | None => f_name f end).

Definition find_elem (tag : str) (fs : list field) : option field :=
  find (fun f => match f_kind f with KElem => str_eqb (xml_name f) tag | _ => false end) fs.

(* a child: tag, attributes, text *)
Definition child := (str * list (string * str) * str)%type.

Definition child_ok (c : child) : bool :=
  let '(_, attrs, text) := c in
  xml_text text && forallb (fun a => xml_text (snd a)) attrs.

Fixpoint set_var (n : string) (v : pyval) (vars : list (string * pyval))
  : list (string * pyval) :=
  match vars with
  | [] => []
  | (k, w) :: r => if String.eqb k n then (k, v) :: r else (k, w) :: set_var n v r
  end.

Fixpoint append_var (n : string) (v : pyval) (vars : list (string * pyval))
  : list (string * pyval) :=
  match vars with
  | [] => []
  | (k, w) :: r =>
    if String.eqb k n then (k, match w with VList l => VList (l ++ [v]) | _ => w end) :: r
    else (k, w) :: append_var n v r
  end.

(* children bound one after the other; [seen] are the non-list fields already assigned *)
Fixpoint bind_children (cls : string) (fs : list field) (seen : list string)
         (cs : list child) (vars : list (string * pyval)) : res (list (string * pyval)) :=
  match cs with
  | [] => Ok vars
  | (tag, attrs, text) :: r =>
    if child_ok (tag, attrs, text) then
      match find_elem tag fs with
      | None => Err XmlReject                             (* unknown property *)
      | Some f =>
        let v := bind_child cls f attrs text in
        if f_list f then bind_children cls fs seen r (append_var (f_name f) v vars)
        else if existsb (String.eqb (f_name f)) seen then Err XmlReject  (* repeated *)
        else bind_children cls fs (f_name f :: seen) r (set_var (f_name f) v vars)
      end
    else Err XmlReject                                     (* not XML compatible *)
  end.

Definition vars_of (v : pyval) : list (string * pyval) :=
  match v with VObj _ vs => vs | _ => [] end.

(* ndm_kvn_io.py 1388-1395: a line as a child element; item[1] may be missing *)
Definition child_of_line (l : line) : res child :=
  do k <- get l 0;
  do t <- get l 1;
  Ok (k, match nth_error l 2 with Some un => [("units"%string, un)] | None => [] end, t).

(* ndm_kvn_io.py 1382-1387: with prefix, units ignored *)
Definition child_of_user_line (p : str) (l : line) : res child :=
  do k <- get l 0;
  do t <- get l 1;
  Ok (p, [("parameter"%string, remove_sub (p ++ [95%N]) k)], t).

(* ndm_kvn_io.py 1375-1397 _xmlify_list followed by parser.from_bytes (line 867) *)
Definition parse_list (cls : string) (prefix : option str) (items : list line) : res pyval :=
  do cs <- map_res (match prefix with Some p => child_of_user_line p | None => child_of_line end)
                   items;
  do vs <- bind_children cls (fields_of cls) [] cs (vars_of (new_obj cls));
  Ok (VObj cls vs).

(* ndm_kvn_io.py 1356-1372 _xmlify_single_elem + parse: first line only *)
Definition parse_single (cls : string) (param : string) (items : list line) : res pyval :=
  do l <- get items 0;
  do k <- get l 0;
  do t <- get l 1;
  let attrs := (param, k) :: match nth_error l 2 with
                             | Some un => [("units"%string, un)]
                             | None => []
                             end in
  if child_ok (k, attrs, t) then Ok (bind_value_obj cls attrs t) else Err XmlReject.

(* ndm_kvn_io.py 1344-1353 _xmlify_root + parse: the attributes are init=False (fixed) and
   ignored by xsdata 21.5, so the object has its defaults *)
Definition parse_root (cls : string) (items : list line) : res pyval :=
  do ts <- map_res (fun l => get l 1) items;
  if forallb xml_text ts then Ok (new_obj cls) else Err XmlReject.
End Bind.
