(* Pre-processing of a KVN document: ndm_kvn_io.py 407-464, 1048-1065, 51-85, 128-133. *)
From Coq Require Import NArith List Bool String.
From Verif Require Import PyStr PyDec PyVal Schema.
Import ListNotations.

(* a processed line: [key], [key; value] or [key; value; unit] *)
Definition line := list str.

Definition kw_comment : str := lit "COMMENT".

(* ndm_kvn_io.py 427-433: a stripped line that starts with COMMENT *)
Definition lex_comment (s : str) : line :=
  let t := strip (skipn 7 s) in
  [kw_comment; if startswith [c_eq] t then strip (skipn 1 t) else t].

(* ndm_kvn_io.py 434-448: any other stripped line *)
Definition lex_data (s : str) : line :=
  match split_once c_eq s with
  | [k; text] =>
    if endswith [c_rbr] (rstrip text) then
      match find_char c_lbr text with
      | Some i => [k; firstn i text; remove_char c_rbr (remove_char c_lbr (skipn i text))]
      | None => [k; text]
      end
    else [k; text]
  | l => l
  end.

(* ndm_kvn_io.py 420-454: one iteration of the loop; None = line skipped *)
Definition lex_line (raw : str) : option line :=
  let s := strip raw in
  match strip s with
  | [] => None
  | _ => Some (map strip (if startswith kw_comment s then lex_comment s else lex_data s))
  end.

Fixpoint filter_map {A B} (f : A -> option B) (l : list A) : list B :=
  match l with
  | [] => []
  | a :: r => match f a with Some b => b :: filter_map f r | None => filter_map f r end
  end.

(* ndm_kvn_io.py 417-454 *)
Definition lex_lines (src : str) : list line := filter_map lex_line (split_on c_nl src).

(* ndm_kvn_io.py 456-461.  [lines.insert(1, lines[0])] inserts the same list object;
   line 458 rebinds lines[0] first, so line 459 edits only the inserted one. *)
Definition split_first (lines : list line) : res (list line) :=
  match lines with
  | [] => Err IndexError                      (* lines[0] of an empty list *)
  | [] :: _ => Err IndexError                 (* unreachable: no line is empty *)
  | (k :: vs) :: rest => Ok ([lit "id"; k] :: (lit "version" :: vs) :: rest)
  end.

(* ndm_kvn_io.py 407-464.  [self._keys] is always [map key_of lines] (line 464). *)
Definition pre_process (src : str) : res (list line) := split_first (lex_lines src).

Definition key_of (l : line) : str := hd [] l.
Definition keys_of (ls : list line) : list str := map key_of ls.

(* schema access *)
Definition find_class (c : string) : option cdef := assoc c schema.
Definition fields_of (c : string) : list field :=
  match find_class c with Some (CData _ fs) => fs | _ => [] end.
Definition meta_name (c : string) : option string :=
  match find_class c with Some (CData m _) => Some m | _ => None end.
Definition find_field (n : string) (fs : list field) : option field :=
  find (fun f => String.eqb (f_name f) n) fs.
(* class attribute [cls.id] / [cls.version] *)
Definition class_fixed (c n : string) : option string :=
  match find_field n (fields_of c) with Some f => f_fixed f | None => None end.

(* ndm_kvn_io.py 51-63: the members of _NdmDataType, in order *)
Definition root_classes : list string :=
  ["Aem"; "Apm"; "Cdm"; "Oem"; "Omm"; "Opm"; "Rdm"; "Tdm"]%string.

(* ndm_kvn_io.py 69-85: find_element by class id; None when nothing matches *)
Definition find_element (id : str) : option string :=
  find (fun c => match class_fixed c "id" with
                 | Some i => str_eqb (lit i) id
                 | None => false
                 end) root_classes.

(* ndm_kvn_io.py 1048-1065: [.clazz] of None is an AttributeError *)
Definition identify_data_type (lines : list line) : res string :=
  do l0 <- get lines 0;
  do id <- get l0 1;
  guard_opt (find_element id) AttributeError.

(* ndm_kvn_io.py 128-132 *)
Definition deleted_keywords (c : string) : list str :=
  if String.eqb c "Oem" then
    [lit "META_START"; lit "META_STOP"; lit "COVARIANCE_START"; lit "COVARIANCE_STOP"]
  else if String.eqb c "Aem" || String.eqb c "Tdm" then
    [lit "META_START"; lit "META_STOP"; lit "DATA_START"; lit "DATA_STOP"]
  else [].

(* ndm_kvn_io.py 203-207.  For the other classes nothing is deleted, which is the same as
   filtering with an empty list. *)
Definition delete_keywords (c : string) (lines : list line) : list line :=
  filter (fun l => negb (mem_str (key_of l) (deleted_keywords c))) lines.
