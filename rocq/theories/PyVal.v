(* Python values, exceptions, schema types, and the oracles for behaviour that lives
   outside the repository. *)
From Coq Require Import NArith ZArith List Bool String.
From Verif Require Import PyStr PyDec.
Import ListNotations.

(* python exceptions as values.  [XmlReject]: lxml ValueError for an invalid name/text or
   xsdata ParserError for an unknown or repeated property.  [OutOfFuel] is not a python
   exception: it marks an exhausted loop bound and is proved unreachable.
   [Opaque]: str() of an object or list, whose text is not modelled. *)
Inductive exn :=
| IndexError | ValueError | AttributeError | KeyError | TypeError
| NotImplementedErr | StopIter | OSErr | XmlReject | OutOfFuel | Opaque.

Inductive res (A : Type) := Ok (a : A) | Err (e : exn).
Arguments Ok {A} a.
Arguments Err {A} e.

Definition bind {A B} (r : res A) (f : A -> res B) : res B :=
  match r with Ok a => f a | Err e => Err e end.
Notation "'do' x <- r ; k" := (bind r (fun x => k))
  (at level 200, x pattern, r at level 100, k at level 200, right associativity).
Definition guard_opt {A} (o : option A) (e : exn) : res A :=
  match o with Some a => Ok a | None => Err e end.

Fixpoint map_res {A B} (f : A -> res B) (l : list A) : res (list B) :=
  match l with
  | [] => Ok []
  | a :: r => do b <- f a; do bs <- map_res f r; Ok (b :: bs)
  end.

(* l[i] *)
Definition get {A} (l : list A) (i : nat) : res A := guard_opt (nth_error l i) IndexError.

(* python objects.  [VEnum c m v]: member [m] with value [v] of enum class [c].
   [VObj c vars]: dataclass instance; [vars] is vars(obj) in order (the class attributes
   id/version, which are init=False fields with a default, are not in it). *)
Inductive pyval :=
| VNone
| VStr (s : str)
| VInt (z : Z)
| VDec (d : dec)
| VEnum (cls member : string) (value : str)
| VObj (cls : string) (vars : list (string * pyval))
| VList (l : list pyval).

(* schema *)
Inductive ftype := TStr | TInt | TDec | TCls (c : string).
Inductive fkind := KElem | KAttr | KText.
Record field := mkField {
  f_name : string;              (* attribute name *)
  f_kw : option string;         (* metadata["name"] *)
  f_list : bool;                (* default_factory is list *)
  f_ty : ftype;                 (* type.__args__[0] *)
  f_kind : fkind;               (* metadata["type"]; KText when absent *)
  f_fixed : option string       (* default of an init=False field (id, version) *)
}.
Inductive cdef :=
| CData (meta_name : string) (fields : list field)
| CEnum (members : list (string * string)).

Fixpoint assoc {A} (k : string) (l : list (string * A)) : option A :=
  match l with
  | [] => None
  | (a, v) :: r => if String.eqb a k then Some v else assoc k r
  end.

(* Oracles.  Only consulted where stated; every theorem quantifies over them. *)
Record env := mkEnv {
  u_numeric : N -> bool;          (* isnumeric() of a code point above 127 *)
  u_alpha : N -> bool;            (* isalpha() of a code point above 127 *)
  u_upper : N -> str;             (* upper() of a code point above 127 *)
  u_digit : N -> option N;        (* decimal digit value of a code point above 127 *)
  x_empty : string -> string -> pyval; (* what xsdata binds for empty text: class, field *)
  os_crlf : bool                  (* os.linesep is "\r\n" (Windows) and not "\n" *)
}.

Section Unicode.
Variable u : env.

Definition is_ascii (c : N) : bool := N.ltb c 128.

(* str.isnumeric(): non-empty and all characters numeric *)
Definition isnumeric (s : str) : bool :=
  match s with
  | [] => false
  | _ => forallb (fun c => if is_ascii c then is_digit c else u_numeric u c) s
  end.

(* str.isalpha() *)
Definition isalpha (s : str) : bool :=
  match s with
  | [] => false
  | _ => forallb (fun c => if is_ascii c then is_lower_ascii c || is_upper_ascii c
                           else u_alpha u c) s
  end.

(* str.upper() (per code point; the only context-free full mapping python uses) *)
Definition upper (s : str) : str :=
  flat_map (fun c => if is_ascii c then [upper_ascii c] else u_upper u c) s.

(* CPython _PyUnicode_TransformDecimalAndSpaceToASCII: decimal digits to ASCII digits,
   white space to a space, any other non-ASCII character to '?' *)
Definition to_ascii_num (s : str) : str :=
  map (fun c => if is_ascii c then c
                else if is_ws c then c_sp
                else match u_digit u c with
                     | Some d => N.add 48 (N.modulo d 10)
                     | None => 63%N
                     end) s.

Definition py_decimal (s : str) : option dec := parse_dec_ascii (to_ascii_num s).
Definition py_int (s : str) : option Z := parse_int_ascii (to_ascii_num s).
Definition float_ok (s : str) : bool := float_ok_ascii (to_ascii_num s).
End Unicode.
