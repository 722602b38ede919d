(* Values that fit the classes of the schema. *)
From Coq Require Import NArith ZArith List Bool String.
From Verif Require Import PyStr PyDec PyVal Schema KvnPre DecFacts Spec SpecNum.
Import ListNotations.
Local Open Scope string_scope.
Local Open Scope list_scope.

(* texts that do not spell a number (nothing is said about texts that are not ASCII), or no value of an enumeration *)
Definition no_whole (s : str) : Prop := plain s -> forall core z, is_core s core -> ~ spells_whole core z.
Definition no_decimal (s : str) : Prop := plain s -> forall core d, is_core s core -> ~ spells (no_underscores core) d.
Definition no_member (ms : list (string * string)) (s : str) : Prop := forall m v, In (m, v) ms -> split_ws (lit v) <> split_ws s.

(* A value of a declared type.  A text that does not fit a number or an enumeration stands for itself.  An object has the
   variables of its class, in the order of the class; the fields with a fixed value are no variables of the object. *)
Inductive conforms : ftype -> pyval -> Prop :=
| co_text s : conforms TStr (VStr s)
| co_int z : conforms TInt (VInt z)
| co_no_int s : no_whole s -> conforms TInt (VStr s)
| co_dec d : canonical d -> conforms TDec (VDec d)
| co_no_dec s : no_decimal s -> conforms TDec (VStr s)
| co_enum c ms m v : find_class c = Some (CEnum ms) -> In (m, v) ms -> conforms (TCls c) (VEnum c m (lit v))
| co_no_enum c ms s : find_class c = Some (CEnum ms) -> no_member ms s -> conforms (TCls c) (VStr s)
| co_object c m fs vars : find_class c = Some (CData m fs) -> members fs vars -> conforms (TCls c) (VObj c vars)
with members : list field -> list (string * pyval) -> Prop :=
| me_nil : members [] []
| me_fixed f fs vars : f_fixed f <> None -> members fs vars -> members (f :: fs) vars
| me_var f fs v vars : f_fixed f = None -> holds f v -> members fs vars -> members (f :: fs) ((f_name f, v) :: vars)
with holds : field -> pyval -> Prop :=
| ho_none f : f_list f = false -> holds f VNone
| ho_one f v : f_list f = false -> conforms (f_ty f) v -> holds f v
| ho_list f l : f_list f = true -> each (f_ty f) l -> holds f (VList l)
with each : ftype -> list pyval -> Prop :=
| ea_nil t : each t []
| ea_none t l : each t l -> each t (VNone :: l)   (* an empty text may be read as None *)
| ea_cons t v l : conforms t v -> each t l -> each t (v :: l).
