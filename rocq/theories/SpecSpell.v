(* The number a keyword takes, and texts that spell the same number. *)
From Coq Require Import NArith ZArith List Bool String.
From Verif Require Import PyStr PyDec PyVal Schema KvnPre Spec SpecNum SpecFrom SpecOrder.
Import ListNotations.
Local Open Scope string_scope.
Local Open Scope list_scope.

(* the type of the text of an element: of a value with a unit, the type of the value *)
Definition is_text (f : field) : bool := match f_kind f with KText => true | _ => false end.
Definition text_type (t : ftype) : ftype :=
  match t with
  | TCls c => match find is_text (fields_of c) with Some g => f_ty g | None => t end
  | _ => t
  end.
(* a keyword that takes values of a type: the name of a field, or one of the words of the two rotation classes *)
Inductive keyword_type : str -> ftype -> Prop :=
| keyword_field c f : In f (fields_of c) -> upper_name f = true -> f_kind f = KElem -> keyword_type (kvn_name f) (text_type (f_ty f))
| keyword_rotation c k : c = "RotationAngleComponentType" \/ c = "RotationRateComponentType" ->
    In k (attribute_words c) -> keyword_type k (text_type (TCls c)).

(* two texts of the same number *)
Inductive same_number (k : str) : str -> str -> Prop :=
| same_decimal s s' d : keyword_type k TDec -> spells (no_underscores s) d -> spells (no_underscores s') d -> same_number k s s'
| same_whole s s' z : keyword_type k TInt -> spells_whole s z -> spells_whole s' z -> same_number k s s'.
(* a unit, or none *)
Definition unit_text (un : str) : Prop := trimmed un /\ no_char c_lbr un /\ no_char c_rbr un.
