(* Messages that can be converted, and what a conversion leaves as it is. *)
From Coq Require Import NArith ZArith List Bool String.
From Verif Require Import PyStr PyDec PyVal Schema KvnPre XmlBind Spec SpecKvn SpecObj SpecBack.
Import ListNotations.
Local Open Scope string_scope.
Local Open Scope list_scope.

(* the attribute of an object, and of an attribute of it, ... *)
Inductive attribute : list string -> pyval -> pyval -> Prop :=
| attribute_self v : attribute [] v v
| attribute_of n r c vars x y : In (n, x) vars -> attribute r x y -> attribute (n :: r) (VObj c vars) y.

Definition object_at (p : list string) (v : pyval) : Prop := exists c vars, attribute p v (VObj c vars).

(* a text in the place of a number must not look like one; a text in the place of a unit cannot be written at all *)
Definition text_fits (c n : string) (s : str) : Prop :=
  good_value s /\ n <> "units" /\
  forall f, In f (fields_of c) -> f_name f = n -> f_ty f = TDec \/ f_ty f = TInt -> not_number s /\ no_char c_lbr s.
(* Nothing in the message is blank or misleading: no empty value, texts on one line that do not end like a unit, comments
   that say something, and no section that holds nothing but comments. *)
Definition tidy (v : pyval) : Prop :=
  (forall c vars, inside (VObj c vars) v -> c <> "UserDefinedParameterType" ->
     ~ In ("value", VNone) vars /\
     (forall n s, In (n, VStr s) vars -> text_fits c n s) /\
     (forall n l x, In (n, VList l) vars -> In x l -> (exists s, x = VStr s /\ good_text s) \/ exists c' vars', x = VObj c' vars') /\
     (In c section_classes -> exists n x, In (n, x) vars /\ is_set x)).

(* a message without its comments, and its comments in order *)
Fixpoint uncommented (v : pyval) : pyval :=
  match v with
  | VObj c vars => VObj c (flat_map (fun nx => if String.eqb (fst nx) "comment" then [] else [(fst nx, uncommented (snd nx))]) vars)
  | VList l => VList (map uncommented l)
  | _ => v
  end.
Fixpoint all_comments (v : pyval) : list pyval :=
  match v with
  | VObj _ vars => flat_map (fun nx => match snd nx with VList l => if String.eqb (fst nx) "comment" then l else [] | _ => [] end ++ all_comments (snd nx)) vars
  | VList l => flat_map all_comments l
  | _ => []
  end.
(* The message can be written, the text can be read, and the message read has the same values and the same comments in the
   same order; writing that one gives exactly the same text (so reading it gives exactly that message again). *)
Definition converts (write : pyval -> res str) (read : str -> res pyval) (v : pyval) : Prop :=
  exists t v', write v = Ok t /\ read t = Ok v' /\ uncommented v' = uncommented v /\ all_comments v' = all_comments v /\ write v' = Ok t.

(* the attributes of a segment that have a line of their own *)
Definition own_line (p : list string) : Prop := (exists n, p = ["metadata"; n]) \/ exists s n, p = ["data"; s; n].
(* no segment has an attribute set that one before it lacks *)
Fixpoint no_new_attributes (vs : list pyval) : Prop :=
  match vs with
  | [] => True
  | v :: r => (forall w p x, In w r -> own_line p -> attribute p w x -> is_set x -> exists y, attribute p v y /\ is_set y) /\ no_new_attributes r
  end.
