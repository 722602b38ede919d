(* Where the values of a message come from: relations between the lines of a text and the values read. *)
From Coq Require Import NArith ZArith List Bool String.
From Verif Require Import PyStr PyDec PyVal Schema KvnPre Spec SpecNum.
Import ListNotations.
Local Open Scope string_scope.
Local Open Scope list_scope.

Definition no_brackets (s : str) : str := filter (fun c => negb (N.eqb c c_lbr) && negb (N.eqb c c_rbr)) s.

(* what a line of text says: keyword and value, and a unit in brackets if there is one.  The keyword is what stands before
   the first equals sign; COMMENT needs none. *)
Inductive says : str -> line -> Prop :=
| says_plain a b k s : no_char c_eq a -> is_core a k -> is_core b s -> says (a ++ c_eq :: b) [k; s]
| says_unit a b r k s un : no_char c_eq a -> no_char c_lbr b -> is_core a k -> is_core b s -> is_core (no_brackets r) un ->
    says (a ++ c_eq :: b ++ c_lbr :: r) [k; s; un]
| says_comment w b s : blank w -> is_core b s -> says (w ++ kw_comment ++ b) [kw_comment; s]
| says_comment_eq w b b' s : blank w -> is_core b (c_eq :: b') -> is_core b' s -> says (w ++ kw_comment ++ b) [kw_comment; s].

(* a word of a line *)
Definition edge (c : N) : Prop := is_ws c = true \/ c = c_eq \/ c = c_lbr.
Definition piece (raw s : str) : Prop :=
  exists a b, raw = a ++ s ++ b /\ s <> [] /\ Forall (fun c => is_ws c = false) s /\
    (a = [] \/ ends kw_comment a \/ exists a' c, a = a' ++ [c] /\ edge c) /\ (b = [] \/ s = kw_comment \/ exists c b', b = c :: b' /\ edge c).
(* a line that starts with a keyword *)
Definition keyed (raw k : str) : Prop := exists s r, says raw (k :: s :: r).

(* [t] is [s] with some of the occurrences of [p] taken out *)
Inductive without (p : str) : str -> str -> Prop :=
| without_nil : without p [] []
| without_keep c s t : without p s t -> without p (c :: s) (c :: t)
| without_drop s t : without p s t -> without p (p ++ s) t.

Section From.
Variable u : env.
Variable raws : list str.

(* a value as which a text may be read: the text itself, the number it spells, or the member of an enumeration it names;
   the value for an empty text is left open; the number spelled by a text that is not ASCII is the one Decimal() or int() gives *)
Inductive reading : str -> pyval -> Prop :=
| reading_text s : reading s (VStr s)
| reading_dec s core d : plain s -> is_core s core -> spells (no_underscores core) d -> reading s (VDec d)
| reading_int s core z : plain s -> is_core s core -> spells_whole core z -> reading s (VInt z)
| reading_other_dec s d : ~ plain s -> py_decimal u s = Some d -> reading s (VDec d)
| reading_other_int s z : ~ plain s -> py_int u s = Some z -> reading s (VInt z)
| reading_enum s c ms m n : find_class c = Some (CEnum ms) -> In (m, n) ms -> lit n = strip s \/ lit n = join [c_sp] (split_ws (strip s)) ->
    reading s (VEnum c m (lit n))
| reading_empty v : (forall l, v <> VList l) -> reading [] v.

(* a value taken from one line: a plain value, or an object with the value, the unit and a name made from the keyword *)
Inductive taken (k s : str) (un : option str) : pyval -> Prop :=
| taken_plain x : reading s x -> taken k s un x
| taken_object c vars :
    (forall n x, In (n, x) vars -> exists f, In f (fields_of c) /\ f_name f = n /\
       match f_kind f with
       | KText => reading s x
       | KAttr => x = VNone \/ x = VList [] \/
                  (if String.eqb n "units" then exists t, un = Some t /\ reading t x
                   else exists p, without (lit "USER_DEFINED_") k p /\ reading p x)
       | KElem => x = VNone \/ x = VList []
       end) -> taken k s un (VObj c vars).

(* the lines of the text an object of the class may take its values from; the ephemeris and tracking lines hold several
   values each *)
Definition columns (c : string) : bool := String.eqb c "StateVectorAccType" || String.eqb c "OemCovarianceMatrixType".
Definition source (w : option str) (c : string) (k s : str) (un : option str) : Prop :=
  match w with
  | None => exists raw, In raw raws /\
    (says raw (k :: s :: match un with Some t => [t] | None => [] end) \/
     (columns c = true /\ un = None /\ piece raw s) \/
     (c = "TrackingDataObservationType" /\ un = None /\ piece raw s /\ (k = lit "EPOCH" \/ keyed raw k)))
  | Some raw => un = None /\ piece raw s   (* inside the attitude record of this line *)
  end.

Definition kvn_name (f : field) : str := lit (match f_kw f with Some n => n | None => f_name f end).
Definition upper_name (f : field) : bool := match f_kw f with Some n => isupper (lit n) | None => false end.

(* the same value spelled again: a text without some of its "Type"s, read again; a number without a positive exponent *)
Inductive respelled : pyval -> pyval -> Prop :=
| respelled_same v : respelled v v
| respelled_text s t x : without (lit "Type") s t -> reading t x -> respelled (VStr s) x
| respelled_number n c e : respelled (VDec (DFin n c (Z.pos e))) (VDec (DFin n (c * 10 ^ N.pos e) 0))
| respelled_object c vs vs' : Forall2 (fun a b => fst a = fst b /\ respelled (snd a) (snd b)) vs vs' -> respelled (VObj c vs) (VObj c vs')
| respelled_list l l' : Forall2 respelled l l' -> respelled (VList l) (VList l').

(* every value of a message is taken from a line with the field's own keyword (for a user defined parameter: from any line).
   Sections stand in the fields whose name is not a keyword.  The values of an attitude record are words of one line, and
   spelled again. *)
Inductive backed : option str -> pyval -> Prop :=
| backed_attitude raw vars0 v : In raw raws -> (forall n x, In (n, x) vars0 -> held (Some raw) "AttitudeStateType" n x) ->
    respelled (VObj "AttitudeStateType" vars0) v -> backed None v
| backed_value w k s un c vars : source w c k s un -> existsb (fun f => String.eqb (f_name f) "value") (fields_of c) = true ->
    taken k s un (VObj c vars) -> backed w (VObj c vars)
| backed_object w c vars : (forall n x, In (n, x) vars -> held w c n x) -> backed w (VObj c vars)
with held : option str -> string -> string -> pyval -> Prop :=
| held_none w c n : held w c n VNone
| held_list w c n l : (forall x, In x l -> held w c n x) -> held w c n (VList l)
| held_section w c n f v : In f (fields_of c) -> f_name f = n -> upper_name f = false -> backed w v -> held w c n v
| held_text w c n f k s un x : In f (fields_of c) -> f_name f = n ->
    (k = kvn_name f \/ kvn_name f = lit "USER_DEFINED") -> source w c k s un -> taken k s un x -> held w c n x.
End From.
