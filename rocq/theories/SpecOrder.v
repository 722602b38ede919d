(* The order of the lines of a section: which keywords belong together, and how a text names its keywords. *)
From Coq Require Import NArith List Bool String.
From Verif Require Import PyStr PyDec PyVal Schema KvnPre Spec SpecFrom.
Import ListNotations.
Local Open Scope string_scope.
Local Open Scope list_scope.

(* the classes a message may hold *)
Inductive within (c : string) : string -> Prop :=
| within_self : within c c
| within_field k f d : within c k -> In f (fields_of k) -> f_ty f = TCls d -> within c d.

(* the keywords of a class, and the words its attributes may take *)
Definition keywords (k : string) : list str := map kvn_name (filter upper_name (fields_of k)).
Definition attribute_words (k : string) : list str :=
  flat_map (fun f => match f_kind f, f_ty f with
                     | KAttr, TCls d => match find_class d with Some (CEnum ms) => map (fun m => lit (fst m)) ms | _ => [] end
                     | _, _ => []
                     end) (fields_of k).

(* two keywords of the same sections: each class of the message has both or neither *)
Definition together (c : string) (a b : str) : Prop :=
  a <> b /\ a <> kw_comment /\ b <> kw_comment /\
  (exists k, within c k /\ In a (keywords k)) /\
  forall k, within c k -> (In a (keywords k) <-> In b (keywords k)) /\ ~ In a (attribute_words k) /\ ~ In b (attribute_words k).

(* keywords of user defined lines and of the covariance matrices of an ephemeris: the lines between two of these are taken
   with them *)
Definition stray (c : string) (k : str) : Prop :=
  begins (lit "USER_DEFINED") k \/ (c = "Oem" /\ In k (keywords "OemCovarianceMatrixType")).

(* the keyword of a line of text: what stands before the first equals sign, or the whole line if there is none; a line that
   begins with COMMENT is a comment *)
Inductive heads : str -> str -> Prop :=
| heads_eq p q k : no_char c_eq p -> is_core p k -> ~ begins kw_comment k -> heads (p ++ c_eq :: q) k
| heads_bare p k : no_char c_eq p -> is_core p k -> k <> [] -> ~ begins kw_comment k -> heads p k
| heads_comment w b : blank w -> heads (w ++ kw_comment ++ b) kw_comment.

(* the lines with keyword a or b stand side by side, two and two (blank lines apart) *)
Inductive paired (a b : str) : list str -> Prop :=
| paired_nil : paired a b []
| paired_other r rs : ~ heads r a -> ~ heads r b -> paired a b rs -> paired a b (r :: rs)
| paired_two r gap s rs : (heads r a /\ heads s b) \/ (heads r b /\ heads s a) -> Forall blank gap -> paired a b rs ->
    paired a b (r :: gap ++ s :: rs).

(* a line whose value begins with a letter *)
Definition letter (c : N) : Prop := (65 <= c <= 90)%N \/ (97 <= c <= 122)%N.
Definition worded (r : str) : Prop :=
  exists p w c t, r = p ++ c_eq :: w ++ c :: t /\ no_char c_eq p /\ blank w /\ letter c.
