(* A line with a keyword that is not in the standard, put into a document. *)
From Coq Require Import NArith List Bool String.
From Verif Require Import PyStr PyVal Schema KvnPre Spec SpecKvn SpecFrom SpecOrder.
Import ListNotations.
Local Open Scope string_scope.
Local Open Scope list_scope.

(* a word that no class of the message knows *)
Definition unknown (c : string) (j : str) : Prop :=
  j <> kw_comment /\ ~ begins (lit "USER_DEFINED") j /\ j <> lit "id" /\ j <> lit "version" /\
  forall d, within c d -> ~ In j (keywords d) /\ ~ In j (attribute_words d).

(* a section of key value lines that may hold comments and comes once (a maneuver may come several times) *)
Definition section_of (c d : string) : Prop :=
  within c d /\ In kw_comment (keywords d) /\ ~ In d ["ManeuverParametersType"; "AttManeuverParametersType"; "UserDefinedType"].

(* no keyword but COMMENT is said twice *)
Definition said_once (rs : list str) : Prop :=
  forall a r b s e k, rs = a ++ r :: b ++ s :: e -> heads r k -> heads s k -> k = kw_comment.

(* behind the first user defined parameter there are only comments and user defined parameters *)
Definition user_last (rs : list str) : Prop :=
  forall a r b s e h k, rs = a ++ r :: b ++ s :: e -> heads r h -> begins (lit "USER_DEFINED") h -> heads s k ->
    k = kw_comment \/ begins (lit "USER_DEFINED") k.
