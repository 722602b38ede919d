(* Vocabulary for the exceptions that reading a document may raise. *)
From Coq Require Import NArith List String.
From Verif Require Import PyStr PyVal Schema KvnPre Spec SpecOrder SpecInsert.
Import ListNotations.
Local Open Scope string_scope.
Local Open Scope list_scope.

(* the characters XML 1.0 allows *)
Definition xml_allowed (c : N) : Prop :=
  (c = 9 \/ c = 10 \/ c = 13 \/ (32 <= c <= 55295) \/ (57344 <= c <= 65533) \/ (65536 <= c <= 1114111))%N.

(* two lines say the same keyword, and it is not COMMENT *)
Definition said_twice (rs : list str) : Prop :=
  exists a r b s e k, rs = a ++ r :: b ++ s :: e /\ heads r k /\ heads s k /\ k <> kw_comment.

(* a line with an equals sign, a comment or a blank line *)
Definition valued (raw : str) : Prop := blank raw \/ In c_eq raw \/ exists w b, blank w /\ raw = w ++ kw_comment ++ b.

(* the sections that stand before the data of a message *)
Definition front_classes (c : string) : list string :=
  if String.eqb c "Rdm" then ["RdmHeader"; "RdmMetadata"]
  else if String.eqb c "Cdm" then ["CdmHeader"; "RelativeMetadataData"; "RelativeStateVectorType"; "CdmMetadata"]
  else ["NdmHeader"; String.append c "Metadata"].
Definition before_data (c : string) (k : str) : Prop := exists d, In d (front_classes c) /\ In k (keywords d).

(* a document, split at its first line that is not blank, that gives the reader no reason to complain *)
Definition trouble_free (c : string) (blanks : list str) (first : str) (rest : list str) : Prop :=
  Forall (Forall xml_allowed) (blanks ++ first :: rest) /\ Forall valued (first :: rest) /\ said_once rest /\
  exists pre last post h, rest = pre ++ last :: post /\ Forall blank post /\ heads last h /\ (h = kw_comment \/ ~ before_data c h).
