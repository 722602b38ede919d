(* Vocabulary for the properties of KVN documents. *)
From Coq Require Import NArith ZArith List Bool String.
From Verif Require Import PyStr PyVal Spec.
Import ListNotations.

(* a text that reads as a value followed by a bracketed unit *)
Definition unit_like (v : str) : Prop := In c_lbr v /\ ends [c_rbr] v.

(* two sequences of raw lines that differ in layout only *)
Inductive same_layout : list str -> list str -> Prop :=
| sl_nil : same_layout [] []
| sl_blank_l b l1 l2 : blank b -> same_layout l1 l2 -> same_layout (b :: l1) l2
| sl_blank_r b l1 l2 : blank b -> same_layout l1 l2 -> same_layout l1 (b :: l2)
| sl_line w1 w2 w3 w4 t l1 l2 :          (* other indentation / trailing white space *)
    blank w1 -> blank w2 -> blank w3 -> blank w4 -> same_layout l1 l2 ->
    same_layout ((w1 ++ t ++ w2) :: l1) ((w3 ++ t ++ w4) :: l2).


(* the eight identification keywords and the message class they stand for *)
Definition type_table : list (str * string) :=
  [(lit "CCSDS_AEM_VERS", "Aem"); (lit "CCSDS_APM_VERS", "Apm"); (lit "CCSDS_CDM_VERS", "Cdm");
   (lit "CCSDS_OEM_VERS", "Oem"); (lit "CCSDS_OMM_VERS", "Omm"); (lit "CCSDS_OPM_VERS", "Opm");
   (lit "CCSDS_RDM_VERS", "Rdm"); (lit "CCSDS_TDM_VERS", "Tdm")]%string.
(* keyword of a raw line: the text before the first "=", without surrounding white space *)
Inductive line_key (raw : str) : str -> Prop :=
| lk_eq a b k : raw = a ++ c_eq :: b -> no_char c_eq a -> is_core a k -> line_key raw k
| lk_bare k : no_char c_eq raw -> is_core raw k -> line_key raw k.

(* marker lines of the message types that have them *)
Definition section_markers (c : string) : list str :=
  if String.eqb c "Oem" then
    [lit "META_START"; lit "META_STOP"; lit "COVARIANCE_START"; lit "COVARIANCE_STOP"]
  else if String.eqb c "Aem" || String.eqb c "Tdm" then
    [lit "META_START"; lit "META_STOP"; lit "DATA_START"; lit "DATA_STOP"]
  else [].
Definition marker_line (c : string) (raw : str) : Prop :=
  exists m, is_core raw m /\ In m (section_markers c).
(* raw lines that differ in marker lines only *)
Inductive same_but_markers (c : string) : list str -> list str -> Prop :=
| sm_nil : same_but_markers c [] []
| sm_left m l1 l2 : marker_line c m -> same_but_markers c l1 l2 -> same_but_markers c (m :: l1) l2
| sm_right m l1 l2 : marker_line c m -> same_but_markers c l1 l2 -> same_but_markers c l1 (m :: l2)
| sm_line t l1 l2 : same_but_markers c l1 l2 -> same_but_markers c (t :: l1) (t :: l2).

