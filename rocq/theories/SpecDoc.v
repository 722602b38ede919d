(* Documents: texts that say given things line by line, in any spacing and with blank lines anywhere. *)
From Coq Require Import NArith List String.
From Verif Require Import PyStr PyVal Schema KvnPre Spec SpecKvn SpecObj SpecMsg.
Import ListNotations.
Local Open Scope list_scope.

(* "KEY = value", "KEY = value [unit]" or "COMMENT text" *)
Inductive said : entry -> str -> Prop :=
| said_plain k t w0 w1 w2 w3 : blank w0 -> blank w1 -> blank w2 -> blank w3 ->
    said (k, t, []) (w0 ++ k ++ w1 ++ [c_eq] ++ w2 ++ t ++ w3)
| said_unit k t un w0 w1 w2 w3 w4 : blank w0 -> blank w1 -> blank w2 -> blank w3 -> blank w4 -> un <> [] ->
    said (k, t, un) (w0 ++ k ++ w1 ++ [c_eq] ++ w2 ++ t ++ w3 ++ [c_lbr] ++ un ++ [c_rbr] ++ w4)
| said_comment t w0 w1 w2 : blank w0 -> blank w1 -> w1 <> [] -> blank w2 -> ~ begins [c_eq] t ->
    said (kw_comment, t, []) (w0 ++ kw_comment ++ w1 ++ t ++ w2).

Inductive item := Say (e : entry) | Bare (s : str).
Inductive spelt : item -> str -> Prop :=
| spelt_say e raw : said e raw -> spelt (Say e) raw
| spelt_bare s w1 w2 : blank w1 -> blank w2 -> spelt (Bare s) (w1 ++ s ++ w2).
Inductive document : list item -> list str -> Prop :=
| doc_end : document [] []
| doc_blank w l raws : blank w -> document l raws -> document l (w :: raws)
| doc_item i raw l raws : spelt i raw -> document l raws -> document (i :: l) (raw :: raws).
Definition text_of (raws : list str) : str := join [c_nl] raws.

(* what a section says *)
Definition section_items (v : pyval) : list item :=
  match v with VObj c vars => map Say (entries (fields_of c) vars) | _ => [] end.
(* the first line: CCSDS_xxx_VERS = version *)
Definition first_item (id version : string) : item := Say (lit id, lit version, []).
Definition comment_items (cs : list str) : list item := map (fun c => Say (kw_comment, c, [])) cs.
Definition parts_items (secs : list (string * pyval)) : list item := flat_map (fun nv => section_items (snd nv)) secs.
(* USER_DEFINED_name = value *)
Definition user_items (v : pyval) : list item :=
  match v with
  | VObj _ [_; (_, VList l)] =>
    map (fun x => match x with
                  | VObj _ [(_, VStr t); (_, VStr n)] => Say (user_prefix ++ n, t, [])
                  | _ => Bare []
                  end) l
  | _ => []
  end.
(* the relative data of a CDM: four fields, the state vector, the other fields *)
Definition relative_items (v : pyval) : list item :=
  match v with
  | VObj c vars =>
    map Say (entries (firstn 4 (fields_of c)) (firstn 4 vars)) ++
    match nth_error vars 4 with Some (_, rsv) => section_items rsv | None => [] end ++
    map Say (entries (skipn 5 (fields_of c)) (skipn 5 vars))
  | _ => []
  end.
Definition segment_items (p : segment_parts) : list item :=
  let '(md, cs, secs) := p in section_items md ++ comment_items cs ++ parts_items secs.
