(* Tracking data messages as objects and their data lines as text. *)
From Coq Require Import NArith ZArith List Bool String.
From Verif Require Import PyStr PyDec PyVal Schema KvnPre XmlBind DecFacts Spec SpecKvn SpecObj SpecMsg SpecDoc SpecEph.
Import ListNotations.
Local Open Scope string_scope.
Local Open Scope list_scope.

(* an observation: the name of the observable, the epoch and the value *)
Definition obs := (string * str * dec)%type.
Definition observables : list field := tl (fields_of "TrackingDataObservationType").
(* the keyword of an observable *)
Definition obs_key (n k : string) : Prop := exists f, In f observables /\ f_name f = n /\ f_kw f = Some k.
(* an angle is an object with a value, any other observable is a number *)
Definition measured (f : field) (d : dec) : pyval :=
  match f_ty f with TCls c => number c d | _ => VDec d end.
Definition observation (o : obs) : pyval :=
  let '(n, e, d) := o in
  VObj "TrackingDataObservationType"
    (("epoch", VStr e) :: map (fun f => (f_name f, if String.eqb (f_name f) n then measured f d else VNone)) observables).
(* an observation that can be written: not an angle *)
Definition plain_obs (o : obs) : Prop :=
  let '(n, e, d) := o in good_text e /\ exists f, In f observables /\ f_name f = n /\ f_ty f = TDec.
(* an observation that can be written and read: not an angle, and an epoch shorter than its column *)
Definition good_obs (o : obs) : Prop :=
  let '(n, e, d) := o in
  date_text e /\ List.length e < 30 /\ canonical d /\ exists f, In f observables /\ f_name f = n /\ f_ty f = TDec.

(* a segment: metadata, comments of the data, observations *)
Definition tdm_part := (pyval * list str * list obs)%type.
Definition tdm_segment (p : tdm_part) : pyval :=
  let '(md, cs, os) := p in
  VObj "TdmSegment" [("metadata", md);
    ("data", VObj "TdmData" [("comment", VList (texts cs)); ("observation", VList (map observation os))])].
Definition tdm_message (header : pyval) (segments : list pyval) : pyval :=
  VObj "Tdm" [("header", header); ("body", VObj "TdmBody" [("segment", VList segments)])].
(* what the reader needs: metadata, at most one comment and an observation *)
Definition tdm_part_ok (p : tdm_part) : Prop :=
  let '(md, cs, os) := p in section "TdmMetadata" md /\ Forall good_text cs /\ List.length cs <= 1 /\ os <> [].
Definition tdm_segment_ok (p : tdm_part) : Prop :=
  tdm_part_ok p /\ let '(_, _, os) := p in Forall good_obs os.
(* what the writer needs *)
Definition tdm_plain (p : tdm_part) : Prop :=
  let '(md, cs, os) := p in section "TdmMetadata" md /\ Forall good_text cs /\ Forall plain_obs os.

(* a text that cannot be taken for a date: the first word has an ASCII character other than a digit among its
   first four *)
Definition undated (t : str) : Prop :=
  exists w ts c, columned (w :: ts) t /\ In c (firstn 4 w) /\ (c < 128)%N /\ is_digit c = false.
Definition starts_undated (md : pyval) : Prop :=
  exists k t un l, section_items md = Say (k, t, un) :: l /\ undated t.
(* What the reader needs to tell segments apart.  Unless a segment has no data comment and an observable
   that occurs twice, it must have every metadata field that a later segment has; and the first text of the
   metadata of every segment but the first must not look like a date. *)
Fixpoint tdm_apart (ps : list tdm_part) : Prop :=
  match ps with
  | [] => True
  | (md, cs, os) :: r =>
    ((cs = [] /\ ~ NoDup (map (fun o => fst (fst o)) os)) \/
     forall md' cs' os', In (md', cs', os') r -> forall n, sets md' n -> sets md n) /\
    match r with
    | [] => True
    | (md', _, _) :: _ => starts_undated md'
    end /\ tdm_apart r
  end.

(* ---- TDM documents ---- *)
(* a data line: the keyword, the epoch and a number; whatever follows the number, and a unit, is ignored *)
Definition obs_said (o : obs) (i : item) : Prop :=
  let '(n, e, d) := o in
  exists k t un w extra, obs_key n k /\ i = Say (lit k, t, un) /\ date_text e /\ trimmed t /\
    columned (e :: w :: extra) t /\ number_text w d /\
    ((un = [] /\ ~ unit_like t) \/ (un <> [] /\ no_char c_lbr t /\ trimmed un /\ no_char c_lbr un /\ no_char c_rbr un)).
Definition tdm_said (p : tdm_part) (l : list item) : Prop :=
  let '(md, cs, os) := p in
  exists is, Forall2 obs_said os is /\
    l = [Bare (lit "META_START")] ++ section_items md ++ [Bare (lit "META_STOP"); Bare (lit "DATA_START")] ++
        comment_items cs ++ is ++ [Bare (lit "DATA_STOP")].

(* ---- TDM as written ---- *)
(* the epoch fills a column of thirty characters *)
Definition obs_written (o : obs) (i : item) : Prop :=
  let '(n, e, d) := o in
  exists k, obs_key n k /\ i = Say (lit k, e ++ repeat c_sp (30 - List.length e) ++ show_dec d, []).
Definition tdm_written (p : tdm_part) (l : list item) : Prop :=
  let '(md, cs, os) := p in
  exists is, Forall2 obs_written os is /\
    l = [Bare (lit "META_START")] ++ section_items md ++ [Bare (lit "META_STOP"); Bare (lit "DATA_START")] ++
        comment_items cs ++ is ++ [Bare (lit "DATA_STOP")].
