(* Ephemeris messages as objects and their data lines as text. *)
From Coq Require Import NArith ZArith List Bool String.
From Verif Require Import PyStr PyDec PyVal Schema KvnPre XmlBind DecFacts Spec SpecKvn SpecObj SpecMsg SpecDoc SpecNum.
Import ListNotations.
Local Open Scope string_scope.
Local Open Scope list_scope.

(* ---- data lines ---- *)
(* a word: text without white space *)
Definition word (s : str) : Prop := s <> [] /\ Forall (fun c => is_ws c = false) s.
(* a text made of the given words with white space around and between them *)
Inductive columned : list str -> str -> Prop :=
| col_end w : blank w -> columned [] w
| col_word w t ts s : blank w -> word t -> columned ts s ->
    (s = [] \/ exists c r, s = c :: r /\ is_ws c = true) -> columned (t :: ts) (w ++ t ++ s).

(* a date: four ASCII digits and a minus sign, then anything without white space and equal sign *)
Definition date_text (e : str) : Prop :=
  good_value e /\ word e /\ no_char c_eq e /\
  exists a b c d r, e = a :: b :: c :: d :: c_minus :: r /\
    Forall (fun x => is_digit x = true) [a; b; c; d].
(* a printable ASCII text, without "_" and "=", that spells the number *)
Definition number_text (t : str) (d : dec) : Prop :=
  t <> [] /\ Forall (fun c => (33 <= c <= 126)%N /\ c <> 95%N /\ c <> c_eq) t /\ spells t d.
(* the words in rows of n, n + 1, n + 2, ... *)
Inductive triangle {A : Type} : nat -> list A -> list (list A) -> Prop :=
| tri_end n : triangle n [] []
| tri_row n row rest rows : List.length row = n -> triangle (S n) rest rows ->
    triangle n (row ++ rest) (row :: rows).

(* numbers without units in the components of the given names and classes, from the first on;
   the components left over are absent *)
Definition number (c : string) (d : dec) : pyval := VObj c [("value", VDec d); ("units", VNone)].
Fixpoint columns (shape : list (string * string)) (ds : list dec) : list (string * pyval) :=
  match shape, ds with
  | (n, c) :: shape', d :: ds' => (n, number c d) :: columns shape' ds'
  | (n, _) :: shape', [] => (n, VNone) :: columns shape' []
  | [], _ => []
  end.

(* ---- OEM ---- *)
Definition state_columns : list (string * string) :=
  [("x", "PositionType"); ("y", "PositionType"); ("z", "PositionType");
   ("x_dot", "VelocityType"); ("y_dot", "VelocityType"); ("z_dot", "VelocityType");
   ("x_ddot", "AccType"); ("y_ddot", "AccType"); ("z_ddot", "AccType")].
(* an epoch and the numbers of its line *)
Definition record := (str * list dec)%type.
Definition oem_state (r : record) : pyval :=
  VObj "StateVectorAccType" (("epoch", VStr (fst r)) :: columns state_columns (snd r)).
Definition good_state (r : record) : Prop :=
  date_text (fst r) /\ 1 <= List.length (snd r) <= 9 /\ Forall canonical (snd r).

(* the lower triangle, row by row *)
Definition cov_columns : list (string * string) :=
  [("cx_x", "PositionCovarianceType");
   ("cy_x", "PositionCovarianceType"); ("cy_y", "PositionCovarianceType");
   ("cz_x", "PositionCovarianceType"); ("cz_y", "PositionCovarianceType"); ("cz_z", "PositionCovarianceType");
   ("cx_dot_x", "PositionVelocityCovarianceType"); ("cx_dot_y", "PositionVelocityCovarianceType");
   ("cx_dot_z", "PositionVelocityCovarianceType"); ("cx_dot_x_dot", "VelocityCovarianceType");
   ("cy_dot_x", "PositionVelocityCovarianceType"); ("cy_dot_y", "PositionVelocityCovarianceType");
   ("cy_dot_z", "PositionVelocityCovarianceType"); ("cy_dot_x_dot", "VelocityCovarianceType");
   ("cy_dot_y_dot", "VelocityCovarianceType");
   ("cz_dot_x", "PositionVelocityCovarianceType"); ("cz_dot_y", "PositionVelocityCovarianceType");
   ("cz_dot_z", "PositionVelocityCovarianceType"); ("cz_dot_x_dot", "VelocityCovarianceType");
   ("cz_dot_y_dot", "VelocityCovarianceType"); ("cz_dot_z_dot", "VelocityCovarianceType")].
Definition oem_cov (r : record) : pyval :=
  VObj "OemCovarianceMatrixType"
    (("comment", VList []) :: ("epoch", VStr (fst r)) :: ("cov_ref_frame", VNone) :: columns cov_columns (snd r)).
Definition finite (d : dec) : Prop := match d with DFin _ _ _ => True | _ => False end.
Definition good_cov (r : record) : Prop :=
  good_value (fst r) /\ List.length (snd r) = 21 /\ Forall finite (snd r).

(* a segment: metadata, comments of the data, state vectors, covariance matrices *)
Definition oem_part := (pyval * list str * list record * list record)%type.
Definition oem_segment (p : oem_part) : pyval :=
  let '(md, cs, states, covs) := p in
  VObj "OemSegment" [("metadata", md);
    ("data", VObj "OemData" [("comment", VList (texts cs)); ("state_vector", VList (map oem_state states));
                             ("covariance_matrix", VList (map oem_cov covs))])].
Definition oem_segment_ok (p : oem_part) : Prop :=
  let '(md, cs, states, covs) := p in
  section "OemMetadata" md /\ Forall good_text cs /\ List.length cs <= 1 /\
  states <> [] /\ Forall good_state states /\ Forall good_cov covs.
(* What the reader needs to tell segments apart.  A segment whose data starts with a comment must have
   every metadata field that a later segment has; and metadata that starts with a comment must not
   come after another segment when a covariance matrix follows. *)
Fixpoint oem_apart (ps : list oem_part) : Prop :=
  match ps with
  | [] => True
  | (md, cs, _, _) :: r =>
    (cs = [] \/ forall md' cs' s' c', In (md', cs', s', c') r -> forall n, sets md' n -> sets md n) /\
    match r with
    | [] => True
    | (md', _, _, _) :: _ => comments_of md' = [] \/ forall md2 cs2 s2 c2, In (md2, cs2, s2, c2) r -> c2 = []
    end /\ oem_apart r
  end.
Definition oem_message (header : pyval) (segments : list pyval) : pyval :=
  VObj "Oem" [("header", header); ("body", VObj "OemBody" [("segment", VList segments)])].


(* ---- OEM documents ---- *)
(* a data line: the epoch and at most nine numbers in columns; whatever follows the ninth number is ignored *)
Definition state_text (s : str) (r : record) : Prop :=
  trimmed s /\ no_char c_eq s /\ date_text (fst r) /\
  exists ts extra, columned (fst r :: ts ++ extra) s /\ Forall2 number_text ts (snd r) /\
    List.length ts <= 9 /\ (extra = [] \/ List.length ts = 9).
(* a matrix: its epoch, then rows of numbers which together are the components in order *)
Definition row_text (ts : list str) (s : str) : Prop := ts <> [] /\ trimmed s /\ columned ts s.
Definition cov_said (l : list item) (r : record) : Prop :=
  good_value (fst r) /\ Forall finite (snd r) /\ List.length (snd r) <= 21 /\
  exists tss rows, l = Say (lit "EPOCH", fst r, []) :: map Bare rows /\ Forall2 row_text tss rows /\
    Forall2 number_text (List.concat tss) (snd r).
(* a segment whose data lines have the further property P *)
Definition oem_said (P : str -> Prop) (p : oem_part) (l : list item) : Prop :=
  let '(md, cs, states, covs) := p in
  exists ss blocks, Forall2 state_text ss states /\ Forall P ss /\ Forall2 cov_said blocks covs /\
    l = [Bare (lit "META_START")] ++ section_items md ++ [Bare (lit "META_STOP")] ++
        comment_items cs ++ map Bare ss ++
        match covs with
        | [] => []
        | _ => [Bare (lit "COVARIANCE_START")] ++ List.concat blocks ++ [Bare (lit "COVARIANCE_STOP")]
        end.
(* what the reader needs besides [oem_apart]: metadata, at most one comment and a data line *)
Definition oem_part_ok (p : oem_part) : Prop :=
  let '(md, cs, states, _) := p in
  section "OemMetadata" md /\ Forall good_text cs /\ List.length cs <= 1 /\ states <> [].

(* ---- OEM as written ---- *)
Definition spaced_out (ts : list str) : item := Bare (join [c_sp; c_sp] ts).
(* the epoch and the 21 numbers in rows of 1, 2, ..., 6 *)
Definition cov_written (r : record) (l : list item) : Prop :=
  exists rows, triangle 1 (map show_dec (snd r)) rows /\
               l = Say (lit "EPOCH", fst r, []) :: map spaced_out rows.
Definition oem_written (p : oem_part) (l : list item) : Prop :=
  let '(md, cs, states, covs) := p in
  exists blocks, Forall2 cov_written covs blocks /\
    l = [Bare (lit "META_START")] ++ section_items md ++ [Bare (lit "META_STOP")] ++
        comment_items cs ++ map (fun r => spaced_out (fst r :: map show_dec (snd r))) states ++
        match covs with
        | [] => []
        | _ => [Bare (lit "COVARIANCE_START")] ++ List.concat blocks ++ [Bare (lit "COVARIANCE_STOP")]
        end.

(* covariance matrices with a reference frame: these can be written, but not read *)
Definition framed := (option str * record)%type.
Definition framed_cov (m : framed) : pyval :=
  VObj "OemCovarianceMatrixType"
    (("comment", VList []) :: ("epoch", VStr (fst (snd m))) ::
     ("cov_ref_frame", match fst m with Some f => VStr f | None => VNone end) :: columns cov_columns (snd (snd m))).
Definition good_framed (m : framed) : Prop := (forall f, fst m = Some f -> good_text f) /\ good_cov (snd m).
Definition framed_part := (pyval * list str * list record * list framed)%type.
Definition framed_segment (p : framed_part) : pyval :=
  let '(md, cs, states, ms) := p in
  VObj "OemSegment" [("metadata", md);
    ("data", VObj "OemData" [("comment", VList (texts cs)); ("state_vector", VList (map oem_state states));
                             ("covariance_matrix", VList (map framed_cov ms))])].
Definition framed_segment_ok (p : framed_part) : Prop :=
  let '(md, cs, states, ms) := p in
  section "OemMetadata" md /\ Forall good_text cs /\ Forall good_state states /\ Forall good_framed ms.
(* the epoch, the frame and the 21 numbers in rows of 1, 2, ..., 6 *)
Definition framed_written (m : framed) (l : list item) : Prop :=
  exists rows, triangle 1 (map show_dec (snd (snd m))) rows /\
               l = Say (lit "EPOCH", fst (snd m), []) ::
                   match fst m with Some f => [Say (lit "COV_REF_FRAME", f, [])] | None => [] end ++ map spaced_out rows.
Definition framed_said (p : framed_part) (l : list item) : Prop :=
  let '(md, cs, states, ms) := p in
  exists blocks, Forall2 framed_written ms blocks /\
    l = [Bare (lit "META_START")] ++ section_items md ++ [Bare (lit "META_STOP")] ++
        comment_items cs ++ map (fun r => spaced_out (fst r :: map show_dec (snd r))) states ++
        match ms with
        | [] => []
        | _ => [Bare (lit "COVARIANCE_START")] ++ List.concat blocks ++ [Bare (lit "COVARIANCE_STOP")]
        end.
