(* Properties C10-C14, C21: lines and numbers. *)
From Coq Require Import NArith ZArith List Bool String Arith Lia.
From Verif Require Import PyStr PyDec PyVal Schema KvnPre KvnTree KvnSeg XmlBind KvnBuild
     NdmXml KvnWrite NdmIo Spec SpecKvn StrFacts PreFacts DecFacts Demo.
Import ListNotations.

(* ---- C10 ---- *)
Theorem C10_layout : forall u src1 src2,
  same_layout (split_on c_nl src1) (split_on c_nl src2) ->
  kvn_from_string u src1 = kvn_from_string u src2.
Proof. intros u s1 s2 H. apply kvn_from_lex. exact (same_layout_lex _ _ H). Qed.
Print Assumptions C10_layout.
(* the same for documents given as lists of lines *)
Theorem C10_layout_lines : forall u l1 l2,
  l1 <> [] -> l2 <> [] -> Forall one_line l1 -> Forall one_line l2 -> same_layout l1 l2 ->
  kvn_from_string u (join [c_nl] l1) = kvn_from_string u (join [c_nl] l2).
Proof.
  intros u l1 l2 N1 N2 F1 F2 H. apply kvn_from_lex. rewrite !lex_lines_join by assumption.
  exact (same_layout_lex _ _ H).
Qed.
Print Assumptions C10_layout_lines.
Example C10_example :
  same_layout (split_on c_nl (lit "A = 1" ++ [13%N; 10%N] ++ lit "  B = 2"))
              (split_on c_nl (lit "A = 1" ++ [10%N; 10%N] ++ lit "B = 2  ")) /\
  exists v, kvn_from_string demo_env omm_doc = Ok v.
Proof.
  split; [|eexists; vm_compute; reflexivity].
  assert (B : forall l, forallb is_ws l = true -> blank l).
  { intros l H c Hc. rewrite forallb_forall in H. apply H, Hc. }
  change (split_on c_nl (lit "A = 1" ++ [13%N; 10%N] ++ lit "  B = 2"))
    with [[] ++ lit "A = 1" ++ [13%N]; lit "  " ++ lit "B = 2" ++ []].
  change (split_on c_nl (lit "A = 1" ++ [10%N; 10%N] ++ lit "B = 2  "))
    with [[] ++ lit "A = 1" ++ []; []; [] ++ lit "B = 2" ++ lit "  "].
  apply sl_line; try (apply B; reflexivity). apply sl_blank_r; [apply B; reflexivity|].
  apply sl_line; try (apply B; reflexivity). apply sl_nil.
Qed.

(* ---- C11 ---- *)
Theorem C11_read : forall w0 k w1 w2 v w3,
  blank w0 -> blank w1 -> blank w2 -> blank w3 -> trimmed k -> trimmed v -> no_char c_eq k ->
  ~ begins kw_comment k -> ~ unit_like v ->
  lex_line (w0 ++ k ++ w1 ++ [c_eq] ++ w2 ++ v ++ w3) = Some [k; v].
Proof.
  intros w0 k w1 w2 v w3 B0 B1 B2 B3 Tk Tv Nk Ck Uv.
  assert (E : w0 ++ k ++ w1 ++ [c_eq] ++ w2 ++ v ++ w3 = (w0 ++ k ++ w1) ++ c_eq :: (w2 ++ v ++ w3))
    by (rewrite <- !app_assoc; reflexivity).
  rewrite E. rewrite lex_line_plain.
  - rewrite !strip_pad by assumption. rewrite !strip_trimmed by assumption. reflexivity.
  - apply no_char_app; split; [apply blank_no_char; [reflexivity|exact B0]|].
    apply no_char_app; split; [exact Nk|apply blank_no_char; [reflexivity|exact B1]].
  - rewrite strip_pad, strip_trimmed by assumption. apply startswith_false. exact Ck.
  - rewrite strip_pad, strip_trimmed by assumption. exact Uv.
Qed.
Print Assumptions C11_read.
(* at document level: changing the spacing of one line, whatever the line's value, changes nothing *)
Theorem C11_spacing : forall u l1 l2 k a1 a2 v b1 b2 src1 src2,
  is_core a1 k -> is_core a2 k -> is_core b1 v -> is_core b2 v ->
  no_char c_eq a1 -> no_char c_eq a2 -> ~ begins kw_comment k ->
  split_on c_nl src1 = l1 ++ (a1 ++ c_eq :: b1) :: l2 ->
  split_on c_nl src2 = l1 ++ (a2 ++ c_eq :: b2) :: l2 ->
  kvn_from_string u src1 = kvn_from_string u src2.
Proof.
  intros u l1 l2 k a1 a2 v b1 b2 s1 s2 A1 A2 B1 B2 N1 N2 C E1 E2. apply kvn_from_lex. unfold lex_lines.
  rewrite E1, E2, !filter_map_app. f_equal. cbn [filter_map].
  apply strip_of_core in A1. apply strip_of_core in A2. apply strip_of_core in B1. apply strip_of_core in B2.
  assert (S : startswith kw_comment (strip a1) = false) by (rewrite A1; apply startswith_false; exact C).
  rewrite (lex_line_spacing a1 b1 a2 b2 N1 N2 S) by congruence. reflexivity.
Qed.
Print Assumptions C11_spacing.
Example C11_example :
  trimmed (lit "OBJECT_NAME") /\ trimmed (lit "a=b c") /\ no_char c_eq (lit "OBJECT_NAME") /\
  ~ begins kw_comment (lit "OBJECT_NAME") /\ ~ unit_like (lit "a=b c") /\
  lex_line (lit "OBJECT_NAME   =   a=b c ") = Some [lit "OBJECT_NAME"; lit "a=b c"].
Proof.
  split; [apply trimmedb_spec; reflexivity|]. split; [apply trimmedb_spec; reflexivity|].
  split; [apply no_charb_spec; reflexivity|]. split; [apply startswith_false; reflexivity|].
  split; [|vm_compute; reflexivity].
  intros [H _]. repeat (destruct H as [H|H]; [discriminate|]). destruct H.
Qed.

(* ---- C12 ---- *)
Theorem C12_comment_round_trip : forall u t, trimmed t ->
  lex_line (fill_kvn u (lit "comment") t []) = Some [kw_comment; t].
Proof. exact fill_kvn_comment. Qed.
Print Assumptions C12_comment_round_trip.
Theorem C12_two_forms : forall w1 w2 w3 t, blank w1 -> blank w2 -> blank w3 -> trimmed t ->
  lex_line (kw_comment ++ w1 ++ [c_eq] ++ w2 ++ t ++ w3) = Some [kw_comment; t] /\
  (~ begins [c_eq] t -> lex_line (kw_comment ++ w1 ++ t ++ w3) = Some [kw_comment; t]).
Proof.
  intros w1 w2 w3 t B1 B2 B3 T. split.
  - cbn [app]. rewrite lex_line_comment_eq by exact B1. rewrite strip_pad, strip_trimmed by assumption. reflexivity.
  - intros N. rewrite lex_line_comment_plain; rewrite strip_pad, strip_trimmed by assumption; [reflexivity|exact N].
Qed.
Print Assumptions C12_two_forms.
Example C12_example : trimmed (lit "= a [b] = c]") /\
  lex_line (fill_kvn demo_env (lit "comment") (lit "= a [b] = c]") []) = Some [kw_comment; lit "= a [b] = c]"] /\
  lex_line (lit "COMMENT free text") = Some [kw_comment; lit "free text"].
Proof. split; [apply trimmedb_spec; reflexivity|]. split; vm_compute; reflexivity. Qed.

(* ---- C13 ---- *)
Theorem C13_value_and_unit : forall u k v un,
  trimmed (upper u k) -> no_char c_eq (upper u k) -> ~ begins kw_comment (upper u k) ->
  trimmed v -> no_char c_lbr v -> un <> [] -> trimmed un -> no_char c_lbr un -> no_char c_rbr un ->
  lex_line (fill_kvn u k v un) = Some [upper u k; v; un].
Proof. intros; apply fill_kvn_unit; try assumption. apply startswith_false; assumption. Qed.
Print Assumptions C13_value_and_unit.
Theorem C13_value_without_unit : forall u k v,
  trimmed (upper u k) -> no_char c_eq (upper u k) -> ~ begins kw_comment (upper u k) ->
  trimmed v -> ~ unit_like v ->
  lex_line (fill_kvn u k v []) = Some [upper u k; v].
Proof. intros; apply fill_kvn_plain; try assumption. apply startswith_false; assumption. Qed.
Print Assumptions C13_value_without_unit.
(* with the numbers the writer emits the side conditions on the value always hold *)
Theorem C13_number_and_unit : forall u k d un,
  trimmed (upper u k) -> no_char c_eq (upper u k) -> ~ begins kw_comment (upper u k) ->
  un <> [] -> trimmed un -> no_char c_lbr un -> no_char c_rbr un ->
  lex_line (fill_kvn u k (show_dec d) un) = Some [upper u k; show_dec d; un].
Proof.
  intros. apply C13_value_and_unit; try assumption.
  - apply numtext_trimmed, numtext_show_dec.
  - apply numtext_no_char; [reflexivity|apply numtext_show_dec].
Qed.
Print Assumptions C13_number_and_unit.
Example C13_example :
  let k := lit "mean_motion" in
  trimmed (upper demo_env k) /\ no_char c_eq (upper demo_env k) /\ ~ begins kw_comment (upper demo_env k) /\
  trimmed (lit "rev/day") /\ no_char c_lbr (lit "rev/day") /\ no_char c_rbr (lit "rev/day") /\
  fill_kvn demo_env k (lit "15.5") (lit "rev/day") = lit "MEAN_MOTION          = 15.5              [rev/day]".
Proof.
  cbv zeta. split; [apply trimmedb_spec; reflexivity|]. split; [apply no_charb_spec; reflexivity|].
  split; [apply startswith_false; reflexivity|]. split; [apply trimmedb_spec; reflexivity|].
  split; [apply no_charb_spec; reflexivity|]. split; [apply no_charb_spec; reflexivity|]. vm_compute; reflexivity.
Qed.

(* ---- C14: free text that looks like "text [unit]" survives.  False: an OMM whose object is
   called "SAT [A]" reads back as "SAT". ---- *)
Definition p_object_name : list string := ["body"; "segment"; "metadata"; "object_name"]%string.
Theorem C14_refuted : exists u v t v',
  at_path p_object_name v = Some (VStr (lit "SAT [A]")) /\
  kvn_to_string u v = Ok t /\ kvn_from_string u t = Ok v' /\
  at_path p_object_name v' = Some (VStr (lit "SAT")).
Proof.
  exists demo_env, (upd p_object_name (VStr (lit "SAT [A]")) (ok_or_none (kvn_from_string demo_env omm_doc))).
  eexists. eexists. split; [vm_compute; reflexivity|]. split; [vm_compute; reflexivity|].
  split; vm_compute; reflexivity.
Qed.
Print Assumptions C14_refuted.

(* ---- C21 ---- *)
Theorem C21_decimal : forall u d, canonical d -> py_decimal u (show_dec d) = Some d.
Proof. exact py_decimal_show. Qed.
Print Assumptions C21_decimal.
Theorem C21_integer : forall u z, py_int u (show_Z z) = Some z.
Proof. exact py_int_show. Qed.
Print Assumptions C21_integer.
Example C21_example :
  canonical (DFin true 1230 (-2)) /\ show_dec (DFin true 1230 (-2)) = lit "-12.30" /\
  canonical (DFin false 0 (-9)) /\ show_dec (DFin false 0 (-9)) = lit "0E-9" /\
  canonical (DFin false 5 3) /\ show_dec (DFin false 5 3) = lit "5E+3".
Proof. repeat split; vm_compute; exact I || reflexivity. Qed.
