(* Lexing of lines and documents (C10-C16). *)
From Coq Require Import NArith ZArith List Bool String Arith Lia.
From Verif Require Import PyStr PyDec PyVal Schema KvnPre KvnTree KvnSeg XmlBind KvnBuild KvnWrite
     Spec SpecKvn StrFacts.
Import ListNotations.

Lemma eq_not_ws : is_ws c_eq = false. Proof. reflexivity. Qed.
Lemma lbr_not_ws : is_ws c_lbr = false. Proof. reflexivity. Qed.
Lemma rbr_not_ws : is_ws c_rbr = false. Proof. reflexivity. Qed.
Lemma blank_no_char c w : is_ws c = false -> blank w -> no_char c w.
Proof. intros Hc Hw Hin. apply Hw in Hin. congruence. Qed.

Lemma lstrip_app_nonblank a c b : is_ws c = false -> lstrip (a ++ c :: b) = lstrip a ++ c :: b.
Proof.
  intros Hc. induction a as [|x a IH]; cbn [app lstrip].
  - rewrite Hc. reflexivity.
  - destruct (is_ws x); [exact IH|reflexivity].
Qed.
Lemma rstrip_app_nonblank a c b : is_ws c = false -> rstrip (a ++ c :: b) = a ++ c :: rstrip b.
Proof.
  intros Hc. induction a as [|x a IH]; cbn [app].
  - apply rstrip_cons_nonws; exact Hc.
  - cbn [rstrip]. rewrite IH. destruct a; reflexivity.
Qed.
Lemma strip_app_nonblank a c b : is_ws c = false -> strip (a ++ c :: b) = lstrip a ++ c :: rstrip b.
Proof. intros Hc. unfold strip. rewrite lstrip_app_nonblank by exact Hc. apply rstrip_app_nonblank; exact Hc. Qed.
Lemma strip_lstrip s : strip (lstrip s) = strip s.
Proof. destruct (lstrip_split s) as [w [E B]]. rewrite E at 2. rewrite strip_pad_l by exact B. reflexivity. Qed.
Lemma strip_rstrip s : strip (rstrip s) = strip s.
Proof. destruct (rstrip_split s) as [w [E B]]. rewrite E at 2. rewrite strip_pad_r by exact B. reflexivity. Qed.
Lemma rstrip_rstrip s : rstrip (rstrip s) = rstrip s.
Proof. destruct (rstrip_split s) as [w [E B]]. rewrite E at 2. rewrite rstrip_app_blank by exact B. reflexivity. Qed.
Lemma no_char_lstrip c s : no_char c s -> no_char c (lstrip s).
Proof. destruct (lstrip_split s) as [w [E B]]. intros H. rewrite E in H. apply no_char_app in H. apply H. Qed.
Lemma no_char_rstrip c s : no_char c s -> no_char c (rstrip s).
Proof. destruct (rstrip_split s) as [w [E B]]. intros H. rewrite E in H. apply no_char_app in H. apply H. Qed.
Lemma no_char_strip c s : no_char c s -> no_char c (strip s).
Proof. intros. apply no_char_rstrip, no_char_lstrip. assumption. Qed.

Lemma startswith_app_stop p a c b : no_char c p -> startswith p (a ++ c :: b) = startswith p a.
Proof.
  revert a; induction p as [|x p IH]; intros a H; [destruct a; reflexivity|].
  apply no_char_cons in H. destruct H as [Hx Hp]. destruct a as [|y a]; cbn.
  - destruct (N.eqb_spec x c); [contradiction|reflexivity].
  - rewrite IH by exact Hp. reflexivity.
Qed.
Lemma startswith_app_true p a b : startswith p a = true -> startswith p (a ++ b) = true.
Proof. intros H. apply startswith_spec in H. destruct H as [r ->]. apply startswith_spec. exists (r ++ b). rewrite app_assoc. reflexivity. Qed.
Lemma kw_comment_no_ws c : is_ws c = true -> no_char c kw_comment.
Proof. intros H Hin. repeat (destruct Hin as [<-|Hin]; [discriminate H|]). destruct Hin. Qed.
Lemma startswith_comment_pad k w : blank w -> startswith kw_comment (k ++ w) = startswith kw_comment k.
Proof.
  intros B. destruct w as [|c w]; [rewrite app_nil_r; reflexivity|]. apply blank_inv in B. destruct B as [B _].
  apply startswith_app_stop. apply kw_comment_no_ws. exact B.
Qed.
Lemma startswith_comment_lstrip a : startswith kw_comment (lstrip a) = startswith kw_comment (strip a).
Proof.
  unfold strip. destruct (rstrip_split (lstrip a)) as [w [E B]]. rewrite E at 1.
  apply startswith_comment_pad; exact B.
Qed.

(* the value part: with or without a unit *)
Definition split_value (b : str) : list str :=
  if endswith [c_rbr] (rstrip b) then
    match find_char c_lbr b with
    | Some i => [firstn i b; remove_char c_rbr (remove_char c_lbr (skipn i b))]
    | None => [b]
    end
  else [b].

Lemma lex_data_eq a b : no_char c_eq a -> lex_data (a ++ c_eq :: b) = a :: split_value b.
Proof.
  intros H. unfold lex_data, split_value. rewrite split_once_app by exact H.
  destruct (endswith [c_rbr] (rstrip b)); [|reflexivity]. destruct (find_char c_lbr b); reflexivity.
Qed.

Lemma lex_line_nonblank s : strip s <> [] ->
  lex_line s = Some (map strip (if startswith kw_comment (strip s) then lex_comment (strip s)
                                else lex_data (strip s))).
Proof.
  intros H. unfold lex_line. rewrite strip_strip. destruct (strip s); [congruence|reflexivity].
Qed.
Lemma lex_line_strip s : lex_line (strip s) = lex_line s.
Proof. unfold lex_line. rewrite !strip_strip. reflexivity. Qed.
Lemma lex_line_blank s : blank s -> lex_line s = None.
Proof. intros H. apply strip_nil_blank in H. unfold lex_line. rewrite H. reflexivity. Qed.
Lemma lex_line_pad w1 s w2 : blank w1 -> blank w2 -> lex_line (w1 ++ s ++ w2) = lex_line s.
Proof. intros. rewrite <- lex_line_strip, strip_pad by assumption. apply lex_line_strip. Qed.
Lemma lex_line_none s : lex_line s = None -> blank s.
Proof.
  intros H. apply strip_nil_blank. destruct (strip s) eqn:E; [reflexivity|].
  rewrite lex_line_nonblank in H by (rewrite E; discriminate). discriminate.
Qed.

Lemma lex_line_eq a b : no_char c_eq a -> startswith kw_comment (strip a) = false ->
  lex_line (a ++ c_eq :: b) = Some (strip a :: map strip (split_value (rstrip b))).
Proof.
  intros Ha Hc.
  pose proof (strip_app_nonblank a c_eq b eq_refl) as E.
  rewrite lex_line_nonblank by (rewrite E; destruct (lstrip a); discriminate). rewrite E.
  assert (Hk : startswith kw_comment (lstrip a ++ c_eq :: rstrip b) = false).
  { rewrite startswith_app_stop; [rewrite startswith_comment_lstrip; exact Hc|].
    apply no_charb_spec. reflexivity. }
  rewrite Hk, lex_data_eq by (apply no_char_lstrip; exact Ha). cbn [map]. rewrite strip_lstrip. reflexivity.
Qed.

(* a value that will be taken to carry a unit *)


Lemma ends_single c s : ends [c] s <-> exists r, s = r ++ [c].
Proof. reflexivity. Qed.

Lemma split_value_plain b : ~ unit_like (strip b) -> map strip (split_value (rstrip b)) = [strip b].
Proof.
  intros H. unfold split_value. rewrite rstrip_rstrip.
  destruct (endswith [c_rbr] (rstrip b)) eqn:E; [|cbn; rewrite strip_rstrip; reflexivity].
  destruct (find_char c_lbr (rstrip b)) eqn:F; [|cbn; rewrite strip_rstrip; reflexivity].
  exfalso. apply H. apply endswith_spec in E. destruct E as [r E].
  assert (S : strip b = lstrip r ++ [c_rbr]).
  { rewrite <- strip_rstrip, E. rewrite (strip_app_nonblank r c_rbr [] eq_refl). reflexivity. }
  split.
  - destruct (in_dec N.eq_dec c_lbr (rstrip b)) as [Hin|Hn].
    + rewrite S. rewrite E in Hin. destruct (lstrip_split r) as [w [Er B]]. rewrite Er in Hin.
      rewrite <- app_assoc in Hin. apply in_app_or in Hin. destruct Hin as [Hin|Hin]; [|exact Hin].
      apply B in Hin. discriminate.
    + apply find_char_none in Hn. congruence.
  - rewrite S. eexists; reflexivity.
Qed.

Lemma lex_line_plain a b : no_char c_eq a -> startswith kw_comment (strip a) = false ->
  ~ unit_like (strip b) -> lex_line (a ++ c_eq :: b) = Some [strip a; strip b].
Proof. intros Ha Hc Hu. rewrite lex_line_eq by assumption. rewrite split_value_plain by exact Hu. reflexivity. Qed.

Lemma firstn_len_app {A} (a b : list A) : firstn (List.length a) (a ++ b) = a.
Proof. rewrite firstn_app, firstn_all, Nat.sub_diag. cbn. apply app_nil_r. Qed.
Lemma skipn_len_app {A} (a b : list A) : skipn (List.length a) (a ++ b) = b.
Proof. rewrite skipn_app, skipn_all, Nat.sub_diag. reflexivity. Qed.

Lemma split_value_unit v un w : no_char c_lbr v -> no_char c_lbr un -> no_char c_rbr un -> blank w ->
  map strip (split_value (rstrip (v ++ c_lbr :: un ++ c_rbr :: w))) = [strip v; strip un].
Proof.
  intros Hv Hl Hr Hw. rewrite rstrip_app_nonblank by reflexivity.
  rewrite (rstrip_app_nonblank un c_rbr w) by reflexivity. rewrite rstrip_blank by exact Hw.
  unfold split_value.
  assert (E : rstrip (v ++ c_lbr :: un ++ [c_rbr]) = v ++ c_lbr :: un ++ [c_rbr]).
  { change (v ++ c_lbr :: un ++ [c_rbr]) with (v ++ (c_lbr :: un) ++ [c_rbr]).
    rewrite app_assoc. apply rstrip_app_nonws. reflexivity. }
  rewrite E.
  replace (endswith [c_rbr] (v ++ c_lbr :: un ++ [c_rbr])) with true.
  2:{ symmetry. apply endswith_spec. exists (v ++ c_lbr :: un). rewrite <- app_assoc. reflexivity. }
  rewrite find_char_app by exact Hv.
  rewrite firstn_len_app, skipn_len_app.
  assert (R : remove_char c_rbr (remove_char c_lbr (c_lbr :: un ++ [c_rbr])) = un).
  { change (c_lbr :: un ++ [c_rbr]) with ([c_lbr] ++ un ++ [c_rbr]).
    rewrite !remove_char_app. rewrite (remove_char_no c_lbr un) by exact Hl.
    rewrite (remove_char_no c_rbr un) by exact Hr. apply app_nil_r. }
  rewrite R. reflexivity.
Qed.
Lemma lex_line_unit a v un w : no_char c_eq a -> startswith kw_comment (strip a) = false ->
  no_char c_lbr v -> no_char c_lbr un -> no_char c_rbr un -> blank w ->
  lex_line (a ++ c_eq :: v ++ c_lbr :: un ++ c_rbr :: w) = Some [strip a; strip v; strip un].
Proof.
  intros Ha Hc Hv Hl Hr Hw. rewrite lex_line_eq by assumption.
  rewrite split_value_unit by assumption. reflexivity.
Qed.

(* a line without "=" *)
Lemma lex_line_bare s : strip s <> [] -> no_char c_eq s -> startswith kw_comment (strip s) = false ->
  lex_line s = Some [strip s].
Proof.
  intros Hne Hn Hc. rewrite lex_line_nonblank by exact Hne. rewrite Hc. unfold lex_data.
  rewrite split_once_no by (apply no_char_strip; exact Hn). cbn. rewrite strip_strip. reflexivity.
Qed.

(* comments *)
Lemma skipn_comment r : skipn 7 (kw_comment ++ r) = r. Proof. reflexivity. Qed.
Lemma strip_comment r : strip (kw_comment ++ r) = kw_comment ++ rstrip r.
Proof.
  change kw_comment with (lit "COMMEN" ++ [84%N]). rewrite <- app_assoc. cbn [app].
  change (67%N :: 79%N :: 77%N :: 77%N :: 69%N :: 78%N :: 84%N :: r) with (lit "COMMEN" ++ 84%N :: r).
  rewrite strip_app_nonblank by reflexivity. reflexivity.
Qed.
Lemma lex_line_comment_gen r :
  lex_line (kw_comment ++ r)
  = Some [kw_comment; if startswith [c_eq] (strip r) then strip (skipn 1 (strip r)) else strip r].
Proof.
  rewrite lex_line_nonblank by (rewrite strip_comment; discriminate). rewrite strip_comment.
  replace (startswith kw_comment (kw_comment ++ rstrip r)) with true
    by (symmetry; apply startswith_spec; eexists; reflexivity).
  unfold lex_comment. rewrite skipn_comment, strip_rstrip. cbn [map].
  rewrite strip_trimmed by (apply trimmedb_spec; reflexivity).
  destruct (startswith [c_eq] (strip r)); rewrite strip_strip; reflexivity.
Qed.
Lemma lex_line_comment_eq w t : blank w -> lex_line (kw_comment ++ w ++ c_eq :: t) = Some [kw_comment; strip t].
Proof.
  intros Hw. rewrite lex_line_comment_gen. rewrite strip_app_nonblank by reflexivity.
  rewrite lstrip_blank by exact Hw. cbn [app]. change (startswith [c_eq] (c_eq :: rstrip t)) with true.
  cbv iota. cbn [skipn]. rewrite strip_rstrip. reflexivity.
Qed.
Lemma lex_line_comment_plain t : ~ begins [c_eq] (strip t) -> lex_line (kw_comment ++ t) = Some [kw_comment; strip t].
Proof. intros H. rewrite lex_line_comment_gen. apply startswith_false in H. rewrite H. reflexivity. Qed.

(* written lines *)
Lemma ljust_split n s : exists w, ljust n s = s ++ w /\ blank w.
Proof. exists (repeat c_sp (n - List.length s)); split; [reflexivity|apply blank_repeat]. Qed.

Section Written.
Variable u : env.

Lemma fill_kvn_plain k v : trimmed (upper u k) -> no_char c_eq (upper u k) ->
  startswith kw_comment (upper u k) = false -> trimmed v -> ~ unit_like v ->
  lex_line (fill_kvn u k v []) = Some [upper u k; v].
Proof.
  intros Tk Nk Ck Tv Uv. unfold fill_kvn. destruct (ljust_split 20 (upper u k)) as [w [-> B]].
  assert (E : (upper u k ++ w) ++ lit " = " ++ v = (upper u k ++ w ++ [c_sp]) ++ c_eq :: [c_sp] ++ v)
    by (rewrite <- !app_assoc; reflexivity).
  rewrite E.
  assert (S : strip (upper u k ++ w ++ [c_sp]) = upper u k).
  { rewrite strip_pad_r by (apply blank_app; [exact B|apply (blank_repeat 1)]). apply strip_trimmed; exact Tk. }
  assert (V : strip ([c_sp] ++ v) = v) by (rewrite strip_pad_l by apply (blank_repeat 1); apply strip_trimmed; exact Tv).
  rewrite lex_line_plain; rewrite ?S, ?V; auto.
  apply no_char_app; split; [exact Nk|]. apply blank_no_char; [reflexivity|].
  apply blank_app; [exact B|apply (blank_repeat 1)].
Qed.

Lemma fill_kvn_unit k v un : trimmed (upper u k) -> no_char c_eq (upper u k) ->
  startswith kw_comment (upper u k) = false -> trimmed v -> no_char c_lbr v ->
  un <> [] -> trimmed un -> no_char c_lbr un -> no_char c_rbr un ->
  lex_line (fill_kvn u k v un) = Some [upper u k; v; un].
Proof.
  intros Tk Nk Ck Tv Nv Une Tu Nl Nr. unfold fill_kvn. destruct un as [|c0 un0] eqn:Eu; [congruence|]. rewrite <- Eu in *. clear Eu c0 un0.
  destruct (ljust_split 20 (upper u k)) as [w [-> B]]. destruct (ljust_split 18 v) as [w' [-> B']].
  assert (E : (upper u k ++ w) ++ lit " = " ++ (v ++ w') ++ lit "[" ++ un ++ lit "]"
              = (upper u k ++ w ++ [c_sp]) ++ c_eq :: ([c_sp] ++ v ++ w') ++ c_lbr :: un ++ c_rbr :: [])
    by (rewrite <- !app_assoc; reflexivity).
  rewrite E.
  assert (S : strip (upper u k ++ w ++ [c_sp]) = upper u k).
  { rewrite strip_pad_r by (apply blank_app; [exact B|apply (blank_repeat 1)]). apply strip_trimmed; exact Tk. }
  assert (V : strip ([c_sp] ++ v ++ w') = v) by (rewrite strip_pad by (exact B' || apply (blank_repeat 1)); apply strip_trimmed; exact Tv).
  rewrite lex_line_unit; rewrite ?S, ?V; auto using blank_nil.
  - rewrite (strip_trimmed un) by exact Tu. reflexivity.
  - apply no_char_app; split; [exact Nk|]. apply blank_no_char; [reflexivity|].
    apply blank_app; [exact B|apply (blank_repeat 1)].
  - apply no_char_app; split; [apply no_charb_spec; reflexivity|]. apply no_char_app; split; [exact Nv|].
    apply blank_no_char; [reflexivity|exact B'].
Qed.

Lemma fill_kvn_comment t : trimmed t -> lex_line (fill_kvn u (lit "comment") t []) = Some [kw_comment; t].
Proof.
  intros T. unfold fill_kvn. change (upper u (lit "comment")) with kw_comment.
  destruct (ljust_split 20 kw_comment) as [w [-> B]].
  assert (E : (kw_comment ++ w) ++ lit " = " ++ t = kw_comment ++ (w ++ [c_sp]) ++ c_eq :: [c_sp] ++ t)
    by (rewrite <- !app_assoc; reflexivity).
  rewrite E, lex_line_comment_eq by (apply blank_app; [exact B|apply (blank_repeat 1)]).
  rewrite strip_pad_l by apply (blank_repeat 1). rewrite strip_trimmed by exact T. reflexivity.
Qed.

(* a written line has no line break if its parts have none *)
Lemma fill_kvn_one_line k v un : one_line (upper u k) -> one_line v -> one_line un ->
  one_line (fill_kvn u k v un).
Proof.
  intros Hk Hv Hu. unfold fill_kvn, one_line in *.
  destruct un as [|c un]; repeat (apply no_char_app; split);
    try (apply no_char_ljust; [discriminate|assumption]); try assumption; try (apply no_charb_spec; reflexivity);
    apply no_char_repeat; discriminate.
Qed.
End Written.

(* ---- documents ---- *)
Lemma filter_map_app {A B} (f : A -> option B) l1 l2 :
  filter_map f (l1 ++ l2) = filter_map f l1 ++ filter_map f l2.
Proof. induction l1 as [|a l IH]; [reflexivity|]. cbn. destruct (f a); cbn; rewrite IH; reflexivity. Qed.
Lemma filter_map_map_some {A B} (f : A -> option B) (g : A -> B) l :
  Forall (fun a => f a = Some (g a)) l -> filter_map f l = map g l.
Proof. induction 1 as [|a l H Hl IH]; [reflexivity|]. cbn. rewrite H, IH. reflexivity. Qed.

Lemma lex_lines_join ls : ls <> [] -> Forall one_line ls ->
  lex_lines (join [c_nl] ls) = filter_map lex_line ls.
Proof. intros H1 H2. unfold lex_lines. rewrite split_join by assumption. reflexivity. Qed.

Lemma same_layout_lex l1 l2 : same_layout l1 l2 -> filter_map lex_line l1 = filter_map lex_line l2.
Proof.
  induction 1 as [|b l1 l2 B _ IH|b l1 l2 B _ IH|w1 w2 w3 w4 t l1 l2 B1 B2 B3 B4 _ IH]; cbn.
  - reflexivity.
  - rewrite lex_line_blank by exact B. exact IH.
  - rewrite lex_line_blank by exact B. exact IH.
  - rewrite !lex_line_pad by assumption. rewrite IH. reflexivity.
Qed.

Lemma kvn_from_lex u s1 s2 : lex_lines s1 = lex_lines s2 -> kvn_from_string u s1 = kvn_from_string u s2.
Proof. intros H. unfold kvn_from_string, pre_process. rewrite H. reflexivity. Qed.

(* two lines that differ in the spacing around their first "=" *)
Lemma split_value_strip b : map strip (split_value (rstrip b)) = map strip (split_value (strip b)).
Proof.
  unfold split_value. rewrite rstrip_rstrip.
  assert (R : rstrip (strip b) = strip b) by (unfold strip; apply rstrip_rstrip).
  rewrite R.
  (* b = w ++ lstrip b *)
  destruct (lstrip_split b) as [w [E B]].
  assert (E2 : rstrip b = if (match rstrip (lstrip b) with [] => true | _ => false end) then [] else w ++ strip b).
  { destruct (rstrip (lstrip b)) as [|c r] eqn:Er.
    - assert (strip b = []) by exact Er. apply strip_nil_blank in H. apply rstrip_blank. exact H.
    - rewrite E at 1. assert (Hl : exists c' r', lstrip b = c' :: r' /\ is_ws c' = false).
      { destruct (lstrip b) as [|c' r'] eqn:El; [discriminate|]. exists c', r'; split; [reflexivity|]. eapply lstrip_first; exact El. }
      destruct Hl as [c' [r' [El Hc']]]. rewrite El. rewrite rstrip_app_nonblank by exact Hc'.
      unfold strip. rewrite El. rewrite rstrip_cons_nonws by exact Hc'. reflexivity. }
  destruct (rstrip (lstrip b)) as [|c r] eqn:Er.
  - assert (S : strip b = []) by exact Er. rewrite E2, S. reflexivity.
  - rewrite E2.
    assert (N : no_char c_lbr w) by (apply blank_no_char; [reflexivity|exact B]).
    assert (Hend : endswith [c_rbr] (w ++ strip b) = endswith [c_rbr] (strip b)).
    { unfold strip at 1 2. rewrite Er. unfold endswith. rewrite rev_app_distr.
      destruct (rev (c :: r)) as [|d t] eqn:Erev; [apply (f_equal (fun l => List.length l)) in Erev; rewrite rev_length in Erev; discriminate|].
      cbn. destruct (rev w ++ []); destruct t; reflexivity. }
    rewrite Hend. destruct (endswith [c_rbr] (strip b)).
    2:{ cbn [map]. rewrite strip_pad_l by exact B. reflexivity. }
    assert (F : forall s, find_char c_lbr (w ++ s) = option_map (fun i => (List.length w + i)%nat) (find_char c_lbr s)).
    { clear -N. intros s. induction w as [|x w IH]; cbn.
      - destruct (find_char c_lbr s); reflexivity.
      - apply no_char_cons in N. destruct N as [Hx Nw]. destruct (N.eqb_spec x c_lbr); [contradiction|].
        rewrite IH by exact Nw. destruct (find_char c_lbr s); reflexivity. }
    rewrite F. destruct (find_char c_lbr (strip b)) as [i|]; cbn [option_map map].
    + rewrite firstn_app, skipn_app. replace (List.length w + i - List.length w)%nat with i by lia.
      rewrite (firstn_all2 w) by lia. rewrite (skipn_all2 w) by lia. cbn [app].
      rewrite strip_pad_l by exact B. reflexivity.
    + rewrite strip_pad_l by exact B. reflexivity.
Qed.
Lemma lex_line_spacing a1 b1 a2 b2 :
  no_char c_eq a1 -> no_char c_eq a2 -> startswith kw_comment (strip a1) = false ->
  strip a1 = strip a2 -> strip b1 = strip b2 ->
  lex_line (a1 ++ c_eq :: b1) = lex_line (a2 ++ c_eq :: b2).
Proof.
  intros N1 N2 C Ea Eb. rewrite !lex_line_eq; auto; [|rewrite <- Ea; exact C].
  rewrite !split_value_strip, Ea, Eb. reflexivity.
Qed.
