(* Property C58: line ends. *)
From Coq Require Import NArith ZArith List Bool String Arith Lia.
From Verif Require Import PyStr PyDec PyVal Schema KvnPre KvnTree KvnSeg XmlBind KvnBuild NdmXml KvnWrite NdmIo
     Spec SpecIo SpecKvn SpecObj SpecMsg SpecDoc SpecLines SpecSave StrFacts PreFacts IoFacts PropIo CheckFacts Demo
     PropRound PropSave.
Import ListNotations.
Local Open Scope string_scope.
Local Open Scope list_scope.

(* ---- the lines read ---- *)
Lemma blank_return : blank [c_return].
Proof. intros c [<-|[]]. reflexivity. Qed.
Lemma blank_nl : blank [c_nl].
Proof. intros c [<-|[]]. reflexivity. Qed.
Lemma lex_line_return l : lex_line (l ++ [c_return]) = lex_line l.
Proof.
  unfold lex_line. assert (E : strip (l ++ [c_return]) = strip l); [|rewrite E; reflexivity].
  apply strip_of_core. destruct (strip_core l) as [w1 [w2 [E [B1 [B2 T]]]]]. exists w1, (w2 ++ [c_return]).
  split; [rewrite E at 1; rewrite !app_assoc; reflexivity|]. split; [exact B1|]. split; [|exact T].
  apply blank_app; [exact B2|exact blank_return].
Qed.
Lemma stored_string ls raw : Forall one_line ls -> stored lf_or_crlf ls raw -> lex_lines raw = filter_map lex_line ls.
Proof.
  intros F S. induction S as [l|l e ls raw [-> | ->] S IH]; unfold lex_lines in *.
  - inversion F; subst. rewrite split_on_no by assumption. reflexivity.
  - inversion F; subst. cbn [app]. rewrite split_on_app by assumption. cbn [filter_map]. rewrite IH by assumption. reflexivity.
  - inversion F; subst. change (l ++ [c_return; c_nl] ++ raw) with (l ++ [c_return] ++ c_nl :: raw). rewrite app_assoc.
    rewrite split_on_app by (intros H; apply in_app_or in H as [H|[H|[]]]; [contradiction|discriminate]).
    cbn [filter_map]. rewrite lex_line_return, IH by assumption. reflexivity.
Qed.
Lemma read_newlines_line l r : no_char c_return l -> read_newlines (l ++ r) = l ++ read_newlines r.
Proof.
  intros H. induction l as [|c l IH]; [reflexivity|]. cbn [app read_newlines].
  destruct (N.eqb c c_cr) eqn:E; [apply N.eqb_eq in E as ->; exfalso; apply H; left; reflexivity|].
  rewrite IH by (intros I; apply H; right; exact I). reflexivity.
Qed.
(* after a line end: the rest, perhaps without a line end of its own *)
Lemma read_newlines_end e raw : any_end e -> exists raw', read_newlines (e ++ raw) = c_nl :: read_newlines raw' /\ (raw' = raw \/ raw = c_nl :: raw').
Proof.
  intros [[-> | ->] | ->].
  - exists raw. split; [reflexivity|left; reflexivity].
  - exists raw. split; [reflexivity|left; reflexivity].
  - cbn [app read_newlines]. change (N.eqb c_return c_cr) with true. cbn iota. destruct raw as [|d r]; [exists []; split; [reflexivity|left; reflexivity]|].
    destruct (N.eqb d c_nl) eqn:D; [|exists (d :: r); split; [reflexivity|left; reflexivity]].
    apply N.eqb_eq in D as ->. exists r. split; [reflexivity|right; reflexivity].
Qed.
Lemma drop_newline raw : lex_lines (read_newlines (c_nl :: raw)) = lex_lines (read_newlines raw).
Proof. reflexivity. Qed.
Lemma stored_file ls raw : Forall plain_line ls -> stored any_end ls raw -> lex_lines (read_newlines raw) = filter_map lex_line ls.
Proof.
  intros F S. induction S as [l|l e ls raw E S IH].
  - inversion F as [|? ? [H1 H2] _]; subst. rewrite read_newlines_plain by exact H2. unfold lex_lines. rewrite split_on_no by exact H1. reflexivity.
  - inversion F as [|? ? [H1 H2] F']; subst. rewrite read_newlines_line by exact H2. destruct (read_newlines_end e raw E) as [raw' [R D]]. rewrite R.
    unfold lex_lines at 1. rewrite split_on_app by exact H1. cbn [filter_map]. fold (lex_lines (read_newlines raw')).
    assert (X : lex_lines (read_newlines raw') = lex_lines (read_newlines raw)) by (destruct D as [-> | ->]; [reflexivity|symmetry; apply drop_newline]).
    rewrite X, IH by exact F'. reflexivity.
Qed.

(* ---- the format ---- *)
Definition opened (s : str) : Prop := exists w r, s = w ++ lit "CCSDS_" ++ r /\ blank w.
Lemma opened_format s : opened s -> identify_format s = Ok FKvn.
Proof.
  intros [w [r [-> B]]]. apply (identify_format_iff _ _ _ (strip_core _)). apply ll_kvn. rewrite strip_pad_l by exact B.
  exists (rstrip r). change (lit "CCSDS_" ++ r) with (lit "CCSDS" ++ 95%N :: r). rewrite strip_app_nonblank by reflexivity. reflexivity.
Qed.
Lemma opened_blank w s : blank w -> opened s -> opened (w ++ s).
Proof. intros B [w' [r [-> B']]]. exists (w ++ w'), r. split; [apply app_assoc|apply blank_app; assumption]. Qed.
Lemma opened_line w r s : blank w -> opened ((w ++ lit "CCSDS_" ++ r) ++ s).
Proof. intros B. exists w, (r ++ s). split; [rewrite <- !app_assoc; reflexivity|exact B]. Qed.
Lemma opened_tail s : opened (c_nl :: s) -> opened s.
Proof.
  intros [w [r [E B]]]. destruct w as [|c w]; [discriminate|]. injection E as _ ->. exists w, r. split; [reflexivity|]. intros d D. apply B. right. exact D.
Qed.
Lemma opens_inv l ls : opens_kvn (l :: ls) -> (exists w r, l = w ++ lit "CCSDS_" ++ r /\ blank w) \/ (blank l /\ opens_kvn ls).
Proof.
  intros [bs [w [r [rest [E [Bs B]]]]]]. destruct bs as [|b bs]; injection E as -> ->; [left; exists w, r; split; [reflexivity|exact B]|].
  inversion Bs; subst. right. split; [assumption|]. exists bs, w, r, rest. split; [reflexivity|split; assumption].
Qed.
Lemma opens_nil : ~ opens_kvn [].
Proof. intros [bs [w [r [rest [E _]]]]]. destruct bs; discriminate. Qed.
Lemma end_blank e : any_end e -> blank e.
Proof. intros [[-> | ->] | ->]; [exact blank_nl|apply (blank_app [c_return] [c_nl] blank_return blank_nl)|exact blank_return]. Qed.
Lemma opened_string (E : str -> Prop) ls raw : (forall e, E e -> any_end e) -> opens_kvn ls -> stored E ls raw -> opened raw.
Proof.
  intros HE O S. induction S as [l|l e ls raw Ee S IH]; destruct (opens_inv _ _ O) as [[w [r [-> B]]]|[B O']].
  - exists w, r. split; [reflexivity|exact B].
  - destruct (opens_nil O').
  - apply opened_line, B.
  - apply opened_blank; [exact B|]. apply opened_blank; [apply end_blank, HE, Ee|exact (IH O')].
Qed.
Lemma opened_file ls raw : Forall plain_line ls -> opens_kvn ls -> stored any_end ls raw -> opened (read_newlines raw).
Proof.
  intros F O S. induction S as [l|l e ls raw E S IH]; inversion F as [|? ? [_ H2] F']; subst; destruct (opens_inv _ _ O) as [[w [r [-> B]]]|[B O']].
  - rewrite read_newlines_plain by exact H2. exists w, r. split; [reflexivity|exact B].
  - destruct (opens_nil O').
  - rewrite read_newlines_line by exact H2. apply opened_line, B.
  - rewrite read_newlines_line by exact H2. apply opened_blank; [exact B|]. destruct (read_newlines_end e raw E) as [raw' [R D]]. rewrite R.
    apply (opened_blank [c_nl]); [exact blank_nl|]. specialize (IH F' O'). destruct D as [-> | ->]; [exact IH|]. apply opened_tail. exact IH.
Qed.
Lemma stored_lf ls : ls <> [] -> stored lf_or_crlf ls (text_of ls).
Proof.
  intros H. unfold text_of. induction ls as [|l ls IH]; [contradiction|]. destruct ls as [|l' ls]; [apply stored_last|].
  change (join [c_nl] (l :: l' :: ls)) with (l ++ [c_nl] ++ join [c_nl] (l' :: ls)). apply stored_more; [left; reflexivity|apply IH; discriminate].
Qed.
Lemma stored_some E ls raw : stored E ls raw -> ls <> [].
Proof. intros []; discriminate. Qed.

(* A KVN document stored in a file reads the same whatever its line ends are, also when they differ from line to line: as its lines
   joined with LF and given as a string. *)
Theorem C58_files : forall u et_root xs_parse fs q ls raw, Forall plain_line ls -> fs (path_name q) = Some raw -> stored any_end ls raw ->
  kvn_from_path u fs q = kvn_from_string u (text_of ls) /\
  (opens_kvn ls -> io_from_path u et_root xs_parse fs q = kvn_from_string u (text_of ls)).
Proof.
  intros u et xp fs q ls raw F Q S. assert (Ne : ls <> []) by exact (stored_some _ _ _ S).
  assert (X : kvn_from_string u (read_newlines raw) = kvn_from_string u (text_of ls)).
  { unfold kvn_from_string, pre_process. rewrite (stored_file _ _ F S). unfold text_of. rewrite lex_lines_join; [reflexivity|exact Ne|].
    revert F. apply Forall_impl. intros l [H _]. exact H. }
  unfold kvn_from_path, io_from_path, read_text. rewrite Q. cbn [guard_opt bind]. split; [exact X|].
  intros O. unfold io_from_string. rewrite (opened_format _ (opened_file _ _ F O S)). exact X.
Qed.
Print Assumptions C58_files.

(* A KVN document given as a string or as bytes reads the same with LF and with CR LF. *)
Theorem C58_strings : forall u et_root xs_parse decode b ls raw, Forall one_line ls -> decode b = Some raw -> stored lf_or_crlf ls raw ->
  kvn_from_string u raw = kvn_from_string u (text_of ls) /\
  (opens_kvn ls -> io_from_string u et_root xs_parse raw = kvn_from_string u (text_of ls) /\
                   io_from_bytes u et_root xs_parse decode b = kvn_from_string u (text_of ls)).
Proof.
  intros u et xp decode b ls raw F D S. assert (Ne : ls <> []) by exact (stored_some _ _ _ S).
  assert (X : kvn_from_string u raw = kvn_from_string u (text_of ls)).
  { unfold kvn_from_string, pre_process. rewrite (stored_string _ _ F S). unfold text_of. rewrite lex_lines_join; [reflexivity|exact Ne|exact F]. }
  split; [exact X|]. intros O.
  assert (Y : io_from_string u et xp raw = kvn_from_string u (text_of ls)).
  { unfold io_from_string. rewrite (opened_format raw); [exact X|]. apply (opened_string lf_or_crlf ls); [intros e H; left; exact H|exact O|exact S]. }
  split; [exact Y|]. unfold io_from_bytes. rewrite D. exact Y.
Qed.
Print Assumptions C58_strings.

(* an OMM with a blank line in front and all three line ends *)
Definition omm_lines : list str := [] :: split_on c_nl omm_doc.
Fixpoint mixed (n : nat) (ls : list str) : str :=
  match ls with
  | [] => []
  | [l] => l
  | l :: r => l ++ match n with 0 => [c_nl] | 1 => [c_return; c_nl] | _ => [c_return] end ++ mixed (match n with 0 => 1 | 1 => 2 | _ => 0 end) r
  end.
Lemma mixed_stored n ls : ls <> [] -> stored any_end ls (mixed n ls).
Proof.
  revert n. induction ls as [|l ls IH]; intros n H; [contradiction|]. destruct ls as [|l' ls]; [apply stored_last|].
  cbn [mixed]. apply stored_more; [destruct n as [|[|n]]; [left; left|left; right|right]; reflexivity|]. apply IH. discriminate.
Qed.
Example C58_example : Forall plain_line omm_lines /\ stored any_end omm_lines (mixed 1 omm_lines) /\ opens_kvn omm_lines /\
  exists v, kvn_from_string demo_env (text_of omm_lines) = Ok v.
Proof.
  split; [|split; [apply mixed_stored; discriminate|split]].
  - assert (H : forallb (fun l => forallb (fun c => negb (N.eqb c c_nl) && negb (N.eqb c c_return)) l) omm_lines = true) by (vm_compute; reflexivity).
    rewrite forallb_forall in H. apply Forall_forall. intros l L. specialize (H l L). rewrite forallb_forall in H.
    split; intros I; specialize (H _ I); discriminate H.
  - exists [[]], [], (lit "OMM_VERS = 2.0"), (tl (tl omm_lines)). split; [vm_compute; reflexivity|]. split; [repeat constructor|]; intros c [].
  - eexists. vm_compute. reflexivity.
Qed.

(* As a string or as bytes, a document with CR as line end is one long line: a file and its own bytes are read differently. *)
Lemma cr_stored ls : ls <> [] -> stored (eq [c_return]) ls (join [c_return] ls).
Proof.
  intros H. induction ls as [|l ls IH]; [contradiction|]. destruct ls as [|l' ls]; [apply stored_last|].
  change (join [c_return] (l :: l' :: ls)) with (l ++ [c_return] ++ join [c_return] (l' :: ls)). apply stored_more; [reflexivity|apply IH; discriminate].
Qed.
Theorem C58_bytes_refuted : exists et_root xs_parse fs name ls raw v, Forall plain_line ls /\ opens_kvn ls /\ stored (eq [c_return]) ls raw /\
  fs name = Some raw /\ io_from_path demo_env et_root xs_parse fs (PPath name) = Ok v /\
  io_from_bytes demo_env et_root xs_parse Some raw = Err IndexError.
Proof.
  destruct C58_example as [F [_ [O _]]].
  exists (fun _ => None), (fun _ => Err Opaque), (fun _ => Some (join [c_return] omm_lines)), (lit "a"), omm_lines, (join [c_return] omm_lines). eexists.
  split; [exact F|]. split; [exact O|]. split; [apply cr_stored; discriminate|]. split; [reflexivity|]. split; vm_compute; reflexivity.
Qed.
Print Assumptions C58_bytes_refuted.

(* A message whose text reads back need not survive in a file: with a carriage return in a value the rest of the value is read as a line
   of its own (here it is lost, and nothing is reported). *)
Definition cr_header : pyval := upd ["originator"] (VStr (lit "A" ++ [c_return] ++ lit "B")) demo_header.
Definition cr_omm : pyval := omm cr_header omm_meta (texts [lit "d 1"]) (omm_parts ["e 1"; "e 2"] ["s"]) demo_user.
Theorem C58_return_refuted : exists u et_root xs_parse xs_render can_open can_encode fs v w t name cfg fs', keeps u v /\
  kvn_to_string u v = Ok t /\ io_from_string u et_root xs_parse t = Ok v /\
  io_to_file u xs_render can_open can_encode fs v FKvn (PPath name) cfg = (fs', Ok tt) /\
  io_from_path u et_root xs_parse fs' (PPath name) = Ok w /\ w <> v.
Proof.
  assert (K : keeps demo_env cr_omm).
  { destruct C26_example as [A [B [C [D [E [F G]]]]]]. apply keeps_omm; try assumption. met. }
  destruct (keeps_round demo_env cr_omm K) as [t [W _]].
  exists demo_env, (fun _ => None), (fun _ => Err Opaque), (fun _ _ => Err Opaque), (fun _ => true), (fun _ => true), (fun _ => None), cr_omm. eexists. exists t, (lit "a"), (None, None).
  eexists. split; [exact K|]. split; [exact W|]. split; [exact (keeps_io _ _ _ _ _ K W)|].
  unfold io_to_file, kvn_to_file, write_text. rewrite W. split; [reflexivity|].
  vm_compute in W. injection W as <-. split; [vm_compute; reflexivity|].
  intros H. apply (f_equal (at_path ["header"; "originator"])) in H. vm_compute in H. discriminate.
Qed.
Print Assumptions C58_return_refuted.
