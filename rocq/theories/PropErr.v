(* C62: which exceptions reading a document may raise, and why a document is rejected. *)
From Coq Require Import NArith List Bool String Arith Lia.
From Verif Require Import PyStr PyDec PyVal Schema KvnPre KvnTree KvnSeg XmlBind KvnBuild Spec SpecKvn SpecFrom SpecOrder SpecInsert SpecDoc SpecErr StrFacts PreFacts SegFacts BuildFacts ReadFacts PropSeg PropFrom PropOrder ComposeFacts InsertFacts PropInsert CommentFacts PropComment PropField Demo ErrFacts RejectFacts.
Import ListNotations.
Local Open Scope string_scope.
Local Open Scope list_scope.

Lemma opened u src bs first rest k c : split_on c_nl src = bs ++ first :: rest -> Forall blank bs -> line_key first k -> In (k, c) type_table ->
  exists vs, lex_line first = Some (k :: vs) /\
    let ls := delete_keywords c ([lit "id"; k] :: (lit "version" :: vs) :: filter_map lex_line rest) in
    kvn_from_string u src = bind (identify_segments u (tree_of c) ls) (fun e => build_object u e ls).
Proof.
  intros E F Hk Hc.
  assert (Hb : ~ blank first).
  { intros B. assert (k = []).
    { destruct Hk as [a b k -> Na Ck|k Na Ck].
      - exfalso. assert (is_ws c_eq = true) by (apply B; apply in_or_app; right; left; reflexivity). discriminate.
      - apply strip_of_core in Ck. subst k. apply strip_nil_blank. exact B. }
    subst k. repeat (destruct Hc as [Hc|Hc]; [discriminate|]). destruct Hc. }
  destruct (line_key_lex _ _ Hb Hk) as [l [El [Kl Nl]]].
  destruct Kl as [Kl|[_ Kl]]; [|destruct (no_comment_type _ _ Hc Kl)].
  destruct l as [|k0 vs]; [congruence|]. cbn in Kl; subst k0. exists vs. split; [exact El|]. cbv zeta.
  unfold kvn_from_string, pre_process. rewrite (lex_lines_split _ _ _ _ E F), El. cbn [split_first bind]. unfold read_lines.
  replace (identify_data_type ([lit "id"; k] :: (lit "version" :: vs) :: filter_map lex_line rest)) with (@Ok string c).
  - cbn [bind]. rewrite init_object_map_ok; [reflexivity|]. repeat (destruct Hc as [Hc|Hc]; [injection Hc as _ <-; vm_compute; tauto|]). destruct Hc.
  - unfold identify_data_type, get. cbn [nth_error guard_opt bind]. rewrite (find_element_some _ _ Hc). reflexivity.
Qed.

(* ---- the exceptions ---- *)
Definition suitsb (c : string) (e : elem) : bool :=
  forallb (fun s => existsb (String.eqb (e_name s)) (attrs (e_cls e))) (e_subs e) &&
  (String.eqb c "Aem" || negb (String.eqb (e_cls e) "AemSegment") && negb (String.eqb (e_cls e) "AttitudeStateType")).
Lemma roots_suited k c : In (k, c) type_table -> suited (c = "Aem") (tree_of c).
Proof.
  intros H. assert (B : forallb (suitsb c) (all_elems (tree_of c)) = true).
  { repeat (destruct H as [H|H]; [injection H as _ <-; vm_compute; reflexivity|]). destruct H. }
  intros x Hx. rewrite forallb_forall in B. specialize (B x Hx). unfold suitsb in B. apply andb_true_iff in B. destruct B as [B1 B2]. split.
  - intros s Hs. rewrite forallb_forall in B1. specialize (B1 s Hs). apply existsb_str in B1. exact B1.
  - intros D. apply orb_true_iff in B2. destruct B2 as [B2|B2]; [apply String.eqb_eq; exact B2|]. apply andb_true_iff in B2. destruct B2 as [X Y]. apply negb_true_iff in X, Y. apply String.eqb_neq in X, Y. tauto.
Qed.
Theorem C62_errors : forall u src bs first rest k c e,
  split_on c_nl src = bs ++ first :: rest -> Forall blank bs -> line_key first k -> In (k, c) type_table ->
  kvn_from_string u src = Err e ->
  e = IndexError \/ e = XmlReject \/ (c = "Aem" /\ (e = ValueError \/ e = KeyError)).
Proof.
  intros u src bs first rest k c e E F Hk Hc H. destruct (opened u _ _ _ _ _ _ E F Hk Hc) as [vs [_ O]]. cbv zeta in O.
  assert (NF : e <> OutOfFuel) by (intros ->; exact (C17_reading_terminates _ _ H)). rewrite O in H. revert H NF.
  set (P := fun e => e = OutOfFuel \/ e = IndexError \/ e = XmlReject \/ (c = "Aem" /\ (e = ValueError \/ e = KeyError))).
  set (ls := delete_keywords _ _). intros H NF. cut (P e); [unfold P; tauto|]. revert H.
  assert (G : only P (bind (identify_segments u (tree_of c) ls) (fun e => build_object u e ls))).
  { apply only_bind; [apply segments_only; unfold P; tauto|]. intros e1 H1. unfold build_object. apply build_only with (aem := c = "Aem"); try (unfold P; tauto).
    unfold identify_segments in H1. inv_ok H1. destruct a as [[mx mm] e2]. injection H1 as <-. apply (identify_kin u (c = "Aem")) in E0. apply mm_kin, E0, (roots_suited k), Hc. }
  apply G.
Qed.
Print Assumptions C62_errors.

(* ---- why a document is rejected ---- *)
Definition knownb (c : string) (k : str) : bool :=
  match find_elem k (fields_of c) with
  | Some f => (f_list f || negb (str_eqb k kw_comment || str_eqb k (lit "id") || str_eqb k (lit "version"))) &&
              forallb (fun g => negb (String.eqb (f_name g) (f_name f)) || str_eqb (xml_name g) k) (fields_of c)
  | None => false
  end.
Lemma knownb_spec c k : knownb c k = true -> known c k.
Proof.
  unfold knownb, known. destruct (find_elem k (fields_of c)) as [f|]; [|discriminate]. intros H. apply andb_true_iff in H. destruct H as [H1 H2]. exists f. split; [reflexivity|]. split.
  - intros L. rewrite L in H1. cbn [orb] in H1. apply negb_true_iff in H1. apply orb_false_iff in H1. destruct H1 as [H1 A3]. apply orb_false_iff in H1. destruct H1 as [A1 A2]. apply str_eqb_neq in A1, A2, A3. intros [X|[X|X]]; contradiction.
  - intros g Hg En. rewrite forallb_forall in H2. specialize (H2 g Hg). rewrite En, String.eqb_refl in H2. cbn [negb orb] in H2. apply str_eqb_eq in H2. exact H2.
Qed.
Definition saneb (e : elem) : bool :=
  negb (existsb (String.eqb (e_cls e)) odd_classes) &&
  (if user e then match find_elem (lit "USER_DEFINED") (fields_of (e_cls e)) with Some f => f_list f | None => false end
   else match e_single e with Some _ => true | None => ComposeFacts.root_kws (e_kws e) || forallb (knownb (e_cls e)) (e_kws e) end).
Lemma plain_sane c : In c plain_types -> sanes (tree_of c).
Proof.
  intros H. assert (B : forallb saneb (all_elems (tree_of c)) = true) by (repeat (destruct H as [<-|H]; [vm_compute; reflexivity|]); destruct H).
  intros x Hx. rewrite forallb_forall in B. specialize (B x Hx). unfold saneb in B. apply andb_true_iff in B. destruct B as [B1 B2].
  split; [intros D; apply existsb_str in D; rewrite D in B1; discriminate|]. split.
  - intros U. rewrite U in B2. destruct (find_elem _ _) as [f|]; [|discriminate]. exists f. auto.
  - intros U. rewrite U in B2. destruct (e_single x); [left; discriminate|]. right. apply orb_true_iff in B2. destruct B2 as [B2|B2]; [left; exact B2|]. right. intros k Hk. rewrite forallb_forall in B2. apply knownb_spec, B2, Hk.
Qed.

(* the characters of a line are those of the text *)
Lemma strip_in s ch : In ch (strip s) -> In ch s.
Proof. destruct (core_split s) as [a [b [E _]]]. rewrite E at 2. intros H. apply in_or_app. right. apply in_or_app. left. exact H. Qed.
Lemma firstn_in {A} n (s : list A) ch : In ch (firstn n s) -> In ch s.
Proof. intros H. rewrite <- (firstn_skipn n s). apply in_or_app. auto. Qed.
Lemma skipn_in {A} n (s : list A) ch : In ch (skipn n s) -> In ch s.
Proof. intros H. rewrite <- (firstn_skipn n s). apply in_or_app. auto. Qed.
Lemma remove_char_in c s ch : In ch (remove_char c s) -> In ch s.
Proof. unfold remove_char. intros H. apply filter_In in H. apply H. Qed.
Lemma once_in c s x ch : In x (split_once c s) -> In ch x -> In ch s.
Proof.
  revert x. induction s as [|d s IH]; intros x; cbn [split_once]; [intros [<-|[]]; auto|]. destruct (N.eqb d c).
  - intros [<-|[<-|[]]] H; [destruct H|right; exact H].
  - destruct (split_once c s) as [|h t]; [intros [<-|[]] [<-|[]]; left; reflexivity|]. intros [<-|Hx] H.
    + destruct H as [<-|H]; [left; reflexivity|right; apply (IH h); [left; reflexivity|exact H]].
    + right. apply (IH x); [right; exact Hx|exact H].
Qed.
Lemma lex_chars raw l s ch : lex_line raw = Some l -> In s l -> In ch s -> In ch raw.
Proof.
  unfold lex_line. destruct (strip (strip raw)); [discriminate|]. intros H Hs Hc.
  match type of H with Some ?a = Some l => assert (Hl : a = l) by congruence end. rewrite <- Hl in Hs. clear H Hl. apply in_map_iff in Hs. destruct Hs as [t [<- Ht]]. apply strip_in in Hc. apply strip_in.
  revert Ht. set (x := strip raw). clearbody x. destruct (startswith kw_comment x) eqn:S.
  - unfold lex_comment. cbv zeta. intros [<-|[<-|[]]].
    + apply startswith_spec in S. destruct S as [r ->]. apply in_or_app. left. exact Hc.
    + apply (skipn_in 7), strip_in. destruct (startswith [c_eq] _); [|exact Hc]. apply (skipn_in 1). apply strip_in. exact Hc.
  - unfold lex_data. destruct (split_once c_eq x) as [|k [|text [|y r]]] eqn:E; try (intros Ht; apply (once_in c_eq x t); [rewrite E; exact Ht|exact Hc]).
    assert (Tx : forall ch, In ch text -> In ch x) by (intros d Hd; apply (once_in c_eq x text); [rewrite E; right; left; reflexivity|exact Hd]).
    assert (Kx : forall ch, In ch k -> In ch x) by (intros d Hd; apply (once_in c_eq x k); [rewrite E; left; reflexivity|exact Hd]).
    destruct (endswith _ _); [destruct (find_char c_lbr text) as [i|]|].
    + intros [<-|[<-|[<-|[]]]]; [apply Kx, Hc|apply Tx, (firstn_in i), Hc|]. do 2 apply remove_char_in in Hc. apply Tx, (skipn_in i), Hc.
    + intros [<-|[<-|[]]]; auto.
    + intros [<-|[<-|[]]]; auto.
Qed.
Lemma filter_map_split {A B} (f : A -> option B) rs : forall a x b, filter_map f rs = a ++ x :: b -> exists a' r b', rs = a' ++ r :: b' /\ f r = Some x /\ filter_map f b' = b.
Proof.
  induction rs as [|r rs IH]; intros a x b H; [destruct a; discriminate|]. cbn [filter_map] in H. destruct (f r) as [y|] eqn:E.
  - destruct a as [|z a]; injection H as -> H; [exists [], r, rs; auto|]. destruct (IH _ _ _ H) as [a' [r' [b' [-> G]]]]. exists (r :: a'), r', b'. auto.
  - destruct (IH _ _ _ H) as [a' [r' [b' [-> G]]]]. exists (r :: a'), r', b'. auto.
Qed.
Lemma xml_allowed_spec ch : xml_char ch = false -> ~ xml_allowed ch.
Proof.
  unfold xml_char, in_range, xml_allowed. rewrite !orb_false_iff, !andb_false_iff, !N.eqb_neq, !N.leb_gt. lia.
Qed.
Lemma raw_in src raw ch : In raw (split_on c_nl src) -> In ch raw -> In ch src.
Proof.
  revert raw. induction src as [|d src IH]; intros raw; cbn [split_on]; [intros [<-|[]] []|]. destruct (N.eqb d c_nl).
  - intros [<-|H] I; [destruct I|right; exact (IH raw H I)].
  - destruct (split_on c_nl src) as [|h t]; [intros [<-|[]] [<-|[]]; left; reflexivity|]. intros [<-|H] I.
    + destruct I as [<-|I]; [left; reflexivity|right; apply (IH h); [left; reflexivity|exact I]].
    + right. apply (IH raw); [right; exact H|exact I].
Qed.
Lemma plain_keep c ls : In c plain_types -> delete_keywords c ls = ls.
Proof.
  intros Hc. assert (D : deleted_keywords c = []) by (repeat (destruct Hc as [<-|Hc]; [reflexivity|]); destruct Hc).
  unfold delete_keywords. rewrite D. induction ls as [|a m IH]; [reflexivity|]. cbn. f_equal. exact IH.
Qed.

Theorem C62_reject : forall u src bs first rest k c,
  split_on c_nl src = bs ++ first :: rest -> Forall blank bs -> line_key first k -> In (k, c) type_table -> In c plain_types ->
  kvn_from_string u src = Err XmlReject ->
  (exists ch, In ch src /\ ~ xml_allowed ch) \/ said_twice rest.
Proof.
  intros u src bs first rest k c E F Hk Hc Hp H. destruct (opened u _ _ _ _ _ _ E F Hk Hc) as [vs [L O]]. cbv zeta in O. rewrite O in H. clear O. rewrite plain_keep in H by exact Hp.
  set (ls := [lit "id"; k] :: (lit "version" :: vs) :: filter_map lex_line rest) in H.
  assert (G : only (PQ ls) (bind (identify_segments u (tree_of c) ls) (fun e => build_object u e ls))).
  { apply only_bind; [apply segments_only; [apply PQ_I|apply PQ_F]|]. intros e1 H1. unfold build_object. apply build_reject.
    unfold identify_segments in H1. inv_ok H1. destruct a as [[mx mm] e2]. injection H1 as <-. apply identify_keep in E0. apply mm_keep, E0, plain_sane, Hp. }
  specialize (G _ H eq_refl). clear H. destruct G as [[l [I [s [ch [I1 [I2 B]]]]]]|[a [x [b [y [d [Es [Ek N]]]]]]]].
  - left. exists ch. split; [|apply xml_allowed_spec; exact B].
    assert (Raw : forall raw l, In raw (first :: rest) -> lex_line raw = Some l -> In s l -> In ch src).
    { intros raw l0 Hr Hl Hs. apply (raw_in src raw); [rewrite E; apply in_or_app; right; exact Hr|]. exact (lex_chars raw l0 s ch Hl Hs I2). }
    destruct I as [<-|[<-|I]].
    + destruct I1 as [<-|[<-|[]]]; [destruct I2 as [<-|[<-|[]]]; discriminate|]. apply (Raw first (k :: vs)); [left; reflexivity|exact L|left; reflexivity].
    + destruct I1 as [<-|I1]; [repeat (destruct I2 as [<-|I2]; [discriminate|]); destruct I2|]. apply (Raw first (k :: vs)); [left; reflexivity|exact L|right; exact I1].
    + apply in_split in I. destruct I as [p [q Ep]]. destruct (filter_map_split _ _ _ _ _ Ep) as [p' [r [q' [-> [Lr _]]]]]. apply (Raw r l); [right; apply in_or_app; right; left; reflexivity|exact Lr|exact I1].
  - right. destruct a as [|a0 a]; [injection Es as <- _; destruct N; right; left; reflexivity|]. injection Es as _ Es. destruct a as [|a1 a]; [injection Es as <- _; destruct N; right; right; reflexivity|]. injection Es as _ Es.
    destruct (filter_map_split _ _ _ _ _ Es) as [p [r [q [-> [Lr Eq]]]]]. destruct (filter_map_split _ _ _ _ _ Eq) as [p2 [r2 [q2 [-> [Lr2 _]]]]].
    destruct x as [|kx x]; [destruct (lex_ne _ _ Lr eq_refl)|]. destruct y as [|ky y]; [destruct (lex_ne _ _ Lr2 eq_refl)|]. cbn in Ek. subst ky.
    exists p, r, p2, r2, q2, kx. split; [reflexivity|]. split; [exact (lex_heads _ _ _ Lr)|]. split; [exact (lex_heads _ _ _ Lr2)|]. intros D. apply N. left. exact D.
Qed.
Print Assumptions C62_reject.
(* so a document that says no keyword twice, in characters XML allows, is read or ends too early *)
Theorem C62_read_or_index : forall u src bs first rest k c,
  split_on c_nl src = bs ++ first :: rest -> Forall blank bs -> line_key first k -> In (k, c) type_table -> In c plain_types ->
  Forall xml_allowed src -> said_once rest ->
  (exists vars, kvn_from_string u src = Ok (VObj c vars)) \/ kvn_from_string u src = Err IndexError.
Proof.
  intros u src bs first rest k c E F Hk Hc Hp X S. destruct (kvn_from_string u src) as [v|e] eqn:R.
  - left. destruct (C16_known_type u src bs first rest k c E F Hk Hc v R) as [vars ->]. exists vars. reflexivity.
  - right. destruct (C62_errors u src bs first rest k c e E F Hk Hc R) as [->|[->|[-> _]]]; [reflexivity| |repeat (destruct Hp as [Hp|Hp]; [discriminate|]); destruct Hp].
    exfalso. destruct (C62_reject u src bs first rest k c E F Hk Hc Hp R) as [[ch [I N]]|[a [r [b [s [e [h [-> [H1 [H2 N]]]]]]]]]].
    + rewrite Forall_forall in X. exact (N (X ch I)).
    + apply N. exact (S a r b s e h eq_refl H1 H2).
Qed.
Print Assumptions C62_read_or_index.

(* every one of these exceptions happens, and documents without trouble are read *)
Definition aem_text (meta : list string) : str :=
  text_of (map lit (["CCSDS_AEM_VERS = 1.0"; "CREATION_DATE = 2003"; "ORIGINATOR = X"; "META_START"; "OBJECT_NAME = A"; "OBJECT_ID = 1"; "CENTER_NAME = EARTH"; "REF_FRAME_A = B"; "REF_FRAME_B = C"; "ATTITUDE_DIR = A2B";
    "TIME_SYSTEM = UTC"; "START_TIME = 2003"; "STOP_TIME = 2004"] ++ meta ++ ["META_STOP"; "DATA_START"; "2003-01-01T00:00:00 1 2 3"; "DATA_STOP"])).
Example C62_example :
  Forall (fun p => kvn_from_string demo_env (fst p ++ lit " = 1.0") = Err IndexError) type_table /\
  (exists v, kvn_from_string demo_env (text_of (opm_first :: opm_short ++ opm_vector)) = Ok v) /\
  said_once (opm_short ++ opm_vector) /\ Forall xml_allowed (text_of (opm_first :: opm_short ++ opm_vector)) /\
  kvn_from_string demo_env (text_of (opm_first :: opm_short ++ opm_vector ++ [lit "MASS = 1"; lit "MASS = 2"; lit "DRAG_AREA = 3"])) = Err XmlReject /\ said_twice (opm_short ++ opm_vector ++ [lit "MASS = 1"; lit "MASS = 2"; lit "DRAG_AREA = 3"]) /\
  kvn_from_string demo_env (text_of (opm_first :: opm_short ++ opm_vector ++ [lit "MASS = " ++ [1%N]])) = Err XmlReject /\ ~ xml_allowed 1%N /\
  kvn_from_string demo_env (aem_text ["EULER_ROT_SEQ = 312"]) = Err ValueError /\
  kvn_from_string demo_env (aem_text ["ATTITUDE_TYPE = EULER_ANGLE"; "EULER_ROT_SEQ = 310"]) = Err KeyError /\
  exists w, kvn_from_string demo_env (aem_text ["ATTITUDE_TYPE = EULER_ANGLE"; "EULER_ROT_SEQ = 312"]) = Ok w.
Proof.
  split. { repeat constructor; vm_compute; reflexivity. }
  split; [eexists; vm_compute; reflexivity|].
  split. { apply once_check. vm_compute. reflexivity. }
  split. { apply Forall_forall. intros ch H. assert (B : forallb xml_char (text_of (opm_first :: opm_short ++ opm_vector)) = true) by (vm_compute; reflexivity). rewrite forallb_forall in B. specialize (B ch H).
    unfold xml_char, in_range in B. rewrite !orb_true_iff, !andb_true_iff, !N.eqb_eq, !N.leb_le in B. unfold xml_allowed. tauto. }
  split; [vm_compute; reflexivity|].
  split. { exists (opm_short ++ opm_vector), (lit "MASS = 1"), [], (lit "MASS = 2"), [lit "DRAG_AREA = 3"], (lit "MASS"). split; [rewrite <- app_assoc; reflexivity|]. split; [apply head_of_heads; vm_compute; reflexivity|]. split; [apply head_of_heads; vm_compute; reflexivity|discriminate]. }
  split; [vm_compute; reflexivity|]. split; [unfold xml_allowed; lia|]. split; [vm_compute; reflexivity|]. split; [vm_compute; reflexivity|]. eexists. vm_compute. reflexivity.
Qed.

(* Saying a keyword twice does not always lead to a rejection: here the second line is dropped. *)
Theorem C62_twice_refuted : let a := lit "MASS = 1" in let b := lit "MASS = 2" in
  said_twice (opm_short ++ opm_vector ++ [a; b]) /\
  exists v, kvn_from_string demo_env (text_of (opm_first :: opm_short ++ opm_vector ++ [a; b])) = Ok v /\ kvn_from_string demo_env (text_of (opm_first :: opm_short ++ opm_vector ++ [a])) = Ok v.
Proof.
  cbv zeta. split; [|eexists; split; vm_compute; reflexivity]. exists (opm_short ++ opm_vector), (lit "MASS = 1"), [], (lit "MASS = 2"), [], (lit "MASS").
  split; [rewrite <- app_assoc; reflexivity|]. split; [apply head_of_heads; vm_compute; reflexivity|]. split; [apply head_of_heads; vm_compute; reflexivity|discriminate].
Qed.
(* "A document without a mandatory keyword is not read" is false: ORIGINATOR is required by the class of the header
   (ndmxml_2_0_0_common_2_0.py 132-140), but a document without it is read, and the field is left empty. *)
Definition header_field (n : string) (v : pyval) : option pyval := match v with VObj _ ((_, VObj _ vars) :: _) => assoc n vars | _ => None end.
Theorem C62_mandatory_refuted : let ls := filter (fun r => negb (startswith (lit "ORIGINATOR") r)) opm_short ++ opm_vector in
  exists v w, kvn_from_string demo_env (text_of (opm_first :: opm_short ++ opm_vector)) = Ok v /\ header_field "originator" v = Some (VStr (lit "X")) /\
    kvn_from_string demo_env (text_of (opm_first :: ls)) = Ok w /\ header_field "originator" w = Some VNone.
Proof. cbv zeta. do 2 eexists. split; [vm_compute; reflexivity|]. split; [vm_compute; reflexivity|]. split; vm_compute; reflexivity. Qed.
