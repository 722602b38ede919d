(* Reading documents line by line. *)
From Coq Require Import NArith ZArith List Bool String Arith Lia.
From Verif Require Import PyStr PyDec PyVal Schema KvnPre KvnTree KvnSeg XmlBind KvnBuild NdmXml KvnWrite
     Spec SpecKvn SpecObj SpecMsg SpecDoc StrFacts DecFacts PreFacts SegFacts BuildFacts WriteFacts ParseFacts ShiftFacts
     ReadFacts ComposeFacts MsgFacts PropLex PropWrite CoreFacts.
Import ListNotations.
Local Open Scope string_scope.
Local Open Scope list_scope.
Local Arguments find_class : simpl never.
Local Arguments lit : simpl never.

Definition entry_ok (e : entry) : Prop :=
  let '(k, t, un) := e in
  (k = kw_comment /\ trimmed t /\ t <> [] /\ un = []) \/
  (trimmed k /\ no_char c_eq k /\ ~ begins kw_comment k /\ trimmed t /\
   ((un = [] /\ ~ unit_like t) \/ (un <> [] /\ no_char c_lbr t /\ trimmed un /\ no_char c_lbr un /\ no_char c_rbr un))).
Definition item_ok (i : item) : Prop :=
  match i with Say e => entry_ok e | Bare s => s <> [] /\ trimmed s /\ no_char c_eq s /\ ~ begins kw_comment s end.
Definition item_line (i : item) : line := match i with Say e => line_of e | Bare s => [s] end.

Lemma said_lex e raw : entry_ok e -> said e raw -> lex_line raw = Some (line_of e).
Proof.
  intros H S. destruct S as [k t w0 w1 w2 w3 B0 B1 B2 B3|k t un w0 w1 w2 w3 w4 B0 B1 B2 B3 B4 Nu|t w0 w1 w2 B0 B1 N1 B2 Ne].
  - destruct H as [[-> [Tt [Nt _]]]|[Tk [Nk [Nc [Tt [[_ Nu]|[X _]]]]]]]; [| |congruence].
    + assert (E : w0 ++ kw_comment ++ w1 ++ [c_eq] ++ w2 ++ t ++ w3 = w0 ++ (kw_comment ++ w1 ++ c_eq :: (w2 ++ t ++ w3)) ++ []).
      { rewrite app_nil_r. reflexivity. }
      rewrite E, lex_line_pad by (try assumption; apply blank_nil). rewrite lex_line_comment_eq by exact B1.
      rewrite strip_pad, strip_trimmed by assumption. reflexivity.
    + rewrite C11_read by assumption. reflexivity.
  - destruct H as [[-> [Tt [Nt X]]]|[Tk [Nk [Nc [Tt [[X _]|[_ [L1 [Tu [L2 L3]]]]]]]]]]; try congruence.
    assert (E : w0 ++ k ++ w1 ++ [c_eq] ++ w2 ++ t ++ w3 ++ [c_lbr] ++ un ++ [c_rbr] ++ w4 = (w0 ++ k ++ w1) ++ c_eq :: ((w2 ++ t ++ w3) ++ c_lbr :: un ++ c_rbr :: w4)).
    { rewrite <- !app_assoc. reflexivity. }
    rewrite E. rewrite lex_line_unit; try assumption.
    + rewrite !strip_pad by assumption. rewrite !strip_trimmed by assumption. destruct un; [congruence|]. reflexivity.
    + apply no_char_app; split; [apply blank_no_char; [reflexivity|exact B0]|]. apply no_char_app; split; [exact Nk|apply blank_no_char; [reflexivity|exact B1]].
    + rewrite strip_pad, strip_trimmed by assumption. apply startswith_false. exact Nc.
    + apply no_char_app; split; [apply blank_no_char; [reflexivity|exact B2]|]. apply no_char_app; split; [exact L1|apply blank_no_char; [reflexivity|exact B3]].
  - assert (Ht : trimmed t) by (destruct H as [[_ [Tt _]]|[_ [_ [_ [Tt _]]]]]; exact Tt).
    rewrite (lex_line_pad w0 (kw_comment ++ w1 ++ t) w2) || idtac.
    assert (E : w0 ++ kw_comment ++ w1 ++ t ++ w2 = w0 ++ (kw_comment ++ (w1 ++ t ++ w2)) ++ []) by (rewrite app_nil_r; reflexivity).
    rewrite E, lex_line_pad by (try assumption; apply blank_nil). rewrite lex_line_comment_plain.
    + rewrite strip_pad, strip_trimmed by assumption. reflexivity.
    + rewrite strip_pad, strip_trimmed by assumption. exact Ne.
Qed.
Lemma spelt_lex i raw : item_ok i -> spelt i raw -> lex_line raw = Some (item_line i).
Proof.
  intros H S. destruct S as [e raw S|s w1 w2 B1 B2]; [apply said_lex; assumption|]. destruct H as [Ne [T [Nq Nc]]].
  rewrite lex_line_pad by assumption. rewrite lex_line_bare; rewrite ?(strip_trimmed _ T); try assumption; [reflexivity|]. apply startswith_false. exact Nc.
Qed.
Lemma document_lex l raws : Forall item_ok l -> document l raws -> filter_map lex_line raws = map item_line l.
Proof.
  intros F D. induction D as [|w l raws B D IH|i raw l raws S D IH].
  - reflexivity.
  - cbn [filter_map]. rewrite lex_line_blank by exact B. apply IH. exact F.
  - inversion F as [|? ? Hi Fl]; subst. cbn [filter_map map]. rewrite (spelt_lex i raw) by assumption. rewrite IH by assumption. reflexivity.
Qed.
Lemma document_app a b ra rb : document a ra -> document b rb -> document (a ++ b) (ra ++ rb).
Proof. intros D E. induction D; cbn [app]; [exact E|apply doc_blank; auto|apply doc_item; auto]. Qed.

Section Doc.
Variable u : env.
Lemma value_entry_ok key k t v : key_ok u key k -> type_ok t = true -> wf_value t v -> entry_ok (k, fst (shown v), snd (shown v)).
Proof.
  intros [E [Tk [Nk [Ok C]]]] T W. apply startswith_false in C. destruct W as [t v W|c m fv fu d F D|c m fv fu d un F D W].
  - destruct (wf_scalar_cases u t v T W) as [S [U [[_ [Tr [O _]]] NU]]]. rewrite U. right. auto 10.
  - destruct (amount_text u d D) as [[[_ [Tr _]] NU] [_ Sh]]. destruct (Sh c) as [-> _]. right. cbn [fst snd]. repeat (split; [assumption|]). left. split; [reflexivity|exact NU].
  - assert (V : value_class_ok [fv; fu] = true) by (cbn in T; rewrite F in T; exact T).
    destruct (quantity_unit _ _ _ _ _ _ eq_refl F T W) as [ec [em [s [-> P]]]]. apply plain_text_spec in P. destruct P as [P1 [P2 [P3 [_ [P5 [P6 _]]]]]].
    destruct (amount_text u d D) as [[[_ [Tr _]] _] [Nb Sh]]. destruct (Sh c) as [_ Sh2]. rewrite Sh2. right. cbn [fst snd]. repeat (split; [assumption|]). right.
    split; [exact P1|]. split; [exact Nb|]. auto.
Qed.
Lemma entries_ok fs vars : forallb kw_field_ok fs = true -> wf_vars fs vars -> Forall entry_ok (entries fs vars).
Proof.
  intros H W. induction W as [|f [k v] fs vars [E W] Ws IH]; [constructor|]. cbn [forallb] in H. apply andb_true_iff in H. destruct H as [Hf Hs]. cbn [fst snd] in E, W. subst k.
  cbn [entries]. fold (kw_of f). apply Forall_app. split; [|apply IH; exact Hs].
  pose proof (kw_field_spec u f Hf) as [_ [_ [T [_ [_ [_ [_ [XL XN]]]]]]]]. destruct W as [L|v L W|ts L G].
  - constructor.
  - pose proof (value_entry_ok _ _ _ _ (kw_field_key u f Hf L) T W) as X.
    destruct v; try (constructor; [exact X|constructor]); exfalso; inversion W; subst; match goal with Y : wf_scalar _ _ |- _ => inversion Y end.
  - destruct (XL L) as [_ [-> _]]. cbn [field_entries]. rewrite map_map. apply Forall_map. eapply Forall_impl; [|exact G]. intros t [Nt [Tt _]]. left. cbn [shown fst snd]. auto.
Qed.
Lemma section_items_ok c v : leaf_class c = true -> section c v -> Forall item_ok (section_items v) /\ map item_line (section_items v) = sec_lines v.
Proof.
  intros L [vars [-> [W _]]]. unfold leaf_class in L. do 3 (apply andb_true_iff in L; destruct L as [L ?]). cbn [section_items sec_lines].
  split; [apply Forall_map; exact (entries_ok _ _ L W)|]. rewrite map_map. reflexivity.
Qed.
(* a document is read like its lines *)
Lemma document_read c id ver items raws vars m att : In c root_classes -> class_fixed c "id" = Some id -> class_fixed c "version" = Some ver ->
  document (first_item id ver :: items) raws -> Forall one_line raws -> Forall item_ok items ->
  subs_at u (head_lines c) (delete_keywords c (map item_line items)) (e_subs (tree_of c)) m att -> att <> [] ->
  attach_all att (vars_of (new_obj c)) = Ok vars ->
  kvn_from_string u (text_of raws) = Ok (VObj c vars).
Proof.
  intros Hc Ei Ev D O F S Na A.
  destruct (root_fixed c Hc) as [id' [ver' [Ht [Ei' [Ev' [_ [_ [_ [_ [P [_ Ol]]]]]]]]]]]. rewrite Ei in Ei'. rewrite Ev in Ev'. injection Ei' as <-. injection Ev' as <-.
  assert (Tv : trimmed (lit ver) /\ ~ unit_like (lit ver)).
  { clear - Hc Ev. repeat (destruct Hc as [<-|Hc]; [vm_compute in Ev; injection Ev as <-; split;
      [apply trimmedb_spec; reflexivity|intros [Hin _]; revert Hin; apply no_charb_spec; reflexivity]|]). destruct Hc. }
  apply plain_text_spec in P. destruct P as [_ [Tk [Ok1 [Eq _]]]].
  assert (C : ~ begins kw_comment (lit id)).
  { apply startswith_false. clear - Hc Ei. repeat (destruct Hc as [<-|Hc]; [vm_compute in Ei; injection Ei as <-; reflexivity|]). destruct Hc. }
  assert (Fo : item_ok (first_item id ver)). { right. destruct Tv. auto 10. }
  assert (Nr : raws <> []) by (intros ->; inversion D).
  unfold kvn_from_string, pre_process, text_of. rewrite lex_lines_join by assumption. rewrite (document_lex _ _ (Forall_cons _ Fo F) D). cbn [map item_line first_item line_of split_first bind].
  pose proof (read_back u c _ vars m att Hc S Na A _ eq_refl) as RB. unfold head_lines, id_line, version_line in RB. rewrite Ei, Ev in RB. exact RB.
Qed.
End Doc.
