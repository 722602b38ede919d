(* What the writer's lines say, as documents. *)
From Coq Require Import NArith ZArith List Bool String Arith Lia.
From Verif Require Import PyStr PyDec PyVal Schema KvnPre KvnTree KvnSeg XmlBind KvnBuild NdmXml KvnWrite
     Spec SpecKvn SpecObj SpecMsg SpecDoc StrFacts DecFacts PreFacts BuildFacts WriteFacts
     PropWrite CoreFacts UserFacts SingleFacts DocFacts.
Import ListNotations.
Local Open Scope string_scope.
Local Open Scope list_scope.
Local Arguments find_class : simpl never.
Local Arguments lit : simpl never.

Lemma blank_nil : blank []. Proof. intros c []. Qed.
Lemma blank_sp : blank [c_sp]. Proof. intros c [<-|[]]. reflexivity. Qed.
Lemma spelled_said e raw : spelled e raw -> said e raw.
Proof.
  intros [k t w B|k t un w1 w2 B1 B2 Ne].
  - pose proof (said_plain k t [] w [c_sp] [] blank_nil B blank_sp blank_nil) as H. cbn [app] in H. rewrite app_nil_r in H. exact H.
  - pose proof (said_unit k t un [] w1 [c_sp] w2 [] blank_nil B1 blank_sp B2 blank_nil Ne) as H. cbn [app] in H. exact H.
Qed.
Lemma spelled_document es raws : Forall2 spelled es raws -> document (map Say es) raws.
Proof. induction 1 as [|e raw es raws H _ IH]; [constructor|]. cbn [map]. apply doc_item; [apply spelt_say, spelled_said; exact H|exact IH]. Qed.
Lemma blanks_document l raws ws : Forall blank ws -> document l raws -> document l (ws ++ raws).
Proof. induction 1; intros H1; [exact H1|]. cbn [app]. apply doc_blank; auto. Qed.
Lemma document_blanks l raws ws : Forall blank ws -> document l raws -> document l (raws ++ ws).
Proof. intros B D. rewrite <- (app_nil_r l). apply document_app; [exact D|]. rewrite <- (app_nil_r ws). apply blanks_document; [exact B|constructor]. Qed.

Section Say.
Variable u : env.
Notation sub := (collate_sub u).
Definition says (f : list str -> res (list str)) (items : list item) : Prop :=
  forall out, exists raws, f out = Ok (out ++ raws) /\ Forall one_line raws /\ document items raws.
Definition says_vars (vars : list (string * pyval)) (l : list item) : Prop := says (collate_vars sub vars) l.

Lemma says_nil : says_vars [] [].
Proof. intros out. exists []. rewrite app_nil_r. split; [reflexivity|split; constructor]. Qed.
Lemma says_cons k v r l1 l2 : says (sub k v) l1 -> says_vars r l2 -> says_vars ((k, v) :: r) (l1 ++ l2).
Proof.
  intros H1 H2 out. destruct (H1 out) as [r1 [E1 [O1 D1]]]. destruct (H2 (out ++ r1)) as [r2 [E2 [O2 D2]]]. exists (r1 ++ r2).
  cbn [collate_vars]. rewrite E1, E2, <- app_assoc. split; [reflexivity|]. split; [apply Forall_app; auto|apply document_app; assumption].
Qed.
Lemma says_one k v l : says (sub k v) l -> says_vars [(k, v)] l.
Proof. intros H. rewrite <- (app_nil_r l). apply says_cons; [exact H|apply says_nil]. Qed.
Lemma says_app a b l1 l2 : says_vars a l1 -> says_vars b l2 -> says_vars (a ++ b) (l1 ++ l2).
Proof.
  intros H1 H2 out. destruct (H1 out) as [r1 [E1 [O1 D1]]]. destruct (H2 (out ++ r1)) as [r2 [E2 [O2 D2]]]. exists (r1 ++ r2).
  split; [|split; [apply Forall_app; auto|apply document_app; assumption]]. rewrite app_assoc, <- E2. clear - E1. revert E1. generalize (out ++ r1) as o1. intros o1 E1.
  revert out E1. induction a as [|[k v] a IH]; intros out E1.
  - cbn in *. injection E1 as ->. reflexivity.
  - cbn [app collate_vars] in *. destruct (sub k v out); [|discriminate]. apply IH. exact E1.
Qed.
Lemma says_none key : plain_key key -> says (sub key VNone) [].
Proof. intros [K1 K2] out. exists []. rewrite sub_none, app_nil_r by assumption. split; [reflexivity|split; constructor]. Qed.
Lemma says_comments cs : Forall good_text cs -> says (sub "comment" (VList (texts cs))) (comment_items cs).
Proof.
  intros G out. eexists. split; [apply sub_comments|]. split.
  { apply Forall_map. eapply Forall_impl; [|exact G]. intros t [_ [_ [O _]]].
    apply fill_kvn_one_line; [apply one_line_comment_kw|exact O|exact one_line_nil]. }
  clear G. unfold comment_items.
  rewrite <- (map_map (fun c => (kw_comment, c, @nil N)) Say). apply spelled_document. induction cs as [|c cs IH]; [constructor|]. cbn [map].
  constructor; [|exact IH]. apply fill_spelled_plain. reflexivity.
Qed.

(* objects *)
Definition marker_items (c : string) (b : bool) : list item :=
  if mem_string c special_output_header_classes then [Bare (special_header c b)] else [].
Lemma hdr_document c b : document (marker_items c b) (hdr_lines c b).
Proof.
  unfold marker_items, hdr_lines. destruct (mem_string c _); [|constructor].
  apply doc_item.
  - rewrite <- (app_nil_r (special_header c b)) at 2. apply (spelt_bare _ [] []); apply blank_nil.
  - apply doc_blank; [apply blank_nil|constructor].
Qed.
Lemma says_close key vars : forall out, exists ws, close_section key vars out = out ++ ws /\ Forall blank ws /\ Forall one_line ws.
Proof.
  intros out. unfold close_section. destruct (_ && _)%bool.
  - exists [[]]. split; [reflexivity|]. split; constructor; [apply blank_nil|constructor|exact one_line_nil|constructor].
  - exists []. rewrite app_nil_r. split; [reflexivity|split; constructor].
Qed.
Lemma says_obj key c vars l : plain_key key -> mem_string "units" (map fst vars) = false ->
  mem_string c special_output_data_classes = false -> says_vars vars l ->
  says (sub key (VObj c vars)) (marker_items c true ++ l ++ marker_items c false).
Proof.
  intros [K1 K2] U Sd H out. rewrite sub_obj by assumption. destruct (H (out ++ hdr_lines c true)) as [raws [E [O D]]]. rewrite E. cbn [bind].
  destruct (says_close key vars ((out ++ hdr_lines c true) ++ raws)) as [ws [-> [B Ow]]].
  exists (hdr_lines c true ++ (raws ++ ws) ++ hdr_lines c false). split; [rewrite <- !app_assoc; reflexivity|].
  split; [repeat (apply Forall_app; split); try assumption; apply hdr_lines_lex|].
  apply document_app; [apply hdr_document|]. apply document_app; [|apply hdr_document]. apply document_blanks; assumption.
Qed.
Lemma says_fields fs vars : forallb kw_field_ok fs = true -> wf_vars fs vars -> says_vars vars (map Say (entries fs vars)).
Proof.
  intros L W out. destruct (vars_spelled u _ _ L W out) as [raws [E F]]. destruct (emits_fields u _ _ L W out) as [raws' [E' [O _]]].
  exists raws. split; [exact E|]. rewrite E in E'. injection E' as E'. apply app_inv_head in E'. subst raws'.
  split; [exact O|apply spelled_document; exact F].
Qed.
Lemma says_section key c v : sec_class c = true -> plain_key key -> section c v ->
  says (sub key v) (marker_items c true ++ section_items v ++ marker_items c false).
Proof.
  intros H K [vars [-> [W _]]]. unfold sec_class in H. apply andb_true_iff in H. destruct H as [L P].
  destruct (plain_class_spec c P) as [P1 P2]. apply says_obj; try assumption; [rewrite (wf_vars_names _ _ W); exact P2|].
  apply says_fields; [|exact W]. unfold leaf_class in L. repeat (apply andb_true_iff in L; destruct L as [L ?]). exact L.
Qed.
Lemma says_opt key c v : sec_class c = true -> mem_string c special_output_header_classes = false -> plain_key key -> opt_section c v ->
  says (sub key v) (section_items v).
Proof.
  intros H M K [->|Sv]; [apply says_none; exact K|]. pose proof (says_section key c v H K Sv) as X. unfold marker_items in X. rewrite M, app_nil_r in X. exact X.
Qed.
Lemma says_node key c vars l : plain_key key -> quiet_class c = true -> mem_string "units" (map fst vars) = false ->
  says_vars vars l -> says (sub key (VObj c vars)) l.
Proof.
  intros K Q U H. unfold quiet_class in Q. apply andb_true_iff in Q. destruct Q as [Q1 Q2]. apply negb_true_iff in Q1, Q2.
  pose proof (says_obj key c vars l K U Q1 H) as X. unfold marker_items in X. rewrite Q2, app_nil_r in X. exact X.
Qed.
Definition shape_ok (shape : list (string * string)) : bool :=
  forallb (fun nc => sec_class (snd nc) && negb (mem_string (snd nc) special_output_header_classes)
                     && negb (String.eqb (fst nc) "comment") && negb (String.eqb (fst nc) "user_defined")) shape.
Lemma says_sections shape secs : shape_ok shape = true -> sections shape secs -> says_vars secs (parts_items secs).
Proof.
  intros H F. induction F as [|[n c] [m v] shape secs [E O] _ IH]; [apply says_nil|].
  cbn [shape_ok forallb fst snd] in *. apply andb_true_iff in H. destruct H as [H Hs]. do 3 (apply andb_true_iff in H; destruct H as [H ?]).
  subst m. repeat match goal with X : negb _ = true |- _ => apply negb_true_iff in X end.
  cbn [parts_items flat_map snd]. apply says_cons; [|apply IH; exact Hs].
  eapply says_opt; try eassumption. split; apply String.eqb_neq; assumption.
Qed.

(* lists *)
Definition list_marker_items (l : list pyval) (b : bool) : list item :=
  match l with VObj c _ :: _ => marker_items c b | _ => [] end.
Lemma list_hdr_document l b : document (list_marker_items l b) (list_hdr l b).
Proof.
  unfold list_marker_items, list_hdr, marker_items. destruct l as [|[] l]; try constructor. destruct (mem_string cls _); [|constructor].
  apply doc_blank; [apply blank_nil|]. apply doc_item.
  - rewrite <- (app_nil_r (special_header cls b)) at 2. apply (spelt_bare _ [] []); apply blank_nil.
  - apply doc_blank; [apply blank_nil|constructor].
Qed.
Lemma says_items key l ls : Forall2 (fun x il => says (write_item u key x) il) l ls -> says (write_items u key l) (List.concat ls).
Proof.
  induction 1 as [|x il l ls H _ IH]; intros out; [exists []; rewrite app_nil_r; split; [reflexivity|split; constructor]|].
  destruct (H out) as [r1 [E1 [O1 D1]]]. destruct (IH (out ++ r1)) as [r2 [E2 [O2 D2]]]. exists (r1 ++ r2). cbn [write_items List.concat].
  rewrite E1. cbn [bind]. rewrite E2, <- app_assoc. split; [reflexivity|]. split; [apply Forall_app; auto|apply document_app; assumption].
Qed.
Lemma says_list key l ls : plain_key key -> Forall2 (fun x il => says (write_item u key x) il) l ls ->
  says (sub key (VList l)) (list_marker_items l true ++ List.concat ls ++ list_marker_items l false).
Proof.
  intros [K1 K2] H out. rewrite sub_list by assumption. destruct (says_items _ _ _ H (out ++ list_hdr l true)) as [raws [E [O D]]].
  rewrite E. cbn [bind]. exists (list_hdr l true ++ raws ++ list_hdr l false). split; [rewrite <- !app_assoc; reflexivity|].
  split; [repeat (apply Forall_app; split); try assumption; apply list_hdr_lex|].
  apply document_app; [apply list_hdr_document|apply document_app; [exact D|apply list_hdr_document]].
Qed.
Lemma says_item_obj key c vars l : mem_string c special_output_data_classes = false -> says_vars vars l ->
  says (write_item u key (VObj c vars)) l.
Proof.
  intros Sd H out. cbn [write_item]. rewrite Sd. destruct (H out) as [raws [E [O D]]]. rewrite E. cbn [bind].
  destruct (says_close key vars (out ++ raws)) as [ws [-> [B Ow]]]. exists (raws ++ ws). rewrite <- app_assoc. split; [reflexivity|].
  split; [apply Forall_app; auto|apply document_blanks; assumption].
Qed.
Lemma says_item_section key c v : sec_class c = true -> section c v -> says (write_item u key v) (section_items v).
Proof.
  intros H [vars [-> [W _]]]. unfold sec_class in H. apply andb_true_iff in H. destruct H as [L P].
  destruct (plain_class_spec c P) as [P1 P2]. apply says_item_obj; [assumption|].
  apply says_fields; [|exact W]. unfold leaf_class in L. repeat (apply andb_true_iff in L; destruct L as [L ?]). exact L.
Qed.

(* user-defined parameters *)
Lemma says_user key v : plain_key key -> opt_user u v -> says (sub key v) (user_items v).
Proof.
  intros K [->|[ps [[_ [_ G]] ->]]]; [apply says_none; exact K|]. unfold user_block.
  apply says_node; [exact K|reflexivity|reflexivity|].
  change (user_items _) with (comment_items [] ++ user_items (user_block ps)). apply says_cons; [exact (says_comments [] (Forall_nil _))|].
  apply says_one. intros out. exists (map (fun p => fill_kvn u (lit "user_defined_" ++ fst p) (snd p) []) ps). split; [|split].
  - cbn [collate_sub String.eqb Ascii.eqb Bool.eqb]. rewrite app_nil_r.
    rewrite map_res_map. rewrite (map_res_ok _ (fun p => fill_kvn u (lit "user_defined_" ++ fst p) (snd p) [])).
    * cbn [bind]. rewrite app_nil_r. reflexivity.
    * intros [n t] Hp. rewrite Forall_forall in G. destruct (G _ Hp) as [_ [[Nt _] _]]. cbn [fst snd] in *.
      unfold user_defined_line, user_param. cbn [py_getattr assoc String.eqb Ascii.eqb Bool.eqb bind fst snd].
      destruct t as [|ct t]; [congruence|]. cbn [truthy py_str bind].
      change (lit "user_defined" ++ lit "_" ++ n) with (lit "user_defined_" ++ n). reflexivity.
  - apply Forall_map. eapply Forall_impl; [|exact G]. intros [n t] [Hn Hv]. cbn [fst snd] in *. apply (line_user u n t Hn Hv).
  - replace (user_items (user_block ps)) with (map Say (map (fun p => (user_prefix ++ fst p, snd p, @nil N)) ps)).
    + apply spelled_document. clear - G. induction G as [|[n t] ps [Hn Hv] _ IH]; [constructor|]. cbn [map fst snd]. constructor; [|exact IH].
      apply fill_spelled_plain. apply upper_prefix. apply Hn.
    + cbn [user_block user_items]. rewrite !map_map. reflexivity.
Qed.

(* whole messages *)
Lemma says_message c vars l id ver : In c root_classes -> class_fixed c "id" = Some id -> class_fixed c "version" = Some ver ->
  assoc "id" vars = None -> assoc "version" vars = None -> says_vars vars l ->
  exists raws, kvn_to_string u (VObj c vars) = Ok (text_of raws) /\ Forall one_line raws /\ document (first_item id ver :: l) raws.
Proof.
  intros Hc Ei0 Ev0 Hi Hv Em.
  destruct (root_fixed c Hc) as [id' [ver' [Ht [Ei [Ev [[fi [fv [F1 [F2 [F3 F4]]]]] [[mn [Mn Nn]] [Ai [Ui [P [_ O]]]]]]]]]]].
  rewrite Ei in Ei0. rewrite Ev in Ev0. injection Ei0 as ->. injection Ev0 as ->.
  assert (UE : upper u (lit id) = lit id) by (rewrite upper_of_ascii by exact Ai; exact Ui).
  destruct (Em [fill_kvn u (lit id) (lit ver) []]) as [raws [E [Or D]]].
  exists ([fill_kvn u (lit id) (lit ver) []] ++ raws). split.
  - unfold kvn_to_string. rewrite Mn. cbn [guard_opt bind]. rewrite Nn. cbn [bind].
    unfold py_getattr. rewrite Hi, Hv, F1, F2, F3, F4. cbn [bind py_str]. rewrite E. reflexivity.
  - split.
    { constructor; [|exact Or]. apply plain_text_spec in P. destruct P as [_ [_ [Ok1 _]]].
      apply fill_kvn_one_line; [rewrite UE; exact Ok1|exact O|exact one_line_nil]. }
    cbn [app]. apply doc_item; [|exact D]. apply spelt_say, spelled_said, fill_spelled_plain. exact UE.
Qed.
End Say.
