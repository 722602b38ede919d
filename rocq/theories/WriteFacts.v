(* Facts about the KVN writer. *)
From Coq Require Import NArith ZArith List Bool String Arith Lia.
From Verif Require Import PyStr PyDec PyVal Schema KvnPre XmlBind NdmXml KvnWrite
     Spec SpecKvn SpecObj StrFacts DecFacts PreFacts.
Import ListNotations.
Local Open Scope string_scope.
Local Open Scope list_scope.
Local Arguments find_class : simpl never.
Local Arguments lit : simpl never.

(* ---- upper() of ASCII names ---- *)
Definition ascii_upper (s : str) : str := map upper_ascii s.
Lemma upper_of_ascii u s : forallb is_ascii s = true -> upper u s = ascii_upper s.
Proof.
  unfold upper, ascii_upper. induction s as [|c s IH]; [reflexivity|]. cbn [forallb flat_map map].
  intros H. apply andb_true_iff in H. destruct H as [Hc Hs]. rewrite Hc, IH by exact Hs. reflexivity.
Qed.

(* ---- decidable conditions on the schema ---- *)
Definition not_begins_comment (s : str) : bool := negb (startswith kw_comment s).
Definition plain_text (s : str) : bool :=
  match s with [] => false | _ => true end && trimmedb s && no_charb c_nl s && no_charb c_eq s
  && no_charb c_lbr s && no_charb c_rbr s && xml_text s.
Definition pyval_enum_eqb (v : pyval) (c m : string) (s : str) : bool :=
  match v with VEnum c' m' s' => String.eqb c' c && String.eqb m' m && str_eqb s' s | _ => false end.
Definition enum_ok (c : string) (ms : list (string * string)) : bool :=
  forallb (fun p => plain_text (lit (snd p))
                    && pyval_enum_eqb (conv_enum c ms (lit (snd p))) c (fst p) (lit (snd p))) ms.
Definition kind_eqb (a b : fkind) : bool :=
  match a, b with KElem, KElem | KAttr, KAttr | KText, KText => true | _, _ => false end.
Definition fty_is_enum (t : ftype) : bool :=
  match t with
  | TCls c => match find_class c with Some (CEnum ms) => enum_ok c ms | _ => false end
  | _ => false
  end.
Definition unfixed (f : field) : bool := match f_fixed f with None => true | _ => false end.
Definition value_class_ok (fs : list field) : bool :=
  match fs with
  | [fv; fu] =>
    String.eqb (f_name fv) "value" && String.eqb (f_name fu) "units"
    && match f_ty fv with TDec => true | _ => false end && fty_is_enum (f_ty fu)
    && kind_eqb (f_kind fv) KText && kind_eqb (f_kind fu) KAttr
    && unfixed fv && unfixed fu && negb (f_list fv) && negb (f_list fu)
  | _ => false
  end.
Definition type_ok (t : ftype) : bool :=
  match t with
  | TCls c => match find_class c with
              | Some (CEnum ms) => enum_ok c ms
              | Some (CData _ fs) => value_class_ok fs
              | None => false
              end
  | _ => true
  end.
Definition kw_field_ok (f : field) : bool :=
  kind_eqb (f_kind f) KElem && unfixed f && type_ok (f_ty f) && forallb is_ascii (lit (f_name f))
  && match f_kw f with
     | Some k => str_eqb (ascii_upper (lit (f_name f))) (lit k) && isupper (lit k)
                 && plain_text (lit k)
                 && (if f_list f then String.eqb (f_name f) "comment" && String.eqb k "COMMENT"
                                      && match f_ty f with TStr => true | _ => false end
                     else not_begins_comment (lit k)
                          && negb (String.eqb (f_name f) "comment")
                          && negb (String.eqb (f_name f) "user_defined"))
     | None => false
     end.
Definition no_dup_strings (l : list string) : bool :=
  if list_eq_dec string_dec (nodup string_dec l) l then true else false.
Definition comments_first (fs : list field) : bool :=
  match fs with [] => true | _ :: r => forallb (fun f => negb (f_list f)) r end.
Definition leaf_class (c : string) : bool :=
  forallb kw_field_ok (fields_of c) && no_dup_strings (map f_name (fields_of c))
  && no_dup_strings (map (fun f => match f_kw f with Some k => k | None => "" end) (fields_of c))
  && comments_first (fields_of c).

Lemma plain_text_spec s : plain_text s = true ->
  s <> [] /\ trimmed s /\ one_line s /\ no_char c_eq s /\ no_char c_lbr s /\ no_char c_rbr s /\
  Forall (fun c => xml_char c = true) s.
Proof.
  unfold plain_text. intros H. repeat (apply andb_true_iff in H; destruct H as [H ?]).
  split; [destruct s; [discriminate|discriminate]|].
  split; [apply trimmedb_spec; assumption|]. split; [apply no_charb_spec; assumption|].
  split; [apply no_charb_spec; assumption|]. split; [apply no_charb_spec; assumption|].
  split; [apply no_charb_spec; assumption|]. apply Forall_forall. apply forallb_forall. assumption.
Qed.
Lemma plain_good_value s : plain_text s = true -> good_value s.
Proof.
  intros H. apply plain_text_spec in H. destruct H as [H1 [H2 [H3 [_ [H5 [_ H7]]]]]].
  split; [repeat split; try assumption; apply H2|]. intros [Hin _]. contradiction.
Qed.

Lemma enum_ok_spec c ms m v : enum_ok c ms = true -> In (m, v) ms ->
  plain_text (lit v) = true /\ conv_enum c ms (lit v) = VEnum c m (lit v).
Proof.
  intros H Hin. unfold enum_ok in H. rewrite forallb_forall in H. apply H in Hin. cbn [fst snd] in Hin.
  apply andb_true_iff in Hin. destruct Hin as [H1 H2]. split; [exact H1|].
  destruct (conv_enum c ms (lit v)); try discriminate. cbn in H2.
  apply andb_true_iff in H2. destruct H2 as [H2 H3]. apply andb_true_iff in H2. destruct H2 as [H2 H4].
  apply String.eqb_eq in H2, H4. apply str_eqb_eq in H3. subst. reflexivity.
Qed.

(* what a well-formed value of an admissible type looks like *)
Lemma fty_enum_scalar t v : fty_is_enum t = true -> wf_unit t v ->
  exists c ms m x, t = TCls c /\ find_class c = Some (CEnum ms) /\ In (m, x) ms /\
                   v = VEnum c m (lit x) /\ plain_text (lit x) = true /\
                   conv_enum c ms (lit x) = v.
Proof.
  intros H [c [ms [m [x [-> [F [Hin ->]]]]]]]. cbn in H. rewrite F in H.
  destruct (enum_ok_spec _ _ _ _ H Hin) as [P C]. exists c, ms, m, x. rewrite C.
  repeat (split; [assumption || reflexivity|]). reflexivity.
Qed.

Section Writer.
Variable u : env.
Notation sub := (collate_sub u).

(* [emits f ls]: the writer step [f] adds lines that read as [ls] *)
Definition adds (f : list str -> res (list str)) (ls : list line) : Prop :=
  forall out, exists raws, f out = Ok (out ++ raws) /\ Forall one_line raws /\
                           filter_map lex_line raws = ls.
Definition emits (key : string) (v : pyval) (ls : list line) : Prop := adds (sub key v) ls.
Definition emits_vars (vars : list (string * pyval)) (ls : list line) : Prop :=
  adds (collate_vars sub vars) ls.

Lemma emits_vars_nil : emits_vars [] [].
Proof. intros out. exists []. cbn. rewrite app_nil_r. auto. Qed.
Lemma emits_vars_cons k v r l1 l2 : emits k v l1 -> emits_vars r l2 -> emits_vars ((k, v) :: r) (l1 ++ l2).
Proof.
  intros H1 H2 out. destruct (H1 out) as [r1 [E1 [O1 F1]]].
  destruct (H2 (out ++ r1)) as [r2 [E2 [O2 F2]]]. exists (r1 ++ r2). cbn [collate_vars].
  rewrite E1, E2, <- app_assoc. split; [reflexivity|]. split; [apply Forall_app; auto|].
  rewrite filter_map_app, F1, F2. reflexivity.
Qed.

(* one line for a keyword *)
Definition key_ok (key : string) (k : str) : Prop :=
  upper u (lit key) = k /\ trimmed k /\ no_char c_eq k /\ one_line k /\
  startswith kw_comment k = false.

Lemma one_line_nil : one_line []. Proof. intros []. Qed.
Lemma numtext_one_line s : numtext s -> one_line s.
Proof. apply numtext_no_char. reflexivity. Qed.
Lemma numtext_not_unit s : numtext s -> ~ unit_like s.
Proof. intros H [Hin _]. exact (numtext_no_char c_lbr s eq_refl H Hin). Qed.

Lemma line_plain key k t : key_ok key k -> trimmed t -> one_line t -> ~ unit_like t ->
  one_line (fill_kvn u (lit key) t []) /\ lex_line (fill_kvn u (lit key) t []) = Some [k; t].
Proof.
  intros [E [Tk [Nk [Ok C]]]] T O U. subst k. split.
  - apply fill_kvn_one_line; [exact Ok|exact O|exact one_line_nil].
  - apply fill_kvn_plain; assumption.
Qed.
Lemma line_unit key k t un : key_ok key k -> trimmed t -> one_line t -> no_char c_lbr t ->
  plain_text un = true ->
  one_line (fill_kvn u (lit key) t un) /\ lex_line (fill_kvn u (lit key) t un) = Some [k; t; un].
Proof.
  intros [E [Tk [Nk [Ok C]]]] T O U P. subst k. apply plain_text_spec in P.
  destruct P as [P1 [P2 [P3 [_ [P5 [P6 _]]]]]]. split.
  - apply fill_kvn_one_line; assumption.
  - apply fill_kvn_unit; assumption.
Qed.

Lemma sub_scalar key v : key <> "comment" -> match v with VStr _ | VInt _ | VDec _ | VEnum _ _ _ => True | _ => False end ->
  forall out, sub key v out = Ok (out ++ [fill_kvn u (lit key) (fst (shown v)) []]).
Proof.
  intros K H out. assert (E : String.eqb key "comment" = false) by (apply String.eqb_neq; exact K).
  destruct v; try destruct H; cbn [collate_sub shown fst bind]; try rewrite E; cbn [bind];
    rewrite !app_nil_r; reflexivity.
Qed.
Lemma sub_none key out : key <> "comment" -> key <> "user_defined" -> sub key VNone out = Ok out.
Proof.
  intros K1 K2. apply String.eqb_neq in K1, K2. cbn [collate_sub]. rewrite K1, K2. cbn [orb bind].
  rewrite !app_nil_r. reflexivity.
Qed.
Lemma emits_none key : key <> "comment" -> key <> "user_defined" -> emits key VNone [].
Proof. intros K1 K2 out. exists []. rewrite sub_none, app_nil_r by assumption. auto. Qed.

Lemma map_res_ok {A B} (f : A -> res B) (g : A -> B) l : (forall a, In a l -> f a = Ok (g a)) ->
  map_res f l = Ok (map g l).
Proof.
  induction l as [|a l IH]; intros H; [reflexivity|]. cbn. rewrite (H a) by (left; reflexivity).
  cbn. rewrite IH by (intros; apply H; right; assumption). reflexivity.
Qed.
Lemma map_res_map {A B C} (f : B -> res C) (g : A -> B) l : map_res f (map g l) = map_res (fun a => f (g a)) l.
Proof. induction l as [|a l IH]; [reflexivity|]. cbn. rewrite IH. reflexivity. Qed.

Lemma sub_comments ts out :
  sub "comment" (VList (map VStr ts)) out = Ok (out ++ map (fun t => fill_kvn u (lit "comment") t []) ts).
Proof.
  cbn [collate_sub String.eqb Ascii.eqb Bool.eqb]. rewrite app_nil_r.
  rewrite map_res_map. rewrite (map_res_ok _ (fun t => fill_kvn u (lit "comment") t [])) by reflexivity.
  cbn [bind]. rewrite app_nil_r. reflexivity.
Qed.
Lemma one_line_comment_kw : one_line (upper u (lit "comment")).
Proof. change (upper u (lit "comment")) with (lit "COMMENT"). apply no_charb_spec. reflexivity. Qed.
Lemma emits_comments ts : Forall good_text ts ->
  emits "comment" (VList (map VStr ts)) (map (fun t => [kw_comment; t]) ts).
Proof.
  intros H out. exists (map (fun t => fill_kvn u (lit "comment") t []) ts). rewrite sub_comments.
  split; [reflexivity|]. split.
  - apply Forall_map. eapply Forall_impl; [|exact H]. intros t [_ [_ [O _]]].
    apply fill_kvn_one_line; [exact one_line_comment_kw|exact O|exact one_line_nil].
  - induction H as [|t ts [_ [T _]] _ IH]; [reflexivity|]. cbn [map filter_map].
    rewrite fill_kvn_comment by exact T. rewrite IH. reflexivity.
Qed.

(* value objects *)
Lemma sub_value_obj key c x un out : wf_amount x -> key <> "comment" ->
  mem_string c special_output_header_classes = false ->
  match un with VNone => True | VEnum _ _ s => s <> [] | _ => False end ->
  let v := VObj c [("value", x); ("units", un)] in
  sub key v out = Ok (out ++ [fill_kvn u (lit key) (fst (shown v)) (snd (shown v))]).
Proof.
  intros A K S H v. apply String.eqb_neq in K. unfold v. cbn [collate_sub]. rewrite S, K.
  cbn [map fst mem_string existsb String.eqb Ascii.eqb Bool.eqb orb andb].
  rewrite !app_nil_r. unfold value_obj_line.
  cbn [filter map fst mem_string existsb String.eqb Ascii.eqb Bool.eqb orb negb bind py_getattr assoc].
  destruct un; try contradiction; destruct A; cbn; rewrite ?app_nil_r; try reflexivity;
    destruct value as [|a value]; try congruence; cbn; rewrite ?app_nil_r; reflexivity.
Qed.

(* a field value *)
Definition line_entries kw v := map line_of (field_entries kw v).

Lemma wf_scalar_cases t v : type_ok t = true -> wf_scalar t v ->
  match v with VStr _ | VInt _ | VDec _ | VEnum _ _ _ => True | _ => False end /\
  snd (shown v) = [] /\ good_value (fst (shown v)).
Proof.
  intros T W. destruct W as [s G|z|d D|c ms m v F Hin|s G _|s G _|c ms s _ G _]; cbn; try (split; [exact I|split; [reflexivity|exact G]]).
  - split; [exact I|]. split; [reflexivity|]. pose proof (numtext_show_Z z) as H. split.
    + split; [intros E; assert (X : py_int u (show_Z z) = Some z) by apply py_int_show;
              rewrite E in X; discriminate X|].
      split; [apply numtext_trimmed; exact H|]. split; [apply numtext_one_line; exact H|].
      apply (numtext_forall xml_char); [reflexivity|exact H].
    + apply numtext_not_unit; exact H.
  - split; [exact I|]. split; [reflexivity|]. pose proof (numtext_show_dec d) as H. split.
    + split; [intros E; assert (X : py_decimal u (show_dec d) = Some d) by (apply py_decimal_show; exact D);
              rewrite E in X; discriminate X|].
      split; [apply numtext_trimmed; exact H|]. split; [apply numtext_one_line; exact H|].
      apply (numtext_forall xml_char); [reflexivity|exact H].
    + apply numtext_not_unit; exact H.
  - split; [exact I|]. split; [reflexivity|]. cbn in T. rewrite F in T.
    destruct (enum_ok_spec _ _ _ _ T Hin) as [P _]. apply plain_good_value; exact P.
Qed.

(* the text of the number of a value with a unit *)
Lemma amount_text x : wf_amount x -> good_value (fst (shown x)) /\ no_char c_lbr (fst (shown x)) /\
  forall c, shown (VObj c [("value", x); ("units", VNone)]) = (fst (shown x), []) /\
            forall ec em s, shown (VObj c [("value", x); ("units", VEnum ec em s)]) = (fst (shown x), s).
Proof.
  intros [d D|s G B N]; cbn [shown fst]; [|auto].
  destruct (wf_scalar_cases TDec (VDec d) eq_refl (wf_dec d D)) as [_ [_ G]]. split; [exact G|].
  split; [exact (numtext_no_char c_lbr _ eq_refl (numtext_show_dec d))|auto].
Qed.
Lemma quantity_unit t fu fv un m c : t = TCls c -> find_class c = Some (CData m [fv; fu]) ->
  type_ok t = true -> wf_unit (f_ty fu) un ->
  exists ec em s, un = VEnum ec em s /\ plain_text s = true.
Proof.
  intros -> F T W. cbn in T. rewrite F in T. cbn in T.
  repeat (apply andb_true_iff in T; destruct T as [T ?]).
  match goal with X : fty_is_enum _ = true |- _ => destruct (fty_enum_scalar _ _ X W) as [ec [ms [em [x [_ [_ [_ [E [P _]]]]]]]]] end.
  exists ec, em, (lit x). auto.
Qed.

Lemma value_class_not_special c m fs : find_class c = Some (CData m fs) -> value_class_ok fs = true ->
  mem_string c special_output_header_classes = false.
Proof.
  intros F V. destruct (mem_string c special_output_header_classes) eqn:E; [|reflexivity].
  exfalso. unfold mem_string in E. apply existsb_exists in E. destruct E as [x [Hin E]].
  apply String.eqb_eq in E. subst x.
  repeat (destruct Hin as [<-|Hin]; [vm_compute in F; injection F as <- <-; vm_compute in V; discriminate|]).
  destruct Hin.
Qed.

Lemma emits_value key k t v : key_ok key k -> key <> "comment" -> type_ok t = true -> wf_value t v ->
  emits key v [line_of (k, fst (shown v), snd (shown v))].
Proof.
  intros K C T W out. pose proof W as W0. destruct W as [t v W|c m fv fu d F D|c m fv fu d un F D W].
  - destruct (wf_scalar_cases t v T W) as [S [U [[_ [Tr [O _]]] NU]]].
    rewrite sub_scalar by assumption. rewrite U.
    destruct (line_plain key k _ K Tr O NU) as [L1 L2].
    eexists. split; [reflexivity|]. split; [constructor; [exact L1|constructor]|].
    cbn [filter_map]. rewrite L2. reflexivity.
  - assert (V : value_class_ok [fv; fu] = true) by (cbn in T; rewrite F in T; exact T).
    rewrite sub_value_obj; [|exact D|exact C|exact (value_class_not_special _ _ _ F V)|exact I].
    destruct (amount_text d D) as [[[_ [Tr [O _]]] NU] [_ Sh]]. destruct (Sh c) as [-> _].
    destruct (line_plain key k _ K Tr O NU) as [L1 L2].
    eexists. split; [reflexivity|]. cbn [fst snd]. split; [constructor; [exact L1|constructor]|].
    cbn [filter_map]. rewrite L2. reflexivity.
  - assert (V : value_class_ok [fv; fu] = true) by (cbn in T; rewrite F in T; exact T).
    destruct (quantity_unit _ _ _ _ _ _ eq_refl F T W) as [ec [em [s [-> P]]]].
    pose proof P as P'. apply plain_text_spec in P'. destruct P' as [Ne _].
    rewrite sub_value_obj; [|exact D|exact C|exact (value_class_not_special _ _ _ F V)|exact Ne].
    destruct (amount_text d D) as [[[_ [Tr [O _]]] NU] [Nb Sh]]. destruct (Sh c) as [_ Sh2]. rewrite Sh2.
    destruct (line_unit key k _ s K Tr O Nb P) as [L1 L2].
    eexists. split; [reflexivity|]. cbn [fst snd]. split; [constructor; [exact L1|constructor]|].
    cbn [filter_map]. rewrite L2. destruct s; [congruence|reflexivity].
Qed.

(* a keyword field of the schema *)
Definition kw_of (f : field) : string := match f_kw f with Some k => k | None => "" end.
Lemma kw_field_spec f : kw_field_ok f = true ->
  f_kind f = KElem /\ f_fixed f = None /\ type_ok (f_ty f) = true /\ f_kw f = Some (kw_of f) /\
  upper u (lit (f_name f)) = lit (kw_of f) /\ isupper (lit (kw_of f)) = true /\
  plain_text (lit (kw_of f)) = true /\
  (f_list f = true -> f_name f = "comment" /\ kw_of f = "COMMENT" /\ f_ty f = TStr) /\
  (f_list f = false -> startswith kw_comment (lit (kw_of f)) = false /\ f_name f <> "comment" /\
                       f_name f <> "user_defined").
Proof.
  unfold kw_field_ok, kw_of. intros H. repeat (apply andb_true_iff in H; destruct H as [H ?]).
  destruct (f_kw f) as [k|]; [|discriminate].
  match goal with X : (_ && _)%bool = true |- _ => repeat (apply andb_true_iff in X; destruct X as [X ?]) end.
  split; [destruct (f_kind f); reflexivity || discriminate|].
  split; [unfold unfixed in *; destruct (f_fixed f); reflexivity || discriminate|].
  split; [assumption|]. split; [reflexivity|].
  split; [rewrite upper_of_ascii by assumption; apply str_eqb_eq; assumption|].
  split; [assumption|]. split; [assumption|].
  split; intros L; rewrite L in *; repeat match goal with X : (_ && _)%bool = true |- _ => apply andb_true_iff in X; destruct X end;
    repeat match goal with X : String.eqb _ _ = true |- _ => apply String.eqb_eq in X
                         | X : negb _ = true |- _ => apply negb_true_iff in X
                         | X : String.eqb _ _ = false |- _ => apply String.eqb_neq in X end.
  - repeat split; try assumption. destruct (f_ty f); reflexivity || discriminate.
  - repeat split; try assumption. unfold not_begins_comment in *. apply negb_true_iff. assumption.
Qed.
Lemma kw_field_key f : kw_field_ok f = true -> f_list f = false -> key_ok (f_name f) (lit (kw_of f)).
Proof.
  intros H L. apply kw_field_spec in H. destruct H as [_ [_ [_ [_ [U [_ [P [_ X]]]]]]]].
  destruct (X L) as [C _]. apply plain_text_spec in P. destruct P as [_ [T [O [E _]]]].
  split; [exact U|]. split; [exact T|]. split; [exact E|]. split; [exact O|exact C].
Qed.

Lemma emits_field f v : kw_field_ok f = true -> wf_field f v ->
  emits (f_name f) v (line_entries (kw_of f) v).
Proof.
  intros H W. pose proof (kw_field_spec f H) as [_ [_ [T [_ [_ [_ [_ [XL XN]]]]]]]].
  destruct W as [L|v L W|ts L G].
  - destruct (XN L) as [_ [N1 N2]]. apply emits_none; assumption.
  - destruct (XN L) as [_ [N1 _]]. pose proof (emits_value _ _ _ _ (kw_field_key f H L) N1 T W) as E.
    unfold line_entries, field_entries.
    destruct v; try exact E; exfalso; inversion W; subst; match goal with X : wf_scalar _ _ |- _ => inversion X end.
  - destruct (XL L) as [-> [-> _]]. unfold line_entries. cbn [field_entries]. rewrite !map_map. cbn.
    apply emits_comments; exact G.
Qed.

Lemma emits_fields fs vars : forallb kw_field_ok fs = true -> wf_vars fs vars ->
  emits_vars vars (map line_of (entries fs vars)).
Proof.
  intros H W. induction W as [|f [k v] fs vars [E W] Ws IH]; [apply emits_vars_nil|].
  cbn [forallb] in H. apply andb_true_iff in H. destruct H as [Hf Hs]. cbn [fst snd] in E, W. subst k.
  cbn [entries]. rewrite map_app. apply emits_vars_cons; [apply emits_field; assumption|apply IH; assumption].
Qed.

(* objects *)
Definition markers (c : string) (b : bool) : list line :=
  if mem_string c special_output_header_classes then [[special_header c b]] else [].
Definition hdr_lines (c : string) (b : bool) : list str :=
  if mem_string c special_output_header_classes then [special_header c b; []] else [].
Lemma special_header_lex c b :
  lex_line (special_header c b) = Some [special_header c b] /\ one_line (special_header c b).
Proof.
  unfold special_header.
  destruct (mem_string c ["AemMetadata"; "OemMetadata"; "TdmMetadata"]); [destruct b|
    destruct (mem_string c ["AemData"; "TdmData"]); destruct b]; (split; [vm_compute; reflexivity|apply no_charb_spec; reflexivity]).
Qed.
Lemma hdr_lines_lex c b : Forall one_line (hdr_lines c b) /\ filter_map lex_line (hdr_lines c b) = markers c b.
Proof.
  unfold hdr_lines, markers. destruct (mem_string c _); [|split; [constructor|reflexivity]].
  destruct (special_header_lex c b) as [L O]. split; [repeat constructor; [exact O|exact one_line_nil]|].
  cbn [filter_map]. rewrite L. reflexivity.
Qed.

Lemma sub_obj key c vars out : key <> "comment" -> key <> "user_defined" ->
  mem_string "units" (map fst vars) = false -> mem_string c special_output_data_classes = false ->
  sub key (VObj c vars) out =
  do o <- collate_vars sub vars (out ++ hdr_lines c true);
  Ok (close_section key vars o ++ hdr_lines c false).
Proof.
  intros K1 K2 U S. apply String.eqb_neq in K1, K2. cbn [collate_sub]. rewrite K1, K2, U, S.
  unfold hdr_lines. destruct (collate_vars sub vars _); reflexivity.
Qed.
Lemma emits_obj key c vars ls : key <> "comment" -> key <> "user_defined" ->
  mem_string "units" (map fst vars) = false -> mem_string c special_output_data_classes = false ->
  emits_vars vars ls -> emits key (VObj c vars) (markers c true ++ ls ++ markers c false).
Proof.
  intros K1 K2 U S H out. rewrite sub_obj by assumption.
  destruct (H (out ++ hdr_lines c true)) as [raws [E [O F]]]. rewrite E. cbn [bind].
  destruct (hdr_lines_lex c true) as [O1 F1]. destruct (hdr_lines_lex c false) as [O2 F2].
  unfold close_section. destruct (_ && _)%bool.
  - exists (hdr_lines c true ++ raws ++ [[]] ++ hdr_lines c false). rewrite <- !app_assoc. split; [reflexivity|].
    split; [repeat (apply Forall_app; split); try assumption; constructor; [exact one_line_nil|constructor]|].
    rewrite !filter_map_app, F1, F2, F. reflexivity.
  - exists (hdr_lines c true ++ raws ++ hdr_lines c false). rewrite <- !app_assoc. split; [reflexivity|].
    split; [repeat (apply Forall_app; split); assumption|]. rewrite !filter_map_app, F1, F2, F. reflexivity.
Qed.

(* lists of objects *)
Definition write_item (key : string) (x : pyval) (out : list str) : res (list str) :=
  match x with
  | VObj c vars => if mem_string c special_output_data_classes then
                     do ls <- special_data_lines u key c vars out; Ok (out ++ ls)
                   else
                     do o <- collate_vars sub vars out;
                     Ok (close_section key vars o)
  | _ => Err TypeError
  end.
Fixpoint write_items (key : string) (l : list pyval) (out : list str) : res (list str) :=
  match l with
  | [] => Ok out
  | x :: r => do o <- write_item key x out; write_items key r o
  end.
Definition list_hdr (l : list pyval) (b : bool) : list str :=
  match l with
  | VObj c _ :: _ => if mem_string c special_output_header_classes
                     then [[]; special_header c b; []] else []
  | _ => []
  end.
Lemma sub_list key l out : key <> "comment" -> key <> "user_defined" ->
  sub key (VList l) out =
  do o <- write_items key l (out ++ list_hdr l true); Ok (o ++ list_hdr l false).
Proof.
  intros K1 K2. apply String.eqb_neq in K1, K2. cbn [collate_sub]. rewrite K1, K2. rewrite app_nil_r.
  unfold list_hdr.
  assert (E : forall l out,
    (fix items (l : list pyval) (out : list str) {struct l} : res (list str) :=
       match l with
       | [] => Ok out
       | VObj c vars :: r =>
         do o <- (if mem_string c special_output_data_classes then
                    do ls <- special_data_lines u key c vars out; Ok (out ++ ls)
                  else
                    do o <- collate_vars sub vars out;
                    Ok (close_section key vars o));
         items r o
       | _ :: _ => Err TypeError
       end) l out = write_items key l out).
  { clear. induction l as [|x l IH]; intros out; [reflexivity|].
    destruct x; try reflexivity. cbn [write_items write_item]. destruct (mem_string _ _).
    - destruct (special_data_lines u key cls vars out) as [ls|]; [|reflexivity]. cbn [bind]. apply IH.
    - destruct (collate_vars sub vars out) as [o|]; [|reflexivity]. cbn [bind]. apply IH. }
  rewrite E. destruct (write_items key l _) as [o|]; [|reflexivity]. cbn [bind]. rewrite app_nil_r. reflexivity.
Qed.
Definition list_markers (l : list pyval) (b : bool) : list line :=
  match l with VObj c _ :: _ => markers c b | _ => [] end.
Lemma list_hdr_lex l b : Forall one_line (list_hdr l b) /\ filter_map lex_line (list_hdr l b) = list_markers l b.
Proof.
  unfold list_hdr, list_markers, markers. destruct l as [|[] l]; try (split; [constructor|reflexivity]).
  destruct (mem_string cls _); [|split; [constructor|reflexivity]].
  destruct (special_header_lex cls b) as [L O].
  split; [repeat constructor; [exact one_line_nil|exact O|exact one_line_nil]|].
  cbn [filter_map]. rewrite (lex_line_blank []) by (intros ? []). rewrite L. reflexivity.
Qed.
Lemma adds_items key l lss : Forall2 (fun x ls => adds (write_item key x) ls) l lss ->
  adds (write_items key l) (List.concat lss).
Proof.
  induction 1 as [|x ls l lss H _ IH]; intros out.
  - exists []. cbn. rewrite app_nil_r. auto.
  - destruct (H out) as [r1 [E1 [O1 F1]]]. destruct (IH (out ++ r1)) as [r2 [E2 [O2 F2]]].
    exists (r1 ++ r2). cbn [write_items List.concat]. rewrite E1. cbn [bind]. rewrite E2, <- app_assoc.
    split; [reflexivity|]. split; [apply Forall_app; auto|]. rewrite filter_map_app, F1, F2. reflexivity.
Qed.
Lemma emits_list key l lss : key <> "comment" -> key <> "user_defined" ->
  Forall2 (fun x ls => adds (write_item key x) ls) l lss ->
  emits key (VList l) (list_markers l true ++ List.concat lss ++ list_markers l false).
Proof.
  intros K1 K2 H out. rewrite sub_list by assumption.
  destruct (adds_items _ _ _ H (out ++ list_hdr l true)) as [raws [E [O F]]]. rewrite E. cbn [bind].
  destruct (list_hdr_lex l true) as [O1 F1]. destruct (list_hdr_lex l false) as [O2 F2].
  exists (list_hdr l true ++ raws ++ list_hdr l false). rewrite <- !app_assoc. split; [reflexivity|].
  split; [repeat (apply Forall_app; split); assumption|]. rewrite !filter_map_app, F1, F2, F. reflexivity.
Qed.
Lemma adds_item_obj key c vars ls : mem_string c special_output_data_classes = false ->
  emits_vars vars ls -> adds (write_item key (VObj c vars)) ls.
Proof.
  intros S H out. cbn [write_item]. rewrite S. destruct (H out) as [raws [E [O F]]]. rewrite E. cbn [bind].
  unfold close_section. destruct (_ && _)%bool.
  - exists (raws ++ [[]]). rewrite <- app_assoc. split; [reflexivity|].
    split; [apply Forall_app; split; [exact O|constructor; [exact one_line_nil|constructor]]|].
    rewrite filter_map_app, F. cbn. rewrite app_nil_r. reflexivity.
  - exists raws. auto.
Qed.

(* ---- the lines already written stay in front ---- *)
Definition extends (f : list str -> res (list str)) : Prop :=
  forall out o, f out = Ok o -> exists more, o = out ++ more.
Section PyvalInd.
Variable P : pyval -> Prop.
Hypothesis HN : P VNone.
Hypothesis HS : forall s, P (VStr s).
Hypothesis HI : forall z, P (VInt z).
Hypothesis HD : forall d, P (VDec d).
Hypothesis HE : forall c m s, P (VEnum c m s).
Hypothesis HO : forall c vars, Forall (fun kv => P (snd kv)) vars -> P (VObj c vars).
Hypothesis HL : forall l, Forall P l -> P (VList l).
Fixpoint pyval_ind' (v : pyval) : P v :=
  match v with
  | VNone => HN | VStr s => HS s | VInt z => HI z | VDec d => HD d | VEnum c m s => HE c m s
  | VObj c vars => HO c vars ((fix go (l : list (string * pyval)) : Forall (fun kv => P (snd kv)) l :=
      match l with
      | [] => Forall_nil _
      | kv :: r => Forall_cons kv (pyval_ind' (snd kv)) (go r)
      end) vars)
  | VList l => HL l ((fix go (l : list pyval) : Forall P l :=
      match l with [] => Forall_nil _ | x :: r => Forall_cons x (pyval_ind' x) (go r) end) l)
  end.
End PyvalInd.

Lemma extends_vars vars : Forall (fun kv => forall key, extends (sub key (snd kv))) vars ->
  extends (collate_vars sub vars).
Proof.
  induction 1 as [|[k v] r Hv _ IH]; intros out o H; cbn in H.
  - injection H as <-. exists []. rewrite app_nil_r. reflexivity.
  - destruct (sub k v out) as [o1|] eqn:E; [|discriminate]. apply Hv in E. destruct E as [m1 ->].
    apply IH in H. destruct H as [m2 ->]. exists (m1 ++ m2). rewrite app_assoc. reflexivity.
Qed.
Lemma extends_close key vars out : exists more, close_section key vars out = out ++ more.
Proof. unfold close_section. destruct (_ && _)%bool; [exists [[]]; reflexivity|exists []; rewrite app_nil_r; reflexivity]. Qed.
Lemma collate_extends v : (forall key, extends (sub key v)) /\
  match v with VObj c vars => extends (collate_vars sub vars) | _ => True end.
Proof.
  induction v as [|s|z|d|c m s|c vars F|l F] using pyval_ind'.
  1-5: split; [|exact I]; intros key out o H; cbn [collate_sub] in H;
    repeat match type of H with context [if ?b then _ else _] => destruct b end; cbn [bind] in H;
    try discriminate; injection H as <-; rewrite <- ?app_assoc; eexists; reflexivity || (symmetry; apply app_nil_r).
  - assert (V : extends (collate_vars sub vars)).
    { apply extends_vars. eapply Forall_impl; [|exact F]. intros kv [X _]; exact X. }
    split; [|exact V]. intros key out o H. cbn [collate_sub] in H.
    destruct (String.eqb key "comment"); [discriminate|].
    destruct (mem_string "units" (map fst vars)).
    { destruct (value_obj_line u key c vars); [|discriminate]. cbn [bind] in H. injection H as <-.
      rewrite <- !app_assoc. eexists; reflexivity. }
    destruct (String.eqb key "user_defined"); [discriminate|].
    destruct (mem_string c special_output_data_classes).
    { destruct (special_data_lines u key c vars _); [|discriminate]. cbn [bind] in H. injection H as <-.
      rewrite <- !app_assoc. eexists; reflexivity. }
    destruct (collate_vars sub vars _) as [o1|] eqn:E; [|discriminate]. cbn [bind] in H. injection H as <-.
    apply V in E. destruct E as [m ->]. destruct (extends_close key vars ((out ++ hdr_lines c true) ++ m)) as [m2 E2].
    unfold hdr_lines in E2. rewrite E2, <- !app_assoc. eexists; reflexivity.
  - split; [|exact I]. intros key out o H.
    destruct (string_dec key "comment") as [->|K1].
    { cbn [collate_sub String.eqb Ascii.eqb Bool.eqb] in H. destruct (map_res _ l); [|discriminate].
      cbn [bind] in H. injection H as <-. rewrite <- !app_assoc. eexists; reflexivity. }
    destruct (string_dec key "user_defined") as [->|K2].
    { cbn [collate_sub String.eqb Ascii.eqb Bool.eqb] in H. destruct (map_res _ l); [|discriminate].
      cbn [bind] in H. injection H as <-. rewrite <- !app_assoc. eexists; reflexivity. }
    rewrite sub_list in H by assumption.
    assert (W : forall out o, write_items key l out = Ok o -> exists more, o = out ++ more).
    { clear H out o. induction F as [|x l [_ Hx] _ IH]; intros out o H; cbn in H.
      - injection H as <-. exists []. rewrite app_nil_r. reflexivity.
      - destruct (write_item key x out) as [o1|] eqn:E; [|discriminate]. cbn [bind] in H.
        apply IH in H. destruct H as [m2 ->]. destruct x; try discriminate. cbn [write_item] in E.
        destruct (mem_string cls _).
        + destruct (special_data_lines u key cls vars out); [|discriminate]. injection E as <-.
          rewrite <- app_assoc. eexists; reflexivity.
        + destruct (collate_vars sub vars out) as [o2|] eqn:E2; [|discriminate]. injection E as <-.
          apply Hx in E2. destruct E2 as [m ->]. destruct (extends_close key vars (out ++ m)) as [m3 ->].
          rewrite <- !app_assoc. eexists; reflexivity. }
    destruct (write_items key l _) as [o1|] eqn:E; [|discriminate]. injection H as <-.
    apply W in E. destruct E as [m ->]. rewrite <- !app_assoc. eexists; reflexivity.
Qed.
End Writer.
