(* How a number is spelled has no influence on what is read. *)
From Coq Require Import NArith ZArith List Bool String Arith Lia.
From Verif Require Import PyStr PyDec PyVal Schema KvnPre KvnTree KvnSeg XmlBind KvnBuild
     Spec SpecKvn SpecObj SpecMsg SpecDoc SpecFrom SpecOrder SpecNum SpecSpell StrFacts PreFacts SegFacts BuildFacts ReadFacts GapFacts ComposeFacts
     DocFacts CheckFacts NumFacts OrderFacts PropOrder PropVers AlikeFacts Demo.
Import ListNotations.
Local Open Scope string_scope.
Local Open Scope list_scope.
Local Arguments find_class : simpl never.
Local Arguments lit : simpl never.

(* ---- the characters of numbers ---- *)
Definition wordc (c : N) : Prop := (c = 43 \/ c = 45 \/ c = 46 \/ c = 95 \/ 48 <= c <= 57 \/ 65 <= c <= 90 \/ 97 <= c <= 122)%N.
Lemma figures_wordc s : figures s -> Forall wordc s.
Proof. intros H. eapply Forall_impl; [|exact H]. intros c X. cbv beta in X. unfold wordc. lia. Qed.
Lemma sign_wordc s n : sign s n -> Forall wordc s.
Proof. intros []; repeat constructor; unfold wordc; cbn; lia. Qed.
Lemma any_case_wordc w s : Forall (fun c => (97 <= c <= 122)%N) w -> any_case w s -> Forall wordc s.
Proof.
  intros F H. induction H as [|l c w s R _ IH]; [constructor|]. inversion F; subst. constructor; [|apply IH; assumption]. unfold wordc. destruct R as [->|[E _]]; lia.
Qed.
Lemma lower_word w : forallb (fun c => N.leb 97 c && N.leb c 122) w = true -> Forall (fun c => (97 <= c <= 122)%N) w.
Proof. intros H. apply Forall_forall. intros c Hc. rewrite forallb_forall in H. specialize (H c Hc). apply andb_true_iff in H. destruct H as [A B]. apply N.leb_le in A, B. lia. Qed.
Lemma exponent_wordc x e : exponent x e -> Forall wordc x.
Proof.
  intros [|c sg n ds C S F _]; [constructor|]. constructor; [unfold wordc; lia|]. apply Forall_app. split; [exact (sign_wordc _ _ S)|exact (figures_wordc _ F)].
Qed.
Lemma mantissa_wordc m a b : mantissa m a b -> Forall wordc m /\ m <> [].
Proof.
  intros [a0 F N|a0 b0 F G N]; [split; [exact (figures_wordc _ F)|exact N]|]. split; [|destruct a0; discriminate].
  apply Forall_app. split; [exact (figures_wordc _ F)|]. constructor; [unfold wordc; lia|exact (figures_wordc _ G)].
Qed.
Lemma app_nonempty {A} (a b c : list A) : b <> [] -> a ++ b ++ c <> [].
Proof. destruct a, b; [congruence|discriminate|congruence|discriminate]. Qed.
Lemma spells_wordc t d : spells t d -> Forall wordc t /\ t <> [].
Proof.
  intros [sg n m a b x e S M X|sg n w S W|sg n w ds S W F|sg n w ds S W F].
  - destruct (mantissa_wordc _ _ _ M) as [Fm Nm]. split; [|apply app_nonempty; exact Nm].
    apply Forall_app. split; [exact (sign_wordc _ _ S)|]. apply Forall_app. split; [exact Fm|exact (exponent_wordc _ _ X)].
  - assert (Fw : Forall wordc w /\ w <> []).
    { destruct W as [W|W]; (split; [eapply any_case_wordc; [|exact W]; apply lower_word; reflexivity|inversion W; discriminate]). }
    split; [apply Forall_app; split; [exact (sign_wordc _ _ S)|apply Fw]|]. destruct sg; [apply Fw|discriminate].
  - split; [|apply app_nonempty; inversion W; discriminate]. apply Forall_app. split; [exact (sign_wordc _ _ S)|]. apply Forall_app. split; [|exact (figures_wordc _ F)].
    eapply any_case_wordc; [|exact W]. apply lower_word. reflexivity.
  - split; [|apply app_nonempty; inversion W; discriminate]. apply Forall_app. split; [exact (sign_wordc _ _ S)|]. apply Forall_app. split; [|exact (figures_wordc _ F)].
    eapply any_case_wordc; [|exact W]. apply lower_word. reflexivity.
Qed.
Lemma underscored s : Forall wordc (no_underscores s) -> Forall wordc s.
Proof.
  intros H. apply Forall_forall. intros c Hc. rewrite Forall_forall in H. destruct (N.eqb c 95) eqn:E; [apply N.eqb_eq in E; unfold wordc; lia|].
  apply H. unfold no_underscores. apply filter_In. split; [exact Hc|]. rewrite E. reflexivity.
Qed.
Definition numeral (s : str) : Prop := Forall wordc s /\ s <> [].
Lemma decimal_numeral s d : spells (no_underscores s) d -> numeral s.
Proof. intros H. destruct (spells_wordc _ _ H) as [F N]. split; [apply underscored; exact F|]. intros ->. apply N. reflexivity. Qed.
Lemma whole_numeral s z : spells_whole s z -> numeral s.
Proof.
  intros [sg n r S B F N]. split; [|destruct sg; [destruct r; [exfalso; apply N; reflexivity|discriminate]|discriminate]].
  apply Forall_app. split; [exact (sign_wordc _ _ S)|]. apply underscored. exact (figures_wordc _ F).
Qed.
Lemma wordc_plain c : wordc c -> (c < 128)%N. Proof. unfold wordc. lia. Qed.
Lemma wordc_ws c : wordc c -> is_ws c = false.
Proof. intros H. destruct (is_ws c) eqn:E; [|reflexivity]. apply wordc_plain in H as P. unfold is_ws, in_range in E. rewrite !orb_true_iff, !andb_true_iff, !N.leb_le, !N.eqb_eq in E. unfold wordc in H. lia. Qed.
Lemma numeral_trimmed s : numeral s -> trimmed s.
Proof.
  intros [F _]. rewrite Forall_forall in F. split; intros c r ->; apply wordc_ws, F; [left; reflexivity|]. apply in_or_app. right. left. reflexivity.
Qed.
Lemma numeral_core s : numeral s -> is_core s s.
Proof. intros H. exists [], []. rewrite app_nil_r. split; [reflexivity|]. split; [apply blank_nil|]. split; [apply blank_nil|apply numeral_trimmed; exact H]. Qed.
Lemma numeral_plain s : numeral s -> plain s.
Proof. intros [F _]. eapply Forall_impl; [|exact F]. exact wordc_plain. Qed.
Lemma numeral_xml s : numeral s -> xml_text s = true.
Proof.
  intros [F _]. apply forallb_forall. rewrite Forall_forall in F. intros c Hc. apply F in Hc. unfold xml_char, in_range.
  replace (N.leb 32 c) with true by (symmetry; apply N.leb_le; unfold wordc in Hc; lia).
  replace (N.leb c 55295) with true by (symmetry; apply N.leb_le; unfold wordc in Hc; lia). cbn [andb]. rewrite !orb_true_r. reflexivity.
Qed.
Lemma numeral_no_bracket s : numeral s -> no_char c_lbr s.
Proof. intros [F _] H. rewrite Forall_forall in F. apply F in H. unfold wordc, c_lbr in H. lia. Qed.
Lemma numeral_one_line s : numeral s -> no_char c_nl s.
Proof. intros [F _] H. rewrite Forall_forall in F. apply F in H. unfold wordc, c_nl in H. lia. Qed.

(* ---- conversion ---- *)
Definition converted (u : env) (t : ftype) (s s' : str) : Prop := forall c n, conv u c n t s = conv u c n t s'.
Lemma decimal_converted u s s' d : spells (no_underscores s) d -> spells (no_underscores s') d -> converted u TDec s s'.
Proof.
  intros H H' c n. pose proof (decimal_numeral _ _ H) as N. pose proof (decimal_numeral _ _ H') as N'.
  assert (P : forall s, numeral s -> spells (no_underscores s) d -> conv u c n TDec s = VDec d).
  { clear. intros s N H. assert (E : py_decimal u s = Some d) by (apply (decimal_is u s d (numeral_plain s N)); exists s; split; [apply numeral_core; exact N|exact H]).
    unfold conv. destruct s; [exfalso; apply N; reflexivity|]. rewrite E. reflexivity. }
  rewrite !P by assumption. reflexivity.
Qed.
Lemma whole_converted u s s' z : spells_whole s z -> spells_whole s' z -> converted u TInt s s'.
Proof.
  intros H H' c n. pose proof (whole_numeral _ _ H) as N. pose proof (whole_numeral _ _ H') as N'.
  assert (P : forall s, numeral s -> spells_whole s z -> conv u c n TInt s = VInt z).
  { clear. intros s N H. assert (E : py_int u s = Some z) by (apply (whole_is u s z (numeral_plain s N)); exists s; split; [apply numeral_core; exact N|exact H]).
    unfold conv. destruct s; [exfalso; apply N; reflexivity|]. rewrite E. reflexivity. }
  rewrite !P by assumption. reflexivity.
Qed.
Definition type_eqb (a b : ftype) : bool :=
  match a, b with TStr, TStr => true | TInt, TInt => true | TDec, TDec => true | TCls c, TCls d => String.eqb c d | _, _ => false end.
Lemma type_eqb_eq a b : type_eqb a b = true -> a = b.
Proof. destruct a, b; cbn; try discriminate; try reflexivity. intros H. apply String.eqb_eq in H. congruence. Qed.
Definition texts_ok (t : ftype) (c : string) : bool := forallb (fun g => negb (is_text g) || type_eqb (f_ty g) t) (fields_of c).
Definition numeric (t : ftype) : bool := match t with TDec => true | TInt => true | _ => false end.
Definition field_ok (t : ftype) (f : field) : bool :=
  match f_ty f with
  | TCls c => match find_class c with Some (CData _ _) => texts_ok t c | _ => false end
  | t' => type_eqb t' t
  end.
Lemma value_converted u c t s s' attrs : texts_ok t c = true -> converted u t s s' -> bind_value_obj u c attrs s = bind_value_obj u c attrs s'.
Proof.
  intros H C. unfold bind_value_obj. f_equal. apply map_ext_in. intros f Hf. f_equal. unfold init_fields in Hf. apply filter_In in Hf. destruct Hf as [Hf _].
  unfold texts_ok in H. rewrite forallb_forall in H. specialize (H f Hf). unfold is_text in H. destruct (f_kind f); try reflexivity.
  cbn [negb orb] in H. apply type_eqb_eq in H. rewrite H. apply C.
Qed.
Lemma child_converted u c f t s s' attrs : field_ok t f = true -> converted u t s s' -> bind_child u c f attrs s = bind_child u c f attrs s'.
Proof.
  intros H C. unfold bind_child, field_ok in *. destruct (f_ty f) as [| | |d]; try (apply type_eqb_eq in H; subst t; apply C).
  destruct (find_class d) as [[m fs|ms]|]; try discriminate. eapply value_converted; eassumption.
Qed.

(* ---- the keywords of numbers ---- *)
Definition is_elem (f : field) : bool := match f_kind f with KElem => true | _ => false end.
Definition rotations : list string := ["RotationAngleComponentType"; "RotationRateComponentType"].
Definition takes (k : str) (t : ftype) : bool :=
  forallb (fun p => forallb (fun f => negb (is_elem f && str_eqb (xml_name f) k) || field_ok t f) (fields_of (fst p))) schema &&
  forallb (fun c => negb (mem_str k (attribute_words c)) || texts_ok t c) rotations.
Definition word_ok (k : str) : bool :=
  trimmedb k && no_charb c_eq k && negb (startswith kw_comment k) && negb (startswith (lit "USER_DEFINED") k) &&
  negb (mem_str k (map lit ["id"; "version"; "ATTITUDE_TYPE"; "QUATERNION_TYPE"; "EULER_ROT_SEQ"])).
Lemma fields_checked : forallb (fun p => forallb (fun f => negb (upper_name f && is_elem f && numeric (text_type (f_ty f))) ||
  (takes (kvn_name f) (text_type (f_ty f)) && word_ok (kvn_name f))) (fields_of (fst p))) schema = true.
Proof. vm_compute. reflexivity. Qed.
Lemma rotations_checked : forallb (fun c => numeric (text_type (TCls c)) && forallb (fun k => takes k (text_type (TCls c)) && word_ok k) (attribute_words c)) rotations = true.
Proof. vm_compute. reflexivity. Qed.
Lemma class_known c f : In f (fields_of c) -> exists d, In (c, d) schema.
Proof.
  unfold fields_of. destruct (find_class c) as [d|] eqn:E; [|intros []]. intros _. unfold find_class in E. apply assoc_in in E. exists d. exact E.
Qed.
Lemma keyword_takes k t : keyword_type k t -> numeric t = true -> takes k t = true /\ word_ok k = true.
Proof.
  intros [c f Hf Hu Hk|c k0 Hc Hk] N.
  - destruct (class_known c f Hf) as [d Hd]. pose proof fields_checked as W. rewrite forallb_forall in W. specialize (W _ Hd). cbn [fst] in W.
    rewrite forallb_forall in W. specialize (W f Hf). unfold is_elem in W. rewrite Hu, Hk, N in W. cbn [andb negb orb] in W. apply andb_true_iff in W. exact W.
  - pose proof rotations_checked as W. rewrite forallb_forall in W. assert (Ic : In c rotations) by (destruct Hc as [-> | ->]; cbn; auto).
    specialize (W c Ic). apply andb_true_iff in W. destruct W as [_ W]. rewrite forallb_forall in W. specialize (W k0 Hk). apply andb_true_iff in W. exact W.
Qed.
Lemma takes_field k t c f : takes k t = true -> find_elem k (fields_of c) = Some f -> field_ok t f = true.
Proof.
  intros H E. unfold find_elem in E. apply find_some in E. destruct E as [Hf E]. destruct (class_known c f Hf) as [d Hd].
  unfold takes in H. apply andb_true_iff in H. destruct H as [H _]. rewrite forallb_forall in H. specialize (H _ Hd). cbn [fst] in H. rewrite forallb_forall in H.
  specialize (H f Hf). unfold is_elem in H. destruct (f_kind f); try discriminate. rewrite E in H. exact H.
Qed.
Lemma takes_rotation k t c : takes k t = true -> In c rotations -> In k (attribute_words c) -> texts_ok t c = true.
Proof.
  intros H Hc Hk. unfold takes in H. apply andb_true_iff in H. destruct H as [_ H]. rewrite forallb_forall in H. specialize (H c Hc).
  apply mem_str_spec in Hk. rewrite Hk in H. exact H.
Qed.
(* what two texts of the same number have in common *)
Lemma same_number_spec u k s s' : same_number k s s' -> exists t, numeral s /\ numeral s' /\ takes k t = true /\ word_ok k = true /\ converted u t s s'.
Proof.
  intros [a b d T H H'|a b z T H H'].
  - exists TDec. destruct (keyword_takes _ _ T eq_refl) as [T1 T2]. split; [exact (decimal_numeral _ _ H)|]. split; [exact (decimal_numeral _ _ H')|].
    split; [exact T1|]. split; [exact T2|]. exact (decimal_converted u a b d H H').
  - exists TInt. destruct (keyword_takes _ _ T eq_refl) as [T1 T2]. split; [exact (whole_numeral _ _ H)|]. split; [exact (whole_numeral _ _ H')|].
    split; [exact T1|]. split; [exact T2|]. exact (whole_converted u a b z H H').
Qed.

(* ---- the object maps ---- *)
Definition fitb (e : elem) : bool :=
  negb (String.eqb (e_cls e) "TrackingDataObservationType") &&
  (negb (user e) || (Nat.leb 2 (List.length (e_kws e)) && forallb (fun t => str_eqb t kw_comment || startswith (lit "USER_DEFINED") t) (e_kws e))) &&
  match e_single e with
  | Some _ => existsb (String.eqb (e_cls e)) rotations && forallb (fun t => mem_str t (attribute_words (e_cls e))) (e_kws e)
  | None => true
  end.
Lemma roots_fitb c : In c root_classes -> c <> "Tdm" -> forallb fitb (all_elems (tree_of c)) = true.
Proof. intros H N. repeat (destruct H as [<-|H]; [vm_compute; reflexivity|]). destruct H as [<-|[]]. congruence. Qed.

Section Spell.
Variable u : env.
Variables k s s' : str.
Hypothesis Same : same_number k s s'.

Lemma roots_fit c : In c root_classes -> c <> "Tdm" -> all_fit u k s s' (tree_of c).
Proof.
  intros Hc N z Hz. pose proof (roots_fitb c Hc N) as W. rewrite forallb_forall in W. specialize (W z Hz). unfold fitb in W.
  apply andb_true_iff in W. destruct W as [W W3]. apply andb_true_iff in W. destruct W as [W1 W2]. apply negb_true_iff in W1. split; [exact W1|]. split.
  - intros U. rewrite U in W2. cbn [negb orb] in W2. apply andb_true_iff in W2. destruct W2 as [W2 W4]. apply Nat.leb_le in W2.
    split; [exact W2|]. intros t Ht. rewrite forallb_forall in W4. specialize (W4 t Ht).
    apply orb_true_iff in W4. destruct W4 as [W4|W4]; [left; apply str_eqb_eq; exact W4|right; exact W4].
  - intros p Ep Hk attrs. rewrite Ep in W3. apply andb_true_iff in W3. destruct W3 as [W3 W4]. apply existsb_exists in W3. destruct W3 as [d [Hd E]].
    apply String.eqb_eq in E. rewrite forallb_forall in W4. specialize (W4 k Hk). apply mem_str_spec in W4.
    destruct (same_number_spec u k s s' Same) as [t [_ [_ [T [_ C]]]]]. apply (value_converted u _ t); [|exact C]. rewrite E in *. exact (takes_rotation k t d T Hd W4).
Qed.
Definition userk (h : str) : bool := startswith (lit "USER_DEFINED") h.
(* the lines with user defined parameters, and the comments taken with them, are all before or all after the line *)
Lemma user_range A l l' B tags i sg lo hi tags' : key_of l = k -> key_of l' = k -> userk k = false -> k <> kw_comment ->
  (forall h, In h (keys_of B) -> userk h = false) \/ (forall h, In h (keys_of A) -> userk h = false /\ h <> kw_comment) ->
  user_words tags -> get_min_max tags i (keys_of (A ++ l :: B)) (Some (lit "USER_DEFINED")) sg = Ok ((lo, hi), tags') ->
  slice lo hi (A ++ l :: B) = slice lo hi (A ++ l' :: B).
Proof.
  intros Kl Kl' Nu Nc D W H. set (p := List.length A). set (K := keys_of (A ++ l :: B)) in *.
  assert (Kp : nth_error K p = Some k).
  { unfold K, keys_of. rewrite map_app, nth_error_app2; rewrite map_length; [|unfold p; lia]. unfold p. rewrite Nat.sub_diag. cbn. rewrite Kl. reflexivity. }
  assert (Lo : forall j h, j < p -> nth_error K j = Some h -> In h (keys_of A)).
  { intros j h Hj Hn. unfold K, keys_of in Hn. rewrite map_app, nth_error_app1 in Hn by (rewrite map_length; exact Hj). exact (nth_error_In _ _ Hn). }
  assert (Hi : forall j h, p < j -> nth_error K j = Some h -> In h (keys_of B)).
  { intros j h Hj Hn. unfold K, keys_of in Hn. rewrite map_app, nth_error_app2 in Hn by (rewrite map_length; unfold p in Hj; lia). rewrite map_length in Hn.
    fold p in Hn. destruct (j - p) as [|m] eqn:E; [lia|]. cbn [map nth_error] in Hn. exact (nth_error_In _ _ Hn). }
  assert (Sl : hi <= p \/ p < lo \/ hi <= lo -> slice lo hi (A ++ l :: B) = slice lo hi (A ++ l' :: B)).
  { clear - u. intros C. unfold slice. destruct C as [C|[C|C]].
    - assert (X : forall x, firstn (hi - lo) (skipn lo (A ++ x :: B)) = firstn (hi - lo) (skipn lo A)).
      { intros x. rewrite skipn_app, firstn_app, skipn_length. fold p. replace (hi - lo - (p - lo)) with 0 by lia. rewrite firstn_O, app_nil_r. reflexivity. }
      rewrite !X. reflexivity.
    - assert (X : forall x, skipn lo (A ++ x :: B) = skipn (lo - S p) B).
      { intros x. rewrite skipn_app. fold p. rewrite skipn_all2 by (fold p; lia). replace (lo - p) with (S (lo - S p)) by lia. reflexivity. }
      rewrite !X. reflexivity.
    - replace (hi - lo) with 0 by lia. reflexivity. }
  apply Sl. unfold get_min_max in H. inv_ok H. inv_ok H. injection H as -> <-. set (T := extend_tags tags i K (Some (lit "USER_DEFINED"))) in *.
  assert (WT : 2 <= List.length T /\ forall t, In t T -> t = kw_comment \/ userk t = true).
  { destruct W as [W1 W2]. unfold T. cbn [extend_tags]. split; [rewrite app_length; lia|]. intros t Ht. apply in_app_or in Ht. destruct Ht as [Ht|Ht]; [exact (W2 t Ht)|].
    apply filter_In in Ht. right. apply Ht. }
  destruct WT as [W1 W2].
  assert (I0 : forall j, In j (index_list0 T i K) -> exists h, nth_error K j = Some h /\ userk h = true).
  { intros j Hj. unfold index_list0 in Hj. destruct (PropFrom.filter_map_in _ _ _ Hj) as [t [Ht Ej]]. apply filter_In in Ht. destruct Ht as [Ht Nt].
    apply index_start_nth in Ej. exists t. split; [exact Ej|]. destruct (W2 t Ht) as [->|X]; [discriminate|exact X]. }
  assert (Ia : forall j, In j a -> exists h, nth_error K j = Some h /\ (userk h = true \/ h = kw_comment) /\ (index_list0 T i K <> [] /\ j <= list_max (index_list0 T i K))).
  { intros j Hj. unfold process_comment_lines in E.
    assert (B0 : In j (index_list0 T i K) -> exists h, nth_error K j = Some h /\ (userk h = true \/ h = kw_comment) /\ (index_list0 T i K <> [] /\ j <= list_max (index_list0 T i K))).
    { intros X. destruct (I0 j X) as [h [H1 H2]]. exists h. split; [exact H1|]. split; [left; exact H2|]. split; [intros Y; rewrite Y in X; destruct X|].
      clear - u X. induction (index_list0 T i K) as [|x r IH]; [destruct X|]. cbn [list_max fold_right]. destruct X as [->|X]; [lia|]. specialize (IH X). unfold list_max in IH. lia. }
    destruct (mem_str kw_comment T); [|injection E as <-; exact (B0 Hj)]. replace (Nat.eqb (List.length T) 1) with false in E by (symmetry; apply Nat.eqb_neq; lia).
    destruct (index_list0 T i K) as [|x r] eqn:Ei; [injection E as <-; destruct Hj|]. injection E as <-. rewrite app_comm_cons in Hj. apply in_app_or in Hj. destruct Hj as [Hj|Hj]; [exact (B0 Hj)|].
    unfold comment_indexes in Hj. apply filter_In in Hj. destruct Hj as [Hs Hc]. apply in_seq in Hs. destruct (nth_error K j) as [h|]; [|discriminate].
    exists h. split; [reflexivity|]. split; [right; apply str_eqb_eq; exact Hc|]. split; [discriminate|]. change (list_max (x :: r)) with (Nat.max x (list_max r)) in *. lia. }
  assert (Np : forall j, In j a -> j <> p).
  { intros j Hj ->. destruct (Ia p Hj) as [h [H1 [[H2|H2] _]]]; rewrite Kp in H1; injection H1 as <-; congruence. }
  destruct (range_start _ _ 0 _ _ _ _ E0) as [[-> ->]|X]; [right; right; lia|].
  assert (Al : (forall j, In j a -> j < p) \/ (forall j, In j a -> p < j)).
  { destruct D as [D|D].
    - left. intros j Hj. destruct (Ia j Hj) as [h [_ [_ [N0 Mx]]]]. pose proof (list_max_in _ N0) as Im. destruct (I0 _ Im) as [g [G1 G2]].
      destruct (le_lt_dec (list_max (index_list0 T i K)) p) as [C|C]; [specialize (Np j Hj); lia|]. rewrite (D g (Hi _ _ C G1)) in G2. discriminate.
    - right. intros j Hj. destruct (Ia j Hj) as [h [H1 [H2 _]]]. destruct (le_lt_dec j p) as [C|C]; [|exact C]. specialize (Np j Hj).
      destruct (D h (Lo j h ltac:(lia) H1)) as [D1 D2]. destruct H2 as [H2|H2]; congruence. }
  destruct Al as [Al|Al].
  - left. assert (Wn : within 0 p a) by (apply Forall_forall; intros j Hj; specialize (Al j Hj); lia).
    destruct (range_bounds _ _ _ _ _ _ _ Wn X ltac:(lia)) as [_ [_ Y]]. exact Y.
  - destruct (range_start _ _ (S p) _ _ _ _ E0) as [[-> ->]|X2]; [right; right; lia|]. right. left.
    assert (Wn : within (S p) (S (list_max a)) a).
    { apply Forall_forall. intros j Hj. specialize (Al j Hj). split; [lia|]. clear - u Hj. induction a as [|x r IH]; [destruct Hj|]. cbn [list_max fold_right].
      destruct Hj as [->|Hj]; [lia|]. specialize (IH Hj). unfold list_max in IH. lia. }
    destruct (range_order _ _ _ _ _ _ _ Wn X2) as [Y _]. lia.
Qed.
Lemma read_alike c A l l' B : identify_data_type (A ++ l :: B) = Ok c -> identify_data_type (A ++ l' :: B) = Ok c -> c <> "Tdm" -> lrel k s s' l l' ->
  key_of l = k -> (forall h, In h (keys_of B) -> userk h = false) \/ (forall h, In h (keys_of A) -> userk h = false /\ h <> kw_comment) ->
  read_lines u (A ++ l :: B) = read_lines u (A ++ l' :: B).
Proof.
  intros Ea Eb Nc R Kl D. unfold read_lines. rewrite Ea, Eb. cbn [bind].
  assert (Hc : In c root_classes).
  { unfold identify_data_type in Ea. inv_ok Ea. inv_ok Ea. destruct (find_element a0) as [d|] eqn:F; [|discriminate]. cbn [guard_opt] in Ea. injection Ea as ->.
    exact (find_element_in _ _ F). }
  rewrite (init_object_map_ok c Hc). cbn [bind]. destruct (same_number_spec u k s s' Same) as [t [N1 [N2 [T [Wk C]]]]].
  unfold word_ok in Wk. apply andb_true_iff in Wk. destruct Wk as [Wu Wk]. apply negb_true_iff, mem_str_false in Wk.
  apply andb_true_iff in Wu. destruct Wu as [Wc Wu]. apply negb_true_iff in Wu. apply andb_true_iff in Wc. destruct Wc as [_ Wc]. apply negb_true_iff in Wc.
  assert (Hcm : k <> kw_comment) by (intros ->; discriminate).
  assert (Hx : xml_text s = xml_text s') by (rewrite !numeral_xml by assumption; reflexivity).
  assert (Hb : forall c f attrs, find_elem k (fields_of c) = Some f -> bind_child u c f attrs s = bind_child u c f attrs s').
  { intros c0 f attrs E. apply (child_converted u c0 f t); [|exact C]. exact (takes_field k t c0 f T E). }
  assert (Hat : k <> lit "ATTITUDE_TYPE" /\ k <> lit "QUATERNION_TYPE" /\ k <> lit "EULER_ROT_SEQ").
  { repeat split; intros ->; apply Wk; cbn [map In]; tauto. }
  assert (Hid : k <> lit "id") by (intros ->; apply Wk; cbn [map In]; tauto).
  assert (Hve : k <> lit "version") by (intros ->; apply Wk; cbn [map In]; tauto).
  assert (Kl' : key_of l' = k) by (rewrite <- (lrel_key k s s' l l' R); exact Kl).
  assert (Dk : forall m h, In h (keys_of (delete_keywords c m)) -> In h (keys_of m)).
  { intros m h Hh. unfold keys_of in *. apply in_map_iff in Hh. destruct Hh as [x [<- Hl]]. apply in_map. unfold delete_keywords in Hl. apply filter_In in Hl. apply Hl. }
  assert (Ed : forall x, key_of x = k -> delete_keywords c (A ++ x :: B) =
    delete_keywords c A ++ (if negb (mem_str k (deleted_keywords c)) then [x] else []) ++ delete_keywords c B).
  { intros x Kx. unfold delete_keywords. rewrite filter_app. cbn [filter]. rewrite Kx. destruct (negb _); reflexivity. }
  rewrite (Ed l Kl), (Ed l' Kl'). destruct (negb (mem_str k (deleted_keywords c))); [|reflexivity]. cbn [app].
  assert (D2 : (forall h, In h (keys_of (delete_keywords c B)) -> userk h = false) \/ (forall h, In h (keys_of (delete_keywords c A)) -> userk h = false /\ h <> kw_comment)).
  { destruct D as [D|D]; [left|right]; intros h Hh; apply D, Dk; exact Hh. }
  revert D2. generalize (delete_keywords c A) (delete_keywords c B). clear - u Same Hc Nc Hx Hb Hat Hid Hve Hcm Wu Kl Kl' R. intros A B D.
  set (x := A ++ l :: B). set (y := A ++ l' :: B).
  assert (L : alike k s s' x y) by (apply alike_app; [apply alike_refl|]; constructor; [exact R|apply alike_refl]).
  unfold identify_segments. rewrite <- (alike_keys k s s' x y L).
  assert (HU : forall tags i sg lo hi tags', user_words tags -> get_min_max tags i (keys_of x) (Some (lit "USER_DEFINED")) sg = Ok ((lo, hi), tags') -> slice lo hi x = slice lo hi y).
  { intros tags i sg lo hi tags' W H. exact (user_range A l l' B tags i sg lo hi tags' Kl Kl' Wu Hcm D W H). }
  destruct (identify_alike u k s s' Hcm Wu x y L HU (tree_of c) (roots_fit c Hc Nc) 0) as [I1 I2]. rewrite <- I1.
  destruct (identify u (tree_of c) (keys_of x) x 0) as [[[mx mm] e']|er]; [|reflexivity]. cbn [bind good_ident] in *. destruct I2 as [F [U G]].
  unfold build_object. apply (build_alike u k s s' Hx Hb Hid Hve Hat x y L).
  apply good_rel; [|exact L]. apply good_mm; assumption.
Qed.
End Spell.

Lemma number_entry k s un : numeral s -> word_ok k = true -> unit_text un -> entry_ok (k, s, un).
Proof.
  intros N W [Tu [L1 L2]]. unfold word_ok in W. apply andb_true_iff in W. destruct W as [W _]. apply andb_true_iff in W. destruct W as [W _].
  apply andb_true_iff in W. destruct W as [W W3]. apply andb_true_iff in W. destruct W as [W1 W2].
  right. split; [apply trimmedb_spec; exact W1|]. split; [apply no_charb_spec; exact W2|]. split; [apply startswith_false, negb_true_iff; exact W3|].
  split; [apply numeral_trimmed; exact N|]. destruct un as [|c un].
  - left. split; [reflexivity|]. intros [I _]. exact (numeral_no_bracket s N I).
  - right. split; [discriminate|]. split; [apply numeral_no_bracket; exact N|]. auto.
Qed.
(* Two documents that differ only in the spelling of one number are read alike, whether or not reading succeeds.  (Any number of
   numbers may be respelled, one after the other.)  Lines with user defined parameters stand all before or all after the number (and
   if after, no comment stands before it).  Tracking data messages are left out.  See the refutations below. *)
Theorem C54_spelling : forall u c id k s s' un blanks first pre raw raw' after,
  In c root_classes -> c <> "Tdm" -> class_fixed c "id" = Some id -> Forall blank blanks -> heads first (lit id) ->
  same_number k s s' -> unit_text un -> said (k, s, un) raw -> said (k, s', un) raw' ->
  (forall r h, In r after -> heads r h -> ~ begins (lit "USER_DEFINED") h) \/
  (forall r h, In r pre -> heads r h -> ~ begins (lit "USER_DEFINED") h /\ h <> kw_comment) ->
  Forall one_line (blanks ++ first :: pre ++ raw :: after) -> one_line raw' ->
  kvn_from_string u (text_of (blanks ++ first :: pre ++ raw :: after)) = kvn_from_string u (text_of (blanks ++ first :: pre ++ raw' :: after)).
Proof.
  intros u c id k s s' un blanks first pre raw raw' after Hc Nc Ei Bb Hf Sm Un S1 S2 Nu O O'.
  destruct (same_number_spec u k s s' Sm) as [t [N1 [N2 [_ [Wk _]]]]].
  pose proof (said_lex _ _ (number_entry k s un N1 Wk Un) S1) as L1. pose proof (said_lex _ _ (number_entry k s' un N2 Wk Un) S2) as L2.
  apply heads_lex in Hf. destruct Hf as [vs Lf].
  assert (O2 : Forall one_line (blanks ++ first :: pre ++ raw' :: after)).
  { rewrite Forall_forall in O |- *. intros r Hr. apply in_app_or in Hr. destruct Hr as [Hr|[<-|Hr]]; [apply O; apply in_or_app; auto|apply O; apply in_or_app; right; left; reflexivity|].
    apply in_app_or in Hr. destruct Hr as [Hr|[<-|Hr]]; [|exact O'|]; apply O; apply in_or_app; right; right; apply in_or_app; [left; exact Hr|right; right; exact Hr]. }
  unfold kvn_from_string, pre_process, text_of. rewrite !lex_lines_join by (try assumption; destruct blanks; discriminate).
  rewrite !gap_lex by exact Bb. cbn [filter_map]. rewrite Lf, !filter_map_app. cbn [filter_map]. rewrite L1, L2. cbn [split_first bind].
  assert (Fe : find_element (lit id) = Some c).
  { clear - Hc Ei. repeat (destruct Hc as [<-|Hc]; [vm_compute in Ei; injection Ei as <-; vm_compute; reflexivity|]). destruct Hc. }
  apply (read_alike u k s s' Sm c ([lit "id"; lit id] :: (lit "version" :: vs) :: filter_map lex_line pre) (line_of (k, s, un)) (line_of (k, s', un))).
  - change (guard_opt (find_element (lit id)) AttributeError = Ok c). rewrite Fe. reflexivity.
  - change (guard_opt (find_element (lit id)) AttributeError = Ok c). rewrite Fe. reflexivity.
  - exact Nc.
  - right. unfold line_of. destruct un; eexists; split; reflexivity.
  - unfold line_of. destruct un; reflexivity.
  - assert (Nk : forall rs h, In h (keys_of (filter_map lex_line rs)) -> exists r, In r rs /\ (h = [] \/ heads r h)).
    { intros rs h Hh. unfold keys_of in Hh. apply in_map_iff in Hh. destruct Hh as [l [<- Hl]]. destruct (PropFrom.filter_map_in _ _ _ Hl) as [r [H1 H2]].
      exists r. split; [exact H1|]. destruct l as [|h vs0]; [left; reflexivity|right]. exact (lex_heads r h vs0 H2). }
    destruct Nu as [Nu|Nu]; [left|right].
    + intros h Hh. destruct (Nk _ _ Hh) as [r [Hr [->|H]]]; [reflexivity|]. apply startswith_false. exact (Nu r h Hr H).
    + intros h Hh. cbn [keys_of map In key_of hd] in Hh. destruct Hh as [<-|[<-|Hh]]; [split; [reflexivity|discriminate]|split; [reflexivity|discriminate]|].
      destruct (Nk _ _ Hh) as [r [Hr [->|H]]]; [split; [reflexivity|discriminate]|]. destruct (Nu r h Hr H) as [X Y]. split; [apply startswith_false; exact X|exact Y].
Qed.
Print Assumptions C54_spelling.

(* ---- examples ---- *)
Lemma spells_check s d : strip s = s -> parse_dec_ascii s = Some d -> spells (no_underscores s) d.
Proof. intros E H. rewrite <- E. apply parse_dec_is. exact H. Qed.
Definition opm_pre : list str :=
  map lit ["CREATION_DATE = 2022-01-01"; "ORIGINATOR = X"; "OBJECT_NAME = A"; "OBJECT_ID = 1998-001A"; "CENTER_NAME = EARTH"; "REF_FRAME = ITRF2000";
           "TIME_SYSTEM = UTC"; "EPOCH = 2022-01-01"; "X = 1"; "Y = 2"; "Z = 3"; "X_DOT = 1"; "Y_DOT = 2"; "Z_DOT = 3"; "COMMENT spacecraft"].
Definition opm_after : list str := map lit ["DRAG_AREA = 10"; "DRAG_COEFF = 2.3"].
Lemma mass_150 : same_number (lit "MASS") (lit "150") (lit "+1.5_0E+2").
Proof.
  apply (same_decimal _ _ _ (DFin false 150 0)); [|apply spells_check; reflexivity|apply spells_check; reflexivity].
  apply (keyword_field "SpacecraftParametersType" (nth 1 (fields_of "SpacecraftParametersType") (mkField "" None false TStr KElem None))); [vm_compute; tauto|reflexivity|reflexivity].
Qed.
(* MASS = 150 and MASS=+1.5_0E+2, after a user defined parameter, and before one *)
Example C54_example : let first := lit "CCSDS_OPM_VERS = 2.0" in let raw := lit "MASS = 150 [kg]" in let raw' := lit "  MASS=+1.5_0E+2[kg]" in
  In "Opm" root_classes /\ "Opm" <> "Tdm" /\ class_fixed "Opm" "id" = Some "CCSDS_OPM_VERS" /\ heads first (lit "CCSDS_OPM_VERS") /\
  same_number (lit "MASS") (lit "150") (lit "+1.5_0E+2") /\ unit_text (lit "kg") /\
  said (lit "MASS", lit "150", lit "kg") raw /\ said (lit "MASS", lit "+1.5_0E+2", lit "kg") raw' /\
  (forall r h, In r opm_after -> heads r h -> ~ begins (lit "USER_DEFINED") h) /\
  Forall one_line (first :: (opm_pre ++ [lit "USER_DEFINED_A = 1"]) ++ raw :: opm_after) /\ one_line raw' /\
  (exists v, kvn_from_string demo_env (text_of (first :: (opm_pre ++ [lit "USER_DEFINED_A = 1"]) ++ raw :: opm_after)) = Ok v) /\
  (forall r h, In r (removelast opm_pre) -> heads r h -> ~ begins (lit "USER_DEFINED") h /\ h <> kw_comment) /\
  (exists v, kvn_from_string demo_env (text_of (first :: removelast opm_pre ++ raw :: opm_after ++ [lit "USER_DEFINED_A = 1"])) = Ok v).
Proof.
  assert (B0 : blank []) by (intros c []). assert (B1 : blank (lit " ")) by (intros c [<-|[]]; reflexivity).
  assert (B2 : blank (lit "  ")) by (intros c [<-|[<-|[]]]; reflexivity).
  assert (NU : forall rs, forallb (fun r => match head_of r with Some h => negb (startswith (lit "USER_DEFINED") h) && negb (str_eqb h kw_comment) | None => true end) rs = true ->
    forall r h, In r rs -> heads r h -> ~ begins (lit "USER_DEFINED") h /\ h <> kw_comment).
  { intros rs E r h Hr Hh. rewrite forallb_forall in E. specialize (E r Hr). apply head_of_heads in Hh. rewrite Hh in E. apply andb_true_iff in E. destruct E as [E1 E2].
    apply negb_true_iff in E1, E2. split; [apply startswith_false; exact E1|intros ->; discriminate]. }
  cbv zeta. split; [vm_compute; tauto|]. split; [discriminate|]. split; [reflexivity|]. split; [apply head_of_heads; vm_compute; reflexivity|].
  split; [exact mass_150|]. split; [split; [apply trimmedb_spec; reflexivity|split; apply no_charb_spec; reflexivity]|].
  split; [apply (said_unit (lit "MASS") (lit "150") (lit "kg") [] (lit " ") (lit " ") (lit " ") []); try assumption; discriminate|].
  split; [apply (said_unit (lit "MASS") (lit "+1.5_0E+2") (lit "kg") (lit "  ") [] [] [] []); try assumption; discriminate|].
  split; [intros r h Hr Hh; apply (NU opm_after ltac:(vm_compute; reflexivity) r h Hr Hh)|].
  split; [apply Forall_forall; intros s Hs; repeat (destruct Hs as [<-|Hs]; [apply no_charb_spec; reflexivity|]); destruct Hs|].
  split; [apply no_charb_spec; reflexivity|]. split; [eexists; vm_compute; reflexivity|].
  split; [intros r h Hr Hh; apply (NU (removelast opm_pre) ltac:(vm_compute; reflexivity) r h Hr Hh)|]. eexists; vm_compute; reflexivity.
Qed.
(* the user defined parameters of an OPM: name and text *)
Definition user_parameters (v : pyval) : list (pyval * pyval) :=
  match v with
  | VObj _ [_; (_, VObj _ [(_, VObj _ [_; (_, VObj _ vars)])])] =>
    match find (fun nv => String.eqb (fst nv) "user_defined_parameters") vars with
    | Some (_, VObj _ [_; (_, VList l)]) => map (fun x => match x with VObj _ [(_, t); (_, n)] => (n, t) | _ => (VNone, VNone) end) l
    | _ => []
    end
  | _ => []
  end.
(* Without the condition on user defined parameters the claim is false: a keyword said a second time between two of them is
   read as a user defined parameter, with its text. *)
Theorem C54_user_refuted : let first := lit "CCSDS_OPM_VERS = 2.0" in let pre := opm_pre ++ [lit "MASS = 150"; lit "USER_DEFINED_A = 1"] in let after := [lit "USER_DEFINED_B = 2"] in
  same_number (lit "MASS") (lit "150") (lit "+1.5_0E+2") /\ said (lit "MASS", lit "150", []) (lit "MASS = 150") /\
  said (lit "MASS", lit "+1.5_0E+2", []) (lit "MASS = +1.5_0E+2") /\
  (exists v, kvn_from_string demo_env (text_of (first :: pre ++ lit "MASS = 150" :: after)) = Ok v /\
    exists n, In (n, VStr (lit "150")) (user_parameters v) /\ List.length (user_parameters v) = 3) /\
  (exists v, kvn_from_string demo_env (text_of (first :: pre ++ lit "MASS = +1.5_0E+2" :: after)) = Ok v /\
    exists n, In (n, VStr (lit "+1.5_0E+2")) (user_parameters v) /\ ~ In (n, VStr (lit "150")) (user_parameters v)).
Proof.
  assert (B0 : blank []) by (intros c []). assert (B1 : blank (lit " ")) by (intros c [<-|[]]; reflexivity).
  cbv zeta. split; [exact mass_150|]. split; [apply (said_plain (lit "MASS") (lit "150") [] (lit " ") (lit " ") []); assumption|].
  split; [apply (said_plain (lit "MASS") (lit "+1.5_0E+2") [] (lit " ") (lit " ") []); assumption|].
  split; (eexists; split; [vm_compute; reflexivity|]); exists (VStr (lit "MASS")); split; [vm_compute; tauto|vm_compute; reflexivity|vm_compute; tauto|].
  vm_compute. intros [H|[H|[H|[]]]]; discriminate H.
Qed.
(* Nor does it hold for tracking data messages: a value of four figures stands where the date of an observation is looked for, and
   the test for a date looks at its fifth character. *)
Definition tdm_first : list str :=
  map lit ["CREATION_DATE = 2005-160"; "ORIGINATOR = X"; "META_START"; "TIME_SYSTEM = UTC"; "PARTICIPANT_1 = A"; "INTEGRATION_INTERVAL = 10.0"; "META_STOP";
           "DATA_START"; "RANGE = 2005-159 1.2"; "DATA_STOP"; "META_START"].
Definition tdm_second : list str := map lit ["TIME_SYSTEM = UTC"; "PARTICIPANT_1 = A"; "META_STOP"; "DATA_START"; "RANGE = 2005-159 1.2"; "DATA_STOP"].
Theorem C54_tdm_refuted : let first := lit "CCSDS_TDM_VERS = 1.0" in let k := lit "INTEGRATION_INTERVAL" in
  In "Tdm" root_classes /\ heads first (lit "CCSDS_TDM_VERS") /\ same_number k (lit "1234") (lit "+1234") /\
  said (k, lit "1234", []) (lit "INTEGRATION_INTERVAL = 1234") /\ said (k, lit "+1234", []) (lit "INTEGRATION_INTERVAL = +1234") /\
  (forall r h, In r (tdm_first ++ tdm_second) -> heads r h -> ~ begins (lit "USER_DEFINED") h) /\
  kvn_from_string demo_env (text_of (first :: tdm_first ++ lit "INTEGRATION_INTERVAL = 1234" :: tdm_second)) = Err IndexError /\
  exists v, kvn_from_string demo_env (text_of (first :: tdm_first ++ lit "INTEGRATION_INTERVAL = +1234" :: tdm_second)) = Ok v /\ observations v = [1; 1].
Proof.
  assert (B0 : blank []) by (intros c []). assert (B1 : blank (lit " ")) by (intros c [<-|[]]; reflexivity).
  cbv zeta. split; [vm_compute; tauto|]. split; [apply head_of_heads; vm_compute; reflexivity|]. split.
  { apply (same_decimal _ _ _ (DFin false 1234 0)); [|apply spells_check; reflexivity|apply spells_check; reflexivity].
    destruct (find (fun f => str_eqb (kvn_name f) (lit "INTEGRATION_INTERVAL")) (fields_of "TdmMetadata")) as [f|] eqn:E; [|vm_compute in E; discriminate].
    pose proof (find_some _ _ E) as [F1 F2]. vm_compute in E. injection E as <-.
    apply (keyword_field "TdmMetadata" _ F1); reflexivity. }
  split; [apply (said_plain (lit "INTEGRATION_INTERVAL") (lit "1234") [] (lit " ") (lit " ") []); assumption|].
  split; [apply (said_plain (lit "INTEGRATION_INTERVAL") (lit "+1234") [] (lit " ") (lit " ") []); assumption|]. split.
  { intros r h Hr Hh. apply head_of_heads in Hh. apply startswith_false. 
    repeat (destruct Hr as [<-|Hr]; [vm_compute in Hh; first [discriminate Hh|injection Hh as <-; reflexivity]|]). destruct Hr. }
  split; [vm_compute; reflexivity|]. eexists. split; vm_compute; reflexivity.
Qed.
