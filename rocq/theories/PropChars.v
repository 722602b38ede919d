(* Property C59: the characters of a written text. *)
From Coq Require Import NArith ZArith List Bool String Arith Lia.
From Verif Require Import PyStr PyDec PyVal Schema KvnPre KvnTree KvnSeg XmlBind KvnBuild NdmXml KvnWrite NdmIo
     Spec SpecIo SpecKvn SpecObj SpecMsg SpecDoc SpecChars SpecSave StrFacts DecFacts PreFacts WriteFacts IoFacts PropIo CheckFacts Demo
     PropRound PropSave OrderFacts PropFrom.
Import ListNotations.
Local Open Scope string_scope.
Local Open Scope list_scope.
Local Arguments find_class : simpl never.
Local Arguments lit : simpl never.

Lemma do_ok {A B} (m : res A) (f : A -> res B) b : bind m f = Ok b -> exists a, m = Ok a /\ f a = Ok b.
Proof. destruct m as [a|e]; [intros H; exists a; split; [reflexivity|exact H]|discriminate]. Qed.
Lemma Ok_inj {A} (a b : A) : Ok a = Ok b -> a = b.
Proof. intros H. injection H. auto. Qed.
Lemma firstn_all {A} (R : A -> Prop) n l : Forall R l -> Forall R (firstn n l).
Proof. intros H. revert n. induction H; intros [|n]; constructor; auto. Qed.
Lemma skipn_all {A} (R : A -> Prop) n l : Forall R l -> Forall R (skipn n l).
Proof. intros H. revert n. induction H; intros [|n]; cbn; auto. Qed.

Section Chars.
Variable u : env.
Variables P Q : N -> Prop.
Hypothesis P_print : forall c, printable c -> P c.
Hypothesis Q_P : forall c, P c -> Q c.
Hypothesis Q_up : forall c d, P c -> In d (upper u [c]) -> Q d.

Definition okv (v : pyval) : Prop := forall c, occurs c v -> P c.
Definition printb (c : N) : bool := N.leb 32 c && N.leb c 126.
Lemma printb_all s : forallb printb s = true -> Forall P s.
Proof.
  intros H. apply Forall_forall. intros c I. rewrite forallb_forall in H. specialize (H c I). apply P_print.
  unfold printb in H. apply andb_prop in H as [A B]. apply N.leb_le in A. apply N.leb_le in B. split; assumption.
Qed.
Lemma ok_text s : okv (VStr s) -> Forall P s.
Proof. intros H. apply Forall_forall. intros c I. apply H. constructor. exact I. Qed.
Lemma text_ok s : Forall P s -> okv (VStr s).
Proof. intros H c O. inversion O; subst. rewrite Forall_forall in H. apply H. assumption. Qed.
Lemma ok_name k vars n x : okv (VObj k vars) -> In (n, x) vars -> Forall P (lit n).
Proof. intros H I. apply Forall_forall. intros c C. apply H. exact (occurs_name c k vars n x I C). Qed.
Lemma ok_field k vars n x : okv (VObj k vars) -> In (n, x) vars -> okv x.
Proof. intros H I c C. apply H. exact (occurs_field c k vars n x I C). Qed.
Lemma ok_item l x : okv (VList l) -> In x l -> okv x.
Proof. intros H I c C. apply H. exact (occurs_item c l x I C). Qed.
Lemma none_ok : okv VNone.
Proof. intros c O. inversion O. Qed.
Lemma QP s : Forall P s -> Forall Q s.
Proof. apply Forall_impl. exact Q_P. Qed.
Lemma upper_ok s : Forall P s -> Forall Q (upper u s).
Proof.
  intros H. apply Forall_forall. intros d D. unfold upper in D. apply in_flat_map in D as [c [I D]].
  apply (Q_up c d); [rewrite Forall_forall in H; apply H, I|]. unfold upper. cbn [flat_map]. rewrite app_nil_r. exact D.
Qed.
Lemma ljust_ok (R : N -> Prop) n s : R c_sp -> Forall R s -> Forall R (ljust n s).
Proof. intros S H. unfold ljust. apply Forall_app. split; [exact H|]. apply Forall_forall. intros c I. apply repeat_spec in I as ->. exact S. Qed.
Lemma P_sp : P c_sp.
Proof. apply P_print. unfold printable, c_sp. lia. Qed.
Lemma join_ok (R : N -> Prop) sep l : Forall R sep -> Forall (Forall R) l -> Forall R (join sep l).
Proof.
  intros S. induction 1 as [|a l A _ IH]; [constructor|]. destruct l as [|b l]; [exact A|]. cbn [join] in *.
  apply Forall_app. split; [exact A|]. apply Forall_app. split; [exact S|exact IH].
Qed.
Lemma fill_ok key value un : Forall P key -> Forall P value -> Forall P un -> Forall Q (fill_kvn u key value un).
Proof.
  intros K V U. assert (E : Forall Q (ljust 20 (upper u key) ++ lit " = ")).
  { apply Forall_app. split; [apply ljust_ok; [apply Q_P, P_sp|apply upper_ok, K]|apply QP, printb_all; reflexivity]. }
  unfold fill_kvn. destruct un as [|c un].
  - rewrite app_assoc. apply Forall_app. split; [exact E|apply QP, V].
  - rewrite app_assoc. apply Forall_app. split; [exact E|]. apply Forall_app. split; [apply ljust_ok; [apply Q_P, P_sp|apply QP, V]|].
    apply Forall_app. split; [apply QP, printb_all; reflexivity|]. apply Forall_app. split; [apply QP, U|apply QP, printb_all; reflexivity].
Qed.
Lemma numtext_ok s : numtext s -> Forall P s.
Proof.
  intros H. apply printb_all. apply forallb_forall. intros c I. unfold numtext in H. rewrite Forall_forall in H. specialize (H c I). apply numc_cases in H.
  assert (A : forallb printb (lit "0123456789+-.EInfityNas") = true) by reflexivity. rewrite forallb_forall in A. exact (A c H).
Qed.
Lemma str_ok v s : okv v -> py_str v = Ok s -> Forall P s.
Proof.
  intros H E. destruct v as [|s'|z|d|e m s'|c vars|l]; cbn [py_str] in E; try discriminate; apply Ok_inj in E as <-.
  - apply printb_all. reflexivity.
  - apply ok_text, H.
  - apply numtext_ok, numtext_show_Z.
  - apply numtext_ok, numtext_show_dec.
  - apply Forall_app. split; [|apply Forall_app; split; [apply printb_all; reflexivity|]]; apply Forall_forall; intros c I; apply H; constructor; auto.
Qed.
Lemma fixed_ok c n f s : find_field n (fields_of c) = Some f -> f_fixed f = Some s -> Forall P (lit s).
Proof.
  intros F E. apply printb_all.
  assert (A : forallb (fun d => match snd d with
                       | CData _ fs => forallb (fun f => match f_fixed f with Some s => forallb printb (lit s) | None => true end) fs
                       | CEnum _ => true end) schema = true) by (vm_compute; reflexivity).
  unfold fields_of in F. destruct (find_class c) as [[m fs|]|] eqn:C; [|discriminate|discriminate].
  unfold find_class in C. apply OrderFacts.assoc_in in C. rewrite forallb_forall in A. specialize (A _ C). cbn [snd] in A.
  rewrite forallb_forall in A. unfold find_field in F. apply find_some in F as [F _]. specialize (A f F). rewrite E in A. exact A.
Qed.
Lemma attr_ok v n x : okv v -> py_getattr v n = Ok x -> okv x.
Proof.
  intros H E. destruct v as [|s'|z|d|e m s'|c vars|l]; cbn [py_getattr] in E; try discriminate.
  - destruct (String.eqb n "value"); [apply Ok_inj in E as <-; apply text_ok, Forall_forall; intros c I; apply H; constructor; auto|].
    destruct (String.eqb n "name"); [apply Ok_inj in E as <-; apply text_ok, Forall_forall; intros c I; apply H; constructor; auto|discriminate].
  - destruct (assoc n vars) as [y|] eqn:A; [apply Ok_inj in E as <-; exact (ok_field c vars n y H (OrderFacts.assoc_in _ _ _ A))|].
    destruct (find_field n (fields_of c)) as [f|] eqn:F; [|discriminate]. destruct (f_fixed f) as [s|] eqn:Fs.
    + apply Ok_inj in E as <-. apply text_ok. exact (fixed_ok c n f s F Fs).
    + destruct (f_list f); [discriminate|]. apply Ok_inj in E as <-. exact none_ok.
Qed.
Lemma value_ok v : okv v -> okv (value_or_self v).
Proof. intros H. unfold value_or_self. destruct (py_getattr v "value") eqn:E; [exact (attr_ok v _ _ H E)|exact H]. Qed.
Lemma dict_ok k n vars x : okv (VObj k vars) -> dict_get n vars = Ok x -> okv x.
Proof. intros H E. unfold dict_get in E. destruct (assoc n vars) as [y|] eqn:A; [|discriminate]. apply Ok_inj in E as <-. exact (ok_field k vars n y H (OrderFacts.assoc_in _ _ _ A)). Qed.
Lemma map_res_all {A B} (f : A -> res B) (R : B -> Prop) l bs : (forall a b, In a l -> f a = Ok b -> R b) -> map_res f l = Ok bs -> Forall R bs.
Proof.
  revert bs. induction l as [|a l IH]; intros bs H E; cbn [map_res] in E; [apply Ok_inj in E as <-; constructor|].
  apply do_ok in E as [b [E1 E]]. apply do_ok in E as [bs' [E2 E]]. apply Ok_inj in E as <-.
  constructor; [exact (H a b (or_introl eq_refl) E1)|]. apply IH; [|exact E2]. intros a' b' I. apply H. right. exact I.
Qed.
Lemma single_ok l s : Forall (Forall P) l -> fill_out_single_line l = Ok s -> Forall Q s.
Proof.
  intros H E. unfold fill_out_single_line in E. destruct l as [|x l]; [discriminate|]. destruct (str_eqb x [c_nl]); apply Ok_inj in E as <-; [constructor|].
  apply QP, join_ok; [repeat constructor; apply P_sp|exact H].
Qed.
Definition okl (out : list str) : Prop := Forall (Forall Q) out.
Lemma rows_ok fuel n vals rs : Forall (Forall P) vals -> cov_rows fuel n vals = Ok rs -> okl rs.
Proof.
  revert n vals rs. induction fuel as [|k IH]; intros n vals rs H E; cbn [cov_rows] in E; [discriminate|].
  destruct (Nat.ltb _ _); [apply Ok_inj in E as <-; constructor|]. apply do_ok in E as [r [E1 E]]. apply do_ok in E as [rs' [E2 E]]. apply Ok_inj in E as <-.
  constructor; [apply (single_ok _ _ (firstn_all _ n vals H) E1)|]. exact (IH _ _ _ (skipn_all _ n vals H) E2).
Qed.
Lemma state_ok k vars ls : okv (VObj k vars) -> state_vector_line vars = Ok ls -> okl ls.
Proof.
  intros H E. unfold state_vector_line in E. apply do_ok in E as [l [E1 E]]. apply do_ok in E as [s [E2 E]]. apply Ok_inj in E as <-.
  constructor; [|constructor]. refine (single_ok _ _ _ E2). refine (map_res_all _ _ _ _ _ E1). intros v t I T. cbv beta in T.
  apply filter_In in I as [I _]. apply in_map_iff in I as [[n x] [<- I]]. refine (str_ok _ _ (value_ok _ _) T). exact (ok_field _ _ _ _ H I).
Qed.
Lemma item_ok k vars n s : okv (VObj k vars) -> str_item vars n = Ok s -> Forall P s.
Proof. intros H E. unfold str_item in E. apply do_ok in E as [x [E1 E]]. exact (str_ok _ _ (dict_ok _ _ _ _ H E1) E). Qed.
Lemma attitude_ok k vars out ls : okv (VObj k vars) -> attitude_line vars out = Ok ls -> okl ls.
Proof.
  intros H E. unfold attitude_line in E. destruct (filter truthy (map snd vars)) as [|a r] eqn:Fl; [discriminate|].
  assert (Ha : okv a).
  { assert (I : In a (filter truthy (map snd vars))) by (rewrite Fl; left; reflexivity). apply filter_In in I as [I _].
    apply in_map_iff in I as [[n x] [<- I]]. exact (ok_field _ _ _ _ H I). }
  destruct a as [|s'|z|d|e m s'|c avars|l]; try discriminate. apply do_ok in E as [rots [E1 E]]. apply do_ok in E as [toks [E2 E]]. apply do_ok in E as [ep [E3 E]].
  assert (Hr : Forall (fun d => okv (VObj "" d)) rots).
  { refine (map_res_all _ _ _ _ _ E1). intros [n x] d I D. apply filter_In in I as [I _]. cbn [snd] in D. unfold py_vars in D. destruct x as [| | | | |c' vs|]; try discriminate. injection D as ->.
    intros ch O. apply (ok_field _ _ _ _ Ha I). inversion O; subst; [eapply occurs_name; eassumption|eapply occurs_field; eassumption]. }
  assert (Hg : forall i d, get rots i = Ok d -> okv (VObj "" d)).
  { intros i d G. unfold get in G. destruct (nth_error rots i) as [d'|] eqn:N; [|discriminate]. apply Ok_inj in G as <-. apply nth_error_In in N. rewrite Forall_forall in Hr. exact (Hr _ N). }
  assert (Ht : Forall (Forall P) toks).
  { destruct (startswith (lit "Quaternion") (lit c)).
    - apply do_ok in E2 as [ql [_ E2]]. apply do_ok in E2 as [r0 [G0 E2]]. apply do_ok in E2 as [base [B E2]].
      assert (Hb : Forall (Forall P) base) by (refine (map_res_all _ _ _ _ _ B); intros n s _; exact (item_ok _ _ _ _ (Hg _ _ G0))).
      destruct (String.eqb c "QuaternionEulerRateType"); [|destruct (String.eqb c "QuaternionDerivativeType"); [|apply Ok_inj in E2 as <-; exact Hb]].
      + apply do_ok in E2 as [r1 [G1 E2]]. apply do_ok in E2 as [rt [R E2]]. apply Ok_inj in E2 as <-. apply Forall_app. split; [exact Hb|].
        refine (map_res_all _ _ _ _ _ R). intros n s _ S. apply do_ok in S as [x [S1 S]]. apply do_ok in S as [y [S2 S]].
        exact (str_ok _ _ (attr_ok _ _ _ (dict_ok _ _ _ _ (Hg _ _ G1) S1) S2) S).
      + apply do_ok in E2 as [dt [R E2]]. apply Ok_inj in E2 as <-. apply Forall_app. split; [exact Hb|].
        refine (map_res_all _ _ _ _ _ R). intros n s _; exact (item_ok _ _ _ _ (Hg _ _ G0)).
    - refine (map_res_all _ _ _ _ _ E2). intros v s I S. apply in_flat_map in I as [d [D I]]. apply in_map_iff in I as [[n x] [<- I]].
      rewrite Forall_forall in Hr. exact (str_ok _ _ (value_ok _ (ok_field _ _ _ _ (Hr d D) I)) S). }
  destruct ep as [|e|z|d|e' m s'|c' vs|l]; try discriminate. apply do_ok in E as [s [E4 E]]. apply Ok_inj in E as <-.
  constructor; [|constructor]. refine (single_ok _ _ _ E4). constructor; [|exact Ht]. apply ok_text. exact (dict_ok _ _ _ _ Ha E3).
Qed.
Lemma tracking_ok k vars ls : okv (VObj k vars) -> tracking_line u vars = Ok ls -> okl ls.
Proof.
  intros H E. unfold tracking_line in E. apply do_ok in E as [[n d] [E1 E]]. apply do_ok in E as [ep [E2 E]]. apply do_ok in E as [e [E3 E]]. apply Ok_inj in E as <-.
  constructor; [|constructor]. cbn [fst snd].
  assert (Hn : Forall P (lit n)).
  { unfold get in E1. destruct (nth_error _ 0) as [kd|] eqn:N; [|discriminate]. injection E1 as ->. apply nth_error_In in N. apply PropFrom.filter_map_in in N as [[n' x] [I F]].
    cbn [fst snd] in F. destruct x as [| | |d'| | |]; try discriminate. destruct (String.eqb n' "epoch"); [discriminate|]. injection F as -> ->. exact (ok_name _ _ _ _ H I). }
  unfold fill_multi_kvn. apply Forall_app. split; [apply ljust_ok; [apply Q_P, P_sp|apply upper_ok, Hn]|]. apply Forall_app. split; [apply QP, printb_all; reflexivity|].
  apply Forall_app. split; [apply ljust_ok; [apply Q_P, P_sp|apply QP; exact (str_ok _ _ (dict_ok _ _ _ _ H E2) E3)]|].
  apply Forall_app. split; [apply QP, numtext_ok, numtext_show_dec|apply QP, printb_all; reflexivity].
Qed.
Lemma iter_ok v l : okv v -> py_iter v = Ok l -> Forall okv l.
Proof.
  intros H E. destruct v as [|s'|z|d|e m s'|c avars|l']; try discriminate; cbn [py_iter] in E; apply Ok_inj in E as <-; apply Forall_forall; intros x I.
  - apply in_map_iff in I as [c [<- I]]. apply text_ok. constructor; [|constructor]. apply H. constructor. exact I.
  - exact (ok_item _ _ H I).
Qed.
Lemma covariance_ok key c vars ls : Forall P (lit key) -> okv (VObj c vars) -> covariance_lines u key (VObj c vars) vars = Ok ls -> okl ls.
Proof.
  intros K H E. unfold covariance_lines in E. apply do_ok in E as [cm [E1 E]]. apply do_ok in E as [cs [E2 E]]. apply do_ok in E as [cl [E3 E]].
  apply do_ok in E as [ep [E4 E]]. apply do_ok in E as [e [E5 E]]. apply do_ok in E as [fr [E6 E]]. apply do_ok in E as [fl [E7 E]].
  apply do_ok in E as [vals [E8 E]]. apply do_ok in E as [rows [E9 E]]. apply Ok_inj in E as <-.
  apply Forall_app. split.
  { refine (map_res_all _ _ _ _ _ E3). intros x l I L. apply do_ok in L as [s [S L]]. apply Ok_inj in L as <-.
    pose proof (iter_ok _ _ (attr_ok _ _ _ H E1) E2) as F. rewrite Forall_forall in F. apply fill_ok; [exact K|exact (str_ok _ _ (F x I) S)|constructor]. }
  constructor; [apply fill_ok; [apply printb_all; reflexivity|exact (str_ok _ _ (attr_ok _ _ _ H E4) E5)|constructor]|].
  apply Forall_app. split.
  { destruct (truthy fr); [|apply Ok_inj in E7 as <-; constructor]. apply do_ok in E7 as [s [S E7]]. apply Ok_inj in E7 as <-. constructor; [|constructor].
    apply fill_ok; [apply printb_all; reflexivity|exact (str_ok _ _ (attr_ok _ _ _ H E6) S)|constructor]. }
  refine (rows_ok _ _ _ _ _ E9). refine (map_res_all _ _ _ _ _ E8). intros x s I S. apply PropFrom.filter_map_in in I as [[n y] [I F]]. cbn [snd] in F.
  destruct (py_getattr y "value") as [z|] eqn:G; [|discriminate]. injection F as ->. exact (str_ok _ _ (attr_ok _ _ _ (ok_field _ _ _ _ H I) G) S).
Qed.
Lemma special_ok key c vars out ls : Forall P (lit key) -> okv (VObj c vars) -> special_data_lines u key c vars out = Ok ls -> okl ls.
Proof.
  intros K H E. unfold special_data_lines in E. destruct (String.eqb c "StateVectorAccType"); [exact (state_ok _ _ _ H E)|].
  destruct (String.eqb c "AttitudeStateType"); [exact (attitude_ok _ _ _ _ H E)|]. destruct (String.eqb c "TrackingDataObservationType"); [exact (tracking_ok _ _ _ H E)|].
  exact (covariance_ok _ _ _ _ K H E).
Qed.
Lemma value_line_ok key c vars l : Forall P (lit key) -> okv (VObj c vars) -> value_obj_line u key c vars = Ok l -> Forall Q l.
Proof.
  intros K H E. unfold value_obj_line in E. apply do_ok in E as [ku [E1 E]]. apply do_ok in E as [un [E2 E]]. apply do_ok in E as [v [E3 E]]. apply do_ok in E as [s [E4 E]].
  assert (Hk : Forall P ku).
  { destruct (filter _ (map fst vars)) as [|k r]; [apply Ok_inj in E1 as <-; exact K|]. apply do_ok in E1 as [x [D E1]]. apply do_ok in E1 as [y [G E1]].
    destruct y; try discriminate. apply Ok_inj in E1 as <-. apply ok_text. exact (attr_ok _ _ _ (dict_ok _ _ _ _ H D) G). }
  assert (Hs : Forall P s) by exact (str_ok _ _ (attr_ok _ _ _ H E3) E4).
  destruct (truthy un); [|apply Ok_inj in E as <-; apply fill_ok; [exact Hk|exact Hs|constructor]].
  apply do_ok in E as [y [G E]]. apply do_ok in E as [us [U E]]. apply Ok_inj in E as <-. apply fill_ok; [exact Hk|exact Hs|].
  destruct (truthy y); [|constructor]. exact (str_ok _ _ (attr_ok _ _ _ (attr_ok _ _ _ H E2) G) U).
Qed.
Lemma user_line_ok key x l : Forall P (lit key) -> okv x -> user_defined_line u key x = Ok l -> Forall Q l.
Proof.
  intros K H E. unfold user_defined_line in E. apply do_ok in E as [p [E1 E]]. apply do_ok in E as [v [E2 E]]. destruct p; try discriminate. apply do_ok in E as [t [E3 E]]. apply Ok_inj in E as <-.
  apply fill_ok; [|destruct (truthy v); [exact (str_ok _ _ (attr_ok _ _ _ H E2) E3)|apply Ok_inj in E3 as <-; constructor]|constructor].
  apply Forall_app. split; [exact K|]. apply Forall_app. split; [apply printb_all; reflexivity|]. apply ok_text. exact (attr_ok _ _ _ H E1).
Qed.
Definition writes (f : string -> pyval -> list str -> res (list str)) (x : pyval) : Prop :=
  forall key out out', Forall P (lit key) -> okv x -> okl out -> f key x out = Ok out' -> okl out'.
Lemma vars_ok f k vars out out' : Forall (fun kv => writes f (snd kv)) vars -> okv (VObj k vars) -> okl out -> collate_vars f vars out = Ok out' -> okl out'.
Proof.
  intros F H. assert (Hn : forall n x, In (n, x) vars -> Forall P (lit n)) by (intros n x; apply ok_name with (1 := H)).
  assert (Hf : forall n x, In (n, x) vars -> okv x) by (intros n x; apply ok_field with (1 := H)). clear H.
  revert out. induction vars as [|[n x] vars IH]; intros out O E; cbn [collate_vars] in E; [apply Ok_inj in E as <-; exact O|].
  destruct (f n x out) as [o|] eqn:W; [|discriminate]. inversion F as [|? ? F1 F2]; subst. cbn [snd] in F1.
  refine (IH F2 _ _ o _ E); [intros; eapply Hn; right; eassumption|intros; eapply Hf; right; eassumption|].
  exact (F1 n out o (Hn n x (or_introl eq_refl)) (Hf n x (or_introl eq_refl)) O W).
Qed.
Lemma close_ok key vars out : okl out -> okl (close_section key vars out).
Proof. intros O. unfold close_section. destruct (_ && _); [|exact O]. apply Forall_app. split; [exact O|repeat constructor]. Qed.
Lemma header_ok c b : Forall Q (special_header c b).
Proof.
  unfold special_header. apply QP, printb_all. destruct (mem_string c ["AemMetadata"; "OemMetadata"; "TdmMetadata"]); [destruct b; reflexivity|].
  destruct (mem_string c ["AemData"; "TdmData"]); destruct b; reflexivity.
Qed.
Lemma okl_app a b : okl a -> okl b -> okl (a ++ b).
Proof. intros A B. apply Forall_app. split; assumption. Qed.
Lemma okl_one l : Forall Q l -> okl [l].
Proof. intros H. constructor; [exact H|constructor]. Qed.
Lemma hdr_ok c b : okl (hdr_lines c b).
Proof. unfold hdr_lines. destruct (mem_string c _); [|constructor]. constructor; [apply header_ok|repeat constructor]. Qed.
Lemma list_hdr_ok l b : okl (list_hdr l b).
Proof. destruct l as [|[] l]; try constructor. cbn [list_hdr]. destruct (mem_string cls _); [|constructor]. constructor; [constructor|]. constructor; [apply header_ok|repeat constructor]. Qed.
Lemma sub_ok v : writes (collate_sub u) v /\ match v with VObj c vars => Forall (fun kv => writes (collate_sub u) (snd kv)) vars | _ => True end.
Proof.
  induction v as [|s|z|d|c m s|c vars F|l F] using pyval_ind'.
  1-5: split; [|exact I]; intros key out o K H O W; cbn [collate_sub] in W;
    repeat match type of W with context [if ?b then _ else _] => destruct b end; cbn [bind] in W;
    try discriminate; apply Ok_inj in W as <-; rewrite ?app_nil_r; try exact O;
    (apply okl_app; [exact O|]; apply okl_one, fill_ok; [exact K| |constructor]);
    try (apply numtext_ok; first [apply numtext_show_Z|apply numtext_show_dec]); try (apply ok_text; exact H);
    apply Forall_forall; intros ch Ich; apply H; constructor; auto.
  - assert (V : Forall (fun kv => writes (collate_sub u) (snd kv)) vars) by (revert F; apply Forall_impl; intros kv [X _]; exact X).
    split; [|exact V]. intros key out o K H O W. cbn [collate_sub] in W.
    destruct (String.eqb key "comment"); [discriminate|]. fold (hdr_lines c true) in W. fold (hdr_lines c false) in W.
    assert (O' : okl (out ++ hdr_lines c true)) by (apply okl_app; [exact O|apply hdr_ok]).
    apply do_ok in W as [o1 [W E]]. apply Ok_inj in E as <-. apply okl_app; [|apply hdr_ok].
    destruct (mem_string "units" (map fst vars)).
    { apply do_ok in W as [l [L E]]. apply Ok_inj in E as <-. apply okl_app; [exact O'|]. apply okl_one. exact (value_line_ok _ _ _ _ K H L). }
    destruct (String.eqb key "user_defined"); [discriminate|].
    destruct (mem_string c special_output_data_classes).
    { apply do_ok in W as [l [L E]]. apply Ok_inj in E as <-. apply okl_app; [exact O'|]. exact (special_ok _ _ _ _ _ K H L). }
    apply do_ok in W as [o2 [W E]]. apply Ok_inj in E as <-. apply close_ok. exact (vars_ok _ _ _ _ _ V H O' W).
  - split; [|exact I]. intros key out o K H O W.
    assert (Hi : Forall okv l) by (apply Forall_forall; intros x; exact (ok_item l x H)).
    destruct (string_dec key "comment") as [->|K1].
    { cbn [collate_sub String.eqb Ascii.eqb Bool.eqb] in W. rewrite !app_nil_r in W. apply do_ok in W as [o1 [W E]]. apply Ok_inj in E as <-. rewrite app_nil_r.
      apply do_ok in W as [ls [W E]]. apply Ok_inj in E as <-. apply okl_app; [exact O|]. refine (map_res_all _ _ _ _ _ W). intros x y X Y. apply do_ok in Y as [s [S Y]]. apply Ok_inj in Y as <-.
      rewrite Forall_forall in Hi. apply fill_ok; [exact K|exact (str_ok _ _ (Hi x X) S)|constructor]. }
    destruct (string_dec key "user_defined") as [->|K2].
    { cbn [collate_sub String.eqb Ascii.eqb Bool.eqb] in W. rewrite !app_nil_r in W. apply do_ok in W as [o1 [W E]]. apply Ok_inj in E as <-. rewrite app_nil_r.
      apply do_ok in W as [ls [W E]]. apply Ok_inj in E as <-. apply okl_app; [exact O|]. refine (map_res_all _ _ _ _ _ W). intros x y X Y.
      rewrite Forall_forall in Hi. exact (user_line_ok _ _ _ K (Hi x X) Y). }
    rewrite sub_list in W by assumption. apply do_ok in W as [o1 [W E]]. apply Ok_inj in E as <-. apply okl_app; [|apply list_hdr_ok].
    assert (O' : okl (out ++ list_hdr l true)) by (apply okl_app; [exact O|apply list_hdr_ok]). revert O' W. generalize (out ++ list_hdr l true). clear H K1 K2 O out.
    induction F as [|x l [_ Hx] _ IH]; intros out O W; cbn [write_items] in W; [apply Ok_inj in W as <-; exact O|].
    apply do_ok in W as [o2 [W1 W]]. inversion Hi as [|? ? Hx' Hi']; subst. refine (IH Hi' o2 _ W). clear IH W Hi Hi'.
    destruct x; try discriminate. cbn [write_item] in W1. destruct (mem_string cls _).
    + apply do_ok in W1 as [ls [L E]]. apply Ok_inj in E as <-. apply okl_app; [exact O|exact (special_ok _ _ _ _ _ K Hx' L)].
    + apply do_ok in W1 as [o3 [L E]]. apply Ok_inj in E as <-. apply close_ok. exact (vars_ok _ _ _ _ _ Hx Hx' O L).
Qed.
End Chars.

Lemma upper_printable u c d : printable c -> In d (upper u [c]) -> printable d.
Proof.
  intros P D. unfold upper in D. cbn [flat_map] in D. rewrite app_nil_r in D. unfold printable in *.
  assert (A : is_ascii c = true) by (unfold is_ascii; apply N.ltb_lt; lia). rewrite A in D. destruct D as [<-|[]].
  unfold upper_ascii. unfold is_lower_ascii; destruct (in_range 97 122 c) eqn:R; [|exact P]. unfold in_range in R. apply andb_prop in R as [R1 R2]. apply N.leb_le in R1. apply N.leb_le in R2. lia.
Qed.

(* Besides line ends and printable ASCII a text holds only characters of the message's own strings and names, or their upper-case forms. *)
Theorem C59_characters : forall u v t c, kvn_to_string u v = Ok t -> In c t ->
  c = c_nl \/ printable c \/ occurs c v \/ exists d, occurs d v /\ In c (upper u [d]).
Proof.
  intros u v t ch W I. set (P := fun c => printable c \/ occurs c v). set (Q := fun c => P c \/ exists d, occurs d v /\ In c (upper u [d])).
  assert (P1 : forall c, printable c -> P c) by (intros c H; left; exact H). assert (Q1 : forall c, P c -> Q c) by (intros c H; left; exact H).
  assert (Q2 : forall c d, P c -> In d (upper u [c]) -> Q d).
  { intros c d [H|H] D; [left; left; exact (upper_printable u c d H D)|right; exists c; split; assumption]. }
  assert (H : okv P v) by (intros c H; right; exact H).
  destruct v as [|s'|z|d|e m s'|c vars|l]; try discriminate. unfold kvn_to_string in W. apply do_ok in W as [mn [_ W]]. apply do_ok in W as [multi [_ W]].
  destruct multi; [discriminate|]. apply do_ok in W as [id [E1 W]]. apply do_ok in W as [ver [E2 W]]. destruct id as [|ids| | | | |]; try discriminate.
  apply do_ok in W as [vs [E3 W]]. apply do_ok in W as [out [E4 W]]. apply Ok_inj in W as <-.
  assert (O : okl Q out).
  { destruct (sub_ok u P Q P1 Q1 Q2 (VObj c vars)) as [_ V]. refine (vars_ok P Q _ _ _ _ _ V H _ E4). apply okl_one. apply (fill_ok u P Q P1 Q1 Q2); [| |constructor].
    - apply ok_text. exact (attr_ok P P1 _ _ _ H E1).
    - exact (str_ok P P1 _ _ (attr_ok P P1 _ _ _ H E2) E3). }
  assert (J : Forall (fun c => c = c_nl \/ Q c) (join [c_nl] out)).
  { apply join_ok; [repeat constructor|]. revert O. apply Forall_impl. intros l. apply Forall_impl. intros c' H'. right. exact H'. }
  rewrite Forall_forall in J. destruct (J ch I) as [N|[[N|N]|N]]; auto.
Qed.
Print Assumptions C59_characters.

(* So a message without carriage returns has a text without: the condition of C55 in terms of the message.  (No upper-case form of another
   character contains one: true of Unicode.) *)
Theorem C59_no_returns : forall u v, (forall d, d <> c_return -> ~ In c_return (upper u [d])) -> ~ occurs c_return v -> no_returns u v.
Proof.
  intros u v U N t W I. destruct (C59_characters u v t _ W I) as [H|[H|[H|[d [H D]]]]].
  - discriminate.
  - unfold printable, c_return in H. lia.
  - exact (N H).
  - destruct (N.eq_dec d c_return) as [-> |Nd]; [exact (N H)|exact (U d Nd D)].
Qed.
Print Assumptions C59_no_returns.
(* a message with a value in Greek, which is not ASCII: its characters are written as they are *)
Definition greek_omm : pyval := upd ["header"; "originator"] (VStr [945%N; 946%N]) demo_omm.
Fixpoint occursb (c : N) (v : pyval) : bool :=
  match v with
  | VStr s => mem_char c s
  | VEnum e m s => mem_char c (lit e) || mem_char c (lit m) || mem_char c s
  | VObj _ vars => existsb (fun kv => mem_char c (lit (fst kv)) || occursb c (snd kv)) vars
  | VList l => existsb (occursb c) l
  | _ => false
  end.
Lemma occursb_complete c v : occurs c v -> occursb c v = true.
Proof.
  assert (M : forall s, In c s -> mem_char c s = true) by (intros s H; apply existsb_exists; exists c; split; [exact H|apply N.eqb_refl]).
  induction 1 as [s H|e m s H|k vars n x I H|k vars n x I _ IH|l x I _ IH]; cbn [occursb].
  - apply M, H.
  - destruct H as [H|[H|H]]; rewrite (M _ H); rewrite ?orb_true_r; reflexivity.
  - apply existsb_exists. exists (n, x). split; [exact I|]. cbn [fst snd]. rewrite (M _ H). reflexivity.
  - apply existsb_exists. exists (n, x). split; [exact I|]. cbn [fst snd]. rewrite IH. apply orb_true_r.
  - apply existsb_exists. exists x. split; [exact I|exact IH].
Qed.
Example C59_example : exists t, kvn_to_string demo_env greek_omm = Ok t /\ In 945%N t /\
  ~ occurs c_return greek_omm /\ (forall d, d <> c_return -> ~ In c_return (upper demo_env [d])).
Proof.
  eexists. split; [vm_compute; reflexivity|]. split.
  { match goal with |- In _ ?t => assert (H : existsb (N.eqb 945) t = true) by (vm_compute; reflexivity) end.
    apply existsb_exists in H as [c [I H]]. apply N.eqb_eq in H as <-. exact I. }
  split; [intros H; apply occursb_complete in H; vm_compute in H; discriminate|].
  intros d Nd I. unfold upper in I. cbn [flat_map] in I. rewrite app_nil_r in I. destruct (is_ascii d) eqn:A.
  - destruct I as [I|[]]. unfold upper_ascii, is_lower_ascii in I. destruct (in_range 97 122 d) eqn:R; [|exact (Nd I)].
    unfold in_range in R. apply andb_prop in R as [R1 R2]. apply N.leb_le in R1. apply N.leb_le in R2. unfold c_return in I. lia.
  - cbn in I. destruct I as [I|[]]. exact (Nd I).
Qed.

(* Line ends in values are not escaped: the text of a message with such a value can be the text of another message, which it is then
   read as. *)
Definition injecting : pyval := omm demo_header omm_meta (texts []) (omm_parts [] []) (user_block [(lit "AA", lit "1" ++ [c_nl] ++ lit "USER_DEFINED_BB      = 2")]).
Definition injected : pyval := omm demo_header omm_meta (texts []) (omm_parts [] []) (user_block [(lit "AA", lit "1"); (lit "BB", lit "2")]).
Theorem C59_injection_refuted : exists v w t, kvn_to_string demo_env v = Ok t /\ keeps demo_env w /\ kvn_to_string demo_env w = Ok t /\
  kvn_from_string demo_env t = Ok w /\ v <> w.
Proof.
  assert (K : keeps demo_env injected).
  { destruct C26_example as [A [B _]]. apply keeps_omm; [exact A|exact B|constructor|apply sectionsb_spec; by_compute|apply some_sectionb_spec; by_compute| |].
    - right. exists [(lit "AA", lit "1"); (lit "BB", lit "2")]. split; [apply good_paramsb_spec; by_compute|reflexivity].
    - right. split; [reflexivity|vm_compute; reflexivity]. }
  destruct (keeps_round demo_env injected K) as [t [W R]]. exists injecting, injected, t.
  assert (E : kvn_to_string demo_env injecting = kvn_to_string demo_env injected) by (vm_compute; reflexivity).
  split; [rewrite E; exact W|]. split; [exact K|]. split; [exact W|]. split; [exact R|].
  intros H. apply (f_equal (at_path ["body"; "segment"; "data"; "user_defined_parameters"])) in H. vm_compute in H. discriminate.
Qed.
Print Assumptions C59_injection_refuted.
