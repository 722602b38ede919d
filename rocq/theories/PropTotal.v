(* C63: documents without trouble are read. *)
From Coq Require Import NArith List Bool String Arith Lia.
From Verif Require Import PyStr PyDec PyVal Schema KvnPre KvnTree KvnSeg XmlBind KvnBuild Spec SpecKvn SpecFrom SpecOrder SpecInsert SpecDoc SpecErr StrFacts PreFacts SegFacts BuildFacts ReadFacts PropSeg PropFrom PropOrder ComposeFacts InsertFacts PropInsert CommentFacts PropComment PropField Demo ErrFacts RejectFacts PropErr TotalFacts.
Import ListNotations.
Local Open Scope string_scope.
Local Open Scope list_scope.

Definition front (c : string) : list str := flat_map keywords (front_classes c).
Lemma front_spec c k : In k (front c) <-> before_data c k.
Proof. unfold front, before_data. rewrite in_flat_map. reflexivity. Qed.

(* ---- the object maps ---- *)
Definition fitb (e : elem) : bool :=
  negb (existsb (String.eqb (e_cls e)) odd_classes) &&
  (if user e then same_strs (e_kws e) [kw_comment; ud] else nodup_strs (e_kws e)) &&
  (match e_subs e with [] => negb (same_strs (e_kws e) [kw_comment]) | _ => existsb (fun s => negb (e_islist s)) (e_subs e) && match e_single e with None => true | _ => false end end).
Definition freeb (e : elem) : bool := forallb (fun z => negb (same_strs (e_kws z) [kw_comment])) (all_elems e).
Definition ahead1b (fr : list str) (e : elem) : bool := negb (user e) && negb (same_strs (e_kws e) [kw_comment]) && forallb (fun t => str_eqb t kw_comment || mem_str t fr) (e_kws e).
Definition aheadb (fr : list str) (e : elem) : bool := forallb (fun z => ahead1b fr z && forallb (fun s => negb (e_islist s)) (e_subs z)) (all_elems e).
Fixpoint safeb (n : nat) (fr : list str) (e : elem) : bool :=
  forallb freeb (e_subs e) ||
  match n with
  | O => false
  | S n => ahead1b fr e && (fix go ss := match ss with [] => false | s :: r => (safeb n fr s && forallb freeb r) || (aheadb fr s && negb (e_islist s) && go r) end) (e_subs e)
  end.
Fixpoint pathb (n : nat) (fr : list str) (ss : list elem) : bool :=
  match ss with [] => false | s :: r => (safeb n fr s && forallb freeb r) || (aheadb fr s && negb (e_islist s) && pathb n fr r) end.
Lemma same_spec a b : same_strs a b = true <-> a = b.
Proof. unfold same_strs. destruct (list_eq_dec _ _ _); split; congruence. Qed.
Lemma fitb_spec e : fitb e = true -> fit1 e /\ calm1 e.
Proof.
  unfold fitb. intros H. apply andb_true_iff in H. destruct H as [H H3]. apply andb_true_iff in H. destruct H as [H1 H2].
  assert (N : ~ In (e_cls e) odd_classes) by (intros D; apply existsb_str in D; rewrite D in H1; discriminate).
  split; [split; [exact N|]; split; [|split; [|split]]|split; [exact N|]].
  - intros U. rewrite U in H2. apply same_spec. exact H2.
  - intros U. rewrite U in H2. apply nodup_strs_spec. exact H2.
  - intros K Es. rewrite Es in H3. apply same_spec in K. rewrite K in H3. discriminate.
  - intros Es. destruct (e_subs e) as [|s ss] eqn:X; [congruence|]. rewrite <- X in *. apply andb_true_iff in H3. destruct H3 as [H3 _]. apply existsb_exists in H3. destruct H3 as [x [I L]]. exists x. split; [exact I|]. apply negb_true_iff. exact L.
  - intros Es. destruct (e_subs e) as [|s ss] eqn:X; [reflexivity|]. apply andb_true_iff in H3. destruct H3 as [_ H3]. destruct (e_single e); [discriminate|congruence].
Qed.
Lemma freeb_spec e : freeb e = true -> free e.
Proof. intros H z Hz X. unfold freeb in H. rewrite forallb_forall in H. specialize (H z Hz). apply same_spec in X. rewrite X in H. discriminate. Qed.
Lemma all_freeb l : forallb freeb l = true -> Forall free l.
Proof. intros H. apply Forall_forall. intros x Hx. rewrite forallb_forall in H. apply freeb_spec, H, Hx. Qed.
Lemma ahead1b_spec fr e : ahead1b fr e = true -> ahead1 fr e.
Proof.
  unfold ahead1b. intros H. apply andb_true_iff in H. destruct H as [H H3]. apply andb_true_iff in H. destruct H as [H1 H2]. apply negb_true_iff in H1, H2. split; [exact H1|]. split; [intros X; apply same_spec in X; congruence|].
  intros t Ht Nt. rewrite forallb_forall in H3. specialize (H3 t Ht). apply orb_true_iff in H3. destruct H3 as [H3|H3]; [apply str_eqb_eq in H3; contradiction|apply mem_str_spec; exact H3].
Qed.
Lemma aheadb_spec fr e : aheadb fr e = true -> ahead fr e.
Proof.
  intros H z Hz. unfold aheadb in H. rewrite forallb_forall in H. specialize (H z Hz). apply andb_true_iff in H. destruct H as [H1 H2]. split; [apply ahead1b_spec; exact H1|].
  intros s Hs. rewrite forallb_forall in H2. specialize (H2 s Hs). apply negb_true_iff. exact H2.
Qed.
Lemma pathb_spec n fr : (forall e, safeb n fr e = true -> safe fr e) -> forall ss, pathb n fr ss = true ->
  exists pre s post, ss = pre ++ s :: post /\ Forall (fun x => ahead fr x /\ e_islist x = false) pre /\ safe fr s /\ Forall free post.
Proof.
  intros IH. induction ss as [|s ss IHs]; [discriminate|]. cbn [pathb]. intros H. apply orb_true_iff in H. destruct H as [H|H]; apply andb_true_iff in H; destruct H as [H1 H2].
  - exists [], s, ss. split; [reflexivity|]. split; [constructor|]. split; [apply IH; exact H1|apply all_freeb; exact H2].
  - apply andb_true_iff in H1. destruct H1 as [H1 H3]. apply negb_true_iff in H3. destruct (IHs H2) as [pre [x [post [-> [A B]]]]]. exists (s :: pre), x, post. split; [reflexivity|]. split; [|exact B]. constructor; [|exact A]. split; [apply aheadb_spec; exact H1|exact H3].
Qed.
Lemma safeb_spec n fr : forall e, safeb n fr e = true -> safe fr e.
Proof.
  induction n as [|n IH]; intros e H; cbn [safeb] in H; apply orb_true_iff in H; destruct H as [H|H]; try discriminate; try (apply safe_data, all_freeb, H).
  apply andb_true_iff in H. destruct H as [H1 H2]. assert (P : forall ss, (fix go ss := match ss with [] => false | s :: r => (safeb n fr s && forallb freeb r) || (aheadb fr s && negb (e_islist s) && go r) end) ss = pathb n fr ss).
  { induction ss as [|s ss IHs]; [reflexivity|]. cbn [pathb]. rewrite <- IHs. reflexivity. }
  rewrite P in H2. apply (pathb_spec n fr IH) in H2. destruct H2 as [pre [s [post [E [A [B C]]]]]]. eapply safe_node; [apply ahead1b_spec; exact H1|exact E|exact A|exact B|exact C].
Qed.
Lemma plain_fits c : In c plain_types -> fits (tree_of c) /\ calms (tree_of c).
Proof.
  intros H. assert (B : forallb fitb (all_elems (tree_of c)) = true) by (repeat (destruct H as [<-|H]; [vm_compute; reflexivity|]); destruct H).
  rewrite forallb_forall in B. split; intros z Hz; apply fitb_spec, B, Hz.
Qed.
Lemma plain_path c : In c plain_types -> exists pre s post, e_subs (tree_of c) = pre ++ s :: post /\ Forall (fun x => ahead (front c) x /\ e_islist x = false) pre /\ safe (front c) s /\ Forall free post.
Proof.
  intros H. apply (pathb_spec 3 (front c) (safeb_spec 3 (front c))). repeat (destruct H as [<-|H]; [vm_compute; reflexivity|]). destruct H.
Qed.
Lemma plain_top c : In c plain_types -> user (tree_of c) = false /\ e_kws (tree_of c) = [lit "id"; lit "version"] /\ e_single (tree_of c) = None.
Proof. intros H. repeat (destruct H as [<-|H]; [vm_compute; auto|]). destruct H. Qed.

(* ---- lines ---- *)
Lemma eq_strip s : In c_eq s -> In c_eq (strip s).
Proof.
  intros H. destruct (core_split s) as [a [b [E [Ba Bb]]]]. rewrite E in H. apply in_app_or in H. destruct H as [H|H]; [specialize (Ba _ H); discriminate|]. apply in_app_or in H. destruct H as [H|H]; [exact H|specialize (Bb _ H); discriminate].
Qed.
Lemma valued_lex raw l : valued raw -> lex_line raw = Some l -> 2 <= List.length l.
Proof.
  intros V. destruct V as [B|[I|[w [b [B ->]]]]].
  3: { replace (w ++ kw_comment ++ b) with (w ++ (kw_comment ++ b) ++ []) by (rewrite app_nil_r; reflexivity). rewrite lex_line_pad; [|exact B|intros c []]. rewrite lex_line_comment_gen. intros H. apply some_inj in H. rewrite <- H. cbn. lia. }
  all: unfold lex_line; destruct (strip (strip raw)) as [|x0 y0] eqn:Es; [discriminate|]; intros H; apply some_inj in H; rewrite <- H, map_length; clear H;
    (destruct (startswith kw_comment (strip raw)) eqn:S; [cbn; lia|]).
  - exfalso. apply strip_nil_blank in B. rewrite B in Es. discriminate.
  - apply eq_strip in I. unfold lex_data. destruct (split_once_cases c_eq (strip raw)) as [[N _]|[p [q [_ [_ ->]]]]]; [destruct (N I)|].
    destruct (endswith _ _); [destruct (find_char _ _)|]; cbn; lia.
Qed.
Lemma kept_length {A B} (f : A -> option B) l x : In x (filter_map f l) -> exists a, In a l /\ f a = Some x.
Proof. intros H. apply in_split in H. destruct H as [p [q E]]. destruct (filter_map_split _ _ _ _ _ E) as [p' [r [q' [-> [H _]]]]]. exists r. split; [apply in_or_app; right; left; reflexivity|exact H]. Qed.
Lemma once_user rest : said_once rest -> NoDup (filter (startswith ud) (keys_of (filter_map lex_line rest))).
Proof.
  induction rest as [|r rest IH]; intros S; [constructor|]. assert (S' : said_once rest) by (intros a x b y e k ->; apply (S (r :: a) x b y e k); reflexivity).
  cbn [filter_map]. destruct (lex_line r) as [l|] eqn:L; [|apply IH; exact S']. cbn [keys_of map filter]. destruct (startswith ud (key_of l)) eqn:Sk; [|apply IH; exact S']. constructor; [|apply IH; exact S'].
  intros X. apply filter_In in X. destruct X as [X _]. apply in_map_iff in X. destruct X as [l' [Ek X]]. apply in_split in X. destruct X as [p [q E]]. destruct (filter_map_split _ _ _ _ _ E) as [p' [r' [q' [-> [L' _]]]]].
  destruct l as [|k vs]; [destruct (lex_ne _ _ L eq_refl)|]. destruct l' as [|k' vs']; [destruct (lex_ne _ _ L' eq_refl)|]. cbn in Ek. subst k'. cbn [key_of hd] in Sk.
  rewrite (S [] r p' r' q' k eq_refl (lex_heads _ _ _ L) (lex_heads _ _ _ L')) in Sk. discriminate.
Qed.

Theorem C63_read : forall u src bs first rest k c pre last post h,
  split_on c_nl src = bs ++ first :: rest -> Forall blank bs -> line_key first k -> In (k, c) type_table -> In c plain_types ->
  Forall xml_allowed src -> Forall valued (first :: rest) -> said_once rest ->
  rest = pre ++ last :: post -> Forall blank post -> heads last h -> (h = kw_comment \/ ~ before_data c h) ->
  exists vars, kvn_from_string u src = Ok (VObj c vars).
Proof.
  intros u src bs first rest k c pre last post h E F Hk Hc Hp X V So Er Bp Hh Nh.
  destruct (C62_read_or_index u src bs first rest k c E F Hk Hc Hp X So) as [R|R]; [exact R|]. exfalso.
  destruct (opened u _ _ _ _ _ _ E F Hk Hc) as [vs [L O]]. cbv zeta in O. rewrite O in R. clear O. rewrite plain_keep in R by exact Hp.
  set (ls := [lit "id"; k] :: (lit "version" :: vs) :: filter_map lex_line rest) in R. revert R.
  assert (Wl : whole ls).
  { rewrite Forall_forall in V. intros l [<-|[<-|I]]; [cbn; lia|pose proof (valued_lex first (k :: vs) (V first (or_introl eq_refl)) L) as Y; exact Y|]. destruct (kept_length _ _ _ I) as [r [Ir Lr]]. apply (valued_lex r); [apply V; right; exact Ir|exact Lr]. }
  assert (Nu : NoDup (filter (startswith (lit "USER_DEFINED")) (keys_of ls))) by (apply once_user; exact So).
  assert (Eh : exists hv, filter_map lex_line rest = filter_map lex_line pre ++ [h :: hv]).
  { destruct (heads_lex last h Hh) as [hv Lh]. exists hv. rewrite Er, filter_map_app. cbn [filter_map]. rewrite Lh, (filter_map_blank post Bp). reflexivity. }
  assert (Hl : forall t, nth_error (keys_of ls) (List.length (keys_of ls) - 1) = Some t -> t <> kw_comment -> ~ In t (front c)).
  { destruct Eh as [hv Eh]. assert (Ek : keys_of ls = (lit "id" :: lit "version" :: keys_of (filter_map lex_line pre)) ++ [h]) by (unfold ls; rewrite Eh; cbn [keys_of map key_of hd app]; unfold keys_of; rewrite map_app; reflexivity).
    rewrite Ek, app_length. cbn [List.length]. rewrite nth_error_app2 by (cbn [List.length]; lia). match goal with |- context[nth_error [h] ?z] => replace z with 0 by (cbn [List.length]; lia) end. intros t Et Nt. injection Et as <-. intros Y. apply front_spec in Y. tauto. }
  assert (Ln : 2 < List.length (keys_of ls)) by (destruct Eh as [hv Eh]; unfold ls; rewrite Eh; unfold keys_of; rewrite map_length; cbn [List.length]; rewrite app_length; cbn [List.length]; lia).
  assert (G : only PN (bind (identify_segments u (tree_of c) ls) (fun e => build_object u e ls))).
  2: { intros R. exact (G _ R eq_refl). }
  destruct (plain_fits c Hp) as [Wf Wc]. destruct (plain_path c Hp) as [sp [s [sq [Es [A1 [A2 A3]]]]]]. destruct (plain_top c Hp) as [T1 [T2 T3]].
  apply only_bind.
  - unfold identify_segments. apply only_bind; [|intros [[mx mm] e1] _; apply only_ok]. rewrite identify_eq. apply only_bind; [apply own_fits; [unfold keys_of; rewrite map_length; reflexivity|exact Nu|exact (fits_here _ Wf)|rewrite T2; discriminate]|].
    intros [mm e1] Ho. destruct (e_subs (tree_of c)) as [|s0 ss] eqn:Ex; [apply only_ok|]. rewrite <- Ex in *. apply only_bind; [|intros [a b] _; apply only_ok]. rewrite Es.
    apply (safe_subs u (keys_of ls) ls) with (front := front c); try assumption.
    + unfold keys_of. rewrite map_length. reflexivity.
    + intros x Hx. apply (fits_sub (tree_of c) x Wf). rewrite Es. exact Hx.
    + intros i Hi. apply (safe_only u (keys_of ls) ls) with (front := front c); try assumption; [unfold keys_of; rewrite map_length; reflexivity|]. apply (fits_sub (tree_of c) s Wf). rewrite Es. apply in_or_app. right. left. reflexivity.
    + replace (snd mm) with 2; [exact Ln|]. rewrite own_range_plain, T1, T2, T3 in Ho by apply (fits_here _ Wf). inv_ok Ho. destruct a as [m T]. injection Ho as <- <-.
      assert (E1 : get_min_max [lit "id"; lit "version"] 0 (keys_of ls) None false = Ok ((0, 2), [lit "id"; lit "version"])) by (unfold ls; reflexivity). rewrite E1 in E0. injection E0 as <- _. reflexivity.
  - intros e1 H1. unfold build_object. apply build_whole; [|exact Wl]. unfold identify_segments in H1. inv_ok H1. destruct a as [[mx mm] e2]. injection H1 as <-. apply identify_calmer in E0. apply mm_calmer, E0, Wc.
Qed.
Print Assumptions C63_read.

(* a whole document, and one that says nothing but a word no class knows: both are read *)
Lemma allowed_check t : forallb xml_char t = true -> Forall xml_allowed t.
Proof.
  intros B. rewrite forallb_forall in B. apply Forall_forall. intros ch H. specialize (B ch H). unfold xml_char, in_range in B. rewrite !orb_true_iff, !andb_true_iff, !N.eqb_eq, !N.leb_le in B. unfold xml_allowed. tauto.
Qed.
Lemma valued_check rs : forallb (existsb (N.eqb c_eq)) rs = true -> Forall valued rs.
Proof.
  intros B. rewrite forallb_forall in B. apply Forall_forall. intros r H. specialize (B r H). apply existsb_exists in B. destruct B as [x [I E]]. apply N.eqb_eq in E. subst x. right. left. exact I.
Qed.
Example C63_example :
  (let rest := opm_short ++ opm_vector in let src := text_of (opm_first :: rest) in
   split_on c_nl src = [] ++ opm_first :: rest /\ In (lit "CCSDS_OPM_VERS", "Opm") type_table /\ line_key opm_first (lit "CCSDS_OPM_VERS") /\ Forall xml_allowed src /\ Forall valued (opm_first :: rest) /\ said_once rest /\
   exists pre last h, rest = pre ++ last :: [] /\ heads last h /\ ~ before_data "Opm" h) /\
  (let rest := [lit "COMMENT a"; lit ""; lit "FOO = 1"] in let src := text_of (opm_first :: rest) in
   Forall valued (opm_first :: rest) /\ said_once rest /\ heads (lit "FOO = 1") (lit "FOO") /\ ~ before_data "Opm" (lit "FOO") /\ exists v, kvn_from_string demo_env src = Ok v).
Proof.
  assert (Nf : forall h, negb (mem_str h (front "Opm")) = true -> ~ before_data "Opm" h).
  { intros h B X. apply front_spec, mem_str_spec in X. rewrite X in B. discriminate. }
  split; cbv zeta.
  - split; [vm_compute; reflexivity|]. split; [vm_compute; tauto|]. split; [apply (lk_eq _ (lit "CCSDS_OPM_VERS ") (lit " 2.0")); [reflexivity|apply no_charb_spec; reflexivity|exact (strip_core (lit "CCSDS_OPM_VERS "))]|]. split; [apply allowed_check; vm_compute; reflexivity|].
    split; [apply valued_check; vm_compute; reflexivity|]. split; [apply once_check; vm_compute; reflexivity|].
    exists (opm_short ++ removelast opm_vector), (List.last opm_vector []), (lit "Z_DOT"). split; [vm_compute; reflexivity|]. split; [apply head_of_heads; vm_compute; reflexivity|]. apply Nf. vm_compute. reflexivity.
  - split; [|split; [apply once_check; vm_compute; reflexivity|]].
    + constructor; [right; left; vm_compute; tauto|]. constructor; [right; right; exists [], (lit " a"); split; [intros c []|reflexivity]|]. constructor; [left; intros c []|]. constructor; [right; left; vm_compute; tauto|constructor].
    + split; [apply head_of_heads; vm_compute; reflexivity|]. split; [apply Nf; vm_compute; reflexivity|]. eexists. vm_compute. reflexivity.
Qed.
(* "A document in allowed characters that says no keyword twice is read" is false: a document must not end in its
   metadata (ndm_kvn_io.py 1260: the line behind the last one is asked for a comment), and a line of a section must have an equals sign. *)
Theorem C63_early_refuted : let src := text_of (opm_first :: opm_short) in
  Forall xml_allowed src /\ Forall valued (opm_first :: opm_short) /\ said_once opm_short /\ kvn_from_string demo_env src = Err IndexError.
Proof. cbv zeta. split; [apply allowed_check; vm_compute; reflexivity|]. split; [apply valued_check; vm_compute; reflexivity|]. split; [apply once_check; vm_compute; reflexivity|vm_compute; reflexivity]. Qed.
Theorem C63_no_sign_refuted : let rest := opm_short ++ opm_vector ++ [lit "MASS"; lit "DRAG_AREA = 3"] in let src := text_of (opm_first :: rest) in
  Forall xml_allowed src /\ said_once rest /\ kvn_from_string demo_env src = Err IndexError.
Proof. cbv zeta. split; [apply allowed_check; vm_compute; reflexivity|]. split; [apply once_check; vm_compute; reflexivity|vm_compute; reflexivity]. Qed.
