(* Which exceptions reading may raise. *)
From Coq Require Import NArith List Bool String Arith Lia.
From Verif Require Import PyStr PyDec PyVal Schema KvnPre KvnTree KvnSeg XmlBind KvnBuild StrFacts PreFacts SegFacts BuildFacts ReadFacts.
Import ListNotations.
Local Open Scope string_scope.
Local Open Scope list_scope.

Definition only (P : exn -> Prop) {A} (r : res A) : Prop := forall e, r = Err e -> P e.
Lemma only_ok P {A} (a : A) : only P (Ok a).
Proof. discriminate. Qed.
Lemma only_err (P : exn -> Prop) {A} e : P e -> only P (@Err A e).
Proof. intros H x E. injection E as <-. exact H. Qed.
Lemma only_bind P {A B} (r : res A) (f : A -> res B) : only P r -> (forall a, r = Ok a -> only P (f a)) -> only P (bind r f).
Proof. intros H1 H2. destruct r as [a|e]; cbn [bind]; [apply H2; reflexivity|]. intros x E. injection E as <-. apply H1. reflexivity. Qed.
Lemma only_guard (P : exn -> Prop) {A} (o : option A) e : P e -> only P (guard_opt o e).
Proof. intros H. destruct o; [apply only_ok|apply only_err; exact H]. Qed.
Lemma only_get (P : exn -> Prop) {A} (l : list A) i : P IndexError -> only P (get l i).
Proof. apply only_guard. Qed.
Lemma only_map P {A B} (f : A -> res B) l : (forall a, In a l -> only P (f a)) -> only P (map_res f l).
Proof.
  induction l as [|a l IH]; intros H; [apply only_ok|]. cbn [map_res]. apply only_bind; [apply H; left; reflexivity|]. intros b _.
  apply only_bind; [apply IH; intros x Hx; apply H; right; exact Hx|]. intros bs _. apply only_ok.
Qed.
Lemma only_more (P Q : exn -> Prop) {A} (r : res A) : (forall e, P e -> Q e) -> only P r -> only Q r.
Proof. intros H1 H2 e E. apply H1, H2, E. Qed.
Ltac only_step := first [apply only_ok | apply only_get | apply only_guard | (apply only_bind; [|intros]) | (apply only_err)].

Section Err.
Variable u : env.
Variable P : exn -> Prop.
Hypothesis PI : P IndexError.
Hypothesis PF : P OutOfFuel.

(* ---- identification ---- *)
Lemma chop_only hi l : forall i, only P (chop i hi l).
Proof.
  induction l as [|n l IH]; intros i; cbn [chop]; [apply only_ok|]. destruct (Nat.ltb hi i); [apply only_err; exact PI|].
  apply only_bind; [apply IH|]. intros; apply only_ok.
Qed.
Lemma gmm_only tags i ks pre sg : only P (get_min_max tags i ks pre sg).
Proof.
  unfold get_min_max. cbv zeta. apply only_bind.
  - unfold process_comment_lines. destruct (mem_str _ _); [|apply only_ok]. destruct (Nat.eqb _ _); [apply only_bind; [apply only_get; exact PI|]; intros; apply only_ok|]. destruct (index_list0 _ _ _); apply only_ok.
  - intros il _. apply only_bind; [|intros; apply only_ok]. unfold range_of_indices. apply only_bind; [|intros [|a l] _; apply only_ok].
    destruct il as [|a l]; [apply only_ok|]. cbv zeta. destruct (filter _ _) as [|x xs]; [apply only_ok|]. apply only_bind; [apply only_map; intros; apply only_get; exact PI|]. intros dk _.
    destruct (_ || _); [apply chop_only|apply only_ok].
Qed.
Lemma date_only ls i col : only P (date_range u ls i col).
Proof.
  unfold date_range. do 3 (apply only_bind; [apply only_get; exact PI|intros ? _]). apply only_bind; [|intros; apply only_ok].
  unfold is_datestr. destruct (isnumeric _ _); [|apply only_ok]. apply only_bind; [apply only_get; exact PI|intros; apply only_ok].
Qed.
Lemma own_only e ks ls i : only P (own_range u e ks ls i).
Proof.
  unfold own_range. cbv zeta. destruct (_ || _); [apply only_bind; [apply date_only|intros; apply only_ok]|].
  destruct (String.eqb _ _); [apply only_bind; [apply date_only|intros; apply only_ok]|].
  destruct (String.eqb _ _); (apply only_bind; [apply gmm_only|intros [[lo hi] t] _; apply only_ok]).
Qed.
Lemma list_only one n f : (forall i, only P (one i)) -> forall i l, only P (identify_list one n f i l).
Proof.
  intros H. induction f as [|f IH]; intros i l; [apply only_err; exact PF|]. rewrite identify_list_S. apply only_bind; [apply H|]. intros [[mx [lo hi]] e] _.
  destruct (_ && _); [apply only_ok|]. destruct (Nat.ltb _ _); [apply only_ok|]. cbv zeta. destruct (Nat.leb _ _); [apply only_ok|]. apply only_bind; [apply IH|]. intros [mx' es] _. apply only_ok.
Qed.
Lemma subs_only ks ls lo ss : Forall (fun s => forall i, only P (identify u s ks ls i)) ss -> forall i, only P (ident_subs u ks ls lo ss i).
Proof.
  intros F. induction F as [|s ss Hs F IH]; intros i; cbn [ident_subs]; [apply only_ok|]. destruct (e_islist s).
  - apply only_bind; [apply list_only; exact Hs|]. intros [i' es] _. apply only_bind; [apply IH|]. intros [i'' gs] _. apply only_ok.
  - apply only_bind; [apply Hs|]. intros [[i' smm] s'] _. apply only_bind.
    + destruct (_ && _); [|apply only_ok]. apply only_bind; [apply own_only|]. intros; apply only_ok.
    + intros s2 _. apply only_bind; [apply IH|]. intros [i'' gs] _. apply only_ok.
Qed.
Lemma identify_only e ks ls : forall i, only P (identify u e ks ls i).
Proof.
  induction e as [n c subs k l s m t F] using elem_ind'. intros i. rewrite identify_eq. apply only_bind; [apply own_only|]. intros [mm e1] _. cbn [e_subs].
  destruct subs as [|s0 subs]; [apply only_ok|]. apply only_bind; [apply subs_only; exact F|]. intros [mx gs] _. apply only_ok.
Qed.
Lemma segments_only t ls : only P (identify_segments u t ls).
Proof. unfold identify_segments. apply only_bind; [apply identify_only|]. intros [[mx mm] e] _. apply only_ok. Qed.

(* ---- the object map: parts are attributes of their class ---- *)
Variable aem : Prop.
Definition attrs (c : string) : list string := map fst (vars_of (new_obj c)).
Definition suits (e : elem) : Prop :=
  (forall s, In s (e_subs e) -> In (e_name s) (attrs (e_cls e))) /\ (e_cls e = "AemSegment" \/ e_cls e = "AttitudeStateType" -> aem).
Definition suited (e : elem) : Prop := forall x, In x (all_elems e) -> suits x.
Lemma suited_intro e : suits e -> (forall s, In s (e_subs e) -> suited s) -> suited e.
Proof.
  intros C S x Hx. rewrite all_elems_eq in Hx. destruct Hx as [<-|Hx]; [exact C|]. apply in_flat_map in Hx. destruct Hx as [s [Hs Hx]]. exact (S s Hs x Hx).
Qed.
Lemma suited_here e : suited e -> suits e.
Proof. intros W. apply W. rewrite all_elems_eq. left. reflexivity. Qed.
Lemma suited_sub e s : suited e -> In s (e_subs e) -> suited s.
Proof. intros W H x Hx. apply W. rewrite all_elems_eq. right. apply in_flat_map. exists s. split; assumption. Qed.
Definition kin (e e' : elem) : Prop := e_name e' = e_name e /\ (suited e -> suited e').
Lemma kin_same e e' : e_name e' = e_name e -> e_cls e' = e_cls e -> (forall g, In g (e_subs e') -> exists s, In s (e_subs e) /\ kin s g) -> kin e e'.
Proof.
  intros En Ec H. split; [exact En|]. intros W. pose proof (suited_here e W) as [W1 W2]. apply suited_intro.
  - split; [|rewrite Ec; exact W2]. intros g Hg. destruct (H g Hg) as [s [Hs [Kn _]]]. rewrite Ec, Kn. apply W1. exact Hs.
  - intros g Hg. destruct (H g Hg) as [s [Hs [_ Kw]]]. apply Kw. exact (suited_sub e s W Hs).
Qed.
Lemma kin_refl e : kin e e. Proof. split; auto. Qed.
Lemma kin_trans a b c : kin a b -> kin b c -> kin a c.
Proof. intros [A1 A2] [B1 B2]. split; [congruence|auto]. Qed.
Lemma own_kin e keys lines i mm e' : own_range u e keys lines i = Ok (mm, e') -> kin e e'.
Proof. intros H. apply own_range_same in H. destruct H as [H1 [H2 [H3 _]]]. apply kin_same; try assumption. intros g Hg. rewrite H3 in Hg. exists g. split; [exact Hg|apply kin_refl]. Qed.
Lemma mm_kin e m : kin e (set_mm e m).
Proof. apply kin_same; try reflexivity. intros g Hg. exists g. split; [exact Hg|apply kin_refl]. Qed.
Lemma identify_kin keys lines : forall e i a b e', identify u e keys lines i = Ok (a, b, e') -> kin e e'.
Proof.
  intros e. induction e as [n c subs k l s m t F] using elem_ind'. intros i a b e'. rewrite identify_eq. intros H. inv_ok H. destruct a0 as [mm e1].
  pose proof (own_kin _ _ _ _ _ _ E) as K. apply own_range_same in E. destruct E as [H1 [H2 [H3 _]]]. cbn [e_subs e_name e_cls] in *.
  destruct subs as [|s0 subs]; [injection H as <- <- <-; exact K|]. inv_ok H. destruct a0 as [mx gs]. injection H as <- <- <-. apply kin_same; try assumption.
  eapply ident_subs_prop with (P := kin) in E.
  - rewrite Forall_forall in E. intros g Hg. cbn [e_subs set_subs] in Hg |- *. exact (E g Hg).
  - exact F.
  - intros s1 e2 m1 K1. eapply kin_trans; [exact K1|apply mm_kin].
  - intros s1 e2 i1 mm1 e3 K1 O. eapply kin_trans; [exact K1|eapply own_kin; exact O].
Qed.
Lemma prepare_kin e e' d : prepare_aem_segment e d = Ok e' -> kin e e' /\ e_cls e' = e_cls e.
Proof.
  unfold prepare_aem_segment. intros H. inv_ok H. inv_ok H. destruct a0 as [att tmpl]. injection H as <-. apply get_ok in E. split; [|reflexivity].
  assert (Ha : In a (e_subs e)) by (eapply nth_error_In; exact E).
  apply kin_same; try reflexivity. intros g Hg. cbn [set_subs e_subs] in Hg. apply in_app_or in Hg. destruct Hg as [Hg|[<-|Hg]].
  - exists g. split; [|apply kin_refl]. rewrite <- (firstn_skipn 1 (e_subs e)). apply in_or_app. left. exact Hg.
  - exists a. split; [exact Ha|]. apply kin_same; try reflexivity. intros y Hy. cbn [set_subs e_subs] in Hy. apply in_map_iff in Hy. destruct Hy as [z [<- Hz]].
    exists z. split; [exact Hz|]. apply kin_same; try reflexivity. intros w Hw. cbn [set_tmpl set_subs e_subs] in Hw. apply filter_In in Hw.
    exists w. split; [apply Hw|apply kin_refl].
  - exists g. split; [|apply kin_refl]. rewrite <- (firstn_skipn 2 (e_subs e)). apply in_or_app. right. exact Hg.
Qed.

(* ---- building ---- *)
Hypothesis PX : P XmlReject.
Hypothesis PA : aem -> P ValueError /\ P KeyError.
Lemma children_only cls fs cs : forall seen vars, only P (bind_children u cls fs seen cs vars).
Proof.
  induction cs as [|[[tag at_] tx] cs IH]; intros seen vars; [apply only_ok|]. cbn [bind_children]. destruct (child_ok _); [|apply only_err; exact PX].
  destruct (find_elem tag fs) as [f|]; [|apply only_err; exact PX]. cbv zeta. destruct (f_list f); [apply IH|]. destruct (existsb _ _); [apply only_err; exact PX|apply IH].
Qed.
Lemma parse_list_only cls p items : only P (parse_list u cls p items).
Proof.
  unfold parse_list. apply only_bind; [|intros a _; apply only_bind; [apply children_only|intros; apply only_ok]].
  apply only_map. intros a _. destruct p; unfold child_of_user_line, child_of_line; (apply only_bind; [apply only_get; exact PI|]; intros; apply only_bind; [apply only_get; exact PI|intros; apply only_ok]).
Qed.
Lemma parse_single_only cls p items : only P (parse_single u cls p items).
Proof.
  unfold parse_single. do 3 (apply only_bind; [apply only_get; exact PI|]; intros). cbv zeta. destruct (child_ok _); [apply only_ok|apply only_err; exact PX].
Qed.
Lemma parse_root_only cls items : only P (parse_root cls items).
Proof.
  unfold parse_root. apply only_bind; [apply only_map; intros; apply only_get; exact PI|]. intros. destruct (forallb _ _); [apply only_ok|apply only_err; exact PX].
Qed.
Lemma lookup_only k ls i : aem -> only P (lookup_line k ls i).
Proof. intros A. unfold lookup_line. apply only_bind; [apply only_guard, PA; exact A|]. intros. apply only_bind; [apply only_get; exact PI|]. intros. apply only_get; exact PI. Qed.
Lemma euler_only s c : aem -> only P (euler_id s c).
Proof. intros A. unfold euler_id. destruct c as [|p]; [apply only_err, PA; exact A|]. do 6 (destruct p as [p|p|]; try apply only_ok; try (apply only_err, PA; exact A)). Qed.
Lemma template_only ls i : aem -> only P (att_template ls i).
Proof.
  intros A. unfold att_template. apply only_bind; [apply lookup_only; exact A|]. intros att _. apply only_bind.
  - destruct (startswith _ _); [|apply only_ok]. apply only_bind; [apply lookup_only; exact A|intros; apply only_ok].
  - intros t1 _. apply only_bind; [|intros; apply only_ok]. destruct (_ || _); [|apply only_ok]. apply only_bind; [apply lookup_only; exact A|]. intros sq _.
    apply only_bind; [destruct (startswith _ _); [apply only_map; intros; apply euler_only; exact A|apply only_ok]|]. intros. apply only_bind; [destruct (endswith _ _); [apply only_map; intros; apply euler_only; exact A|apply only_ok]|intros; apply only_ok].
Qed.
Lemma prepare_only e ls : aem -> only P (prepare_aem_segment e ls).
Proof. intros A. unfold prepare_aem_segment. apply only_bind; [apply only_get; exact PI|]. intros. apply only_bind; [apply template_only; exact A|]. intros [att tm] _. apply only_ok. Qed.

Lemma set_names n v vars : map fst (set_var n v vars) = map fst vars.
Proof. induction vars as [|[k w] r IH]; [reflexivity|]. cbn. destruct (String.eqb k n); cbn; [reflexivity|f_equal; exact IH]. Qed.
Lemma append_names n v vars : map fst (append_var n v vars) = map fst vars.
Proof. induction vars as [|[k w] r IH]; [reflexivity|]. cbn. destruct (String.eqb k n); cbn; [reflexivity|f_equal; exact IH]. Qed.
Lemma children_names cls fs cs : forall seen vars vars', bind_children u cls fs seen cs vars = Ok vars' -> map fst vars' = map fst vars.
Proof.
  induction cs as [|[[tag at_] tx] cs IH]; intros seen vars vars'; [intros H; injection H as <-; reflexivity|]. cbn [bind_children]. destruct (child_ok _); [|discriminate].
  destruct (find_elem tag fs) as [f|]; [|discriminate]. cbv zeta. destruct (f_list f); [intros H; apply IH in H; rewrite append_names in H; exact H|]. destruct (existsb _ _); [discriminate|intros H; apply IH in H; rewrite set_names in H; exact H].
Qed.
Definition made (c : string) (obj : pyval) : Prop := exists vars, obj = VObj c vars /\ map fst vars = attrs c.
Lemma parse_list_made c p items obj : parse_list u c p items = Ok obj -> made c obj.
Proof. unfold parse_list. intros H. inv_ok H. inv_ok H. injection H as <-. eexists. split; [reflexivity|]. apply children_names in E0. exact E0. Qed.
Lemma parse_single_made c p items obj : parse_single u c p items = Ok obj -> made c obj.
Proof.
  unfold parse_single. intros H. inv_ok H. inv_ok H. inv_ok H. cbv zeta in H. destruct (child_ok _); [|discriminate]. injection H as <-. unfold bind_value_obj. eexists. split; [reflexivity|].
  unfold attrs. cbn [new_obj vars_of]. rewrite !map_map. reflexivity.
Qed.
Lemma parse_root_made c items obj : parse_root c items = Ok obj -> made c obj.
Proof. unfold parse_root. intros H. inv_ok H. destruct (forallb _ _); [|discriminate]. injection H as <-. eexists. split; reflexivity. Qed.
Lemma attach_names n sub vars vars' : attach n sub vars = Ok vars' -> map fst vars' = map fst vars.
Proof.
  unfold attach. destruct (assoc n vars) as [[]|]; try discriminate; try (intros H; injection H as <-; apply set_names).
  destruct sub; intros H; injection H as <-; try reflexivity; apply append_names.
Qed.
Lemma assoc_none {A} n (vars : list (string * A)) : assoc n vars = None -> ~ In n (map fst vars).
Proof.
  induction vars as [|[k w] r IH]; [intros _ []|]. cbn. destruct (String.eqb k n) eqn:E; [discriminate|]. intros H [<-|I]; [rewrite String.eqb_refl in E; discriminate|exact (IH H I)].
Qed.
Lemma attach_only n sub vars : In n (map fst vars) -> only P (attach n sub vars).
Proof.
  intros I. unfold attach. destruct (assoc n vars) as [v|] eqn:E; [|destruct (assoc_none _ _ E I)]. destruct v; try apply only_ok. destruct sub; apply only_ok.
Qed.

Lemma build_only n doc : forall e full, suited e -> only P (build u n doc e full).
Proof.
  induction n as [|n IH]; intros e full W; [apply only_err; exact PF|].
  assert (Hfill : forall c obj subs, made c obj -> (forall s, In s subs -> suited s /\ In (e_name s) (attrs c)) ->
    only P (match obj with
        | VObj c vars =>
          do vars' <- fold_left (fun acc s => do vs <- acc; do sub <- build u n doc s full;
                                   attach (e_name s) sub vs) subs (Ok vars);
          Ok (VObj c vars')
        | _ => Err AttributeError
        end)).
  { intros c obj subs [vars [-> En]] Hs. apply only_bind; [|intros; apply only_ok].
    assert (G : forall acc, only P acc -> (forall vs, acc = Ok vs -> map fst vs = attrs c) -> only P (fold_left (fun acc s => do vs <- acc; do sub <- build u n doc s full; attach (e_name s) sub vs) subs acc)).
    { revert Hs. clear -IH. induction subs as [|s subs IHs]; intros Hs acc O Nm; [exact O|]. cbn [fold_left]. apply IHs.
      - intros x Hx. apply Hs. right. exact Hx.
      - apply only_bind; [exact O|]. intros vs Hvs. destruct (Hs s (or_introl eq_refl)) as [Ws In_]. apply only_bind; [apply IH; exact Ws|]. intros sub _. apply attach_only. rewrite (Nm vs Hvs). exact In_.
      - intros vs H. inv_ok H. inv_ok H. apply attach_names in H. rewrite H. apply Nm. exact E. }
    apply G; [apply only_ok|]. intros vs H. injection H as <-. exact En. }
  pose proof (suited_here e W) as [W1 W2].
  assert (Hsub : forall s, In s (e_subs e) -> suited s /\ In (e_name s) (attrs (e_cls e))) by (intros s Hs; split; [exact (suited_sub e s W Hs)|apply W1; exact Hs]).
  assert (Hf : forall obj, made (e_cls e) obj -> only P (match obj with
        | VObj c vars =>
          do vars' <- fold_left (fun acc s => do vs <- acc; do sub <- build u n doc s full;
                                   attach (e_name s) sub vs) (e_subs e) (Ok vars);
          Ok (VObj c vars')
        | _ => Err AttributeError
        end)) by (intros obj Ho; exact (Hfill _ _ _ Ho Hsub)).
  cbn [build].
  destruct (slice (fst (e_mm e)) (snd (e_mm e)) full) as [|l0 ll] eqn:El;
    destruct (match e_subs e with [] => true | _ => false end) eqn:En; try apply only_ok; rewrite <- El.
  all: destruct (String.eqb (e_cls e) "AemSegment") eqn:C1;
    [apply String.eqb_eq in C1; assert (A : aem) by auto; apply only_bind; [apply prepare_only; exact A|]; intros e' He'; apply only_bind; [apply parse_list_only|];
     intros obj Ho; apply parse_list_made in Ho; apply (Hfill _ _ _ Ho); apply prepare_kin in He'; destruct He' as [[_ Kw] Kc]; specialize (Kw W); intros s Hs; split; [exact (suited_sub e' s Kw Hs)|rewrite <- Kc; exact (proj1 (suited_here e' Kw) s Hs)]|].
  all: destruct (String.eqb (e_cls e) "AttitudeStateType") eqn:C2;
    [apply String.eqb_eq in C2; assert (A : aem) by auto; apply only_bind; [apply only_guard, PA; exact A|]; intros tm _;
     apply only_bind; [apply only_get; exact PI|]; intros l1 _; apply only_bind; [apply only_get; exact PI|]; intros s1 _;
     apply only_bind; [apply identify_only|];
     intros [[mx mm] e1] He1; apply only_bind; [apply only_get; exact PI|]; intros sub Hsub1;
     apply only_bind; [apply IH|intros; apply only_bind; [apply only_ok|intros; apply only_ok]];
     apply identify_kin in He1; destruct He1 as [_ Kw]; apply get_ok, nth_error_In in Hsub1; exact (suited_sub e1 sub (Kw W) Hsub1)|].
  all: destruct (String.eqb (e_cls e) "StateVectorAccType");
    [apply only_bind; [apply only_get; exact PI|]; intros l1 _; apply only_bind; [apply only_get; exact PI|]; intros s1 _;
     apply only_bind; [apply parse_list_only|]; intros obj Ho; apply Hf; eapply parse_list_made; exact Ho|].
  all: destruct (String.eqb (e_cls e) "OemCovarianceMatrixType");
    [cbv zeta; apply only_bind; [apply parse_list_only|]; intros obj Ho; apply Hf; eapply parse_list_made; exact Ho|].
  all: destruct (String.eqb (e_cls e) "TrackingDataObservationType");
    [do 3 (apply only_bind; [apply only_get; exact PI|]; intros ? _); apply only_bind; [apply parse_list_only|]; intros obj Ho; apply Hf; eapply parse_list_made; exact Ho|].
  all: match goal with |- only P (match ?x with _ => _ end) => destruct x end; try apply only_ok.
  all: (apply only_bind; [match goal with |- only P (if ?b then _ else _) => destruct b end; [apply parse_root_only|destruct (e_single e); [apply parse_single_only|apply parse_list_only]]|]; intros obj Ho; apply Hf;
    match type of Ho with (if ?b then _ else _) = _ => destruct b end; [eapply parse_root_made; exact Ho|destruct (e_single e); [eapply parse_single_made; exact Ho|eapply parse_list_made; exact Ho]]).
Qed.
End Err.
