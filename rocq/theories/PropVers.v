(* The text given for the version in the first line has no influence on what is read. *)
From Coq Require Import NArith ZArith List Bool String Arith Lia.
From Verif Require Import PyStr PyDec PyVal Schema KvnPre KvnTree KvnSeg XmlBind KvnBuild
     KvnWrite Spec SpecKvn SpecObj SpecMsg SpecDoc StrFacts PreFacts SegFacts BuildFacts ShiftFacts ReadFacts GapFacts ComposeFacts MsgFacts CoreFacts DocFacts CheckFacts Demo.
Import ListNotations.
Local Open Scope string_scope.
Local Open Scope list_scope.
Local Arguments find_class : simpl never.
Local Arguments lit : simpl never.

(* ---- documents that differ in the values of the first two lines only ---- *)
Definition like (a b : list line) : Prop := keys_of a = keys_of b /\ skipn 2 a = skipn 2 b.
Lemma like_length a b : like a b -> List.length a = List.length b.
Proof. intros [K _]. apply (f_equal (@List.length str)) in K. rewrite !keys_length in K. exact K. Qed.
Lemma like_skipn a b i : like a b -> 2 <= i -> skipn i a = skipn i b.
Proof.
  intros [_ T] H. assert (X : forall l : list line, skipn i l = skipn (i - 2) (skipn 2 l)).
  { intros l. destruct i as [|[|i]]; [lia|lia|]. replace (S (S i) - 2) with i by lia. destruct l as [|x [|y l]]; destruct i; reflexivity. }
  rewrite !X, T. reflexivity.
Qed.
Lemma nth_skipn {A} (l : list A) i : nth_error l i = nth_error (skipn i l) 0.
Proof. revert l. induction i as [|i IH]; intros [|x l]; try reflexivity. cbn [skipn nth_error]. apply IH. Qed.
Lemma like_get a b i : like a b -> 2 <= i -> get a i = get b i.
Proof. intros L H. unfold get. rewrite (nth_skipn a), (nth_skipn b), (like_skipn a b i L H). reflexivity. Qed.
Lemma like_slice a b lo hi : like a b -> 2 <= lo \/ hi <= lo -> slice lo hi a = slice lo hi b.
Proof.
  intros L [H|H]; unfold slice; [rewrite (like_skipn a b lo L H); reflexivity|]. replace (hi - lo) with 0 by lia. reflexivity.
Qed.

Section Like.
Variable u : env.
Lemma own_like e keys a b i : like a b -> 2 <= i \/ ordinary (e_cls e) = true -> own_range u e keys a i = own_range u e keys b i.
Proof.
  intros L H. unfold own_range. destruct H as [H|H].
  - unfold date_range. rewrite (like_get a b i L H).
    destruct (_ || _); [reflexivity|]. destruct (String.eqb _ "TrackingDataObservationType"); [reflexivity|].
    destruct (String.eqb _ "OemCovarianceMatrixType"); [|reflexivity].
    destruct (get_min_max _ _ _ _ _) as [[[lo hi] tags]|x] eqn:G; [|reflexivity]. apply get_min_max_bounds in G. cbn [bind].
    rewrite (like_skipn a b hi L); [reflexivity|lia].
  - destruct (ordinary_spec _ H) as [H1 [H2 [H3 [H4 [H5 H6]]]]]. rewrite H2, H3, H4, H5. reflexivity.
Qed.
Lemma list_like one one' n f : (forall i, 2 <= i -> one i = one' i) -> (forall i, ord_ident i (one i)) ->
  forall i last, 2 <= i -> identify_list one n f i last = identify_list one' n f i last.
Proof.
  intros E O. induction f as [|f IH]; intros i last H; [reflexivity|]. rewrite !identify_list_S, <- (E i H).
  pose proof (O i) as Oi. destruct (one i) as [[[mx [lo hi]] e]|x]; [|reflexivity]. cbn [bind ord_ident] in *.
  destruct (_ && _); [reflexivity|]. destruct (Nat.ltb _ _); [reflexivity|]. cbv zeta. destruct (Nat.leb _ _); [reflexivity|].
  rewrite (IH mx mx); [reflexivity|lia].
Qed.
Lemma identify_cls e keys lines i mx mm e' : identify u e keys lines i = Ok (mx, mm, e') -> e_cls e' = e_cls e.
Proof.
  rewrite identify_eq. intros H. inv_ok H. destruct a as [mm1 e1]. apply own_range_same in E. destruct E as [_ [E _]].
  destruct (e_subs e); [injection H as _ _ <-; exact E|]. inv_ok H. destruct a as [mx' gs]. injection H as _ _ <-. exact E.
Qed.
Lemma subs_like keys a b lo ss : like a b ->
  Forall (fun s => forall i, 2 <= i -> identify u s keys a i = identify u s keys b i) ss ->
  2 <= lo \/ Forall (fun s => ordinary (e_cls s) = true) ss ->
  forall i, 2 <= i -> ident_subs u keys a lo ss i = ident_subs u keys b lo ss i.
Proof.
  intros L F Hlo. induction F as [|s ss Hs F IH]; intros i Hi; [reflexivity|]. cbn [ident_subs].
  assert (IH' : forall i, 2 <= i -> ident_subs u keys a lo ss i = ident_subs u keys b lo ss i).
  { apply IH. destruct Hlo as [Hlo|Hlo]; [left; exact Hlo|right; inversion Hlo; assumption]. }
  clear IH. rewrite <- (like_length a b L). destruct (e_islist s).
  - rewrite <- (list_like (identify u s keys a) (identify u s keys b)); [|exact Hs|intros; apply identify_order|exact Hi].
    destruct (identify_list _ _ _ _ _) as [[i' es]|x] eqn:E; [|reflexivity]. cbn [bind].
    apply identify_list_order in E; [|intros; apply identify_order]. rewrite IH' by lia. reflexivity.
  - rewrite <- (Hs i Hi). pose proof (identify_order u s keys a i) as O. destruct (identify u s keys a i) as [[[i' [slo shi]] s']|x] eqn:E; [|reflexivity].
    cbn [bind ord_ident fst snd] in *. rewrite (own_like s' keys a b lo L).
    + match goal with |- bind ?r _ = bind ?r _ => destruct r; [|reflexivity] end. cbn [bind]. rewrite IH' by lia. reflexivity.
    + apply identify_cls in E. rewrite E. destruct Hlo as [Hlo|Hlo]; [left; exact Hlo|right; inversion Hlo; assumption].
Qed.
Lemma identify_like keys a b : like a b -> forall e i, 2 <= i -> identify u e keys a i = identify u e keys b i.
Proof.
  intros L e. induction e as [n c subs k l s m t F] using elem_ind'. intros i Hi. rewrite !identify_eq.
  rewrite (own_like _ keys a b i L) by (left; exact Hi).
  destruct (own_range _ _ _ b i) as [[[lo hi] e1]|x] eqn:E; [|reflexivity]. apply own_range_bounds in E. cbn [bind e_subs fst snd].
  destruct subs as [|s0 subs]; [reflexivity|]. rewrite (subs_like keys a b lo (s0 :: subs) L F); [reflexivity|left; lia|lia].
Qed.

(* ---- sections start at or after the third line, or are empty ---- *)
Definition clear_of (e : elem) : Prop := 2 <= fst (e_mm e) \/ snd (e_mm e) <= fst (e_mm e).
Definition all_clear (e : elem) : Prop := forall x, In x (all_elems e) -> clear_of x.
Lemma all_clear_intro e : clear_of e -> (forall s, In s (e_subs e) -> all_clear s) -> all_clear e.
Proof.
  intros C S x Hx. rewrite all_elems_eq in Hx. destruct Hx as [<-|Hx]; [exact C|]. apply in_flat_map in Hx. destruct Hx as [s [Hs Hx]].
  exact (S s Hs x Hx).
Qed.
Definition subs_clear (e : elem) : Prop := forall s, In s (e_subs e) -> all_clear s.
Definition clear_ident (r : res ident) : Prop := match r with Ok (_, _, e) => subs_clear e | Err _ => True end.
Lemma list_clear one n f : (forall i, ord_ident i (one i)) -> (forall i, 2 <= i -> clear_ident (one i)) ->
  forall i last mx es, 2 <= i -> identify_list one n f i last = Ok (mx, es) -> Forall all_clear es.
Proof.
  intros O C. induction f as [|f IH]; intros i last mx es Hi; [discriminate|]. rewrite identify_list_S.
  pose proof (O i) as Oi. pose proof (C i Hi) as Ci. destruct (one i) as [[[mx' [lo hi]] e]|x]; [|discriminate]. cbn [bind ord_ident clear_ident] in *.
  assert (W : all_clear (set_mm e (lo, hi))) by (apply all_clear_intro; [left; cbn; lia|exact Ci]).
  destruct (_ && _); [intros X; injection X as <- <-; constructor|]. destruct (Nat.ltb _ _); [intros X; injection X as <- <-; constructor|].
  cbv zeta. destruct (Nat.leb _ _); [intros X; injection X as <- <-; constructor; [exact W|constructor]|].
  intros H. inv_ok H. destruct a as [mx2 es2]. injection H as <- <-. constructor; [exact W|]. eapply IH; [|exact E]. lia.
Qed.
Lemma subs_all_clear keys lines lo ss :
  Forall (fun s => forall i, 2 <= i -> clear_ident (identify u s keys lines i)) ss ->
  (forall s s' i mx mm r mm2, In s ss -> identify u s keys lines i = Ok (mx, mm, s') -> own_range u s' keys lines lo = Ok (mm2, r) ->
     2 <= fst mm2 \/ snd mm2 <= fst mm2) ->
  forall i mx gs, 2 <= i -> ident_subs u keys lines lo ss i = Ok (mx, gs) -> Forall all_clear gs.
Proof.
  intros F R. induction F as [|s ss Hs F IH]; intros i mx gs Hi; cbn [ident_subs]; [intros X; injection X as <- <-; constructor|].
  assert (IH' : forall i mx gs, 2 <= i -> ident_subs u keys lines lo ss i = Ok (mx, gs) -> Forall all_clear gs).
  { apply IH. intros s1 s' i1 mx1 mm r mm2 Hin. apply (R s1 s' i1 mx1 mm r mm2). right. exact Hin. }
  clear IH. destruct (e_islist s).
  - intros H. inv_ok H. destruct a as [i' es]. inv_ok H. destruct a as [i'' gs']. injection H as <- <-. apply Forall_app. split.
    + eapply list_clear; [intros; apply identify_order|exact Hs|exact Hi|exact E].
    + eapply IH'; [|exact E0]. apply identify_list_order in E; [lia|intros; apply identify_order].
  - intros H. inv_ok H. destruct a as [[i' [slo shi]] s']. inv_ok H. inv_ok H. destruct a0 as [i'' gs']. injection H as <- <-.
    pose proof (identify_order u s keys lines i) as O. pose proof (Hs i Hi) as C. rewrite E in O, C. cbn [ord_ident clear_ident] in O, C.
    constructor; [|eapply IH'; [|exact E1]; lia]. cbn [fst snd] in E0. destruct (_ && _).
    + inv_ok E0. destruct a0 as [mm2 r]. injection E0 as <-. cbn [fst snd] in *.
      pose proof (R s s' i i' _ r mm2 (or_introl eq_refl) E E2) as X. apply own_range_same in E2. destruct E2 as [_ [_ [Es _]]].
      apply all_clear_intro; [exact X|]. cbn [e_subs set_mm]. rewrite Es. exact C.
    + injection E0 as <-. apply all_clear_intro; [left; cbn; lia|exact C].
Qed.
Lemma identify_clear keys lines : forall e i, 2 <= i -> clear_ident (identify u e keys lines i).
Proof.
  intros e. induction e as [n c subs k l s m t F] using elem_ind'. intros i Hi. rewrite identify_eq.
  destruct (own_range _ _ _ _ i) as [[[lo hi] e1]|x] eqn:E; [|exact I]. pose proof (own_range_same _ _ _ _ _ _ _ E) as [_ [_ [Es _]]].
  apply own_range_bounds in E. cbn [bind e_subs fst snd] in *. destruct subs as [|s0 subs].
  - cbn [clear_ident]. intros s1 H1. rewrite Es in H1. destruct H1.
  - destruct (ident_subs _ _ _ _ _ _) as [[mx gs]|x] eqn:G; [|exact I]. cbn [bind clear_ident].
    apply subs_all_clear in G; [|exact F| |lia].
    + intros s1 H1. cbn [set_subs e_subs] in H1. rewrite Forall_forall in G. exact (G _ H1).
    + intros s1 s' j mx1 mm r [lo2 hi2] _ _ H2. apply own_range_bounds in H2. left. cbn. lia.
Qed.

(* ---- building ---- *)
Definition slices (e : elem) (f g : list line) : Prop :=
  forall x, In x (all_elems e) -> slice (fst (e_mm x)) (snd (e_mm x)) f = slice (fst (e_mm x)) (snd (e_mm x)) g.
Lemma lookup_like key a b i : like a b -> nth_error (keys_of a) 0 <> Some key -> nth_error (keys_of a) 1 <> Some key ->
  lookup_line key a i = lookup_line key b i.
Proof.
  intros L N0 N1. unfold lookup_line. destruct L as [K T]. rewrite <- K. destruct (index_start key (keys_of a) i) as [j|] eqn:E; [|reflexivity].
  cbn [guard_opt bind]. apply index_start_nth in E. rewrite (like_get a b j); [reflexivity|split; assumption|].
  destruct j as [|[|j]]; [congruence|congruence|lia].
Qed.
Definition headed (a : list line) : Prop := exists l0 l1 r, a = l0 :: l1 :: r /\ key_of l0 = lit "id" /\ key_of l1 = lit "version".
Lemma prepare_like e a b : like a b -> headed a -> prepare_aem_segment e a = prepare_aem_segment e b.
Proof.
  intros L [l0 [l1 [r [-> [K0 K1]]]]]. unfold prepare_aem_segment. destruct (get (e_subs e) 1); [|reflexivity]. cbn [bind].
  assert (X : forall s i, lit s <> lit "id" -> lit s <> lit "version" -> lookup_line (lit s) (l0 :: l1 :: r) i = lookup_line (lit s) b i).
  { intros s i N0 N1. apply lookup_like; [exact L|cbn; congruence|cbn; congruence]. }
  unfold att_template. rewrite !X by (intros Y; vm_compute in Y; discriminate Y). reflexivity.
Qed.
Lemma slices_sub e s f g : slices e f g -> In s (e_subs e) -> slices s f g.
Proof. intros S H x Hx. apply S. rewrite all_elems_eq. right. apply in_flat_map. exists s. split; assumption. Qed.
Lemma slices_same e s f g : slices e f g -> e_mm s = e_mm e -> (forall x, In x (e_subs s) -> slices x f g) -> slices s f g.
Proof.
  intros S E H x Hx. rewrite all_elems_eq in Hx. destruct Hx as [<-|Hx]; [rewrite E; apply S; rewrite all_elems_eq; left; reflexivity|].
  apply in_flat_map in Hx. destruct Hx as [y [Hy Hx]]. exact (H y Hy x Hx).
Qed.
Lemma prepare_slices e e' d f g : prepare_aem_segment e d = Ok e' -> slices e f g -> slices e' f g.
Proof.
  unfold prepare_aem_segment. intros H S. inv_ok H. inv_ok H. destruct a0 as [att tmpl]. injection H as <-.
  apply get_ok in E. apply (slices_same e); [exact S|reflexivity|]. intros x Hx. destruct e as [nm cl subs kws il sg mm0 tm]. cbn [set_subs e_subs] in *.
  assert (Ha : In a subs) by (eapply nth_error_In; exact E).
  apply in_app_or in Hx. destruct Hx as [Hx|[<-|Hx]].
  - apply (slices_sub (Elem nm cl subs kws il sg mm0 tm)); [exact S|]. cbn [e_subs]. rewrite <- (firstn_skipn 1 subs). apply in_or_app. left. exact Hx.
  - assert (Sa : slices a f g) by (apply (slices_sub (Elem nm cl subs kws il sg mm0 tm)); [exact S|exact Ha]).
    apply (slices_same a); [exact Sa|reflexivity|]. intros y Hy. destruct a as [? ? ss ? ? ? ? ?]. cbn [set_subs e_subs] in Hy.
    apply in_map_iff in Hy. destruct Hy as [z [<- Hz]]. pose proof (slices_sub _ z _ _ Sa Hz) as Sz.
    apply (slices_same z); [exact Sz|reflexivity|]. intros w Hw. destruct z as [? ? zz ? ? ? ? ?]. cbn [set_tmpl set_subs e_subs] in Hw.
    apply filter_In in Hw. apply (slices_sub _ w _ _ Sz). apply Hw.
  - apply (slices_sub (Elem nm cl subs kws il sg mm0 tm)); [exact S|]. cbn [e_subs]. rewrite <- (firstn_skipn 2 subs). apply in_or_app. right. exact Hx.
Qed.
Lemma fold_ext {A B} (f g : A -> B -> A) l a : (forall a b, In b l -> f a b = g a b) -> fold_left f l a = fold_left g l a.
Proof. revert a. induction l as [|b l IH]; intros a H; [reflexivity|]. cbn [fold_left]. rewrite H by (left; reflexivity). apply IH. intros; apply H; right; assumption. Qed.
Lemma build_like a b : like a b -> headed a -> forall fuel e f g, slices e f g -> build u fuel a e f = build u fuel b e g.
Proof.
  intros L Hd. induction fuel as [|n IH]; intros e f g S; [reflexivity|]. cbn [build].
  rewrite <- (S e) by (rewrite all_elems_eq; left; reflexivity).
  set (local := slice (fst (e_mm e)) (snd (e_mm e)) f). clearbody local.
  assert (Fl : forall obj subs, (forall s, In s subs -> slices s f g) ->
    match obj with
    | VObj c vars => do vars' <- fold_left (fun acc s => do vs <- acc; do sub <- build u n a s f; attach (e_name s) sub vs) subs (Ok vars); Ok (VObj c vars')
    | _ => Err AttributeError end =
    match obj with
    | VObj c vars => do vars' <- fold_left (fun acc s => do vs <- acc; do sub <- build u n b s g; attach (e_name s) sub vs) subs (Ok vars); Ok (VObj c vars')
    | _ => Err AttributeError end).
  { intros obj subs H. destruct obj; try reflexivity. f_equal. apply fold_ext. intros acc s Hs. destruct acc; [|reflexivity]. cbn [bind].
    rewrite (IH s f g (H s Hs)). reflexivity. }
  assert (Se : forall s, In s (e_subs e) -> slices s f g) by (intros s Hs; exact (slices_sub e s f g S Hs)).
  assert (Fb : forall A (r : res A) h k, (forall x, r = Ok x -> h x = k x) -> @bind A pyval r h = bind r k).
  { intros A r h k H. destruct r; [apply H; reflexivity|reflexivity]. }
  destruct local as [|l0 local]; [destruct (e_subs e) as [|s0 ss] eqn:Es; [reflexivity|]; rewrite <- Es in Se |- *|];
  (destruct (String.eqb (e_cls e) "AemSegment");
   [rewrite <- (prepare_like e a b L Hd); apply Fb; intros e' He; apply Fb; intros obj _; apply Fl;
    intros s Hs; exact (slices_sub e' s f g (prepare_slices e e' a f g He S) Hs)|]);
  (destruct (String.eqb (e_cls e) "AttitudeStateType");
   [apply Fb; intros tm _; apply Fb; intros l1 _; apply Fb; intros s _; apply Fb; intros [[mx mm] e1] _; apply Fb; intros sub _;
    rewrite (IH sub _ (zip_lines tm (split_ws s))); [reflexivity|intros x _; reflexivity]|]);
  (destruct (String.eqb (e_cls e) "StateVectorAccType");
   [apply Fb; intros l1 _; apply Fb; intros s _; apply Fb; intros obj _; apply Fl; exact Se|]);
  (destruct (String.eqb (e_cls e) "OemCovarianceMatrixType"); [apply Fb; intros obj _; apply Fl; exact Se|]);
  (destruct (String.eqb (e_cls e) "TrackingDataObservationType");
   [apply Fb; intros l1 _; apply Fb; intros s _; apply Fb; intros t _; apply Fb; intros obj _; apply Fl; exact Se|]).
  all: destruct (match (if String.eqb (e_cls e) "UserDefinedType" then _ else _) with Some _ => _ | None => _ end);
       try (destruct (e_subs e); [reflexivity|]); apply Fb; intros obj _; apply Fl; exact Se.
Qed.

(* ---- the root ---- *)
Lemma range_start il i j keys single lo hi : range_of_indices il i keys single = Ok (lo, hi) ->
  (lo = i /\ hi = i) \/ range_of_indices il j keys single = Ok (lo, hi).
Proof.
  unfold range_of_indices. intros H. inv_ok H. rewrite E. cbn [bind].
  destruct a as [|x a]; [left; injection H as <- <-; split; reflexivity|right; exact H].
Qed.
Lemma early_range tags keys single lo hi tags' :
  nth_error keys 0 = Some (lit "id") -> nth_error keys 1 = Some (lit "version") -> ~ In (lit "id") tags -> ~ In (lit "version") tags ->
  get_min_max tags 0 keys None single = Ok ((lo, hi), tags') -> tags' = tags /\ (2 <= lo \/ hi <= lo).
Proof.
  intros K0 K1 N0 N1. unfold get_min_max. cbn [extend_tags]. intros H. inv_ok H. inv_ok H. injection H as -> <-. split; [reflexivity|].
  assert (W0 : within 2 (List.length keys) (index_list0 tags 0 keys)).
  { unfold index_list0, within. assert (Sb : incl (filter (fun t => negb (str_eqb t kw_comment)) tags) tags) by (apply incl_filter).
    induction (filter _ tags) as [|t l IH]; cbn [filter_map]; [constructor|].
    assert (Fl : Forall (fun i => 2 <= i < List.length keys) (filter_map (fun t => index_start t keys 0) l)) by (apply IH; intros x Hx; apply Sb; right; exact Hx).
    destruct (index_start t keys 0) as [j|] eqn:Ej; [|exact Fl]. constructor; [|exact Fl].
    pose proof (index_start_bounds _ _ _ _ Ej) as Bj. apply index_start_nth in Ej. assert (Ht : In t tags) by (apply Sb; left; reflexivity).
    destruct j as [|[|j]]; [| |lia]; exfalso; [rewrite K0 in Ej|rewrite K1 in Ej]; injection Ej as <-; contradiction. }
  assert (W1 : within 2 (List.length keys) a).
  { unfold process_comment_lines in E. destruct (mem_str kw_comment tags); [|injection E as <-; exact W0].
    destruct (Nat.eqb _ 1).
    - unfold get in E. rewrite K0 in E. cbn [guard_opt bind] in E. injection E as <-.
      replace (str_eqb (lit "id") kw_comment) with false by (vm_compute; reflexivity). exact W0.
    - destruct (index_list0 tags 0 keys) as [|i il] eqn:Ei; injection E as <-; [constructor|].
      change (within 2 (List.length keys) ((i :: il) ++ comment_indexes keys 0 (list_max (i :: il) + 1))).
      apply Forall_app. split; [exact W0|]. pose proof (comment_indexes_within keys 0 (list_max (i :: il) + 1)) as C.
      unfold within in *. rewrite Forall_forall in *. intros x Hx. pose proof (C x Hx) as Bx. unfold comment_indexes in Hx. apply filter_In in Hx.
      destruct Hx as [_ Hx]. destruct x as [|[|x]]; [rewrite K0 in Hx; vm_compute in Hx; discriminate|rewrite K1 in Hx; vm_compute in Hx; discriminate|lia]. }
  destruct (range_start _ _ 2 _ _ _ _ E0) as [[-> ->]|X]; [right; lia|]. apply (range_order _ _ _ _ _ _ _ W1) in X. lia.
Qed.
Definition outer (s : elem) : bool := ordinary (e_cls s) && negb (mem_str (lit "id") (e_kws s)) && negb (mem_str (lit "version") (e_kws s)).
Lemma outer_kws s keys lines i mx mm s' : ordinary (e_cls s) = true -> identify u s keys lines i = Ok (mx, mm, s') -> e_kws s' = e_kws s.
Proof.
  intros O. destruct (ordinary_spec _ O) as [_ [H2 [H3 [H4 [H5 H6]]]]]. rewrite identify_eq. intros H. inv_ok H. destruct a as [mm1 e1].
  assert (X : e_kws e1 = e_kws s).
  { unfold own_range in E. rewrite H2, H3, H4, H5, H6 in E. cbn [orb] in E. inv_ok E. destruct a as [mm2 tags]. injection E as <- <-.
    unfold get_min_max in E0. cbn [extend_tags] in E0. inv_ok E0. inv_ok E0. injection E0 as _ <-. reflexivity. }
  destruct (e_subs s); [injection H as _ _ <-; exact X|]. inv_ok H. destruct a as [mx' gs]. injection H as _ _ <-. exact X.
Qed.
Lemma root_outer c : In c root_classes -> forallb outer (e_subs (tree_of c)) = true.
Proof. intros H. repeat (destruct H as [<-|H]; [vm_compute; reflexivity|]). destruct H. Qed.
Lemma deleted_root c : In c root_classes -> mem_str (lit "id") (deleted_keywords c) = false /\ mem_str (lit "version") (deleted_keywords c) = false.
Proof. intros H. repeat (destruct H as [<-|H]; [split; vm_compute; reflexivity|]). destruct H. Qed.
Lemma not_mem x l : mem_str x l = false -> ~ In x l.
Proof. apply mem_str_false. Qed.

Lemma read_like k v w v' w' R : xml_text v = xml_text v' ->
  read_lines u ([lit "id"; k] :: (lit "version" :: v :: w) :: R) = read_lines u ([lit "id"; k] :: (lit "version" :: v' :: w') :: R).
Proof.
  intros X. unfold read_lines.
  assert (Et : forall l, identify_data_type ([lit "id"; k] :: l) = guard_opt (find_element k) AttributeError) by reflexivity. rewrite !Et.
  destruct (find_element k) as [c|] eqn:Ef; [|reflexivity]. cbn [guard_opt bind]. apply find_element_in in Ef. rename Ef into Hc.
  destruct (deleted_root c Hc) as [D0 D1].
  assert (Ed : forall w R, delete_keywords c ([lit "id"; k] :: (lit "version" :: w) :: R) = [lit "id"; k] :: (lit "version" :: w) :: delete_keywords c R).
  { intros w0 R0. unfold delete_keywords. cbn [filter key_of hd]. rewrite D0, D1. reflexivity. }
  rewrite !Ed. generalize (delete_keywords c R). clear R Ed Et. intros R. rewrite (init_object_map_ok c Hc). cbn [bind].
  set (a := [lit "id"; k] :: (lit "version" :: v :: w) :: R). set (b := [lit "id"; k] :: (lit "version" :: v' :: w') :: R).
  assert (L : like a b) by (split; reflexivity).
  assert (Hd : headed a) by (do 3 eexists; split; [reflexivity|split; reflexivity]).
  destruct (root_tree c Hc) as [Ec [Es [Ek [Eb [Em [O [Rk [[vs [P N]] Dh]]]]]]]]. pose proof (root_outer c Hc) as Ot.
  set (e := tree_of c) in *.
  assert (Cl : claims [lit "id"; lit "version"] [lit "id"; lit "version"] (keys_of R)).
  { exists 0, [lit "id"; lit "version"]. split; [reflexivity|]. split; [discriminate|].
    split; [constructor; [|constructor; [|constructor]]; cbn; [intros [Y|[]]; vm_compute in Y; discriminate|intros []]|].
    split; [apply incl_refl|]. split; [intros [Y|[Y|[]]]; vm_compute in Y; discriminate|]. split; [congruence|].
    split; [discriminate|]. auto. }
  assert (Or : forall l, own_range u e (keys_of a) l 0 = Ok ((0, 2), e)).
  { intros l. rewrite (own_range_ordinary u e _ _ 0 (0, 2) (e_kws e)); [rewrite set_kws_same; reflexivity|rewrite Ec; exact O|exact Es|].
    change (keys_of a) with ([lit "id"; lit "version"] ++ keys_of R). rewrite Ek. exact (claims_range _ _ _ false Cl). }
  rewrite forallb_forall in Ot.
  assert (Oo : forall s, In s (e_subs e) -> ordinary (e_cls s) = true /\ ~ In (lit "id") (e_kws s) /\ ~ In (lit "version") (e_kws s)).
  { intros s Hs. specialize (Ot s Hs). unfold outer in Ot. apply andb_true_iff in Ot. destruct Ot as [Ot O3]. apply andb_true_iff in Ot. destruct Ot as [O1 O2].
    apply negb_true_iff in O2, O3. split; [exact O1|]. split; apply not_mem; assumption. }
  assert (Sl : ident_subs u (keys_of a) a 0 (e_subs e) 2 = ident_subs u (keys_of a) b 0 (e_subs e) 2).
  { apply (subs_like (keys_of a) a b 0 (e_subs e) L); [|right; apply Forall_forall; intros s Hs; apply Oo; exact Hs|lia].
    apply Forall_forall. intros s _ i Hi. apply identify_like; assumption. }
  unfold identify_segments. change (keys_of b) with (keys_of a). rewrite !identify_eq, !Or. cbn [bind fst snd].
  destruct (e_subs e) as [|s0 ss] eqn:Esub; [congruence|]. rewrite <- Esub in *. rewrite <- Sl.
  destruct (ident_subs u (keys_of a) a 0 (e_subs e) 2) as [[mx gs]|x] eqn:G; [|reflexivity]. cbn [bind].
  assert (Gc : Forall all_clear gs).
  { eapply subs_all_clear; [| |apply le_n|exact G].
    - apply Forall_forall. intros s _ i Hi. apply identify_clear. exact Hi.
    - intros s s' i mx1 mm r [lo hi] Hs Hi Ho. destruct (Oo s Hs) as [O1 [O2 O3]]. pose proof (outer_kws _ _ _ _ _ _ _ O1 Hi) as Kw.
      apply identify_cls in Hi. destruct (ordinary_spec _ O1) as [_ [H2 [H3 [H4 [H5 H6]]]]]. unfold own_range in Ho.
      rewrite Hi, H2, H3, H4, H5, H6 in Ho. cbn [orb] in Ho. inv_ok Ho. destruct a0 as [mm2 tags]. injection Ho as -> <-. cbn [fst snd].
      rewrite Kw in E. apply early_range in E; [apply E|reflexivity|reflexivity|exact O2|exact O3]. }
  unfold build_object. set (e' := set_mm (set_subs e gs) (0, 2)).
  assert (Sx : forall s, In s gs -> slices s a b).
  { intros s Hs x Hx. rewrite Forall_forall in Gc. apply like_slice; [exact L|]. exact (Gc s Hs x Hx). }
  cbn [build]. destruct (ordinary_spec _ O) as [H1 [H2 [H3 [H4 [H5 H6]]]]].
  assert (Ec' : e_cls e' = c) by exact Ec. assert (Ek' : e_kws e' = [lit "id"; lit "version"]) by exact Ek.
  assert (Em' : e_mm e' = (0, 2)) by reflexivity. assert (Eg : e_subs e' = gs) by reflexivity.
  rewrite Ec', Ek', Em', Eg, H1, H2, H3, H4, H5, H6. unfold root_kws in Rk. rewrite Rk. cbn [fst snd].
  change (slice 0 2 a) with [[lit "id"; k]; lit "version" :: v :: w]. change (slice 0 2 b) with [[lit "id"; k]; lit "version" :: v' :: w'].
  assert (Pr : forall v w, parse_root c (filter (fun l => mem_str (key_of l) [lit "id"; lit "version"]) [[lit "id"; k]; lit "version" :: v :: w]) =
                           if forallb xml_text [k; v] then Ok (new_obj c) else Err XmlReject).
  { intros v0 w0. cbn [filter key_of hd].
    replace (mem_str (lit "id") [lit "id"; lit "version"]) with true by (vm_compute; reflexivity).
    replace (mem_str (lit "version") [lit "id"; lit "version"]) with true by (vm_compute; reflexivity). reflexivity. }
  assert (Nf : forall v w, exists l r, filter (fun l => mem_str (key_of l) [lit "id"; lit "version"]) [[lit "id"; k]; lit "version" :: v :: w] = l :: r).
  { intros v0 w0. cbn [filter key_of hd]. replace (mem_str (lit "id") [lit "id"; lit "version"]) with true by (vm_compute; reflexivity). do 2 eexists. reflexivity. }
  pose proof (Pr v w) as P1. pose proof (Pr v' w') as P2. destruct (Nf v w) as [l1 [r1 N1]]. destruct (Nf v' w') as [l2 [r2 N2]].
  rewrite N1 in *. rewrite N2 in *. rewrite P1, P2. cbn [forallb]. rewrite X.
  destruct (xml_text k && (xml_text v' && true)); [|reflexivity]. cbn [bind]. rewrite N. f_equal. apply fold_ext. intros acc s Hs.
  destruct acc; [|reflexivity]. cbn [bind]. rewrite (build_like a b L Hd _ s a b (Sx s Hs)). reflexivity.
Qed.
End Like.

(* Two documents that differ only in the value of their first line (which follows any blank lines) are read alike,
   whatever comes after it and whether or not reading succeeds. *)
Theorem C49_version_ignored : forall u before after k v v' raw raw',
  Forall blank before -> trimmed k -> no_char c_eq k -> ~ begins kw_comment k -> good_value v -> good_value v' ->
  said (k, v, []) raw -> said (k, v', []) raw' -> Forall one_line (before ++ raw :: after) -> one_line raw' ->
  kvn_from_string u (text_of (before ++ raw :: after)) = kvn_from_string u (text_of (before ++ raw' :: after)).
Proof.
  intros u before after k v v' raw raw' B Tk Nk Nc [[_ [Tv [_ Xv]]] Uv] [[_ [Tv' [_ Xv']]] Uv'] S1 S2 O O'.
  assert (L : forall v raw, trimmed v -> ~ unit_like v -> said (k, v, []) raw -> Forall one_line (before ++ raw :: after) ->
     lex_lines (text_of (before ++ raw :: after)) = [k; v] :: filter_map lex_line after).
  { clear - B Tk Nk Nc. intros v raw Tv Uv S1 O. unfold text_of. rewrite lex_lines_join; [|destruct before; discriminate|exact O].
    clear O. induction B as [|w before Bw B IH]; cbn [app filter_map].
    - rewrite (said_lex (k, v, []) raw); [reflexivity|right; auto 10|exact S1].
    - rewrite lex_line_blank by exact Bw. exact IH. }
  assert (O2 : Forall one_line (before ++ raw' :: after)).
  { apply Forall_app in O. destruct O as [O1 O2]. apply Forall_app. split; [exact O1|]. inversion O2; subst. constructor; assumption. }
  unfold kvn_from_string, pre_process. rewrite (L v raw), (L v' raw') by assumption. cbn [split_first bind].
  assert (X : forall s, Forall (fun c => xml_char c = true) s -> xml_text s = true) by (intros s F; apply forallb_forall; rewrite Forall_forall in F; exact F).
  apply read_like. rewrite !X by assumption. reflexivity.
Qed.
Print Assumptions C49_version_ignored.

(* a small tracking message with the versions 1.0 and 2.0; written again it says 2.0 *)
Definition vers_after : list str :=
  map lit ["CREATION_DATE = 2005-160"; "ORIGINATOR = X"; "META_START"; "TIME_SYSTEM = UTC"; "PARTICIPANT_1 = A"; "META_STOP";
           "DATA_START"; "RANGE = 2005-159 1.2"; "DATA_STOP"].
Example C49_example : let raw := lit "CCSDS_TDM_VERS = 1.0" in let raw' := lit "  CCSDS_TDM_VERS=2.0 " in let k := lit "CCSDS_TDM_VERS" in
  Forall blank [lit " "] /\ trimmed k /\ no_char c_eq k /\ ~ begins kw_comment k /\ good_value (lit "1.0") /\ good_value (lit "2.0") /\
  said (k, lit "1.0", []) raw /\ said (k, lit "2.0", []) raw' /\ Forall one_line ([lit " "] ++ raw :: vers_after) /\ one_line raw' /\
  exists v t, kvn_from_string demo_env (text_of ([lit " "] ++ raw :: vers_after)) = Ok v /\ kvn_to_string demo_env v = Ok t /\
    begins (lit "CCSDS_TDM_VERS       = 2.0") t.
Proof.
  cbv zeta. assert (Bs : blank (lit " ")) by (intros c [<-|[]]; reflexivity).
  split; [constructor; [exact Bs|constructor]|]. split; [apply trimmedb_spec; reflexivity|]. split; [apply no_charb_spec; reflexivity|].
  split; [apply startswith_false; reflexivity|]. split; [apply good_valueb_spec; reflexivity|]. split; [apply good_valueb_spec; reflexivity|].
  split; [exact (said_plain (lit "CCSDS_TDM_VERS") (lit "1.0") [] (lit " ") (lit " ") [] blank_nil Bs Bs blank_nil)|].
  split; [refine (said_plain (lit "CCSDS_TDM_VERS") (lit "2.0") (lit "  ") [] [] (lit " ") _ blank_nil blank_nil Bs); intros c [<-|[<-|[]]]; reflexivity|].
  split; [apply Forall_forall; intros s Hs; repeat (destruct Hs as [<-|Hs]; [apply no_charb_spec; reflexivity|]); destruct Hs|].
  split; [apply no_charb_spec; reflexivity|]. do 2 eexists. split; [vm_compute; reflexivity|]. split; [vm_compute; reflexivity|].
  eexists. vm_compute. reflexivity.
Qed.
