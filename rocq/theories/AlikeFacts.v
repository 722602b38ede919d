(* Documents in which one value is replaced by another that is converted alike: the same sections are found, and the same
   objects are built. *)
From Coq Require Import NArith ZArith List Bool String Arith Lia.
From Verif Require Import PyStr PyDec PyVal Schema KvnPre KvnTree KvnSeg XmlBind KvnBuild
     Spec StrFacts PreFacts SegFacts BuildFacts ReadFacts GapFacts ComposeFacts.
Import ListNotations.
Local Open Scope string_scope.
Local Open Scope list_scope.
Local Arguments find_class : simpl never.
Local Arguments lit : simpl never.

Section Alike.
Variable u : env.
Variables k s s' : str.
Definition lrel (l l' : line) : Prop := l = l' \/ exists w, l = k :: s :: w /\ l' = k :: s' :: w.
Definition alike : list line -> list line -> Prop := Forall2 lrel.

Lemma lrel_key l l' : lrel l l' -> key_of l = key_of l'.
Proof. intros [->|[w [-> ->]]]; reflexivity. Qed.
Lemma lrel_get0 l l' : lrel l l' -> get l 0 = get l' 0.
Proof. intros [->|[w [-> ->]]]; reflexivity. Qed.
Lemma lrel_other l l' : lrel l l' -> key_of l <> k -> l = l'.
Proof. intros [->|[w [-> ->]]] H; [reflexivity|]. exfalso. apply H. reflexivity. Qed.
Lemma alike_refl a : alike a a.
Proof. induction a; constructor; [left; reflexivity|assumption]. Qed.
Lemma alike_keys a b : alike a b -> keys_of a = keys_of b.
Proof. induction 1 as [|x y a b R _ IH]; [reflexivity|]. cbn [keys_of map]. fold (keys_of a) (keys_of b). rewrite IH, (lrel_key x y R). reflexivity. Qed.
Lemma alike_length a b : alike a b -> List.length a = List.length b.
Proof. induction 1; cbn; congruence. Qed.
Lemma alike_skipn a b i : alike a b -> alike (skipn i a) (skipn i b).
Proof. intros H. revert i. induction H as [|x y a b R H IH]; intros [|i]; cbn [skipn]; [constructor|constructor|constructor; assumption|apply IH]. Qed.
Lemma alike_firstn a b i : alike a b -> alike (firstn i a) (firstn i b).
Proof. intros H. revert i. induction H as [|x y a b R H IH]; intros [|i]; cbn [firstn]; constructor; [exact R|apply IH]. Qed.
Lemma alike_slice a b lo hi : alike a b -> alike (slice lo hi a) (slice lo hi b).
Proof. intros H. unfold slice. apply alike_firstn, alike_skipn, H. Qed.
Lemma alike_app a b c d : alike a b -> alike c d -> alike (a ++ c) (b ++ d).
Proof. intros H1 H2. apply Forall2_app; assumption. Qed.
Lemma alike_filter (p : str -> bool) a b : alike a b -> alike (filter (fun l => p (key_of l)) a) (filter (fun l => p (key_of l)) b).
Proof.
  induction 1 as [|x y a b R H IH]; [constructor|]. cbn [filter]. rewrite <- (lrel_key x y R). destruct (p (key_of x)); [constructor; assumption|exact IH].
Qed.
Lemma alike_filter_same (p : str -> bool) a b : p k = false -> alike a b -> filter (fun l => p (key_of l)) a = filter (fun l => p (key_of l)) b.
Proof.
  intros Hp. induction 1 as [|x y a b R H IH]; [reflexivity|]. cbn [filter]. rewrite <- (lrel_key x y R). destruct (p (key_of x)) eqn:E; [|exact IH].
  rewrite IH, (lrel_other x y R); [reflexivity|]. intros Ek. congruence.
Qed.
Lemma alike_get {A} a b i (f g : line -> res A) : alike a b -> (forall x y, lrel x y -> f x = g y) -> bind (get a i) f = bind (get b i) g.
Proof.
  intros H Hf. revert i. induction H as [|x y a b R H IH]; intros i; [destruct i; reflexivity|]. destruct i as [|i]; [cbn; apply Hf; exact R|].
  exact (IH i).
Qed.
Lemma alike_words a b : alike a b -> flat_map (fun l => split_ws (key_of l)) a = flat_map (fun l => split_ws (key_of l)) b.
Proof. induction 1 as [|x y a b R H IH]; [reflexivity|]. cbn [flat_map]. rewrite IH, (lrel_key x y R). reflexivity. Qed.
Lemma alike_floats a b : alike a b -> count_floats u a = count_floats u b.
Proof.
  induction 1 as [|x y a b R H IH]; [reflexivity|]. destruct R as [->|[w [-> ->]]]; cbn [count_floats]; rewrite IH; reflexivity.
Qed.

(* ---- what may not be said elsewhere ---- *)
Hypothesis Hx : xml_text s = xml_text s'.
Hypothesis Hb : forall c f attrs, find_elem k (fields_of c) = Some f -> bind_child u c f attrs s = bind_child u c f attrs s'.
Hypothesis Hid : k <> lit "id".
Hypothesis Hver : k <> lit "version".
Hypothesis Hcm : k <> kw_comment.
Hypothesis Hus : startswith (lit "USER_DEFINED") k = false.
Hypothesis Hatt : k <> lit "ATTITUDE_TYPE" /\ k <> lit "QUATERNION_TYPE" /\ k <> lit "EULER_ROT_SEQ".

Definition user (e : elem) : bool := String.eqb (e_cls e) "UserDefinedType".
Definition user_words (ts : list str) : Prop :=
  2 <= List.length ts /\ forall t, In t ts -> t = kw_comment \/ startswith (lit "USER_DEFINED") t = true.
Definition fit (e : elem) : Prop :=
  String.eqb (e_cls e) "TrackingDataObservationType" = false /\
  (user e = true -> user_words (e_kws e)) /\
  (forall p, e_single e = Some p -> In k (e_kws e) -> forall attrs, bind_value_obj u (e_cls e) attrs s = bind_value_obj u (e_cls e) attrs s').
Definition all_fit (e : elem) : Prop := forall x, In x (all_elems e) -> fit x.
Lemma all_fit_self e : all_fit e -> fit e.
Proof. intros W. apply W. rewrite all_elems_eq. left. reflexivity. Qed.
Lemma all_fit_sub e x : all_fit e -> In x (e_subs e) -> all_fit x.
Proof. intros W H z Hz. apply W. rewrite all_elems_eq. right. apply in_flat_map. exists x. split; assumption. Qed.

Section Ident.
Variables one two : list line.
Hypothesis L : alike one two.
Let K : list str := keys_of one.
(* the lines taken for user defined ones are the same *)
Hypothesis HU : forall tags i sg lo hi tags', user_words tags -> get_min_max tags i K (Some (lit "USER_DEFINED")) sg = Ok ((lo, hi), tags') ->
  slice lo hi one = slice lo hi two.

Lemma plain_tags tags i sg mm tags' : get_min_max tags i K None sg = Ok (mm, tags') -> tags' = tags.
Proof. unfold get_min_max. intros H. inv_ok H. inv_ok H. injection H as _ <-. reflexivity. Qed.
Lemma user_tags tags i sg mm tags' : user_words tags -> get_min_max tags i K (Some (lit "USER_DEFINED")) sg = Ok (mm, tags') -> user_words tags'.
Proof.
  intros [W1 W2]. unfold get_min_max. intros H. inv_ok H. inv_ok H. injection H as _ <-. cbn [extend_tags]. split; [rewrite app_length; lia|].
  intros t Ht. apply in_app_or in Ht. destruct Ht as [Ht|Ht]; [exact (W2 t Ht)|]. apply filter_In in Ht. right. apply Ht.
Qed.
Definition taken (e : elem) (mm : nat * nat) : Prop := user e = true -> slice (fst mm) (snd mm) one = slice (fst mm) (snd mm) two.
Lemma own_fit e lines i mm e' : fit e -> own_range u e K lines i = Ok (mm, e') -> fit e' /\ user e' = user e /\ e_subs e' = e_subs e /\ taken e mm.
Proof.
  intros Fe H. unfold taken, user. destruct (String.eqb (e_cls e) "UserDefinedType") eqn:Eu.
  - assert (Ec : e_cls e = "UserDefinedType") by (apply String.eqb_eq; exact Eu). destruct Fe as [F1 [F2 F3]]. specialize (F2 Eu).
    unfold own_range in H. rewrite Ec in H. cbn [String.eqb Ascii.eqb Bool.eqb orb] in H. inv_ok H. destruct a as [[lo hi] tags]. injection H as <- <-.
    pose proof (user_tags _ _ _ _ _ F2 E) as W. split; [|split; [exact Eu|split; [reflexivity|]]].
    + split; [exact F1|]. split; [intros _; exact W|]. intros p Ep. cbn [set_kws e_kws e_cls e_single] in *. intros Hk. exfalso.
      destruct W as [_ W]. destruct (W k Hk) as [X|X]; [exact (Hcm X)|rewrite Hus in X; discriminate].
    + intros _. exact (HU _ _ _ _ _ _ F2 E).
  - assert (X : e' = e).
    { unfold own_range in H. rewrite Eu in H. destruct (_ || _); [inv_ok H; injection H as _ <-; reflexivity|].
      destruct (String.eqb (e_cls e) "TrackingDataObservationType"); [inv_ok H; injection H as _ <-; reflexivity|].
      destruct (String.eqb (e_cls e) "OemCovarianceMatrixType"); inv_ok H; [destruct a as [[lo hi] tags]|destruct a as [mm1 tags]]; injection H as _ <-;
        apply plain_tags in E; subst tags; apply set_kws_same. }
    subst e'. split; [exact Fe|]. split; [exact Eu|]. split; [reflexivity|discriminate].
Qed.
Lemma own_alike e i : fit e -> own_range u e K one i = own_range u e K two i.
Proof.
  intros [F _]. unfold own_range. rewrite F. destruct (_ || _).
  - unfold date_range. f_equal. apply alike_get; [exact L|]. intros x y R. rewrite (lrel_get0 x y R). reflexivity.
  - destruct (String.eqb (e_cls e) "OemCovarianceMatrixType"); [|reflexivity]. destruct (get_min_max _ _ _ _ _) as [[[lo hi] t]|]; [|reflexivity]. cbn [bind].
    rewrite (alike_floats _ _ (alike_skipn one two hi L)). reflexivity.
Qed.

(* ---- the sections found ---- *)
Definition good (z : elem) : Prop := fit z /\ taken z (e_mm z).
Definition all_good (e : elem) : Prop := forall z, In z (all_elems e) -> good z.
Lemma all_good_intro e : good e -> (forall x, In x (e_subs e) -> all_good x) -> all_good e.
Proof.
  intros C S0 z Hz. rewrite all_elems_eq in Hz. destruct Hz as [<-|Hz]; [exact C|]. apply in_flat_map in Hz. destruct Hz as [x [Hs Hz]]. exact (S0 x Hs z Hz).
Qed.
Definition good_ident (r : res ident) : Prop :=
  match r with
  | Ok (_, mm, e') => fit e' /\ taken e' mm /\ (forall x, In x (e_subs e') -> all_good x)
  | Err _ => True
  end.
Lemma good_mm e mm : fit e -> taken e mm -> (forall x, In x (e_subs e) -> all_good x) -> all_good (set_mm e mm).
Proof. intros F U S0. apply all_good_intro; [split; [exact F|exact U]|exact S0]. Qed.
Lemma list_good op n f : (forall i, good_ident (op i)) -> forall i last mx es, identify_list op n f i last = Ok (mx, es) -> Forall all_good es.
Proof.
  intros G. induction f as [|f IH]; intros i last mx es; [discriminate|]. rewrite identify_list_S. pose proof (G i) as Gi.
  destruct (op i) as [[[mx' [lo hi]] e]|x]; [|discriminate]. cbn [bind good_ident] in *. destruct Gi as [G1 [G2 G3]].
  assert (W : all_good (set_mm e (lo, hi))) by (apply good_mm; assumption).
  destruct (_ && _); [intros X; injection X as <- <-; constructor|]. destruct (Nat.ltb _ _); [intros X; injection X as <- <-; constructor|].
  cbv zeta. destruct (Nat.leb _ _); [intros X; injection X as <- <-; constructor; [exact W|constructor]|].
  intros H. inv_ok H. destruct a as [mx2 es2]. injection H as <- <-. constructor; [exact W|]. eapply IH; exact E.
Qed.
Lemma list_alike op op2 n f : (forall i, op i = op2 i) -> forall i last, identify_list op n f i last = identify_list op2 n f i last.
Proof.
  intros E. induction f as [|f IH]; intros i last; [reflexivity|]. rewrite !identify_list_S, <- (E i).
  destruct (op i) as [[[mx [lo hi]] e]|x]; [|reflexivity]. cbn [bind]. destruct (_ && _); [reflexivity|]. destruct (Nat.ltb _ _); [reflexivity|].
  cbv zeta. destruct (Nat.leb _ _); [reflexivity|]. rewrite IH. reflexivity.
Qed.
Lemma subs_alike lo ss :
  Forall (fun x => forall i, identify u x K one i = identify u x K two i /\ good_ident (identify u x K one i)) ss ->
  forall i, ident_subs u K one lo ss i = ident_subs u K two lo ss i /\ forall mx gs, ident_subs u K one lo ss i = Ok (mx, gs) -> Forall all_good gs.
Proof.
  intros F. induction F as [|x ss Hs F IH]; intros i; cbn [ident_subs].
  { split; [reflexivity|]. intros mx gs X. injection X as <- <-. constructor. }
  rewrite <- (alike_length one two L). destruct (e_islist x).
  - rewrite <- (list_alike (identify u x K one) (identify u x K two)) by (intros j; apply Hs).
    destruct (identify_list _ _ _ i i) as [[i' es]|er] eqn:E; [|split; [reflexivity|discriminate]]. cbn [bind].
    apply list_good in E; [|intros j; apply Hs]. destruct (IH i') as [I1 I2]. rewrite <- I1. split; [reflexivity|].
    intros mx gs X. inv_ok X. destruct a as [i'' gs']. injection X as <- <-. apply Forall_app. split; [exact E|exact (I2 _ _ E0)].
  - destruct (Hs i) as [H1 H2]. rewrite <- H1. destruct (identify u x K one i) as [[[i' smm] x']|er]; [|split; [reflexivity|discriminate]].
    cbn [bind good_ident] in *. destruct H2 as [B1 [B2 B3]]. rewrite <- (own_alike x' lo B1). destruct (IH i') as [I1 I2]. rewrite <- I1. split; [reflexivity|].
    intros mx gs X. inv_ok X. inv_ok X. destruct a0 as [i'' gs']. injection X as <- <-. constructor; [|exact (I2 _ _ E0)]. destruct (_ && _).
    + inv_ok E. destruct a0 as [mm2 r2]. injection E as <-. destruct (own_fit _ _ _ _ _ B1 E1) as [P1 [P2 [P3 P4]]]. cbn [fst snd]. apply good_mm; [exact P1|unfold taken; rewrite P2; exact P4|rewrite P3; exact B3].
    + injection E as <-. apply good_mm; assumption.
Qed.
Lemma identify_alike : forall e, all_fit e -> forall i,
  identify u e K one i = identify u e K two i /\ good_ident (identify u e K one i).
Proof.
  intros e. induction e as [n c subs kw l sg m t F] using elem_ind'. intros W i. rewrite !identify_eq.
  pose proof (all_fit_self _ W) as Se. rewrite <- (own_alike _ i Se).
  destruct (own_range u _ K one i) as [[mm e1]|er] eqn:Eo; [|split; [reflexivity|exact I]]. cbn [bind e_subs].
  destruct (own_fit _ _ _ _ _ Se Eo) as [P1 [P2 [P3 P4]]]. destruct subs as [|s0 subs].
  - split; [reflexivity|]. split; [exact P1|]. split; [unfold taken; rewrite P2; exact P4|]. rewrite P3. intros x [].
  - destruct (subs_alike (fst mm) (s0 :: subs)) with (i := snd mm) as [S1 S2].
    + apply Forall_forall. intros x Hx0. rewrite Forall_forall in F. apply (F x Hx0). apply (all_fit_sub _ _ W). exact Hx0.
    + rewrite <- S1. destruct (ident_subs u K one (fst mm) (s0 :: subs) (snd mm)) as [[mx gs]|er]; [|split; [reflexivity|exact I]]. cbn [bind good_ident].
      split; [reflexivity|]. specialize (S2 _ _ eq_refl). rewrite Forall_forall in S2. split; [exact P1|]. split; [unfold taken; cbn [user set_subs e_cls]; change (user (set_subs e1 gs)) with (user e1); rewrite P2; exact P4|exact S2].
Qed.
End Ident.

(* ---- parsing ---- *)
Definition crel (c c' : child) : Prop := c = c' \/ exists attrs, c = (k, attrs, s) /\ c' = (k, attrs, s').
Lemma children_alike a b : alike a b ->
  match map_res child_of_line a, map_res child_of_line b with Ok x, Ok y => Forall2 crel x y | Err x, Err y => x = y | _, _ => False end.
Proof.
  induction 1 as [|x y a b R H IH]; [constructor|]. cbn [map_res].
  destruct R as [->|[w [-> ->]]].
  - destruct (child_of_line y) as [c|]; [|reflexivity]. cbn [bind]. destruct (map_res child_of_line a), (map_res child_of_line b); try contradiction; cbn [bind].
    + constructor; [left; reflexivity|exact IH].
    + exact IH.
  - change (child_of_line (k :: s :: w)) with (Ok (k, match nth_error (k :: s :: w) 2 with Some un => [("units", un)] | None => [] end, s)).
    change (child_of_line (k :: s' :: w)) with (Ok (k, match nth_error (k :: s' :: w) 2 with Some un => [("units", un)] | None => [] end, s')).
    cbn [bind]. destruct (map_res child_of_line a), (map_res child_of_line b); try contradiction; cbn [bind].
    + constructor; [right|exact IH]. eexists. split; reflexivity.
    + exact IH.
Qed.
Lemma bind_alike c cs cs' : Forall2 crel cs cs' -> forall seen vars,
  bind_children u c (fields_of c) seen cs vars = bind_children u c (fields_of c) seen cs' vars.
Proof.
  induction 1 as [|x y cs cs' R H IH]; intros seen vars; [reflexivity|]. destruct R as [->|[attrs [-> ->]]].
  - destruct y as [[t at_] tx]. cbn [bind_children]. destruct (child_ok _); [|reflexivity]. destruct (find_elem t (fields_of c)) as [f|]; [|reflexivity].
    cbv zeta. rewrite !IH. reflexivity.
  - cbn [bind_children]. replace (child_ok (k, attrs, s')) with (child_ok (k, attrs, s)) by (cbn [child_ok]; rewrite Hx; reflexivity).
    destruct (child_ok _); [|reflexivity]. destruct (find_elem k (fields_of c)) as [f|] eqn:E; [|reflexivity]. cbv zeta. rewrite (Hb c f attrs E), !IH. reflexivity.
Qed.
Lemma parse_alike c a b : alike a b -> parse_list u c None a = parse_list u c None b.
Proof.
  intros L. unfold parse_list. pose proof (children_alike a b L) as C. destruct (map_res child_of_line a), (map_res child_of_line b); try contradiction; cbn [bind].
  - rewrite (bind_alike c _ _ C). reflexivity.
  - congruence.
Qed.
Lemma single_alike c p a b : alike a b -> (In k (keys_of a) -> forall attrs, bind_value_obj u c attrs s = bind_value_obj u c attrs s') ->
  parse_single u c p a = parse_single u c p b.
Proof.
  intros L H. unfold parse_single. destruct L as [|x y a b R L]; [reflexivity|]. cbn [get nth_error guard_opt bind]. destruct R as [->|[w [-> ->]]]; [reflexivity|].
  unfold get. cbn [nth_error guard_opt bind]. cbv zeta. cbn [child_ok]. rewrite Hx, H by (left; reflexivity). reflexivity.
Qed.

(* ---- building ---- *)
Definition relz (z : elem) (f g : list line) : Prop :=
  slice (fst (e_mm z)) (snd (e_mm z)) f = slice (fst (e_mm z)) (snd (e_mm z)) g \/
  (fit z /\ user z = false /\ alike (slice (fst (e_mm z)) (snd (e_mm z)) f) (slice (fst (e_mm z)) (snd (e_mm z)) g)).
Definition rel (e : elem) (f g : list line) : Prop := forall z, In z (all_elems e) -> relz z f g.
Lemma rel_sub e x f g : rel e f g -> In x (e_subs e) -> rel x f g.
Proof. intros W H z Hz. apply W. rewrite all_elems_eq. right. apply in_flat_map. exists x. split; assumption. Qed.
Lemma rel_self e f g : rel e f g -> relz e f g.
Proof. intros W. apply W. rewrite all_elems_eq. left. reflexivity. Qed.
Lemma rel_same e e' f g : rel e f g -> e_mm e' = e_mm e -> e_cls e' = e_cls e -> e_kws e' = e_kws e -> e_single e' = e_single e ->
  (forall x, In x (e_subs e') -> rel x f g) -> rel e' f g.
Proof.
  intros W E1 E2 E3 E4 S0 z Hz. rewrite all_elems_eq in Hz. destruct Hz as [<-|Hz].
  - pose proof (rel_self e f g W) as R. unfold relz, fit, user in *. rewrite E1, E2, E3, E4. exact R.
  - apply in_flat_map in Hz. destruct Hz as [x [Hs Hz]]. exact (S0 x Hs z Hz).
Qed.
Lemma good_rel e f g : all_good f g e -> alike f g -> rel e f g.
Proof.
  intros W L z Hz. destruct (W z Hz) as [F U]. destruct (user z) eqn:Eu.
  - left. exact (U Eu).
  - right. split; [exact F|]. split; [exact Eu|apply alike_slice; exact L].
Qed.
Lemma prepare_rel e e' d f g : prepare_aem_segment e d = Ok e' -> rel e f g -> rel e' f g.
Proof.
  unfold prepare_aem_segment. intros H W. inv_ok H. inv_ok H. destruct a0 as [att tmpl]. injection H as <-.
  apply get_ok in E. assert (Ha : In a (e_subs e)) by (eapply nth_error_In; exact E).
  apply (rel_same e); try reflexivity; [exact W|]. intros x Hx0. cbn [set_subs e_subs] in *.
  apply in_app_or in Hx0. destruct Hx0 as [Hx0|[<-|Hx0]].
  - apply (rel_sub e); [exact W|]. rewrite <- (firstn_skipn 1 (e_subs e)). apply in_or_app. left. exact Hx0.
  - pose proof (rel_sub e a f g W Ha) as Sa. apply (rel_same a); try reflexivity; [exact Sa|]. intros y Hy. cbn [set_subs e_subs] in Hy.
    apply in_map_iff in Hy. destruct Hy as [z [<- Hz]]. pose proof (rel_sub _ z _ _ Sa Hz) as Sz.
    apply (rel_same z); try reflexivity; [exact Sz|]. intros w Hw. cbn [set_tmpl set_subs e_subs] in Hw.
    apply filter_In in Hw. apply (rel_sub _ w _ _ Sz). apply Hw.
  - apply (rel_sub e); [exact W|]. rewrite <- (firstn_skipn 2 (e_subs e)). apply in_or_app. right. exact Hx0.
Qed.
Lemma lookup_alike key a b i : alike a b -> k <> key -> lookup_line key a i = lookup_line key b i.
Proof.
  intros L N. unfold lookup_line. rewrite <- (alike_keys a b L). destruct (index_start key (keys_of a) i) as [j|] eqn:E; [|reflexivity].
  cbn [guard_opt bind]. apply index_start_nth in E. revert j E. clear i. induction L as [|x y a b R L IH]; intros j E; [destruct j; discriminate|].
  destruct j as [|j]; [|exact (IH j E)]. cbn in E. injection E as E. cbn [get nth_error guard_opt bind]. rewrite (lrel_other x y R); [reflexivity|congruence].
Qed.
Lemma prepare_alike e a b : alike a b -> prepare_aem_segment e a = prepare_aem_segment e b.
Proof.
  intros L. destruct Hatt as [H1 [H2 H3]]. unfold prepare_aem_segment. destruct (get (e_subs e) 1); [|reflexivity]. cbn [bind].
  unfold att_template. rewrite !(lookup_alike _ a b _ L) by assumption. reflexivity.
Qed.
Lemma fold_same {A B} (f g : A -> B -> A) l a : (forall a b, In b l -> f a b = g a b) -> fold_left f l a = fold_left g l a.
Proof. revert a. induction l as [|b l IH]; intros a H; [reflexivity|]. cbn [fold_left]. rewrite H by (left; reflexivity). apply IH. intros; apply H; right; assumption. Qed.
Lemma root_words e : match e_kws e with [a; b] => str_eqb a (lit "id") && str_eqb b (lit "version") | _ => false end = true ->
  mem_str k (e_kws e) = false.
Proof.
  intros H. destruct (e_kws e) as [|a [|b [|c r]]]; try discriminate. apply andb_true_iff in H. destruct H as [H1 H2]. apply str_eqb_eq in H1, H2. subst.
  cbn [mem_str]. apply mem_str_false. intros [X|[X|[]]]; congruence.
Qed.
Lemma build_alike a b : alike a b -> forall fuel e f g, rel e f g -> build u fuel a e f = build u fuel b e g.
Proof.
  intros L. induction fuel as [|n IH]; intros e f g W; [reflexivity|]. cbn [build].
  pose proof (rel_self e f g W) as R. unfold relz in R.
  set (local := slice (fst (e_mm e)) (snd (e_mm e)) f) in *. set (local2 := slice (fst (e_mm e)) (snd (e_mm e)) g) in *. clearbody local local2.
  assert (Fl : forall obj subs, (forall x, In x subs -> rel x f g) ->
    match obj with
    | VObj c vars => do vars' <- fold_left (fun acc s => do vs <- acc; do sub <- build u n a s f; attach (e_name s) sub vs) subs (Ok vars); Ok (VObj c vars')
    | _ => Err AttributeError end =
    match obj with
    | VObj c vars => do vars' <- fold_left (fun acc s => do vs <- acc; do sub <- build u n b s g; attach (e_name s) sub vs) subs (Ok vars); Ok (VObj c vars')
    | _ => Err AttributeError end).
  { intros obj subs H. destruct obj; try reflexivity. f_equal. apply fold_same. intros acc x Hs. destruct acc; [|reflexivity]. cbn [bind].
    rewrite (IH x f g (H x Hs)). reflexivity. }
  assert (Se : forall x, In x (e_subs e) -> rel x f g) by (intros x Hs; exact (rel_sub e x f g W Hs)).
  assert (Fb : forall A (r r' : res A) h h', r = r' -> (forall x, r = Ok x -> h x = h' x) -> @bind A pyval r h = bind r' h').
  { intros A r r' h h' <- H. destruct r; [apply H; reflexivity|reflexivity]. }
  destruct R as [<-|[Fz [Un La]]].
  - destruct local as [|l0 local]; [destruct (e_subs e) as [|s0 ss] eqn:Es; [reflexivity|]; rewrite <- Es in Se |- *|];
    (destruct (String.eqb (e_cls e) "AemSegment");
     [rewrite <- (prepare_alike e a b L); apply Fb; [reflexivity|]; intros e' He; apply Fb; [reflexivity|]; intros obj _; apply Fl;
      intros x Hs; exact (rel_sub e' x f g (prepare_rel e e' a f g He W) Hs)|]);
    (destruct (String.eqb (e_cls e) "AttitudeStateType");
     [apply Fb; [reflexivity|]; intros tm _; apply Fb; [reflexivity|]; intros l1 _; apply Fb; [reflexivity|]; intros t _; apply Fb; [reflexivity|];
      intros [[mx mm] e1] _; apply Fb; [reflexivity|]; intros sub _;
      rewrite (IH sub _ (zip_lines tm (split_ws t))); [reflexivity|intros x _; left; reflexivity]|]);
    (destruct (String.eqb (e_cls e) "StateVectorAccType");
     [apply Fb; [reflexivity|]; intros l1 _; apply Fb; [reflexivity|]; intros t _; apply Fb; [reflexivity|]; intros obj _; apply Fl; exact Se|]);
    (destruct (String.eqb (e_cls e) "OemCovarianceMatrixType"); [apply Fb; [reflexivity|]; intros obj _; apply Fl; exact Se|]);
    (destruct (String.eqb (e_cls e) "TrackingDataObservationType");
     [apply Fb; [reflexivity|]; intros l1 _; apply Fb; [reflexivity|]; intros t _; apply Fb; [reflexivity|]; intros t2 _; apply Fb; [reflexivity|]; intros obj _; apply Fl; exact Se|]).
    all: destruct (match (if String.eqb (e_cls e) "UserDefinedType" then _ else _) with Some _ => _ | None => _ end);
         try (destruct (e_subs e); [reflexivity|]); (apply Fb; [reflexivity|intros obj _; apply Fl; exact Se]).
  - destruct Fz as [Nt [_ Sg]]. unfold user in Un. rewrite Nt, Un.
    assert (Em : (local = [] /\ local2 = []) \/ exists l0 l1 r0 r1, local = l0 :: r0 /\ local2 = l1 :: r1) by (destruct La; [left; auto|right; do 4 eexists; eauto]).
    assert (G0 : forall A (h : str -> res A), (do l0 <- get local 0; do t <- get l0 0; h t) = (do l0 <- get local2 0; do t <- get l0 0; h t)).
    { intros A h. apply alike_get; [exact La|]. intros x y Rl. rewrite (lrel_get0 x y Rl). reflexivity. }
    destruct (match local with [] => match e_subs e with [] => true | _ => false end | _ => false end) eqn:Es.
    { destruct local; [|discriminate]. inversion La; subst. destruct (e_subs e); [reflexivity|discriminate]. }
    assert (Es2 : match local2 with [] => match e_subs e with [] => true | _ => false end | _ => false end = false) by (destruct La; assumption).
    assert (M : forall (l : list line) (x y : res pyval), match l with [] => match e_subs e with [] => true | _ => false end | _ => false end = false ->
      match l, match e_subs e with [] => true | _ => false end with [], true => x | _, _ => y end = y).
    { intros [|l0 l] x y H; destruct (e_subs e); try reflexivity; discriminate. }
    rewrite (M local _ _ Es), (M local2 _ _ Es2). clear M Es Es2 Em.
    destruct (String.eqb (e_cls e) "AemSegment").
    { rewrite <- (prepare_alike e a b L). apply Fb; [reflexivity|]. intros e' He. apply Fb; [apply parse_alike; exact La|]. intros obj _. apply Fl.
      intros x Hs. exact (rel_sub e' x f g (prepare_rel e e' a f g He W) Hs). }
    destruct (String.eqb (e_cls e) "AttitudeStateType").
    { apply Fb; [reflexivity|]. intros tm _. rewrite <- G0. apply Fb; [reflexivity|]; intros l1 _; apply Fb; [reflexivity|]; intros t _; apply Fb; [reflexivity|].
      intros [[mx mm] e1] _; apply Fb; [reflexivity|]; intros sub _.
      rewrite (IH sub _ (zip_lines tm (split_ws t))); [reflexivity|intros x _; left; reflexivity]. }
    destruct (String.eqb (e_cls e) "StateVectorAccType").
    { rewrite <- G0. apply Fb; [reflexivity|]; intros l1 _; apply Fb; [reflexivity|]; intros t _; apply Fb; [reflexivity|]; intros obj _; apply Fl; exact Se. }
    destruct (String.eqb (e_cls e) "OemCovarianceMatrixType").
    { apply Fb; [|intros obj _; apply Fl; exact Se]. apply parse_alike. apply alike_app; [exact (alike_filter (isalpha u) _ _ La)|].
      rewrite (alike_words _ _ (alike_filter (fun t => negb (isalpha u t)) _ _ La)). apply alike_refl. }
    pose proof (alike_filter (fun t => mem_str t (e_kws e)) _ _ La) as Lf. cbv beta in Lf.
    assert (Eo : (if match e_kws e with [a; b] => str_eqb a (lit "id") && str_eqb b (lit "version") | _ => false end
                  then parse_root (e_cls e) (filter (fun l => mem_str (key_of l) (e_kws e)) local)
                  else match e_single e with Some p => parse_single u (e_cls e) p (filter (fun l => mem_str (key_of l) (e_kws e)) local)
                       | None => parse_list u (e_cls e) None (filter (fun l => mem_str (key_of l) (e_kws e)) local) end) =
                 (if match e_kws e with [a; b] => str_eqb a (lit "id") && str_eqb b (lit "version") | _ => false end
                  then parse_root (e_cls e) (filter (fun l => mem_str (key_of l) (e_kws e)) local2)
                  else match e_single e with Some p => parse_single u (e_cls e) p (filter (fun l => mem_str (key_of l) (e_kws e)) local2)
                       | None => parse_list u (e_cls e) None (filter (fun l => mem_str (key_of l) (e_kws e)) local2) end)).
    { destruct (match e_kws e with [a; b] => _ | _ => _ end) eqn:Er.
      - rewrite (alike_filter_same (fun t => mem_str t (e_kws e)) _ _ (root_words e Er) La). reflexivity.
      - destruct (e_single e) as [p|]; [|apply parse_alike; exact Lf]. apply single_alike; [exact Lf|]. intros Hin attrs. apply (Sg p eq_refl).
        unfold keys_of in Hin. apply in_map_iff in Hin. destruct Hin as [l [El Hl]]. apply filter_In in Hl. destruct Hl as [_ Hl]. rewrite El in Hl.
        apply mem_str_spec. exact Hl. }
    revert Lf Eo. generalize (filter (fun l => mem_str (key_of l) (e_kws e)) local) (filter (fun l => mem_str (key_of l) (e_kws e)) local2).
    intros x y Lf Eo. destruct Lf; [destruct (e_subs e); [reflexivity|]|]; (apply Fb; [exact Eo|]; intros obj _; apply Fl; exact Se).
Qed.
End Alike.
