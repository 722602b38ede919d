(* A document in which the value of one line is replaced: at most one section is built from that line. *)
From Coq Require Import NArith ZArith List Bool String Arith Lia.
From Verif Require Import PyStr PyDec PyVal Schema KvnPre KvnTree KvnSeg XmlBind KvnBuild
     Spec SpecKvn SpecFrom SpecPlace StrFacts PreFacts SegFacts BuildFacts ReadFacts GapFacts ComposeFacts AlikeFacts.
Import ListNotations.
Local Open Scope string_scope.
Local Open Scope list_scope.
Local Arguments find_class : simpl never.
Local Arguments lit : simpl never.

Definition rrel {A} (R : A -> A -> Prop) (r r' : res A) : Prop :=
  match r, r' with Ok a, Ok b => R a b | Err e, Err e' => e = e' | _, _ => False end.
Lemma rrel_bind {A B} (R : A -> A -> Prop) (Q : B -> B -> Prop) r r' h h' : rrel R r r' ->
  (forall a b, r = Ok a -> r' = Ok b -> R a b -> rrel Q (h a) (h' b)) -> rrel Q (bind r h) (bind r' h').
Proof. destruct r, r'; cbn; intros H G; try contradiction; [apply G; auto|exact H]. Qed.
Lemma rrel_refl {A} (R : A -> A -> Prop) r : (forall a, R a a) -> rrel R r r.
Proof. intros H. destruct r; cbn; [apply H|reflexivity]. Qed.
Lemma rrel_impl {A} (R Q : A -> A -> Prop) r r' : (forall a b, R a b -> Q a b) -> rrel R r r' -> rrel Q r r'.
Proof. intros H. destruct r, r'; cbn; intros X; try contradiction; [apply H; exact X|exact X]. Qed.

Section Place.
Variable u : env.
Variables k s s' : str.

(* ---- one section ---- *)
Definition is_vlist (v : pyval) : bool := match v with VList _ => true | _ => false end.
Definition keyword_of (c n : string) : Prop := exists f, In f (fields_of c) /\ f_kind f = KElem /\ kvn_name f = k /\ f_name f = n.
(* the values of one name differ *)
Definition vchg (c : string) (vs vs' : list (string * pyval)) : Prop :=
  exists a n x x' b, vs = a ++ (n, x) :: b /\ vs' = a ++ (n, x') :: b /\ is_vlist x = is_vlist x' /\ (one_change k x x' \/ keyword_of c n).
Lemma vchg_object c vs vs' : vchg c vs vs' -> one_change k (VObj c vs) (VObj c vs').
Proof.
  intros [a [n [x [x' [b [-> [-> [_ [H|[f [F1 [F2 [F3 <-]]]]]]]]]]]]]; [apply change_inside; exact H|apply change_field; assumption].
Qed.
Lemma vchg_cons c y vs vs' : vchg c vs vs' -> vchg c (y :: vs) (y :: vs').
Proof. intros [a [n [x [x' [b [-> [-> H]]]]]]]. exists (y :: a), n, x, x', b. split; [reflexivity|]. split; [reflexivity|exact H]. Qed.
Lemma change_vlist l l' v : one_change k (VList l) (VList l') -> one_change k (VList (l ++ [v])) (VList (l' ++ [v])).
Proof.
  intros H. inversion H; subst; [apply change_none|]. rewrite <- !app_assoc. cbn [app]. apply change_element. assumption.
Qed.
Lemma change_listness x x' : one_change k x x' -> is_vlist x = is_vlist x'.
Proof. intros []; reflexivity. Qed.
Lemma set_chg c n v vs vs' : vchg c vs vs' -> set_var n v vs = set_var n v vs' \/ vchg c (set_var n v vs) (set_var n v vs').
Proof.
  intros [a [m [x [x' [b [-> [-> [H1 H2]]]]]]]]. induction a as [|[q y] a IH]; cbn [app set_var].
  - destruct (String.eqb m n); [left; reflexivity|right]. exists [], m, x, x', (set_var n v b). auto.
  - destruct (String.eqb q n).
    + right. exists ((q, v) :: a), m, x, x', b. auto.
    + destruct IH as [IH|IH]; [left; rewrite IH; reflexivity|right; apply vchg_cons; exact IH].
Qed.
Lemma append_chg c n v vs vs' : vchg c vs vs' -> append_var n v vs = append_var n v vs' \/ vchg c (append_var n v vs) (append_var n v vs').
Proof.
  intros [a [m [x [x' [b [-> [-> [H1 H2]]]]]]]]. right. induction a as [|[q y] a IH]; cbn [app append_var].
  - destruct (String.eqb m n).
    + eexists [], m, _, _, b. split; [reflexivity|]. split; [reflexivity|]. destruct x, x'; try discriminate H1; (split; [reflexivity|]); try exact H2.
      destruct H2 as [H2|H2]; [left; apply change_vlist; exact H2|right; exact H2].
    + exists [], m, x, x', (append_var n v b). auto.
  - destruct (String.eqb q n).
    + eexists ((q, _) :: a), m, x, x', b. split; [reflexivity|]. split; [reflexivity|auto].
    + apply vchg_cons. exact IH.
Qed.
Lemma set_own c n v v' vs : is_vlist v = is_vlist v' -> one_change k v v' \/ keyword_of c n ->
  set_var n v vs = set_var n v' vs \/ vchg c (set_var n v vs) (set_var n v' vs).
Proof.
  intros Hl H. induction vs as [|[q y] vs IH]; [left; reflexivity|]. cbn [set_var]. destruct (String.eqb q n) eqn:E.
  - apply String.eqb_eq in E. subst q. right. exists [], n, v, v', vs. auto.
  - destruct IH as [->|IH]; [left; reflexivity|right; apply vchg_cons; exact IH].
Qed.
Lemma append_own c n v v' vs : one_change k v v' \/ keyword_of c n ->
  append_var n v vs = append_var n v' vs \/ vchg c (append_var n v vs) (append_var n v' vs).
Proof.
  intros H. induction vs as [|[q y] vs IH]; [left; reflexivity|]. cbn [append_var]. destruct (String.eqb q n) eqn:E.
  - apply String.eqb_eq in E. subst q. destruct y; try (left; reflexivity). right. eexists [], n, _, _, vs. split; [reflexivity|]. split; [reflexivity|]. split; [reflexivity|].
    destruct H as [H|H]; [left; apply change_element; exact H|right; exact H].
  - destruct IH as [->|IH]; [left; reflexivity|right; apply vchg_cons; exact IH].
Qed.
(* ---- one line with another value ---- *)
Definition odd (a b : list line) : Prop := a = b \/ exists x w y, a = x ++ (k :: s :: w) :: y /\ b = x ++ (k :: s' :: w) :: y.
Lemma odd_alike a b : odd a b -> alike k s s' a b.
Proof.
  intros [->|[x [w [y [-> ->]]]]]; [apply alike_refl|]. apply alike_app; [apply alike_refl|]. constructor; [|apply alike_refl]. right. exists w. auto.
Qed.
Lemma odd_skipn n a b : odd a b -> odd (skipn n a) (skipn n b).
Proof.
  intros [->|[x [w [y [-> ->]]]]]; [left; reflexivity|]. revert x. induction n as [|n IH]; intros x; [right; exists x, w, y; auto|].
  destruct x as [|l x]; cbn [app skipn]; [left; reflexivity|apply IH].
Qed.
Lemma odd_firstn n a b : odd a b -> odd (firstn n a) (firstn n b).
Proof.
  intros [->|[x [w [y [-> ->]]]]]; [left; reflexivity|]. revert x. induction n as [|n IH]; intros x; [left; reflexivity|].
  destruct x as [|l x]; cbn [app firstn]; [right; exists [], w, (firstn n y); auto|]. destruct (IH x) as [->|[x1 [w1 [y1 [-> ->]]]]]; [left; reflexivity|].
  right. exists (l :: x1), w1, y1. auto.
Qed.
Lemma odd_slice lo hi a b : odd a b -> odd (slice lo hi a) (slice lo hi b).
Proof. intros H. unfold slice. apply odd_firstn, odd_skipn, H. Qed.
Lemma odd_filter (q : str -> bool) a b : odd a b -> odd (filter (fun l => q (key_of l)) a) (filter (fun l => q (key_of l)) b).
Proof.
  intros [->|[x [w [y [-> ->]]]]]; [left; reflexivity|]. rewrite !filter_app. cbn [filter]. change (key_of (k :: s :: w)) with k. change (key_of (k :: s' :: w)) with k.
  destruct (q k); [right; do 3 eexists; split; reflexivity|left; reflexivity].
Qed.
Lemma odd_app a b c : odd a b -> odd (a ++ c) (b ++ c).
Proof. intros [->|[x [w [y [-> ->]]]]]; [left; reflexivity|]. right. exists x, w, (y ++ c). rewrite <- !app_assoc. auto. Qed.

Hypothesis Hx : xml_text s = true.
Hypothesis Hx' : xml_text s' = true.
Hypothesis Hs : s <> [].
Hypothesis Hs' : s' <> [].
Lemma conv_plain c n t x : x <> [] -> is_vlist (conv u c n t x) = false.
Proof.
  intros H. destruct x as [|y x]; [congruence|]. unfold conv. destruct t as [| | |cl]; try reflexivity.
  - destruct (py_int u (y :: x)); reflexivity.
  - destruct (py_decimal u (y :: x)); reflexivity.
  - destruct (find_class cl) as [[]|]; try reflexivity. unfold conv_enum. destruct (find _ _); reflexivity.
Qed.
Lemma bind_plain c f attrs x : x <> [] -> is_vlist (bind_child u c f attrs x) = false.
Proof.
  intros H. unfold bind_child. destruct (f_ty f) as [| | |cl]; try (apply conv_plain; exact H). destruct (find_class cl) as [[]|]; try (apply conv_plain; exact H). reflexivity.
Qed.
Lemma find_elem_keyword c f : find_elem k (fields_of c) = Some f -> keyword_of c (f_name f).
Proof.
  intros H. apply find_some in H. destruct H as [H1 H2]. exists f. split; [exact H1|]. destruct (f_kind f); try discriminate. split; [reflexivity|].
  apply str_eqb_eq in H2. split; [exact H2|reflexivity].
Qed.
(* the same, or with another value under the keyword *)
Definition vrel (c : string) (vs vs' : list (string * pyval)) : Prop := vs = vs' \/ (find_elem k (fields_of c) <> None /\ vchg c vs vs').
Lemma bind_same c cs : forall seen vs vs', vrel c vs vs' ->
  rrel (vrel c) (bind_children u c (fields_of c) seen cs vs) (bind_children u c (fields_of c) seen cs vs').
Proof.
  induction cs as [|[[tag attrs] t] cs IH]; intros seen vs vs' V; [exact V|]. cbn [bind_children]. destruct (child_ok (tag, attrs, t)); [|reflexivity].
  destruct (find_elem tag (fields_of c)) as [f|]; [|reflexivity]. cbv zeta.
  destruct (f_list f); [|destruct (existsb _ seen); [reflexivity|]]; apply IH; (destruct V as [->|[N V]]; [left; reflexivity|]).
  - destruct (append_chg c (f_name f) (bind_child u c f attrs t) vs vs' V) as [X|X]; [left; exact X|right; split; assumption].
  - destruct (set_chg c (f_name f) (bind_child u c f attrs t) vs vs' V) as [X|X]; [left; exact X|right; split; assumption].
Qed.
Lemma bind_odd c before attrs after : forall seen vs,
  rrel (vrel c) (bind_children u c (fields_of c) seen (before ++ (k, attrs, s) :: after) vs) (bind_children u c (fields_of c) seen (before ++ (k, attrs, s') :: after) vs).
Proof.
  induction before as [|[[tag at_] t] before IH]; intros seen vs; cbn [app bind_children].
  - cbn [child_ok]. rewrite Hx, Hx'. cbn [andb]. destruct (forallb _ attrs); [|reflexivity]. destruct (find_elem k (fields_of c)) as [f|] eqn:Ef; [|reflexivity]. cbv zeta.
    pose proof (find_elem_keyword c f Ef) as Kf. assert (Nn : find_elem k (fields_of c) <> None) by (rewrite Ef; discriminate).
    destruct (f_list f); [|destruct (existsb _ seen); [reflexivity|]]; apply bind_same.
    + destruct (append_own c (f_name f) (bind_child u c f attrs s) (bind_child u c f attrs s') vs (or_intror Kf)) as [X|X]; [left; exact X|right; split; assumption].
    + destruct (set_own c (f_name f) (bind_child u c f attrs s) (bind_child u c f attrs s') vs) as [X|X]; [rewrite !bind_plain by assumption; reflexivity|right; exact Kf|left; exact X|right; split; assumption].
  - destruct (child_ok (tag, at_, t)); [|reflexivity]. destruct (find_elem tag (fields_of c)) as [f|]; [|reflexivity]. cbv zeta.
    destruct (f_list f); [|destruct (existsb _ seen); [reflexivity|]]; apply IH.
Qed.
Lemma children_odd a b : odd a b -> rrel (fun x y => x = y \/ exists before attrs after, x = before ++ (k, attrs, s) :: after /\ y = before ++ (k, attrs, s') :: after)
  (map_res child_of_line a) (map_res child_of_line b).
Proof.
  intros [->|[x [w [y [-> ->]]]]]; [apply rrel_refl; intros; left; reflexivity|]. induction x as [|l x IH]; cbn [app map_res].
  - change (child_of_line (k :: s :: w)) with (Ok (k, match nth_error (k :: s :: w) 2 with Some un => [("units", un)] | None => [] end, s)).
    change (child_of_line (k :: s' :: w)) with (Ok (k, match nth_error (k :: s' :: w) 2 with Some un => [("units", un)] | None => [] end, s')).
    cbn [bind]. destruct (map_res child_of_line y); cbn [bind rrel]; [|reflexivity]. right. exists []. do 2 eexists. split; reflexivity.
  - destruct (child_of_line l) as [c|]; [|reflexivity]. cbn [bind]. destruct (map_res _ _), (map_res _ _); cbn [bind rrel] in *; try contradiction; [|exact IH].
    destruct IH as [->|[b [t [r [-> ->]]]]]; [left; reflexivity|right]. exists (c :: b), t, r. split; reflexivity.
Qed.
Definition orel (c : string) (v v' : pyval) : Prop := exists vs vs', v = VObj c vs /\ v' = VObj c vs' /\ vrel c vs vs'.
Lemma parse_odd c a b : odd a b -> rrel (orel c) (parse_list u c None a) (parse_list u c None b).
Proof.
  intros O. unfold parse_list. eapply rrel_bind; [apply children_odd; exact O|]. cbv beta. intros x y _ _ R.
  eapply rrel_bind; [|intros v v' _ _ V; exists v, v'; split; [reflexivity|]; split; [reflexivity|exact V]].
  destruct R as [->|[before [attrs [after [-> ->]]]]]; [apply rrel_refl; intros; left; reflexivity|apply bind_odd].
Qed.

(* ---- sections that are built from a line ---- *)
Hypothesis Hid : k <> lit "id".
Hypothesis Hver : k <> lit "version".
Hypothesis Hcm : k <> kw_comment.
Hypothesis Hus : startswith (lit "USER_DEFINED") k = false.
Hypothesis Hatt : k <> lit "ATTITUDE_TYPE" /\ k <> lit "QUATERNION_TYPE" /\ k <> lit "EULER_ROT_SEQ".
Definition unsorted (c : string) : bool := String.eqb c "OemCovarianceMatrixType" || String.eqb c "AemSegment".
Definition is_elemb (f : field) : bool := match f_kind f with KElem => true | _ => false end.
(* the words of the lines that a section takes from its range *)
Definition words (e : elem) : list str :=
  if String.eqb (e_cls e) "StateVectorAccType" then []
  else if unsorted (e_cls e) then map xml_name (filter is_elemb (fields_of (e_cls e)))
  else e_kws e.
Definition att (e : elem) : bool := String.eqb (e_cls e) "AttitudeStateType".
Fixpoint all_words (e : elem) : list str := if att e then [] else words e ++ flat_map all_words (e_subs e).
Definition leaf (e : elem) : bool := negb (e_islist e) && forallb e_islist (e_subs e).
Fixpoint pairs (ss : list elem) : Prop :=
  match ss with
  | [] => True
  | x :: r => (forall y, In y r -> leaf x = true \/ leaf y = true -> In k (all_words x) -> In k (all_words y) -> False) /\ pairs r
  end.
Definition apart1 (e : elem) : Prop :=
  String.eqb (e_cls e) "TrackingDataObservationType" = false /\ (att e = false ->
  (leaf e = true -> unsorted (e_cls e) = false) /\
  (In k (words e) -> ~ In k (flat_map all_words (e_subs e))) /\ pairs (e_subs e)).
Definition apart (e : elem) : Prop := forall x, In x (all_elems e) -> apart1 x.
Lemma apart_self e : apart e -> apart1 e.
Proof. intros W. apply W. rewrite all_elems_eq. left. reflexivity. Qed.
Lemma apart_sub e x : apart e -> In x (e_subs e) -> apart x.
Proof. intros W H z Hz. apply W. rewrite all_elems_eq. right. apply in_flat_map. exists x. split; assumption. Qed.

Variable p : nat.
Definition own (z : elem) : nat := if mem_str k (words z) && Nat.leb (fst (e_mm z)) p && Nat.ltb p (snd (e_mm z)) then 1 else 0.
(* how many sections take the line *)
Fixpoint takers (z : elem) : nat := if att z then 0 else own z + list_sum (map takers (e_subs z)).
Lemma takers_eq z : takers z = if att z then 0 else own z + list_sum (map takers (e_subs z)).
Proof. destruct z; reflexivity. Qed.
Lemma all_words_eq e : all_words e = if att e then [] else words e ++ flat_map all_words (e_subs e).
Proof. destruct e; reflexivity. Qed.
Lemma own_spec z : own z = 0 \/ (own z = 1 /\ In k (words z) /\ fst (e_mm z) <= p < snd (e_mm z)).
Proof.
  unfold own. destruct (mem_str k (words z)) eqn:E1; [|left; reflexivity]. destruct (Nat.leb (fst (e_mm z)) p) eqn:E2; [|left; reflexivity].
  destruct (Nat.ltb p (snd (e_mm z))) eqn:E3; [|left; reflexivity]. right. apply Nat.leb_le in E2. apply Nat.ltb_lt in E3. split; [reflexivity|]. split; [apply mem_str_spec; exact E1|lia].
Qed.

Section Find.
Variable K : list str.
Variable lines : list line.
Hypothesis Kp : nth_error K p = Some k.

Lemma tags_words tags i pre sg r tags' : get_min_max tags i K pre sg = Ok (r, tags') -> pre = None \/ pre = Some (lit "USER_DEFINED") -> (In k tags' <-> In k tags).
Proof.
  intros G P. unfold get_min_max in G. inv_ok G. inv_ok G. injection G as _ <-. destruct P as [->| ->]; cbn [extend_tags]; [tauto|].
  rewrite in_app_iff, filter_In, Hus. intuition discriminate.
Qed.
Lemma own_words e i mm e1 : own_range u e K lines i = Ok (mm, e1) ->
  e_cls e1 = e_cls e /\ e_subs e1 = e_subs e /\ e_islist e1 = e_islist e /\ (In k (words e1) <-> In k (words e)).
Proof.
  intros H. destruct (own_range_same u _ _ _ _ _ _ H) as [_ [S1 [S2 [S3 _]]]].
  assert (Kw : In k (e_kws e1) <-> In k (e_kws e)).
  { unfold own_range in H. destruct (_ || _); [inv_ok H; injection H as _ <-; tauto|].
    destruct (String.eqb (e_cls e) "TrackingDataObservationType"); [inv_ok H; injection H as _ <-; tauto|].
    assert (Pr : (if String.eqb (e_cls e) "UserDefinedType" then Some (lit "USER_DEFINED") else None) = None \/
                 (if String.eqb (e_cls e) "UserDefinedType" then Some (lit "USER_DEFINED") else None) = Some (lit "USER_DEFINED")) by (destruct (String.eqb (e_cls e) "UserDefinedType"); [right|left]; reflexivity).
    destruct (String.eqb (e_cls e) "OemCovarianceMatrixType"); inv_ok H; [destruct a as [[lo hi] tags]|destruct a as [mm1 tags]]; injection H as _ <-;
      cbn [set_kws e_kws]; eapply tags_words; eassumption. }
  split; [exact S1|]. split; [exact S2|]. split; [exact S3|].
  unfold words. rewrite S1. destruct (String.eqb _ _); [tauto|]. destruct (unsorted _); [tauto|exact Kw].
Qed.
(* a section that finds nothing from an index on has no word for a line that comes later *)
Lemma nth_skip {A} i j (l : list A) : nth_error (skipn i l) j = nth_error l (i + j).
Proof. revert l. induction i as [|i IH]; intros l; [reflexivity|]. destruct l as [|x l]; [destruct j; reflexivity|]. exact (IH l). Qed.
Lemma index_start_some x l j : nth_error l j = Some x -> forall i, i <= j -> exists n, index_start x l i = Some n.
Proof.
  intros H i Hi. destruct (index_start x l i) as [n|] eqn:E; [exists n; reflexivity|]. exfalso. unfold index_start in E. assert (F : In x (skipn i l)).
  { apply (nth_error_In _ (j - i)). rewrite nth_skip. replace (i + (j - i)) with j by lia. exact H. }
  clear H. revert E F. generalize i at 1. induction (skipn i l) as [|y r IH]; intros m E F; [destruct F|]. cbn [index_from] in E. destruct (str_eqb y x) eqn:Ey; [discriminate|].
  destruct F as [->|F]; [rewrite str_eqb_refl in Ey; discriminate|exact (IH _ E F)].
Qed.
Lemma sort_head l : forall x r, sort_nat l = x :: r -> forall y, In y l -> x <= y.
Proof.
  induction l as [|a l IH]; intros x r H y Hy; [destruct Hy|]. cbn [sort_nat] in H. destruct (sort_nat l) as [|b m] eqn:E.
  - cbn in H. injection H as -> _. destruct Hy as [->|Hy]; [lia|]. apply (proj2 (sort_nat_in y l)) in Hy. rewrite E in Hy. destruct Hy.
  - cbn [insert_nat] in H. destruct (Nat.leb a b) eqn:Eb; injection H as <- _.
    + apply Nat.leb_le in Eb. destruct Hy as [->|Hy]; [lia|]. specialize (IH b m eq_refl y Hy). lia.
    + apply Nat.leb_gt in Eb. destruct Hy as [->|Hy]; [lia|]. exact (IH b m eq_refl y Hy).
Qed.
Lemma found_range il i sg lo hi : il <> [] -> range_of_indices il i K sg = Ok (lo, hi) -> lo < hi.
Proof.
  intros N H. unfold range_of_indices in H. inv_ok H. assert (Na : a <> []).
  { destruct il as [|x il]; [congruence|]. cbv zeta in E.
    assert (Ns : sort_nat (x :: il) <> []) by (intros X; pose proof (proj2 (sort_nat_in x (x :: il)) (or_introl eq_refl)) as Y; rewrite X in Y; destruct Y).
    destruct (filter _ _); [injection E as <-; exact Ns|]. inv_ok E. destruct (_ || _); [|injection E as <-; exact Ns].
    destruct (sort_nat (x :: il)) as [|b m] eqn:Es; [congruence|]. rewrite chop_cons in E. destruct (Nat.ltb _ _); [discriminate|]. inv_ok E. injection E as <-.
    assert (Mb : list_min (b :: m) = b).
    { pose proof (list_min_le (b :: m) b (or_introl eq_refl)). pose proof (list_min_in (b :: m) ltac:(discriminate)) as Y. rewrite <- Es in Y at 2. apply (proj1 (sort_nat_in _ _)) in Y.
      pose proof (sort_head _ _ _ Es _ Y). lia. }
    change (fold_right Nat.min b m) with (list_min (b :: m)). rewrite Mb, Nat.eqb_refl. discriminate. }
  destruct a as [|x a]; [congruence|]. pose proof (list_min_le (x :: a) _ (list_max_in (x :: a) ltac:(discriminate))).
  set (mn := list_min (x :: a)) in *. set (mxx := list_max (x :: a)) in *. clearbody mn mxx. destruct sg; injection H as <- <-; lia.
Qed.
Lemma found_min_max tags i pre sg lo hi tags' : get_min_max tags i K pre sg = Ok ((lo, hi), tags') -> In k tags -> i <= p -> lo < hi.
Proof.
  unfold get_min_max. intros H Hk Hi. inv_ok H. inv_ok H. injection H as -> <-. eapply found_range; [|exact E0].
  set (T := extend_tags tags i K pre) in *. assert (Kt : In k T) by (unfold T; destruct pre; cbn [extend_tags]; [apply in_or_app; left|]; exact Hk).
  destruct (index_start_some k K p Kp i Hi) as [n En].
  assert (I0 : In n (index_list0 T i K)).
  { unfold index_list0. clear E. induction T as [|t T IH]; [destruct Kt|]. cbn [filter]. destruct Kt as [->|Kt].
    - replace (str_eqb k kw_comment) with false by (symmetry; apply str_eqb_neq; exact Hcm). cbn [negb filter_map]. rewrite En. left. reflexivity.
    - destruct (negb (str_eqb t kw_comment)); [|apply IH; exact Kt]. cbn [filter_map]. destruct (index_start t K i); [right|]; apply IH; exact Kt. }
  unfold process_comment_lines in E. destruct (mem_str kw_comment T); [|injection E as <-; intros X; rewrite X in I0; destruct I0].
  destruct (Nat.eqb (List.length T) 1).
  - inv_ok E. injection E as <-. destruct (str_eqb a0 kw_comment); [destruct (index_list0 T i K); discriminate|intros X; rewrite X in I0; destruct I0].
  - destruct (index_list0 T i K); [destruct I0|]. injection E as <-. discriminate.
Qed.
Lemma own_empty e i mm e1 : apart1 e -> leaf e = true -> own_range u e K lines i = Ok (mm, e1) -> fst mm = snd mm -> att e = false -> In k (words e) -> p < i.
Proof.
  intros [A1 A2] Le H Em At Hk. destruct (A2 At) as [A3 _]. specialize (A3 Le). destruct (le_lt_dec i p) as [C|C]; [|exact C]. exfalso.
  unfold words in Hk. destruct (String.eqb (e_cls e) "StateVectorAccType") eqn:E1; [destruct Hk|]. rewrite A3 in Hk. unfold att in At. unfold unsorted in A3. apply orb_false_iff in A3. destruct A3 as [A3 _].
  unfold own_range in H. rewrite E1, At, A1, A3 in H. cbn [orb] in H. inv_ok H. destruct a as [[lo hi] tags]. injection H as <- <-. cbn [fst snd] in Em.
  pose proof (found_min_max _ _ _ _ _ _ _ E Hk C). lia.
Qed.

Definition spot (e : elem) (i : nat) (r : res ident) : Prop :=
  match r with
  | Ok (mx, mm, e') => takers (set_mm e' mm) <= 1 /\ (0 < takers (set_mm e' mm) -> i <= p < mx /\ In k (all_words e))
  | Err _ => True
  end.
Lemma spot_list x n f : (forall i, spot x i (identify u x K lines i)) -> forall i mx es, identify_list (identify u x K lines) n f i i = Ok (mx, es) ->
  i <= mx /\ list_sum (map takers es) <= 1 /\ (0 < list_sum (map takers es) -> i <= p < mx /\ In k (all_words x)).
Proof.
  intros G. induction f as [|f IH]; intros i mx es; [discriminate|]. rewrite identify_list_S. pose proof (G i) as Gi. pose proof (identify_order u x K lines i) as Or.
  destruct (identify u x K lines i) as [[[mx' [lo hi]] e]|]; [|discriminate]. cbn [bind spot ord_ident] in *.
  destruct (_ && _); [intros X; injection X as <- <-; cbn; lia|]. destruct (Nat.ltb i lo); [intros X; injection X as <- <-; cbn; lia|]. cbv zeta.
  destruct (Nat.leb n mx').
  - intros X; injection X as <- <-. cbn [map list_sum fold_right]. rewrite Nat.add_0_r. split; [lia|exact Gi].
  - intros H. inv_ok H. destruct a as [mx2 es2]. injection H as <- <-. destruct (IH _ _ _ E) as [I1 [I2 I3]].
    cbn [map list_sum fold_right]. fold (list_sum (map takers es2)). split; [lia|]. destruct Gi as [G1 G2].
    destruct (Nat.eq_dec (takers (set_mm e (lo, hi))) 0) as [Z|Z].
    + rewrite Z. cbn [plus]. split; [exact I2|]. intros P. destruct (I3 P). split; [lia|assumption].
    + destruct (G2 ltac:(lia)) as [G3 G4]. destruct (Nat.eq_dec (list_sum (map takers es2)) 0) as [Z2|Z2]; [rewrite Z2; split; [lia|intros _; split; [lia|exact G4]]|].
      destruct (I3 ltac:(lia)). lia.
Qed.
Lemma no_subs lo ss i mx : ident_subs u K lines lo ss i = Ok (mx, []) -> forallb e_islist ss = true.
Proof.
  revert i. induction ss as [|x ss IH]; intros i; [reflexivity|]. cbn [ident_subs forallb]. destruct (e_islist x); intros H; inv_ok H.
  - destruct a as [i' es]. inv_ok H. destruct a as [i'' gs]. injection H as <- X. apply app_eq_nil in X. destruct X as [_ ->]. exact (IH _ E0).
  - destruct a as [[i' smm] x']. inv_ok H. inv_ok H. destruct a0 as [i'' gs]. discriminate.
Qed.
Lemma spot_subs lo ss : (forall x, In x ss -> apart x /\ forall i, spot x i (identify u x K lines i)) -> pairs ss -> forall i mx gs, lo <= i ->
  ident_subs u K lines lo ss i = Ok (mx, gs) ->
  i <= mx /\ list_sum (map takers gs) <= 1 /\ (0 < list_sum (map takers gs) -> lo <= p < mx /\ In k (flat_map all_words ss) /\
    (i <= p \/ exists y, In y ss /\ leaf y = true /\ In k (all_words y))).
Proof.
  induction ss as [|x ss IH]; intros G P i mx gs Hl; cbn [ident_subs].
  { intros X. injection X as <- <-. cbn. lia. }
  destruct P as [P1 P2]. assert (G' : forall x, In x ss -> apart x /\ forall i, spot x i (identify u x K lines i)) by (intros y Hy; apply G; right; exact Hy).
  destruct (G x (or_introl eq_refl)) as [Ax Sx]. destruct (e_islist x) eqn:El.
  - intros H. inv_ok H. destruct a as [i' es]. inv_ok H. destruct a as [i'' gs']. injection H as <- <-.
    destruct (spot_list x _ _ Sx _ _ _ E) as [L1 [L2 L3]]. destruct (IH G' P2 i' i'' gs' ltac:(lia) E0) as [I1 [I2 I3]].
    rewrite map_app, list_sum_app. split; [lia|]. cbn [flat_map].
    destruct (Nat.eq_dec (list_sum (map takers es)) 0) as [Z|Z].
    + rewrite Z. cbn [plus]. split; [exact I2|]. intros Q. destruct (I3 Q) as [J1 [J2 J3]]. split; [lia|]. split; [apply in_or_app; right; exact J2|].
      destruct J3 as [J3|[y [Y1 [Y2 Y3]]]]; [left; lia|right; exists y; split; [right; exact Y1|auto]].
    + destruct (L3 ltac:(lia)) as [L4 L5]. destruct (Nat.eq_dec (list_sum (map takers gs')) 0) as [Z2|Z2].
      * rewrite Z2. split; [lia|]. intros _. split; [lia|]. split; [apply in_or_app; left; exact L5|left; lia].
      * exfalso. destruct (I3 ltac:(lia)) as [_ [_ [J3|[y [Y1 [Y2 Y3]]]]]]; [lia|]. exact (P1 y Y1 (or_intror Y2) L5 Y3).
  - intros H. inv_ok H. destruct a as [[i' smm] x']. pose proof (Sx i) as Si. pose proof (identify_order u x K lines i) as Or. rewrite E in Si, Or. cbn [spot ord_ident] in Si, Or.
    destruct smm as [slo shi]. inv_ok H. inv_ok H. destruct a0 as [i'' gs']. injection H as <- <-. destruct (IH G' P2 i' i'' gs' ltac:(lia) E1) as [I1 [I2 I3]].
    assert (Ta : takers a <= 1 /\ (0 < takers a -> In k (all_words x) /\ lo <= p < i' /\ (i <= p \/ leaf x = true))).
    { cbn [fst snd] in E0. destruct (Nat.eqb slo shi && match e_subs x' with [] => true | _ => false end) eqn:Ec.
      - apply andb_true_iff in Ec. destruct Ec as [Ec1 Ec2]. apply Nat.eqb_eq in Ec1. inv_ok E0. destruct a0 as [[lo2 hi2] x2]. injection E0 as <-. cbn [fst snd].
        destruct (e_subs x') eqn:Es'; [|discriminate]. rewrite identify_eq in E. inv_ok E. destruct a as [mm1 x1].
        assert (X : mm1 = (slo, shi) /\ leaf x = true /\ e_cls x' = e_cls x1 /\ (In k (words x') <-> In k (words x1))).
        { unfold leaf. rewrite El. destruct (e_subs x) as [|s0 ss0] eqn:Es; [injection E as <- <- <-; cbn; tauto|]. rewrite <- Es in *. inv_ok E. destruct a as [mx1 gs1]. injection E as <- <- <-.
          cbn [set_subs e_subs e_cls] in *. subst gs1. split; [reflexivity|]. split; [exact (no_subs _ _ _ _ E3)|]. split; [reflexivity|]. reflexivity. }
        destruct X as [-> [Le [X1 X2]]]. clear E. destruct (own_words _ _ _ _ E0) as [W1 [W2 [W3 W4]]]. destruct (own_words _ _ _ _ E2) as [V1 [V2 [V3 V4]]].
        rewrite takers_eq. cbn [set_mm e_subs]. rewrite V2, Es'. cbn [map list_sum fold_right]. destruct (att _) eqn:Ea; [lia|]. rewrite Nat.add_0_r.
        destruct (own_spec (set_mm x2 (lo2, hi2))) as [O|[O1 [O2 O3]]]; [rewrite O; lia|]. split; [lia|]. intros _. cbn [set_mm e_mm fst snd] in O3.
        change (words (set_mm x2 (lo2, hi2))) with (words x2) in O2.
        assert (Ha : att x = false) by (unfold att in *; cbn [set_mm e_cls] in Ea; congruence).
        assert (Hk : In k (words x)) by tauto. destruct (own_range_bounds u _ _ _ _ _ _ _ E2) as [B1 [B2 _]].
        pose proof (own_empty x i _ _ (apart_self x Ax) Le E0 Ec1 Ha Hk) as Lt.
        split; [rewrite all_words_eq, Ha; apply in_or_app; left; exact Hk|]. split; [|right; exact Le]. lia.
      - injection E0 as <-. destruct Si as [S1 S2]. split; [exact S1|]. intros Q. destruct (S2 Q). split; [assumption|]. split; [lia|left; lia]. }
    destruct Ta as [T1 T2]. cbn [map list_sum fold_right flat_map]. fold (list_sum (map takers gs')). split; [lia|].
    destruct (Nat.eq_dec (takers a) 0) as [Z|Z].
    + rewrite Z. cbn [plus]. split; [exact I2|]. intros Q. destruct (I3 Q) as [J1 [J2 J3]]. split; [lia|]. split; [apply in_or_app; right; exact J2|].
      destruct J3 as [J3|[y [Y1 [Y2 Y3]]]]; [left; lia|right; exists y; split; [right; exact Y1|auto]].
    + destruct (T2 ltac:(lia)) as [T3 [T4 T5]]. destruct (Nat.eq_dec (list_sum (map takers gs')) 0) as [Z2|Z2].
      * rewrite Z2. split; [lia|]. intros _. split; [lia|]. split; [apply in_or_app; left; exact T3|]. destruct T5 as [T5|T5]; [left; lia|right]. exists x. split; [left; reflexivity|auto].
      * exfalso. destruct (I3 ltac:(lia)) as [_ [J2 [J3|[y [Y1 [Y2 Y3]]]]]]; [|exact (P1 y Y1 (or_intror Y2) T3 Y3)]. lia.
Qed.
Lemma spot_mm e mm : takers (set_mm e mm) = if att e then 0 else own (set_mm e mm) + list_sum (map takers (e_subs e)).
Proof. rewrite takers_eq. reflexivity. Qed.
Lemma spot_identify : forall e, apart e -> forall i, spot e i (identify u e K lines i).
Proof.
  intros e. induction e as [n c subs kw l sg m t F] using elem_ind'. intros W i. rewrite identify_eq. set (e := Elem n c subs kw l sg m t) in *.
  destruct (own_range u e K lines i) as [[[lo hi] e1]|er] eqn:Eo; [|exact I]. cbn [bind]. destruct (own_words _ _ _ _ Eo) as [W1 [W2 [W3 W4]]].
  destruct (own_range_bounds u _ _ _ _ _ _ _ Eo) as [B1 [B2 _]]. change (e_subs e) with subs in *.
  assert (Ae : att e1 = att e) by (unfold att; congruence).
  destruct subs as [|s0 subs].
  - cbn [spot fst snd]. rewrite spot_mm, W2, Ae, all_words_eq. cbn [map list_sum fold_right]. destruct (att e); [lia|]. rewrite Nat.add_0_r.
    destruct (own_spec (set_mm e1 (lo, hi))) as [O|[O1 [O2 O3]]]; [rewrite O; lia|]. cbn [set_mm e_mm fst snd] in O3. change (words (set_mm e1 (lo, hi))) with (words e1) in O2.
    split; [lia|]. intros _. split; [lia|]. apply in_or_app. left. tauto.
  - destruct (ident_subs u K lines (fst (lo, hi)) (s0 :: subs) (snd (lo, hi))) as [[mx gs]|er] eqn:Es; [|exact I]. cbn [bind spot fst snd] in *.
    rewrite spot_mm. change (att (set_subs e1 gs)) with (att e1). rewrite Ae, all_words_eq. destruct (att e) eqn:Ea; [lia|].
    destruct (apart_self e W) as [_ A2]. destruct (A2 Ea) as [_ [A3 A4]]. change (e_subs e) with (s0 :: subs) in *.
    destruct (spot_subs lo (s0 :: subs)) with (i := hi) (mx := mx) (gs := gs) as [J1 [J2 J3]]; [|exact A4|exact B2|exact Es|].
    { intros x Hx0. pose proof (apart_sub e x W Hx0) as Ax. split; [exact Ax|]. rewrite Forall_forall in F. exact (F x Hx0 Ax). }
    cbn [set_subs e_subs]. change (own (set_mm (set_subs e1 gs) (lo, hi))) with (own (set_mm e1 (lo, hi))).
    destruct (own_spec (set_mm e1 (lo, hi))) as [O|[O1 [O2 O3]]].
    + rewrite O. cbn [plus]. split; [exact J2|]. intros Q. destruct (J3 Q) as [K1 [K2 _]]. split; [lia|]. apply in_or_app. right. exact K2.
    + cbn [set_mm e_mm fst snd] in O3. change (words (set_mm e1 (lo, hi))) with (words e1) in O2. assert (O4 : In k (words e)) by tauto.
      destruct (Nat.eq_dec (list_sum (map takers gs)) 0) as [Z|Z]; [rewrite Z; split; [lia|]; intros _; split; [lia|apply in_or_app; left; exact O4]|].
      exfalso. destruct (J3 ltac:(lia)) as [_ [K2 _]]. exact (A3 O4 K2).
Qed.
End Find.

(* ---- building ---- *)
Lemma rrel_same {A B} (Q : B -> B -> Prop) (r : res A) h h' : (forall x, r = Ok x -> rrel Q (h x) (h' x)) -> rrel Q (bind r h) (bind r h').
Proof. intros H. destruct r; [apply H; reflexivity|reflexivity]. Qed.
Lemma rrel_eq {A} (r r' : res A) : rrel eq r r' -> r = r'.
Proof. destruct r, r'; cbn; intros H; try contradiction; congruence. Qed.
Lemma build_doc a b : alike k s s' a b -> forall fuel e f, build u fuel a e f = build u fuel b e f.
Proof.
  intros L. induction fuel as [|n IH]; intros e f; [reflexivity|]. cbn [build]. set (local := slice (fst (e_mm e)) (snd (e_mm e)) f). clearbody local.
  assert (Fl : forall obj subs,
    match obj with
    | VObj c vars => do vars' <- fold_left (fun acc s => do vs <- acc; do sub <- build u n a s f; attach (e_name s) sub vs) subs (Ok vars); Ok (VObj c vars')
    | _ => Err AttributeError end =
    match obj with
    | VObj c vars => do vars' <- fold_left (fun acc s => do vs <- acc; do sub <- build u n b s f; attach (e_name s) sub vs) subs (Ok vars); Ok (VObj c vars')
    | _ => Err AttributeError end).
  { intros obj subs. destruct obj; try reflexivity. f_equal. apply fold_same. intros acc x _. destruct acc; [|reflexivity]. cbn [bind]. rewrite IH. reflexivity. }
  assert (Fb : forall A (r : res A) h h', (forall x, r = Ok x -> h x = h' x) -> @bind A pyval r h = bind r h').
  { intros A r h h' H. destruct r; [apply H; reflexivity|reflexivity]. }
  rewrite <- (prepare_alike k s s' Hatt e a b L).
  destruct local as [|l0 local]; [destruct (e_subs e) as [|s0 ss] eqn:Es; [reflexivity|]; rewrite <- Es|];
  (destruct (String.eqb (e_cls e) "AemSegment");
   [apply Fb; intros e' He; apply Fb; intros obj _; apply Fl|]);
  (destruct (String.eqb (e_cls e) "AttitudeStateType");
   [apply Fb; intros tm _; apply Fb; intros l1 _; apply Fb; intros t _; apply Fb; intros [[mx mm] e1] _; apply Fb; intros sub _; rewrite IH; reflexivity|]);
  (destruct (String.eqb (e_cls e) "StateVectorAccType");
   [apply Fb; intros l1 _; apply Fb; intros t _; apply Fb; intros obj _; apply Fl|]);
  (destruct (String.eqb (e_cls e) "OemCovarianceMatrixType"); [apply Fb; intros obj _; apply Fl|]);
  (destruct (String.eqb (e_cls e) "TrackingDataObservationType");
   [apply Fb; intros l1 _; apply Fb; intros t _; apply Fb; intros t2 _; apply Fb; intros obj _; apply Fl|]).
  all: destruct (match (if String.eqb (e_cls e) "UserDefinedType" then _ else _) with Some _ => _ | None => _ end);
       try (destruct (e_subs e); [reflexivity|]); (apply Fb; intros obj _; apply Fl).
Qed.

(* ---- attaching ---- *)
Lemma attach_eq n sub vs : attach n sub vs = match assoc n vs with
  | None => Err AttributeError
  | Some w => if is_vlist w then (match sub with VNone => Ok vs | _ => Ok (append_var n sub vs) end) else Ok (set_var n sub vs) end.
Proof. unfold attach. destruct (assoc n vs) as [[]|]; reflexivity. Qed.
Lemma assoc_chg c n vs vs' : vchg c vs vs' ->
  match assoc n vs, assoc n vs' with Some x, Some y => is_vlist x = is_vlist y | None, None => True | _, _ => False end.
Proof.
  intros [a [m [x [x' [b [-> [-> [H1 H2]]]]]]]]. clear H2. assert (Same : forall l : list (string * pyval), match assoc n l with Some x => is_vlist x = is_vlist x | None => True end) by (intros l; destruct (assoc n l); auto).
  induction a as [|[q y] a IH]; cbn [app assoc fst snd].
  - destruct (String.eqb m n); [exact H1|]. destruct (assoc n b); auto.
  - destruct (String.eqb q n); [reflexivity|exact IH].
Qed.
Lemma attach_same c n sub vs vs' : vchg c vs vs' -> rrel (fun x y => x = y \/ vchg c x y) (attach n sub vs) (attach n sub vs').
Proof.
  intros V. rewrite !attach_eq. pose proof (assoc_chg c n vs vs' V) as H. destruct (assoc n vs) as [x|], (assoc n vs') as [y|]; try contradiction; [|reflexivity].
  rewrite <- H. destruct (is_vlist x); [|exact (set_chg c n sub vs vs' V)]. destruct sub; try exact (append_chg c n _ vs vs' V). right. exact V.
Qed.
Lemma attach_other c n sub sub' vs : one_change k sub sub' -> rrel (fun x y => x = y \/ vchg c x y) (attach n sub vs) (attach n sub' vs).
Proof.
  intros V. rewrite !attach_eq. destruct (assoc n vs) as [w|]; [|reflexivity]. destruct (is_vlist w).
  - destruct V; try apply (append_own c n); try (apply rrel_refl; intros; left; reflexivity).
    + left. apply change_field; assumption.
    + left. apply change_inside; assumption.
    + left. apply change_element; assumption.
  - apply (set_own c n); [apply change_listness; exact V|left; exact V].
Qed.

Lemma sum_filter (q : elem -> bool) l : list_sum (map takers (filter q l)) <= list_sum (map takers l).
Proof. induction l as [|x l IH]; [reflexivity|]. cbn [filter map list_sum fold_right]. destruct (q x); cbn [map list_sum fold_right] in *; unfold list_sum in *; lia. Qed.
Lemma sum_map (h : elem -> elem) l : (forall x, takers (h x) <= takers x) -> list_sum (map takers (map h l)) <= list_sum (map takers l).
Proof. intros H. induction l as [|x l IH]; [reflexivity|]. cbn [map list_sum fold_right] in *. specialize (H x). unfold list_sum in *. lia. Qed.
Lemma prepare_takers e e' d : prepare_aem_segment e d = Ok e' -> list_sum (map takers (e_subs e')) <= list_sum (map takers (e_subs e)).
Proof.
  unfold prepare_aem_segment. intros H. inv_ok H. inv_ok H. destruct a0 as [t tmpl]. injection H as <-. apply get_ok in E.
  destruct (e_subs e) as [|x0 [|x1 r]]; try discriminate. cbn in E. injection E as ->. cbn [set_subs e_subs firstn skipn app map list_sum fold_right].
  rewrite (takers_eq a), (takers_eq (set_subs _ _)). change (att (set_subs a ?z)) with (att a). destruct (att a).
  { reflexivity. }
  cbn [set_subs e_subs]. match goal with |- context [own (set_subs a ?z)] => change (own (set_subs a z)) with (own a) end.
  match goal with |- context [map takers (map ?h (e_subs a))] => pose proof (sum_map h (e_subs a)) as M end.
  assert (Hm : forall x, takers (set_tmpl (set_subs x (filter (fun x0 => match t with Some a0 => String.eqb (e_name x0) a0 | None => false end) (e_subs x))) tmpl) <= takers x).
  { intros x. rewrite (takers_eq x), takers_eq. cbn [set_tmpl set_subs e_subs].
    match goal with |- context [att (set_tmpl (set_subs x ?z) ?t)] => change (att (set_tmpl (set_subs x z) t)) with (att x); change (own (set_tmpl (set_subs x z) t)) with (own x) end.
    destruct (att x); [lia|]. apply Nat.add_le_mono_l. apply sum_filter. }
  specialize (M Hm). unfold list_sum in *. lia.
Qed.

Section Build.
Variables A B : list line.
Variable w : line.
Hypothesis Hp : List.length A = p.
Let f : list line := A ++ (k :: s :: w) :: B.
Let g : list line := A ++ (k :: s' :: w) :: B.
Lemma fg_odd : odd f g.
Proof. right. exists A, w, B. split; reflexivity. Qed.
Lemma slice_away lo hi : ~ lo <= p < hi -> slice lo hi f = slice lo hi g.
Proof.
  intros C. unfold slice, f, g. destruct (le_lt_dec hi p) as [C1|C1]; [|destruct (le_lt_dec lo p) as [C2|C2]; [lia|]].
  - assert (X : forall x, firstn (hi - lo) (skipn lo (A ++ x :: B)) = firstn (hi - lo) (skipn lo A)).
    { intros x. rewrite skipn_app, firstn_app, skipn_length, Hp. replace (hi - lo - (p - lo)) with 0 by lia. rewrite firstn_O, app_nil_r. reflexivity. }
    rewrite !X. reflexivity.
  - assert (X : forall x, skipn lo (A ++ x :: B) = skipn (lo - S p) B).
    { intros x. rewrite skipn_app, Hp. rewrite skipn_all2 by lia. replace (lo - p) with (S (lo - S p)) by lia. reflexivity. }
    rewrite !X. reflexivity.
Qed.
Definition outcome (e : elem) (v v' : pyval) : Prop := one_change k v v' /\ (takers e = 0 -> v = v').

Section Fill.
Variable n : nat.
Variables a b : list line.
Hypothesis IH : forall x, rel u k s s' x f g -> takers x <= 1 -> rrel (outcome x) (build u n a x f) (build u n b x g).
Let fold1 subs acc := fold_left (fun acc s => do vs <- acc; do sub <- build u n a s f; attach (e_name s) sub vs) subs acc.
Let fold2 subs acc := fold_left (fun acc s => do vs <- acc; do sub <- build u n b s g; attach (e_name s) sub vs) subs acc.
Lemma fold_equal subs : (forall x, In x subs -> rel u k s s' x f g) -> list_sum (map takers subs) = 0 -> forall acc, fold1 subs acc = fold2 subs acc.
Proof.
  intros R Z acc. apply fold_same. intros acc0 x Hx0. destruct acc0; [|reflexivity]. cbn [bind].
  assert (Tx : takers x = 0). { clear R. induction subs as [|y subs IHs]; [destruct Hx0|]. cbn [map list_sum fold_right] in Z. destruct Hx0 as [->|Hx0]; [lia|]. apply IHs; [unfold list_sum; lia|exact Hx0]. }
  rewrite (rrel_eq (build u n a x f) (build u n b x g)); [reflexivity|]. eapply rrel_impl; [|apply IH; [exact (R x Hx0)|lia]]. intros v v' [_ Q]. exact (Q Tx).
Qed.
Lemma fold_related c subs : (forall x, In x subs -> rel u k s s' x f g) -> list_sum (map takers subs) <= 1 -> forall acc acc',
  rrel (fun x y => x = y \/ (vchg c x y /\ list_sum (map takers subs) = 0)) acc acc' ->
  rrel (fun x y => x = y \/ vchg c x y) (fold1 subs acc) (fold2 subs acc').
Proof.
  induction subs as [|x subs IHs]; intros R Z acc acc' V.
  { cbn. eapply rrel_impl; [|exact V]. intros p0 q [->|[Q _]]; auto. }
  unfold fold1, fold2. cbn [fold_left]. fold (fold1 subs) (fold2 subs). cbn [map list_sum fold_right] in *. fold (list_sum (map takers subs)) in *.
  apply IHs; [intros y Hy; apply R; right; exact Hy|lia|]. eapply rrel_bind; [exact V|]. cbv beta. intros vs vs' _ _ Q. clear V.
  eapply rrel_bind; [apply IH; [apply R; left; reflexivity|lia]|]. intros sub sub' _ _ [O1 O2]. destruct Q as [<-|[Q Qz]].
  - destruct (Nat.eq_dec (takers x) 0) as [Tz|Tz]; [rewrite <- (O2 Tz); apply rrel_refl; intros; left; reflexivity|].
    eapply rrel_impl; [|exact (attach_other c (e_name x) sub sub' vs O1)]. intros p0 q [->|Q]; [left; reflexivity|right; split; [exact Q|lia]].
  - rewrite <- (O2 ltac:(lia)). eapply rrel_impl; [|exact (attach_same c (e_name x) sub vs vs' Q)]. intros p0 q [->|Q']; [left; reflexivity|right; split; [exact Q'|lia]].
Qed.
Lemma fill_related o obj obj' subs : (forall x, In x subs -> rel u k s s' x f g) -> o + list_sum (map takers subs) <= 1 ->
  (obj = obj' \/ exists c vs vs', obj = VObj c vs /\ obj' = VObj c vs' /\ o = 1 /\ vchg c vs vs') ->
  rrel (fun v v' => one_change k v v' /\ (o + list_sum (map takers subs) = 0 -> v = v'))
    match obj with VObj c vars => do vars' <- fold1 subs (Ok vars); Ok (VObj c vars') | _ => Err AttributeError end
    match obj' with VObj c vars => do vars' <- fold2 subs (Ok vars); Ok (VObj c vars') | _ => Err AttributeError end.
Proof.
  intros R Z V.
  assert (M : forall c vs vs', vs = vs' \/ (o = 1 /\ vchg c vs vs') ->
    rrel (fun v v' => one_change k v v' /\ (o + list_sum (map takers subs) = 0 -> v = v')) (do vars' <- fold1 subs (Ok vs); Ok (VObj c vars')) (do vars' <- fold2 subs (Ok vs'); Ok (VObj c vars'))).
  { intros c vs vs' Q. destruct (Nat.eq_dec (o + list_sum (map takers subs)) 0) as [E|E].
    - destruct Q as [<-|[Q _]]; [|lia]. rewrite (fold_equal subs R ltac:(lia)). apply rrel_refl. intros v. split; [apply change_none|reflexivity].
    - eapply rrel_bind; [apply (fold_related c subs R ltac:(lia)); cbn [rrel]; destruct Q as [Q|[Q1 Q2]]; [left; exact Q|right; split; [exact Q2|lia]]|].
      intros x y _ _ [->|X]; cbn [rrel]; (split; [|lia]); [apply change_none|apply vchg_object; exact X]. }
  destruct V as [<-|[c [vs [vs' [-> [-> [O V]]]]]]]; [|apply M; right; split; assumption].
  destruct obj; try reflexivity. apply M. left. reflexivity.
Qed.
End Fill.

Lemma build_place a b : alike k s s' a b -> forall fuel e, rel u k s s' e f g -> takers e <= 1 -> rrel (outcome e) (build u fuel a e f) (build u fuel b e g).
Proof.
  intros L. induction fuel as [|n IH]; intros e W Te; [reflexivity|]. cbn [build].
  pose proof (rel_self u k s s' e f g W) as R. unfold relz in R. pose proof (odd_slice (fst (e_mm e)) (snd (e_mm e)) f g fg_odd) as O.
  assert (D : slice (fst (e_mm e)) (snd (e_mm e)) f = slice (fst (e_mm e)) (snd (e_mm e)) g \/ (fit u k s s' e /\ user e = false /\ fst (e_mm e) <= p < snd (e_mm e))).
  { destruct R as [R|[R1 [R2 _]]]; [left; exact R|]. destruct (le_lt_dec (fst (e_mm e)) p); [destruct (le_lt_dec (snd (e_mm e)) p)|]; try (left; apply slice_away; lia). right. split; [exact R1|]. split; [exact R2|lia]. }
  clear R. set (local := slice (fst (e_mm e)) (snd (e_mm e)) f) in *. set (local2 := slice (fst (e_mm e)) (snd (e_mm e)) g) in *. clearbody local local2.
  pose proof (fill_related n a b IH) as Fl. cbv zeta in Fl.
  assert (Se : forall x, In x (e_subs e) -> rel u k s s' x f g) by (intros x Hs0; exact (rel_sub u k s s' e x f g W Hs0)).
  pose proof (takers_eq e) as Tq. assert (Nn : rrel (outcome e) (Ok VNone) (Ok VNone)) by (split; [apply change_none|reflexivity]).
  rewrite <- (prepare_alike k s s' Hatt e a b L).
  assert (F0 : forall obj obj', att e = false -> (obj = obj' \/ exists c vs vs', obj = VObj c vs /\ obj' = VObj c vs' /\ own e = 1 /\ vchg c vs vs') ->
    rrel (outcome e) match obj with VObj c vars => do vars' <- fold_left (fun acc s => do vs <- acc; do sub <- build u n a s f; attach (e_name s) sub vs) (e_subs e) (Ok vars); Ok (VObj c vars') | _ => Err AttributeError end
                     match obj' with VObj c vars => do vars' <- fold_left (fun acc s => do vs <- acc; do sub <- build u n b s g; attach (e_name s) sub vs) (e_subs e) (Ok vars); Ok (VObj c vars') | _ => Err AttributeError end).
  { intros obj obj' Ha V. rewrite Ha in Tq. unfold outcome. rewrite Tq. apply Fl; [exact Se|lia|exact V]. }
  assert (F1 : forall obj obj' e' d, prepare_aem_segment e d = Ok e' -> att e = false -> (obj = obj' \/ exists c vs vs', obj = VObj c vs /\ obj' = VObj c vs' /\ own e = 1 /\ vchg c vs vs') ->
    rrel (outcome e) match obj with VObj c vars => do vars' <- fold_left (fun acc s => do vs <- acc; do sub <- build u n a s f; attach (e_name s) sub vs) (e_subs e') (Ok vars); Ok (VObj c vars') | _ => Err AttributeError end
                     match obj' with VObj c vars => do vars' <- fold_left (fun acc s => do vs <- acc; do sub <- build u n b s g; attach (e_name s) sub vs) (e_subs e') (Ok vars); Ok (VObj c vars') | _ => Err AttributeError end).
  { intros obj obj' e' d He Ha V. rewrite Ha in Tq. pose proof (prepare_takers e e' d He) as Pt. eapply rrel_impl; [|apply (Fl (own e) obj obj' (e_subs e')); [|lia|exact V]].
    - intros v v' [Q1 Q2]. split; [exact Q1|]. intros Z. apply Q2. lia.
    - intros x Hs0. exact (rel_sub u k s s' e' x f g (prepare_rel u k s s' e e' d f g He W) Hs0). }
  clear Fl.
  assert (Na : forall c0, String.eqb (e_cls e) c0 = true -> c0 <> "AttitudeStateType" -> att e = false).
  { intros c0 E1 E2. apply String.eqb_eq in E1. unfold att. apply String.eqb_neq. congruence. }
  destruct D as [D|[Fz [Un Ps]]].
  - rewrite <- D. clear D O.
    destruct local as [|l0 local]; [destruct (e_subs e) as [|s0 ss] eqn:Es; [exact Nn|]; rewrite <- Es in *|];
    (destruct (String.eqb (e_cls e) "AemSegment") eqn:C1;
     [apply rrel_same; intros e' He; apply rrel_same; intros obj _; apply (F1 obj obj e' a He); [apply (Na _ C1); discriminate|left; reflexivity]|]);
    (destruct (String.eqb (e_cls e) "AttitudeStateType") eqn:C2;
     [apply rrel_same; intros tm _; apply rrel_same; intros l1 _; apply rrel_same; intros t _; apply rrel_same; intros [[mx mm] e1] _; apply rrel_same; intros sub _;
      rewrite (build_doc a b L); apply rrel_refl; intros v; split; [apply change_none|reflexivity]|]);
    (destruct (String.eqb (e_cls e) "StateVectorAccType") eqn:C3;
     [apply rrel_same; intros l1 _; apply rrel_same; intros t _; apply rrel_same; intros obj _; apply F0; [exact C2|left; reflexivity]|]);
    (destruct (String.eqb (e_cls e) "OemCovarianceMatrixType") eqn:C4; [apply rrel_same; intros obj _; apply F0; [exact C2|left; reflexivity]|]);
    (destruct (String.eqb (e_cls e) "TrackingDataObservationType") eqn:C5;
     [apply rrel_same; intros l1 _; apply rrel_same; intros t _; apply rrel_same; intros t2 _; apply rrel_same; intros obj _; apply F0; [exact C2|left; reflexivity]|]).
    all: destruct (match (if String.eqb (e_cls e) "UserDefinedType" then _ else _) with Some _ => _ | None => _ end);
         try (destruct (e_subs e) eqn:Es2; [exact Nn|rewrite <- Es2 in *]); (apply rrel_same; intros obj _; apply F0; [exact C2|left; reflexivity]).
  - destruct Fz as [Nt [_ Sg]]. unfold user in Un. rewrite Nt, Un. pose proof (odd_alike _ _ O) as La.
    assert (G0 : forall T (h : str -> res T), (do l0 <- get local 0; do t <- get l0 0; h t) = (do l0 <- get local2 0; do t <- get l0 0; h t)).
    { intros T h. apply (alike_get k s s'); [exact La|]. intros x y Rl. rewrite (lrel_get0 k s s' x y Rl). reflexivity. }
    assert (Ow : In k (words e) -> own e = 1).
    { intros Hk. unfold own. apply mem_str_spec in Hk. rewrite Hk. destruct Ps as [P1 P2]. apply Nat.leb_le in P1. apply Nat.ltb_lt in P2. rewrite P1, P2. reflexivity. }
    assert (Ob : forall c v v', orel c v v' -> (find_elem k (fields_of c) <> None -> In k (words e)) ->
      v = v' \/ exists c vs vs', v = VObj c vs /\ v' = VObj c vs' /\ own e = 1 /\ vchg c vs vs').
    { intros c v v' [vs [vs' [-> [-> [->|[V1 V2]]]]]] Hk; [left; reflexivity|right]. exists c, vs, vs'. split; [reflexivity|]. split; [reflexivity|]. split; [apply Ow, Hk, V1|exact V2]. }
    assert (Un0 : unsorted (e_cls e) = true -> String.eqb (e_cls e) "StateVectorAccType" = false -> find_elem k (fields_of (e_cls e)) <> None -> In k (words e)).
    { intros U1 U2 Hf. unfold words. rewrite U1, U2. destruct (find_elem k (fields_of (e_cls e))) as [fd|] eqn:Ef; [|congruence]. unfold find_elem in Ef. apply find_some in Ef. destruct Ef as [F2 F3].
      apply in_map_iff. exists fd. unfold is_elemb. destruct (f_kind fd) eqn:Ek; try discriminate. apply str_eqb_eq in F3. split; [exact F3|]. apply filter_In. split; [exact F2|]. rewrite Ek. reflexivity. }
    destruct (match local with [] => match e_subs e with [] => true | _ => false end | _ => false end) eqn:Es.
    { destruct local; [|discriminate]. inversion La; subst. destruct (e_subs e); [exact Nn|discriminate]. }
    assert (Es2 : match local2 with [] => match e_subs e with [] => true | _ => false end | _ => false end = false) by (destruct La; assumption).
    assert (M : forall (l : list line) (x y : res pyval), match l with [] => match e_subs e with [] => true | _ => false end | _ => false end = false ->
      match l, match e_subs e with [] => true | _ => false end with [], true => x | _, _ => y end = y).
    { intros [|l0 l] x y H; destruct (e_subs e); try reflexivity; discriminate. }
    rewrite (M local _ _ Es), (M local2 _ _ Es2). clear M Es Es2.
    destruct (String.eqb (e_cls e) "AemSegment") eqn:C1.
    { apply rrel_same. intros e' He. eapply rrel_bind; [apply parse_odd; exact O|]. intros v v' _ _ V. apply (F1 v v' e' a He); [apply (Na _ C1); discriminate|].
      apply (Ob _ _ _ V). apply Un0; [unfold unsorted; rewrite C1, orb_true_r; reflexivity|]. apply String.eqb_eq in C1. rewrite C1. reflexivity. }
    destruct (String.eqb (e_cls e) "AttitudeStateType") eqn:C2.
    { apply rrel_same. intros tm _. rewrite <- G0. apply rrel_same; intros l1 _; apply rrel_same; intros t _; apply rrel_same; intros [[mx mm] e1] _; apply rrel_same; intros sub _.
      rewrite (build_doc a b L). apply rrel_refl. intros v. split; [apply change_none|reflexivity]. }
    destruct (String.eqb (e_cls e) "StateVectorAccType") eqn:C3.
    { rewrite <- G0. apply rrel_same; intros l1 _; apply rrel_same; intros t _; apply rrel_same; intros obj _. apply F0; [exact C2|left; reflexivity]. }
    destruct (String.eqb (e_cls e) "OemCovarianceMatrixType") eqn:C4.
    { eapply rrel_bind.
      - rewrite <- (alike_words k s s' _ _ (alike_filter k s s' (fun t => negb (isalpha u t)) _ _ La)). apply parse_odd, odd_app. exact (odd_filter (isalpha u) _ _ O).
      - intros v v' _ _ V. apply F0; [exact C2|]. apply (Ob _ _ _ V). apply Un0; [unfold unsorted; rewrite C4; reflexivity|reflexivity]. }
    assert (Wd : words e = e_kws e) by (unfold words, unsorted; rewrite C3, C4, C1; reflexivity).
    pose proof (odd_filter (fun t => mem_str t (e_kws e)) _ _ O) as Of. cbv beta in Of. pose proof (odd_alike _ _ Of) as Lf.
    assert (Eo : rrel (fun v v' => v = v' \/ exists c vs vs', v = VObj c vs /\ v' = VObj c vs' /\ own e = 1 /\ vchg c vs vs')
                 (if match e_kws e with [a; b] => str_eqb a (lit "id") && str_eqb b (lit "version") | _ => false end
                  then parse_root (e_cls e) (filter (fun l => mem_str (key_of l) (e_kws e)) local)
                  else match e_single e with Some q => parse_single u (e_cls e) q (filter (fun l => mem_str (key_of l) (e_kws e)) local)
                       | None => parse_list u (e_cls e) None (filter (fun l => mem_str (key_of l) (e_kws e)) local) end)
                 (if match e_kws e with [a; b] => str_eqb a (lit "id") && str_eqb b (lit "version") | _ => false end
                  then parse_root (e_cls e) (filter (fun l => mem_str (key_of l) (e_kws e)) local2)
                  else match e_single e with Some q => parse_single u (e_cls e) q (filter (fun l => mem_str (key_of l) (e_kws e)) local2)
                       | None => parse_list u (e_cls e) None (filter (fun l => mem_str (key_of l) (e_kws e)) local2) end)).
    { destruct (mem_str k (e_kws e)) eqn:Ek.
      2:{ rewrite <- (alike_filter_same k s s' (fun t => mem_str t (e_kws e)) _ _ Ek La). apply rrel_refl. intros; left; reflexivity. }
      assert (Hk : In k (e_kws e)) by (apply mem_str_spec; exact Ek).
      destruct (match e_kws e with [a; b] => _ | _ => _ end) eqn:Er; [rewrite (root_words k Hid Hver e Er) in Ek; discriminate|].
      destruct (e_single e) as [q|].
      - rewrite (single_alike u k s s' (eq_trans Hx (eq_sym Hx')) (e_cls e) q _ _ Lf); [apply rrel_refl; intros; left; reflexivity|]. intros _. exact (Sg q eq_refl Hk).
      - eapply rrel_impl; [|apply parse_odd; exact Of]. intros v v' V. apply (Ob _ _ _ V). intros _. rewrite Wd. exact Hk. }
    revert Lf Eo. generalize (filter (fun l => mem_str (key_of l) (e_kws e)) local) (filter (fun l => mem_str (key_of l) (e_kws e)) local2).
    intros x y Lf Eo. destruct Lf; [destruct (e_subs e) eqn:Es; [exact Nn|rewrite <- Es in *]|]; (eapply rrel_bind; [exact Eo|]; intros v v' _ _ V; apply F0; [exact C2|exact V]).
Qed.
End Build.
End Place.
