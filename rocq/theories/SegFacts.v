(* Segment identification: termination and ranges (C17, C18). *)
From Coq Require Import NArith ZArith List Bool String Arith Lia.
From Verif Require Import PyStr PyDec PyVal Schema KvnPre KvnTree KvnSeg XmlBind KvnBuild
     Spec StrFacts.
Import ListNotations.

Section ElemInd.
Variable P : elem -> Prop.
Hypothesis H : forall n c subs k l s m t, Forall P subs -> P (Elem n c subs k l s m t).
Fixpoint elem_ind' (e : elem) : P e :=
  match e with
  | Elem n c subs k l s m t =>
    H n c subs k l s m t
      ((fix go (ss : list elem) : Forall P ss :=
          match ss with
          | [] => Forall_nil _
          | x :: r => Forall_cons _ (elem_ind' x) (go r)
          end) subs)
  end.
End ElemInd.

(* [bind] inversion *)
Lemma bind_ok {A B} (r : res A) (f : A -> res B) b : bind r f = Ok b -> exists a, r = Ok a /\ f a = Ok b.
Proof. destruct r as [a|e]; cbn; [|discriminate]. intros H; exists a; split; [reflexivity|exact H]. Qed.
Lemma bind_err {A B} (r : res A) (f : A -> res B) e :
  bind r f = Err e -> r = Err e \/ exists a, r = Ok a /\ f a = Err e.
Proof. destruct r as [a|x]; cbn; [intros; right; exists a; split; [reflexivity|assumption]|intros H; left; congruence]. Qed.
Ltac inv_ok H := let a := fresh "a" in let E := fresh "E" in apply bind_ok in H; destruct H as [a [E H]].

Definition fueled {A} (r : res A) : Prop := r <> Err OutOfFuel.
Lemma fueled_bind {A B} (r : res A) (f : A -> res B) :
  fueled r -> (forall a, r = Ok a -> fueled (f a)) -> fueled (bind r f).
Proof. intros H1 H2. destruct r as [a|e]; cbn; [apply H2; reflexivity|]. intros E. apply H1. congruence. Qed.
Lemma fueled_ok {A} (a : A) : fueled (Ok a).
Proof. discriminate. Qed.
Lemma fueled_err {A} e : e <> OutOfFuel -> fueled (@Err A e).
Proof. intros H E. congruence. Qed.
Lemma fueled_get {A} (l : list A) i : fueled (get l i).
Proof. unfold get, guard_opt. destruct (nth_error l i); [discriminate|]. discriminate. Qed.
Lemma fueled_guard {A} (o : option A) e : e <> OutOfFuel -> fueled (guard_opt o e).
Proof. intros H. destruct o; [discriminate|]. cbn. intros E. congruence. Qed.
Lemma fueled_map_res {A B} (f : A -> res B) l : (forall a, In a l -> fueled (f a)) -> fueled (map_res f l).
Proof.
  induction l as [|a l IH]; intros H; [discriminate|]. cbn. apply fueled_bind; [apply H; left; reflexivity|].
  intros b _. apply fueled_bind; [apply IH; intros; apply H; right; assumption|]. discriminate.
Qed.
Lemma get_ok {A} (l : list A) i a : get l i = Ok a -> nth_error l i = Some a.
Proof. unfold get, guard_opt. destruct (nth_error l i); congruence. Qed.
Lemma get_lt {A} (l : list A) i a : get l i = Ok a -> i < List.length l.
Proof. intros H. apply get_ok in H. apply nth_error_Some. congruence. Qed.

(* ---- index lists ---- *)
Lemma index_from_bounds x i l j : index_from x i l = Some j ->
  i <= j < i + List.length l.
Proof.
  revert i; induction l as [|a l IH]; intros i; cbn; [discriminate|].
  destruct (str_eqb a x); [intros H; injection H; intros; subst; lia|].
  intros H. apply IH in H. lia.
Qed.
Lemma index_start_bounds x l s j : index_start x l s = Some j -> s <= j < List.length l.
Proof.
  unfold index_start. intros H. apply index_from_bounds in H. rewrite skipn_length in H. lia.
Qed.

Definition within (lo hi : nat) (l : list nat) : Prop := Forall (fun i => lo <= i < hi) l.

Lemma index_list0_within tags s keys : within s (List.length keys) (index_list0 tags s keys).
Proof.
  unfold index_list0, within. induction (filter _ tags) as [|t l IH]; cbn; [constructor|].
  destruct (index_start t keys s) eqn:E; [|exact IH]. constructor; [|exact IH].
  apply index_start_bounds in E. exact E.
Qed.
Lemma comment_indexes_within keys s stop : within s (List.length keys) (comment_indexes keys s stop).
Proof.
  unfold within, comment_indexes. apply Forall_forall. intros i Hi. apply filter_In in Hi.
  destruct Hi as [Hi _]. apply in_seq in Hi. lia.
Qed.
Lemma process_comment_within tags s keys il il' :
  within s (List.length keys) il -> process_comment_lines tags s keys il = Ok il' ->
  within s (List.length keys) il'.
Proof.
  intros W. unfold process_comment_lines. destruct (mem_str kw_comment tags).
  2:{ intros H; injection H; intros <-; exact W. }
  destruct (Nat.eqb (List.length tags) 1).
  - intros H. inv_ok H. injection H; intros <-. destruct (str_eqb a kw_comment); [|exact W].
    apply Forall_app; split; [exact W|]. apply get_lt in E. repeat constructor; lia.
  - destruct il as [|i il]; intros H; injection H; intros <-; [exact W|].
    change (within s (List.length keys) ((i :: il) ++ comment_indexes keys s (list_max (i :: il) + 1))).
    apply Forall_app; split; [exact W|apply comment_indexes_within].
Qed.
Lemma process_comment_fueled tags s keys il : fueled (process_comment_lines tags s keys il).
Proof.
  unfold process_comment_lines. destruct (mem_str _ _); [|discriminate].
  destruct (Nat.eqb _ _); [apply fueled_bind; [apply fueled_get|discriminate]|].
  destruct il; discriminate.
Qed.

Lemma insert_nat_in x y l : In x (insert_nat y l) <-> x = y \/ In x l.
Proof.
  induction l as [|a l IH]; cbn; [intuition congruence|].
  destruct (Nat.leb y a); cbn; [intuition congruence|]. rewrite IH. intuition congruence.
Qed.
Lemma sort_nat_in x l : In x (sort_nat l) <-> In x l.
Proof. induction l as [|a l IH]; [reflexivity|]. cbn. rewrite insert_nat_in, IH. intuition congruence. Qed.
Lemma sort_within lo hi l : within lo hi l -> within lo hi (sort_nat l).
Proof. unfold within. rewrite !Forall_forall. intros H x Hx. apply H. apply sort_nat_in. exact Hx. Qed.
Lemma chop_cons ideal hi n r :
  chop ideal hi (n :: r) = if Nat.ltb hi ideal then Err IndexError
              else do r' <- chop (S ideal) hi r;
                   Ok (if Nat.eqb n ideal then n :: r' else r').
Proof. reflexivity. Qed.
Lemma chop_in ideal hi l l' x : chop ideal hi l = Ok l' -> In x l' -> In x l.
Proof.
  revert ideal l'; induction l as [|n l IH]; intros ideal l'; [|rewrite chop_cons].
  - intros H; injection H; intros <-; auto.
  - destruct (Nat.ltb hi ideal); [discriminate|]. intros H. inv_ok H. injection H; intros <-.
    destruct (Nat.eqb n ideal); [intros [->|Hx]; [left; reflexivity|right; eapply IH; eassumption]|].
    intros Hx; right; eapply IH; eassumption.
Qed.
Lemma chop_fueled ideal hi l : fueled (chop ideal hi l).
Proof.
  revert ideal; induction l as [|n l IH]; intros ideal; [discriminate|]. rewrite chop_cons.
  destruct (Nat.ltb hi ideal); [discriminate|]. apply fueled_bind; [apply IH|discriminate].
Qed.

Lemma list_max_in l : l <> [] -> In (list_max l) l.
Proof.
  induction l as [|a l IH]; [congruence|]. intros _. unfold list_max in *. cbn [fold_right].
  destruct l as [|b l]; [left; cbn; lia|].
  destruct (Nat.max_spec a (fold_right Nat.max 0 (b :: l))) as [[_ E]|[_ E]]; rewrite E; [right; apply IH; discriminate|left; reflexivity].
Qed.
Lemma list_max_ge l x : In x l -> x <= list_max l.
Proof.
  unfold list_max. induction l as [|a l IH]; [intros []|]. cbn [fold_right]. intros [->|H]; [lia|]. apply IH in H. lia.
Qed.
Lemma list_min_in l : l <> [] -> In (list_min l) l.
Proof.
  destruct l as [|a l]; [congruence|]. intros _. cbn [list_min]. 
  assert (forall l a, In (fold_right Nat.min a l) (a :: l)) as G.
  { clear. intros l a; induction l as [|b l IH]; cbn [fold_right]; [left; reflexivity|].
    destruct (Nat.min_spec b (fold_right Nat.min a l)) as [[_ E]|[_ E]]; rewrite E; [right; left; reflexivity|].
    destruct IH as [IH|IH]; [left; exact IH|right; right; exact IH]. }
  apply G.
Qed.
Lemma list_min_le l x : In x l -> list_min l <= x.
Proof.
  destruct l as [|a l]; [intros []|]. cbn [list_min].
  assert (G : forall l a, fold_right Nat.min a l <= a /\ forall y, In y l -> fold_right Nat.min a l <= y).
  { clear. intros l a; induction l as [|b l [I1 I2]]; cbn [fold_right]; [split; [lia|intros _ []]|].
    split; [lia|]. intros y [->|Hy]; [lia|]. apply I2 in Hy. lia. }
  intros H. destruct (G l a) as [G1 G2]. destruct H as [E|H]; [rewrite <- E; exact G1|exact (G2 _ H)].
Qed.

Lemma range_bounds il start n keys single lo hi :
  within start n il -> range_of_indices il start keys single = Ok (lo, hi) -> start <= n ->
  start <= lo /\ lo <= hi /\ hi <= n.
Proof.
  intros W H Hn. unfold range_of_indices in H. inv_ok H.
  assert (Wa : within start n a).
  { destruct il as [|i il]; [injection E; intros <-; constructor|].
    apply sort_within in W. cbv zeta in E.
    destruct (filter _ _); [injection E; intros <-; exact W|]. inv_ok E.
    destruct (_ || _); [|injection E; intros <-; exact W].
    unfold within in *. rewrite Forall_forall in *. intros x Hx. apply W. eapply chop_in; eassumption. }
  clear E W. destruct a as [|x a]; [injection H; intros <- <-; lia|].
  unfold within in Wa. rewrite Forall_forall in Wa.
  pose proof (Wa _ (list_min_in (x :: a) ltac:(discriminate))) as W1.
  pose proof (Wa _ (list_max_in (x :: a) ltac:(discriminate))) as W2.
  pose proof (list_min_le (x :: a) _ (list_max_in (x :: a) ltac:(discriminate))) as W3.
  set (mn := list_min (x :: a)) in *. set (mxx := list_max (x :: a)) in *. clearbody mn mxx.
  destruct single; injection H; intros <- <-; lia.
Qed.
(* without the bound on start: still ordered *)
Lemma range_order il start n keys single lo hi :
  within start n il -> range_of_indices il start keys single = Ok (lo, hi) -> start <= lo /\ lo <= hi.
Proof.
  intros W H.
  assert (W' : within start (Nat.max start n) il)
    by (eapply Forall_impl; [|exact W]; cbn; intros; lia).
  pose proof (range_bounds _ _ _ _ _ _ _ W' H ltac:(lia)). lia.
Qed.
Lemma range_fueled il start keys single : fueled (range_of_indices il start keys single).
Proof.
  unfold range_of_indices. apply fueled_bind.
  - destruct il; [discriminate|]. cbv zeta. destruct (filter _ _); [discriminate|].
    apply fueled_bind; [apply fueled_map_res; intros; apply fueled_get|]. intros a _.
    destruct (_ || _); [apply chop_fueled|discriminate].
  - intros a _. destruct a; [discriminate|]. destruct single; discriminate.
Qed.

Lemma get_min_max_bounds tags start keys prefix single lo hi tags' :
  get_min_max tags start keys prefix single = Ok ((lo, hi), tags') ->
  start <= lo /\ lo <= hi /\ (start <= List.length keys -> hi <= List.length keys).
Proof.
  unfold get_min_max. intros H. inv_ok H. inv_ok H. injection H; intros _ ->.
  assert (W : within start (List.length keys) a).
  { eapply process_comment_within; [|exact E]. apply index_list0_within. }
  pose proof (range_order _ _ _ _ _ _ _ W E0).
  split; [apply H0|split; [apply H0|]]. intros Hs.
  pose proof (range_bounds _ _ _ _ _ _ _ W E0 Hs). lia.
Qed.
Lemma get_min_max_fueled tags start keys prefix single : fueled (get_min_max tags start keys prefix single).
Proof.
  unfold get_min_max. apply fueled_bind; [apply process_comment_fueled|]. intros a _.
  apply fueled_bind; [apply range_fueled|discriminate].
Qed.

Section Seg.
Variable u : env.

Lemma date_range_bounds lines init col lo hi : date_range u lines init col = Ok (lo, hi) ->
  lo = init /\ lo <= hi /\ hi <= List.length lines.
Proof.
  unfold date_range. intros H. inv_ok H. inv_ok H. inv_ok H. inv_ok H. injection H; intros <- <-.
  apply get_lt in E. destruct a2; lia.
Qed.
Lemma date_range_fueled lines init col : fueled (date_range u lines init col).
Proof.
  unfold date_range. apply fueled_bind; [apply fueled_get|]; intros.
  apply fueled_bind; [apply fueled_get|]; intros. apply fueled_bind; [apply fueled_get|]; intros.
  apply fueled_bind; [|discriminate]. unfold is_datestr. destruct (isnumeric _ _); [|discriminate].
  apply fueled_bind; [apply fueled_get|discriminate].
Qed.
Lemma count_floats_le ls : count_floats u ls <= List.length ls.
Proof.
  induction ls as [|l ls IH]; [reflexivity|]. cbn. destruct l as [|k l]; [lia|].
  destruct (split_ws k); [lia|]. destruct (float_ok u s); lia.
Qed.

Definition same_elem (e e' : elem) : Prop :=
  e_name e' = e_name e /\ e_cls e' = e_cls e /\ e_subs e' = e_subs e /\
  e_islist e' = e_islist e /\ e_single e' = e_single e /\ e_tmpl e' = e_tmpl e /\ e_mm e' = e_mm e.

Lemma own_range_same e keys lines init mm e' :
  own_range u e keys lines init = Ok (mm, e') -> same_elem e e'.
Proof.
  unfold own_range. intros H.
  destruct (String.eqb (e_cls e) "StateVectorAccType" || String.eqb (e_cls e) "AttitudeStateType").
  { inv_ok H. injection H; intros <- _. repeat split. }
  destruct (String.eqb (e_cls e) "TrackingDataObservationType").
  { inv_ok H. injection H; intros <- _. repeat split. }
  destruct (String.eqb (e_cls e) "OemCovarianceMatrixType"); inv_ok H; destruct a as [[lo hi] tags];
    injection H; intros <- _; repeat split.
Qed.
Lemma own_range_bounds e keys lines init lo hi e' :
  own_range u e keys lines init = Ok ((lo, hi), e') ->
  init <= lo /\ lo <= hi /\
  (List.length keys = List.length lines -> init <= List.length lines -> hi <= List.length lines).
Proof.
  unfold own_range. intros H.
  destruct (String.eqb (e_cls e) "StateVectorAccType" || String.eqb (e_cls e) "AttitudeStateType").
  { inv_ok H. injection H; intros _ ->. apply date_range_bounds in E. lia. }
  destruct (String.eqb (e_cls e) "TrackingDataObservationType").
  { inv_ok H. injection H; intros _ ->. apply date_range_bounds in E. lia. }
  destruct (String.eqb (e_cls e) "OemCovarianceMatrixType").
  - inv_ok H. destruct a as [[lo' hi'] tags]. apply get_min_max_bounds in E.
    cbv zeta in H. destruct (Nat.eqb lo' hi'); injection H; intros _ <- <-.
    + lia.
    + destruct E as [E1 [E2 E3]]. split; [exact E1|]. split; [lia|]. intros L1 L2.
      rewrite L1 in E3. specialize (E3 L2).
      pose proof (count_floats_le (skipn hi' lines)) as C. rewrite skipn_length in C. lia.
  - inv_ok H. destruct a as [[lo' hi'] tags]. apply get_min_max_bounds in E.
    cbv zeta in H. injection H; intros _ <- <-. destruct E as [E1 [E2 E3]].
    split; [exact E1|]. split; [exact E2|]. intros L1 L2. rewrite <- L1. apply E3. lia.
Qed.
Lemma own_range_fueled e keys lines init : fueled (own_range u e keys lines init).
Proof.
  unfold own_range. destruct (_ || _); [apply fueled_bind; [apply date_range_fueled|discriminate]|].
  destruct (String.eqb _ _); [apply fueled_bind; [apply date_range_fueled|discriminate]|].
  destruct (String.eqb _ _); (apply fueled_bind; [apply get_min_max_fueled|]); intros [[lo hi] tags] _; discriminate.
Qed.

(* the loop over the subclasses, as a function of its own *)
Section Subs.
Variables (keys : list str) (lines : list line) (lo : nat).
Fixpoint ident_subs (ss : list elem) (idx : nat) : res (nat * list elem) :=
  match ss with
  | [] => Ok (idx, [])
  | s :: rest =>
    if e_islist s then
      do li <- identify_list (identify u s keys lines) (List.length lines)
                             (S (List.length keys)) idx idx;
      let '(idx', es) := li in
      do g <- ident_subs rest idx';
      let '(idx'', gs) := g in Ok (idx'', es ++ gs)
    else
      do si <- identify u s keys lines idx;
      let '(idx', smm, s') := si in
      do s'' <-
         (if Nat.eqb (fst smm) (snd smm)
             && match e_subs s' with [] => true | _ => false end
          then do r2 <- own_range u s' keys lines lo;
               Ok (set_mm (snd r2) (fst r2))
          else Ok (set_mm s' smm));
      do g <- ident_subs rest idx';
      let '(idx'', gs) := g in Ok (idx'', s'' :: gs)
  end.
End Subs.

Lemma identify_eq e keys lines init :
  identify u e keys lines init =
  do r <- own_range u e keys lines init;
  let '(mm, e1) := r in
  match e_subs e with
  | [] => Ok (snd mm, mm, e1)
  | _ :: _ => do g <- ident_subs keys lines (fst mm) (e_subs e) (snd mm);
              let '(mx, gs) := g in Ok (mx, mm, set_subs e1 gs)
  end.
Proof. destruct e as [nm cl subs kws il sg mm0 tm]. reflexivity. Qed.

(* ---- order of positions, and fuel ---- *)
Definition ord_ident (init : nat) (r : res ident) : Prop :=
  match r with
  | Ok (mx, (lo, hi), _) => init <= lo /\ lo <= hi /\ hi <= mx
  | Err _ => True
  end.

Lemma identify_list_S one nlines n init last :
  identify_list one nlines (S n) init last =
    do r <- one init;
    let '(mx, (lo, hi), e) := r in
    if Nat.eqb mx lo && Nat.eqb lo hi then Ok (mx, [])
    else if Nat.ltb last lo then Ok (last, [])
    else
      let e' := set_mm e (lo, hi) in
      if Nat.leb nlines mx then Ok (mx, [e'])
      else do r' <- identify_list one nlines n mx mx;
           let '(mx', es) := r' in Ok (mx', e' :: es).
Proof. reflexivity. Qed.
Lemma identify_list_order one nlines fuel init mx es :
  (forall i, ord_ident i (one i)) ->
  identify_list one nlines fuel init init = Ok (mx, es) -> init <= mx.
Proof.
  intros H1. revert init mx es; induction fuel as [|n IH]; intros init mx es; [discriminate|]; rewrite identify_list_S.
  intros H. inv_ok H. destruct a as [[mx1 [lo hi]] e].
  pose proof (H1 init) as O. rewrite E in O. cbn in O.
  destruct (Nat.eqb mx1 lo && Nat.eqb lo hi); [injection H; intros; subst; lia|].
  destruct (Nat.ltb init lo); [injection H; intros; subst; lia|].
  destruct (Nat.leb nlines mx1); [injection H; intros; subst; lia|].
  inv_ok H. destruct a as [mx' es']. injection H; intros; subst. apply IH in E0. lia.
Qed.
Lemma identify_list_fueled one nlines fuel init :
  (forall i, ord_ident i (one i)) -> (forall i, fueled (one i)) ->
  nlines - init < fuel -> fueled (identify_list one nlines fuel init init).
Proof.
  intros H1 H2. revert init; induction fuel as [|n IH]; intros init Hf; [lia|]. rewrite identify_list_S.
  apply fueled_bind; [apply H2|]. intros [[mx1 [lo hi]] e] E.
  pose proof (H1 init) as O. rewrite E in O. cbn in O.
  destruct (Nat.eqb mx1 lo && Nat.eqb lo hi) eqn:B1; [discriminate|].
  destruct (Nat.ltb init lo) eqn:B2; [discriminate|].
  destruct (Nat.leb nlines mx1) eqn:B3; [discriminate|].
  apply Nat.leb_gt in B3. apply Nat.ltb_ge in B2.
  assert (init < mx1).
  { apply andb_false_iff in B1. rewrite !Nat.eqb_neq in B1. lia. }
  apply fueled_bind; [apply IH; lia|]. intros [mx' es] _. discriminate.
Qed.

Lemma ident_subs_order keys lines lo ss idx mx gs :
  Forall (fun s => forall i, ord_ident i (identify u s keys lines i)) ss ->
  ident_subs keys lines lo ss idx = Ok (mx, gs) -> idx <= mx.
Proof.
  intros F; revert idx mx gs; induction F as [|s ss Hs F IH]; intros idx mx gs; cbn [ident_subs].
  { intros H; injection H; intros; subst; lia. }
  destruct (e_islist s).
  - intros H. inv_ok H. destruct a as [idx' es]. inv_ok H. destruct a as [idx'' gs']. injection H; intros; subst.
    apply identify_list_order in E; [|exact Hs]. apply IH in E0. lia.
  - intros H. inv_ok H. destruct a as [[idx' [slo shi]] s']. inv_ok H. inv_ok H. destruct a0 as [idx'' gs'].
    injection H; intros; subst. apply IH in E1. pose proof (Hs idx) as O. rewrite E in O. cbn in O. lia.
Qed.
Lemma identify_order e keys lines : forall init, ord_ident init (identify u e keys lines init).
Proof.
  induction e as [n c subs k l s m t F] using elem_ind'. intros init. rewrite identify_eq.
  destruct (own_range u (Elem n c subs k l s m t) keys lines init) as [[[lo hi] e1]|x] eqn:E; [|exact I].
  cbn [bind]. apply own_range_bounds in E. cbn [e_subs]. destruct subs as [|s0 subs]; [cbn; lia|].
  destruct (ident_subs keys lines (fst (lo, hi)) (s0 :: subs) (snd (lo, hi))) as [[mx gs]|x] eqn:G; [|exact I].
  cbn [bind ord_ident]. apply ident_subs_order in G; [cbn in G; lia|exact F].
Qed.
Lemma identify_fueled e keys lines : List.length lines <= List.length keys ->
  forall init, fueled (identify u e keys lines init).
Proof.
  intros L. induction e as [n c subs k l s m t F] using elem_ind'. intros init. rewrite identify_eq.
  apply fueled_bind; [apply own_range_fueled|]. intros [[lo hi] e1] _. cbn [e_subs].
  destruct subs as [|s0 subs]; [discriminate|].
  apply fueled_bind; [|intros [mx gs] _; discriminate]. cbn [fst snd].
  clear -F L. generalize (s0 :: subs) hi F. clear F subs s0 hi. intros ss idx F. revert idx.
  induction F as [|x ss Hx F IH]; intros idx; cbn [ident_subs]; [discriminate|].
  destruct (e_islist x).
  - apply fueled_bind.
    + apply identify_list_fueled; [intros; apply identify_order|exact Hx|lia].
    + intros [idx' es] _. apply fueled_bind; [apply IH|]. intros [idx'' gs] _. discriminate.
  - apply fueled_bind; [apply Hx|]. intros [[idx' smm] s'] _.
    apply fueled_bind.
    + destruct (_ && _); [|discriminate]. apply fueled_bind; [apply own_range_fueled|discriminate].
    + intros s'' _. apply fueled_bind; [apply IH|]. intros [idx'' gs] _. discriminate.
Qed.

(* ---- ranges inside the document ---- *)
(* neighbours with the same name (elements of one list section) do not overlap *)
Definition disjoint_neighbours (l : list elem) : Prop :=
  forall l1 a b l2, l = l1 ++ a :: b :: l2 -> e_name a = e_name b -> snd (e_mm a) <= fst (e_mm b).
Definition range_ok (n : nat) (e : elem) : Prop := fst (e_mm e) <= snd (e_mm e) /\ snd (e_mm e) <= n.
(* every section of the identified tree lies inside a document of n lines, and list elements are
   disjoint and in order *)
Definition well_ranged (n : nat) (e : elem) : Prop :=
  forall x, In x (all_elems e) -> range_ok n x /\ disjoint_neighbours (e_subs x).

Lemma all_elems_eq e : all_elems e = e :: flat_map all_elems (e_subs e).
Proof. destruct e; reflexivity. Qed.
Definition distinct_names (e : elem) : Prop :=
  forall x, In x (all_elems e) -> NoDup (map e_name (e_subs x)).

(* what identification of one element yields: its subtree (own range aside) is good *)
Definition subs_good (n : nat) (e : elem) : Prop :=
  disjoint_neighbours (e_subs e) /\ forall s, In s (e_subs e) -> well_ranged n s.
Lemma well_ranged_intro n e : range_ok n e -> subs_good n e -> well_ranged n e.
Proof.
  intros R [D S] x Hx. rewrite all_elems_eq in Hx. destruct Hx as [<-|Hx]; [split; assumption|].
  apply in_flat_map in Hx. destruct Hx as [s [Hs Hx]]. exact (S s Hs x Hx).
Qed.

Definition good_ident (n : nat) (e : elem) (r : res ident) : Prop :=
  match r with
  | Ok (mx, (lo, hi), e') => lo <= hi /\ hi <= n /\ hi <= mx /\ mx <= n /\
                             e_name e' = e_name e /\ subs_good n e'
  | Err _ => True
  end.

Lemma identify_list_good e one n fuel init mx es :
  (forall i, ord_ident i (one i)) -> (forall i, i <= n -> good_ident n e (one i)) -> init <= n ->
  identify_list one n fuel init init = Ok (mx, es) ->
  init <= mx /\ mx <= n /\ Forall (fun x => e_name x = e_name e /\ well_ranged n x /\ init <= fst (e_mm x)) es /\
  disjoint_neighbours es.
Proof.
  intros H1 H2. revert init mx es; induction fuel as [|k IH]; intros init mx es Hi; [discriminate|]; rewrite identify_list_S.
  intros H. inv_ok H. destruct a as [[mx1 [lo hi]] e1].
  pose proof (H1 init) as O. rewrite E in O. cbn in O.
  pose proof (H2 init Hi) as G. rewrite E in G. cbn in G.
  assert (Dn : disjoint_neighbours []) by (intros [|? ?] ? ? ?; discriminate).
  destruct (Nat.eqb mx1 lo && Nat.eqb lo hi).
  { injection H; intros; subst. repeat split; try lia; [constructor|exact Dn]. }
  destruct (Nat.ltb init lo) eqn:B2.
  { injection H; intros; subst. repeat split; try lia; [constructor|exact Dn]. }
  apply Nat.ltb_ge in B2.
  assert (W : well_ranged n (set_mm e1 (lo, hi))).
  { apply well_ranged_intro; [split; cbn; lia|]. exact (proj2 (proj2 (proj2 (proj2 (proj2 G))))). }
  destruct (Nat.leb n mx1).
  { injection H; intros; subst. repeat split; try lia.
    - constructor; [|constructor]. split; [apply G|]. split; [exact W|cbn; lia].
    - intros [|x [|y l1]] a b l2; discriminate. }
  inv_ok H. destruct a as [mx' es']. injection H; intros; subst.
  apply IH in E0; [|lia]. destruct E0 as [E1 [E2 [E3 E4]]]. repeat split; try lia.
  - constructor; [split; [apply G|]; split; [exact W|cbn; lia]|].
    eapply Forall_impl; [|exact E3]. cbn. intros x [X1 [X2 X3]]. split; [exact X1|]. split; [exact X2|lia].
  - intros [|x l1] a b l2 Eq Hn.
    + injection Eq as Ea Eb. rewrite <- Ea. cbn [e_mm set_mm snd]. rewrite Eb in E3. inversion E3 as [|? ? X ?]; subst.
      destruct X as [_ [_ X]]. lia.
    + injection Eq as Ea Eb. exact (E4 _ _ _ _ Eb Hn).
Qed.

Lemma disjoint_app l1 l2 :
  disjoint_neighbours l1 -> disjoint_neighbours l2 ->
  (forall a b, In a l1 -> In b l2 -> e_name a <> e_name b) -> disjoint_neighbours (l1 ++ l2).
Proof.
  intros D1 D2 N p a b s Eq Hn.
  apply app_eq_app in Eq. destruct Eq as [m [[E1 E2]|[E1 E2]]].
  - (* l1 = p ++ m, m ++ l2 = a :: b :: s *)
    destruct m as [|x m]; cbn in E2.
    + apply (D2 [] a b s); [symmetry; exact E2|exact Hn].
    + injection E2; intros E3 ->. destruct m as [|y m]; cbn in E3.
      * exfalso. apply (N x b); [subst; apply in_or_app; right; left; reflexivity|rewrite <- E3; left; reflexivity|exact Hn].
      * injection E3; intros E4 ->. apply (D1 p x y m); [exact E1|exact Hn].
  - (* p = l1 ++ m, l2 = m ++ a :: b :: s *)
    apply (D2 m a b s); [exact E2|exact Hn].
Qed.

Lemma ident_subs_good keys lines lo ss idx mx gs :
  List.length keys = List.length lines -> lo <= List.length lines -> idx <= List.length lines ->
  Forall (fun s => forall i, i <= List.length lines -> good_ident (List.length lines) s (identify u s keys lines i)) ss ->
  NoDup (map e_name ss) ->
  ident_subs keys lines lo ss idx = Ok (mx, gs) ->
  mx <= List.length lines /\ disjoint_neighbours gs /\
  Forall (fun x => In (e_name x) (map e_name ss) /\ well_ranged (List.length lines) x) gs.
Proof.
  intros L Hlo Hidx F ND. revert idx mx gs Hidx; induction F as [|s ss Hs F IH]; intros idx mx gs Hidx; cbn [ident_subs].
  { intros H; injection H; intros; subst. repeat split; try lia; [intros [|? ?] ? ? ?; discriminate|constructor]. }
  cbn [map] in ND. inversion ND as [|? ? Nin ND']; subst. specialize (IH ND').
  destruct (e_islist s).
  - intros H. inv_ok H. destruct a as [idx' es]. inv_ok H. destruct a as [idx'' gs']. injection H; intros; subst.
    eapply identify_list_good in E; [|intros; apply identify_order|exact Hs|exact Hidx].
    destruct E as [E1 [E2 [E3 E4]]]. apply IH in E0; [|exact E2]. destruct E0 as [G1 [G2 G3]].
    rewrite Forall_forall in E3, G3.
    repeat split; try assumption.
    + apply disjoint_app; [exact E4|exact G2|]. intros a b Ha Hb Eq. apply E3 in Ha. apply G3 in Hb.
      apply Nin. destruct Ha as [Ha _]. destruct Hb as [Hb _]. rewrite <- Ha, Eq. exact Hb.
    + apply Forall_app; split; apply Forall_forall; intros x Hx.
      * apply E3 in Hx. destruct Hx as [X1 [X2 _]]. split; [left; symmetry; exact X1|exact X2].
      * apply G3 in Hx. destruct Hx as [X1 X2]. split; [right; exact X1|exact X2].
  - intros H. inv_ok H. destruct a as [[idx' [slo shi]] s']. inv_ok H. inv_ok H. destruct a0 as [idx'' gs'].
    injection H; intros; subst. pose proof (Hs idx Hidx) as G. rewrite E in G. cbn in G.
    destruct G as [G1 [G2 [G3 [G4 [G5 G6]]]]]. apply IH in E1; [|exact G4]. destruct E1 as [K1 [K2 K3]].
    assert (A : e_name a = e_name s /\ well_ranged (List.length lines) a).
    { destruct (_ && _).
      - inv_ok E0. destruct a0 as [[lo2 hi2] e2]. injection E0; intros <-. cbn [fst snd].
        pose proof (own_range_same _ _ _ _ _ _ E1) as Sm. apply own_range_bounds in E1.
        destruct E1 as [B1 [B2 B3]]. specialize (B3 L Hlo).
        destruct Sm as [S1 [S2 [S3 _]]].
        split; [cbn; rewrite S1; exact G5|]. apply well_ranged_intro; [split; cbn; lia|].
        unfold subs_good in *. cbn [set_mm e_subs]. rewrite S3. exact G6.
      - injection E0; intros <-. split; [exact G5|]. apply well_ranged_intro; [split; cbn; lia|exact G6]. }
    rewrite Forall_forall in K3.
    repeat split; try assumption.
    + change (a :: gs') with ([a] ++ gs'). apply disjoint_app; [intros [|x [|y l]] ? ? ?; discriminate|exact K2|].
      intros x y [<-|[]] Hy Eq. apply K3 in Hy. apply Nin. destruct A as [A _]. rewrite <- A, Eq. apply Hy.
    + constructor; [split; [left; symmetry; apply A|apply A]|]. apply Forall_forall. intros x Hx. apply K3 in Hx.
      split; [right; apply Hx|apply Hx].
Qed.

Lemma distinct_names_sub e s : distinct_names e -> In s (e_subs e) -> distinct_names s.
Proof.
  intros D Hs x Hx. apply D. rewrite all_elems_eq. right. apply in_flat_map. exists s; split; assumption.
Qed.

Lemma identify_good e keys lines : List.length keys = List.length lines -> distinct_names e ->
  forall init, init <= List.length lines -> good_ident (List.length lines) e (identify u e keys lines init).
Proof.
  intros L. induction e as [n c subs k l s m t F] using elem_ind'. intros D init Hi.
  pose proof (identify_order (Elem n c subs k l s m t) keys lines init) as O.
  rewrite identify_eq in *. 
  destruct (own_range u (Elem n c subs k l s m t) keys lines init) as [[[lo hi] e1]|x] eqn:E; [|exact I].
  cbn [bind] in *. pose proof (own_range_same _ _ _ _ _ _ E) as Sm. apply own_range_bounds in E.
  destruct Sm as [S1 [_ [S3 _]]]. cbn [e_subs e_name] in *.
  destruct E as [E1 [E2 E3]]. specialize (E3 L Hi).
  destruct subs as [|s0 subs].
  { cbn [bind good_ident snd]. split; [lia|]. split; [lia|]. split; [lia|]. split; [lia|].
    split; [exact S1|]. unfold subs_good. rewrite S3.
    split; [intros [|? ?] ? ? ?; discriminate|intros ? []]. }
  destruct (ident_subs keys lines (fst (lo, hi)) (s0 :: subs) (snd (lo, hi))) as [[mx gs]|x] eqn:G; [|exact I].
  cbn [bind ord_ident good_ident fst snd] in *.
  apply ident_subs_good in G; try assumption; try lia.
  - destruct G as [G1 [G2 G3]]. split; [lia|]. split; [lia|]. split; [lia|]. split; [lia|].
    split; [exact S1|]. split; [exact G2|]. intros x Hx. cbn in Hx. rewrite Forall_forall in G3. apply G3, Hx.
  - rewrite Forall_forall in *. intros x Hx. apply F; [exact Hx|]. apply (distinct_names_sub _ _ D). exact Hx.
  - apply (D (Elem n c (s0 :: subs) k l s m t)). rewrite all_elems_eq. left; reflexivity.
Qed.

(* the eight object maps have distinct names in every class *)
Fixpoint nodup_string (l : list string) : bool :=
  match l with [] => true | x :: r => negb (existsb (String.eqb x) r) && nodup_string r end.
Lemma nodup_string_spec l : nodup_string l = true -> NoDup l.
Proof.
  induction l as [|x l IH]; cbn; [constructor|]. rewrite andb_true_iff, negb_true_iff. intros [H1 H2].
  constructor; [|apply IH, H2]. intros Hin. assert (existsb (String.eqb x) l = true); [|congruence].
  apply existsb_exists. exists x; split; [exact Hin|apply String.eqb_refl].
Qed.
Lemma tree_distinct c : In c root_classes -> distinct_names (tree_of c).
Proof.
  intros H x Hx. apply nodup_string_spec. revert x Hx.
  assert (B : forallb (fun x => nodup_string (map e_name (e_subs x))) (all_elems (tree_of c)) = true).
  { repeat (destruct H as [<-|H]; [vm_compute; reflexivity|]). destruct H. }
  apply forallb_forall. exact B.
Qed.

Lemma keys_length (ls : list line) : List.length (keys_of ls) = List.length ls.
Proof. apply map_length. Qed.

Lemma identify_segments_ranged c lines e : In c root_classes ->
  identify_segments u (tree_of c) lines = Ok e -> well_ranged (List.length lines) e.
Proof.
  intros Hc. unfold identify_segments. intros H. inv_ok H. destruct a as [[mx [lo hi]] e1]. injection H; intros <-.
  pose proof (identify_good (tree_of c) (keys_of lines) lines (keys_length lines) (tree_distinct c Hc) 0 ltac:(lia)) as G.
  rewrite E in G. cbn in G. apply well_ranged_intro; [split; cbn; lia|]. apply G.
Qed.
Lemma identify_segments_fueled e lines : fueled (identify_segments u e lines).
Proof.
  unfold identify_segments. apply fueled_bind; [apply identify_fueled; rewrite keys_length; lia|].
  intros [[mx mm] e1] _. discriminate.
Qed.
End Seg.
