(* Two neighbouring lines of one section exchanged: the sections that are found stay the same. *)
From Coq Require Import NArith ZArith List Bool String Arith Lia Permutation Sorted.
From Verif Require Import PyStr PyDec PyVal Schema KvnPre KvnTree KvnSeg XmlBind KvnBuild
     Spec StrFacts SegFacts BuildFacts ReadFacts GapFacts ComposeFacts.
Import ListNotations.
Local Open Scope string_scope.
Local Open Scope list_scope.
Local Arguments find_class : simpl never.
Local Arguments lit : simpl never.

Lemma ok_inj {A} (x y : A) : Ok x = Ok y -> x = y.
Proof. intros H. injection H as H. exact H. Qed.

(* ---- lists ---- *)
Lemma insert_comm x y l : insert_nat x (insert_nat y l) = insert_nat y (insert_nat x l).
Proof.
  induction l as [|z l IH]; cbn [insert_nat].
  - destruct (Nat.leb_spec x y), (Nat.leb_spec y x); try reflexivity; [replace y with x by lia; reflexivity|lia].
  - destruct (Nat.leb_spec y z), (Nat.leb_spec x z); cbn [insert_nat];
      repeat match goal with |- context [Nat.leb ?a ?b] => destruct (Nat.leb_spec a b) end; try lia; try reflexivity;
      [replace y with x by lia; reflexivity|rewrite IH; reflexivity].
Qed.
Lemma sort_perm l l' : Permutation l l' -> sort_nat l = sort_nat l'.
Proof.
  induction 1 as [|x l l' _ IH|x y l|l l' l'' _ IH1 _ IH2]; [reflexivity| | |congruence]; cbn [sort_nat].
  - rewrite IH. reflexivity.
  - apply insert_comm.
Qed.
Lemma max_perm l l' : Permutation l l' -> list_max l = list_max l'.
Proof.
  induction 1 as [|x l l' _ IH|x y l|l l' l'' _ IH1 _ IH2]; [reflexivity| | |congruence]; cbn [list_max fold_right] in *; [f_equal; exact IH|].
  fold (list_max l). lia.
Qed.
Lemma mem_str_perm x l l' : Permutation l l' -> mem_str x l = mem_str x l'.
Proof.
  intros P. destruct (mem_str x l') eqn:E.
  - apply mem_str_spec. apply mem_str_spec in E. eapply Permutation_in; [symmetry; exact P|exact E].
  - apply mem_str_false. apply mem_str_false in E. intros H. apply E. eapply Permutation_in; [exact P|exact H].
Qed.
Lemma has_dup_perm l l' : Permutation l l' -> has_dup l = has_dup l'.
Proof.
  induction 1 as [|x l l' P IH|x y l|l l' l'' _ IH1 _ IH2]; [reflexivity| | |congruence]; cbn [has_dup].
  - rewrite IH, (mem_str_perm x l l' P). reflexivity.
  - unfold mem_str in *. cbn [existsb]. assert (S1 : str_eqb y x = str_eqb x y).
    { destruct (str_eqb x y) eqn:E; [apply str_eqb_eq in E; subst; apply str_eqb_refl|]. destruct (str_eqb y x) eqn:E2; [|reflexivity].
      apply str_eqb_eq in E2. subst. rewrite str_eqb_refl in E. discriminate. }
    rewrite S1. destruct (str_eqb x y), (existsb (str_eqb x) l), (existsb (str_eqb y) l); reflexivity.
Qed.
Lemma existsb_perm {A} (f : A -> bool) l l' : Permutation l l' -> existsb f l = existsb f l'.
Proof.
  induction 1 as [|x l l' P IH|x y l|l l' l'' _ IH1 _ IH2]; [reflexivity| | |congruence]; cbn [existsb]; [rewrite IH; reflexivity|].
  destruct (f x), (f y); reflexivity.
Qed.
Lemma skipn_tl {A} i (l : list A) x r : skipn i l = x :: r -> skipn (S i) l = r.
Proof.
  revert l. induction i as [|i IH]; intros l H; [cbn in H; subst; reflexivity|]. destruct l as [|y l]; [discriminate|]. cbn in *. apply IH. exact H.
Qed.
Lemma skipn_add {A} i j (l : list A) : skipn i (skipn j l) = skipn (j + i) l.
Proof. revert l. induction j as [|j IH]; intros l; [reflexivity|]. destruct l as [|x l]; [destruct i; reflexivity|]. cbn. apply IH. Qed.
Lemma nth_error_skipn {A} i j (l : list A) : nth_error (skipn i l) j = nth_error l (i + j).
Proof. revert l. induction i as [|i IH]; intros l; [reflexivity|]. destruct l as [|x l]; [destruct j; reflexivity|]. cbn. apply IH. Qed.
Lemma keys_skipn i (l : list line) : keys_of (skipn i l) = skipn i (keys_of l).
Proof. revert l. induction i as [|i IH]; intros [|x l]; try reflexivity. apply IH. Qed.
Lemma keys_nth (l : list line) i : nth_error (keys_of l) i = option_map key_of (nth_error l i).
Proof. unfold keys_of. apply nth_error_map. Qed.

(* ---- binding two children in either order ---- *)
Lemma assoc_in {A} k (l : list (string * A)) v : assoc k l = Some v -> In (k, v) l.
Proof.
  induction l as [|[n w] l IH]; [discriminate|]. cbn [assoc]. destruct (String.eqb_spec n k) as [->|_]; intros H; [injection H as ->; left; reflexivity|right; apply IH; exact H].
Qed.
Definition names_ok : bool := forallb (fun p => match snd p with CData _ fs => nodup_string (map f_name fs) | _ => true end) schema.
Lemma field_names c : NoDup (map f_name (fields_of c)).
Proof.
  assert (W : names_ok = true) by (vm_compute; reflexivity). unfold names_ok in W. rewrite forallb_forall in W. unfold fields_of.
  destruct (find_class c) as [[m fs|ms]|] eqn:E; try constructor. apply assoc_in in E. specialize (W _ E). cbn [snd] in W. apply nodup_string_spec. exact W.
Qed.
Ltac two_names k n m := destruct (String.eqb k m) eqn:?, (String.eqb k n) eqn:?; cbn [set_var append_var];
  repeat match goal with H : String.eqb k _ = _ |- _ => rewrite ?H; revert H end; intros;
  try reflexivity; try (repeat match goal with H : String.eqb _ _ = true |- _ => apply String.eqb_eq in H end; congruence).
Lemma set_set n m v w vars : n <> m -> set_var n v (set_var m w vars) = set_var m w (set_var n v vars).
Proof. intros N. induction vars as [|[k z] vars IH]; [reflexivity|]. cbn [set_var]. two_names k n m; rewrite IH; reflexivity. Qed.
Lemma set_append n m v w vars : n <> m -> set_var n v (append_var m w vars) = append_var m w (set_var n v vars).
Proof. intros N. induction vars as [|[k z] vars IH]; [reflexivity|]. cbn [set_var append_var]. two_names k n m; rewrite IH; reflexivity. Qed.
Lemma append_append n m v w vars : n <> m -> append_var n v (append_var m w vars) = append_var m w (append_var n v vars).
Proof. intros N. induction vars as [|[k z] vars IH]; [reflexivity|]. cbn [append_var]. two_names k n m; rewrite IH; reflexivity. Qed.
Section Bind.
Variable u : env.
Lemma bind_seen cls fs cs : forall s s' vars, (forall n, existsb (String.eqb n) s = existsb (String.eqb n) s') ->
  bind_children u cls fs s cs vars = bind_children u cls fs s' cs vars.
Proof.
  induction cs as [|[[tag attrs] text] cs IH]; intros s s' vars H; [reflexivity|]. cbn [bind_children]. destruct (child_ok _); [|reflexivity].
  destruct (find_elem tag fs) as [f|]; [|reflexivity]. destruct (f_list f); [apply IH; exact H|]. rewrite <- H. destruct (existsb _ s); [reflexivity|].
  apply IH. intros n. cbn [existsb]. rewrite H. reflexivity.
Qed.
Lemma bind_swap cls fs t1 a1 x1 t2 a2 x2 cs s vars : NoDup (map f_name fs) -> t1 <> t2 ->
  bind_children u cls fs s ((t1, a1, x1) :: (t2, a2, x2) :: cs) vars = bind_children u cls fs s ((t2, a2, x2) :: (t1, a1, x1) :: cs) vars.
Proof.
  intros ND Nt.
  assert (Nf : forall f1 f2, find_elem t1 fs = Some f1 -> find_elem t2 fs = Some f2 -> f_name f1 <> f_name f2).
  { intros f1 f2 E1 E2 En. unfold find_elem in *. apply find_some in E1, E2. destruct E1 as [I1 E1], E2 as [I2 E2].
    assert (f1 = f2).
    { clear - ND I1 I2 En. induction fs as [|f fs IH]; [destruct I1|]. cbn in ND. apply NoDup_cons_iff in ND. destruct ND as [N0 ND].
      destruct I1 as [<-|I1], I2 as [<-|I2]; [reflexivity| | |apply IH; assumption]; exfalso; apply N0; [rewrite En|rewrite <- En]; apply in_map; assumption. }
    subst f2. destruct (f_kind f1); try discriminate. apply str_eqb_eq in E1, E2. congruence. }
  cbn [bind_children]. destruct (child_ok (t1, a1, x1)) eqn:O1, (child_ok (t2, a2, x2)) eqn:O2; try reflexivity.
  2: { destruct (find_elem t1 fs) as [f1|]; [|reflexivity]. destruct (f_list f1); [reflexivity|]. destruct (existsb _ _); reflexivity. }
  2: { destruct (find_elem t2 fs) as [f1|]; [|reflexivity]. destruct (f_list f1); [reflexivity|]. destruct (existsb _ _); reflexivity. }
  destruct (find_elem t1 fs) as [f1|] eqn:E1, (find_elem t2 fs) as [f2|] eqn:E2; try reflexivity.
  2: { destruct (f_list f1); [reflexivity|]. destruct (existsb _ _); reflexivity. }
  2: { destruct (f_list f2); [reflexivity|]. destruct (existsb _ _); reflexivity. }
  pose proof (Nf f1 f2 eq_refl eq_refl) as Nn. destruct (f_list f1) eqn:L1, (f_list f2) eqn:L2; cbn [existsb].
  - rewrite append_append by congruence. reflexivity.
  - destruct (existsb (String.eqb (f_name f2)) s); [reflexivity|]. rewrite set_append by congruence. reflexivity.
  - destruct (existsb (String.eqb (f_name f1)) s); [reflexivity|]. rewrite set_append by congruence. reflexivity.
  - rewrite (proj2 (String.eqb_neq (f_name f1) (f_name f2))) by congruence. rewrite (proj2 (String.eqb_neq (f_name f2) (f_name f1))) by congruence. cbn [orb].
    destruct (existsb (String.eqb (f_name f1)) s) eqn:X1, (existsb (String.eqb (f_name f2)) s) eqn:X2; try reflexivity.
    rewrite set_set by congruence. apply bind_seen. intros n. cbn [existsb]. destruct (String.eqb n (f_name f1)), (String.eqb n (f_name f2)); reflexivity.
Qed.
Lemma bind_swap_in cls fs t1 a1 x1 t2 a2 x2 cs0 cs : NoDup (map f_name fs) -> t1 <> t2 -> forall s vars,
  bind_children u cls fs s (cs0 ++ (t1, a1, x1) :: (t2, a2, x2) :: cs) vars = bind_children u cls fs s (cs0 ++ (t2, a2, x2) :: (t1, a1, x1) :: cs) vars.
Proof.
  intros ND Nt. induction cs0 as [|[[tag attrs] text] cs0 IH]; intros s vars; [apply bind_swap; assumption|]. cbn [app bind_children].
  destruct (child_ok _); [|reflexivity]. destruct (find_elem tag fs) as [f|]; [|reflexivity]. rewrite !IH. reflexivity.
Qed.
Lemma child_err l e : child_of_line l = Err e -> e = IndexError.
Proof.
  unfold child_of_line. destruct l as [|k [|t l]]; cbn; intros H; [congruence|congruence|discriminate].
Qed.
Lemma child_key l c : child_of_line l = Ok c -> fst (fst c) = key_of l.
Proof. unfold child_of_line. destruct l as [|k [|t l]]; cbn; intros H; [discriminate|discriminate|injection H as <-; reflexivity]. Qed.
Lemma children_err l e : map_res child_of_line l = Err e -> e = IndexError.
Proof.
  induction l as [|x l IH]; cbn [map_res]; [discriminate|]. destruct (child_of_line x) eqn:E; cbn [bind]; [|intros H; injection H as <-; exact (child_err x _ E)].
  destruct (map_res child_of_line l); cbn [bind]; [discriminate|]. intros H. injection H as <-. apply IH. reflexivity.
Qed.
Lemma map_res_app {A B} (f : A -> res B) l m : map_res f (l ++ m) = do r <- map_res f l; do s <- map_res f m; Ok (r ++ s).
Proof.
  induction l as [|i l IH]; cbn [app map_res bind].
  - destruct (map_res f m); reflexivity.
  - destruct (f i); [|reflexivity]. cbn [bind]. rewrite IH. destruct (map_res f l); [|reflexivity]. cbn [bind]. destruct (map_res f m); reflexivity.
Qed.
Lemma parse_swap cls l1 x y l2 : key_of x <> key_of y -> parse_list u cls None (l1 ++ x :: y :: l2) = parse_list u cls None (l1 ++ y :: x :: l2).
Proof.
  intros N. unfold parse_list. rewrite !map_res_app. cbn [map_res].
  destruct (map_res child_of_line l1) as [c1|e1] eqn:E1; cbn [bind]; [|reflexivity].
  destruct (child_of_line x) as [[[tx ax] vx]|ex] eqn:Ex, (child_of_line y) as [[[ty ay] vy]|ey] eqn:Ey; cbn [bind];
    try (apply child_err in Ex; subst ex); try (apply child_err in Ey; subst ey); try reflexivity.
  destruct (map_res child_of_line l2) as [c2|e2]; cbn [bind]; [|reflexivity].
  apply child_key in Ex, Ey. cbn [fst] in Ex, Ey. rewrite (bind_swap_in cls (fields_of cls) tx ax vx ty ay vy c1 c2); [reflexivity|apply field_names|congruence].
Qed.
End Bind.

(* ---- elements without an AEM segment in them ---- *)
Definition seg_free (e : elem) : Prop := forall x, In x (all_elems e) -> e_cls x <> "AemSegment".
Lemma seg_free_intro e : e_cls e <> "AemSegment" -> (forall s, In s (e_subs e) -> seg_free s) -> seg_free e.
Proof.
  intros C S x Hx. rewrite all_elems_eq in Hx. destruct Hx as [<-|Hx]; [exact C|]. apply in_flat_map in Hx. destruct Hx as [s [Hs Hx]]. exact (S s Hs x Hx).
Qed.
Lemma seg_free_cls e : seg_free e -> e_cls e <> "AemSegment".
Proof. intros W. apply W. rewrite all_elems_eq. left. reflexivity. Qed.
Lemma seg_free_sub e s : seg_free e -> In s (e_subs e) -> seg_free s.
Proof. intros W H x Hx. apply W. rewrite all_elems_eq. right. apply in_flat_map. exists s. split; assumption. Qed.
Definition freer (e e' : elem) : Prop := seg_free e -> seg_free e'.
Lemma freer_same e e' : e_cls e' = e_cls e -> (forall g, In g (e_subs e') -> exists s, In s (e_subs e) /\ freer s g) -> freer e e'.
Proof.
  intros Ec H W. apply seg_free_intro; [rewrite Ec; apply seg_free_cls; exact W|]. intros g Hg. destruct (H g Hg) as [s [Hs F]]. apply F. exact (seg_free_sub e s W Hs).
Qed.
Lemma freer_mm e m : freer e (set_mm e m).
Proof. apply freer_same; [reflexivity|]. intros g Hg. exists g. split; [exact Hg|intros X; exact X]. Qed.
Section Free.
Variable u : env.
Lemma own_freer e keys lines i mm e' : own_range u e keys lines i = Ok (mm, e') -> freer e e'.
Proof.
  intros H. apply own_range_same in H. destruct H as [_ [H2 [H3 _]]]. apply freer_same; [exact H2|]. intros g Hg. rewrite H3 in Hg. exists g. split; [exact Hg|intros X; exact X].
Qed.
Definition freer_ident (e : elem) (r : res ident) : Prop := match r with Ok (_, _, e') => freer e e' | Err _ => True end.
Lemma list_freer e one n f : (forall i, freer_ident e (one i)) -> forall i last mx es, identify_list one n f i last = Ok (mx, es) -> Forall (freer e) es.
Proof.
  intros K. induction f as [|f IH]; intros i last mx es; [discriminate|]. rewrite identify_list_S. pose proof (K i) as Ki.
  destruct (one i) as [[[mx' [lo hi]] e1]|x]; [|discriminate]. cbn [bind freer_ident] in *.
  assert (W : freer e (set_mm e1 (lo, hi))) by (intros X; apply freer_mm, Ki, X).
  destruct (_ && _); [intros X; injection X as <- <-; constructor|]. destruct (Nat.ltb _ _); [intros X; injection X as <- <-; constructor|].
  cbv zeta. destruct (Nat.leb _ _); [intros X; injection X as <- <-; constructor; [exact W|constructor]|].
  intros H. inv_ok H. destruct a as [mx2 es2]. injection H as <- <-. constructor; [exact W|]. eapply IH; exact E.
Qed.
Lemma subs_freer keys lines lo ss : Forall (fun s => forall i, freer_ident s (identify u s keys lines i)) ss ->
  forall i mx gs, ident_subs u keys lines lo ss i = Ok (mx, gs) -> forall g, In g gs -> exists s, In s ss /\ freer s g.
Proof.
  intros F. induction F as [|s ss Hs F IH]; intros i mx gs; cbn [ident_subs]; [intros X; injection X as <- <-; intros g []|].
  destruct (e_islist s).
  - intros H. inv_ok H. destruct a as [i' es]. inv_ok H. destruct a as [i'' gs']. injection H as <- <-. intros g Hg. apply in_app_or in Hg. destruct Hg as [Hg|Hg].
    + apply (list_freer s) in E; [|exact Hs]. rewrite Forall_forall in E. exists s. split; [left; reflexivity|exact (E g Hg)].
    + destruct (IH _ _ _ E0 g Hg) as [s1 [A B]]. exists s1. split; [right; exact A|exact B].
  - intros H. inv_ok H. destruct a as [[i' smm] s']. inv_ok H. inv_ok H. destruct a0 as [i'' gs']. injection H as <- <-.
    pose proof (Hs i) as K. rewrite E in K. cbn [freer_ident] in K. intros g [<-|Hg].
    + exists s. split; [left; reflexivity|]. destruct (_ && _).
      * inv_ok E0. destruct a0 as [mm2 r]. injection E0 as <-. apply own_freer in E2. intros X. apply freer_mm, E2, K, X.
      * injection E0 as <-. intros X. apply freer_mm, K, X.
    + destruct (IH _ _ _ E1 g Hg) as [s1 [A B]]. exists s1. split; [right; exact A|exact B].
Qed.
Lemma identify_freer keys lines : forall e i, freer_ident e (identify u e keys lines i).
Proof.
  intros e. induction e as [n c subs k l s m t F] using elem_ind'. intros i. rewrite identify_eq.
  destruct (own_range _ _ _ _ i) as [[mm e1]|x] eqn:E; [|exact I]. pose proof (own_freer _ _ _ _ _ _ E) as K. apply own_range_same in E.
  destruct E as [H1 [H2 [H3 _]]]. cbn [bind e_subs e_name e_cls] in *. destruct subs as [|s0 subs]; [exact K|].
  destruct (ident_subs _ _ _ _ _ _) as [[mx gs]|x] eqn:G; [|exact I]. cbn [bind freer_ident]. apply freer_same; [exact H2|].
  intros g Hg. cbn [e_subs set_subs] in Hg |- *. exact (subs_freer keys lines _ _ F _ _ _ G g Hg).
Qed.
End Free.

(* ---- lists of lines in which two keywords always stand together ---- *)
Section Swap.
Variables a b : str.
Hypothesis ab : a <> b.
Definition is_ab (k : str) : Prop := k = a \/ k = b.
Definition duo (k1 k2 : str) : Prop := (k1 = a /\ k2 = b) \/ (k1 = b /\ k2 = a).
Lemma is_ab_dec k : {is_ab k} + {~ is_ab k}.
Proof. destruct (list_eq_dec N.eq_dec k a) as [E|E]; [left; left; exact E|]. destruct (list_eq_dec N.eq_dec k b) as [F|F]; [left; right; exact F|right; intros [X|X]; contradiction]. Qed.
Inductive swl : list line -> list line -> Prop :=
| swl_nil : swl [] []
| swl_other l r r' : ~ is_ab (key_of l) -> swl r r' -> swl (l :: r) (l :: r')
| swl_same l m r r' : duo (key_of l) (key_of m) -> swl r r' -> swl (l :: m :: r) (l :: m :: r')
| swl_swap l m r r' : duo (key_of l) (key_of m) -> swl r r' -> swl (l :: m :: r) (m :: l :: r').
Lemma duo_sym k1 k2 : duo k1 k2 -> duo k2 k1.
Proof. unfold duo. tauto. Qed.
Lemma duo_ab k1 k2 : duo k1 k2 -> is_ab k1 /\ is_ab k2.
Proof. unfold duo, is_ab. tauto. Qed.
Lemma swl_sym r r' : swl r r' -> swl r' r.
Proof. induction 1; [constructor|constructor; assumption|apply swl_same; assumption|apply swl_swap; [apply duo_sym|]; assumption]. Qed.
Lemma swl_length r r' : swl r r' -> List.length r = List.length r'.
Proof. induction 1; cbn; congruence. Qed.
Lemma swl_parity l r l' r' : swl (l :: r) (l' :: r') -> swl r r' -> is_ab (key_of l) -> False.
Proof.
  revert l r l' r'. assert (G : forall n l r l' r', List.length r <= n -> swl (l :: r) (l' :: r') -> swl r r' -> is_ab (key_of l) -> False).
  { induction n as [|n IH]; intros l r l' r' Hn H1 H2 Hl.
    - destruct r; [|cbn in Hn; lia]. inversion H1; subst. contradiction.
    - inversion H1 as [|? ? ? Nl S1|? m r1 r1' D S1|? m r1 r1' D S1]; subst; [contradiction| |].
      + apply (IH m r1 m r1'); [cbn in Hn; lia|exact H2|exact S1|apply (duo_ab _ _ D)].
      + apply (IH l' r1 l r1'); [cbn in Hn; lia|exact H2|exact S1|apply (duo_ab _ _ D)]. }
  intros l r l' r'. apply (G (List.length r)). apply le_n.
Qed.
Lemma swl_app A r r' : swl A A -> swl r r' -> swl (A ++ r) (A ++ r').
Proof.
  intros H. remember A as A' eqn:E in H at 2. intros S. revert E. induction H as [|l r0 r0' N H IH|l m r0 r0' D H IH|l m r0 r0' D H IH]; intros E; cbn [app].
  - exact S.
  - injection E as <-. constructor; [exact N|]. apply IH. reflexivity.
  - injection E as <-. apply swl_same; [exact D|]. apply IH. reflexivity.
  - injection E as <- _ <-. apply swl_same; [exact D|]. apply IH. reflexivity.
Qed.
(* a keyword other than the two *)
Lemma swl_nth r r' : swl r r' -> forall n l, nth_error r n = Some l -> ~ is_ab (key_of l) ->
  nth_error r' n = Some l /\ swl (skipn n r) (skipn n r') /\ swl (skipn (S n) r) (skipn (S n) r').
Proof.
  induction 1 as [|l0 r r' N H IH|l0 m r r' D H IH|l0 m r r' D H IH]; intros n l Hn Nl.
  - destruct n; discriminate.
  - destruct n as [|n]; [cbn in *; injection Hn as <-; split; [reflexivity|]; split; [constructor; assumption|assumption]|]. exact (IH n l Hn Nl).
  - destruct (duo_ab _ _ D) as [D1 D2]. destruct n as [|[|n]]; cbn in Hn; [injection Hn as <-; contradiction|injection Hn as <-; contradiction|].
    exact (IH n l Hn Nl).
  - destruct (duo_ab _ _ D) as [D1 D2]. destruct n as [|[|n]]; cbn in Hn; [injection Hn as <-; contradiction|injection Hn as <-; contradiction|].
    exact (IH n l Hn Nl).
Qed.
Lemma swl_index t r r' : swl r r' -> ~ is_ab t -> forall i, index_from t i (keys_of r) = index_from t i (keys_of r').
Proof.
  intros H N. induction H as [|l0 r r' _ H IH|l0 m r r' D H IH|l0 m r r' D H IH]; intros i; cbn [keys_of map index_from].
  - reflexivity.
  - destruct (str_eqb (key_of l0) t); [reflexivity|]. apply IH.
  - destruct (str_eqb (key_of l0) t); [reflexivity|]. destruct (str_eqb (key_of m) t); [reflexivity|]. apply IH.
  - destruct (duo_ab _ _ D) as [D1 D2].
    assert (E1 : str_eqb (key_of l0) t = false) by (apply str_eqb_neq; intros X; rewrite X in D1; contradiction).
    assert (E2 : str_eqb (key_of m) t = false) by (apply str_eqb_neq; intros X; rewrite X in D2; contradiction).
    rewrite E1, E2. apply IH.
Qed.
(* the two keywords: at the same two places, or nowhere *)
Definition both_at (i j : nat) (keys : list str) : Prop :=
  (index_from a i keys = Some j /\ index_from b i keys = Some (S j)) \/ (index_from a i keys = Some (S j) /\ index_from b i keys = Some j).
Lemma swl_first r r' : swl r r' -> forall i,
  (index_from a i (keys_of r) = None /\ index_from b i (keys_of r) = None /\ index_from a i (keys_of r') = None /\ index_from b i (keys_of r') = None) \/
  exists n, both_at i (i + n) (keys_of r) /\ both_at i (i + n) (keys_of r') /\ swl (skipn n r) (skipn n r') /\ ~ swl (skipn (S n) r) (skipn (S n) r') /\
    swl (skipn (S (S n)) r) (skipn (S (S n)) r').
Proof.
  assert (Q : forall x y : str, x <> y -> str_eqb x y = false) by (intros x y; apply str_eqb_neq).
  assert (P : forall l m i, duo (key_of l) (key_of m) -> forall q, both_at i (i + 0) (keys_of (l :: m :: q))).
  { intros l m i [[E1 E2]|[E1 E2]] q; unfold both_at; cbn [keys_of map index_from]; rewrite E1, E2, !str_eqb_refl, ?(Q a b ab), ?(Q b a (not_eq_sym ab)), Nat.add_0_r; [left|right]; split; reflexivity. }
  induction 1 as [|l0 r r' N H IH|l0 m r r' D H IH|l0 m r r' D H IH]; intros i.
  - left. repeat split; reflexivity.
  - assert (Na : str_eqb (key_of l0) a = false) by (apply Q; intros X; apply N; left; exact X).
    assert (Nb : str_eqb (key_of l0) b = false) by (apply Q; intros X; apply N; right; exact X).
    unfold both_at in *. cbn [keys_of map index_from]. rewrite Na, Nb. destruct (IH (S i)) as [X|[n [X1 [X2 [X3 [X4 X5]]]]]]; [left; exact X|right].
    exists (S n). replace (i + S n) with (S i + n) by lia. repeat split; assumption.
  - right. exists 0. split; [apply P; exact D|]. split; [apply P; exact D|]. split; [apply swl_same; assumption|]. cbn [skipn]. split; [|exact H].
    intros X. exact (swl_parity _ _ _ _ X H (proj2 (duo_ab _ _ D))).
  - right. exists 0. split; [apply P; exact D|]. split; [apply P; apply duo_sym; exact D|]. split; [apply swl_swap; assumption|]. cbn [skipn]. split; [|exact H].
    intros X. exact (swl_parity _ _ _ _ X H (proj2 (duo_ab _ _ D))).
Qed.
(* the first line with a keyword *)
Lemma swl_find key r r' : swl r r' ->
  find (fun l => str_eqb (key_of l) key) r = find (fun l => str_eqb (key_of l) key) r'.
Proof.
  induction 1 as [|l0 r r' N H IH|l0 m r r' D H IH|l0 m r r' D H IH]; cbn [find]; [reflexivity| | |].
  - rewrite IH. reflexivity.
  - rewrite IH. reflexivity.
  - destruct (str_eqb (key_of l0) key) eqn:E1, (str_eqb (key_of m) key) eqn:E2; try reflexivity; [|exact IH].
    apply str_eqb_eq in E1, E2. destruct D as [[D1 D2]|[D1 D2]]; congruence.
Qed.
Lemma lookup_find key lines i :
  lookup_line key lines i = match find (fun l => str_eqb (key_of l) key) (skipn i lines) with Some l => get l 1 | None => Err ValueError end.
Proof.
  unfold lookup_line, index_start. rewrite <- keys_skipn.
  assert (G : forall r j, match index_from key j (keys_of r) with Some n => nth_error r (n - j) | None => None end =
     find (fun l => str_eqb (key_of l) key) r /\ (forall n, index_from key j (keys_of r) = Some n -> j <= n < j + List.length r)).
  { induction r as [|l r IH]; intros j; cbn [keys_of map index_from find]; [split; [reflexivity|discriminate]|].
    destruct (str_eqb (key_of l) key).
    - split; [rewrite Nat.sub_diag; reflexivity|]. intros n X. injection X as <-. cbn. lia.
    - destruct (IH (S j)) as [I1 I2]. fold (keys_of r). split; [|intros n X; apply I2 in X; cbn; lia].
      rewrite <- I1. destruct (index_from key (S j) (keys_of r)) as [n|] eqn:E; [|reflexivity]. specialize (I2 n eq_refl).
      replace (n - j) with (S (n - S j)) by lia. reflexivity. }
  destruct (G (skipn i lines) i) as [G1 G2]. destruct (index_from key i (keys_of (skipn i lines))) as [n|]; cbn [guard_opt bind]; [|rewrite <- G1; reflexivity].
  specialize (G2 n eq_refl). rewrite <- G1. unfold get at 1. rewrite nth_error_skipn. replace (i + (n - i)) with n by lia.
  destruct (nth_error lines n) eqn:E; [reflexivity|]. exfalso. apply nth_error_None in E. rewrite skipn_length in G2. lia.
Qed.

(* ---- one exchange ---- *)
Variables (A B : list line) (x y : line).
Hypothesis pA : swl A A.
Hypothesis pB : swl B B.
Hypothesis xy : duo (key_of x) (key_of y).
Definition one := A ++ x :: y :: B.
Definition two := A ++ y :: x :: B.
Let p := List.length A.
Definition bd (i : nat) : Prop := swl (skipn i one) (skipn i two).

Lemma bd_0 : bd 0.
Proof. apply swl_app; [exact pA|]. apply swl_swap; assumption. Qed.
Lemma skip_A n (r : list line) : skipn (p + n) (A ++ r) = skipn n r.
Proof. unfold p. rewrite skipn_app, skipn_all2 by lia. replace (_ + n - _) with n by lia. reflexivity. Qed.
Lemma bd_p : bd p /\ ~ bd (S p) /\ bd (S (S p)).
Proof.
  unfold bd, one, two. replace (S p) with (p + 1) by lia. replace (S (p + 1)) with (p + 2) by lia. replace p with (p + 0) at 1 2 by lia.
  rewrite !skip_A. cbn [skipn]. split; [apply swl_swap; assumption|]. split; [|exact pB].
  intros X. exact (swl_parity _ _ _ _ X pB (proj2 (duo_ab _ _ xy))).
Qed.
Lemma nth_same i : i <> p -> i <> S p -> nth_error one i = nth_error two i.
Proof.
  intros N1 N2. unfold one, two. destruct (le_lt_dec p i) as [L|L].
  - rewrite !nth_error_app2 by assumption. fold p. destruct (i - p) as [|[|n]] eqn:E; [lia|lia|]. reflexivity.
  - rewrite !nth_error_app1 by assumption. reflexivity.
Qed.
Lemma nth_p : nth_error one p = Some x /\ nth_error one (S p) = Some y /\ nth_error two p = Some y /\ nth_error two (S p) = Some x.
Proof.
  unfold one, two. rewrite !nth_error_app2 by (unfold p; lia). fold p. rewrite Nat.sub_diag. replace (S p - p) with 1 by lia. repeat split; reflexivity.
Qed.
Lemma len_same : List.length one = List.length two.
Proof. unfold one, two. rewrite !app_length. reflexivity. Qed.
Lemma bd_at i n l : bd i -> i <= n -> nth_error one n = Some l -> ~ is_ab (key_of l) -> nth_error two n = Some l /\ bd n /\ bd (S n).
Proof.
  intros H L E N. unfold bd in *. assert (E1 : nth_error (skipn i one) (n - i) = Some l) by (rewrite nth_error_skipn; replace (i + (n - i)) with n by lia; exact E).
  destruct (swl_nth _ _ H _ _ E1 N) as [X1 [X2 X3]]. rewrite nth_error_skipn in X1. rewrite !skipn_add in X2, X3.
  replace (i + (n - i)) with n in * by lia. replace (i + S (n - i)) with (S n) in X3 by lia. split; [exact X1|]. split; assumption.
Qed.
Let K := keys_of one.
Let K' := keys_of two.
Lemma len_K : List.length K = List.length K'.
Proof. unfold K, K'. rewrite !keys_length. apply len_same. Qed.

(* tags: neither of the two, or both *)
Definition neither (tags : list str) : Prop := ~ In a tags /\ ~ In b tags.
Definition both (tags : list str) : Prop := NoDup tags /\ In a tags /\ In b tags.
Hypothesis ca : a <> kw_comment.
Hypothesis cb : b <> kw_comment.

(* index lists: every index stands alone or together with its neighbour *)
Definition alone (j : nat) : Prop := bd j /\ bd (S j).
Definition closed (il : list nat) : Prop :=
  forall j, In j il -> alone j \/ exists q, bd q /\ ~ bd (S q) /\ bd (S (S q)) /\ In q il /\ In (S q) il /\ (j = q \/ j = S q).
Lemma index_other t i : bd i -> ~ is_ab t -> index_start t K i = index_start t K' i.
Proof.
  intros H N. unfold index_start, K, K'. rewrite <- !keys_skipn. apply swl_index; assumption.
Qed.
Lemma index_alone t i j : bd i -> ~ is_ab t -> index_start t K i = Some j -> alone j.
Proof.
  intros H N E. pose proof (index_start_bounds _ _ _ _ E) as Bd. apply index_start_nth in E. unfold K in E. rewrite keys_nth in E.
  destruct (nth_error one j) as [l|] eqn:El; [|discriminate]. cbn in E. injection E as E.
  destruct (bd_at i j l H) as [_ X]; [lia|exact El|rewrite E; exact N|]. exact X.
Qed.
Lemma index_list0_neither tags i : bd i -> neither tags -> index_list0 tags i K = index_list0 tags i K' /\
  forall j, In j (index_list0 tags i K) -> alone j.
Proof.
  intros H [N1 N2]. assert (Nt : forall t, In t tags -> ~ is_ab t) by (intros t Ht [-> | ->]; contradiction). split.
  - unfold index_list0. assert (G : forall l, (forall t, In t l -> ~ is_ab t) -> filter_map (fun t => index_start t K i) l = filter_map (fun t => index_start t K' i) l).
    { induction l as [|t l IH]; intros G; [reflexivity|]. cbn [filter_map]. rewrite (index_other t i H (G t (or_introl eq_refl))).
      rewrite IH; [reflexivity|]. intros s Hs. apply G. right; exact Hs. }
    apply G. intros t Ht. apply filter_In in Ht. apply Nt. apply Ht.
  - intros j Hj. apply index_list0_in in Hj. destruct Hj as [t [Ht [_ E]]]. exact (index_alone t i j H (Nt t Ht) E).
Qed.
Lemma index_list0_both tags i : bd i -> both tags -> Permutation (index_list0 tags i K) (index_list0 tags i K') /\ closed (index_list0 tags i K).
Proof.
  intros H [ND [Ia Ib]]. pose proof H as H'. unfold bd in H'.
  assert (Hab : (index_start a K i = None /\ index_start b K i = None /\ index_start a K' i = None /\ index_start b K' i = None) \/
     exists q, both_at i q (skipn i K) /\ both_at i q (skipn i K') /\ bd q /\ ~ bd (S q) /\ bd (S (S q))).
  { unfold index_start, K, K'. rewrite <- !keys_skipn. destruct (swl_first _ _ H' i) as [X|[n [X1 [X2 [X3 [X4 X5]]]]]]; [left; exact X|right].
    exists (i + n). rewrite !skipn_add in *. unfold bd. replace (S (i + n)) with (i + S n) by lia. replace (S (i + S n)) with (i + S (S n)) by lia.
    repeat split; assumption. }
  split.
  - apply NoDup_Permutation; [apply index_list0_nodup; exact ND|apply index_list0_nodup; exact ND|].
    intros j. rewrite !index_list0_in. split; intros [t [Ht [Hc E]]].
    + destruct (is_ab_dec t) as [T|T].
      * destruct Hab as [[X1 [X2 [X3 X4]]]|[q [X1 [X2 X3]]]]; [destruct T as [-> | ->]; congruence|].
        unfold both_at, index_start in *. destruct T as [-> | ->]; destruct X1 as [[Y1 Y2]|[Y1 Y2]], X2 as [[Z1 Z2]|[Z1 Z2]]; rewrite ?Y1, ?Y2 in E; injection E as <-;
          ((exists a; split; [exact Ia|split; [exact ca|assumption]]) || (exists b; split; [exact Ib|split; [exact cb|assumption]])).
      * exists t. split; [exact Ht|]. split; [exact Hc|]. rewrite <- index_other; assumption.
    + destruct (is_ab_dec t) as [T|T].
      * destruct Hab as [[X1 [X2 [X3 X4]]]|[q [X1 [X2 X3]]]]; [destruct T as [-> | ->]; congruence|].
        unfold both_at, index_start in *. destruct T as [-> | ->]; destruct X1 as [[Y1 Y2]|[Y1 Y2]], X2 as [[Z1 Z2]|[Z1 Z2]]; rewrite ?Z1, ?Z2 in E; injection E as <-;
          ((exists a; split; [exact Ia|split; [exact ca|assumption]]) || (exists b; split; [exact Ib|split; [exact cb|assumption]])).
      * exists t. split; [exact Ht|]. split; [exact Hc|]. rewrite index_other; assumption.
  - intros j Hj. pose proof Hj as Hj'. apply index_list0_in in Hj. destruct Hj as [t [Ht [Hc E]]]. destruct (is_ab_dec t) as [T|T].
    + right. destruct Hab as [[X1 [X2 [X3 X4]]]|[q [X1 [X2 [X3 [X4 X5]]]]]]; [destruct T as [-> | ->]; congruence|].
      exists q. split; [exact X3|]. split; [exact X4|]. split; [exact X5|].
      assert (Iq : In q (index_list0 tags i K) /\ In (S q) (index_list0 tags i K)).
      { rewrite !index_list0_in. unfold index_start. destruct X1 as [[Y1 Y2]|[Y1 Y2]]; split;
          ((exists a; split; [exact Ia|split; [exact ca|assumption]]) || (exists b; split; [exact Ib|split; [exact cb|assumption]])). }
      split; [apply Iq|]. split; [apply Iq|]. unfold index_start in E. unfold both_at in X1.
      destruct T as [-> | ->], X1 as [[Y1 Y2]|[Y1 Y2]]; rewrite ?Y1, ?Y2 in E; injection E as <-; auto.
    + left. exact (index_alone t i j H T E).
Qed.
Lemma comment_same s n : comment_indexes K s n = comment_indexes K' s n.
Proof.
  unfold comment_indexes. rewrite <- len_K. apply filter_ext_in. intros i _. unfold K, K'. rewrite !keys_nth.
  assert (Hc : forall l, is_ab (key_of l) -> str_eqb (key_of l) kw_comment = false).
  { intros l [E|E]; apply str_eqb_neq; rewrite E; assumption. }
  destruct (Nat.eq_dec i p) as [->|N1]; [|destruct (Nat.eq_dec i (S p)) as [->|N2]; [|rewrite nth_same by assumption; reflexivity]];
    destruct nth_p as [E1 [E2 [E3 E4]]]; rewrite ?E1, ?E2, ?E3, ?E4; cbn [option_map]; rewrite !Hc by (apply (duo_ab _ _ xy)); reflexivity.
Qed.
Lemma comment_alone i s j n : bd i -> i <= s -> In j (comment_indexes K s n) -> alone j.
Proof.
  intros H L Hj. apply comment_indexes_in in Hj. destruct Hj as [Bj Hj]. unfold K in Hj. rewrite keys_nth in Hj.
  destruct (nth_error one j) as [l|] eqn:El; [|discriminate]. cbn in Hj. injection Hj as Hj.
  destruct (bd_at i j l H) as [_ X]; [lia|exact El|rewrite Hj; intros [Y|Y]; congruence|]. exact X.
Qed.

Lemma process_swap tags i : bd i -> neither tags \/ both tags ->
  match process_comment_lines tags i K (index_list0 tags i K), process_comment_lines tags i K' (index_list0 tags i K') with
  | Ok il, Ok il' => Permutation il il' /\ closed il /\ (neither tags -> forall j, In j il -> alone j) /\ (both tags -> NoDup il)
  | Err e, Err e' => e = e'
  | _, _ => False
  end.
Proof.
  intros H T.
  assert (G : Permutation (index_list0 tags i K) (index_list0 tags i K') /\ closed (index_list0 tags i K) /\
     (neither tags -> forall j, In j (index_list0 tags i K) -> alone j) /\ (both tags -> NoDup (index_list0 tags i K))).
  { destruct T as [T|T].
    - destruct (index_list0_neither tags i H T) as [E Al]. split; [rewrite E; apply Permutation_refl|]. split; [intros j Hj; left; exact (Al j Hj)|].
      split; [intros _; exact Al|]. intros [ND [Ia _]]. destruct T as [T _]. contradiction.
    - destruct (index_list0_both tags i H T) as [P C]. split; [exact P|]. split; [exact C|]. split; [|intros [ND _]; apply index_list0_nodup; exact ND].
      intros [N1 _]. destruct T as [_ [Ia _]]. contradiction. }
  destruct G as [P [C [Al Nd]]]. unfold process_comment_lines. destruct (mem_str kw_comment tags); [|exact (conj P (conj C (conj Al Nd)))].
  destruct (Nat.eqb_spec (List.length tags) 1) as [L1|L1].
  - assert (Nt : neither tags).
    { destruct T as [T|[_ [Ia Ib]]]; [exact T|]. destruct tags as [|t [|t' tags]]; cbn in L1; [lia| |lia].
      destruct Ia as [Ia|[]], Ib as [Ib|[]]. congruence. }
    assert (Nb : ~ both tags) by (intros [_ [Ia _]]; destruct Nt as [X _]; contradiction).
    unfold get, K, K'. rewrite !keys_nth. fold K K'.
    destruct (Nat.eq_dec i p) as [->|N1].
    + destruct nth_p as [E1 [E2 [E3 E4]]]. rewrite E1, E3. cbn [option_map guard_opt bind].
      assert (Hc : forall l, is_ab (key_of l) -> str_eqb (key_of l) kw_comment = false) by (intros l [E|E]; apply str_eqb_neq; rewrite E; assumption).
      rewrite !Hc by (apply (duo_ab _ _ xy)). exact (conj P (conj C (conj Al Nd))).
    + destruct (Nat.eq_dec i (S p)) as [->|N2]; [exfalso; apply (proj1 (proj2 bd_p)); exact H|]. rewrite <- nth_same by assumption.
      destruct (nth_error one i) as [l|] eqn:El; [|reflexivity]. cbn [option_map guard_opt bind].
      destruct (str_eqb (key_of l) kw_comment) eqn:Ec; [|exact (conj P (conj C (conj Al Nd)))]. apply str_eqb_eq in Ec.
      assert (Ai : alone i).
      { destruct (bd_at i i l H) as [_ X]; [lia|exact El|rewrite Ec; intros [Y|Y]; congruence|exact X]. }
      split; [apply Permutation_app_tail; exact P|]. split; [intros j Hj; apply in_app_or in Hj; destruct Hj as [Hj|[<-|[]]]; left; [apply Al; assumption|exact Ai]|].
      split; [intros _ j Hj; apply in_app_or in Hj; destruct Hj as [Hj|[<-|[]]]; [apply Al; assumption|exact Ai]|]. intros X; contradiction.
  - destruct (index_list0 tags i K) as [|j0 il] eqn:Ei.
    + apply Permutation_nil in P. rewrite P. split; [constructor|]. split; [intros j []|]. split; [intros _ j []|]. intros _; constructor.
    + destruct (index_list0 tags i K') as [|j1 il'] eqn:Ei'; [apply Permutation_sym, Permutation_nil in P; discriminate|]. rewrite <- Ei, <- Ei' in *.
      rewrite <- (max_perm _ _ P), <- comment_same. split; [apply Permutation_app_tail; exact P|].
      assert (Ca : forall j, In j (comment_indexes K i (list_max (index_list0 tags i K) + 1)) -> alone j).
      { intros j Hj. eapply comment_alone; [exact H|apply le_n|exact Hj]. }
      split; [|split].
      * intros j Hj. apply in_app_or in Hj. destruct Hj as [Hj|Hj]; [|left; exact (Ca j Hj)].
        destruct (C j Hj) as [X|[q [X1 [X2 [X3 [X4 [X5 X6]]]]]]]; [left; exact X|right]. exists q. repeat split; try assumption; apply in_or_app; left; assumption.
      * intros Nt j Hj. apply in_app_or in Hj. destruct Hj as [Hj|Hj]; [exact (Al Nt j Hj)|exact (Ca j Hj)].
      * intros [ND _]. apply found_nodup. exact ND.
Qed.
Lemma closed_span il : closed il -> il <> [] -> bd (list_min il) /\ bd (list_max il + 1).
Proof.
  intros C N. split.
  - pose proof (list_min_in il N) as M. destruct (C _ M) as [[X _]|[q [X1 [X2 [X3 [X4 [X5 X6]]]]]]]; [exact X|].
    apply list_min_le in X4. destruct X6 as [->|E]; [exact X1|lia].
  - pose proof (list_max_in il N) as M. destruct (C _ M) as [[_ X]|[q [X1 [X2 [X3 [X4 [X5 X6]]]]]]]; [rewrite Nat.add_1_r; exact X|].
    apply list_max_ge in X5. destruct X6 as [E|E]; [lia|]. rewrite E, Nat.add_1_r. exact X3.
Qed.
Lemma closed_p il : closed il -> (In p il <-> In (S p) il).
Proof.
  intros C. destruct bd_p as [B1 [B2 B3]]. split; intros H; destruct (C _ H) as [[X1 X2]|[q [X1 [X2 [X3 [X4 [X5 X6]]]]]]]; try contradiction.
  - destruct X6 as [->|E]; [exact X5|]. rewrite E in B1. contradiction.
  - destruct X6 as [E|E]; [rewrite <- E in X1; contradiction|]. injection E as ->. exact X4.
Qed.
Lemma keys_perm diff : NoDup diff -> (In p diff <-> In (S p) diff) ->
  match map_res (get K) diff, map_res (get K') diff with
  | Ok d, Ok d' => Permutation d d'
  | Err e, Err e' => e = e'
  | _, _ => False
  end.
Proof.
  intros ND Hp.
  assert (G : forall l, ~ In p l -> ~ In (S p) l -> map_res (get K) l = map_res (get K') l).
  { induction l as [|i l IH]; intros N1 N2; [reflexivity|]. cbn [map_res].
    assert (E : get K i = get K' i).
    { unfold get, K, K'. rewrite !keys_nth, nth_same; [reflexivity|intros ->; apply N1; left; reflexivity|intros ->; apply N2; left; reflexivity]. }
    rewrite E, IH; [reflexivity|intros X; apply N1; right; exact X|intros X; apply N2; right; exact X]. }
  destruct (in_dec Nat.eq_dec p diff) as [I1|I1].
  - assert (I2 : In (S p) diff) by (apply Hp; exact I1).
    assert (Gp : get K p = Ok (key_of x) /\ get K (S p) = Ok (key_of y) /\ get K' p = Ok (key_of y) /\ get K' (S p) = Ok (key_of x)).
    { unfold get, K, K'. rewrite !keys_nth. destruct nth_p as [-> [-> [-> ->]]]. repeat split; reflexivity. }
    destruct Gp as [G1 [G2 [G3 G4]]].
    (* one of the two comes first *)
    assert (W : forall q r kq kr, ((q = p /\ r = S p /\ kq = key_of x /\ kr = key_of y) \/ (q = S p /\ r = p /\ kq = key_of y /\ kr = key_of x)) ->
       forall l1 l2 l3, diff = l1 ++ q :: l2 ++ r :: l3 ->
       match map_res (get K) diff, map_res (get K') diff with Ok d, Ok d' => Permutation d d' | Err e, Err e' => e = e' | _, _ => False end).
    { intros q r kq kr Hq l1 l2 l3 E. rewrite E in *.
      assert (Nq : forall l, (l = l1 \/ l = l2 \/ l = l3) -> ~ In q l /\ ~ In r l).
      { apply NoDup_remove in ND as ND1. destruct ND1 as [ND1 N1]. rewrite app_assoc in ND1. apply NoDup_remove in ND1. destruct ND1 as [_ N2].
        clear - N1 N2. rewrite !in_app_iff in N1, N2. cbn [In] in N1. intros l [->|[-> | ->]]; split; tauto. }
      assert (Ne : forall l, (l = l1 \/ l = l2 \/ l = l3) -> map_res (get K) l = map_res (get K') l).
      { intros l Hl. destruct (Nq l Hl) as [X Y]. destruct Hq as [[-> [-> _]]|[-> [-> _]]]; apply G; assumption. }
      assert (Gq : get K q = Ok kq /\ get K r = Ok kr /\ get K' q = Ok kr /\ get K' r = Ok kq).
      { destruct Hq as [[-> [-> [-> ->]]]|[-> [-> [-> ->]]]]; repeat split; assumption. }
      destruct Gq as [Y1 [Y2 [Y3 Y4]]].
      assert (MA : forall (f : nat -> res str) l m, map_res f (l ++ m) = do r <- map_res f l; do s <- map_res f m; Ok (r ++ s)).
      { intros f l m. induction l as [|i l IH]; cbn [app map_res bind].
        - destruct (map_res f m); reflexivity.
        - destruct (f i); [|reflexivity]. cbn [bind]. rewrite IH. destruct (map_res f l); [|reflexivity]. cbn [bind]. destruct (map_res f m); reflexivity. }
      rewrite !MA. cbn [map_res]. rewrite !MA. cbn [map_res]. rewrite Y1, Y2, Y3, Y4, <- !Ne by auto. cbn [bind].
      destruct (map_res (get K) l1) as [d1|]; [|reflexivity]. cbn [bind]. destruct (map_res (get K) l2) as [d2|]; [|reflexivity]. cbn [bind].
      destruct (map_res (get K) l3) as [d3|]; [|reflexivity]. cbn [bind]. apply Permutation_app_head.
      apply perm_trans with (kr :: d2 ++ kq :: d3); [|apply Permutation_refl].
      apply perm_trans with (kq :: kr :: d2 ++ d3); [constructor; symmetry; apply Permutation_middle|].
      apply perm_trans with (kr :: kq :: d2 ++ d3); [constructor|]. constructor. apply Permutation_middle. }
    apply in_split in I1. destruct I1 as [l1 [l2 E]]. rewrite E in I2. apply in_app_or in I2. destruct I2 as [I2|[I2|I2]]; [|lia|].
    + apply in_split in I2. destruct I2 as [m1 [m2 E2]]. apply (W (S p) p (key_of y) (key_of x)) with (l1 := m1) (l2 := m2) (l3 := l2); [right; auto|].
      rewrite E, E2, <- app_assoc. reflexivity.
    + apply in_split in I2. destruct I2 as [m1 [m2 E2]]. apply (W p (S p) (key_of x) (key_of y)) with (l1 := l1) (l2 := m1) (l3 := m2); [left; auto|].
      rewrite E, E2. reflexivity.
  - assert (I2 : ~ In (S p) diff) by (intros X; apply I1, Hp, X). rewrite G by assumption. destruct (map_res (get K') diff); [apply Permutation_refl|reflexivity].
Qed.
Lemma sort_nonempty l : l <> [] -> sort_nat l <> [].
Proof. intros N X. destruct l as [|n l]; [congruence|]. assert (Hn : In n (sort_nat (n :: l))) by (apply sort_nat_in; left; reflexivity). rewrite X in Hn. destruct Hn. Qed.
Lemma closed_same il il' : (forall j, In j il <-> In j il') -> closed il -> closed il'.
Proof.
  intros E C j Hj. apply E in Hj. destruct (C j Hj) as [X|[q [X1 [X2 [X3 [X4 [X5 X6]]]]]]]; [left; exact X|right].
  exists q. rewrite <- !E. repeat split; assumption.
Qed.
Lemma range_swap il il' i single : Permutation il il' -> bd i -> closed il -> (forall j, In j il -> i <= j) ->
  (forall j, In j il -> alone j) \/ (NoDup il /\ single = false) ->
  range_of_indices il i K single = range_of_indices il' i K' single /\
  forall lo hi, range_of_indices il i K single = Ok (lo, hi) -> bd lo /\ bd hi.
Proof.
  intros P H C Bi Hs. unfold range_of_indices. destruct il as [|j0 il0] eqn:Eil.
  { apply Permutation_nil in P. rewrite P. cbn [bind]. split; [reflexivity|]. intros lo hi X. injection X as <- <-. split; exact H. }
  destruct il' as [|j1 il1] eqn:Eil'; [apply Permutation_sym, Permutation_nil in P; discriminate|]. rewrite <- Eil, <- Eil' in *.
  cbv zeta. rewrite <- (sort_perm _ _ P). set (s := sort_nat il).
  assert (Ne : s <> []) by (apply sort_nonempty; rewrite Eil; discriminate).
  assert (Is : forall j, In j s <-> In j il) by (intros j; apply sort_nat_in).
  assert (Cs : closed s) by (apply (closed_same il); [intros j; symmetry; apply Is|exact C]).
  set (diff := filter (fun n => negb (mem_nat n s)) (seq (list_min s) (list_max s + 1 - list_min s))).
  assert (Dn : NoDup diff) by (apply NoDup_filter, seq_NoDup).
  assert (Di : forall n, In n diff <-> (list_min s <= n <= list_max s /\ ~ In n s)).
  { intros n. unfold diff. rewrite filter_In, in_seq, negb_true_iff. pose proof (list_min_le _ _ (list_max_in s Ne)).
    assert (Mn : mem_nat n s = false <-> ~ In n s).
    { unfold mem_nat. split.
      - intros X Y. assert (Z : existsb (Nat.eqb n) s = true) by (apply existsb_exists; exists n; split; [exact Y|apply Nat.eqb_refl]). congruence.
      - intros X. destruct (existsb (Nat.eqb n) s) eqn:Z; [|reflexivity]. apply existsb_exists in Z. destruct Z as [m [Z1 Z2]]. apply Nat.eqb_eq in Z2. subst. contradiction. }
    rewrite Mn. intuition lia. }
  assert (Dp : In p diff <-> In (S p) diff).
  { rewrite !Di. pose proof (closed_p s Cs) as Cp. pose proof (list_max_in s Ne) as M1. pose proof (list_min_in s Ne) as M2. split.
    - intros [X1 X2]. split; [|tauto]. assert (list_max s <> p) by (intros E; rewrite E in M1; contradiction). lia.
    - intros [X1 X2]. split; [|tauto]. assert (list_min s <> S p) by (intros E; rewrite E in M2; contradiction). lia. }
  (* the outcome *)
  assert (Out : forall r : res (list nat), (forall fl, r = Ok fl -> closed fl /\ (single = true -> forall j, In j fl -> alone j)) ->
    forall lo hi, (do il2 <- r; match il2 with [] => Ok (i, i) | _ => let lo := list_min il2 in Ok (lo, if single then lo + 1 else list_max il2 + 1) end) = Ok (lo, hi) ->
    bd lo /\ bd hi).
  { intros r R lo hi E. destruct r as [fl|]; [|discriminate]. destruct (R fl eq_refl) as [Cf Sf]. cbn [bind] in E. destruct fl as [|f0 fl1] eqn:Ef; [injection E as <- <-; split; exact H|].
    rewrite <- Ef in *. assert (Nf : fl <> []) by (rewrite Ef; discriminate). cbv zeta in E. injection E as <- <-. destruct (closed_span fl Cf Nf) as [X1 X2]. split; [exact X1|].
    destruct single; [|exact X2]. rewrite Nat.add_1_r. apply (Sf eq_refl). apply list_min_in. exact Nf. }
  assert (As : single = true -> forall j, In j s -> alone j).
  { intros Es j Hj. apply Is in Hj. destruct Hs as [Hs|[_ Hs]]; [exact (Hs j Hj)|congruence]. }
  destruct diff as [|d0 ds] eqn:Ed.
  - split; [reflexivity|]. intros lo hi E. apply (Out (Ok s)) in E; [exact E|]. intros fl X. injection X as <-. split; assumption.
  - rewrite <- Ed in *. pose proof (keys_perm diff Dn Dp) as Kp.
    destruct (map_res (get K) diff) as [dk|e1], (map_res (get K') diff) as [dk'|e2]; try contradiction; cbn [bind]; [|split; [congruence|discriminate]].
    rewrite <- (existsb_perm _ _ _ Kp), <- (has_dup_perm _ _ Kp).
    split; [reflexivity|]. destruct (_ || _).
    + intros lo hi E. apply (Out (chop (list_min s) (list_max s) s)) in E; [exact E|]. intros fl X. destruct Hs as [Hs|[Hn Hs]].
      * assert (Af : forall j, In j fl -> alone j) by (intros j Hj; apply Hs, Is; exact (chop_in _ _ _ _ _ X Hj)).
        split; [intros j Hj; left; exact (Af j Hj)|intros _; exact Af].
      * split; [|congruence]. destruct (chop_run s (list_min s) (list_max s)) as [l' [X1 X2]].
        { apply sort_strict. exact Hn. }
        { intros j Hj. split; [apply list_min_le; exact Hj|apply list_max_ge; exact Hj]. }
        rewrite X in X1. injection X1 as <-. intros j Hj. apply X2 in Hj as Hj'. destruct Hj' as [L1 L2].
        destruct (Cs j) as [Y|[q [Y1 [Y2 [Y3 [Y4 [Y5 Y6]]]]]]]; [apply L2; lia|left; exact Y|right]. exists q.
        pose proof (list_min_le _ _ Y4) as M4. split; [exact Y1|]. split; [exact Y2|]. split; [exact Y3|].
        assert (Z : forall n, list_min s <= n <= S q -> In n s).
        { intros n Hn2. destruct (Nat.eq_dec n (S q)) as [->|]; [exact Y5|]. destruct (Nat.eq_dec n q) as [->|]; [exact Y4|]. apply L2. lia. }
        split; [apply X2; split; [lia|]; intros n Hn2; apply Z; lia|]. split; [apply X2; split; [lia|]; intros n Hn2; apply Z; lia|exact Y6].
    + intros lo hi E. apply (Out (Ok s)) in E; [exact E|]. intros fl X. injection X as <-. split; assumption.
Qed.

(* ---- the range of an element ---- *)
Variable u : env.
Variable cols : nat -> Prop.
Variable fk : str -> Prop.
Definition undated (col : nat) (l : line) : Prop :=
  exists s d, get l col = Ok s /\ get (split_ws s) 0 = Ok d /\ isnumeric u (firstn 4 d) = false.
Hypothesis Hcol : forall col l, cols col -> In l one -> is_ab (key_of l) -> undated col l.
Hypothesis Hfl : forall k, is_ab k -> match split_ws k with t :: _ => float_ok u t = false | [] => True end.
Hypothesis Hua : forall k, is_ab k -> startswith (lit "USER_DEFINED") k = false.
Hypothesis Hfk : forall k, is_ab k -> ~ fk k.
Hypothesis Hud : forall k, startswith (lit "USER_DEFINED") k = true -> fk k.
Hypothesis Hfree : (forall k, In k (keys_of B) -> ~ fk k) \/ (forall k, In k (keys_of A) -> ~ fk k /\ k <> kw_comment).

Definition rec0 (c : string) : bool := String.eqb c "StateVectorAccType" || String.eqb c "AttitudeStateType".
Definition rec1 (c : string) : bool := String.eqb c "TrackingDataObservationType".
Definition loose (c : string) : bool := String.eqb c "OemCovarianceMatrixType" || String.eqb c "UserDefinedType".
Definition free_kws (tags : list str) : Prop := neither tags /\ forall t, In t tags -> t <> kw_comment -> fk t.
Definition static (e : elem) : Prop :=
  (rec0 (e_cls e) = true -> cols 0) /\ (rec1 (e_cls e) = true -> cols 1) /\ (loose (e_cls e) = true -> free_kws (e_kws e)) /\
  (rec0 (e_cls e) = false -> rec1 (e_cls e) = false -> loose (e_cls e) = false -> neither (e_kws e) \/ (both (e_kws e) /\ e_single e = None)) /\
  (e_cls e = "AttitudeStateType" -> forall s, In s (e_subs e) -> seg_free s).
Definition unmoved (lo hi : nat) : Prop := slice lo hi one = slice lo hi two.

Lemma apart lo hi : hi <= p \/ S p < lo \/ hi <= lo -> unmoved lo hi.
Proof.
  unfold unmoved, slice, one, two. fold p. intros [H|[H|H]].
  - destruct (le_lt_dec hi lo) as [L|L]; [replace (hi - lo) with 0 by lia; reflexivity|]. rewrite !skipn_app, !firstn_app, !skipn_length. fold p.
    replace (lo - p) with 0 by lia. replace (hi - lo - (p - lo)) with 0 by lia. cbn [skipn firstn]. reflexivity.
  - replace lo with (p + (2 + (lo - p - 2))) by lia. rewrite !skip_A. reflexivity.
  - replace (hi - lo) with 0 by lia. reflexivity.
Qed.
Lemma in_one i l : nth_error one i = Some l -> In l one.
Proof. apply nth_error_In. Qed.
Lemma key_place j k : nth_error K j = Some k -> j <> p -> j <> S p -> (j < p /\ In k (keys_of A)) \/ (S p < j /\ In k (keys_of B)).
Proof.
  unfold K, one. rewrite keys_nth. intros H N1 N2. destruct (le_lt_dec p j) as [L|L].
  - right. split; [lia|]. rewrite nth_error_app2 in H by exact L. fold p in H. destruct (j - p) as [|[|n]] eqn:E; [lia|lia|]. cbn [nth_error] in H.
    destruct (nth_error B n) as [l|] eqn:El; [|discriminate]. cbn in H. injection H as <-. apply in_map. eapply nth_error_In. exact El.
  - left. split; [exact L|]. rewrite nth_error_app1 in H by exact L. destruct (nth_error A j) as [l|] eqn:El; [|discriminate]. cbn in H. injection H as <-.
    apply in_map. eapply nth_error_In. exact El.
Qed.
Lemma key_p : exists k1 k2, nth_error K p = Some k1 /\ nth_error K (S p) = Some k2 /\ is_ab k1 /\ is_ab k2.
Proof.
  exists (key_of x), (key_of y). unfold K. rewrite !keys_nth. destruct nth_p as [-> [-> _]]. destruct (duo_ab _ _ xy). repeat split; assumption.
Qed.
Lemma alone_off j k : nth_error K j = Some k -> ~ is_ab k -> j <> p /\ j <> S p.
Proof.
  destruct key_p as [k1 [k2 [E1 [E2 [A1 A2]]]]]. intros E N. split; intros ->; [rewrite E1 in E|rewrite E2 in E]; injection E as <-; contradiction.
Qed.
Lemma free_side tags i il : free_kws tags -> process_comment_lines tags i K (index_list0 tags i K) = Ok il ->
  (forall j, In j il -> j < p) \/ (forall j, In j il -> S p < j).
Proof.
  intros [_ Fk] E.
  assert (I0 : forall j, In j (index_list0 tags i K) -> exists k, nth_error K j = Some k /\ fk k).
  { intros j Hj. apply index_list0_in in Hj. destruct Hj as [t [Ht [Hc X]]]. apply index_start_nth in X. exists t. split; [exact X|exact (Fk t Ht Hc)]. }
  assert (Of : forall j k, nth_error K j = Some k -> fk k \/ k = kw_comment -> j <> p /\ j <> S p).
  { intros j k X [Y|Y]; apply (alone_off j k X); [intros Z; exact (Hfk k Z Y)|subst k; intros [Z|Z]; congruence]. }
  assert (S0 : (forall j, In j (index_list0 tags i K) -> j < p) \/ (forall j, In j (index_list0 tags i K) -> S p < j)).
  { destruct Hfree as [Hf|Hf]; [left|right]; intros j Hj; destruct (I0 j Hj) as [k [X1 X2]]; destruct (Of j k X1 (or_introl X2)) as [N1 N2];
      destruct (key_place j k X1 N1 N2) as [[Y1 Y2]|[Y1 Y2]]; try assumption; exfalso; [exact (Hf k Y2 X2)|exact (proj1 (Hf k Y2) X2)]. }
  unfold process_comment_lines in E. destruct (mem_str kw_comment tags) eqn:Mc; [|injection E as <-; exact S0].
  destruct (Nat.eqb_spec (List.length tags) 1) as [L1|L1].
  - assert (Et : tags = [kw_comment]).
    { apply mem_str_spec in Mc. destruct tags as [|t [|t' tags]]; cbn in L1; [lia| |lia]. destruct Mc as [->|[]]. reflexivity. }
    rewrite Et in E. assert (Ei : index_list0 [kw_comment] i K = []) by (unfold index_list0; cbn [filter]; rewrite str_eqb_refl; reflexivity). rewrite Ei in E.
    unfold get in E. destruct (nth_error K i) as [k|] eqn:Ek; [|discriminate]. cbn [guard_opt bind] in E. injection E as <-.
    destruct (str_eqb k kw_comment) eqn:Ec; [|left; intros j []]. apply str_eqb_eq in Ec. destruct (Of i k Ek (or_intror Ec)) as [N1 N2].
    destruct (key_place i k Ek N1 N2) as [[Y1 _]|[Y1 _]]; [left|right]; intros j [<-|[]]; exact Y1.
  - assert (X : (index_list0 tags i K = [] /\ il = []) \/ (index_list0 tags i K <> [] /\ il = index_list0 tags i K ++ comment_indexes K i (list_max (index_list0 tags i K) + 1))).
    { destruct (index_list0 tags i K) as [|j0 il0]; apply ok_inj in E; [left; auto|right; split; [discriminate|symmetry; exact E]]. }
    clear E. destruct X as [[_ ->]|[Nil ->]]; [left; intros j []|].
    destruct Hfree as [Hf|Hf].
    + left. assert (S1 : forall j, In j (index_list0 tags i K) -> j < p).
      { intros j Hj. destruct (I0 j Hj) as [k [X1 X2]]. destruct (Of j k X1 (or_introl X2)) as [N1 N2]. destruct (key_place j k X1 N1 N2) as [[Y1 Y2]|[Y1 Y2]]; [exact Y1|]. exfalso. exact (Hf k Y2 X2). }
      intros j Hj. apply in_app_or in Hj. destruct Hj as [Hj|Hj]; [exact (S1 j Hj)|]. apply comment_indexes_in in Hj.
      pose proof (S1 _ (list_max_in _ Nil)). lia.
    + right. intros j Hj. apply in_app_or in Hj. destruct Hj as [Hj|Hj].
      * destruct (I0 j Hj) as [k [X1 X2]]. destruct (Of j k X1 (or_introl X2)) as [N1 N2]. destruct (key_place j k X1 N1 N2) as [[Y1 Y2]|[Y1 Y2]]; [|exact Y1]. exfalso. exact (proj1 (Hf k Y2) X2).
      * apply comment_indexes_in in Hj. destruct Hj as [_ Hj]. destruct (Of j _ Hj (or_intror eq_refl)) as [N1 N2].
        destruct (key_place j _ Hj N1 N2) as [[Y1 Y2]|[Y1 Y2]]; [|exact Y1]. exfalso. exact (proj2 (Hf _ Y2) eq_refl).
Qed.
Lemma range_side il i single lo hi : range_of_indices il i K single = Ok (lo, hi) ->
  (forall j, In j il -> j < p) \/ (forall j, In j il -> S p < j) -> hi <= p \/ S p < lo \/ hi <= lo.
Proof.
  unfold range_of_indices. intros H Sd. inv_ok H.
  assert (I : forall j, In j a0 -> In j il).
  { destruct il as [|j0 il0] eqn:Ei; [injection E as <-; intros j []|]. rewrite <- Ei in *. cbv zeta in E.
    destruct (filter _ _); [injection E as <-; intros j Hj; apply sort_nat_in; exact Hj|]. inv_ok E. destruct (_ || _).
    - intros j Hj. apply sort_nat_in. exact (chop_in _ _ _ _ _ E Hj).
    - injection E as <-. intros j Hj. apply sort_nat_in. exact Hj. }
  destruct a0 as [|j0 fl] eqn:Ef; [injection H as <- <-; lia|]. rewrite <- Ef in *. assert (Nf : a0 <> []) by (rewrite Ef; discriminate).
  cbv zeta in H. injection H as <- <-. pose proof (list_min_in a0 Nf) as M1. pose proof (list_max_in a0 Nf) as M2.
  destruct Sd as [Sd|Sd]; [left|right; left].
  - pose proof (Sd _ (I _ M1)). pose proof (Sd _ (I _ M2)). destruct single; lia.
  - exact (Sd _ (I _ M1)).
Qed.
Lemma gmm_swap tags i prefix single : bd i ->
  (let t := extend_tags tags i K prefix in neither t \/ (both t /\ single = false)) ->
  (prefix = None \/ prefix = Some (lit "USER_DEFINED")) ->
  get_min_max tags i K prefix single = get_min_max tags i K' prefix single /\
  forall lo hi t, get_min_max tags i K prefix single = Ok ((lo, hi), t) -> bd lo /\ bd hi /\ t = extend_tags tags i K prefix /\
    (free_kws t -> hi <= p \/ S p < lo \/ hi <= lo).
Proof.
  intros H T Pf. assert (Et : extend_tags tags i K prefix = extend_tags tags i K' prefix).
  { destruct Pf as [-> | ->]; [reflexivity|]. cbn [extend_tags]. f_equal. unfold K, K'. rewrite <- !keys_skipn. unfold bd in H. clear - H Hua.
    assert (Q : forall k1 k2, duo k1 k2 -> startswith (lit "USER_DEFINED") k1 = false /\ startswith (lit "USER_DEFINED") k2 = false).
    { intros k1 k2 D. apply duo_ab in D. split; apply Hua; apply D. }
    induction H as [|l r r' N H IH|l m r r' D H IH|l m r r' D H IH]; cbn [keys_of map filter]; [reflexivity| | |].
    - destruct (startswith _ _); [f_equal|]; exact IH.
    - destruct (Q _ _ D) as [-> ->]. exact IH.
    - destruct (Q _ _ D) as [-> ->]. exact IH. }
  unfold get_min_max. cbv zeta in *. rewrite <- Et. set (t := extend_tags tags i K prefix) in *.
  assert (T' : neither t \/ both t) by (destruct T as [T|[T _]]; auto).
  pose proof (process_swap t i H T') as P. pose proof (fun il => free_side t i il) as FS.
  destruct (process_comment_lines t i K (index_list0 t i K)) as [il|e1] eqn:E1, (process_comment_lines t i K' (index_list0 t i K')) as [il'|e2]; try contradiction; cbn [bind];
    [|split; [congruence|discriminate]].
  destruct P as [P [C [Al Nd]]]. pose proof (process_comment_within _ _ _ _ _ (index_list0_within t i K) E1) as W. unfold within in W. rewrite Forall_forall in W.
  destruct (range_swap il il' i single P H C) as [R1 R2].
  - intros j Hj. apply W in Hj. lia.
  - destruct T as [T|[T Ts]]; [left; exact (Al T)|right; split; [exact (Nd T)|exact Ts]].
  - rewrite <- R1. split; [reflexivity|]. intros lo hi t' X. inv_ok X. destruct a0 as [lo0 hi0]. injection X as -> -> <-. destruct (R2 lo hi E) as [X1 X2].
    split; [exact X1|]. split; [exact X2|]. split; [reflexivity|]. intros Fk. eapply range_side; [exact E|]. apply (FS il Fk eq_refl).
Qed.
Lemma floats_swap r r' : swl r r' -> count_floats u r = count_floats u r' /\ swl (skipn (count_floats u r) r) (skipn (count_floats u r) r').
Proof.
  assert (Q : forall l r, is_ab (key_of l) -> count_floats u (l :: r) = 0).
  { intros l r0 D. cbn [count_floats]. destruct l as [|k l]; [reflexivity|]. cbn [key_of hd] in D. specialize (Hfl k D). destruct (split_ws k); [reflexivity|]. rewrite Hfl. reflexivity. }
  induction 1 as [|l r r' N H IH|l m r r' D H IH|l m r r' D H IH].
  - split; [reflexivity|constructor].
  - cbn [count_floats]. assert (S0 : swl (l :: r) (l :: r')) by (constructor; assumption). destruct l as [|k l]; [split; [reflexivity|exact S0]|].
    destruct (split_ws k); [split; [reflexivity|exact S0]|]. destruct (float_ok u s); [|split; [reflexivity|exact S0]]. destruct IH as [I1 I2]. rewrite I1 in *. split; [reflexivity|exact I2].
  - destruct (duo_ab _ _ D) as [D1 D2]. rewrite !Q by assumption. split; [reflexivity|]. apply swl_same; assumption.
  - destruct (duo_ab _ _ D) as [D1 D2]. rewrite !Q by assumption. split; [reflexivity|]. apply swl_swap; assumption.
Qed.
Lemma floats_key r : forall n, n < count_floats u r -> exists l, nth_error r n = Some l /\ ~ is_ab (key_of l).
Proof.
  induction r as [|l r IH]; intros n H; [cbn in H; lia|]. cbn [count_floats] in H. destruct l as [|k l]; [cbn in H; lia|]. destruct (split_ws k) as [|t ts] eqn:Es; [cbn in H; lia|].
  destruct (float_ok u t) eqn:Ef; [|lia]. destruct n as [|n]; [|apply IH; lia]. exists (k :: l). split; [reflexivity|]. cbn [key_of hd]. intros D. specialize (Hfl k D). rewrite Es in Hfl. congruence.
Qed.
Definition good_range (c : string) (mm : nat * nat) : Prop :=
  bd (fst mm) /\ bd (snd mm) /\ (rec0 c || rec1 c || loose c = true -> unmoved (fst mm) (snd mm)).
Lemma date_swap i col : cols col -> bd i -> date_range u one i col = date_range u two i col /\
  forall lo hi, date_range u one i col = Ok (lo, hi) -> bd lo /\ bd hi /\ unmoved lo hi.
Proof.
  intros C H. destruct bd_p as [_ [Bp _]].
  assert (Un : forall l, undated col l -> (do s <- get l col; do d <- get (split_ws s) 0; do b <- is_datestr u d; Ok (i, if b then i + 1 else i)) = Ok (i, i)).
  { intros l [s [d [E1 [E2 E3]]]]. rewrite E1. cbn [bind]. rewrite E2. cbn [bind]. unfold is_datestr. rewrite E3. reflexivity. }
  unfold date_range. destruct (nth_error one i) as [l|] eqn:El.
  - destruct (is_ab_dec (key_of l)) as [D|D].
    + assert (U1 : undated col l) by (apply Hcol; [exact C|eapply in_one; exact El|exact D]).
      assert (U2 : exists l', nth_error two i = Some l' /\ undated col l').
      { destruct (Nat.eq_dec i p) as [->|N1].
        - destruct nth_p as [_ [E2 [E3 _]]]. exists y. split; [exact E3|]. apply Hcol; [exact C|eapply in_one; exact E2|apply (duo_ab _ _ xy)].
        - exists l. split; [|exact U1]. rewrite <- nth_same; [exact El|exact N1|]. intros ->. contradiction. }
      destruct U2 as [l' [E' U2]]. unfold get at 1 4. rewrite El, E'. cbn [guard_opt bind]. rewrite !Un by assumption. split; [reflexivity|].
      unfold get at 1. rewrite El. cbn [guard_opt bind]. rewrite Un by assumption.
      intros lo hi X. injection X as <- <-. split; [exact H|]. split; [exact H|]. apply apart. lia.
    + destruct (bd_at i i l H (le_n i) El D) as [E2 [_ B2]]. unfold get at 1 4. rewrite El, E2. cbn [guard_opt bind]. split; [reflexivity|].
      unfold get at 1. rewrite El. cbn [guard_opt bind].
      intros lo hi X. inv_ok X. inv_ok X. inv_ok X. injection X as <- <-. split; [exact H|]. split; [destruct a2; [rewrite Nat.add_1_r; exact B2|exact H]|].
      apply apart. assert (Hn : i <> p /\ i <> S p) by (apply (alone_off i (key_of l)); [unfold K; rewrite keys_nth, El; reflexivity|exact D]). destruct a2; lia.
  - assert (E2 : nth_error two i = None) by (apply nth_error_None; rewrite <- len_same; apply nth_error_None; exact El).
    unfold get at 1 4. rewrite El, E2. cbn [guard_opt bind]. split; [reflexivity|]. unfold get at 1. rewrite El. discriminate.
Qed.
Lemma own_swap e i : static e -> bd i -> own_range u e K one i = own_range u e K' two i /\
  forall mm e', own_range u e K one i = Ok (mm, e') -> good_range (e_cls e) mm /\ static e'.
Proof.
  intros St H. pose proof St as [S0 [S1 [S2 [S3 S4]]]]. unfold own_range, good_range. destruct (rec0 (e_cls e)) eqn:R0.
  { unfold rec0 in R0. rewrite R0. destruct (date_swap i 0 (S0 eq_refl) H) as [D1 D2]. rewrite <- D1. split; [reflexivity|].
    intros mm e' X. inv_ok X. injection X as <- <-. destruct a0 as [lo hi]. destruct (D2 lo hi E) as [X1 [X2 X3]]. split; [split; [exact X1|]; split; [exact X2|]; intros _; exact X3|].
    exact St. }
  unfold rec0 in R0. rewrite R0. destruct (rec1 (e_cls e)) eqn:R1.
  { unfold rec1 in R1. rewrite R1. destruct (date_swap i 1 (S1 eq_refl) H) as [D1 D2]. rewrite <- D1. split; [reflexivity|].
    intros mm e' X. inv_ok X. injection X as <- <-. destruct a0 as [lo hi]. destruct (D2 lo hi E) as [X1 [X2 X3]]. split; [split; [exact X1|]; split; [exact X2|]; intros _; exact X3|].
    exact St. }
  unfold rec1 in R1. rewrite R1. destruct (String.eqb (e_cls e) "OemCovarianceMatrixType") eqn:Ro.
  { assert (Ru : String.eqb (e_cls e) "UserDefinedType" = false) by (apply String.eqb_eq in Ro; rewrite Ro; reflexivity). rewrite Ru.
    assert (Lo : loose (e_cls e) = true) by (unfold loose; rewrite Ro; reflexivity). pose proof (S2 Lo) as Fk.
    destruct (gmm_swap (e_kws e) i None (match e_single e with Some _ => true | None => false end) H) as [G1 G2]; [left; apply Fk|left; reflexivity|].
    rewrite <- G1. destruct (get_min_max (e_kws e) i K None _) as [[[lo hi] t]|] eqn:Eg; [|split; [reflexivity|discriminate]]. cbn [bind].
    destruct (G2 lo hi t eq_refl) as [B1 [B2 [Et Fr]]]. cbn [extend_tags] in Et. subst t.
    destruct (floats_swap _ _ B2) as [F1 F2]. rewrite <- F1. split; [reflexivity|]. intros mm e' X. injection X as <- <-.
    split; [|exact St].
    destruct (Nat.eqb lo hi) eqn:Ele; cbn [fst snd]; [split; [exact H|]; split; [exact H|]; intros _; apply apart; lia|].
    split; [exact B1|]. split; [rewrite !skipn_add in F2; exact F2|]. intros _. apply apart. destruct (Fr Fk) as [X|[X|X]].
    - left. destruct (le_lt_dec (hi + count_floats u (skipn hi one)) p) as [Y|Y]; [exact Y|exfalso].
      destruct (floats_key (skipn hi one) (p - hi)) as [l [Z1 Z2]]; [lia|]. rewrite nth_error_skipn in Z1. replace (hi + (p - hi)) with p in Z1 by lia.
      destruct nth_p as [E1 _]. rewrite E1 in Z1. injection Z1 as <-. apply Z2. apply (duo_ab _ _ xy).
    - right; left; exact X.
    - apply Nat.eqb_neq in Ele. apply get_min_max_bounds in Eg. lia. }
  destruct (String.eqb (e_cls e) "UserDefinedType") eqn:Ru.
  { assert (Lo : loose (e_cls e) = true) by (unfold loose; rewrite Ru; apply orb_true_r). pose proof (S2 Lo) as Fk.
    assert (Fx : free_kws (extend_tags (e_kws e) i K (Some (lit "USER_DEFINED")))).
    { destruct Fk as [[Na Nb] Fk]. cbn [extend_tags]. split; [split|].
      - intros X. apply in_app_or in X. destruct X as [X|X]; [contradiction|]. apply filter_In in X. destruct X as [_ X]. rewrite (Hua a (or_introl eq_refl)) in X. discriminate.
      - intros X. apply in_app_or in X. destruct X as [X|X]; [contradiction|]. apply filter_In in X. destruct X as [_ X]. rewrite (Hua b (or_intror eq_refl)) in X. discriminate.
      - intros t Ht Hc. apply in_app_or in Ht. destruct Ht as [Ht|Ht]; [exact (Fk t Ht Hc)|]. apply filter_In in Ht. apply Hud. apply Ht. }
    destruct (gmm_swap (e_kws e) i (Some (lit "USER_DEFINED")) (match e_single e with Some _ => true | None => false end) H) as [G1 G2]; [left; apply Fx|right; reflexivity|].
    rewrite <- G1. destruct (get_min_max (e_kws e) i K _ _) as [[[lo hi] t]|] eqn:Eg; [|split; [reflexivity|discriminate]]. cbn [bind].
    destruct (G2 lo hi t eq_refl) as [B1 [B2 [Et Fr]]]. split; [reflexivity|]. intros mm e' X. injection X as <- <-. cbn [fst snd].
    split; [split; [exact B1|]; split; [exact B2|]; intros _; apply apart; apply Fr; rewrite Et; exact Fx|].
    destruct St as [T0 [T1 [T2 [T3 T4]]]]. split; [exact T0|]. split; [exact T1|]. split; [intros _; cbn [set_kws e_kws]; rewrite Et; exact Fx|].
    split; [intros _ _ X; cbn [set_kws e_cls] in X; congruence|exact T4]. }
  assert (Lo : loose (e_cls e) = false) by (unfold loose; rewrite Ro, Ru; reflexivity). specialize (S3 eq_refl eq_refl Lo).
  destruct (gmm_swap (e_kws e) i None (match e_single e with Some _ => true | None => false end) H) as [G1 G2];
    [cbn [extend_tags]; destruct S3 as [S3|[S3 Es]]; [left; exact S3|right; split; [exact S3|rewrite Es; reflexivity]]|left; reflexivity|].
  rewrite <- G1. destruct (get_min_max (e_kws e) i K None _) as [[[lo hi] t]|] eqn:Eg; [|split; [reflexivity|discriminate]]. cbn [bind].
  destruct (G2 lo hi t eq_refl) as [B1 [B2 [Et Fr]]]. cbn [extend_tags] in Et. subst t. split; [reflexivity|]. intros mm e' X. injection X as <- <-. cbn [fst snd].
  split; [split; [exact B1|]; split; [exact B2|]; rewrite Lo; discriminate|].
  exact St.
Qed.

(* ---- identification ---- *)
Definition fine (e : elem) : Prop := good_range (e_cls e) (e_mm e) /\ static e.
Definition all_fine (e : elem) : Prop := forall z, In z (all_elems e) -> fine z.
Definition all_static (e : elem) : Prop := forall z, In z (all_elems e) -> static z.
Lemma all_fine_intro e : fine e -> (forall s, In s (e_subs e) -> all_fine s) -> all_fine e.
Proof.
  intros C S0 z Hz. rewrite all_elems_eq in Hz. destruct Hz as [<-|Hz]; [exact C|]. apply in_flat_map in Hz. destruct Hz as [s [Hs Hz]]. exact (S0 s Hs z Hz).
Qed.
Lemma all_static_sub e s : all_static e -> In s (e_subs e) -> all_static s.
Proof. intros W H z Hz. apply W. rewrite all_elems_eq. right. apply in_flat_map. exists s. split; assumption. Qed.
(* what a good identification gives *)
Definition good_ident (e : elem) (r : res ident) : Prop :=
  match r with
  | Ok (mx, mm, e') => bd mx /\ good_range (e_cls e) mm /\ e_cls e' = e_cls e /\ static e' /\ (forall s, In s (e_subs e') -> all_fine s)
  | Err _ => True
  end.
Lemma list_swap e one1 two1 n f : (forall i, bd i -> one1 i = two1 i /\ good_ident e (one1 i)) -> forall i last, bd i -> bd last ->
  identify_list one1 n f i last = identify_list two1 n f i last /\
  forall mx es, identify_list one1 n f i last = Ok (mx, es) -> bd mx /\ Forall all_fine es.
Proof.
  intros G. induction f as [|f IH]; intros i last Hi Hl; [split; [reflexivity|discriminate]|]. rewrite !identify_list_S. destruct (G i Hi) as [G1 G2]. rewrite <- G1.
  destruct (one1 i) as [[[mx [lo hi]] e']|er]; [|split; [reflexivity|discriminate]]. cbn [bind good_ident] in *. destruct G2 as [B1 [R1 [C1 [S1 F1]]]].
  assert (W : all_fine (set_mm e' (lo, hi))).
  { apply all_fine_intro; [|exact F1]. split; [cbn [set_mm e_cls e_mm]; rewrite C1; exact R1|exact S1]. }
  destruct (_ && _); [split; [reflexivity|]; intros mx0 es X; injection X as <- <-; split; [exact B1|constructor]|].
  destruct (Nat.ltb _ _); [split; [reflexivity|]; intros mx0 es X; injection X as <- <-; split; [exact Hl|constructor]|].
  cbv zeta. destruct (Nat.leb _ _); [split; [reflexivity|]; intros mx0 es X; injection X as <- <-; split; [exact B1|constructor; [exact W|constructor]]|].
  destruct (IH mx mx B1 B1) as [I1 I2]. rewrite <- I1. split; [reflexivity|]. intros mx0 es X. inv_ok X. destruct a0 as [mx2 es2]. injection X as <- <-.
  destruct (I2 _ _ E) as [J1 J2]. split; [exact J1|]. constructor; [exact W|exact J2].
Qed.
Lemma subs_swap lo ss : bd lo -> Forall (fun s => forall i, bd i -> identify u s K one i = identify u s K' two i /\ good_ident s (identify u s K one i)) ss ->
  forall i, bd i -> ident_subs u K one lo ss i = ident_subs u K' two lo ss i /\
    forall mx gs, ident_subs u K one lo ss i = Ok (mx, gs) -> bd mx /\ Forall all_fine gs.
Proof.
  intros Hlo F. induction F as [|s ss Hs F IH]; intros i Hi; cbn [ident_subs].
  { split; [reflexivity|]. intros mx gs X. injection X as <- <-. split; [exact Hi|constructor]. }
  destruct (e_islist s).
  - rewrite <- len_same, <- len_K. destruct (list_swap s (identify u s K one) (identify u s K' two) (List.length one) (S (List.length K)) Hs i i Hi Hi) as [L1 L2].
    rewrite <- L1. destruct (identify_list _ _ _ i i) as [[i' es]|er]; [|split; [reflexivity|discriminate]]. cbn [bind]. destruct (L2 _ _ eq_refl) as [M1 M2].
    destruct (IH i' M1) as [I1 I2]. rewrite <- I1. split; [reflexivity|]. intros mx gs X. inv_ok X. destruct a0 as [i'' gs']. injection X as <- <-.
    destruct (I2 _ _ E) as [J1 J2]. split; [exact J1|]. apply Forall_app. split; assumption.
  - destruct (Hs i Hi) as [H1 H2]. rewrite <- H1. destruct (identify u s K one i) as [[[i' smm] s']|er]; [|split; [reflexivity|discriminate]].
    cbn [bind good_ident] in *. destruct H2 as [B1 [R1 [C1 [S1 F1]]]]. destruct (own_swap s' lo S1 Hlo) as [O1 O2]. rewrite <- O1.
    destruct (IH i' B1) as [I1 I2]. rewrite <- I1. split; [reflexivity|]. intros mx gs X. inv_ok X. inv_ok X. destruct a1 as [i'' gs']. injection X as <- <-.
    destruct (I2 _ _ E0) as [J1 J2]. split; [exact J1|]. constructor; [|exact J2]. destruct (_ && _).
    + inv_ok E. destruct a1 as [mm2 r2]. injection E as <-. destruct (O2 _ _ E1) as [P1 P2]. apply own_range_same in E1. destruct E1 as [_ [Q1 [Q2 _]]].
      apply all_fine_intro; [split; [cbn [set_mm e_cls e_mm fst snd]; rewrite Q1; exact P1|exact P2]|]. cbn [set_mm e_subs fst snd]. rewrite Q2. exact F1.
    + injection E as <-. apply all_fine_intro; [split; [cbn [set_mm e_cls e_mm]; rewrite C1; exact R1|exact S1]|exact F1].
Qed.
Lemma identify_swap : forall e, all_static e -> forall i, bd i ->
  identify u e K one i = identify u e K' two i /\ good_ident e (identify u e K one i).
Proof.
  intros e. induction e as [n c subs k l s m t F] using elem_ind'. intros St i Hi. rewrite !identify_eq.
  assert (Se : static (Elem n c subs k l s m t)) by (apply St; rewrite all_elems_eq; left; reflexivity).
  destruct (own_swap _ i Se Hi) as [O1 O2]. rewrite <- O1. destruct (own_range u _ K one i) as [[mm e1]|er] eqn:Eo; [|split; [reflexivity|exact I]]. cbn [bind e_subs].
  destruct (O2 _ _ eq_refl) as [P1 P2]. pose proof (own_range_same _ _ _ _ _ _ _ Eo) as [_ [Q1 [Q2 [Q3 [Q4 _]]]]]. cbn [e_cls e_subs] in *. destruct subs as [|s0 subs].
  - split; [reflexivity|]. cbn [good_ident e_cls]. split; [apply P1|]. split; [exact P1|]. split; [exact Q1|]. split; [exact P2|]. rewrite Q2. intros s1 [].
  - destruct (subs_swap (fst mm) (s0 :: subs) (proj1 P1)) with (i := snd mm) as [S1 S2].
    + apply Forall_forall. intros s1 H1 j Hj. rewrite Forall_forall in F. apply (F s1 H1); [|exact Hj]. apply (all_static_sub _ _ St). exact H1.
    + apply P1.
    + rewrite <- S1. destruct (ident_subs u K one (fst mm) (s0 :: subs) (snd mm)) as [[mx gs]|er] eqn:Eg; [|split; [reflexivity|exact I]]. cbn [bind good_ident e_cls].
      split; [reflexivity|]. destruct (S2 _ _ eq_refl) as [T1 T2]. rewrite Forall_forall in T2. split; [exact T1|]. split; [exact P1|]. split; [exact Q1|]. split; [|exact T2].
      destruct P2 as [U0 [U1 [U2 [U3 U4]]]]. split; [exact U0|]. split; [exact U1|]. split; [exact U2|]. split; [exact U3|].
      cbn [set_subs e_cls e_subs]. intros Ec g Hg. destruct (subs_freer u K one (fst mm) (s0 :: subs)) with (i := snd mm) (mx := mx) (gs := gs) (g := g) as [z [Hz Fz]]; [|exact Eg|exact Hg|].
      * apply Forall_forall. intros z _ j. apply identify_freer.
      * apply Fz. rewrite <- Q2 in Hz. exact (U4 Ec z Hz).
Qed.

(* ---- building ---- *)
Hypothesis Hid : ~ is_ab (lit "id").
Definition turned (f g : list line) : Prop := exists l1 l2, f = l1 ++ x :: y :: l2 /\ g = l1 ++ y :: x :: l2.
Definition relz (e : elem) (f g : list line) : Prop :=
  let sf := slice (fst (e_mm e)) (snd (e_mm e)) f in let sg := slice (fst (e_mm e)) (snd (e_mm e)) g in
  (sf = sg \/ (rec0 (e_cls e) || rec1 (e_cls e) || loose (e_cls e) = false /\ (neither (e_kws e) \/ (both (e_kws e) /\ e_single e = None)) /\ turned sf sg)) /\
  (e_cls e = "AemSegment" -> bd (snd (e_mm e))) /\ (e_cls e = "AttitudeStateType" -> forall s, In s (e_subs e) -> seg_free s).
Definition rel (e : elem) (f g : list line) : Prop := forall z, In z (all_elems e) -> relz z f g.
Lemma rel_sub e s f g : rel e f g -> In s (e_subs e) -> rel s f g.
Proof. intros W H z Hz. apply W. rewrite all_elems_eq. right. apply in_flat_map. exists s. split; assumption. Qed.
Lemma rel_intro e f g : relz e f g -> (forall s, In s (e_subs e) -> rel s f g) -> rel e f g.
Proof.
  intros C S0 z Hz. rewrite all_elems_eq in Hz. destruct Hz as [<-|Hz]; [exact C|]. apply in_flat_map in Hz. destruct Hz as [s [Hs Hz]]. exact (S0 s Hs z Hz).
Qed.
Lemma rel_self e f g : rel e f g -> relz e f g.
Proof. intros W. apply W. rewrite all_elems_eq. left. reflexivity. Qed.
Lemma rel_same e e' f g : rel e f g -> e_mm e' = e_mm e -> e_cls e' = e_cls e -> e_kws e' = e_kws e -> e_single e' = e_single e ->
  (forall s, In s (e_subs e') -> rel s f g) -> (e_cls e = "AttitudeStateType" -> incl (e_subs e') (e_subs e)) -> rel e' f g.
Proof.
  intros W E1 E2 E3 E4 S0 I0. apply rel_intro; [|exact S0]. pose proof (rel_self e f g W) as [R1 [R2 R3]]. unfold relz. rewrite E1, E2, E3, E4.
  split; [exact R1|]. split; [exact R2|]. intros Ec s Hs. apply (R3 Ec). apply (I0 Ec). exact Hs.
Qed.
Lemma elems_deep e : forall z v, In z (all_elems e) -> In v (all_elems z) -> In v (all_elems e).
Proof.
  induction e as [n c subs k l sg m t F] using elem_ind'. intros z v Hz Hv. rewrite all_elems_eq in Hz. destruct Hz as [<-|Hz]; [exact Hv|].
  rewrite all_elems_eq. right. apply in_flat_map in Hz. destruct Hz as [w [Hw Hz]]. apply in_flat_map. exists w. split; [exact Hw|].
  cbn [e_subs] in Hw. rewrite Forall_forall in F. exact (F w Hw z v Hz Hv).
Qed.
Lemma rel_refl e f : seg_free e -> rel e f f.
Proof.
  intros W z Hz. split; [left; reflexivity|]. split; [intros E; exfalso; exact (W z Hz E)|]. intros _ s Hs v Hv. apply W.
  apply (elems_deep e z); [exact Hz|]. rewrite all_elems_eq. right. apply in_flat_map. exists s. split; assumption.
Qed.
Lemma fine_rel e : all_fine e -> rel e one two.
Proof.
  intros W z Hz. destruct (W z Hz) as [[B1 [B2 U]] [S0 [S1 [S2 [S3 S4]]]]]. destruct bd_p as [P1 [P2 P3]].
  split; [|split; [intros _; exact B2|exact S4]]. cbv zeta. set (lo := fst (e_mm z)) in *. set (hi := snd (e_mm z)) in *.
  destruct (rec0 (e_cls z) || rec1 (e_cls z) || loose (e_cls z)) eqn:R; [left; apply U; reflexivity|].
  apply orb_false_iff in R as R'. destruct R' as [R' R3]. apply orb_false_iff in R'. destruct R' as [R1 R2].
  destruct (le_lt_dec hi p) as [L1|L1]; [left; apply apart; left; exact L1|]. destruct (le_lt_dec lo (S p)) as [L2|L2]; [|left; apply apart; right; left; exact L2].
  assert (N1 : lo <> S p) by (intros E; rewrite E in B1; contradiction). assert (N2 : hi <> S p) by (intros E; rewrite E in B2; contradiction).
  right. split; [reflexivity|]. split; [exact (S3 R1 R2 R3)|]. exists (skipn lo A), (firstn (hi - p - 2) B). unfold slice, one, two.
  rewrite !skipn_app, !firstn_app, !skipn_length. fold p. replace (lo - p) with 0 by lia. cbn [skipn].
  rewrite !firstn_all2 by (rewrite skipn_length; fold p; lia). replace (hi - lo - (p - lo)) with (S (S (hi - p - 2))) by lia. split; reflexivity.
Qed.
Lemma prepare_swap e : bd (snd (e_mm e)) -> prepare_aem_segment e one = prepare_aem_segment e two.
Proof.
  intros H. assert (X : forall k, lookup_line k one (snd (e_mm e)) = lookup_line k two (snd (e_mm e))).
  { intros k. rewrite !lookup_find. rewrite (swl_find k _ _ H). reflexivity. }
  unfold prepare_aem_segment, att_template. rewrite !X. reflexivity.
Qed.
Lemma prepare_rel e e' d f g : e_cls e = "AemSegment" -> prepare_aem_segment e d = Ok e' -> rel e f g -> rel e' f g /\ e_mm e' = e_mm e.
Proof.
  unfold prepare_aem_segment. intros Ec H S0. inv_ok H. inv_ok H. destruct a1 as [att tmpl]. injection H as <-. split; [|reflexivity].
  apply get_ok in E. apply (rel_same e); try reflexivity; [exact S0| |intros X; rewrite Ec in X; discriminate].
  intros z Hz. cbn [set_subs e_subs] in Hz. assert (Ha : In a0 (e_subs e)) by (eapply nth_error_In; exact E).
  apply in_app_or in Hz. destruct Hz as [Hz|[<-|Hz]].
  - apply (rel_sub e); [exact S0|]. rewrite <- (firstn_skipn 1 (e_subs e)). apply in_or_app. left. exact Hz.
  - pose proof (rel_sub e a0 f g S0 Ha) as Sa.
    assert (Sm : forall w, In w (map (fun s => set_tmpl (set_subs s (filter (fun v => match att with Some n => String.eqb (e_name v) n | None => false end) (e_subs s))) tmpl) (e_subs a0)) ->
       rel w f g /\ ((forall s, In s (e_subs a0) -> seg_free s) -> seg_free w)).
    { intros w Hw. apply in_map_iff in Hw. destruct Hw as [v [<- Hv]]. pose proof (rel_sub a0 v f g Sa Hv) as Sv. split.
      - apply (rel_same v); try reflexivity; [exact Sv| |intros _ s Hs; cbn [set_tmpl set_subs e_subs] in Hs; apply filter_In in Hs; apply Hs].
        intros s Hs. cbn [set_tmpl set_subs e_subs] in Hs. apply filter_In in Hs. apply (rel_sub v); [exact Sv|apply Hs].
      - intros Fr. specialize (Fr v Hv). apply seg_free_intro; [cbn; apply seg_free_cls; exact Fr|]. intros s Hs. cbn [set_tmpl set_subs e_subs] in Hs. apply filter_In in Hs.
        apply (seg_free_sub v); [exact Fr|apply Hs]. }
    apply rel_intro; [|intros s Hs; cbn [set_subs e_subs] in Hs; apply Sm; exact Hs].
    pose proof (rel_self a0 f g Sa) as [R1 [R2 R3]]. split; [exact R1|]. split; [exact R2|]. intros Ea s Hs. cbn [set_subs e_subs e_cls] in *. apply Sm; [exact Hs|exact (R3 Ea)].
  - apply (rel_sub e); [exact S0|]. rewrite <- (firstn_skipn 2 (e_subs e)). apply in_or_app. right. exact Hz.
Qed.
Lemma fold_same {X Y} (f g : X -> Y -> X) l a0 : (forall c d, In d l -> f c d = g c d) -> fold_left f l a0 = fold_left g l a0.
Proof. revert a0. induction l as [|d l IH]; intros a0 H; [reflexivity|]. cbn [fold_left]. rewrite H by (left; reflexivity). apply IH. intros; apply H; right; assumption. Qed.
Lemma filter_turned kws f g : turned f g -> neither kws -> filter (fun l => mem_str (key_of l) kws) f = filter (fun l => mem_str (key_of l) kws) g.
Proof.
  intros [l1 [l2 [-> ->]]] [N1 N2]. rewrite !filter_app. cbn [filter].
  assert (Q : forall l, is_ab (key_of l) -> mem_str (key_of l) kws = false) by (intros l [-> | ->]; apply mem_str_false; assumption).
  destruct (duo_ab _ _ xy) as [D1 D2]. rewrite (Q x D1), (Q y D2). reflexivity.
Qed.
Lemma filter_both kws f g : turned f g -> both kws -> turned (filter (fun l => mem_str (key_of l) kws) f) (filter (fun l => mem_str (key_of l) kws) g).
Proof.
  intros [l1 [l2 [-> ->]]] [_ [N1 N2]]. rewrite !filter_app. cbn [filter].
  assert (Q : forall l, is_ab (key_of l) -> mem_str (key_of l) kws = true) by (intros l [-> | ->]; apply mem_str_spec; assumption).
  destruct (duo_ab _ _ xy) as [D1 D2]. rewrite (Q x D1), (Q y D2). do 2 eexists. split; reflexivity.
Qed.
Lemma build_swap : forall fuel e f g, rel e f g -> build u fuel one e f = build u fuel two e g.
Proof.
  assert (Kxy : key_of x <> key_of y) by (destruct xy as [[-> ->]|[-> ->]]; congruence).
  induction fuel as [|n IH]; intros e f g R; [reflexivity|]. cbn [build].
  assert (Fl : forall obj subs, (forall s, In s subs -> rel s f g) ->
    match obj with
    | VObj c vars => do vars' <- fold_left (fun acc s => do vs <- acc; do sub <- build u n one s f; attach (e_name s) sub vs) subs (Ok vars); Ok (VObj c vars')
    | _ => Err AttributeError end =
    match obj with
    | VObj c vars => do vars' <- fold_left (fun acc s => do vs <- acc; do sub <- build u n two s g; attach (e_name s) sub vs) subs (Ok vars); Ok (VObj c vars')
    | _ => Err AttributeError end).
  { intros obj subs H. destruct obj; try reflexivity. f_equal. apply fold_same. intros acc s Hs. destruct acc; [|reflexivity]. cbn [bind].
    rewrite (IH s f g (H s Hs)). reflexivity. }
  assert (Se : forall s, In s (e_subs e) -> rel s f g) by (intros s Hs; exact (rel_sub e s f g R Hs)).
  assert (Fb : forall X (r : res X) h k, (forall z, r = Ok z -> h z = k z) -> @bind X pyval r h = bind r k).
  { intros X r h k H. destruct r; [apply H; reflexivity|reflexivity]. }
  pose proof (rel_self e f g R) as [R1 [R2 R3]]. cbv zeta in R1. destruct R1 as [Es|[Pl [Kw [l1 [l2 [Ef Eg]]]]]].
  - rewrite <- Es. set (local := slice (fst (e_mm e)) (snd (e_mm e)) f). clearbody local. clear Es.
    destruct local as [|l0 local]; [destruct (e_subs e) as [|s0 ss] eqn:Es; [reflexivity|]; rewrite <- Es in Se, R3 |- *|];
    (destruct (String.eqb_spec (e_cls e) "AemSegment") as [Ec|Ec];
     [rewrite <- (prepare_swap e (R2 Ec)); apply Fb; intros e' He; apply Fb; intros obj _; apply Fl;
      intros s Hs; exact (rel_sub e' s f g (proj1 (prepare_rel e e' one f g Ec He R)) Hs)|]);
    (destruct (String.eqb_spec (e_cls e) "AttitudeStateType") as [Ea|Ea];
     [apply Fb; intros tm _; apply Fb; intros l1 _; apply Fb; intros s _; apply Fb; intros [[mx mm] e1] He; apply Fb; intros sub Hsub;
      rewrite (IH sub _ (zip_lines tm (split_ws s))); [reflexivity|]; apply rel_refl; apply get_ok, nth_error_In in Hsub;
      pose proof (identify_freer u tm (zip_lines tm (split_ws s)) e 0) as Fr; rewrite He in Fr; cbn [freer_ident] in Fr;
      apply (seg_free_sub e1); [apply Fr; apply seg_free_intro; [exact Ec|exact (R3 Ea)]|exact Hsub]|]);
    (destruct (String.eqb (e_cls e) "StateVectorAccType");
     [apply Fb; intros l1 _; apply Fb; intros s _; apply Fb; intros obj _; apply Fl; exact Se|]);
    (destruct (String.eqb (e_cls e) "OemCovarianceMatrixType"); [apply Fb; intros obj _; apply Fl; exact Se|]);
    (destruct (String.eqb (e_cls e) "TrackingDataObservationType");
     [apply Fb; intros l1 _; apply Fb; intros s _; apply Fb; intros t _; apply Fb; intros obj _; apply Fl; exact Se|]).
    all: destruct (match (if String.eqb (e_cls e) "UserDefinedType" then _ else _) with Some _ => _ | None => _ end);
         try (destruct (e_subs e); [reflexivity|]); apply Fb; intros obj _; apply Fl; exact Se.
  - apply orb_false_iff in Pl. destruct Pl as [Pl P3]. apply orb_false_iff in Pl. destruct Pl as [P1 P2]. unfold rec0 in P1. unfold rec1 in P2. unfold loose in P3.
    apply orb_false_iff in P1, P3. destruct P1 as [P0 P1], P3 as [P3 P4]. rewrite P0, P1, P2, P3, P4.
    set (sf := slice (fst (e_mm e)) (snd (e_mm e)) f) in *. set (sg := slice (fst (e_mm e)) (snd (e_mm e)) g) in *.
    assert (Tn : turned sf sg) by (exists l1, l2; split; assumption).
    assert (Nf : exists c1 r1, sf = c1 :: r1) by (rewrite Ef; destruct l1; do 2 eexists; reflexivity).
    assert (Ng : exists c1 r1, sg = c1 :: r1) by (rewrite Eg; destruct l1; do 2 eexists; reflexivity).
    destruct Nf as [c1 [r1 Nf]], Ng as [c2 [r2 Ng]]. rewrite Nf, Ng. rewrite <- Nf, <- Ng.
    destruct (String.eqb_spec (e_cls e) "AemSegment") as [Ec|Ec].
    + rewrite <- (prepare_swap e (R2 Ec)). apply Fb. intros e' He. rewrite Ef, Eg, (parse_swap u (e_cls e) l1 x y l2 Kxy). apply Fb. intros obj _. apply Fl.
      intros s Hs. exact (rel_sub e' s f g (proj1 (prepare_rel e e' one f g Ec He R)) Hs).
    + destruct Kw as [Kw|[Kw Sg]].
      * rewrite <- (filter_turned (e_kws e) sf sg Tn Kw).
        destruct (filter _ sf); [destruct (e_subs e); [reflexivity|]|]; apply Fb; intros obj _; apply Fl; exact Se.
      * rewrite Sg. destruct (filter_both (e_kws e) sf sg Tn Kw) as [m1 [m2 [Ff Fg]]].
        assert (Rk : match e_kws e with [k1; k2] => str_eqb k1 (lit "id") && str_eqb k2 (lit "version") | _ => false end = false).
        { destruct Kw as [_ [I1 I2]]. destruct (e_kws e) as [|k1 [|k2 [|k3 ks]]]; try reflexivity. destruct (str_eqb k1 (lit "id")) eqn:E1; [|reflexivity].
          apply str_eqb_eq in E1. exfalso. destruct I1 as [I1|[I1|[]]]; [apply Hid; left; congruence|]. destruct I2 as [I2|[I2|[]]]; [apply Hid; right; congruence|congruence]. }
        rewrite Rk, Ff, Fg. rewrite (parse_swap u (e_cls e) m1 x y m2 Kxy).
        destruct m1; cbn [app]; apply Fb; intros obj _; apply Fl; exact Se.
Qed.
End Swap.
