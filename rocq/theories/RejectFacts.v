(* Why a document of a type without special lines is rejected. *)
From Coq Require Import NArith List Bool String Arith Lia.
From Verif Require Import PyStr PyDec PyVal Schema KvnPre KvnTree KvnSeg XmlBind KvnBuild Spec SpecFrom StrFacts PreFacts SegFacts BuildFacts ReadFacts PropFrom ComposeFacts InsertFacts CommentFacts ErrFacts.
Import ListNotations.
Local Open Scope string_scope.
Local Open Scope list_scope.

(* a list within a list *)
Inductive sub {A} : list A -> list A -> Prop :=
| sub_nil l : sub [] l
| sub_keep x l m : sub l m -> sub (x :: l) (x :: m)
| sub_skip x l m : sub l m -> sub l (x :: m).
Lemma sub_refl {A} (l : list A) : sub l l.
Proof. induction l; constructor; assumption. Qed.
Lemma sub_in {A} (l m : list A) x : sub l m -> In x l -> In x m.
Proof. induction 1; intros I; [destruct I|destruct I as [<-|I]; [left; reflexivity|right; auto]|right; auto]. Qed.
Lemma sub_app_r {A} (l a b : list A) : sub l b -> sub l (a ++ b).
Proof. intros H. induction a as [|x a IH]; [exact H|]. constructor. exact IH. Qed.
Lemma sub_app_l {A} (l a b : list A) : sub l a -> sub l (a ++ b).
Proof. induction 1; cbn; constructor; assumption. Qed.
Lemma sub_filter {A} (f : A -> bool) l : sub (filter f l) l.
Proof. induction l as [|x l IH]; [constructor|]. cbn. destruct (f x); constructor; exact IH. Qed.
Lemma sub_trans {A} (l m n : list A) : sub l m -> sub m n -> sub l n.
Proof.
  intros H K. revert l H. induction K; intros l0 H.
  - inversion H. constructor.
  - inversion H; subst; constructor; auto.
  - constructor. auto.
Qed.
Lemma sub_slice {A} a b (l : list A) : sub (slice a b l) l.
Proof.
  unfold slice. apply sub_trans with (skipn a l).
  - rewrite <- (firstn_skipn (b - a) (skipn a l)) at 2. apply sub_app_l, sub_refl.
  - rewrite <- (firstn_skipn a l) at 2. apply sub_app_r, sub_refl.
Qed.
Lemma sub_split {A} (l m : list A) : sub l m -> forall a x b, l = a ++ x :: b -> exists a' b', m = a' ++ x :: b' /\ sub b b'.
Proof.
  induction 1 as [m|y l m H IH|y l m H IH]; intros a x b E.
  - destruct a; discriminate.
  - destruct a as [|z a]; injection E as -> E.
    + subst. exists [], m. auto.
    + destruct (IH a x b E) as [a' [b' [-> S]]]. exists (z :: a'), b'. auto.
  - destruct (IH a x b E) as [a' [b' [-> S]]]. exists (y :: a'), b'. auto.
Qed.

Definition badl (l : line) : Prop := exists s ch, In s l /\ In ch s /\ xml_char ch = false.
Definition special (k : str) : Prop := k = kw_comment \/ k = lit "id" \/ k = lit "version".
Definition twice (ls : list line) : Prop := exists a x b y c, ls = a ++ x :: b ++ y :: c /\ key_of x = key_of y /\ ~ special (key_of x).
Definition Q (ls : list line) : Prop := (exists l, In l ls /\ badl l) \/ twice ls.
Lemma Q_sub l m : sub l m -> Q l -> Q m.
Proof.
  intros S [[x [I B]]|[a [x [b [y [c [E [K N]]]]]]]].
  - left. exists x. split; [exact (sub_in _ _ _ S I)|exact B].
  - right. destruct (sub_split _ _ S _ _ _ E) as [a' [b' [-> S2]]]. destruct (sub_split _ _ S2 _ _ _ eq_refl) as [a2 [b2 [-> _]]]. exists a', x, a2, y, b2. auto.
Qed.

Section Reject.
Variable u : env.
Definition PQ (ls : list line) (e : exn) : Prop := e = XmlReject -> Q ls.
Lemma PQ_I ls : PQ ls IndexError. Proof. discriminate. Qed.
Lemma PQ_F ls : PQ ls OutOfFuel. Proof. discriminate. Qed.

(* the fields of a class and the keywords of its element *)
Definition known (c : string) (k : str) : Prop :=
  exists f, find_elem k (fields_of c) = Some f /\ (f_list f = false -> ~ special k) /\
    (forall g, In g (fields_of c) -> f_name g = f_name f -> xml_name g = k).
Definition known_item (c : string) (l : line) : Prop := known c (key_of l).

Lemma bad_text s : xml_text s = false -> exists ch, In ch s /\ xml_char ch = false.
Proof.
  unfold xml_text. induction s as [|c s IH]; [discriminate|]. cbn. destruct (xml_char c) eqn:E; cbn; [intros H; destruct (IH H) as [ch [I B]]; exists ch; auto|]. intros _. exists c. auto.
Qed.
Lemma bad_child k attrs t : child_ok (k, attrs, t) = false -> (exists ch, In ch t /\ xml_char ch = false) \/ (exists n a ch, In (n, a) attrs /\ In ch a /\ xml_char ch = false).
Proof.
  unfold child_ok. intros H. apply andb_false_iff in H. destruct H as [H|H]; [left; apply bad_text; exact H|right].
  induction attrs as [|[n a] attrs IH]; [discriminate|]. cbn in H. apply andb_false_iff in H. destruct H as [H|H].
  - apply bad_text in H. destruct H as [ch [I B]]. exists n, a, ch. split; [left; reflexivity|auto].
  - destruct (IH H) as [n' [a' [ch [I B]]]]. exists n', a', ch. split; [right; exact I|exact B].
Qed.
Lemma find_elem_name k fs f : find_elem k fs = Some f -> In f fs /\ xml_name f = k.
Proof. unfold find_elem. intros H. apply find_some in H. destruct H as [I H]. destruct (f_kind f); try discriminate. apply str_eqb_eq in H. auto. Qed.

(* [before]: the lines already bound *)
Lemma children_reject c : forall items cs before seen vars, map_res child_of_line items = Ok cs -> Forall (known_item c) items -> Forall (known_item c) before ->
  (forall n, existsb (String.eqb n) seen = true -> exists l f, In l before /\ find_elem (key_of l) (fields_of c) = Some f /\ f_list f = false /\ f_name f = n) ->
  only (PQ (before ++ items)) (bind_children u c (fields_of c) seen cs vars).
Proof.
  induction items as [|l items IH]; intros cs before seen vars M K Kb S; cbn [map_res] in M.
  { injection M as <-. apply only_ok. }
  inv_ok M. inv_ok M. injection M as <-. unfold child_of_line in E. inv_ok E. inv_ok E. injection E as <-. apply get_ok in E1, E2. inversion K as [|? ? Kl K']. subst.
  destruct l as [|k [|t r]]; try discriminate. cbn in E1, E2. injection E1 as <-. injection E2 as <-.
  cbn [bind_children]. destruct (child_ok _) eqn:C.
  2: { apply only_err. intros _. left. exists (k :: t :: r). split; [apply in_or_app; right; left; reflexivity|]. apply bad_child in C. destruct C as [[ch [I B]]|[n [a [ch [I [I2 B]]]]]].
       - exists t, ch. split; [right; left; reflexivity|auto].
       - exists a, ch. split; [|auto]. destruct r as [|un r]; [destruct I|]. cbn in I. destruct I as [I|[]]. injection I as <- <-. right. right. left. reflexivity. }
  destruct Kl as [f [Ff [Fs Fu]]]. cbn [key_of hd] in Ff, Fs, Fu. rewrite Ff. cbv zeta.
  assert (A : before ++ (k :: t :: r) :: items = (before ++ [k :: t :: r]) ++ items) by (rewrite <- app_assoc; reflexivity).
  assert (Kb2 : Forall (known_item c) (before ++ [k :: t :: r])) by (apply Forall_app; split; [exact Kb|constructor; [|constructor]]; exists f; auto).
  destruct (f_list f) eqn:L.
  - refine (eq_ind_r (fun z => only (PQ z) _) _ A). apply IH; [exact E0|exact K'|exact Kb2|]. intros n H. destruct (S n H) as [l [g [I G]]]. exists l, g. split; [apply in_or_app; left; exact I|exact G].
  - destruct (existsb (String.eqb (f_name f)) seen) eqn:D.
    + apply only_err. intros _. right. destruct (S _ D) as [l [g [I [G1 [G2 G3]]]]]. apply in_split in I. destruct I as [b1 [b2 ->]].
      exists b1, l, b2, (k :: t :: r), items. rewrite <- app_assoc. split; [reflexivity|]. apply find_elem_name in G1. destruct G1 as [G1 G4]. assert (Kk : key_of l = k) by (rewrite <- G4; apply Fu; assumption).
      cbn [key_of hd]. split; [exact Kk|]. rewrite Kk. apply Fs. reflexivity.
    + refine (eq_ind_r (fun z => only (PQ z) _) _ A). apply IH; [exact E0|exact K'|exact Kb2|]. intros n H. cbn [existsb] in H. apply orb_true_iff in H. destruct H as [H|H].
      * apply String.eqb_eq in H. subst n. exists (k :: t :: r), f. split; [apply in_or_app; right; left; reflexivity|auto].
      * destruct (S n H) as [l [g [I G]]]. exists l, g. split; [apply in_or_app; left; exact I|exact G].
Qed.
Lemma list_reject c items : Forall (known_item c) items -> only (PQ items) (parse_list u c None items).
Proof.
  intros K. unfold parse_list. apply only_bind.
  - apply only_map. intros l _. unfold child_of_line. do 2 (apply only_bind; [apply only_get, PQ_I|intros ? _]). apply only_ok.
  - intros cs M. apply only_bind; [|intros; apply only_ok]. apply (children_reject c items cs [] [] _ M K); [constructor|]. discriminate.
Qed.
Lemma without_in p s t ch : without p s t -> In ch t -> In ch s.
Proof. induction 1; intros I; [destruct I|destruct I as [<-|I]; [left; reflexivity|right; auto]|apply in_or_app; right; auto]. Qed.
Lemma user_reject p c items : (exists f, find_elem p (fields_of c) = Some f /\ f_list f = true) -> only (PQ items) (parse_list u c (Some (p)) items).
Proof.
  intros [f [Ff Fl]]. unfold parse_list. apply only_bind.
  - apply only_map. intros l _. unfold child_of_user_line. do 2 (apply only_bind; [apply only_get, PQ_I|intros ? _]). apply only_ok.
  - intros cs M. apply only_bind; [|intros; apply only_ok]. generalize (vars_of (new_obj c)), (@nil string).
    assert (G : forall its, sub its items -> forall cs, map_res (child_of_user_line (p)) its = Ok cs -> forall vars seen, only (PQ items) (bind_children u c (fields_of c) seen cs vars)).
    { clear M cs. induction its as [|l its IH]; intros Si cs M vars seen; cbn [map_res] in M; [injection M as <-; apply only_ok|].
      inv_ok M. inv_ok M. injection M as <-. unfold child_of_user_line in E. inv_ok E. inv_ok E. injection E as <-. apply get_ok in E1, E2.
      destruct l as [|k [|t r]]; try discriminate. cbn in E1, E2. injection E1 as <-. injection E2 as <-. cbn [bind_children]. destruct (child_ok _) eqn:C.
      - rewrite Ff. cbv zeta. rewrite Fl. apply (IH (sub_trans _ _ _ (sub_skip _ _ _ (sub_refl its)) Si)). exact E0.
      - apply only_err. intros _. left. exists (k :: t :: r). split; [exact (sub_in _ _ _ Si (or_introl eq_refl))|]. apply bad_child in C. destruct C as [[ch [I B]]|[n [a [ch [I [I2 B]]]]]].
        + exists t, ch. split; [right; left; reflexivity|auto].
        + destruct I as [I|[]]. injection I as <- <-. exists k, ch. split; [left; reflexivity|]. split; [|exact B]. eapply without_in; [|exact I2]. apply without_remove. destruct p; discriminate. }
    intros vars seen. exact (G items (sub_refl _) cs M vars seen).
Qed.
Lemma single_reject c p items : only (PQ items) (parse_single u c p items).
Proof.
  unfold parse_single. apply only_bind; [apply only_get, PQ_I|]. intros l Hl. apply only_bind; [apply only_get, PQ_I|]. intros k Hk. apply only_bind; [apply only_get, PQ_I|]. intros t Ht. cbv zeta.
  apply get_ok in Hl, Hk, Ht. destruct (child_ok _) eqn:C; [apply only_ok|]. apply only_err. intros _. left. exists l. split; [eapply nth_error_In; exact Hl|].
  apply bad_child in C. destruct C as [[ch [I B]]|[n [a [ch [I [I2 B]]]]]]; [exists t, ch; split; [eapply nth_error_In; exact Ht|auto]|].
  destruct I as [I|I]; [injection I as <- <-; exists k, ch; split; [eapply nth_error_In; exact Hk|auto]|].
  destruct (nth_error l 2) as [un|] eqn:E; [|destruct I]. destruct I as [I|[]]. injection I as <- <-. exists un, ch. split; [eapply nth_error_In; exact E|auto].
Qed.
Lemma root_reject c items : only (PQ items) (parse_root c items).
Proof.
  unfold parse_root. apply only_bind; [apply only_map; intros; apply only_get, PQ_I|]. intros ts M. destruct (forallb xml_text ts) eqn:F; [apply only_ok|]. apply only_err. intros _. left.
  revert ts M F. induction items as [|l items IH]; intros ts M F; cbn [map_res] in M; [injection M as <-; discriminate|]. inv_ok M. inv_ok M. injection M as <-. apply get_ok in E. cbn [forallb] in F. apply andb_false_iff in F. destruct F as [F|F].
  - exists l. split; [left; reflexivity|]. apply bad_text in F. destruct F as [ch [I B]]. exists a, ch. split; [eapply nth_error_In; exact E|auto].
  - destruct (IH _ E0 F) as [l' [I B]]. exists l'. split; [right; exact I|exact B].
Qed.

(* elements of the object map *)
Definition sane (e : elem) : Prop :=
  ~ In (e_cls e) odd_classes /\ (user e = true -> exists f, find_elem (lit "USER_DEFINED") (fields_of (e_cls e)) = Some f /\ f_list f = true) /\
  (user e = false -> e_single e <> None \/ root_kws (e_kws e) = true \/ forall k, In k (e_kws e) -> known (e_cls e) k).
Definition sanes (e : elem) : Prop := forall x, In x (all_elems e) -> sane x.
Lemma sanes_intro e : sane e -> (forall s, In s (e_subs e) -> sanes s) -> sanes e.
Proof.
  intros C S x Hx. rewrite all_elems_eq in Hx. destruct Hx as [<-|Hx]; [exact C|]. apply in_flat_map in Hx. destruct Hx as [s [Hs Hx]]. exact (S s Hs x Hx).
Qed.
Lemma sanes_here e : sanes e -> sane e.
Proof. intros W. apply W. rewrite all_elems_eq. left. reflexivity. Qed.
Lemma sanes_sub e s : sanes e -> In s (e_subs e) -> sanes s.
Proof. intros W H x Hx. apply W. rewrite all_elems_eq. right. apply in_flat_map. exists s. split; assumption. Qed.
Definition keep (e e' : elem) : Prop := sanes e -> sanes e'.
Lemma own_keep e keys lines i mm e1 : own_range u e keys lines i = Ok (mm, e1) -> keep e e1.
Proof.
  intros H W. pose proof (sanes_here e W) as V. pose proof V as [N [V2 _]]. destruct (user e) eqn:U.
  - apply own_range_same in H. destruct H as [H1 [H2 [H3 _]]]. apply sanes_intro.
    + unfold sane, user in *. rewrite H2. split; [exact N|]. split; [intros _; apply V2; reflexivity|]. intros D. rewrite D in U. discriminate.
    + intros g Hg. rewrite H3 in Hg. exact (sanes_sub e g W Hg).
  - destruct (own_easy u keys lines e i mm e1 N U H) as [-> _]. exact W.
Qed.
Lemma mm_keep e m : keep e (set_mm e m).
Proof. intros W. apply sanes_intro; [exact (sanes_here e W)|]. intros g Hg. exact (sanes_sub e g W Hg). Qed.
Lemma identify_keep keys lines : forall e i a b e', identify u e keys lines i = Ok (a, b, e') -> keep e e'.
Proof.
  intros e. induction e as [n c subs k l s m t F] using elem_ind'. intros i a b e'. rewrite identify_eq. intros H. inv_ok H. destruct a0 as [mm e1].
  pose proof (own_keep _ _ _ _ _ _ E) as K. apply own_range_same in E. destruct E as [H1 [H2 [H3 _]]]. cbn [e_subs e_name e_cls] in *.
  destruct subs as [|s0 subs]; [injection H as <- <- <-; exact K|]. inv_ok H. destruct a0 as [mx gs]. injection H as <- <- <-.
  intros W. apply sanes_intro; [exact (sanes_here _ (K W))|]. cbn [e_subs set_subs].
  eapply ident_subs_prop with (P := keep) in E.
  - rewrite Forall_forall in E. intros g Hg. destruct (E g Hg) as [z [Hz G]]. apply G. exact (sanes_sub _ z W Hz).
  - exact F.
  - intros s1 e2 m1 K1 W1. apply mm_keep, K1, W1.
  - intros s1 e2 i1 mm1 e3 K1 O W1. eapply own_keep; [exact O|]. apply K1, W1.
Qed.

Lemma PQ_sub {A} l m (r : res A) : sub l m -> only (PQ l) r -> only (PQ m) r.
Proof. intros S. apply only_more. intros e H E. exact (Q_sub _ _ S (H E)). Qed.
Lemma build_reject n doc : forall e full, sanes e -> only (PQ full) (build u n doc e full).
Proof.
  induction n as [|n IH]; intros e full W; [apply only_err, PQ_F|].
  assert (Hf : forall obj, only (PQ full) (match obj with
        | VObj c vars =>
          do vars' <- fold_left (fun acc s => do vs <- acc; do sub <- build u n doc s full;
                                   attach (e_name s) sub vs) (e_subs e) (Ok vars);
          Ok (VObj c vars')
        | _ => Err AttributeError
        end)).
  { intros obj. destruct obj; try (apply only_err; discriminate). apply only_bind; [|intros; apply only_ok].
    assert (G : forall subs, (forall s, In s subs -> sanes s) -> forall acc, only (PQ full) acc -> only (PQ full) (fold_left (fun acc s => do vs <- acc; do sub <- build u n doc s full; attach (e_name s) sub vs) subs acc)).
    { clear -IH. induction subs as [|s subs IHs]; intros Hs acc O; [exact O|]. cbn [fold_left]. apply IHs.
      - intros x Hx. apply Hs. right. exact Hx.
      - apply only_bind; [exact O|]. intros vs _. apply only_bind; [apply IH, Hs; left; reflexivity|]. intros sub _. unfold attach. destruct (assoc _ _) as [[]|]; try apply only_ok; try (apply only_err; discriminate). destruct sub; apply only_ok. }
    apply G; [intros s Hs; exact (sanes_sub e s W Hs)|apply only_ok]. }
  pose proof (sanes_here e W) as [N [V2 V3]].
  assert (NN : forall x, In x odd_classes -> String.eqb (e_cls e) x = false) by (intros x Hx; apply String.eqb_neq; intros <-; auto).
  cbn [build].
  rewrite (NN "AemSegment"), (NN "AttitudeStateType"), (NN "StateVectorAccType"), (NN "OemCovarianceMatrixType"), (NN "TrackingDataObservationType") by (cbn; tauto).
  set (local := slice (fst (e_mm e)) (snd (e_mm e)) full).
  assert (Sl : sub local full) by apply sub_slice. change (String.eqb (e_cls e) "UserDefinedType") with (user e).
  destruct local as [|l0 ll]; destruct (match e_subs e with [] => true | _ => false end) eqn:En; try apply only_ok.
  all: match goal with |- only _ (match ?x with _ => _ end) => set (own := x) end.
  all: assert (So : sub own full) by (eapply sub_trans; [|exact Sl]; subst own; destruct (user e); [apply sub_refl|apply sub_filter]).
  all: assert (Ho : user e = false -> forall l, In l own -> In (key_of l) (e_kws e)) by
    (intros Ue l Hl; subst own; rewrite Ue in Hl; apply filter_In in Hl; apply mem_str_spec; apply Hl).
  all: assert (Hmain : only (PQ full) (if match e_kws e with [a; b] => str_eqb a (lit "id") && str_eqb b (lit "version") | _ => false end
      then parse_root (e_cls e) own else match e_single e with Some p => parse_single u (e_cls e) p own | None => parse_list u (e_cls e) (if user e then Some (lit "USER_DEFINED") else None) own end)).
  1,3,5: apply (PQ_sub own full _ So); destruct (match e_kws e with [a; b] => str_eqb a (lit "id") && str_eqb b (lit "version") | _ => false end) eqn:R; [apply root_reject|]; destruct (e_single e) as [p|] eqn:Es; [apply single_reject|];
    destruct (user e) eqn:Ue; [apply user_reject, V2; reflexivity|]; apply list_reject; destruct (V3 eq_refl) as [D|[D|D]]; [destruct (D eq_refl)|unfold root_kws in D; rewrite D in R; discriminate|];
    apply Forall_forall; intros l Hl; apply D, Ho; [reflexivity|exact Hl].
  all: destruct own; try (apply only_ok); (apply only_bind; [exact Hmain|intros obj _; apply Hf]).
Qed.
End Reject.
