(* Object building: termination and class of the result (C15, C16, C17). *)
From Coq Require Import NArith ZArith List Bool String Arith Lia.
From Verif Require Import PyStr PyDec PyVal Schema KvnPre KvnTree KvnSeg XmlBind KvnBuild
     Spec SpecKvn StrFacts PreFacts SegFacts.
Import ListNotations.

(* ---- depth ---- *)
Definition depths (l : list elem) : nat := fold_right (fun s m => Nat.max (depth s) m) 0 l.
Lemma depth_eq e : depth e = S (depths (e_subs e)).
Proof. destruct e; reflexivity. Qed.
Lemma depths_in s l : In s l -> depth s <= depths l.
Proof. induction l as [|a l IH]; [intros []|]. unfold depths in *. cbn [fold_right]. intros [->|H]; [lia|]. apply IH in H. lia. Qed.
Lemma depths_le l m : Forall (fun s => depth s <= m) l -> depths l <= m.
Proof. induction 1 as [|a l Ha _ IH]; unfold depths in *; cbn [fold_right]; lia. Qed.
Lemma depths_app l1 l2 : depths (l1 ++ l2) = Nat.max (depths l1) (depths l2).
Proof. unfold depths. induction l1 as [|a l IH]; cbn [app fold_right]; [reflexivity|]. rewrite IH. lia. Qed.
Lemma depth_set_mm e m : depth (set_mm e m) = depth e.
Proof. rewrite !depth_eq. reflexivity. Qed.
Lemma depth_set_tmpl e m : depth (set_tmpl e m) = depth e.
Proof. rewrite !depth_eq. reflexivity. Qed.

Section Seg.
Variable u : env.

Lemma own_range_depth e keys lines init mm e' :
  own_range u e keys lines init = Ok (mm, e') -> depth e' = depth e.
Proof. intros H. apply own_range_same in H. rewrite !depth_eq. destruct H as [_ [_ [-> _]]]. reflexivity. Qed.

Lemma identify_list_prop (P : elem -> Prop) one nlines fuel init mx es :
  (forall i a b e, one i = Ok (a, b, e) -> P e) -> (forall e m, P e -> P (set_mm e m)) ->
  identify_list one nlines fuel init init = Ok (mx, es) -> Forall P es.
Proof.
  intros H1 H2. revert init mx es; induction fuel as [|k IH]; intros init mx es; [discriminate|].
  rewrite identify_list_S. intros H. inv_ok H. destruct a as [[mx1 [lo hi]] e1].
  destruct (_ && _); [injection H; intros; subst; constructor|].
  destruct (Nat.ltb _ _); [injection H; intros; subst; constructor|].
  assert (P1 : P (set_mm e1 (lo, hi))) by (apply H2; eapply H1; exact E).
  cbv zeta in H. destruct (Nat.leb _ _); [injection H; intros; subst; repeat constructor; exact P1|].
  inv_ok H. destruct a as [mx' es']. injection H; intros; subst. constructor; [exact P1|]. eapply IH; exact E0.
Qed.

Lemma ident_subs_prop (P : elem -> elem -> Prop) keys lines lo ss idx mx gs :
  Forall (fun s => forall i a b e, identify u s keys lines i = Ok (a, b, e) -> P s e) ss ->
  (forall s e m, P s e -> P s (set_mm e m)) ->
  (forall s e init mm e', P s e -> own_range u e keys lines init = Ok (mm, e') -> P s e') ->
  ident_subs u keys lines lo ss idx = Ok (mx, gs) -> Forall (fun g => exists s, In s ss /\ P s g) gs.
Proof.
  intros F H2 H3. revert idx mx gs. induction F as [|s ss Hs F IH]; intros idx mx gs; cbn [ident_subs].
  { intros H; injection H; intros; subst. constructor. }
  assert (W : forall l, Forall (fun g => exists s, In s ss /\ P s g) l ->
                        Forall (fun g => exists s0, In s0 (s :: ss) /\ P s0 g) l).
  { intros l. apply Forall_impl. intros g [s0 [I0 P0]]. exists s0; split; [right; exact I0|exact P0]. }
  destruct (e_islist s).
  - intros H. inv_ok H. destruct a as [idx' es]. inv_ok H. destruct a as [idx'' gs']. injection H; intros; subst.
    apply Forall_app; split; [|apply W; eapply IH; exact E0].
    eapply identify_list_prop with (P := fun g => exists s0, In s0 (s :: ss) /\ P s0 g) in E.
    + exact E.
    + intros i a b e Hi. exists s; split; [left; reflexivity|]. eapply Hs; exact Hi.
    + intros e m [s0 [I0 P0]]. exists s0; split; [exact I0|]. apply H2, P0.
  - intros H. inv_ok H. destruct a as [[idx' smm] s']. inv_ok H. inv_ok H. destruct a0 as [idx'' gs'].
    injection H; intros; subst. constructor; [|apply W; eapply IH; exact E1].
    exists s; split; [left; reflexivity|]. apply Hs in E. destruct (_ && _).
    + inv_ok E0. destruct a0 as [mm2 e2]. injection E0; intros <-. apply H2. cbn. eapply H3; eassumption.
    + injection E0; intros <-. apply H2, E.
Qed.

(* what identification keeps of an element *)
Definition kept (s e : elem) : Prop :=
  e_name e = e_name s /\ e_cls e = e_cls s /\ e_islist e = e_islist s /\ e_single e = e_single s /\
  e_tmpl e = e_tmpl s /\ depth e <= depth s.
Lemma kept_own s e keys lines init mm e' :
  kept s e -> own_range u e keys lines init = Ok (mm, e') -> kept s e'.
Proof.
  intros [K1 [K2 [K3 [K4 [K5 K6]]]]] H. pose proof (own_range_depth _ _ _ _ _ _ H) as D.
  apply own_range_same in H. destruct H as [S1 [S2 [S3 [S4 [S5 [S6 S7]]]]]].
  unfold kept. rewrite S1, S2, S4, S5, S6, D. auto 6.
Qed.
Lemma kept_mm s e m : kept s e -> kept s (set_mm e m).
Proof. unfold kept. rewrite depth_set_mm. cbn. auto. Qed.

Lemma identify_kept e keys lines : forall init mx mm e',
  identify u e keys lines init = Ok (mx, mm, e') -> kept e e'.
Proof.
  induction e as [n c subs k l s m t F] using elem_ind'. intros init mx mm e'. rewrite identify_eq. intros H.
  inv_ok H. destruct a as [mm1 e1].
  assert (K1 : kept (Elem n c subs k l s m t) e1).
  { eapply kept_own; [|exact E]. unfold kept. auto 6. }
  cbn [e_subs] in H. destruct subs as [|s0 subs]; [injection H; intros; subst; exact K1|].
  inv_ok H. destruct a as [mx1 gs]. injection H; intros; subst.
  eapply ident_subs_prop with (P := kept) in E0.
  - destruct K1 as [A1 [A2 [A3 [A4 [A5 A6]]]]]. unfold kept, set_subs; cbn [e_name e_cls e_islist e_single e_tmpl] in *.
    repeat (split; [assumption|]). rewrite !depth_eq. cbn [e_subs]. apply le_n_S. apply depths_le.
    eapply Forall_impl; [|exact E0]. intros g [s1 [I1 [_ [_ [_ [_ [_ D]]]]]]]. apply depths_in in I1. lia.
  - eapply Forall_impl; [|exact F]. cbn. intros s1 Hs i a b e' Hi. eapply Hs; exact Hi.
  - intros; apply kept_mm; assumption.
  - intros; eapply kept_own; eassumption.
Qed.

(* ---- fuel of building ---- *)
Lemma zip_lines_length ks ts : List.length (zip_lines ks ts) <= List.length ks.
Proof. revert ts; induction ks as [|k ks IH]; intros ts; [destruct ts; cbn; lia|]. destruct ts; cbn; [lia|]. specialize (IH ts); lia. Qed.

Lemma bind_children_fueled cls fs seen cs vars : fueled (bind_children u cls fs seen cs vars).
Proof.
  revert seen vars; induction cs as [|[[tag at_] tx] cs IH]; intros seen vars; [discriminate|].
  cbn [bind_children]. destruct (child_ok _); [|discriminate]. destruct (find_elem tag fs) as [f|]; [|discriminate].
  cbv zeta. destruct (f_list f); [apply IH|]. destruct (existsb _ _); [discriminate|apply IH].
Qed.
Lemma parse_list_fueled cls p items : fueled (parse_list u cls p items).
Proof.
  unfold parse_list. apply fueled_bind; [|intros a _; apply fueled_bind; [apply bind_children_fueled|discriminate]].
  apply fueled_map_res. intros a _. destruct p; unfold child_of_user_line, child_of_line;
    (apply fueled_bind; [apply fueled_get|]; intros; apply fueled_bind; [apply fueled_get|discriminate]).
Qed.
Lemma parse_single_fueled cls p items : fueled (parse_single u cls p items).
Proof.
  unfold parse_single. apply fueled_bind; [apply fueled_get|]; intros. apply fueled_bind; [apply fueled_get|]; intros.
  apply fueled_bind; [apply fueled_get|]; intros. cbv zeta. destruct (child_ok _); discriminate.
Qed.
Lemma parse_root_fueled cls items : fueled (parse_root cls items).
Proof.
  unfold parse_root. apply fueled_bind; [apply fueled_map_res; intros; apply fueled_get|]. intros.
  destruct (forallb _ _); discriminate.
Qed.
Lemma attach_fueled n v vars : fueled (attach n v vars).
Proof. unfold attach. destruct (assoc n vars) as [[]|]; try discriminate. destruct v; discriminate. Qed.
Lemma lookup_fueled k ls i : fueled (lookup_line k ls i).
Proof.
  unfold lookup_line. apply fueled_bind; [apply fueled_guard; discriminate|]. intros.
  apply fueled_bind; [apply fueled_get|]. intros. apply fueled_get.
Qed.
Lemma euler_fueled s c : fueled (euler_id s c).
Proof. unfold euler_id. repeat (match goal with |- context [match ?x with _ => _ end] => destruct x end; try discriminate). Qed.
Lemma att_template_fueled ls i : fueled (att_template ls i).
Proof.
  unfold att_template. apply fueled_bind; [apply lookup_fueled|]. intros a _.
  apply fueled_bind.
  { destruct (startswith _ _); [|discriminate]. apply fueled_bind; [apply lookup_fueled|]. discriminate. }
  intros ? _. apply fueled_bind; [|discriminate].
  destruct (_ || _); [|discriminate]. apply fueled_bind; [apply lookup_fueled|]. intros ? _.
  apply fueled_bind; [destruct (startswith (lit "EULER") a); [apply fueled_map_res; intros; apply euler_fueled|discriminate]|]. intros ? _.
  apply fueled_bind; [destruct (endswith _ _); [apply fueled_map_res; intros; apply euler_fueled|discriminate]|]. discriminate.
Qed.
Lemma prepare_fueled e doc : fueled (prepare_aem_segment e doc).
Proof.
  unfold prepare_aem_segment. apply fueled_bind; [apply fueled_get|]. intros.
  apply fueled_bind; [apply att_template_fueled|]. intros [at_ tm] _. discriminate.
Qed.
Lemma depths_filter p l : depths (filter p l) <= depths l.
Proof. unfold depths. induction l as [|a l IH]; cbn [filter fold_right]; [lia|]. destruct (p a); cbn [fold_right]; lia. Qed.
Lemma prepare_depth e doc e' : prepare_aem_segment e doc = Ok e' -> depth e' <= depth e.
Proof.
  unfold prepare_aem_segment. intros H. inv_ok H. inv_ok H. destruct a0 as [at_ tm]. injection H; intros <-. clear H E0.
  apply get_ok in E.
  assert (Hd : depth (set_subs a (map (fun s => set_tmpl (set_subs s (filter (fun x => match at_ with
         | Some a0 => String.eqb (e_name x) a0 | None => false end) (e_subs s))) tm) (e_subs a))) <= depth a).
  { rewrite !depth_eq. cbn [e_subs set_subs]. apply le_n_S. apply depths_le. apply Forall_forall. intros x Hx.
    apply in_map_iff in Hx. destruct Hx as [y [<- Hy]]. rewrite depth_set_tmpl. apply depths_in in Hy.
    rewrite depth_eq in *. cbn [e_subs set_subs]. pose proof (depths_filter (fun x => match at_ with
         | Some a0 => String.eqb (e_name x) a0 | None => false end) (e_subs y)). lia. }
  assert (Ha : depth a <= depths (e_subs e)).
  { apply depths_in. apply nth_error_In in E. exact E. }
  rewrite (depth_eq e). rewrite depth_eq. apply le_n_S.
  match goal with |- depths (e_subs (set_subs e (_ ++ ?d :: _))) <= _ => change (depth d <= depth a) in Hd; set (d0 := d) in * end.
  clearbody d0. cbn [e_subs set_subs] in *.
  destruct (e_subs e) as [|x [|y r]]; try discriminate. injection E; intros ->.
  unfold depths in *. cbn [fold_right app] in *. lia.
Qed.

Lemma fold_res_fueled {A B} (f : res A -> B -> res A) (l : list B) (acc : res A) :
  fueled acc -> (forall r b, In b l -> fueled r -> fueled (f r b)) -> fueled (fold_left f l acc).
Proof.
  revert acc; induction l as [|b l IH]; intros acc Ha Hf; [exact Ha|]. cbn. apply IH.
  - apply Hf; [left; reflexivity|exact Ha].
  - intros; apply Hf; [right; assumption|assumption].
Qed.

Lemma build_fueled fuel doc : forall e full, depth e < fuel -> fueled (build u fuel doc e full).
Proof.
  induction fuel as [|n IH]; intros e full Hd; [lia|].
  assert (Hfill : forall obj subs, Forall (fun s => depth s < n) subs ->
    fueled (match obj with
        | VObj c vars =>
          do vars' <- fold_left (fun acc s => do vs <- acc; do sub <- build u n doc s full;
                                   attach (e_name s) sub vs) subs (Ok vars);
          Ok (VObj c vars')
        | _ => Err AttributeError
        end)).
  { intros obj subs Hs. destruct obj; try discriminate. apply fueled_bind; [|discriminate].
    apply fold_res_fueled; [discriminate|]. intros r b Hb Hr. rewrite Forall_forall in Hs.
    apply fueled_bind; [exact Hr|]. intros vs _. apply fueled_bind; [apply IH, Hs, Hb|]. intros; apply attach_fueled. }
  assert (Hsub : Forall (fun s => depth s < n) (e_subs e)).
  { apply Forall_forall. intros s Hs. apply depths_in in Hs. rewrite depth_eq in Hd. lia. }
  cbn [build]. 
  destruct (slice (fst (e_mm e)) (snd (e_mm e)) full) as [|l0 ll] eqn:El;
    destruct (match e_subs e with [] => true | _ => false end) eqn:En; try discriminate; rewrite <- El.
  all: destruct (String.eqb (e_cls e) "AemSegment");
    [apply fueled_bind; [apply prepare_fueled|]; intros e' He'; apply fueled_bind; [apply parse_list_fueled|];
     intros obj _; apply Hfill; apply Forall_forall; intros s Hs; apply depths_in in Hs;
     apply prepare_depth in He'; rewrite !depth_eq in He'; rewrite depth_eq in Hd; lia|].
  all: destruct (String.eqb (e_cls e) "AttitudeStateType");
    [apply fueled_bind; [apply fueled_guard; discriminate|]; intros tm _;
     apply fueled_bind; [apply fueled_get|]; intros l1 _; apply fueled_bind; [apply fueled_get|]; intros s1 _;
     apply fueled_bind; [apply identify_fueled, zip_lines_length|];
     intros [[mx mm] e1] He1; apply fueled_bind; [apply fueled_get|]; intros sub Hsub1;
     apply fueled_bind; [apply IH|discriminate];
     apply identify_kept in He1; destruct He1 as [_ [_ [_ [_ [_ He1]]]]]; apply get_ok, nth_error_In, depths_in in Hsub1;
     rewrite (depth_eq e1) in He1; lia|].
  all: destruct (String.eqb (e_cls e) "StateVectorAccType");
    [apply fueled_bind; [apply fueled_get|]; intros l1 _; apply fueled_bind; [apply fueled_get|]; intros s1 _;
     apply fueled_bind; [apply parse_list_fueled|]; intros; apply Hfill, Hsub|].
  all: destruct (String.eqb (e_cls e) "OemCovarianceMatrixType");
    [apply fueled_bind; [apply parse_list_fueled|]; intros; apply Hfill, Hsub|].
  all: destruct (String.eqb (e_cls e) "TrackingDataObservationType");
    [apply fueled_bind; [apply fueled_get|]; intros l1 _; apply fueled_bind; [apply fueled_get|]; intros s1 _;
     apply fueled_bind; [apply fueled_get|]; intros s2 _;
     apply fueled_bind; [apply parse_list_fueled|]; intros; apply Hfill, Hsub|].
  all: match goal with |- fueled (match ?l with _ => _ end) => destruct l eqn:El' end; try discriminate.
  all: (apply fueled_bind; [|intros; apply Hfill, Hsub]);
    match goal with |- fueled (if ?b then _ else _) => destruct b; [apply parse_root_fueled|] end;
    destruct (e_single e); [apply parse_single_fueled|apply parse_list_fueled].
Qed.

Lemma find_element_in k c : find_element k = Some c -> In c root_classes.
Proof. intros H. apply find_some in H. apply H. Qed.

Lemma read_lines_fueled ls : fueled (read_lines u ls).
Proof.
  unfold read_lines. apply fueled_bind.
  { unfold identify_data_type. apply fueled_bind; [apply fueled_get|]. intros. apply fueled_bind; [apply fueled_get|].
    intros. apply fueled_guard. discriminate. }
  intros c Hc. cbv zeta.
  assert (Hin : In c root_classes).
  { unfold identify_data_type in Hc. inv_ok Hc. inv_ok Hc. unfold guard_opt in Hc.
    destruct (find_element a0) eqn:F; [|discriminate]. injection Hc; intros <-. apply find_element_in in F. exact F. }
  rewrite (init_object_map_ok c Hin). cbn [bind].
  apply fueled_bind; [apply identify_segments_fueled|]. intros e _. unfold build_object. apply build_fueled. lia.
Qed.
Lemma kvn_from_string_fueled src : kvn_from_string u src <> Err OutOfFuel.
Proof.
  unfold kvn_from_string. apply fueled_bind; [|intros; apply read_lines_fueled].
  unfold pre_process, split_first. destruct (lex_lines src) as [|[|k vs] r]; discriminate.
Qed.

(* ---- class of the result ---- *)
Lemma build_class fuel doc e full v : build u fuel doc e full = Ok v ->
  v = VNone \/ exists vars, v = VObj (e_cls e) vars.
Proof.
  destruct fuel as [|n]; [discriminate|]. cbn [build].
  assert (Hfill : forall obj subs, (exists vs, obj = VObj (e_cls e) vs) ->
    (match obj with
        | VObj c vars =>
          do vars' <- fold_left (fun acc s => do vs <- acc; do sub <- build u n doc s full;
                                   attach (e_name s) sub vs) subs (Ok vars);
          Ok (VObj c vars')
        | _ => Err AttributeError
        end) = Ok v -> v = VNone \/ exists vars, v = VObj (e_cls e) vars).
  { intros obj subs [vs ->] H. inv_ok H. injection H; intros <-. right. eexists; reflexivity. }
  assert (HL : forall p items obj, parse_list u (e_cls e) p items = Ok obj -> exists vs, obj = VObj (e_cls e) vs).
  { intros p items obj H. unfold parse_list in H. inv_ok H. inv_ok H. injection H; intros <-. eexists; reflexivity. }
  destruct (slice (fst (e_mm e)) (snd (e_mm e)) full) as [|l0 ll] eqn:El;
    destruct (match e_subs e with [] => true | _ => false end) eqn:En; rewrite <- ?El;
    try (intros H; injection H; intros <-; left; reflexivity).
  all: destruct (String.eqb (e_cls e) "AemSegment");
    [intros H; inv_ok H; inv_ok H; eapply Hfill; [eapply HL; eassumption|exact H]|].
  all: destruct (String.eqb (e_cls e) "AttitudeStateType");
    [intros H; inv_ok H; inv_ok H; inv_ok H; inv_ok H; destruct a2 as [[? ?] ?]; inv_ok H; inv_ok H; inv_ok H;
     injection H; intros <-; right; cbn [reparse]; eexists; reflexivity|].
  all: destruct (String.eqb (e_cls e) "StateVectorAccType");
    [intros H; inv_ok H; inv_ok H; inv_ok H; eapply Hfill; [eapply HL; eassumption|exact H]|].
  all: destruct (String.eqb (e_cls e) "OemCovarianceMatrixType");
    [intros H; inv_ok H; eapply Hfill; [eapply HL; eassumption|exact H]|].
  all: destruct (String.eqb (e_cls e) "TrackingDataObservationType");
    [intros H; inv_ok H; inv_ok H; inv_ok H; inv_ok H; eapply Hfill; [eapply HL; eassumption|exact H]|].
  all: match goal with |- match ?l with _ => _ end = _ -> _ => destruct l eqn:El' end;
    try (intros H; injection H; intros <-; left; reflexivity).
  all: intros H; inv_ok H; (eapply Hfill; [|exact H]);
    match type of E with (if ?b then _ else _) = _ => destruct b end;
    [unfold parse_root in E; inv_ok E; destruct (forallb _ _); [injection E; intros <-; eexists; reflexivity|discriminate]|];
    destruct (e_single e);
    [unfold parse_single in E; inv_ok E; inv_ok E; inv_ok E; cbv zeta in E; destruct (child_ok _); [|discriminate];
     injection E; intros <-; eexists; reflexivity|eapply HL; exact E].
Qed.
Lemma build_some fuel doc e full v : build u fuel doc e full = Ok v -> e_subs e <> [] -> v <> VNone.
Proof.
  destruct fuel as [|n]; [discriminate|]. cbn [build]. intros H Hs.
  destruct (e_subs e) as [|s ss] eqn:Es; [congruence|].
  intros ->.
  assert (Hfill : forall obj subs,
    (match obj with
        | VObj c vars =>
          do vars' <- fold_left (fun acc s => do vs <- acc; do sub <- build u n doc s full;
                                   attach (e_name s) sub vs) subs (Ok vars);
          Ok (VObj c vars')
        | _ => Err AttributeError
        end) = Ok VNone -> False).
  { intros obj subs H'. destruct obj; try discriminate. inv_ok H'. discriminate. }
  revert H. destruct (slice (fst (e_mm e)) (snd (e_mm e)) full) as [|l0 ll] eqn:El; rewrite <- ?El.
  all: destruct (String.eqb (e_cls e) "AemSegment");
    [intros H; inv_ok H; inv_ok H; eapply Hfill; exact H|].
  all: destruct (String.eqb (e_cls e) "AttitudeStateType");
    [intros H; inv_ok H; inv_ok H; inv_ok H; inv_ok H; destruct a2 as [[? ?] ?]; inv_ok H; inv_ok H; inv_ok H;
     discriminate|].
  all: destruct (String.eqb (e_cls e) "StateVectorAccType");
    [intros H; inv_ok H; inv_ok H; inv_ok H; eapply Hfill; exact H|].
  all: destruct (String.eqb (e_cls e) "OemCovarianceMatrixType");
    [intros H; inv_ok H; eapply Hfill; exact H|].
  all: destruct (String.eqb (e_cls e) "TrackingDataObservationType");
    [intros H; inv_ok H; inv_ok H; inv_ok H; inv_ok H; eapply Hfill; exact H|].
  all: match goal with |- match ?l with _ => _ end = _ -> _ => destruct l eqn:El' end;
   intros H; inv_ok H; eapply Hfill; exact H.
Qed.

Lemma ident_subs_nonempty keys lines lo s ss idx mx gs :
  e_islist s = false -> ident_subs u keys lines lo (s :: ss) idx = Ok (mx, gs) -> gs <> [].
Proof.
  intros Hl. cbn [ident_subs]. rewrite Hl. intros H. inv_ok H. destruct a as [[? ?] ?]. inv_ok H. inv_ok H.
  destruct a0. injection H; intros; subst; discriminate.
Qed.
Lemma root_first_sub c : In c root_classes -> exists s ss, e_subs (tree_of c) = s :: ss /\ e_islist s = false.
Proof.
  intros H. repeat (destruct H as [<-|H]; [vm_compute; eexists; eexists; split; reflexivity|]). destruct H.
Qed.
Lemma root_cls c : In c root_classes -> e_cls (tree_of c) = c.
Proof. intros H. repeat (destruct H as [<-|H]; [vm_compute; reflexivity|]). destruct H. Qed.

Lemma read_lines_class ls c : identify_data_type ls = Ok c ->
  forall v, read_lines u ls = Ok v -> exists vars, v = VObj c vars.
Proof.
  intros Hc v. unfold read_lines. rewrite Hc. cbn [bind]. cbv zeta.
  assert (Hin : In c root_classes).
  { unfold identify_data_type in Hc. inv_ok Hc. inv_ok Hc. unfold guard_opt in Hc.
    destruct (find_element a0) eqn:F; [|discriminate]. injection Hc; intros <-. apply find_element_in in F. exact F. }
  rewrite (init_object_map_ok c Hin). cbn [bind]. intros H. inv_ok H.
  unfold identify_segments in E. inv_ok E. destruct a0 as [[mx mm] e1]. injection E; intros <-. clear E.
  pose proof (identify_kept _ _ _ _ _ _ _ E0) as [_ [Kc _]].
  pose proof (build_class _ _ _ _ _ H) as [->|[vars ->]].
  - exfalso. revert H. intros H. apply build_some in H; [congruence|]. cbn [e_subs set_mm].
    destruct (root_first_sub c Hin) as [s [ss [Es El]]].
    rewrite identify_eq in E0. inv_ok E0. destruct a as [mm1 e2]. rewrite Es in E0. inv_ok E0. destruct a as [mx1 gs].
    injection E0; intros; subst. cbn [e_subs set_subs]. eapply ident_subs_nonempty; eassumption.
  - exists vars. cbn. rewrite Kc, root_cls by exact Hin. reflexivity.
Qed.
End Seg.

(* ---- the first line decides ---- *)
Lemma find_element_table k :
  find_element k = option_map snd (find (fun p => str_eqb (fst p) k) type_table).
Proof.
  unfold find_element, root_classes, type_table. cbn [find map fst snd].
  repeat match goal with
         | |- context [class_fixed ?c "id"] => let v := eval vm_compute in (class_fixed c "id") in
               replace (class_fixed c "id") with v by (vm_compute; reflexivity)
         end.
  cbv iota beta.
  repeat match goal with |- context [str_eqb ?a k] => destruct (str_eqb a k); [reflexivity|] end.
  reflexivity.
Qed.
Lemma find_element_some k c : In (k, c) type_table -> find_element k = Some c.
Proof.
  intros H. rewrite find_element_table.
  repeat (destruct H as [H|H]; [injection H; intros <- <-; vm_compute; reflexivity|]). destruct H.
Qed.
Lemma find_element_none k : (forall c, ~ In (k, c) type_table) -> find_element k = None.
Proof.
  intros H. rewrite find_element_table.
  destruct (find (fun p => str_eqb (fst p) k) type_table) as [[k' c]|] eqn:F; [|reflexivity].
  apply find_some in F. destruct F as [Hin E]. cbn in E. apply str_eqb_eq in E. subst k'. destruct (H _ Hin).
Qed.

Lemma line_key_lex raw k : ~ blank raw -> line_key raw k ->
  exists l, lex_line raw = Some l /\ (key_of l = k \/ (key_of l = kw_comment /\ begins kw_comment k)) /\ l <> [].
Proof.
  intros Hb H. destruct H as [a b k -> Na Ck|k Na Ck]; apply strip_of_core in Ck; subst k.
  - destruct (startswith kw_comment (strip a)) eqn:C.
    + rewrite <- lex_line_strip. rewrite strip_app_nonblank by reflexivity.
      assert (C' : startswith kw_comment (lstrip a ++ c_eq :: rstrip b) = true).
      { apply startswith_app_true. rewrite startswith_comment_lstrip. exact C. }
      apply startswith_spec in C'. destruct C' as [r ->]. rewrite lex_line_comment_gen.
      eexists; split; [reflexivity|]. split; [|discriminate]. right; split; [reflexivity|].
      apply startswith_spec in C. exact C.
    + rewrite lex_line_eq by assumption. eexists; split; [reflexivity|]. split; [left; reflexivity|discriminate].
  - assert (Hs : strip raw <> []) by (intros E; apply Hb; apply strip_nil_blank; exact E).
    destruct (startswith kw_comment (strip raw)) eqn:C.
    + rewrite <- lex_line_strip. pose proof C as C1. apply startswith_spec in C. destruct C as [r Hr]. rewrite Hr.
      rewrite lex_line_comment_gen. eexists; split; [reflexivity|]. split; [|discriminate].
      right; split; [reflexivity|]. exists r; reflexivity.
    + rewrite lex_line_bare by assumption. eexists; split; [reflexivity|]. split; [left; reflexivity|discriminate].
Qed.
Lemma no_comment_type k c : In (k, c) type_table -> ~ begins kw_comment k.
Proof.
  intros H [r Hr]. repeat (destruct H as [H|H]; [injection H; intros; subst; discriminate|]). destruct H.
Qed.


Lemma filter_map_blank bs : Forall blank bs -> filter_map lex_line bs = [].
Proof. induction 1 as [|b bs B _ IH]; [reflexivity|]. cbn. rewrite lex_line_blank by exact B. exact IH. Qed.
Lemma lex_lines_split bs first rest src :
  split_on c_nl src = bs ++ first :: rest -> Forall blank bs ->
  lex_lines src = match lex_line first with
                  | Some l => l :: filter_map lex_line rest
                  | None => filter_map lex_line rest end.
Proof.
  intros E F. unfold lex_lines. rewrite E, filter_map_app, (filter_map_blank _ F).
  cbn. destruct (lex_line first); reflexivity.
Qed.

Lemma type_blank u src : Forall blank (split_on c_nl src) -> kvn_from_string u src = Err IndexError.
Proof. intros H. unfold kvn_from_string, pre_process, lex_lines. rewrite (filter_map_blank _ H). reflexivity. Qed.
Lemma type_known u src bs first rest k c :
  split_on c_nl src = bs ++ first :: rest -> Forall blank bs -> line_key first k ->
  In (k, c) type_table -> forall v, kvn_from_string u src = Ok v -> exists vars, v = VObj c vars.
Proof.
  intros E F Hk Hc v. 
  assert (Hb : ~ blank first).
  { intros B. assert (k = []).
    { destruct Hk as [a b k -> Na Ck|k Na Ck].
      - exfalso. assert (is_ws c_eq = true) by (apply B; apply in_or_app; right; left; reflexivity). discriminate.
      - apply strip_of_core in Ck. subst k. apply strip_nil_blank. exact B. }
    subst k. repeat (destruct Hc as [Hc|Hc]; [discriminate|]). destruct Hc. }
  destruct (line_key_lex _ _ Hb Hk) as [l [El [Kl Nl]]].
  destruct Kl as [Kl|[_ Kl]]; [|destruct (no_comment_type _ _ Hc Kl)].
  unfold kvn_from_string, pre_process. rewrite (lex_lines_split _ _ _ _ E F), El.
  destruct l as [|k0 vs]; [congruence|]. cbn in Kl; subst k0. cbn [split_first bind].
  apply read_lines_class. unfold identify_data_type, get. cbn [nth_error guard_opt bind]. rewrite (find_element_some _ _ Hc). reflexivity.
Qed.
Lemma type_unknown u src bs first rest k :
  split_on c_nl src = bs ++ first :: rest -> Forall blank bs -> ~ blank first -> line_key first k ->
  (forall c, ~ In (k, c) type_table) -> kvn_from_string u src = Err AttributeError.
Proof.
  intros E F Hb Hk Hc.
  destruct (line_key_lex _ _ Hb Hk) as [l [El [Kl Nl]]].
  unfold kvn_from_string, pre_process. rewrite (lex_lines_split _ _ _ _ E F), El.
  destruct l as [|k0 vs]; [congruence|]. cbn [split_first bind]. unfold read_lines, identify_data_type, get. cbn [nth_error guard_opt bind].
  cbn in Kl. rewrite find_element_none; [reflexivity|]. destruct Kl as [->|[-> _]]; [exact Hc|].
  intros c Hin. repeat (destruct Hin as [Hin|Hin]; [discriminate|]). destruct Hin.
Qed.

(* ---- section markers ---- *)
Lemma marker_props c m : In m (section_markers c) ->
  m <> [] /\ no_char c_eq m /\ startswith kw_comment m = false /\ mem_str m (deleted_keywords c) = true.
Proof.
  unfold section_markers, deleted_keywords. destruct (String.eqb c "Oem"); [|destruct (_ || _); [|intros []]];
  intros H; repeat (destruct H as [<-|H];
    [split; [discriminate|]; split; [apply no_charb_spec; reflexivity|split; reflexivity]|]); destruct H.
Qed.
Lemma marker_lex c raw : marker_line c raw ->
  exists l, lex_line raw = Some l /\ mem_str (key_of l) (deleted_keywords c) = true.
Proof.
  intros [m [Cm H]]. apply strip_of_core in Cm. subst m. destruct (marker_props _ _ H) as [H1 [H2 [H3 H4]]].
  exists [strip raw]. split; [|exact H4]. rewrite <- lex_line_strip. rewrite lex_line_bare.
  - rewrite strip_strip. reflexivity.
  - rewrite strip_strip. exact H1.
  - exact H2.
  - rewrite strip_strip; exact H3.
Qed.
Lemma same_but_markers_lex c l1 l2 : same_but_markers c l1 l2 ->
  delete_keywords c (filter_map lex_line l1) = delete_keywords c (filter_map lex_line l2).
Proof.
  unfold delete_keywords.
  induction 1 as [|m l1 l2 M _ IH|m l1 l2 M _ IH|t l1 l2 _ IH]; [reflexivity| | |].
  - destruct (marker_lex _ _ M) as [l [E D]]. cbn [filter_map]. rewrite E. cbn [filter]. rewrite D. exact IH.
  - destruct (marker_lex _ _ M) as [l [E D]]. cbn [filter_map]. rewrite E. cbn [filter]. rewrite D. exact IH.
  - cbn [filter_map]. destruct (lex_line t) as [l|]; [|exact IH]. cbn [filter].
    destruct (negb _); [rewrite IH; reflexivity|exact IH].
Qed.

Lemma markers_ignored u c k bs first r1 r2 src1 src2 :
  In (k, c) type_table -> line_key first k -> Forall blank bs ->
  split_on c_nl src1 = bs ++ first :: r1 -> split_on c_nl src2 = bs ++ first :: r2 ->
  same_but_markers c r1 r2 -> kvn_from_string u src1 = kvn_from_string u src2.
Proof.
  intros Hc Hk F E1 E2 M. apply same_but_markers_lex in M.
  unfold kvn_from_string, pre_process. rewrite (lex_lines_split _ _ _ _ E1 F), (lex_lines_split _ _ _ _ E2 F).
  assert (Hb : ~ blank first).
  { intros B. assert (k = []).
    { destruct Hk as [a b k -> Na Ck|k Na Ck].
      - exfalso. assert (is_ws c_eq = true) by (apply B; apply in_or_app; right; left; reflexivity). discriminate.
      - apply strip_of_core in Ck. subst k. apply strip_nil_blank. exact B. }
    subst k. repeat (destruct Hc as [Hc|Hc]; [discriminate|]). destruct Hc. }
  destruct (line_key_lex _ _ Hb Hk) as [l [El [Kl Nl]]].
  destruct Kl as [Kl|[_ Kl]]; [|destruct (no_comment_type _ _ Hc Kl)]. rewrite El.
  destruct l as [|k0 vs]; [congruence|]. cbn in Kl; subst k0. cbn [split_first bind].
  unfold read_lines, identify_data_type, get. cbn [nth_error guard_opt bind]. rewrite (find_element_some _ _ Hc).
  cbn [guard_opt bind]. cbv zeta. 
  assert (D : forall r, delete_keywords c ([lit "id"; k] :: (lit "version" :: vs) :: r)
                        = [lit "id"; k] :: (lit "version" :: vs) :: delete_keywords c r).
  { intros r. unfold delete_keywords. cbn [filter]. unfold key_of. cbn [hd].
    assert (Hd : mem_str (lit "id") (deleted_keywords c) = false /\ mem_str (lit "version") (deleted_keywords c) = false).
    { unfold deleted_keywords. destruct (String.eqb c "Oem"); [split; reflexivity|]. destruct (_ || _); split; reflexivity. }
    destruct Hd as [-> ->]. reflexivity. }
  rewrite !D, M. reflexivity.
Qed.
