(* Boolean checks for the conditions of C67, used to show that concrete messages meet them. *)
From Coq Require Import NArith ZArith List Bool String.
From Verif Require Import PyStr PyDec PyVal Schema KvnPre XmlBind DecFacts StrFacts PreFacts Spec SpecKvn SpecObj SpecMsg SpecBack SpecAgain CheckFacts.
Import ListNotations.
Local Open Scope string_scope.
Local Open Scope list_scope.
Local Arguments find_class : simpl never.
Local Arguments lit : simpl never.

Definition setb (v : pyval) : bool := match v with VNone | VList _ => false | _ => true end.
Lemma setb_spec v : setb v = true <-> is_set v.
Proof. destruct v; cbn; split; intros H; try discriminate; try contradiction; auto. Qed.
Definition text_fitsb (c n : string) (s : str) : bool :=
  good_valueb s && negb (String.eqb n "units") &&
  forallb (fun f => negb (String.eqb (f_name f) n) || match f_ty f with TDec | TInt => not_numberb s && no_charb c_lbr s | _ => true end) (fields_of c).
Lemma text_fitsb_spec c n s : text_fitsb c n s = true -> text_fits c n s.
Proof.
  unfold text_fitsb. intros H. apply andb_true_iff in H. destruct H as [H H3]. apply andb_true_iff in H. destruct H as [H1 H2]. split; [apply good_valueb_spec; exact H1|].
  split; [apply String.eqb_neq, negb_true_iff; exact H2|]. intros f If Ef Et. rewrite forallb_forall in H3. specialize (H3 f If). rewrite Ef, String.eqb_refl in H3. cbn [negb orb] in H3.
  assert (X : not_numberb s && no_charb c_lbr s = true) by (destruct Et as [->| ->] || (destruct Et as [Et|Et]; rewrite Et in H3); exact H3).
  apply andb_true_iff in X. destruct X. split; [apply not_numberb_spec; assumption|apply no_charb_spec; assumption].
Qed.
Definition tidy_here (c : string) (vars : list (string * pyval)) : bool :=
  String.eqb c "UserDefinedParameterType" ||
  forallb (fun nx => match snd nx with
    | VNone => negb (String.eqb (fst nx) "value")
    | VStr s => text_fitsb c (fst nx) s
    | VList l => forallb (fun x => match x with VStr s => good_textb s | VObj _ _ => true | _ => false end) l
    | _ => true end) vars &&
  (negb (existsb (String.eqb c) section_classes) || existsb (fun nx => setb (snd nx)) vars).
Fixpoint tidyb (v : pyval) : bool :=
  match v with
  | VObj c vars => tidy_here c vars && forallb (fun nx => tidyb (snd nx)) vars
  | VList l => forallb tidyb l
  | _ => true
  end.
Lemma tidyb_inside w v : inside w v -> tidyb v = true -> tidyb w = true.
Proof.
  induction 1 as [|c n y vars I H IH|y l I H IH]; intros T; [exact T| |]; apply IH; cbn [tidyb] in T.
  - apply andb_true_iff in T. destruct T as [_ T]. rewrite forallb_forall in T. exact (T _ I).
  - rewrite forallb_forall in T. exact (T _ I).
Qed.
Lemma tidyb_spec v : tidyb v = true -> tidy v.
Proof.
  intros H c vars I Nc. apply (tidyb_inside _ _ I) in H. cbn [tidyb] in H. apply andb_true_iff in H. destruct H as [H _]. unfold tidy_here in H.
  apply orb_true_iff in H. destruct H as [H|H]; [apply String.eqb_eq in H; contradiction|]. apply andb_true_iff in H. destruct H as [H S]. rewrite forallb_forall in H.
  split; [intros J; specialize (H _ J); discriminate H|]. split; [intros n s J; apply text_fitsb_spec; exact (H _ J)|]. split.
  - intros n l x J Jx. specialize (H _ J). cbn [snd] in H. rewrite forallb_forall in H. specialize (H _ Jx). destruct x as [|s| | | |c' vs'|]; try discriminate H; [left|right; eauto]. exists s. split; [reflexivity|apply good_textb_spec; exact H].
  - intros Ic. apply orb_true_iff in S. destruct S as [S|S].
    + exfalso. apply negb_true_iff, not_true_iff_false in S. apply S. apply existsb_exists. exists c. split; [exact Ic|apply String.eqb_refl].
    + apply existsb_exists in S. destruct S as [[n x] [J Sx]]. exists n, x. split; [exact J|apply setb_spec; exact Sx].
Qed.

Fixpoint all_at (p : list string) (v : pyval) : list pyval :=
  match p with
  | [] => [v]
  | n :: r => match v with VObj _ vars => flat_map (fun kv => if String.eqb (fst kv) n then all_at r (snd kv) else []) vars | _ => [] end
  end.
Lemma all_at_spec p v x : attribute p v x <-> In x (all_at p v).
Proof.
  split.
  - induction 1 as [v|n r c vars x y I A IH]; [left; reflexivity|]. cbn [all_at]. apply in_flat_map. exists (n, x). split; [exact I|]. cbn [fst snd]. rewrite String.eqb_refl. exact IH.
  - revert v. induction p as [|n r IH]; intros v H; cbn [all_at] in H; [destruct H as [->|[]]; constructor|]. destruct v as [| | | | |c vars|]; try destruct H.
    apply in_flat_map in H. destruct H as [[k y] [I H]]. cbn [fst snd] in H. destruct (String.eqb k n) eqn:E; [|destruct H]. apply String.eqb_eq in E. subst k. eapply attribute_of; [exact I|exact (IH _ H)].
Qed.
Definition object_atb (p : list string) (v : pyval) : bool := existsb (fun x => match x with VObj _ _ => true | _ => false end) (all_at p v).
Lemma object_atb_spec p v : object_atb p v = true -> object_at p v.
Proof. intros H. apply existsb_exists in H. destruct H as [x [I H]]. destruct x as [| | | | |c vars|]; try discriminate. exists c, vars. apply all_at_spec. exact I. Qed.

Definition names_at (p : list string) (v : pyval) : list (list string) :=
  flat_map (fun x => match x with VObj _ vars => map (fun kv => p ++ [fst kv]) vars | _ => [] end) (all_at p v).
Definition own_lines (w : pyval) : list (list string) := names_at ["metadata"] w ++ flat_map (fun p => names_at p w) (names_at ["data"] w).
Lemma names_at_spec p n v x : attribute (p ++ [n]) v x -> In (p ++ [n]) (names_at p v).
Proof.
  intros A. assert (X : exists c vars, attribute p v (VObj c vars) /\ In (n, x) vars).
  { revert v A. induction p as [|k p IH]; intros v A; cbn [app] in A; inversion A as [|? ? c vars y ? I A']; subst.
    - inversion A'; subst. exists c, vars. split; [constructor|exact I].
    - destruct (IH _ A') as [c' [vs' [B J]]]. exists c', vs'. split; [eapply attribute_of; eassumption|exact J]. }
  destruct X as [c [vars [B J]]]. apply in_flat_map. exists (VObj c vars). split; [apply all_at_spec; exact B|]. apply in_map_iff. exists (n, x). auto.
Qed.
Lemma own_lines_spec p w x : own_line p -> attribute p w x -> In p (own_lines w).
Proof.
  intros [[n ->]|[s [n ->]]] A; apply in_or_app; [left; exact (names_at_spec ["metadata"] n w x A)|right]. apply in_flat_map. exists ["data"; s]. split; [|exact (names_at_spec ["data"; s] n w x A)].
  inversion A as [|? ? c vars y ? I A']; subst. inversion A' as [|? ? c' vars' y' ? I' A'']; subst. apply (names_at_spec ["data"] s _ y'). eapply attribute_of; [exact I|]. eapply attribute_of; [exact I'|constructor].
Qed.
Fixpoint no_newb (vs : list pyval) : bool :=
  match vs with
  | [] => true
  | v :: r => forallb (fun w => forallb (fun p => negb (existsb setb (all_at p w)) || existsb setb (all_at p v)) (own_lines w)) r && no_newb r
  end.
Lemma no_newb_spec vs : no_newb vs = true -> no_new_attributes vs.
Proof.
  induction vs as [|v r IH]; intros H; [exact I|]. cbn [no_newb] in H. apply andb_true_iff in H. destruct H as [H Hr]. split; [|exact (IH Hr)].
  intros w p x Iw Op A S. rewrite forallb_forall in H. specialize (H w Iw). rewrite forallb_forall in H. specialize (H p (own_lines_spec p w x Op A)). apply orb_true_iff in H. destruct H as [H|H].
  - exfalso. apply negb_true_iff, not_true_iff_false in H. apply H. apply existsb_exists. exists x. split; [apply all_at_spec; exact A|apply setb_spec; exact S].
  - apply existsb_exists in H. destruct H as [y [J Sy]]. exists y. split; [apply all_at_spec; exact J|apply setb_spec; exact Sy].
Qed.
