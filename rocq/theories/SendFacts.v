(* Messages that fit the schema and are complete have the shape of BackFacts. *)
From Coq Require Import NArith ZArith List Bool String Arith Lia.
From Verif Require Import PyStr PyDec PyVal Schema KvnPre KvnTree KvnSeg XmlBind KvnBuild KvnWrite
     SpecBack SpecSchema SpecSend StrFacts SegFacts WriteFacts ErrFacts BackFacts BackRead AgainFacts.
Import ListNotations.
Local Open Scope string_scope.
Local Open Scope list_scope.
Local Arguments find_class : simpl never.
Local Arguments lit : simpl never.

(* ---- the classes of a message ---- *)
Definition data_cls (t : ftype) : list string := match t with TCls c => match find_class c with Some (CData _ _) => [c] | _ => [] end | _ => [] end.
Fixpoint reach (k : nat) (todo seen : list string) : list string :=
  match k with
  | O => seen
  | S k => match todo with
           | [] => seen
           | c :: r => if mem_string c seen then reach k r seen else reach k (flat_map (fun f => data_cls (f_ty f)) (init_fields (fields_of c)) ++ r) (c :: seen)
           end
  end.
Definition parts : list string := Eval vm_compute in reach 2000 ("AemMetadata" :: writable_roots) [].
Definition user_par (t : ftype) : bool := match t with TCls c => String.eqb c "UserDefinedParameterType" | _ => false end.
Definition bare_ty (t : ftype) : bool := match t with TCls c => negb (mem_string "units" (attrs c)) | _ => false end.
Definition partb (f : field) : bool :=
  if f_list f then (String.eqb (f_name f) "comment" && simple_ty (f_ty f)) || (String.eqb (f_name f) "user_defined" && user_par (f_ty f)) ||
                   (kept (f_name f) && negb (simple_ty (f_ty f)) && bare_ty (f_ty f))
  else kept (f_name f).
Definition axisb (c : string) : bool := existsb (fun cn => String.eqb (fst cn) c && match init_fields (fields_of c) with
  | [fv; fp; fu] => String.eqb (f_name fv) "value" && String.eqb (f_name fp) (snd cn) && String.eqb (f_name fu) "units" &&
      negb (String.eqb (snd cn) "value") && negb (String.eqb (snd cn) "units") && simple_ty (f_ty fv) && negb (f_list fv) && enum_ty (f_ty fu) && negb (f_list fu)
  | _ => false end) axis_of.
Definition pairb (c : string) : bool := match init_fields (fields_of c) with
  | [fv; fu] => String.eqb (f_name fv) "value" && String.eqb (f_name fu) "units" && simple_ty (f_ty fv) && negb (f_list fv) && enum_ty (f_ty fu) && negb (f_list fu)
  | _ => false end.
Definition valueb (c : string) : bool := pairb c || axisb c.
Definition value_type (t : ftype) : bool := match t with TCls c => match find_class c with Some (CData _ _) => valueb c | _ => false end | _ => false end.
Definition flat_cls (c : string) : bool :=
  forallb (fun f => simple_ty (f_ty f) || (negb (f_list f) && value_type (f_ty f))) (init_fields (fields_of c)).
Definition no_lists (c : string) : bool := forallb (fun f => negb (f_list f)) (init_fields (fields_of c)).
Definition lonely (c n : string) : bool := match find_field n (init_fields (fields_of c)) with Some f => simple_ty (f_ty f) && negb (f_list f) | None => false end.
Definition specialb (c : string) : bool :=
  (String.eqb c "StateVectorAccType" && flat_cls c && no_lists c && match find_field "epoch" (init_fields (fields_of c)) with Some f => negb (f_list f) && match f_ty f with TStr => true | _ => false end | None => false end) ||
  (String.eqb c "OemCovarianceMatrixType" && flat_cls c && lonely c "epoch" && lonely c "cov_ref_frame" && match find_field "comment" (init_fields (fields_of c)) with Some f => f_list f | None => false end) ||
  (String.eqb c "TrackingDataObservationType" && lonely c "epoch").
Definition cls_ok (c : string) : bool :=
  valueb c || (negb (mem_string "units" (attrs c)) && (specialb c || (negb (mem_string c special_output_data_classes) && forallb partb (init_fields (fields_of c))))).
Lemma parts_ok : forallb cls_ok parts = true. Proof. vm_compute. reflexivity. Qed.
Lemma parts_closed : forallb (fun c => forallb (fun f => forallb (fun d => mem_string d parts) (data_cls (f_ty f))) (init_fields (fields_of c))) parts = true.
Proof. vm_compute. reflexivity. Qed.
Lemma part_ok c : In c parts -> cls_ok c = true. Proof. apply forallb_forall. exact parts_ok. Qed.
Lemma part_closed c f d m fs : In c parts -> In f (init_fields (fields_of c)) -> f_ty f = TCls d -> find_class d = Some (CData m fs) -> In d parts.
Proof.
  intros Ic If Et Fd. pose proof parts_closed as P. rewrite forallb_forall in P. specialize (P c Ic). rewrite forallb_forall in P. specialize (P f If). rewrite Et in P. cbn [data_cls] in P. rewrite Fd in P.
  cbn [forallb] in P. rewrite andb_true_r in P. apply mem_string_in. exact P.
Qed.

(* ---- values that fit ---- *)
Lemma simple_scalar t x : simple_ty t = true -> conforms t x -> scalar x.
Proof. intros S C. destruct C as [| | | | | | |c m fs vars F M]; try exact I. cbn in S. rewrite F in S. discriminate S. Qed.
Lemma holds_scalar f x : simple_ty (f_ty f) = true -> f_list f = false -> holds f x -> scalar x.
Proof. intros S L H. destruct H as [f _|f v _ C|f l L' _]; [exact I|exact (simple_scalar _ _ S C)|congruence]. Qed.
Lemma holds_unit f x : enum_ty (f_ty f) = true -> f_list f = false -> holds f x -> unitary x.
Proof.
  intros S L H. destruct H as [f _|f v _ C|f l L' _]; [exact I| |congruence]. destruct C as [| | | | | | |c m fs vars F M]; try exact I; cbn in S; try discriminate S. rewrite F in S. discriminate S.
Qed.
Lemma each_member t l x : each t l -> In x l -> x = VNone \/ conforms t x.
Proof. intros E. induction E as [t|t l E IH|t v l C E IH]; intros I; [destruct I|destruct I as [<-|I]; auto|destruct I as [<-|I]; auto]. Qed.
Lemma object_of t x : simple_ty t = false -> conforms t x -> exists d m fs vars, t = TCls d /\ find_class d = Some (CData m fs) /\ x = VObj d vars.
Proof.
  intros S C. destruct C as [| | | | |c ms m v F H|c ms s F H|c m fs vars F M]; try discriminate S; try (cbn in S; rewrite F in S; discriminate S).
  all: try (eexists; eexists; eexists; eexists; split; [reflexivity|split; [exact F|reflexivity]]).
Qed.
Definition fits (fs : list field) (vars : list (string * pyval)) : Prop := Forall2 (fun f kv => fst kv = f_name f /\ holds f (snd kv)) fs vars.
Lemma fits_in fs vars n x : fits fs vars -> In (n, x) vars -> exists f, In f fs /\ f_name f = n /\ holds f x.
Proof.
  intros F I0. induction F as [|f [k y] fs vars [E H] F IH]; [destruct I0|]. cbn [fst snd] in *. destruct I0 as [I0|I0].
  - injection I0 as <- <-. exists f. split; [left; reflexivity|]. split; [congruence|exact H].
  - destruct (IH I0) as [g [Ig X]]. exists g. split; [right; exact Ig|exact X].
Qed.
Lemma fits_find fs vars n f : fits fs vars -> find_field n fs = Some f -> exists x, assoc n vars = Some x /\ holds f x.
Proof.
  unfold find_field. intros F. induction F as [|g [k y] fs vars [E H] F IH]; [discriminate|]. cbn [fst snd] in *. subst k. cbn [find assoc]. destruct (String.eqb (f_name g) n).
  - intros X. injection X as <-. exists y. auto.
  - exact IH.
Qed.
Lemma fits_names c vars : fits (init_fields (fields_of c)) vars -> map fst vars = attrs c.
Proof.
  unfold attrs, new_obj. cbn [vars_of]. rewrite map_map. cbn [fst]. generalize (init_fields (fields_of c)). intros fs F.
  induction F as [|g [k y] fs vars [E H] F IH]; [reflexivity|]. cbn [map fst] in *. congruence.
Qed.
Definition fine (c : string) (vars : list (string * pyval)) : Prop :=
  valued vars \/ (~ In "units" (map fst vars) /\ (special c vars \/ (mem_string c special_output_data_classes = false /\ forall m x, In (m, x) vars -> shaped m x))).
Lemma fine_shaped n c vars : kept n = true -> fine c vars -> shaped n (VObj c vars).
Proof. intros K [V|[N [S|[S A]]]]; [apply sh_value|apply sh_special|apply sh_object]; assumption. Qed.
Lemma valueb_valued v c vars : complete v -> inside (VObj c vars) v -> valueb c = true -> fits (init_fields (fields_of c)) vars -> valued vars.
Proof.
  intros Cm Iv H F. unfold valueb in H. apply orb_true_iff in H. destruct H as [H|H].
  - unfold pairb in H. destruct (init_fields (fields_of c)) as [|fv [|fu [|? ?]]]; try discriminate H. bools.
    inversion F as [|? [n1 x1] ? ? [E1 U1] F1]; subst. inversion F1 as [|? [n2 x2] ? ? [E2 U2] F2]; subst. inversion F2; subst. cbn [fst snd] in *. subst.
    exists x1, x2. split; [eapply holds_scalar; eassumption|]. split; [eapply holds_unit; eassumption|]. left. congruence.
  - unfold axisb in H. apply existsb_exists in H. destruct H as [[c0 p] [Ia H]]. cbn [fst snd] in H. apply andb_true_iff in H. destruct H as [Ec H]. apply String.eqb_eq in Ec. subst c0.
    destruct (init_fields (fields_of c)) as [|fv [|fp [|fu [|? ?]]]]; try discriminate H. bools.
    inversion F as [|? [n1 x1] ? ? [E1 U1] F1]; subst. inversion F1 as [|? [n2 x2] ? ? [E2 U2] F2]; subst. inversion F2 as [|? [n3 x3] ? ? [E3 U3] F3]; subst. inversion F3; subst. cbn [fst snd] in *.
    destruct Cm as [_ [_ [Ax _]]]. destruct (Ax c (f_name fp) _ x2 Ia Iv) as [e [m [s ->]]]; [right; left; congruence|].
    exists x1, x3. split; [eapply holds_scalar; eassumption|]. split; [eapply holds_unit; eassumption|]. right. exists (f_name fp), e, m, s. split; [congruence|].
    split; assumption.
Qed.
Lemma complete_inside v w : (forall x, inside x w -> inside x v) -> complete v -> complete w.
Proof.
  intros S [A [B [C D]]]. split; [intros l H; exact (A l (S _ H))|]. split; [intros l H; exact (B l (S _ H))|].
  split; [intros c n vars x H1 H2; exact (C c n vars x H1 (S _ H2))|intros l H; exact (D l (S _ H))].
Qed.
Lemma complete_attr c vars n x : complete (VObj c vars) -> In (n, x) vars -> complete x.
Proof. intros Cm H. eapply complete_inside; [|exact Cm]. intros y Hy. eapply inside_attr; eassumption. Qed.
Lemma complete_item l x : complete (VList l) -> In x l -> complete x.
Proof. intros Cm H. eapply complete_inside; [|exact Cm]. intros y Hy. eapply inside_item; eassumption. Qed.
Lemma flat_cls_flat c vars : complete (VObj c vars) -> flat_cls c = true -> fits (init_fields (fields_of c)) vars -> flat vars.
Proof.
  intros Cm H F n x I0. destruct (fits_in _ _ _ _ F I0) as [f [If [En Hx]]]. unfold flat_cls in H. rewrite forallb_forall in H. specialize (H f If). apply orb_true_iff in H. destruct H as [H|H].
  - destruct Hx as [f L|f y L C|f l L E]; [left; exact I|left; exact (simple_scalar _ _ H C)|]. right. right. exists l. split; [reflexivity|]. apply Forall_forall. intros y Hy.
    destruct (each_member _ _ _ E Hy) as [->|C]; [exact I|exact (simple_scalar _ _ H C)].
  - apply andb_true_iff in H. destruct H as [L V]. apply negb_true_iff in L. destruct Hx as [f _|f y _ C|f l L' E]; [left; exact I| |congruence].
    right. left. unfold value_type in V. destruct (f_ty f) as [| | |d] eqn:Et; try discriminate V. destruct (find_class d) as [[m fs|]|] eqn:Fd; try discriminate V.
    destruct (object_of (TCls d) y) as [d' [m' [fs' [vs [Ed [_ ->]]]]]]; [cbn; rewrite Fd; reflexivity|exact C|]. injection Ed as <-. exists d, vs. split; [reflexivity|].
    eapply valueb_valued; [|constructor|exact V|]; [|exact (proj2 (object_fields _ _ C _ _ eq_refl))]. eapply complete_attr; [exact Cm|exact I0].
Qed.
Lemma lonely_scalar c n vars : lonely c n = true -> fits (init_fields (fields_of c)) vars -> exists x, assoc n vars = Some x /\ scalar x.
Proof.
  unfold lonely. intros H F. destruct (find_field n _) as [f|] eqn:E; [|discriminate H]. bools. destruct (fits_find _ _ _ _ F E) as [x [A X]]. exists x. split; [exact A|]. eapply holds_scalar; eassumption.
Qed.
Lemma specialb_special c vars : complete (VObj c vars) -> specialb c = true -> fits (init_fields (fields_of c)) vars -> special c vars.
Proof.
  intros Cm H F. unfold specialb in H. apply orb_true_iff in H. destruct H as [H|H]; [apply orb_true_iff in H; destruct H as [H|H]|].
  - left. apply andb_true_iff in H. destruct H as [H E]. bools. subst c. split; [reflexivity|]. split; [eapply flat_cls_flat; eassumption|]. split.
    + intros n l I0. destruct (fits_in _ _ _ _ F I0) as [f [If [_ Hx]]]. unfold no_lists in *. rewrite forallb_forall in *. match goal with H : forall x, _ -> negb _ = true |- _ => specialize (H f If); apply negb_true_iff in H end.
      inversion Hx as [|? ? ? C|]; subst; [|congruence]. inversion C.
    + destruct (find_field "epoch" _) as [f|] eqn:Ef; [|discriminate E]. apply andb_true_iff in E. destruct E as [L E]. apply negb_true_iff in L. destruct (fits_find _ _ _ _ F Ef) as [x [A X]]. apply assoc_in in A.
      destruct Cm as [_ [_ [_ D]]]. destruct (D vars (inside_here _)) as [D1 D2]. exists "epoch", x. split; [exact A|]. destruct X as [f _|f y _ C|f l L' _]; [destruct (D1 A)| |congruence].
      destruct (f_ty f); try discriminate E. inversion C as [s| | | | | | |]; subst. destruct s; [destruct (D2 A)|reflexivity].
  - right. left. apply andb_true_iff in H. destruct H as [H E]. bools. subst c. split; [reflexivity|]. split; [eapply flat_cls_flat; eassumption|]. split; [|split; eapply lonely_scalar; eassumption].
    destruct (find_field "comment" _) as [f|] eqn:Ef; [|discriminate E]. destruct (fits_find _ _ _ _ F Ef) as [x [A X]]. destruct X as [f L|f y L C|f l _ _]; [congruence|congruence|]. exists l. exact A.
  - right. right. bools. subst c. split; [reflexivity|]. eapply lonely_scalar; eassumption.
Qed.
Lemma user_fits vars : complete (VObj "UserDefinedParameterType" vars) -> conforms (TCls "UserDefinedParameterType") (VObj "UserDefinedParameterType" vars) -> user_item (VObj "UserDefinedParameterType" vars).
Proof.
  intros Cm C. destruct (object_fields _ _ C _ _ eq_refl) as [_ F]. destruct Cm as [_ [B _]]. specialize (B vars (inside_here _)). clear C.
  let l := eval vm_compute in (init_fields (fields_of "UserDefinedParameterType")) in change (init_fields (fields_of "UserDefinedParameterType")) with l in F.
  inversion F as [|? [n1 x1] ? ? [E1 H1] F1]; subst. inversion F1 as [|? [n2 x2] ? ? [E2 H2] F2]; subst. inversion F2; subst. cbn [fst snd f_name] in *. subst.
  apply holds_scalar in H1; [|reflexivity|reflexivity]. inversion H2 as [|? ? ? C|]; subst; [exfalso; apply B; right; left; reflexivity| |discriminate]. cbn [f_ty] in C. inversion C; subst. do 3 eexists. split; [reflexivity|exact H1].
Qed.

(* ---- objects ---- *)
Definition good (v : pyval) : Prop := forall c vars, v = VObj c vars -> In c parts -> conforms (TCls c) v -> complete v -> fine c vars.
Definition items_good (v : pyval) : Prop := match v with VList l => Forall good l | _ => True end.
Lemma all_good v : good v /\ items_good v.
Proof.
  induction v as [|s|z|d|c0 m s|c0 vars0 F|l F] using pyval_ind'; (split; [|first [exact Logic.I|idtac]]).
  1-5,7: intros c vars E; discriminate E.
  2: eapply Forall_impl; [|exact F]; intros a [X _]; exact X.
  intros c vars E Ic C Cm. injection E as -> ->. rewrite Forall_forall in F. destruct (object_fields _ _ C _ _ eq_refl) as [_ Ft]. change (fits (init_fields (fields_of c)) vars) in Ft.
  pose proof (part_ok c Ic) as K. unfold cls_ok in K. apply orb_true_iff in K. destruct K as [K|K]; [left; eapply valueb_valued; [exact Cm|constructor|exact K|exact Ft]|].
  right. apply andb_true_iff in K. destruct K as [Ku K]. apply negb_true_iff in Ku. split; [rewrite (fits_names _ _ Ft); rewrite <- mem_string_in, Ku; discriminate|].
  apply orb_true_iff in K. destruct K as [K|K]; [left; eapply specialb_special; eassumption|right]. apply andb_true_iff in K. destruct K as [Ks Kf]. apply negb_true_iff in Ks. split; [exact Ks|].
  intros n x I0. destruct (fits_in _ _ _ _ Ft I0) as [f [If [<- Hx]]]. rewrite forallb_forall in Kf. specialize (Kf f If). unfold partb in Kf. destruct (F (f_name f, x) I0) as [Gx Lx]. cbn [snd] in *.
  pose proof (complete_attr _ _ _ _ Cm I0) as Cx. clear Ft Cm F. pose proof (fun d m fs => part_closed c f d m fs Ic If) as Pc. destruct Hx as [f L|f x L Hc|f l L E].
  - rewrite L in Kf. apply sh_scalar; [exact Kf|exact I].
  - rewrite L in Kf. destruct (simple_ty (f_ty f)) eqn:Es; [apply sh_scalar; [exact Kf|exact (simple_scalar _ _ Es Hc)]|].
    destruct (object_of _ _ Es Hc) as [d [m [fs [vs [Et [Fd ->]]]]]]. rewrite Et in Hc. apply fine_shaped; [exact Kf|]. apply (Gx d vs eq_refl); [exact (Pc _ _ _ Et Fd)|exact Hc|exact Cx].
  - rewrite L in Kf. cbn [items_good] in Lx. rewrite Forall_forall in Lx. apply orb_true_iff in Kf. destruct Kf as [Kf|Kf]; [apply orb_true_iff in Kf; destruct Kf as [Kf|Kf]|].
    + bools. match goal with H : f_name f = _ |- _ => rewrite H end. apply sh_comments, Forall_forall. intros y Hy. destruct (each_member _ _ _ E Hy) as [->|Cy]; [exact I|eapply simple_scalar; eassumption].
    + apply andb_true_iff in Kf. destruct Kf as [Kn Ku']. apply String.eqb_eq in Kn. rewrite Kn. apply sh_users, Forall_forall. intros y Hy.
      destruct (each_member _ _ _ E Hy) as [->|Cy]; [destruct Cx as [A _]; destruct (A l (inside_here _) Hy)|]. unfold user_par in Ku'. destruct (f_ty f) as [| | |d]; try discriminate Ku'. apply String.eqb_eq in Ku'. subst d.
      destruct (object_of (TCls "UserDefinedParameterType") y) as [d [m [fs [vs [Ed [_ ->]]]]]]; [vm_compute; reflexivity|exact Cy|]. injection Ed as <-. apply user_fits; [exact (complete_item _ _ Cx Hy)|exact Cy].
    + apply andb_true_iff in Kf. destruct Kf as [Kf Kb]. apply andb_true_iff in Kf. destruct Kf as [Kn Es]. apply negb_true_iff in Es. apply sh_list; [exact Kn|]. intros y Hy.
      destruct (each_member _ _ _ E Hy) as [->|Cy]; [destruct Cx as [A _]; destruct (A l (inside_here _) Hy)|]. destruct (object_of _ _ Es Cy) as [d [m [fs [vs [Et [Fd ->]]]]]]. rewrite Et in Cy, Kb. cbn [bare_ty] in Kb.
      split; [apply fine_shaped; [exact Kn|]; apply (Lx _ Hy d vs eq_refl); [exact (Pc _ _ _ Et Fd)|exact Cy|exact (complete_item _ _ Cx Hy)]|].
      exists d, vs. split; [reflexivity|]. destruct (object_fields _ _ Cy _ _ eq_refl) as [_ Fy]. change (fits (init_fields (fields_of d)) vs) in Fy. rewrite (fits_names _ _ Fy). intros X. apply mem_string_in in X. rewrite X in Kb. discriminate Kb.
Qed.
