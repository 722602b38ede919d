(* C70: a complete message that fits the schema can be written as KVN. *)
From Coq Require Import NArith ZArith List Bool String Arith Lia.
From Verif Require Import PyStr PyDec PyVal Schema KvnPre KvnTree KvnSeg XmlBind KvnBuild NdmXml KvnWrite NdmIo Spec SpecNum SpecIo SpecBack SpecSchema SpecCross SpecSend
     DecFacts StrFacts PreFacts SegFacts BuildFacts WriteFacts ErrFacts BackFacts BackRead BackErrs ConformFacts AgainFacts SendFacts SendAem CheckEph PropSeg PropBack PropSchema PropCross Demo.
Import ListNotations.
Local Open Scope string_scope.
Local Open Scope list_scope.
Local Arguments find_class : simpl never.
Local Arguments lit : simpl never.

Lemma send_shape u c vars : In c writable_roots -> conforms (TCls c) (VObj c vars) -> complete (VObj c vars) ->
  (forall m x, In (m, x) vars -> shaped m x) /\
  exists first, kvn_to_string u (VObj c vars) = do o <- collate_vars (collate_sub u) vars [first]; Ok (join [c_nl] o).
Proof.
  intros Ic C Cm. destruct (object_fields _ _ C _ _ eq_refl) as [_ F]. apply fits_names in F. rename F into Nm.
  destruct (root_named c Ic) as [[mn [Mn En]] [_ [Sp [Un [ids [ver Hg]]]]]]. destruct (Hg vars Nm) as [G1 [G2 [s G3]]].
  split; [|exists (fill_kvn u ids s []); unfold kvn_to_string; rewrite Mn; cbn [guard_opt bind]; rewrite En; cbn [bind]; rewrite G1, G2; cbn [bind]; rewrite G3; reflexivity].
  assert (Ip : In c parts) by (apply mem_string_in; clear - Ic; unfold writable_roots in Ic; cbn [In] in Ic; repeat (destruct Ic as [<-|Ic]; [vm_compute; reflexivity|]); destruct Ic).
  destruct (proj1 (all_good (VObj c vars)) c vars eq_refl Ip C Cm) as [V|[_ [S|[_ A]]]]; [| |exact A]; exfalso.
  - assert (X : In "units" (map fst vars)) by (destruct V as [x [un [_ [_ [->|[p [a [m [z [-> _]]]]]]]]]]; cbn; auto). rewrite Nm in X. apply mem_string_in in X. congruence.
  - destruct S as [[-> _]|[[-> _]|[-> _]]]; discriminate Sp.
Qed.
(* Any message object, wherever it comes from: a parsed XML document, or a program that filled in the classes. *)
Theorem C70_written : forall u c vars, In c root_classes -> let v := VObj c vars in conforms (TCls c) v -> complete v -> ~ odd_unit v -> ~ no_number v -> (c = "Aem" -> attitude_ready v) ->
  exists t, kvn_to_string u v = Ok t.
Proof.
  intros u c vars Ic v C Cm O N Rd. destruct (string_dec c "Aem") as [->|Na]; [exact (aem_ok u vars C Cm (conj O N) (Rd eq_refl))|].
  assert (Iw : In c writable_roots) by (clear - Ic Na; unfold root_classes in Ic; cbn [In] in Ic; repeat (destruct Ic as [<-|Ic]; [first [congruence|vm_compute; tauto]|]); destruct Ic).
  destruct (send_shape u c vars Iw C Cm) as [A [first E]]. unfold v. rewrite E.
  destruct (vars_total (collate_sub u) vars) with (out := [first]) as [o ->]; [|eexists; reflexivity].
  intros n x out I. apply all_written; [exact (A n x I)|exact (well_attr _ _ _ _ (conj O N) I)].
Qed.
Print Assumptions C70_written.
Theorem C70_raises : forall u c vars e, In c writable_roots -> let v := VObj c vars in conforms (TCls c) v -> complete v -> kvn_to_string u v = Err e ->
  (e = AttributeError /\ odd_unit v) \/ (e = IndexError /\ no_number v).
Proof.
  intros u c vars e Ic v C Cm. destruct (send_shape u c vars Ic C Cm) as [A [first E]]. unfold v. rewrite E. revert e.
  change (fair (VObj c vars) (do o <- collate_vars (collate_sub u) vars [first]; Ok (join [c_nl] o))).
  apply fair_bind; [|intros; apply fair_ok; eexists; reflexivity]. apply vars_fair. intros n x out I.
  eapply fair_up; [|apply all_fair; exact (A n x I)]. intros y Hy. eapply inside_attr; [exact I|exact Hy].
Qed.
Print Assumptions C70_raises.
(* A message read from text of any format. *)
Theorem C70_from_any : forall u et_root xs_parse xs_render src c vars cfg, empty_read u -> parser_fits xs_parse -> let v := VObj c vars in
  io_from_string u et_root xs_parse src = Ok v -> c <> "Ndm" -> complete v -> ~ odd_unit v -> ~ no_number v -> (c = "Aem" -> attitude_ready v) ->
  exists t, io_to_string u xs_render v FKvn cfg = Ok (Some t).
Proof.
  intros u et xp xr src c vars cfg Em Pf v R Nn Cm O N Rd. destruct (io_fits u et xp src v c vars Em Pf R eq_refl Nn) as [Ic C].
  destruct (C70_written u c vars Ic C Cm O N Rd) as [t T]. exists t. unfold io_to_string, v. rewrite T. reflexivity.
Qed.
Print Assumptions C70_from_any.

(* ---- checking concrete messages ---- *)
Fixpoint strs_eqb (a b : list str) : bool := match a, b with [], [] => true | x :: a, y :: b => str_eqb x y && strs_eqb a b | _, _ => false end.
Lemma strs_eqb_refl a : strs_eqb a a = true. Proof. induction a as [|x a IH]; [reflexivity|]. cbn. rewrite str_eqb_refl. exact IH. Qed.
Section Fields.
Variable g : ftype -> pyval -> bool.
Definition holdb (f : field) (x : pyval) : bool :=
  if f_list f then match x with VList l => forallb (fun y => match y with VNone => true | _ => g (f_ty f) y end) l | _ => false end
  else match x with VNone => true | _ => g (f_ty f) x end.
Fixpoint fieldsb (fs : list field) (vars : list (string * pyval)) : bool :=
  match fs with
  | [] => match vars with [] => true | _ => false end
  | f :: fs => match f_fixed f with
               | Some _ => fieldsb fs vars
               | None => match vars with (n, x) :: vars => String.eqb n (f_name f) && holdb f x && fieldsb fs vars | [] => false end
               end
  end.
Hypothesis sound : forall t v, g t v = true -> conforms t v.
Lemma holdb_spec f x : holdb f x = true -> holds f x.
Proof.
  unfold holdb. intros H. destruct (f_list f) eqn:L.
  - destruct x as [| | | | | |l]; try discriminate H. apply ho_list; [exact L|]. clear L. induction l as [|y l IH]; [constructor|]. cbn [forallb] in H. apply andb_true_iff in H. destruct H as [H1 H2].
    destruct y; try (apply ea_none; auto); apply ea_cons; auto.
  - destruct x; try (apply ho_none; exact L); apply ho_one; auto.
Qed.
Lemma fieldsb_spec fs : forall vars, fieldsb fs vars = true -> members fs vars.
Proof.
  induction fs as [|f fs IH]; intros vars H; cbn [fieldsb] in H; [destruct vars; [constructor|discriminate H]|]. destruct (f_fixed f) eqn:X; [apply me_fixed; [congruence|auto]|].
  destruct vars as [|[n x] vars]; [discriminate H|]. apply andb_true_iff in H. destruct H as [H H2]. apply andb_true_iff in H. destruct H as [H0 H1]. apply String.eqb_eq in H0. subst n.
  apply me_var; [exact X|apply holdb_spec; exact H1|auto].
Qed.
End Fields.
Fixpoint fitb (k : nat) (t : ftype) (v : pyval) : bool :=
  match k with
  | O => false
  | S k =>
    match t, v with
    | TStr, VStr _ => true
    | TInt, VInt _ => true
    | TInt, VStr s => match py_int demo_env s with None => true | _ => false end
    | TDec, VDec d => canonicalb d
    | TDec, VStr s => match py_decimal demo_env s with None => true | _ => false end
    | TCls c, VEnum c' m s => String.eqb c c' && match find_class c with Some (CEnum ms) => existsb (fun mv => String.eqb (fst mv) m && str_eqb (lit (snd mv)) s) ms | _ => false end
    | TCls c, VStr s => match find_class c with Some (CEnum ms) => forallb (fun mv => negb (strs_eqb (split_ws (lit (snd mv))) (split_ws s))) ms | _ => false end
    | TCls c, VObj c' vars => String.eqb c c' && match find_class c with Some (CData _ fs) => fieldsb (fitb k) fs vars | _ => false end
    | _, _ => false
    end
  end.
Lemma fitb_spec k : forall t v, fitb k t v = true -> conforms t v.
Proof.
  induction k as [|k IH]; intros t v H; [discriminate H|]. cbn [fitb] in H. destruct t as [| | |c], v as [|s|z|d|c' m s|c' vars|l]; try discriminate H; try (constructor; fail).
  - apply co_no_int. destruct (py_int demo_env s) eqn:E; [discriminate H|]. exact (whole_none _ _ E).
  - apply co_no_dec. destruct (py_decimal demo_env s) eqn:E; [discriminate H|]. exact (decimal_none _ _ E).
  - apply co_dec. unfold canonicalb in H. unfold canonical. destruct d as [| |? ? [[|p]|]]; try exact I. discriminate H.
  - destruct (find_class c) as [[|ms]|] eqn:F; try discriminate H. apply (co_no_enum c ms); [exact F|]. intros m v Im E. rewrite forallb_forall in H. specialize (H _ Im). cbn [snd] in H. rewrite E, strs_eqb_refl in H. discriminate H.
  - apply andb_true_iff in H. destruct H as [Ec H]. apply String.eqb_eq in Ec. subst c'. destruct (find_class c) as [[|ms]|] eqn:F; try discriminate H. apply existsb_exists in H. destruct H as [[m' v] [Im H]]. cbn [fst snd] in H.
    apply andb_true_iff in H. destruct H as [H1 H2]. apply String.eqb_eq in H1. apply str_eqb_eq in H2. subst. exact (co_enum c ms m v F Im).
  - apply andb_true_iff in H. destruct H as [Ec H]. apply String.eqb_eq in Ec. subst c'. destruct (find_class c) as [[m fs|]|] eqn:F; try discriminate H. apply (co_object c m fs); [exact F|]. exact (fieldsb_spec _ IH fs vars H).
Qed.
Fixpoint pieces (v : pyval) : list pyval :=
  v :: match v with VObj _ vars => flat_map (fun kv => pieces (snd kv)) vars | VList l => flat_map pieces l | _ => [] end.
Lemma pieces_spec x v : inside x v -> In x (pieces v).
Proof.
  intros H. induction H as [|c n y vars J H IH|y l J H IH]; [destruct x; left; reflexivity| |]; cbn [pieces]; right; apply in_flat_map; [exists (n, y)|exists y]; auto.
Qed.
Definition pieceb (x : pyval) : bool :=
  match x with
  | VList l => forallb (fun y => match y with VNone => false | _ => true end) l
  | VObj c vars => forallb (fun nx =>
      negb (String.eqb c "UserDefinedParameterType" && String.eqb (fst nx) "parameter" && match snd nx with VNone => true | _ => false end) &&
      negb (existsb (fun cn => String.eqb (fst cn) c && String.eqb (snd cn) (fst nx)) axis_of && match snd nx with VEnum _ _ _ => false | _ => true end) &&
      negb (String.eqb c "StateVectorAccType" && String.eqb (fst nx) "epoch" && match snd nx with VNone | VStr [] => true | _ => false end)) vars
  | _ => true
  end.
Definition completeb (v : pyval) : bool := forallb pieceb (pieces v).
Lemma completeb_spec v : completeb v = true -> complete v.
Proof.
  unfold completeb. intros H. rewrite forallb_forall in H.
  assert (P : forall x, inside x v -> pieceb x = true) by (intros x Hx; apply H, pieces_spec, Hx). clear H. split; [|split; [|split]].
  - intros l Hl I0. specialize (P _ Hl). cbn in P. rewrite forallb_forall in P. discriminate (P _ I0).
  - intros vars Hl I0. specialize (P _ Hl). cbn [pieceb] in P. rewrite forallb_forall in P. specialize (P _ I0). discriminate P.
  - intros c n vars x Ia Hl I0. specialize (P _ Hl). cbn [pieceb] in P. rewrite forallb_forall in P. specialize (P _ I0). cbn [fst snd] in P. apply andb_true_iff in P. destruct P as [P _]. apply andb_true_iff in P. destruct P as [_ P].
    assert (X : existsb (fun cn => String.eqb (fst cn) c && String.eqb (snd cn) n) axis_of = true) by (apply existsb_exists; exists (c, n); split; [exact Ia|cbn; rewrite !String.eqb_refl; reflexivity]).
    rewrite X in P. destruct x; try discriminate P. eauto.
  - intros vars Hl. specialize (P _ Hl). cbn [pieceb] in P. rewrite forallb_forall in P. split; intros I0; specialize (P _ I0); discriminate P.
Qed.

(* ---- cases ---- *)
Definition fill (c : string) (vs : list (string * pyval)) : pyval := VObj c (fold_left (fun vars nv => set_var (fst nv) (snd nv) vars) vs (vars_of (new_obj c))).
Definition an_angle (axis : pyval) : pyval := VObj "RotationAngleComponentType" [("value", VDec (DFin false 15 (-1))); ("angle", axis); ("units", VNone)].
Definition apm_of (axis : pyval) : pyval :=
  fill "Apm" [("body", fill "ApmBody" [("segment", fill "ApmSegment" [("data", fill "ApmData" [("comment", VList [VStr (lit "no metadata")]);
    ("euler_elements_three", fill "EulerElementsThreeType" [("rotation_angles", fill "RotationAngleType" [("rotation1", an_angle axis)])])])])])].
Definition oem_of (states : list pyval) : pyval :=
  fill "Oem" [("body", fill "OemBody" [("segment", VList [fill "OemSegment" [("data", fill "OemData" [("state_vector", VList states)])]])])].
Definition omm_of (name : pyval) : pyval :=
  fill "Omm" [("body", fill "OmmBody" [("segment", fill "OmmSegment" [("data", fill "OmmData" [("user_defined_parameters",
    fill "UserDefinedType" [("user_defined", VList [VObj "UserDefinedParameterType" [("value", VStr (lit "x")); ("parameter", name)]])])])])])].
Definition x_axis : pyval := VEnum "AngleKeywordType" "X_ANGLE" (lit "X_ANGLE").
Definition a_state : pyval := fill "StateVectorAccType" [("epoch", VStr (lit "2021-01-01")); ("x", fill "PositionType" [("value", VDec (DFin false 7000 0))])].
Definition a_quaternion : pyval := VObj "QuaternionType" [("qc", VDec (DFin false 1 0)); ("q1", VDec (DFin false 0 0)); ("q2", VDec (DFin false 0 0)); ("q3", VDec (DFin true 5 (-1)))].
Definition a_record (n c : string) (more : list (string * pyval)) : pyval := fill "AttitudeStateType" [(n, fill c ([("epoch", VStr (lit "2021-01-01")); ("quaternion", a_quaternion)] ++ more))].
Definition aem_of (order : pyval) (records : list pyval) : pyval :=
  fill "Aem" [("body", fill "AemBody" [("segment", VList [fill "AemSegment" [("metadata", fill "AemMetadata" [("quaternion_type", order)]); ("data", fill "AemData" [("attitude_state", VList records)])]])])].
Definition last_order : pyval := VEnum "QuaternionTypeType" "LAST_1" (lit "LAST").
Definition an_attitude : pyval := a_record "quaternion_state" "QuaternionEphemerisType" [].
Definition a_derivative : pyval := a_record "quaternion_derivative" "QuaternionDerivativeType" [("quaternion_rate",
  VObj "QuaternionRateType" (map (fun n => (n, VObj "QuaternionDotType" [("value", VDec (DFin false 1 0)); ("units", VNone)])) (map fst (vars_of (new_obj "QuaternionRateType")))))].
Fixpoint unset_ok (v : pyval) : bool :=
  match v with VObj _ vars => forallb (fun nx => match snd nx with VNone => String.eqb (fst nx) "units" | _ => true end) vars && forallb (fun nx => unset_ok (snd nx)) vars | VList l => forallb unset_ok l | _ => true end.
Lemma unset_spec v : unset_ok v = true -> filled v.
Proof.
  intros H c vars n Iv I0. induction Iv as [|c1 m y vs J Iv IH|y l J Iv IH]; cbn [unset_ok] in H.
  - apply andb_true_iff in H. destruct H as [H _]. rewrite forallb_forall in H. specialize (H _ I0). cbn in H. apply String.eqb_eq in H. exact H.
  - apply IH. apply andb_true_iff in H. destruct H as [_ H]. rewrite forallb_forall in H. exact (H _ J).
  - apply IH. rewrite forallb_forall in H. exact (H _ J).
Qed.
Lemma aem_ready : attitude_ready (aem_of last_order [an_attitude]).
Proof.
  split.
  - intros vars Hv. apply pieces_spec in Hv. vm_compute in Hv. repeat (destruct Hv as [Hv|Hv]; [try discriminate Hv|]); [|destruct Hv]. injection Hv as <-. split.
    + eexists. eexists. split; [left; reflexivity|discriminate].
    + intros n c avars I0. cbn [In] in I0. repeat (destruct I0 as [I0|I0]; [try discriminate I0|]); [|destruct I0]. injection I0 as <- <- <-. split; [discriminate|]. apply unset_spec. vm_compute. reflexivity.
  - intros svars rvars Hv _ _. apply pieces_spec in Hv. vm_compute in Hv. repeat (destruct Hv as [Hv|Hv]; [try discriminate Hv|]); [|destruct Hv]. injection Hv as <-.
    do 4 eexists. split; [left; reflexivity|]. cbn. repeat first [left; reflexivity|right].
Qed.
(* messages with no header and little metadata, which no KVN document gives *)
Definition sparse : list (string * pyval) := [("Apm", apm_of x_axis); ("Oem", oem_of [a_state]); ("Omm", omm_of (VStr (lit "NAME"))); ("Aem", aem_of last_order [an_attitude])].
Definition meets (cv : string * pyval) : Prop := In (fst cv) root_classes /\ conforms (TCls (fst cv)) (snd cv) /\ complete (snd cv) /\ ~ odd_unit (snd cv) /\ ~ no_number (snd cv) /\
  (fst cv = "Aem" -> attitude_ready (snd cv)) /\ exists vars, snd cv = VObj (fst cv) vars.
Example C70_example : Forall meets sparse.
Proof.
  assert (Q : forall c vars, In c root_classes -> fitb 20 (TCls c) (VObj c vars) = true -> completeb (VObj c vars) = true -> oddb (VObj c vars) = false -> bareb (VObj c vars) = false -> (c = "Aem" -> attitude_ready (VObj c vars)) ->
    meets (c, VObj c vars)).
  { intros c vars H0 H1 H2 H3 H4 H5. unfold meets. cbn [fst snd]. split; [exact H0|]. split; [exact (fitb_spec _ _ _ H1)|]. split; [exact (completeb_spec _ H2)|]. split; [exact (oddb_spec _ H3)|]. split; [exact (bareb_spec _ H4)|].
    split; [exact H5|]. eexists. reflexivity. }
  unfold sparse. apply Forall_cons; [|apply Forall_cons; [|apply Forall_cons; [|apply Forall_cons; [|apply Forall_nil]]]]; apply Q;
    first [vm_compute; tauto|vm_compute; reflexivity|intros X; discriminate X|intros _; exact aem_ready].
Qed.
(* The four conditions of a complete message are needed: each is refuted to be superfluous. *)
Lemma gap_free v : forallb (fun x => match x with VList l => forallb (fun y => match y with VNone => false | _ => true end) l | _ => true end) (pieces v) = true -> no_gaps v.
Proof. intros H l Hl I0. rewrite forallb_forall in H. specialize (H _ (pieces_spec _ _ Hl)). cbn in H. rewrite forallb_forall in H. discriminate (H _ I0). Qed.
Lemma absent c v : forallb (fun x => match x with VObj c' _ => negb (String.eqb c' c) | _ => true end) (pieces v) = true -> forall vars, ~ inside (VObj c vars) v.
Proof. intros H vars Hv. rewrite forallb_forall in H. specialize (H _ (pieces_spec _ _ Hv)). cbn in H. rewrite String.eqb_refl in H. discriminate H. Qed.
Lemma no_users v : forallb (fun x => match x with VObj c' _ => negb (String.eqb c' "UserDefinedParameterType") | _ => true end) (pieces v) = true -> named_parameters v.
Proof. intros H vars Hv. destruct (absent _ _ H _ Hv). Qed.
Lemma no_states v : forallb (fun x => match x with VObj c' _ => negb (String.eqb c' "StateVectorAccType") | _ => true end) (pieces v) = true -> dated_states v.
Proof. intros H vars Hv. destruct (absent _ _ H _ Hv). Qed.
Lemma no_axes v : forallb (fun cn => forallb (fun x => match x with VObj c' _ => negb (String.eqb c' (fst cn)) | _ => true end) (pieces v)) axis_of = true -> named_axes v.
Proof. intros H c n vars x Ia Hv. rewrite forallb_forall in H. specialize (H _ Ia). destruct (absent _ _ H _ Hv). Qed.
Definition always (p : pyval -> Prop) : Prop := forall u c vars, In c writable_roots -> let v := VObj c vars in conforms (TCls c) v -> p v -> ~ odd_unit v -> ~ no_number v ->
  exists t, kvn_to_string u v = Ok t.
Lemma stopped (p : pyval -> Prop) c vars e : In c writable_roots -> fitb 20 (TCls c) (VObj c vars) = true -> p (VObj c vars) -> oddb (VObj c vars) = false -> bareb (VObj c vars) = false ->
  kvn_to_string demo_env (VObj c vars) = Err e -> ~ always p.
Proof. intros H0 H1 H2 H3 H4 H5 A. destruct (A demo_env c vars H0 (fitb_spec _ _ _ H1) H2 (oddb_spec _ H3) (bareb_spec _ H4)) as [t T]. congruence. Qed.
(* So are those on attitude records: one that gives derivatives cannot be written, nor one in a segment that does not say the
   order of quaternions. *)
Example C70_attitude_needed :
  conforms (TCls "Aem") (aem_of last_order [a_derivative]) /\ complete (aem_of last_order [a_derivative]) /\ kvn_to_string demo_env (aem_of last_order [a_derivative]) = Err KeyError /\
  conforms (TCls "Aem") (aem_of VNone [an_attitude]) /\ complete (aem_of VNone [an_attitude]) /\ kvn_to_string demo_env (aem_of VNone [an_attitude]) = Err StopIter.
Proof.
  split; [apply (fitb_spec 20); vm_compute; reflexivity|]. split; [apply completeb_spec; vm_compute; reflexivity|]. split; [vm_compute; reflexivity|].
  split; [apply (fitb_spec 20); vm_compute; reflexivity|]. split; [apply completeb_spec; vm_compute; reflexivity|vm_compute; reflexivity].
Qed.
Theorem C70_gaps_refuted : ~ always (fun v => named_parameters v /\ named_axes v /\ dated_states v).
Proof.
  apply (stopped _ "Oem" (vars_of (oem_of [a_state; VNone])) TypeError); [vm_compute; tauto|vm_compute; reflexivity| |vm_compute; reflexivity|vm_compute; reflexivity|vm_compute; reflexivity].
  split; [apply no_users; vm_compute; reflexivity|]. split; [apply no_axes; vm_compute; reflexivity|].
  intros vars Hv. apply pieces_spec in Hv.
  vm_compute in Hv. repeat (destruct Hv as [Hv|Hv]; [first [discriminate Hv|injection Hv as <-; split; cbn; intuition discriminate]|]). destruct Hv.
Qed.
Theorem C70_parameters_refuted : ~ always (fun v => no_gaps v /\ named_axes v /\ dated_states v).
Proof.
  apply (stopped _ "Omm" (vars_of (omm_of VNone)) TypeError); [vm_compute; tauto|vm_compute; reflexivity| |vm_compute; reflexivity|vm_compute; reflexivity|vm_compute; reflexivity].
  split; [apply gap_free; vm_compute; reflexivity|]. split; [apply no_axes; vm_compute; reflexivity|apply no_states; vm_compute; reflexivity].
Qed.
Theorem C70_axes_refuted : ~ always (fun v => no_gaps v /\ named_parameters v /\ dated_states v).
Proof.
  apply (stopped _ "Apm" (vars_of (apm_of VNone)) AttributeError); [vm_compute; tauto|vm_compute; reflexivity| |vm_compute; reflexivity|vm_compute; reflexivity|vm_compute; reflexivity].
  split; [apply gap_free; vm_compute; reflexivity|]. split; [apply no_users; vm_compute; reflexivity|apply no_states; vm_compute; reflexivity].
Qed.
Theorem C70_states_refuted : ~ always (fun v => no_gaps v /\ named_parameters v /\ named_axes v).
Proof.
  apply (stopped _ "Oem" (vars_of (oem_of [new_obj "StateVectorAccType"])) IndexError); [vm_compute; tauto|vm_compute; reflexivity| |vm_compute; reflexivity|vm_compute; reflexivity|vm_compute; reflexivity].
  split; [apply gap_free; vm_compute; reflexivity|]. split; [apply no_users; vm_compute; reflexivity|apply no_axes; vm_compute; reflexivity].
Qed.
(* an XML document that is read and can be written *)
Example C70_from_any_example : parser_fits demo_parse /\ exists vars, let v := VObj "Omm" vars in
  io_from_string demo_env (fun _ => Some (lit "ndm")) demo_parse xml_source = Ok v /\ complete v /\ ~ odd_unit v /\ ~ no_number v.
Proof.
  split; [exact demo_parse_fits|]. eexists. cbn zeta. split; [vm_compute; reflexivity|]. split; [apply completeb_spec; vm_compute; reflexivity|]. split; [apply oddb_spec; vm_compute; reflexivity|apply bareb_spec; vm_compute; reflexivity].
Qed.
(* a message with an odd unit fits, is complete, and cannot be written *)
Example C70_raises_example : exists vars, let v := VObj "Opm" vars in conforms (TCls "Opm") v /\ complete v /\ kvn_to_string demo_env v = Err AttributeError.
Proof.
  exists (vars_of (fill "Opm" [("body", fill "OpmBody" [("segment", fill "OpmSegment" [("data", fill "OpmData" [("state_vector", fill "StateVectorType" [("x",
    VObj "PositionType" [("value", VDec (DFin false 7000 0)); ("units", VStr (lit "miles"))])])])])])])).
  cbn zeta. split; [apply (fitb_spec 20); vm_compute; reflexivity|]. split; [apply completeb_spec; vm_compute; reflexivity|vm_compute; reflexivity].
Qed.
