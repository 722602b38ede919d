(* Attitude messages that fit the schema and are ready are written. *)
From Coq Require Import NArith ZArith List Bool String Arith Lia.
From Verif Require Import PyStr PyDec PyVal Schema KvnPre KvnTree KvnSeg XmlBind KvnBuild NdmXml KvnWrite
     SpecBack SpecSchema SpecSend StrFacts SegFacts WriteFacts ErrFacts BackFacts BackRead AgainFacts SendFacts.
Import ListNotations.
Local Open Scope string_scope.
Local Open Scope list_scope.
Local Arguments find_class : simpl never.
Local Arguments lit : simpl never.

Definition attitudes : list string := ["QuaternionEphemerisType"; "QuaternionDerivativeType"; "QuaternionEulerRateType"; "EulerAngleType"; "EulerAngleRateType"; "SpinType"; "SpinNutationType"].
Definition rot_field (f : field) : bool := negb (f_list f) && negb (String.eqb (f_name f) "units") &&
  (if String.eqb (f_name f) "epoch" then match f_ty f with TStr => true | _ => false end
   else match f_ty f with TCls d => negb (simple_ty (TCls d)) && flat_cls d && no_lists d | _ => false end).
Definition rot_cls (c : string) : bool := forallb rot_field (init_fields (fields_of c)) && lonely c "epoch" && negb (match init_fields (fields_of c) with [] => true | _ => false end).
Lemma rot_all : forallb rot_cls attitudes = true. Proof. vm_compute. reflexivity. Qed.
Lemma record_fields : forallb (fun f => negb (f_list f) && match f_ty f with TCls d => negb (simple_ty (TCls d)) && mem_string d attitudes | _ => false end) (init_fields (fields_of "AttitudeStateType")) = true.
Proof. vm_compute. reflexivity. Qed.

Definition plain_value (x : pyval) : Prop := scalar x \/ exists c vs, x = VObj c vs /\ valued vs.
Lemma plain_str x : plain_value x -> exists s, py_str (value_or_self x) = Ok s.
Proof.
  intros [S|[c [vs [-> V]]]].
  - unfold value_or_self. destruct x; try destruct S; try (eexists; reflexivity).
  - destruct (valued_get c vs V) as [y [E S]]. unfold value_or_self. rewrite E. apply scalar_str. exact S.
Qed.
Lemma flat_plain vars n x : flat vars -> (forall n l, ~ In (n, VList l) vars) -> In (n, x) vars -> plain_value x.
Proof. intros F N I0. destruct (F n x I0) as [S|[V|[l [-> _]]]]; [left; exact S|right; exact V|destruct (N n l I0)]. Qed.
Lemma no_lists_none c vars : no_lists c = true -> fits (init_fields (fields_of c)) vars -> forall n l, ~ In (n, VList l) vars.
Proof.
  intros H F n l I0. destruct (fits_in _ _ _ _ F I0) as [f [If [_ Hx]]]. unfold no_lists in H. rewrite forallb_forall in H. specialize (H f If). apply negb_true_iff in H.
  inversion Hx as [|? ? ? C|]; subst; [|congruence]. inversion C.
Qed.
Lemma rot_object c n x avars : rot_cls c = true -> fits (init_fields (fields_of c)) avars -> complete (VObj c avars) -> filled (VObj c avars) -> In (n, x) avars -> n <> "epoch" ->
  exists d vs, x = VObj d vs /\ fits (init_fields (fields_of d)) vs /\ forall m y, In (m, y) vs -> plain_value y.
Proof.
  intros R F Cm Fi I0 Ne. destruct (fits_in _ _ _ _ F I0) as [f [If [En Hx]]]. unfold rot_cls in R. apply andb_true_iff in R. destruct R as [R _]. apply andb_true_iff in R. destruct R as [R _].
  rewrite forallb_forall in R. specialize (R f If). unfold rot_field in R. apply andb_true_iff in R. destruct R as [L R]. apply andb_true_iff in L. destruct L as [L Nu]. apply negb_true_iff in L, Nu. rewrite En in R, Nu. apply String.eqb_neq in Ne. rewrite Ne in R.
  destruct (f_ty f) as [| | |d] eqn:Et; try discriminate R. apply andb_true_iff in R. destruct R as [R Nl]. apply andb_true_iff in R. destruct R as [Sm Fl]. apply negb_true_iff in Sm.
  destruct Hx as [f _|f x _ C|f l L' _]; [|rewrite Et in C|congruence].
  - rewrite (Fi c avars n (inside_here _) I0) in Nu. discriminate Nu.
  - destruct (object_of _ _ Sm C) as [d' [m [fs [vs [Ed [_ ->]]]]]]. injection Ed as <-. exists d, vs. split; [reflexivity|]. destruct (object_fields _ _ C _ _ eq_refl) as [_ Fv]. split; [exact Fv|].
    intros m' y Iy. eapply flat_plain; [|eapply no_lists_none; [exact Nl|exact Fv]|exact Iy]. eapply flat_cls_flat; [|exact Fl|exact Fv]. eapply complete_attr; [exact Cm|exact I0].
Qed.

(* ---- one record ---- *)
Definition has_quat (out : list str) : Prop := exists l, In l out /\ startswith (lit "QUATERNION_TYPE") l = true.
Lemma has_quat_more out more : has_quat out -> has_quat (out ++ more).
Proof. intros [l [I0 S]]. exists l. split; [apply in_or_app; left; exact I0|exact S]. Qed.
Lemma quat_ok out : has_quat out -> exists b, quat_is_last out = Ok b.
Proof.
  intros [l [I0 S]]. unfold quat_is_last. destruct (find _ (rev out)) as [x|] eqn:E; [cbn [guard_opt bind]; eexists; reflexivity|].
  pose proof (find_none _ _ E l) as X. rewrite <- in_rev in X. specialize (X I0). cbn beta in X. congruence.
Qed.
Lemma item_str c vars k : lonely c k = true -> fits (init_fields (fields_of c)) vars -> exists s, str_item vars k = Ok s.
Proof. intros L F. destruct (lonely_scalar _ _ _ L F) as [x [A S]]. unfold str_item, dict_get. rewrite A. cbn [guard_opt bind]. apply scalar_str. exact S. Qed.
Lemma items_str c vars ks : forallb (lonely c) ks = true -> fits (init_fields (fields_of c)) vars -> exists l, map_res (str_item vars) ks = Ok l.
Proof.
  intros L F. destruct (map_res_total (str_item vars) ks) as [l [-> _]]; [|eexists; reflexivity]. intros k Hk. rewrite forallb_forall in L. exact (item_str c vars k (L k Hk) F).
Qed.
Lemma epoch_text c avars : rot_cls c = true -> fits (init_fields (fields_of c)) avars -> filled (VObj c avars) -> exists e, dict_get "epoch" avars = Ok (VStr e).
Proof.
  intros R F Fi. unfold rot_cls in R. apply andb_true_iff in R. destruct R as [R _]. apply andb_true_iff in R. destruct R as [R Lo]. unfold lonely in Lo.
  destruct (find_field "epoch" _) as [f|] eqn:E; [|discriminate Lo]. destruct (fits_find _ _ _ _ F E) as [x [A Hx]]. unfold dict_get. rewrite A. cbn [guard_opt].
  apply find_some in E. destruct E as [If En]. rewrite forallb_forall in R. specialize (R f If). unfold rot_field in R. rewrite En in R. apply andb_true_iff in R. destruct R as [L R]. apply andb_true_iff in L. destruct L as [L _]. apply negb_true_iff in L.
  apply assoc_in in A. destruct Hx as [f _|f x _ C|f l L' _]; [discriminate (Fi c avars _ (inside_here _) A)| |congruence].
  destruct (f_ty f); try discriminate R. inversion C; subst. eexists. reflexivity.
Qed.
Lemma rots_ok c avars : rot_cls c = true -> fits (init_fields (fields_of c)) avars -> complete (VObj c avars) -> filled (VObj c avars) ->
  exists rots, map_res (fun kv => py_vars (snd kv)) (filter (fun kv => negb (String.eqb (fst kv) "epoch")) avars) = Ok rots /\ forall r n x, In r rots -> In (n, x) r -> plain_value x.
Proof.
  intros R F Cm Fi. assert (A : forall kv, In kv (filter (fun kv => negb (String.eqb (fst kv) "epoch")) avars) -> exists vs, py_vars (snd kv) = Ok vs /\ forall n x, In (n, x) vs -> plain_value x).
  { intros [n x] I0. apply filter_In in I0. destruct I0 as [I0 Ne]. cbn [fst snd] in *. apply negb_true_iff, String.eqb_neq in Ne. destruct (rot_object c n x avars R F Cm Fi I0 Ne) as [d [vs [-> [_ P]]]]. exists vs. split; [reflexivity|exact P]. }
  revert A. generalize (filter (fun kv : string * pyval => negb (String.eqb (fst kv) "epoch")) avars). intros l. induction l as [|kv l IH]; intros A; [exists []; split; [reflexivity|intros r n x []]|].
  destruct (A kv (or_introl eq_refl)) as [vs [E P]]. destruct IH as [rots [Er Pr]]; [intros k Hk; apply A; right; exact Hk|]. exists (vs :: rots). cbn [map_res]. rewrite E. cbn [bind]. rewrite Er. cbn [bind]. split; [reflexivity|].
  intros r n x [<-|Hr]; [apply P|apply Pr; exact Hr].
Qed.
Lemma plain_tokens rots : (forall r n x, In r rots -> In (n, x) r -> plain_value x) -> exists toks, map_res (fun v => py_str (value_or_self v)) (flat_map (map (@snd string pyval)) rots) = Ok toks.
Proof.
  intros P. destruct (map_res_total (fun v => py_str (value_or_self v)) (flat_map (map (@snd string pyval)) rots)) as [l [-> _]]; [|eexists; reflexivity].
  intros x Hx. apply in_flat_map in Hx. destruct Hx as [r [Hr Hx]]. apply in_map_iff in Hx. destruct Hx as [[n y] [<- Hy]]. apply plain_str. exact (P r n y Hr Hy).
Qed.
Lemma quat_vars rest avars : In rest [[]; ["rotation_rates"]] -> let c := match rest with [] => "QuaternionEphemerisType" | _ => "QuaternionEulerRateType" end in
  fits (init_fields (fields_of c)) avars -> complete (VObj c avars) -> filled (VObj c avars) ->
  exists qv more, map_res (fun kv => py_vars (snd kv)) (filter (fun kv => negb (String.eqb (fst kv) "epoch")) avars) = Ok (qv :: more) /\ fits (init_fields (fields_of "QuaternionType")) qv /\
    (rest <> [] -> exists rv, more = [rv] /\ fits (init_fields (fields_of "RotationRateType")) rv /\ filled (VObj "RotationRateType" rv)).
Proof.
  assert (T : forall f d x, holds f x -> f_list f = false -> f_ty f = TCls d -> simple_ty (TCls d) = false -> x <> VNone -> exists vs, x = VObj d vs /\ fits (init_fields (fields_of d)) vs).
  { intros f d x H L Et Sm Nx. destruct H as [f _|f x _ C|f l L' _]; [congruence|rewrite Et in C|congruence]. destruct (object_of _ _ Sm C) as [d' [m [fs [vs [Ed [_ ->]]]]]]. injection Ed as <-.
    exists vs. split; [reflexivity|exact (proj2 (object_fields _ _ C _ _ eq_refl))]. }
  intros Ir c F Cm Fi. cbn [In] in Ir. destruct Ir as [<-|[<-|[]]]; cbn beta iota zeta in c; unfold c in *; clear c.
  - let l := eval vm_compute in (init_fields (fields_of "QuaternionEphemerisType")) in change (init_fields (fields_of "QuaternionEphemerisType")) with l in F.
    inversion F as [|? [n1 x1] ? ? [E1 U1] F1]; subst. inversion F1 as [|? [n2 x2] ? ? [E2 U2] F2]; subst. inversion F2; subst. cbn [fst snd f_name] in *. subst.
    destruct (T _ "QuaternionType" x2 U2 eq_refl eq_refl) as [qv [-> Fq]]; [vm_compute; reflexivity|intros ->; discriminate (Fi _ _ _ (inside_here _) (or_intror (or_introl eq_refl)))|].
    exists qv, []. split; [reflexivity|]. split; [exact Fq|]. intros X. congruence.
  - let l := eval vm_compute in (init_fields (fields_of "QuaternionEulerRateType")) in change (init_fields (fields_of "QuaternionEulerRateType")) with l in F.
    inversion F as [|? [n1 x1] ? ? [E1 U1] F1]; subst. inversion F1 as [|? [n2 x2] ? ? [E2 U2] F2]; subst. inversion F2 as [|? [n3 x3] ? ? [E3 U3] F3]; subst. inversion F3; subst. cbn [fst snd f_name] in *. subst.
    destruct (T _ "QuaternionType" x2 U2 eq_refl eq_refl) as [qv [-> Fq]]; [vm_compute; reflexivity|intros ->; discriminate (Fi _ _ _ (inside_here _) (or_intror (or_introl eq_refl)))|].
    destruct (T _ "RotationRateType" x3 U3 eq_refl eq_refl) as [rv [-> Fr]]; [vm_compute; reflexivity|intros ->; discriminate (Fi _ _ _ (inside_here _) (or_intror (or_intror (or_introl eq_refl))))|].
    exists qv, [rv]. split; [reflexivity|]. split; [exact Fq|]. intros _. exists rv. split; [reflexivity|]. split; [exact Fr|].
    intros c vs n Iv Hn. apply (Fi c vs n); [|exact Hn]. eapply inside_attr; [right; right; left; reflexivity|exact Iv].
Qed.
Lemma rate_str rv k : In k ["rotation1"; "rotation2"; "rotation3"] -> fits (init_fields (fields_of "RotationRateType")) rv -> filled (VObj "RotationRateType" rv) ->
  exists s, (do x <- dict_get k rv; do y <- py_getattr x "value"; py_str y) = Ok s.
Proof.
  intros Ik F Fi.
  assert (B : exists f, find_field k (init_fields (fields_of "RotationRateType")) = Some f /\ f_list f = false /\ f_ty f = TCls "RotationRateComponentType" /\ k <> "units").
  { cbn [In] in Ik. destruct Ik as [<-|[<-|[<-|[]]]]; (eexists; split; [vm_compute; reflexivity|split; [reflexivity|split; [reflexivity|discriminate]]]). }
  destruct B as [f [Ef [L [Et Nu]]]]. destruct (fits_find _ _ _ _ F Ef) as [x [A Hx]]. unfold dict_get. rewrite A. cbn [guard_opt bind]. apply assoc_in in A.
  destruct Hx as [f _|f x _ C|f l L' _]; [destruct (Nu (Fi _ _ _ (inside_here _) A))|rewrite Et in C|congruence].
  destruct (object_of (TCls "RotationRateComponentType") x) as [d [m [fs [vs [Ed [_ ->]]]]]]; [vm_compute; reflexivity|exact C|]. injection Ed as <-. destruct (object_fields _ _ C _ _ eq_refl) as [_ Fv].
  destruct (lonely_scalar "RotationRateComponentType" "value" vs) as [y [Ay Sy]]; [vm_compute; reflexivity|exact Fv|]. cbn [py_getattr]. rewrite Ay. cbn [bind]. apply scalar_str. exact Sy.
Qed.
Lemma record_ok vars out : fits (init_fields (fields_of "AttitudeStateType")) vars -> complete (VObj "AttitudeStateType" vars) -> record_ready vars -> (quaternion_record vars -> has_quat out) ->
  exists ls, attitude_line vars out = Ok ls.
Proof.
  intros F Cm [[n0 [x0 [I0 N0]]] Rd] Q.
  assert (Ob : forall n x, In (n, x) vars -> x = VNone \/ exists c avars, x = VObj c avars /\ In c attitudes /\ fits (init_fields (fields_of c)) avars).
  { intros n x Ix. destruct (fits_in _ _ _ _ F Ix) as [f [If [_ Hx]]]. pose proof record_fields as B. rewrite forallb_forall in B. specialize (B f If). apply andb_true_iff in B. destruct B as [L B]. apply negb_true_iff in L.
    destruct (f_ty f) as [| | |d] eqn:Et; try discriminate B. apply andb_true_iff in B. destruct B as [Sm Id]. apply negb_true_iff in Sm. apply mem_string_in in Id.
    destruct Hx as [f _|f x _ C|f l L' _]; [left; reflexivity|right; rewrite Et in C|congruence]. destruct (object_of _ _ Sm C) as [d' [m [fs [vs [Ed [_ ->]]]]]]. injection Ed as <-.
    exists d, vs. split; [reflexivity|]. split; [exact Id|exact (proj2 (object_fields _ _ C _ _ eq_refl))]. }
  unfold attitude_line. destruct (filter truthy (map snd vars)) as [|y r] eqn:El.
  - exfalso. destruct (Ob n0 x0 I0) as [X|[c [avars [-> _]]]]; [congruence|]. assert (X : In (VObj c avars) (filter truthy (map snd vars))) by (apply filter_In; split; [apply in_map_iff; exists (n0, VObj c avars); auto|reflexivity]).
    rewrite El in X. destruct X.
  - assert (Iy : In y (filter truthy (map snd vars))) by (rewrite El; left; reflexivity). apply filter_In in Iy. destruct Iy as [Iy Ty]. apply in_map_iff in Iy. destruct Iy as [[n x] [E Ix]]. cbn [snd] in E. subst x.
    destruct (Ob n y Ix) as [->|[c [avars [-> [Ic Fa]]]]]; [discriminate Ty|]. destruct (Rd n c avars Ix) as [Nd Fi]. pose proof (complete_attr _ _ _ _ Cm Ix) as Ca.
    assert (Rc : rot_cls c = true) by (pose proof rot_all as B; rewrite forallb_forall in B; exact (B c Ic)).
    destruct (epoch_text c avars Rc Fa Fi) as [e Ee]. destruct (rots_ok c avars Rc Fa Ca Fi) as [rots [Er Pr]].
    assert (Fin : forall toks, exists ls, (do ep <- dict_get "epoch" avars; match ep with VStr e => do s <- fill_out_single_line (e :: toks); Ok [s] | _ => Err TypeError end) = Ok ls).
    { intros toks. rewrite Ee. cbn [bind]. destruct (fill_line_total (e :: toks)) as [s ->]; [discriminate|]. eexists. reflexivity. }
    destruct (startswith (lit "Quaternion") (lit c)) eqn:Sq.
    2:{ rewrite Er. cbn [bind]. destruct (plain_tokens rots Pr) as [toks ->]. cbn [bind]. apply Fin. }
    assert (Cc : c = "QuaternionEphemerisType" \/ c = "QuaternionEulerRateType").
    { clear - Ic Nd Sq. unfold attitudes in Ic. cbn [In] in Ic. repeat (destruct Ic as [<-|Ic]; [first [left; reflexivity|right; reflexivity|congruence|vm_compute in Sq; discriminate Sq]|]). destruct Ic. }
    destruct (quat_ok out) as [b Eb]; [apply Q; exists n, c, avars; split; [exact Ix|destruct Cc as [-> | ->]; cbn; auto]|].
    assert (Bs : forall qv, fits (init_fields (fields_of "QuaternionType")) qv -> exists l, map_res (str_item qv) (if b then ["q1"; "q2"; "q3"; "qc"] else ["qc"; "q1"; "q2"; "q3"]) = Ok l).
    { intros qv Fq. apply (items_str "QuaternionType"); [|exact Fq]. destruct b; vm_compute; reflexivity. }
    destruct Cc as [-> | ->].
    + destruct (quat_vars [] avars) as [qv [more [Eq [Fq _]]]]; [left; reflexivity|exact Fa|exact Ca|exact Fi|]. rewrite Eq. cbn [bind]. rewrite Eb. cbn [bind get nth_error]. unfold get. cbn [nth_error guard_opt bind].
      destruct (Bs qv Fq) as [base ->]. cbn [bind String.eqb Ascii.eqb Bool.eqb]. apply Fin.
    + destruct (quat_vars ["rotation_rates"] avars) as [qv [more [Eq [Fq M]]]]; [right; left; reflexivity|exact Fa|exact Ca|exact Fi|]. destruct M as [rv [-> [Fr Fv]]]; [discriminate|]. rewrite Eq. cbn [bind]. rewrite Eb. cbn [bind].
      unfold get. cbn [nth_error guard_opt bind]. destruct (Bs qv Fq) as [base ->]. cbn [bind String.eqb Ascii.eqb Bool.eqb].
      destruct (map_res_total (fun k => do x <- dict_get k rv; do y <- py_getattr x "value"; py_str y) ["rotation1"; "rotation2"; "rotation3"]) as [rt [-> _]]; [intros k Hk; exact (rate_str rv k Hk Fr Fv)|].
      cbn [bind]. apply Fin.
Qed.

(* ---- sections of an attitude message ---- *)
Section Aem.
Variable u : env.
Lemma vars_line vars n e m s : In (n, VEnum e m s) vars -> forall out o, collate_vars (collate_sub u) vars out = Ok o -> In (fill_kvn u (lit n) s []) o.
Proof.
  induction vars as [|[k x] vars IH]; intros I0 out o H; [destruct I0|]. cbn [collate_vars] in H. destruct (collate_sub u k x out) as [o1|] eqn:E; [|discriminate H]. destruct I0 as [I0|I0]; [|exact (IH I0 _ _ H)].
  injection I0 as -> ->. cbn [collate_sub] in E. destruct (String.eqb n "comment"); [discriminate E|]. cbn [bind] in E. injection E as <-.
  assert (X : exists more, o = ((out ++ []) ++ [fill_kvn u (lit n) s []] ++ []) ++ more).
  { pose proof (extends_vars u vars) as X. destruct (X) with (2 := H) as [more ->]; [apply Forall_forall; intros kv _ key; apply (collate_extends u (snd kv))|]. exists more. rewrite <- !app_assoc. reflexivity. }
  destruct X as [more ->]. apply in_or_app. left. apply in_or_app. right. left. reflexivity.
Qed.
Lemma section_in n c vars out o : String.eqb n "comment" = false -> String.eqb n "user_defined" = false -> mem_string "units" (map fst vars) = false -> mem_string c special_output_data_classes = false ->
  collate_sub u n (VObj c vars) out = Ok o -> exists o1 more, collate_vars (collate_sub u) vars (out ++ if mem_string c special_output_header_classes then [special_header c true; []] else []) = Ok o1 /\ o = o1 ++ more.
Proof.
  intros N1 N2 Nu Ns H. cbn [collate_sub] in H. rewrite N1, Nu, N2, Ns in H. inv_ok H. injection H as <-. inv_ok E. injection E as <-. destruct (extends_close n vars a0) as [more ->].
  eexists. eexists. split; [exact E0|]. rewrite <- app_assoc. reflexivity.
Qed.
Lemma section_out n c vars out : String.eqb n "comment" = false -> String.eqb n "user_defined" = false -> mem_string "units" (map fst vars) = false -> mem_string c special_output_data_classes = false ->
  (exists o1, collate_vars (collate_sub u) vars (out ++ if mem_string c special_output_header_classes then [special_header c true; []] else []) = Ok o1) -> exists o, collate_sub u n (VObj c vars) out = Ok o.
Proof. intros N1 N2 Nu Ns [o1 E]. cbn [collate_sub]. rewrite N1, Nu, N2, Ns, E. cbn [bind]. eexists. reflexivity. Qed.
Lemma part_written n c vars out : kept n = true -> In c parts -> conforms (TCls c) (VObj c vars) -> complete (VObj c vars) -> well_off (VObj c vars) -> exists o, collate_sub u n (VObj c vars) out = Ok o.
Proof. intros K Ic C Cm W. apply all_written; [|exact W]. apply fine_shaped; [exact K|]. exact (proj1 (all_good _) c vars eq_refl Ic C Cm). Qed.
Lemma meta_ok mv out : conforms (TCls "AemMetadata") (VObj "AemMetadata" mv) -> complete (VObj "AemMetadata" mv) -> well_off (VObj "AemMetadata" mv) ->
  exists o, collate_sub u "metadata" (VObj "AemMetadata" mv) out = Ok o /\ forall e m s, In ("quaternion_type", VEnum e m s) mv -> has_quat o.
Proof.
  intros C Cm W. destruct (part_written "metadata" "AemMetadata" mv out) as [o E]; [reflexivity|apply mem_string_in; vm_compute; reflexivity|exact C|exact Cm|exact W|]. exists o. split; [exact E|]. intros e m s I0.
  apply section_in in E; [|reflexivity|reflexivity| |reflexivity].
  - destruct E as [o1 [more [E ->]]]. apply has_quat_more. exists (fill_kvn u (lit "quaternion_type") s []). split; [exact (vars_line _ _ _ _ _ I0 _ _ E)|reflexivity].
  - destruct (object_fields _ _ C _ _ eq_refl) as [_ F]. rewrite (fits_names _ _ F). vm_compute. reflexivity.
Qed.
Definition states_fine (out : list str) (l : list pyval) : Prop :=
  forall x, In x l -> exists rv, x = VObj "AttitudeStateType" rv /\ fits (init_fields (fields_of "AttitudeStateType")) rv /\ complete x /\ record_ready rv /\ (quaternion_record rv -> has_quat out).
Lemma states_ok l : forall out, states_fine out l -> exists o, collate_sub u "attitude_state" (VList l) out = Ok o.
Proof.
  intros out H. cbn [collate_sub]. cbn [String.eqb Ascii.eqb Bool.eqb]. rewrite app_nil_r.
  set (items := fix items (l : list pyval) (out : list str) : res (list str) :=
                    match l with
                    | [] => Ok out
                    | VObj c vars :: r =>
                      do o <- (if mem_string c special_output_data_classes then do ls <- special_data_lines u "attitude_state" c vars out; Ok (out ++ ls)
                               else do o <- collate_vars (collate_sub u) vars out; Ok (close_section "attitude_state" vars o));
                      items r o
                    | _ :: _ => Err TypeError
                    end).
  assert (It : forall l o0, states_fine o0 l -> exists o, items l o0 = Ok o).
  { clear l out H. induction l as [|x l IH]; intros o0 H; [eexists; reflexivity|]. destruct (H x (or_introl eq_refl)) as [rv [-> [F [Cm [Rd Q]]]]].
    change (items (VObj "AttitudeStateType" rv :: l) o0) with (do o <- (do ls <- attitude_line rv o0; Ok (o0 ++ ls)); items l o). destruct (record_ok rv o0 F Cm Rd Q) as [ls ->]. cbn [bind]. apply IH.
    intros y Hy. destruct (H y (or_intror Hy)) as [rv' [E [F' [Cm' [Rd' Q']]]]]. exists rv'. split; [exact E|]. split; [exact F'|]. split; [exact Cm'|]. split; [exact Rd'|]. intros X. apply has_quat_more. exact (Q' X). }
  cbv zeta. match goal with |- context [bind (?f l ?o0) _] => assert (S : states_fine o0 l); [|destruct (It l o0 S) as [o Ho]; change (f l o0) with (items l o0); rewrite Ho] end.
  - intros x Hx. destruct (H x Hx) as [rv [E [F [Cm [Rd Q]]]]]. exists rv. split; [exact E|]. split; [exact F|]. split; [exact Cm|]. split; [exact Rd|]. intros X. apply has_quat_more. exact (Q X).
  - cbn [bind]. eexists. reflexivity.
Qed.
Lemma list_of f d x v : holds f x -> f_list f = true -> f_ty f = TCls d -> simple_ty (TCls d) = false -> complete v -> (forall y, inside y x -> inside y v) ->
  exists l, x = VList l /\ forall y, In y l -> exists vs, y = VObj d vs /\ conforms (TCls d) y.
Proof.
  intros H L Et Sm Cm Iv. destruct H as [f L'|f x L' C|f l _ E]; [congruence|congruence|]. exists l. split; [reflexivity|]. intros y Hy. rewrite Et in E.
  destruct (each_member _ _ _ E Hy) as [->|C]; [destruct Cm as [A _]; destruct (A l (Iv _ (inside_here _)) Hy)|]. destruct (object_of _ _ Sm C) as [d' [m [fs [vs [Ed [_ ->]]]]]]. injection Ed as <-. exists vs. auto.
Qed.
Lemma one_of f d x : holds f x -> f_list f = false -> f_ty f = TCls d -> simple_ty (TCls d) = false -> x = VNone \/ exists vs, x = VObj d vs /\ conforms (TCls d) x.
Proof.
  intros H L Et Sm. destruct H as [f _|f x _ C|f l L' _]; [left; reflexivity|right; rewrite Et in C|congruence]. destruct (object_of _ _ Sm C) as [d' [m [fs [vs [Ed [_ ->]]]]]]. injection Ed as <-. exists vs. auto.
Qed.
Lemma data_ok dv out : conforms (TCls "AemData") (VObj "AemData" dv) -> complete (VObj "AemData" dv) -> well_off (VObj "AemData" dv) ->
  (forall rv, inside (VObj "AttitudeStateType" rv) (VObj "AemData" dv) -> record_ready rv /\ (quaternion_record rv -> has_quat out)) -> exists o, collate_sub u "data" (VObj "AemData" dv) out = Ok o.
Proof.
  intros C Cm W H. destruct (object_fields _ _ C _ _ eq_refl) as [_ F]. clear C. let l := eval vm_compute in (init_fields (fields_of "AemData")) in change (init_fields (fields_of "AemData")) with l in F.
  inversion F as [|? [n1 x1] ? ? [E1 U1] F1]; subst. inversion F1 as [|? [n2 x2] ? ? [E2 U2] F2]; subst. inversion F2; subst. cbn [fst snd f_name] in *. subst. clear F F1 F2.
  apply section_out; try reflexivity. match goal with |- context [out ++ ?h] => generalize h end. intros h. cbn [collate_vars].
  assert (X1 : exists o, collate_sub u "comment" x1 (out ++ h) = Ok o).
  { apply all_written; [|eapply well_attr; [exact W|left; reflexivity]]. inversion U1 as [|? ? L|? l _ E]; subst; [discriminate|discriminate|]. apply sh_comments, Forall_forall. intros y Hy. destruct (each_member _ _ _ E Hy) as [->|C]; [exact I|]. eapply simple_scalar; [|exact C]. reflexivity. }
  destruct X1 as [o1 X1]. rewrite X1. apply (proj1 (collate_extends u x1)) in X1. destruct X1 as [m1 ->].
  destruct (list_of _ "AttitudeStateType" x2 (VObj "AemData" [("comment", x1); ("attitude_state", x2)]) U2 eq_refl eq_refl) as [l [-> A]]; [vm_compute; reflexivity|exact Cm|intros y Hy; eapply inside_attr; [right; left; reflexivity|exact Hy]|].
  destruct (states_ok l ((out ++ h) ++ m1)) as [o ->]; [|eexists; reflexivity]. intros x Hx. destruct (A x Hx) as [rv [-> C]]. exists rv. split; [reflexivity|]. split; [exact (proj2 (object_fields _ _ C _ _ eq_refl))|].
  assert (Iv : forall y, inside y (VObj "AttitudeStateType" rv) -> inside y (VObj "AemData" [("comment", x1); ("attitude_state", VList l)])).
  { intros y Hy. eapply inside_attr; [right; left; reflexivity|]. eapply inside_item; [exact Hx|exact Hy]. }
  split; [eapply complete_inside; [exact Iv|exact Cm]|]. destruct (H rv (Iv _ (inside_here _))) as [Rd Q]. split; [exact Rd|]. intros X. apply has_quat_more, has_quat_more. exact (Q X).
Qed.
Lemma ready_inside v w : (forall x, inside x w -> inside x v) -> attitude_ready v -> attitude_ready w.
Proof. intros S [A B]. split; [intros vars H; exact (A vars (S _ H))|intros sv rv H; exact (B sv rv (S _ H))]. Qed.
Lemma well_inside v w : (forall x, inside x w -> inside x v) -> well_off v -> well_off w.
Proof. intros S [A B]. split; [intros [c [vs [s [H X]]]]; apply A; exists c, vs, s; auto|intros [vs [H X]]; apply B; exists vs; auto]. Qed.
Lemma segment_ok sv out : conforms (TCls "AemSegment") (VObj "AemSegment" sv) -> complete (VObj "AemSegment" sv) -> well_off (VObj "AemSegment" sv) -> attitude_ready (VObj "AemSegment" sv) ->
  exists o, collate_vars (collate_sub u) sv out = Ok o.
Proof.
  intros C Cm W [A B]. destruct (object_fields _ _ C _ _ eq_refl) as [_ F]. clear C. let l := eval vm_compute in (init_fields (fields_of "AemSegment")) in change (init_fields (fields_of "AemSegment")) with l in F.
  inversion F as [|? [n1 x1] ? ? [E1 U1] F1]; subst. inversion F1 as [|? [n2 x2] ? ? [E2 U2] F2]; subst. inversion F2; subst. cbn [fst snd f_name] in *. subst. clear F F1 F2.
  cbn [collate_vars].
  assert (X1 : exists o, collate_sub u "metadata" x1 out = Ok o /\ forall mv e m s, x1 = VObj "AemMetadata" mv -> In ("quaternion_type", VEnum e m s) mv -> has_quat o).
  { destruct (one_of _ "AemMetadata" x1 U1 eq_refl eq_refl) as [->|[mv [-> C]]]; [vm_compute; reflexivity|eexists; split; [reflexivity|intros ? ? ? ? X; discriminate X]|].
    destruct (meta_ok mv out C) as [o [E Q]]; [eapply complete_attr; [exact Cm|left; reflexivity]|eapply well_attr; [exact W|left; reflexivity]|]. exists o. split; [exact E|]. intros mv' e m s X. injection X as <-. apply Q. }
  destruct X1 as [o1 [-> Q]].
  destruct (one_of _ "AemData" x2 U2 eq_refl eq_refl) as [->|[dv [-> C]]]; [vm_compute; reflexivity|cbn [collate_sub String.eqb Ascii.eqb Bool.eqb orb bind]; eexists; reflexivity|].
  destruct (data_ok dv o1 C) as [o ->]; [eapply complete_attr; [exact Cm|right; left; reflexivity]|eapply well_attr; [exact W|right; left; reflexivity]| |eexists; reflexivity].
  intros rv Ir. assert (Ir' : inside (VObj "AttitudeStateType" rv) (VObj "AemSegment" [("metadata", x1); ("data", VObj "AemData" dv)])) by (eapply inside_attr; [right; left; reflexivity|exact Ir]).
  split; [exact (A rv Ir')|]. intros Qr. destruct (B _ rv (inside_here _) Ir' Qr) as [mv [e [m [s [[X|[X|[]]] Y]]]]]; [|discriminate X]. injection X as ->. exact (Q mv e m s eq_refl Y).
Qed.
Lemma body_ok bv out : conforms (TCls "AemBody") (VObj "AemBody" bv) -> complete (VObj "AemBody" bv) -> well_off (VObj "AemBody" bv) -> attitude_ready (VObj "AemBody" bv) ->
  exists o, collate_sub u "body" (VObj "AemBody" bv) out = Ok o.
Proof.
  intros C Cm W Rd. destruct (object_fields _ _ C _ _ eq_refl) as [_ F]. clear C. let l := eval vm_compute in (init_fields (fields_of "AemBody")) in change (init_fields (fields_of "AemBody")) with l in F.
  inversion F as [|? [n1 x1] ? ? [E1 U1] F1]; subst. inversion F1; subst. cbn [fst snd f_name] in *. subst. clear F F1.
  apply section_out; try reflexivity. match goal with |- context [out ++ ?h] => generalize (out ++ h) end. clear out. intros out. cbn [collate_vars].
  destruct (list_of _ "AemSegment" x1 (VObj "AemBody" [("segment", x1)]) U1 eq_refl eq_refl) as [l [-> A]]; [vm_compute; reflexivity|exact Cm|intros y Hy; eapply inside_attr; [left; reflexivity|exact Hy]|].
  assert (S : forall y, In y l -> exists sv, y = VObj "AemSegment" sv /\ forall o, exists o', collate_vars (collate_sub u) sv o = Ok o').
  { intros y Hy. destruct (A y Hy) as [sv [-> C]]. exists sv. split; [reflexivity|]. intros o.
    assert (Iv : forall z, inside z (VObj "AemSegment" sv) -> inside z (VObj "AemBody" [("segment", VList l)])) by (intros z Hz; eapply inside_attr; [left; reflexivity|]; eapply inside_item; [exact Hy|exact Hz]).
    apply segment_ok; [exact C|eapply complete_inside; eassumption|eapply well_inside; eassumption|eapply ready_inside; eassumption]. }
  clear A U1 Cm W Rd. cbn [collate_sub]. cbn [String.eqb Ascii.eqb Bool.eqb]. rewrite app_nil_r.
  set (items := fix items (l : list pyval) (out : list str) : res (list str) :=
                    match l with
                    | [] => Ok out
                    | VObj c vars :: r =>
                      do o <- (if mem_string c special_output_data_classes then do ls <- special_data_lines u "segment" c vars out; Ok (out ++ ls)
                               else do o <- collate_vars (collate_sub u) vars out; Ok (close_section "segment" vars o));
                      items r o
                    | _ :: _ => Err TypeError
                    end).
  assert (It : forall o0, exists o, items l o0 = Ok o).
  { induction l as [|x l IH]; intros o0; [eexists; reflexivity|]. destruct (S x (or_introl eq_refl)) as [sv [-> T]].
    change (items (VObj "AemSegment" sv :: l) o0) with (do o <- (do o <- collate_vars (collate_sub u) sv o0; Ok (close_section "segment" sv o)); items l o). destruct (T o0) as [o ->]. cbn [bind]. apply IH. intros y Hy. apply S. right. exact Hy. }
  cbv zeta. match goal with |- context [bind (bind (?f l ?o0) _) _] => destruct (It o0) as [o Ho]; change (f l o0) with (items l o0); rewrite Ho end. cbn [bind]. eexists. reflexivity.
Qed.
Lemma aem_ok vars : conforms (TCls "Aem") (VObj "Aem" vars) -> complete (VObj "Aem" vars) -> well_off (VObj "Aem" vars) -> attitude_ready (VObj "Aem" vars) ->
  exists t, kvn_to_string u (VObj "Aem" vars) = Ok t.
Proof.
  intros C Cm W Rd. destruct (object_fields _ _ C _ _ eq_refl) as [_ F]. clear C. let l := eval vm_compute in (init_fields (fields_of "Aem")) in change (init_fields (fields_of "Aem")) with l in F.
  inversion F as [|? [n1 x1] ? ? [E1 U1] F1]; subst. inversion F1 as [|? [n2 x2] ? ? [E2 U2] F2]; subst. inversion F2; subst. cbn [fst snd f_name] in *. subst. clear F F1 F2.
  assert (G : exists first, kvn_to_string u (VObj "Aem" [("header", x1); ("body", x2)]) = do o <- collate_vars (collate_sub u) [("header", x1); ("body", x2)] [first]; Ok (join [c_nl] o)).
  { assert (Mn : meta_name "Aem" = Some "aem") by (vm_compute; reflexivity). unfold kvn_to_string. rewrite Mn. cbn [guard_opt bind]. change (String.eqb "aem" "ndm") with false. cbn [bind].
    assert (G1 : exists ids, py_getattr (VObj "Aem" [("header", x1); ("body", x2)]) "id" = Ok (VStr ids)) by (eexists; vm_compute; reflexivity).
    assert (G2 : exists vs s, py_getattr (VObj "Aem" [("header", x1); ("body", x2)]) "version" = Ok vs /\ py_str vs = Ok s) by (do 2 eexists; split; vm_compute; reflexivity).
    destruct G1 as [ids ->]. destruct G2 as [vs [s [-> Es]]]. cbn [bind]. rewrite Es. cbn [bind]. eexists. reflexivity. }
  destruct G as [first ->]. cbn [collate_vars].
  assert (X1 : exists o, collate_sub u "header" x1 [first] = Ok o).
  { destruct (one_of _ "NdmHeader" x1 U1 eq_refl eq_refl) as [->|[hv [-> C]]]; [vm_compute; reflexivity|eexists; reflexivity|].
    apply part_written; [reflexivity|apply mem_string_in; vm_compute; reflexivity|exact C|eapply complete_attr; [exact Cm|left; reflexivity]|eapply well_attr; [exact W|left; reflexivity]]. }
  destruct X1 as [o1 ->].
  destruct (one_of _ "AemBody" x2 U2 eq_refl eq_refl) as [->|[bv [-> C]]]; [vm_compute; reflexivity|cbn [collate_sub String.eqb Ascii.eqb Bool.eqb orb bind]; eexists; reflexivity|].
  destruct (body_ok bv o1 C) as [o ->]; [eapply complete_attr; [exact Cm|right; left; reflexivity]|eapply well_attr; [exact W|right; left; reflexivity]| |cbn [bind]; eexists; reflexivity].
  eapply ready_inside; [|exact Rd]. intros y Hy. eapply inside_attr; [right; left; reflexivity|exact Hy].
Qed.
End Aem.
