(* Attitude states: one data line is read into the components its attitude type declares. *)
From Coq Require Import NArith ZArith List Bool String Arith Lia.
From Verif Require Import PyStr PyDec PyVal Schema KvnPre KvnTree KvnSeg XmlBind KvnBuild NdmXml KvnWrite
     Spec SpecKvn SpecObj SpecMsg SpecEph SpecAem StrFacts DecFacts PreFacts SegFacts BuildFacts WriteFacts ParseFacts ShiftFacts
     ReadFacts ComposeFacts MsgFacts CoreFacts UserFacts CheckFacts EphText EphFacts AemTree.
Import ListNotations.
Local Open Scope string_scope.
Local Open Scope list_scope.
Local Arguments find_class : simpl never.
Local Arguments lit : simpl never.

(* ---- what building an element comes to ---- *)
Inductive plan := Plan (cls : string) (single : option string) (own : list line) (kids : list (string * plan)).
Fixpoint plan_of (full : list line) (e : elem) : plan :=
  match e with
  | Elem n c subs kws l s mm t =>
    Plan c s (filter (fun x => mem_str (key_of x) kws) (slice (fst mm) (snd mm) full)) (map (fun x => (e_name x, plan_of full x)) subs)
  end.
Fixpoint unrooted (e : elem) : bool := negb (root_kws (e_kws e)) && forallb unrooted (e_subs e).

Section State.
Variable u : env.

Inductive made : plan -> pyval -> Prop :=
| made_node c s own kids vars0 att vars :
    (own <> [] \/ kids <> []) ->
    match s with Some p => parse_single u c p own | None => parse_list u c None own end = Ok (VObj c vars0) ->
    Forall2 (fun k nv => fst k = fst nv /\ made (snd k) (snd nv)) kids att ->
    attach_all att vars0 = Ok vars -> made (Plan c s own kids) (VObj c vars).
Lemma made_inv c s own kids v : made (Plan c s own kids) v -> exists vars0 att vars, v = VObj c vars /\ (own <> [] \/ kids <> []) /\
    match s with Some p => parse_single u c p own | None => parse_list u c None own end = Ok (VObj c vars0) /\
    Forall2 (fun k nv => fst k = fst nv /\ made (snd k) (snd nv)) kids att /\ attach_all att vars0 = Ok vars.
Proof. intros H. inversion H; subst. exists vars0, att, vars. auto. Qed.

Lemma build_made e full doc : plain_tree e = true -> unrooted e = true -> forall n v, depth e <= n ->
  made (plan_of full e) v -> build u n doc e full = Ok v.
Proof.
  induction e as [nm c subs kws l s mm t F] using elem_ind'. intros P R n v D M. cbn [plan_of] in M.
  apply made_inv in M. destruct M as [vars0 [att [vars [-> [Nz [E [K A]]]]]]].
  rewrite plain_tree_eq in P. apply andb_true_iff in P. destruct P as [O P]. cbn [unrooted e_kws e_subs e_cls] in *. apply andb_true_iff in R. destruct R as [R1 R2].
  apply negb_true_iff in R1. destruct n as [|n]; [rewrite depth_eq in D; lia|]. rewrite depth_eq in D. cbn [e_subs] in D.
  destruct (ordinary_spec _ O) as [H1 [H2 [H3 [H4 [H5 H6]]]]]. cbn [build e_cls e_mm e_subs e_kws e_single]. rewrite H1, H2, H3, H4, H5, H6.
  assert (G : forall acc, fold_left (fun acc x => do vs <- acc; do sub <- build u n doc x full; attach (e_name x) sub vs) subs acc
                        = do vs <- acc; attach_all att vs).
  { clear - K F P R2 D. revert att K. induction F as [|x xs Hx F IH]; intros att K acc; inversion K as [|? nv ? att' [K1 K2] K3]; subst.
    - cbn. destruct acc; reflexivity.
    - cbn [forallb map fold_left] in *. apply andb_true_iff in P. destruct P as [P1 P2]. apply andb_true_iff in R2. destruct R2 as [R1 R2].
      cbn [depths fold_right] in D. fold (depths xs) in D. cbn [fst snd] in *. rewrite (Hx P1 R1 n (snd nv)) by (try assumption; lia).
      rewrite (IH P2 R2 ltac:(lia) att' K3). destruct nv as [nn vv]. cbn [fst snd attach_all] in *. subst nn.
      destruct acc as [vs|]; [|reflexivity]. cbn [bind]. reflexivity. }
  assert (Es : match subs with [] => true | _ => false end = true -> filter (fun x => mem_str (key_of x) kws) (slice (fst mm) (snd mm) full) <> []).
  { intros X. destruct Nz as [Nz|Nz]; [exact Nz|]. destruct subs; [destruct (Nz eq_refl)|discriminate]. }
  fold (root_kws kws). rewrite R1.
  destruct (slice (fst mm) (snd mm) full) as [|l0 ls] eqn:Sl, (filter _ _) as [|f0 fs] eqn:Fl; destruct subs as [|s0 ss];
    try (exfalso; apply Es; [reflexivity|]; first [exact Fl|reflexivity]); try discriminate;
    rewrite E; cbn [bind]; rewrite G; cbn [bind]; rewrite A; reflexivity.
Qed.

(* ---- attitude elements ---- *)
Definition att_elem : elem := match e_subs (tree_of "AemData") with a :: _ => a | [] => tree_of "AemData" end.
Definition state_name (k : kind) : string :=
  match k with Quat _ => "quaternion_state" | QuatDeriv _ => "quaternion_derivative" | QuatRate _ _ => "quaternion_euler_rate"
             | Euler _ => "euler_angle" | EulerRate _ => "euler_angle_rate" end.
Definition state_class (k : kind) : string :=
  match k with Quat _ => "QuaternionEphemerisType" | QuatDeriv _ => "QuaternionDerivativeType" | QuatRate _ _ => "QuaternionEulerRateType"
             | Euler _ => "EulerAngleType" | EulerRate _ => "EulerAngleRateType" end.
Definition q_names (o : place) (x : string) : list str :=
  match o with First => [lit ("QC" ++ x); lit ("Q1" ++ x); lit ("Q2" ++ x); lit ("Q3" ++ x)]
             | Last => [lit ("Q1" ++ x); lit ("Q2" ++ x); lit ("Q3" ++ x); lit ("QC" ++ x)] end%string.
Definition t_names (s : turns) (x : string) : list str :=
  let '(a, b, c) := s in [lit (axis_letter a ++ x); lit (axis_letter b ++ x); lit (axis_letter c ++ x)]%string.
Definition template (k : kind) : list str :=
  lit "EPOCH" :: match k with
                 | Quat o => q_names o ""
                 | QuatDeriv o => q_names o "" ++ q_names o "_DOT"
                 | QuatRate o s => q_names o "" ++ t_names s "_RATE"
                 | Euler s => t_names s "_ANGLE"
                 | EulerRate s => t_names s "_ANGLE" ++ t_names s "_RATE"
                 end.
Definition chosen_att (k : kind) : elem := choose (state_name k) (template k) att_elem.
(* the chosen element as it stands when the states are built *)
Definition standing (p : nat) (k : kind) : elem :=
  shift_elem p (set_mm (set_subs (chosen_att k) (map (missed_sub 0 1) (e_subs (chosen_att k)))) (0, 1)).

Definition q_plan (c : string) (ks ts : list str) : plan := Plan c None (zip_lines ks ts) [].
Definition r_plan (c p : string) (k t : str) : plan := Plan c (Some p) [[k; t]] [].
Definition angle_plan (s : turns) (x y z : str) : string * plan :=
  let '(a, b, c) := s in let n := fun a => lit (axis_letter a ++ "_ANGLE")%string in
  ("rotation_angles", Plan "RotationAngleType" None []
    [("rotation1", r_plan "RotationAngleComponentType" "angle" (n a) x); ("rotation2", r_plan "RotationAngleComponentType" "angle" (n b) y);
     ("rotation3", r_plan "RotationAngleComponentType" "angle" (n c) z)]).
Definition rate_plan (s : turns) (x y z : str) : string * plan :=
  let '(a, b, c) := s in let n := fun a => lit (axis_letter a ++ "_RATE")%string in
  ("rotation_rates", Plan "RotationRateType" None []
    [("rotation1", r_plan "RotationRateComponentType" "rate" (n a) x); ("rotation2", r_plan "RotationRateComponentType" "rate" (n b) y);
     ("rotation3", r_plan "RotationRateComponentType" "rate" (n c) z)]).
Definition expected (k : kind) (e : str) (ts : list str) : plan :=
  Plan (state_class k) None [[lit "EPOCH"; e]]
    match k, ts with
    | Quat o, [a; b; c; d] => [("quaternion", q_plan "QuaternionType" (q_names o "") ts)]
    | QuatDeriv o, [a; b; c; d; a'; b'; c'; d'] =>
      [("quaternion", q_plan "QuaternionType" (q_names o "") [a; b; c; d]);
       ("quaternion_rate", q_plan "QuaternionRateType" (q_names o "_DOT") [a'; b'; c'; d'])]
    | QuatRate o s, [a; b; c; d; x; y; z] => [("quaternion", q_plan "QuaternionType" (q_names o "") [a; b; c; d]); rate_plan s x y z]
    | Euler s, [x; y; z] => [angle_plan s x y z]
    | EulerRate s, [x; y; z; x'; y'; z'] => [angle_plan s x y z; rate_plan s x' y' z']
    | _, _ => []
    end.
Definition state_shape (k : kind) (p : nat) (synth : list line) : option (string * bool * bool * plan) :=
  match identify u (standing p k) (template k) synth 0 with
  | Ok (_, _, e1) => match e_subs e1 with
                     | s :: _ => Some (e_name s, plain_tree s && unrooted s, Nat.leb (S (depth s)) (depth (standing p k)), plan_of synth s)
                     | [] => None
                     end
  | Err _ => None
  end.
Lemma state_plan k p e ts : List.length ts = width k ->
  state_shape k p (zip_lines (template k) (e :: ts)) = Some (state_name k, true, true, expected k e ts).
Proof.
  intros L. destruct k as [o|o|o s|s|s]; cbn [width] in L;
    repeat (destruct ts as [|? ts]; [discriminate|]; cbn [List.length] in L; try (destruct ts; [|discriminate]); try apply eq_add_S in L);
    try destruct o; try (destruct s as [[a b] c]; destruct a, b, c); vm_compute; reflexivity.
Qed.

(* ---- the parts ---- *)
Lemma xml_text_of t : Forall (fun c => xml_char c = true) t -> xml_text t = true.
Proof. intros F. unfold xml_text. apply forallb_forall. rewrite Forall_forall in F. exact F. Qed.
Lemma dec_conv t d cls fld : number_text t d -> conv u cls fld TDec t = VDec d.
Proof. intros Nt. pose proof (number_decimal u t d Nt) as E. destruct Nt as [Ne _]. unfold conv. destruct t; [congruence|]. rewrite E. reflexivity. Qed.
Lemma made_leaf c own vars : own <> [] -> parse_list u c None own = Ok (VObj c vars) -> made (Plan c None own []) (VObj c vars).
Proof. intros N E. eapply made_node; [left; exact N|exact E|constructor|reflexivity]. Qed.
Ltac parse_four X1 X2 X3 X4 :=
  unfold q_plan; apply made_leaf; [discriminate|];
  lazy -[conv xml_text]; rewrite X1, X2, X3, X4.
Lemma quaternion_made o a b c d x y z w : number_text a x -> number_text b y -> number_text c z -> number_text d w ->
  made (q_plan "QuaternionType" (q_names o "") [a; b; c; d]) (quaternion o x y z w).
Proof.
  intros Ha Hb Hc Hd. pose proof (xml_text_of _ (number_xml _ _ Ha)) as X1. pose proof (xml_text_of _ (number_xml _ _ Hb)) as X2.
  pose proof (xml_text_of _ (number_xml _ _ Hc)) as X3. pose proof (xml_text_of _ (number_xml _ _ Hd)) as X4.
  destruct o; (parse_four X1 X2 X3 X4; rewrite (dec_conv _ _ _ _ Ha), (dec_conv _ _ _ _ Hb), (dec_conv _ _ _ _ Hc), (dec_conv _ _ _ _ Hd); reflexivity).
Qed.
Lemma quaternion_rate_made o a b c d x y z w : number_text a x -> number_text b y -> number_text c z -> number_text d w ->
  made (q_plan "QuaternionRateType" (q_names o "_DOT") [a; b; c; d]) (quaternion_rate o x y z w).
Proof.
  intros Ha Hb Hc Hd. pose proof (xml_text_of _ (number_xml _ _ Ha)) as X1. pose proof (xml_text_of _ (number_xml _ _ Hb)) as X2.
  pose proof (xml_text_of _ (number_xml _ _ Hc)) as X3. pose proof (xml_text_of _ (number_xml _ _ Hd)) as X4.
  destruct o; (parse_four X1 X2 X3 X4; rewrite (dec_conv _ _ _ _ Ha), (dec_conv _ _ _ _ Hb), (dec_conv _ _ _ _ Hc), (dec_conv _ _ _ _ Hd); reflexivity).
Qed.
Lemma single_made c p k t vars : parse_single u c p [[k; t]] = Ok (VObj c vars) -> made (r_plan c p k t) (VObj c vars).
Proof. intros E. eapply made_node; [left; discriminate|exact E|constructor|reflexivity]. Qed.
Lemma single_parsed c p k t : xml_text t = true -> xml_text k = true -> parse_single u c p [[k; t]] = Ok (bind_value_obj u c [(p, k)] t).
Proof. intros X1 X2. unfold parse_single. cbn [get nth_error guard_opt bind]. unfold child_ok. cbn [forallb snd]. rewrite X1, X2. reflexivity. Qed.
Lemma angle_made a t d : number_text t d -> made (r_plan "RotationAngleComponentType" "angle" (lit (axis_letter a ++ "_ANGLE")%string) t) (angle a d).
Proof.
  intros H. apply single_made. rewrite single_parsed; [|apply xml_text_of, (number_xml _ _ H)|destruct a; vm_compute; reflexivity]. unfold bind_value_obj.
  change (init_fields (fields_of "RotationAngleComponentType")) with
    [mkField "value" None false TDec KText None; mkField "angle" None false (TCls "AngleKeywordType") KAttr None; mkField "units" None false (TCls "AngleUnits") KAttr None].
  cbn [map f_name f_kind f_ty f_list field_default]. rewrite (dec_conv _ _ _ _ H). destruct a; reflexivity.
Qed.
Lemma rate_made a t d : number_text t d -> made (r_plan "RotationRateComponentType" "rate" (lit (axis_letter a ++ "_RATE")%string) t) (rate a d).
Proof.
  intros H. apply single_made. rewrite single_parsed; [|apply xml_text_of, (number_xml _ _ H)|destruct a; vm_compute; reflexivity]. unfold bind_value_obj.
  change (init_fields (fields_of "RotationRateComponentType")) with
    [mkField "value" None false TDec KText None; mkField "rate" None false (TCls "AngleRateKeywordType") KAttr None; mkField "units" None false (TCls "AngleRateUnits") KAttr None].
  cbn [map f_name f_kind f_ty f_list field_default]. rewrite (dec_conv _ _ _ _ H). destruct a; reflexivity.
Qed.
Lemma angles_made s a b c x y z : number_text a x -> number_text b y -> number_text c z ->
  fst (angle_plan s a b c) = "rotation_angles" /\ made (snd (angle_plan s a b c)) (angles s x y z).
Proof.
  intros Ha Hb Hc. destruct s as [[i j] k]. split; [reflexivity|]. cbn [angle_plan snd].
  eapply (made_node _ _ _ _ _ [("rotation1", angle i x); ("rotation2", angle j y); ("rotation3", angle k z)]); [right; discriminate|vm_compute; reflexivity| |reflexivity].
  repeat constructor; apply angle_made; assumption.
Qed.
Lemma rates_made s a b c x y z : number_text a x -> number_text b y -> number_text c z ->
  fst (rate_plan s a b c) = "rotation_rates" /\ made (snd (rate_plan s a b c)) (rates s x y z).
Proof.
  intros Ha Hb Hc. destruct s as [[i j] k]. split; [reflexivity|]. cbn [rate_plan snd].
  eapply (made_node _ _ _ _ _ [("rotation1", rate i x); ("rotation2", rate j y); ("rotation3", rate k z)]); [right; discriminate|vm_compute; reflexivity| |reflexivity].
  repeat constructor; apply rate_made; assumption.
Qed.
Lemma epoch_parsed k e : e <> [] -> xml_text e = true ->
  parse_list u (state_class k) None [[lit "EPOCH"; e]] = Ok (VObj (state_class k) (set_var "epoch" (VStr e) (vars_of (new_obj (state_class k))))).
Proof. intros N X. destruct e as [|c e]; [congruence|]. destruct k; lazy -[xml_text]; rewrite X; reflexivity. Qed.

(* the state as first built *)
Definition inner (k : kind) (e : str) (ds : list dec) : pyval :=
  match assoc (state_name k) (vars_of (attitude k (e, ds))) with Some v => v | None => VNone end.
Lemma state_made k e ts ds : e <> [] -> xml_text e = true -> List.length ts = width k -> Forall2 number_text ts ds ->
  made (expected k e ts) (inner k e ds).
Proof.
  intros N X L F. unfold expected. pose proof (epoch_parsed k e N X) as P.
  destruct k as [o|o|o s|s|s]; cbn [width] in L;
    repeat (destruct ts as [|? ts]; [discriminate|]; cbn [List.length] in L; apply eq_add_S in L); (destruct ts; [|discriminate]);
    repeat (match goal with F : Forall2 _ (_ :: _) _ |- _ => inversion F; clear F; subst end); (match goal with F : Forall2 _ [] _ |- _ => inversion F; clear F; subst end).
  - eapply (made_node _ _ _ _ _ [("quaternion", _)]); [left; discriminate|exact P| |reflexivity].
    constructor; [split; [reflexivity|apply quaternion_made; eassumption]|constructor].
  - eapply (made_node _ _ _ _ _ [("quaternion", _); ("quaternion_rate", _)]); [left; discriminate|exact P| |reflexivity].
    constructor; [split; [reflexivity|apply quaternion_made; eassumption]|].
    constructor; [split; [reflexivity|apply quaternion_rate_made; eassumption]|constructor].
  - eapply (made_node _ _ _ _ _ [("quaternion", _); ("rotation_rates", _)]); [left; discriminate|exact P| |].
    + constructor; [split; [reflexivity|apply quaternion_made; eassumption]|].
      constructor; [cbn [snd fst]; apply rates_made; eassumption|constructor].
    + reflexivity.
  - eapply (made_node _ _ _ _ _ [("rotation_angles", _)]); [left; discriminate|exact P| |].
    + constructor; [cbn [snd fst]; apply angles_made; eassumption|constructor].
    + reflexivity.
  - eapply (made_node _ _ _ _ _ [("rotation_angles", _); ("rotation_rates", _)]); [left; discriminate|exact P| |].
    + constructor; [cbn [snd fst]; apply angles_made; eassumption|]. constructor; [cbn [snd fst]; apply rates_made; eassumption|constructor].
    + reflexivity.
Qed.

(* ---- through XML and back ---- *)
Lemma fixed_expanded d : fixed_point d = expanded d.
Proof.
  destruct d as [n c [|e|e]| |]; try reflexivity. unfold fixed_point, expanded. cbn [Z.ltb Z.compare]. f_equal. f_equal.
  change 10%Z with (Z.of_N 10). change (Z.pos e) with (Z.of_N (N.pos e)). rewrite <- N2Z.inj_pow, N2Z.id. reflexivity.
Qed.
Lemma reparse_epoch cls fld t e : t = TStr -> e <> [] -> without (lit "Type") e -> reparse u cls fld t (VStr e) = VStr e.
Proof.
  intros -> N W. cbn [reparse]. unfold strip_type, remove_sub. rewrite remove_aux_none by (intros [a [b X]]; exact (W a b X)).
  destruct e; [congruence|reflexivity].
Qed.
Lemma reparse_obj cls fld t c vs : reparse u cls fld t (VObj c vs) =
  VObj c (map (fun nv => (fst nv, reparse u c (fst nv) match find_field (fst nv) (fields_of c) with Some f => f_ty f | None => TStr end (snd nv))) vs).
Proof. reflexivity. Qed.
Lemma reparse_none cls fld t : reparse u cls fld t VNone = VNone. Proof. reflexivity. Qed.
Lemma reparse_dec cls fld t d : reparse u cls fld t (VDec d) = VDec (expanded d). Proof. rewrite <- fixed_expanded. reflexivity. Qed.
Lemma reparse_enum cls fld t a b c : reparse u cls fld t (VEnum a b c) = VEnum a b c. Proof. reflexivity. Qed.
Lemma state_reparsed k e ds : e <> [] -> without (lit "Type") e -> List.length ds = width k ->
  reparse u "" "" TStr (VObj "AttitudeStateType" (set_var (state_name k) (inner k e ds) (vars_of (new_obj "AttitudeStateType"))))
  = attitude k (e, map expanded ds).
Proof.
  intros N W L. 
  replace (vars_of (new_obj "AttitudeStateType")) with (map (fun n => (n, VNone)) state_names) by (vm_compute; reflexivity).
  destruct k as [o|o|o s|s|s]; cbn [width] in L;
    repeat (destruct ds as [|? ds]; [discriminate|]; cbn [List.length] in L; apply eq_add_S in L); (destruct ds; [|discriminate]);
    try destruct o; try (destruct s as [[a b] c]);
    cbn -[find_field fields_of expanded fixed_point reparse lit];
    unfold number, rate, angle; repeat (rewrite reparse_obj; cbn [map fst snd]); rewrite ?reparse_none, ?reparse_dec, ?reparse_enum;
    (rewrite (reparse_epoch _ _ _ e) by (try assumption; vm_compute; reflexivity));
    reflexivity.
Qed.

(* ---- a data line ---- *)
Definition aline (k : kind) (l : line) (r : record) : Prop :=
  exists s ts extra ds, l = [s] /\ trimmed s /\ In c_sp s /\ columned (fst r :: ts ++ extra) s /\ date_text (fst r) /\ without (lit "Type") (fst r) /\
    List.length ts = width k /\ Forall2 number_text ts ds /\ snd r = map expanded ds.
Lemma template_length k : List.length (template k) = S (width k).
Proof. destruct k as [o|o|o s|s|s]; try destruct o; try destruct s as [[? ?] ?]; reflexivity. Qed.
Lemma att_facts : e_cls att_elem = "AttitudeStateType" /\ e_islist att_elem = true /\ e_name att_elem = "attitude_state" /\
  forallb (under (flat_map e_kws (flat_map (fun e => e :: e_subs e ++ flat_map e_subs (e_subs e)) (e_subs att_elem)))) (e_subs att_elem) = true.
Proof. repeat split; vm_compute; reflexivity. Qed.
Lemma chosen_facts k : e_cls (chosen_att k) = "AttitudeStateType" /\ e_islist (chosen_att k) = true /\ e_name (chosen_att k) = "attitude_state" /\
  e_tmpl (chosen_att k) = Some (template k) /\ e_kws (chosen_att k) = [] /\ e_subs (chosen_att k) <> [].
Proof. repeat split; try (vm_compute; reflexivity). destruct k; vm_compute; discriminate. Qed.
Definition att_keys : list str := flat_map e_kws (flat_map (fun e => e :: e_subs e ++ flat_map e_subs (e_subs e)) (e_subs att_elem)).
Lemma chosen_under k : forallb (under att_keys) (e_subs (chosen_att k)) = true.
Proof. destruct k; vm_compute; reflexivity. Qed.

Lemma four_parts {A B C D} (a a' : A) (b b' : B) (c c' : C) (d d' : D) :
  Some (a, b, c, d) = Some (a', b', c', d') -> a = a' /\ b = b' /\ c = c' /\ d = d'.
Proof. intros H. injection H; auto. Qed.
Lemma state_read k l r R : aline k l r -> (forall t, In t att_keys -> ~ In t (keys_of (l :: R))) -> reads u (chosen_att k) (l :: R) (attitude k r) 1.
Proof.
  intros [s [ts [extra [ds [-> [Tr [Sp [C [D [W [L [F Er]]]]]]]]]]]] Cl. destruct (chosen_facts k) as [Ec [Il [Nm [Tm [Kw Ne]]]]].
  exists 1, (set_subs (chosen_att k) (map (missed_sub 0 1) (e_subs (chosen_att k)))).
  rewrite (ident_att u att_keys _ _ Cl) by (try assumption; apply chosen_under).
  unfold date_range. cbn [get nth_error guard_opt bind]. rewrite (split_ws_columned _ _ C). cbn [nth_error guard_opt bind get]. rewrite (date_is u _ D). cbn [bind fst snd].
  split; [reflexivity|]. split; [left; lia|]. intros pre fuel Df. change (shift_elem _ _) with (standing (List.length pre) k). destruct fuel as [|n]; [lia|].
  assert (Sb : e_subs (standing (List.length pre) k) <> []).
  { unfold standing. rewrite shift_set_mm. cbn [set_mm e_subs shift_subs set_subs]. destruct (e_subs (chosen_att k)); [congruence|discriminate]. }
  cbn [build]. replace (e_cls (standing (List.length pre) k)) with "AttitudeStateType" by (destruct k; reflexivity).
  replace (e_tmpl (standing (List.length pre) k)) with (Some (template k)) by (destruct k; reflexivity).
  replace (e_mm (standing (List.length pre) k)) with (List.length pre + 0, List.length pre + 1) by (destruct k; reflexivity).
  cbn [fst snd String.eqb Ascii.eqb Bool.eqb]. rewrite slice_shift. unfold slice. cbn [skipn firstn Nat.sub]. 
  cbn [get nth_error guard_opt bind]. rewrite (split_ws_columned _ _ C).
  replace (zip_lines (template k) (fst r :: ts ++ extra)) with (zip_lines (template k) (fst r :: ts)).
  2:{ change (fst r :: ts ++ extra) with ((fst r :: ts) ++ extra). rewrite zip_lines_long; [reflexivity|]. rewrite template_length. cbn [List.length]. lia. }
  pose proof (state_plan k (List.length pre) (fst r) ts L) as P. unfold state_shape in P.
  destruct (identify u (standing (List.length pre) k) _ _ 0) as [[[m mm] e1]|]; [|discriminate]. destruct (e_subs e1) as [|s1 ss] eqn:E1; [discriminate|].
  apply four_parts in P. destruct P as [P1 [P2 [P3 P4]]]. apply andb_true_iff in P2. destruct P2 as [P2 P5]. apply Nat.leb_le in P3.
  destruct D as [[Dg _] [Dw D]]. cbn [bind]. rewrite E1. cbn [get nth_error guard_opt bind].
  assert (Xe : xml_text (fst r) = true).
  { apply xml_text_of. apply Dg. }
  assert (Dd : depth (standing (List.length pre) k) <= n).
  { unfold standing. rewrite shift_depth. clear - Df. unfold chosen_att in *. lia. }
  rewrite (build_made s1 _ (pre ++ [s] :: R) P2 P5 n (inner k (fst r) ds)).
  - cbn [bind]. rewrite P1. cbn [bind]. rewrite state_reparsed; [rewrite <- Er; destruct r; reflexivity|apply Dw|exact W|].
    rewrite <- L. clear - F. induction F; cbn; congruence.
  - lia.
  - rewrite P4. apply state_made; try assumption. apply Dw.
Qed.

Lemma att_stops k l R : keyed l -> (forall t, In t att_keys -> ~ In t (keys_of (l :: R))) -> stops u (chosen_att k) (l :: R).
Proof.
  intros [w [r [-> P]]] Cl. destruct (plain_kw_spec u w P) as [W [[c [x [-> U]]] _]]. destruct (chosen_facts k) as [Ec [Il [Nm [Tm [Kw Ne]]]]].
  exists 0, 0, 0. eexists. rewrite (ident_att u att_keys _ _ Cl) by (try assumption; apply chosen_under).
  unfold date_range. cbn [get nth_error guard_opt bind]. rewrite (word_split _ W). cbn [nth_error guard_opt bind get].
  destruct (upper_not_digit c U) as [A D]. unfold is_datestr, isnumeric. cbn [firstn forallb]. rewrite A, D. cbn [andb bind fst snd].
  split; [reflexivity|]. left. auto.
Qed.
Lemma states_read k sls rs R : Forall2 (aline k) sls rs -> sls <> [] -> (forall t, In t att_keys -> ~ In t (keys_of (sls ++ R))) ->
  (R = [] \/ exists l R', R = l :: R' /\ keyed l) -> list_reads u (chosen_att k) (sls ++ R) (map (attitude k) rs) R.
Proof.
  intros F Ne Cl H. induction F as [|l r sls rs Hl F IH]; [congruence|]. cbn [app map] in *.
  assert (Cl' : forall t, In t att_keys -> ~ In t (keys_of (sls ++ R))) by (intros t Ht X; apply (Cl t Ht); right; exact X).
  destruct sls as [|l' sls].
  - inversion F; subst. cbn [app map] in *. destruct H as [->|[w [R' [-> Hk]]]].
    + apply (lr_end u _ [l]); [cbn; lia|apply state_read; assumption].
    + apply (lr_cons u _ [l]); [cbn; lia|cbn; lia|apply state_read; assumption|]. apply lr_stop. apply att_stops; assumption.
  - apply (lr_cons u _ [l]); [cbn; lia|cbn; lia|apply state_read; assumption|]. apply IH; [discriminate|exact Cl'].
Qed.
End State.
