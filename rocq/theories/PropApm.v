(* Property C47: attitude parameter messages, written and read back. *)
From Coq Require Import NArith ZArith List Bool String Arith Lia.
From Verif Require Import PyStr PyDec PyVal Schema KvnPre KvnTree KvnSeg XmlBind KvnBuild NdmXml KvnWrite
     Spec SpecKvn SpecObj SpecMsg SpecApm StrFacts DecFacts PreFacts SegFacts BuildFacts WriteFacts ParseFacts ShiftFacts
     ReadFacts ComposeFacts MsgFacts PropWrite CoreFacts UserFacts DataFacts SingleFacts ListFacts GapFacts RelFacts
     CheckFacts CheckEph Demo PropRound ApmFacts.
Import ListNotations.
Local Open Scope string_scope.
Local Open Scope list_scope.
Local Arguments find_class : simpl never.
Local Arguments lit : simpl never.

(* ---- lists of keywords that share nothing but the comment keyword ---- *)
Fixpoint apart (ks : list (list str)) : bool :=
  match ks with [] => true | k :: r => forallb (disjointb k) r && apart r end.
Lemma apart_nth ks i j t : apart ks = true -> i < j -> In t (nth i ks []) -> t <> kw_comment -> ~ In t (nth j ks []).
Proof.
  revert i j. induction ks as [|k ks IH]; intros i j A L Hi Nc Hj; [destruct i; destruct Hi|].
  cbn [apart] in A. apply andb_true_iff in A. destruct A as [A1 A2]. destruct j as [|j]; [lia|]. destruct i as [|i].
  - cbn [nth] in *. rewrite forallb_forall in A1. destruct (Nat.lt_ge_cases j (List.length ks)) as [Lj|Lj].
    + exact (disjointb_spec _ _ t (A1 _ (nth_In ks [] Lj)) Hi Nc Hj).
    + rewrite nth_overflow in Hj by exact Lj. destruct Hj.
  - cbn [nth] in *. apply (IH i j A2); [lia|assumption..].
Qed.
Definition within (ks : list (list str)) (js : list nat) (ls : list line) : Prop :=
  forall k, In k (keys_of ls) -> k = kw_comment \/ exists j, In j js /\ In k (nth j ks []).
Lemma within_app ks js1 js2 l1 l2 : within ks js1 l1 -> within ks js2 l2 -> within ks (js1 ++ js2) (l1 ++ l2).
Proof.
  intros W1 W2 k Hk. rewrite keys_of_app in Hk. apply in_app_or in Hk.
  destruct Hk as [Hk|Hk]; [destruct (W1 k Hk) as [E|[j [J1 J2]]]|destruct (W2 k Hk) as [E|[j [J1 J2]]]];
    try (left; exact E); right; exists j; (split; [apply in_or_app|exact J2]); auto.
Qed.
Lemma within_not ks js ls i : apart ks = true -> within ks js ls -> forallb (Nat.ltb i) js = true ->
  forall t, In t (nth i ks []) -> t <> kw_comment -> ~ In t (keys_of ls).
Proof.
  intros A W L t Ht Nc Hi. destruct (W t Hi) as [E|[j [J1 J2]]]; [contradiction|]. rewrite forallb_forall in L.
  specialize (L j J1). apply Nat.ltb_lt in L. exact (apart_nth ks i j t A L Ht Nc J2).
Qed.
Lemma within_nil ks : within ks [] [].
Proof. intros k []. Qed.

(* ---- the shape of the message ---- *)
Definition ap (path : list string) : elem := at_name path (tree_of "Apm").
Definition q_fields : list field := skipn 1 (firstn 5 (fields_of "QuaternionStateType")).
Definition q_parts : list field := skipn 5 (fields_of "QuaternionStateType").
Definition e_fields : list field := skipn 1 (firstn 6 (fields_of "EulerElementsThreeType")).
Definition e_parts : list field := skipn 6 (fields_of "EulerElementsThreeType").
Definition angle_names : list (string * string) :=
  match find_class "AngleKeywordType" with Some (CEnum ms) => ms | _ => [] end.
Definition rate_names : list (string * string) :=
  match find_class "AngleRateKeywordType" with Some (CEnum ms) => ms | _ => [] end.
Definition apm_keys (hdr meta q ql qr eu sp sc man : elem) : list (list str) :=
  [e_kws hdr; e_kws meta; e_kws q; e_kws ql; e_kws qr; e_kws eu; axis_names angle_names; axis_names rate_names;
   e_kws sp; e_kws sc; e_kws man].

Ltac rot_ok :=
  split; [by_compute|]; split; [by_compute|]; split; [by_compute|]; split; [by_compute|]; split; [by_compute|]; split; [repeat (apply conj); by_compute|].
Lemma no_dup_strs (l : list str) : (if list_eq_dec (list_eq_dec N.eq_dec) (nodup (list_eq_dec N.eq_dec) l) l then true else false) = true -> NoDup l.
Proof. destruct (list_eq_dec (list_eq_dec N.eq_dec) (nodup (list_eq_dec N.eq_dec) l) l) as [E|]; [|discriminate]. intros _. rewrite <- E. apply NoDup_nodup. Qed.
Lemma not_in_strs (k : str) l : mem_str k l = false -> ~ In k l.
Proof.
  unfold mem_str. intros H X. assert (E : existsb (str_eqb k) l = true); [|congruence].
  apply existsb_exists. exists k. split; [exact X|]. apply str_eqb_refl.
Qed.
Ltac line_ok := split; [by_compute|]; split; [by_compute|]; split; [by_compute|]; split; [by_compute|]; split; [by_compute|]; split; [by_compute|];
  split; [apply no_dup_strs; by_compute|]; split; [apply not_in_strs; by_compute|by_compute].
Lemma apm_shape : exists hdr body seg meta data q eu sp sc man ql qr an ra,
  (outer_ok "Apm" hdr body seg meta data = true /\ e_subs (tree_of "Apm") = [hdr; body] /\ e_subs body = [seg] /\
   e_subs seg = [meta; data] /\ vars_of (new_obj "Apm") = [("header", VNone); ("body", VNone)] /\
   vars_of (new_obj (e_cls body)) = [("segment", VNone)] /\ vars_of (new_obj (e_cls seg)) = [("metadata", VNone); ("data", VNone)]) /\
  (e_cls hdr = "NdmHeader" /\ e_cls body = "ApmBody" /\ e_cls seg = "ApmSegment" /\ e_cls meta = "ApmMetadata" /\ e_cls data = "ApmData") /\
  (leaf_elem hdr = true /\ leaf_elem meta = true) /\
  (data_elem data = true /\ e_subs data = [q; eu; sp; sc; man] /\
   map (fun f => (f_name f, f_list f)) (tl (fields_of "ApmData")) =
     [("quaternion_state", false); ("euler_elements_three", false); ("euler_elements_spin", false); ("spacecraft_parameters", false);
      ("maneuver_parameters", true)]) /\
  apart (apm_keys hdr meta q ql qr eu sp sc man) = true /\
  (part_elem q q_fields q_parts = true /\ e_cls q = "QuaternionStateType" /\ e_name q = "quaternion_state" /\ e_islist q = false /\
   quiet_class (e_cls q) = true /\ e_subs q = [ql; qr] /\ forallb sec_elem [ql; qr] = true /\ disjoint_all [q; ql; qr] = true /\
   map (fun s => (e_name s, e_cls s)) [ql; qr] = [("quaternion", "QuaternionType"); ("quaternion_rate", "QuaternionRateType")]) /\
  (part_elem eu e_fields e_parts = true /\ e_cls eu = "EulerElementsThreeType" /\ e_name eu = "euler_elements_three" /\ e_islist eu = false /\
   quiet_class (e_cls eu) = true /\ e_subs eu = [an; ra] /\ e_name an = "rotation_angles" /\ e_name ra = "rotation_rates") /\
  rot_elem an "RotationAngleType" "angle" "RotationAngleComponentType" "AngleKeywordType" "AngleUnits" angle_names /\
  rot_elem ra "RotationRateType" "rate" "RotationRateComponentType" "AngleRateKeywordType" "AngleRateUnits" rate_names /\
  (forallb sec_elem [sp; sc] = true /\ disjoint_all [sp; sc] = true /\ map (fun s => (e_name s, e_cls s)) [sp; sc] = apm_sections) /\
  (list_elem man = true /\ e_name man = "maneuver_parameters" /\ e_cls man = "AttManeuverParametersType").
Proof.
  exists (ap ["header"]), (ap ["body"]), (ap ["body"; "segment"]), (ap ["body"; "segment"; "metadata"]), (ap ["body"; "segment"; "data"]),
    (ap ["body"; "segment"; "data"; "quaternion_state"]), (ap ["body"; "segment"; "data"; "euler_elements_three"]),
    (ap ["body"; "segment"; "data"; "euler_elements_spin"]), (ap ["body"; "segment"; "data"; "spacecraft_parameters"]),
    (ap ["body"; "segment"; "data"; "maneuver_parameters"]), (ap ["body"; "segment"; "data"; "quaternion_state"; "quaternion"]),
    (ap ["body"; "segment"; "data"; "quaternion_state"; "quaternion_rate"]),
    (ap ["body"; "segment"; "data"; "euler_elements_three"; "rotation_angles"]),
    (ap ["body"; "segment"; "data"; "euler_elements_three"; "rotation_rates"]).
  split; [repeat (apply conj); by_compute|]. split; [repeat (apply conj); by_compute|]. split; [repeat (apply conj); by_compute|].
  split; [repeat (apply conj); by_compute|]. split; [by_compute|]. split; [repeat (apply conj); by_compute|]. split; [repeat (apply conj); by_compute|].
  split; [rot_ok; exists (ap ["body"; "segment"; "data"; "euler_elements_three"; "rotation_angles"; "rotation1"]),
     (ap ["body"; "segment"; "data"; "euler_elements_three"; "rotation_angles"; "rotation2"]),
     (ap ["body"; "segment"; "data"; "euler_elements_three"; "rotation_angles"; "rotation3"]);
     split; [by_compute|]; split; [repeat (apply conj); by_compute|]; intros s [<-|[<-|[<-|[]]]]; line_ok|].
  split; [rot_ok; exists (ap ["body"; "segment"; "data"; "euler_elements_three"; "rotation_rates"; "rotation1"]),
     (ap ["body"; "segment"; "data"; "euler_elements_three"; "rotation_rates"; "rotation2"]),
     (ap ["body"; "segment"; "data"; "euler_elements_three"; "rotation_rates"; "rotation3"]);
     split; [by_compute|]; split; [repeat (apply conj); by_compute|]; intros s [<-|[<-|[<-|[]]]]; line_ok|].
  split; repeat (apply conj); by_compute.
Qed.

(* ---- the quaternion state ---- *)
Definition quat_lines (v : pyval) : list line :=
  match v with VObj _ vars => part_lines q_fields (firstn 5 vars) ++ lines_of (skipn 5 vars) | _ => [] end.
Lemma q_names : firstn 5 (fields_of "QuaternionStateType") = comment_field :: q_fields /\
  fields_of "QuaternionStateType" = (comment_field :: q_fields) ++ q_parts /\ forallb kw_field_ok (comment_field :: q_fields) = true /\
  forallb (fun f => negb (f_list f)) q_fields = true.
Proof. repeat (apply conj); by_compute. Qed.
Lemma firstn_exact {A} n (a b : list A) : List.length a = n -> firstn n (a ++ b) = a /\ skipn n (a ++ b) = b.
Proof. intros <-. split; [rewrite firstn_app, Nat.sub_diag, firstn_all, firstn_O, app_nil_r|rewrite skipn_app, Nat.sub_diag, skipn_all]; reflexivity. Qed.
Lemma wf_length fs vars : wf_vars fs vars -> List.length vars = List.length fs.
Proof. intros W. pose proof (f_equal (@List.length string) (wf_vars_names _ _ W)) as X. rewrite !map_length in X. exact X. Qed.
Lemma q_length vars : wf_vars (comment_field :: q_fields) vars -> List.length vars = 5.
Proof. intros W. rewrite (wf_length _ _ W). by_compute. Qed.

(* comments, and what follows them *)
Lemma quat_split (u : env) v : quat_ok v ->
  exists ts rest, comments_of v = texts ts /\ Forall good_text ts /\ quat_lines v = comment_lines ts ++ rest /\
    (exists l r, rest = l :: r /\ key_of l <> kw_comment) /\
    forall ts', Forall good_text ts' -> quat_ok (with_comments (texts ts') v) /\
                quat_lines (with_comments (texts ts') v) = comment_lines ts' ++ rest.
Proof.
  intros [vars [q [r [-> [W [[n [x [Hin Hs]]] [Hq Hr]]]]]]]. destruct q_names as [E1 [_ [E3 E4]]]. rewrite E1 in W.
  pose proof (q_length vars W) as L.
  assert (Lc : forall ts, map line_of (field_entries "COMMENT" (VList (texts ts))) = comment_lines ts).
  { intros ts. cbn [field_entries]. unfold texts, comment_lines. rewrite !map_map. reflexivity. }
  inversion W as [|? [k v] ? vars0 [En Wf] Ws]; subst. cbn [fst snd f_name comment_field] in *. subst k.
  destruct (wf_comment_value v Wf) as [ts [-> G]].
  assert (QL : forall ts', quat_lines (VObj "QuaternionStateType" ((("comment", VList (texts ts')) :: vars0) ++ [("quaternion", q); ("quaternion_rate", r)]))
             = comment_lines ts' ++ map line_of (entries q_fields vars0) ++ lines_of [("quaternion", q); ("quaternion_rate", r)]).
  { intros ts'. cbn [quat_lines].
    destruct (firstn_exact 5 (("comment", VList (texts ts')) :: vars0) [("quaternion", q); ("quaternion_rate", r)] L) as [X1 X2].
    rewrite X1, X2. unfold part_lines. cbn [entries comment_field f_kw]. rewrite map_app, Lc, <- app_assoc. reflexivity. }
  exists ts, (map line_of (entries q_fields vars0) ++ lines_of [("quaternion", q); ("quaternion_rate", r)]).
  split; [reflexivity|]. split; [exact G|]. split; [apply QL|].
  destruct Hin as [Hin|Hin]; [injection Hin as <- <-; destruct Hs|]. split.
  { cbn [forallb] in E3. apply andb_true_iff in E3. destruct E3 as [_ E3].
    assert (NC : ~ In kw_comment (keys_of (map line_of (entries q_fields vars0)))) by (apply (nonlist_no_comment u); assumption).
    assert (Nn : map line_of (entries q_fields vars0) <> []).
    { clear - Ws Hin Hs. induction Ws as [|f [k v] fs vars [E1 W] _ IH]; [destruct Hin|]. cbn [entries]. rewrite map_app.
      destruct Hin as [Hin|Hin].
      - injection Hin as -> ->. destruct x; try destruct Hs; discriminate.
      - intros X. apply app_eq_nil in X. apply (IH Hin). apply X. }
    destruct (map line_of (entries q_fields vars0)) as [|l r0]; [congruence|]. exists l. eexists. split; [reflexivity|].
    intros X. apply NC. left. exact X. }
  intros ts' G'. split.
  - exists (("comment", VList (texts ts')) :: vars0), q, r. split; [reflexivity|]. split.
    + rewrite E1. constructor; [|exact Ws]. split; [reflexivity|]. apply (wf_comments comment_field ts'); [reflexivity|exact G'].
    + split; [exists n, x; split; [right; exact Hin|exact Hs]|split; assumption].
  - apply QL.
Qed.

(* ---- the Euler elements ---- *)
Definition euler_lines (v : pyval) : list line :=
  match v with VObj _ vars => part_lines e_fields (firstn 6 vars) ++ flat_map (fun nv => rot_lines (snd nv)) (skipn 6 vars) | _ => [] end.
Lemma e_names : firstn 6 (fields_of "EulerElementsThreeType") = comment_field :: e_fields /\
  fields_of "EulerElementsThreeType" = (comment_field :: e_fields) ++ e_parts /\ forallb kw_field_ok (comment_field :: e_fields) = true.
Proof. repeat (apply conj); by_compute. Qed.
Lemma e_length vars : wf_vars (comment_field :: e_fields) vars -> List.length vars = 6.
Proof. intros W. rewrite (wf_length _ _ W). by_compute. Qed.
Lemma no_euler_wf : wf_vars (comment_field :: e_fields) no_euler.
Proof.
  assert (Nn : forallb (fun f => negb (f_list f)) e_fields = true /\ map f_name e_fields = map fst (tl no_euler)) by (split; by_compute).
  destruct Nn as [Nl En]. unfold no_euler in *. cbn [tl map fst] in En. constructor.
  - split; [reflexivity|]. apply (wf_comments comment_field []); [reflexivity|constructor].
  - revert Nl En. generalize e_fields. intros fs Nl En.
    do 5 (destruct fs as [|? fs]; [discriminate En|]; injection En as E0 En; cbn [forallb] in Nl; apply andb_true_iff in Nl; destruct Nl as [N0 Nl];
      apply negb_true_iff in N0; constructor; [split; [symmetry; exact E0|apply wf_absent; exact N0]|]; clear E0 N0).
    destruct fs; [constructor|discriminate En].
Qed.
Lemma set_or_empty fs vars : forallb (fun f => negb (f_list f)) fs = true -> wf_vars fs vars -> some_set vars \/ entries fs vars = [].
Proof.
  intros H W. induction W as [|f [k v] fs vars [E Wf] _ IH]; [right; reflexivity|].
  cbn [forallb] in H. apply andb_true_iff in H. destruct H as [Hf H]. apply negb_true_iff in Hf. cbn [fst snd] in *.
  destruct (IH H) as [[n [x [I1 I2]]]|IE]; [left; exists n, x; split; [right; exact I1|exact I2]|].
  inversion Wf as [? E0|? ? Wv E0|? ? ? E0]; subst; [right; cbn [entries field_entries app]; exact IE| |congruence].
  left. exists (f_name f), v. split; [left; reflexivity|]. inversion Wv as [? ? Ws| |]; subst; try exact I. inversion Ws; exact I.
Qed.
Lemma euler_view v : euler_ok v ->
  exists vars an ra, wf_vars (comment_field :: e_fields) vars /\ (some_set vars \/ part_lines e_fields vars = []) /\
    opt_rotation "RotationAngleType" angle_part an /\ opt_rotation "RotationRateType" rate_part ra /\
    filled_euler v = euler_elements vars (filled_rotation "RotationAngleType" an) (filled_rotation "RotationRateType" ra) /\
    euler_lines v = part_lines e_fields vars ++ rot_lines an ++ rot_lines ra ++ [] /\
    (v = VNone \/ v = euler_elements vars an ra).
Proof.
  destruct e_names as [E1 [_ E3]]. intros [->|[vars [an [ra [-> [W [S [Oa Or]]]]]]]].
  - exists no_euler, VNone, VNone. split; [exact no_euler_wf|]. split; [right; by_compute|]. split; [left; reflexivity|]. split; [left; reflexivity|].
    split; [reflexivity|]. split; [by_compute|left; reflexivity].
  - rewrite E1 in W. exists vars, an, ra. pose proof (e_length vars W) as L. split; [exact W|]. split.
    { destruct S as [S|S]; [left; exact S|]. inversion W as [|? [k x] ? vars0 [En Wf] Ws]; subst. cbn [fst snd f_name comment_field] in *. subst k.
      destruct (wf_comment_value x Wf) as [ts [-> G]]. cbn [euler_elements comments_of app] in S.
      assert (Nl : forallb (fun f => negb (f_list f)) e_fields = true) by by_compute.
      destruct (set_or_empty _ _ Nl Ws) as [[n [y [I1 I2]]]|Ee]; [left; exists n, y; split; [right; exact I1|exact I2]|right].
      unfold part_lines. cbn [entries comment_field f_kw]. rewrite Ee, app_nil_r. rewrite S. reflexivity. }
    split; [exact Oa|]. split; [exact Or|].
    destruct (firstn_exact 6 vars [("rotation_angles", an); ("rotation_rates", ra)] L) as [X1 X2]. split.
    + clear - L. do 6 (destruct vars as [|? vars]; [discriminate L|]). destruct vars; [reflexivity|discriminate L].
    + split; [|right; reflexivity]. unfold euler_elements. cbn [euler_lines]. rewrite X1, X2. reflexivity.
Qed.

Section Main.
Variable u : env.

Lemma quat_within ks (q ql qr : elem) i j k v : quat_ok v ->
  part_elem q q_fields q_parts = true -> forallb leaf_elem [ql; qr] = true ->
  map (fun s => (e_name s, e_cls s)) [ql; qr] = [("quaternion", "QuaternionType"); ("quaternion_rate", "QuaternionRateType")] ->
  nth i ks [] = e_kws q -> nth j ks [] = e_kws ql -> nth k ks [] = e_kws qr -> within ks [i; j; k] (quat_lines v).
Proof.
  intros [vars [a [b [-> [W [_ [Ha Hb]]]]]]] Pe L En K1 K2 K3 t Ht. destruct q_names as [E1 _]. rewrite E1 in W.
  destruct (firstn_exact 5 vars [("quaternion", a); ("quaternion_rate", b)] (q_length vars W)) as [X1 X2].
  unfold quat_state in Ht. cbn [quat_lines] in Ht. rewrite X1, X2 in Ht. cbn [lines_of flat_map snd app] in Ht. rewrite app_nil_r in Ht.
  cbn [map] in En. injection En as N1 C1 N2 C2. cbn [forallb] in L. apply andb_true_iff in L. destruct L as [L1 L2].
  apply andb_true_iff in L2. destruct L2 as [L2 _]. rewrite <- C1 in Ha. rewrite <- C2 in Hb.
  rewrite !keys_of_app in Ht. apply in_app_or in Ht. destruct Ht as [Ht|Ht]; [|apply in_app_or in Ht; destruct Ht as [Ht|Ht]].
  - right. exists i. split; [left; reflexivity|]. rewrite K1. exact (part_keys q q_fields q_parts vars Pe W t Ht).
  - destruct (section_keys_incl u ql a L1 Ha t Ht) as [Y|Y]; [left; exact Y|]. right. exists j. split; [right; left; reflexivity|]. rewrite K2. exact Y.
  - destruct (section_keys_incl u qr b L2 Hb t Ht) as [Y|Y]; [left; exact Y|]. right. exists k. split; [right; right; left; reflexivity|]. rewrite K3. exact Y.
Qed.
Lemma quat_reads (q ql qr : elem) v R : quat_ok v ->
  part_elem q q_fields q_parts = true -> e_cls q = "QuaternionStateType" -> e_subs q = [ql; qr] -> forallb sec_elem [ql; qr] = true ->
  disjoint_all [q; ql; qr] = true ->
  map (fun s => (e_name s, e_cls s)) [ql; qr] = [("quaternion", "QuaternionType"); ("quaternion_rate", "QuaternionRateType")] ->
  (forall t, In t (e_kws q ++ flat_map e_kws [ql; qr]) -> t <> kw_comment -> ~ In t (keys_of R)) ->
  reads u q (quat_lines v ++ R) v (List.length (quat_lines v)).
Proof.
  intros [vars [a [b [-> [W [Hs [Ha Hb]]]]]]] Pe Ec Es L D En Nr. destruct q_names as [E1 [E2 _]]. rewrite E1 in W.
  destruct (firstn_exact 5 vars [("quaternion", a); ("quaternion_rate", b)] (q_length vars W)) as [X1 X2].
  unfold quat_state. cbn [quat_lines]. rewrite X1, X2, <- Ec.
  apply (leaves_reads u q q_fields q_parts [ql; qr]); try assumption.
  - rewrite Ec. exact E2.
  - apply sec_elems_leaf. exact L.
  - assert (Np : map (fun f => (f_name f, f_list f)) q_parts = [("quaternion", false); ("quaternion_rate", false)]) by by_compute.
    clear - Np. revert Np. generalize q_parts. intros fs Np.
    do 2 (destruct fs as [|? fs]; [discriminate Np|]; injection Np as P1 P2 Np; constructor; [split; [symmetry; exact P1|exact P2]|]; clear P1 P2).
    destruct fs; [constructor|discriminate Np].
  - cbn [map] in En. injection En as N1 C1 N2 C2. cbn [forallb] in L. apply andb_true_iff in L. destruct L as [L1 L2].
    apply andb_true_iff in L2. destruct L2 as [L2 _]. destruct (sec_elem_spec _ L1) as [_ [I1 _]]. destruct (sec_elem_spec _ L2) as [_ [I2 _]].
    constructor; [|constructor; [|constructor]]; (split; [symmetry; assumption|split; [assumption|]]); cbn [snd]; [rewrite C1|rewrite C2]; assumption.
  - assert (X : no_dup_strings (map f_name q_parts) = true) by by_compute. exact (no_dup_strings_spec _ X).
  - discriminate.
  - left. exact Hs.
Qed.
Lemma quat_emits (q ql qr : elem) v key : quat_ok v -> plain_key key ->
  e_cls q = "QuaternionStateType" -> quiet_class (e_cls q) = true -> forallb sec_elem [ql; qr] = true ->
  map (fun s => (e_name s, e_cls s)) [ql; qr] = [("quaternion", "QuaternionType"); ("quaternion_rate", "QuaternionRateType")] ->
  emits u key v (quat_lines v).
Proof.
  intros [vars [a [b [-> [W [_ [Ha Hb]]]]]]] K Ec Q L En. destruct q_names as [E1 [_ [E3 _]]]. rewrite E1 in W.
  destruct (firstn_exact 5 vars [("quaternion", a); ("quaternion_rate", b)] (q_length vars W)) as [X1 X2].
  unfold quat_state. cbn [quat_lines]. rewrite X1, X2. apply emits_node; [exact K|rewrite <- Ec; exact Q| |].
  - rewrite map_app, (wf_vars_names _ _ W). by_compute.
  - apply emits_vars_app; [apply emits_fields; assumption|]. apply (emits_sections u [ql; qr]); [exact L|].
    cbn [map] in En. injection En as N1 C1 N2 C2. cbn [forallb] in L. apply andb_true_iff in L. destruct L as [L1 L2].
    apply andb_true_iff in L2. destruct L2 as [L2 _]. destruct (sec_elem_spec _ L1) as [_ [I1 _]]. destruct (sec_elem_spec _ L2) as [_ [I2 _]].
    constructor; [|constructor; [|constructor]]; (split; [symmetry; assumption|split; [assumption|]]); cbn [snd]; [rewrite C1|rewrite C2]; assumption.
Qed.

Lemma euler_within ks (eu an ra : elem) i j k v : euler_ok v -> part_elem eu e_fields e_parts = true ->
  rot_elem an "RotationAngleType" "angle" "RotationAngleComponentType" "AngleKeywordType" "AngleUnits" angle_names ->
  rot_elem ra "RotationRateType" "rate" "RotationRateComponentType" "AngleRateKeywordType" "AngleRateUnits" rate_names ->
  nth i ks [] = e_kws eu -> nth j ks [] = axis_names angle_names -> nth k ks [] = axis_names rate_names ->
  within ks [i; j; k] (euler_lines v).
Proof.
  intros Hv Pe Ra Rr K1 K2 K3 t Ht. destruct (euler_view v Hv) as [vars [a [r [W [_ [Oa [Or [_ [El _]]]]]]]]]. rewrite El in Ht.
  rewrite app_nil_r, !keys_of_app in Ht. right. apply in_app_or in Ht. destruct Ht as [Ht|Ht]; [|apply in_app_or in Ht; destruct Ht as [Ht|Ht]].
  - exists i. split; [left; reflexivity|]. rewrite K1. exact (part_keys eu e_fields e_parts vars Pe W t Ht).
  - exists j. split; [right; left; reflexivity|]. rewrite K2. eapply rot_keys; [exact u|exact Ra|exact Oa|exact Ht].
  - exists k. split; [right; right; left; reflexivity|]. rewrite K3. eapply rot_keys; [exact u|exact Rr|exact Or|exact Ht].
Qed.
Lemma euler_reads (eu an ra : elem) v R : euler_ok v ->
  part_elem eu e_fields e_parts = true -> e_cls eu = "EulerElementsThreeType" -> e_subs eu = [an; ra] ->
  e_name an = "rotation_angles" -> e_name ra = "rotation_rates" ->
  rot_elem an "RotationAngleType" "angle" "RotationAngleComponentType" "AngleKeywordType" "AngleUnits" angle_names ->
  rot_elem ra "RotationRateType" "rate" "RotationRateComponentType" "AngleRateKeywordType" "AngleRateUnits" rate_names ->
  (forall t, In t (e_kws eu) -> t <> kw_comment -> ~ In t (axis_names angle_names ++ axis_names rate_names)) ->
  (forall t, In t (axis_names angle_names) -> ~ In t (axis_names rate_names)) ->
  (forall t, In t (e_kws eu) -> t <> kw_comment -> ~ In t (keys_of R)) ->
  (forall t, In t (axis_names angle_names ++ axis_names rate_names) -> ~ In t (keys_of R)) ->
  reads u eu (euler_lines v ++ R) (filled_euler v) (List.length (euler_lines v)).
Proof.
  intros Hv Pe Ec Es Na Nr Ra Rr D1 D2 N1 N2. destruct e_names as [_ [E2 _]].
  destruct (euler_view v Hv) as [vars [a [r [W [Hs [Oa [Or [Ef [El _]]]]]]]]]. rewrite Ef, El. unfold euler_elements.
  assert (Ka : forall t, In t (keys_of (rot_lines a)) -> In t (axis_names angle_names)).
  { intros t Ht. eapply rot_keys; [exact u|exact Ra|exact Oa|exact Ht]. }
  assert (Kr : forall t, In t (keys_of (rot_lines r)) -> In t (axis_names rate_names)).
  { intros t Ht. eapply rot_keys; [exact u|exact Rr|exact Or|exact Ht]. }
  rewrite app_nil_r, !app_length, <- !app_assoc, <- Ec.
  eapply part_reads with (att := [(e_name an, filled_rotation "RotationAngleType" a); (e_name ra, filled_rotation "RotationRateType" r)])
     (fs2 := e_parts); try assumption.
  - rewrite Ec. exact E2.
  - intros t Ht Nc Hi. rewrite !keys_of_app in Hi. apply in_app_or in Hi. destruct Hi as [Hi|Hi]; [|apply in_app_or in Hi; destruct Hi as [Hi|Hi]].
    + apply (D1 t Ht Nc). apply in_or_app. left. apply Ka. exact Hi.
    + apply (D1 t Ht Nc). apply in_or_app. right. apply Kr. exact Hi.
    + exact (N1 t Ht Nc Hi).
  - discriminate.
  - rewrite Es, <- (Nat.add_0_r (List.length (rot_lines r))).
    apply subs_one; [apply Ra| |apply subs_one; [apply Rr| |apply subs_nil]].
    + eapply rot_reads; [exact Ra|exact Oa|]. intros t Ht Hi. rewrite keys_of_app in Hi. apply in_app_or in Hi. destruct Hi as [Hi|Hi].
      * apply (D2 t Ht). apply Kr. exact Hi.
      * apply (N2 t); [apply in_or_app; left; exact Ht|exact Hi].
    + eapply rot_reads; [exact Rr|exact Or|]. intros t Ht Hi. apply (N2 t); [apply in_or_app; right; exact Ht|exact Hi].
  - rewrite Na, Nr. assert (Np : defaults e_parts = [("rotation_angles", VNone); ("rotation_rates", VNone)]) by by_compute. rewrite Np.
    destruct Oa as [->|[->|[? [? [? [-> _]]]]]]; destruct Or as [->|[->|[? [? [? [-> _]]]]]]; reflexivity.
  - rewrite Na, Nr. assert (Np : map f_name e_parts = ["rotation_angles"; "rotation_rates"]) by by_compute. rewrite Np.
    constructor; [left; reflexivity|constructor; [right; left; reflexivity|constructor]].
Qed.
Lemma euler_emits (eu an ra : elem) v key : euler_ok v -> plain_key key -> e_cls eu = "EulerElementsThreeType" -> quiet_class (e_cls eu) = true ->
  rot_elem an "RotationAngleType" "angle" "RotationAngleComponentType" "AngleKeywordType" "AngleUnits" angle_names ->
  rot_elem ra "RotationRateType" "rate" "RotationRateComponentType" "AngleRateKeywordType" "AngleRateUnits" rate_names ->
  emits u key v (euler_lines v).
Proof.
  intros Hv K Ec Q Ra Rr. destruct e_names as [_ [_ E3]].
  destruct (euler_view v Hv) as [vars [a [r [W [Hs [Oa [Or [Ef [El Ev]]]]]]]]]. destruct Ev as [->| ->].
  - cbn [euler_lines]. apply emits_none; apply K.
  - rewrite El. apply emits_node; [exact K|rewrite <- Ec; exact Q| |].
    + rewrite map_app, (wf_vars_names _ _ W). by_compute.
    + apply emits_vars_app; [apply emits_fields; assumption|].
      apply emits_vars_cons; [eapply rot_emits; [exact Ra|exact Oa|split; discriminate]|].
      apply emits_vars_cons; [eapply rot_emits; [exact Rr|exact Or|split; discriminate]|apply emits_vars_nil].
Qed.
End Main.

Theorem C47_apm_read_back : forall u header md cs quat euler secs mans,
  section "NdmHeader" header -> section "ApmMetadata" md -> Forall good_text cs ->
  quat_ok quat -> euler_ok euler -> sections apm_sections secs ->
  Forall (section "AttManeuverParametersType") mans -> no_new_fields mans ->
  exists t, kvn_to_string u (apm header md (texts cs) quat euler secs mans) = Ok t /\
            kvn_from_string u t = Ok (apm header md (firstn 1 (texts cs ++ comments_of quat))
                                        (with_comments (skipn 1 (texts cs ++ comments_of quat)) quat)
                                        (filled_euler euler) secs mans).
Proof.
  intros u header md cs quat euler secs mans Sh Sm G Hq He Hsec Fm Nf.
  destruct apm_shape as [hdr [body [seg [meta [data [q [eu [sp [sc [man [ql [qr [an [ra [[Oo [T1 [T2 [T3 [V1 [V2 V3]]]]]] [[Ch [Cb [Cs [Cm Cd]]]] [[Lh Lm] [[De [Ed Fd]] [Ap [[Pq [Cq [Nq [Iq [Qq [Eq [Lq [Dq Mq]]]]]]]] [[Pe [Ce [Ne [Ie [Qe [Ee [Nan Nra]]]]]]] [Ran [Rra [[Lsec [Dsec Msec]] [Lman [Nman Cman]]]]]]]]]]]]]]]]]]]]]]]]]].
  set (ks := apm_keys hdr meta q ql qr eu sp sc man) in *.
  destruct (list_elem_spec _ Lman) as [Lfm [Im [Scm Mm]]]. rewrite <- Cman in Fm.
  assert (Lq' := sec_elems_leaf _ Lq). assert (Lsec' := sec_elems_leaf _ Lsec).
  assert (F : Forall2 sec_of [sp; sc] secs).
  { apply (sections_sec_of apm_sections); [exact Msec| |exact Hsec].
    cbn [forallb] in Lsec |- *. apply andb_true_iff in Lsec. destruct Lsec as [A1 A2]. apply andb_true_iff in A2. destruct A2 as [A2 _].
    destruct (sec_elem_spec _ A1) as [_ [-> _]]. destruct (sec_elem_spec _ A2) as [_ [-> _]]. reflexivity. }
  (* which keywords occur where *)
  assert (Wm : within ks [10] (list_lines mans)).
  { intros k Hk. destruct (list_lines_incl u man mans k Lfm Fm Hk) as [Y|Y]; [left; exact Y|right; exists 10; split; [left; reflexivity|exact Y]]. }
  assert (Ws : within ks [8; 9] (lines_of secs)).
  { intros k Hk. destruct (lines_keys u [sp; sc] secs F Lsec' k Hk) as [Y|[x [[<-|[<-|[]]] Y]]]; [left; exact Y|right..];
      [exists 8; split; [left; reflexivity|exact Y]|exists 9; split; [right; left; reflexivity|exact Y]]. }
  assert (We : within ks [5; 6; 7] (euler_lines euler)) by (apply (euler_within u ks eu an ra); try assumption; reflexivity).
  set (R3 := lines_of secs ++ list_lines mans) in *. assert (W3 : within ks [8; 9; 10] R3) by (apply (within_app ks [8; 9] [10]); assumption).
  set (R2 := euler_lines euler ++ R3) in *. assert (W2 : within ks [5; 6; 7; 8; 9; 10] R2) by (apply (within_app ks [5; 6; 7] [8; 9; 10]); assumption).
  (* comments *)
  destruct (quat_split u quat Hq) as [ts [r0 [E1 [Gt [E2 [[l [r [Er Ek]]] X]]]]]].
  assert (Ga : Forall good_text (cs ++ ts)) by (apply Forall_app; auto).
  assert (Gs : Forall good_text (skipn 1 (cs ++ ts))) by (destruct (cs ++ ts); [constructor|inversion Ga; assumption]).
  destruct (X _ Gs) as [X1 X2]. set (quat' := with_comments (texts (skipn 1 (cs ++ ts))) quat) in *.
  assert (Eq' : with_comments (skipn 1 (texts cs ++ comments_of quat)) quat = quat').
  { unfold quat'. rewrite E1, <- texts_app, texts_skip. reflexivity. }
  assert (El : comment_lines cs ++ quat_lines quat ++ R2 = takes (hd_error (cs ++ ts)) ++ quat_lines quat' ++ R2).
  { rewrite E2, X2, <- !app_assoc. rewrite (app_assoc (comment_lines cs)).
    replace (comment_lines cs ++ comment_lines ts) with (comment_lines (cs ++ ts)) by apply map_app.
    rewrite (takes_comment (cs ++ ts)), <- !app_assoc. reflexivity. }
  assert (Wq : within ks [2; 3; 4] (quat_lines quat)) by (apply (quat_within u ks q ql qr); try assumption; reflexivity).
  assert (Wq' : within ks [2; 3; 4] (quat_lines quat')) by (apply (quat_within u ks q ql qr); try assumption; reflexivity).
  assert (Wc : within ks [] (comment_lines cs)).
  { intros k Hk. left. unfold comment_lines, keys_of in Hk. rewrite map_map in Hk. apply in_map_iff in Hk. destruct Hk as [x [<- _]]. reflexivity. }
  unfold apm. rewrite <- Cb, <- Cs, <- Cd. rewrite Eq'.
  apply (message_core u "Apm" hdr body seg meta data header md _ (comment_lines cs ++ quat_lines quat ++ R2)); try assumption.
  - cbn [In root_classes]; tauto.
  - rewrite Ch. exact Sh.
  - rewrite Cm. exact Sm.
  - apply emits_comment_vars; [exact G|]. apply emits_vars_cons; [apply (quat_emits u q ql qr); try assumption; split; discriminate|].
    apply emits_vars_cons; [apply (euler_emits u eu an ra); try assumption; split; discriminate|].
    apply emits_vars_app; [apply (emits_sections u [sp; sc]); assumption|].
    rewrite <- (app_nil_r (list_lines mans)). apply emits_vars_cons; [|apply emits_vars_nil].
    eapply emits_list_sections; [exact Scm|exact Mm|split; discriminate|exact Fm].
  - cbn [map fst]. rewrite map_app. replace (map fst secs) with (map fst apm_sections).
    2:{ clear - Hsec. induction Hsec as [|nc nv shape secs [E _] _ IH]; [reflexivity|]. cbn [map]. rewrite E, IH. reflexivity. }
    by_compute.
  - rewrite El, app_length.
    eapply data_block with (att := ("quaternion_state", quat') :: ("euler_elements_three", filled_euler euler) :: secs ++
       map (fun v => ("maneuver_parameters", v)) mans); try assumption.
    + rewrite X2, Er. intros Y. apply app_eq_nil in Y. destruct Y as [Y _]. apply app_eq_nil in Y. destruct Y; discriminate.
    + intros E0. rewrite X2, E0, Er. cbn. intros Y. injection Y as Y. contradiction.
    + discriminate.
    + rewrite Ed, !app_length, <- Nq, <- Ne. apply subs_one; [exact Iq| |].
      { apply (quat_reads u q ql qr); try assumption. intros t Ht Nc. apply in_app_or in Ht. destruct Ht as [Ht|Ht].
        - apply (within_not ks _ _ 2 Ap W2 eq_refl t Ht Nc).
        - cbn [flat_map] in Ht. apply in_app_or in Ht. destruct Ht as [Ht|Ht]; [apply (within_not ks _ _ 3 Ap W2 eq_refl t Ht Nc)|].
          rewrite app_nil_r in Ht. apply (within_not ks _ _ 4 Ap W2 eq_refl t Ht Nc). }
      unfold R2. rewrite app_length. apply subs_one; [exact Ie| |].
      { assert (NcA : forall t, In t (axis_names angle_names) -> t <> kw_comment).
        { intros t Ht E. subst t. revert Ht. apply not_in_strs. by_compute. }
        assert (NcR : forall t, In t (axis_names rate_names) -> t <> kw_comment).
        { intros t Ht E. subst t. revert Ht. apply not_in_strs. by_compute. }
        apply (euler_reads u eu an ra); try assumption.
        - intros t Ht Nc Hi. apply in_app_or in Hi. destruct Hi as [Hi|Hi];
            [exact (apart_nth ks 5 6 t Ap ltac:(lia) Ht Nc Hi)|exact (apart_nth ks 5 7 t Ap ltac:(lia) Ht Nc Hi)].
        - intros t Ht Hi. exact (apart_nth ks 6 7 t Ap ltac:(lia) Ht (NcA t Ht) Hi).
        - exact (within_not ks _ _ 5 Ap W3 eq_refl).
        - intros t Ht. apply in_app_or in Ht. destruct Ht as [Ht|Ht];
            [exact (within_not ks _ _ 6 Ap W3 eq_refl t Ht (NcA t Ht))|exact (within_not ks _ _ 7 Ap W3 eq_refl t Ht (NcR t Ht))]. }
      unfold R3. rewrite app_length.
      apply (sections_subs u [sp; sc] secs F [man]); try assumption.
      { intros s t Hs Ht Nc Hi. rewrite keys_of_app in Hi.
        assert (Wpre : within ks [2; 3; 4; 5; 6; 7] ((takes (hd_error (cs ++ ts)) ++ quat_lines quat') ++ euler_lines euler)).
        { apply (within_app ks [2; 3; 4] [5; 6; 7]); [|exact We]. apply (within_app ks [] [2; 3; 4]); [|exact Wq'].
          intros k Hk. left. destruct (cs ++ ts); [destruct Hk|]. destruct Hk as [Hk|[]]. symmetry. exact Hk. }
        rewrite <- keys_of_app in Hi. destruct (Wpre t Hi) as [Y|[j [J1 J2]]]; [contradiction|].
        assert (Lj : j < 8) by (repeat (destruct J1 as [<-|J1]; [lia|]); destruct J1).
        destruct Hs as [<-|[<-|[]]]; [exact (apart_nth ks j 8 t Ap ltac:(lia) J2 Nc Ht)|exact (apart_nth ks j 9 t Ap ltac:(lia) J2 Nc Ht)]. }
      { assert (K8 : forall v0, known (e_kws sp) (keys_of (sec_lines v0)) (keys_of (list_lines mans))).
        { intros v0 t Ht Nc Hi. exfalso. exact (within_not ks _ _ 8 Ap Wm eq_refl t Ht Nc Hi). }
        assert (K9 : forall v0, known (e_kws sc) (keys_of (sec_lines v0)) (keys_of (list_lines mans))).
        { intros v0 t Ht Nc Hi. exfalso. exact (within_not ks _ _ 9 Ap Wm eq_refl t Ht Nc Hi). }
        clear - F K8 K9. inversion F as [|? ? ? ? _ F']; subst. inversion F' as [|? ? ? ? _ F'']; subst. inversion F''; subst.
        constructor; [apply K8|constructor; [apply K9|constructor]]. }
      rewrite <- (app_nil_r (list_lines mans)) at 1. rewrite <- (Nat.add_0_r (List.length (list_lines mans))).
      rewrite <- (app_nil_r (map _ mans)), <- Nman.
      apply subs_list; [exact Im| |apply subs_nil]. apply section_list; try assumption. intros t _ _ [].
    + rewrite Cd.
      assert (Fd' : exists f1 f2 f3 f4 f5, tl (fields_of "ApmData") = [f1; f2; f3; f4; f5]).
      { revert Fd. generalize (tl (fields_of "ApmData")). intros fs Y. do 5 (destruct fs as [|? fs]; [discriminate Y|]). destruct fs; [|discriminate Y].
        do 5 eexists. reflexivity. }
      destruct Fd' as [f1 [f2 [f3 [f4 [f5 Y]]]]]. rewrite Y in Fd |- *. clear Y. cbn [map] in Fd.
      injection Fd as A1 B1 A2 B2 A3 B3 A4 B4 A5 B5.
      cbn [defaults map]. unfold field_default. rewrite B1, B2, B3, B4, B5, A1, A2, A3, A4, A5.
      inversion Hsec as [|? [n1 v1] ? ? [H1 O1] H']; subst. inversion H' as [|? [n2 v2] ? ? [H2 O2] H'']; subst. inversion H''; subst. cbn [fst snd] in H1, H2. subst n1 n2.
      assert (Oq : exists c vs, quat' = VObj c vs) by (destruct X1 as [vars [a [b [-> _]]]]; do 2 eexists; reflexivity).
      assert (Oe : exists c vs, filled_euler euler = VObj c vs).
      { destruct (euler_view euler He) as [vars [a [b [_ [_ [_ [_ [-> _]]]]]]]]. do 2 eexists. reflexivity. }
      assert (Os : forall c v, opt_section c v -> v = VNone \/ exists c vs, v = VObj c vs).
      { intros c v [Z|[vars [Z _]]]; [left; exact Z|right; exists c, vars; exact Z]. }
      change (attach_all (([("quaternion_state", quat'); ("euler_elements_three", filled_euler euler)] ++
         [(fst ("euler_elements_spin", "EulerElementsSpinType"), v1); (fst ("spacecraft_parameters", "AttSpacecraftParametersType"), v2)]) ++
         map (fun v => ("maneuver_parameters", v)) mans)
         [("comment", VList (firstn 1 (texts (cs ++ ts)))); ("quaternion_state", VNone); ("euler_elements_three", VNone);
          ("euler_elements_spin", VNone); ("spacecraft_parameters", VNone); ("maneuver_parameters", VList [])] =
         Ok (("comment", VList (firstn 1 (texts cs ++ comments_of quat))) :: ("quaternion_state", quat') :: ("euler_elements_three", filled_euler euler) ::
             [("euler_elements_spin", v1); ("spacecraft_parameters", v2)] ++ [("maneuver_parameters", VList mans)])).
      rewrite attach_all_app, E1, <- texts_app. clear - Oq Oe Os O1 O2 Fm. cbn [snd] in O1, O2. apply Os in O1, O2. clear Os.
      destruct Oq as [c1 [w1 ->]], Oe as [c2 [w2 ->]].
      destruct O1 as [->|[c3 [w3 ->]]]; destruct O2 as [->|[c4 [w4 ->]]];
        cbn [app attach_all attach assoc fst String.eqb Ascii.eqb Bool.eqb bind set_var];
        (rewrite attach_list; [reflexivity|eexists; reflexivity|]);
        (induction Fm as [|v vs [vars [-> _]] _ IH]; constructor; [discriminate|exact IH]).
  - intros t Ht Nc. assert (Wd : within ks [2; 3; 4; 5; 6; 7; 8; 9; 10] (comment_lines cs ++ quat_lines quat ++ R2)).
    { apply (within_app ks [] _ _ _ Wc). apply (within_app ks [2; 3; 4] [5; 6; 7; 8; 9; 10]); assumption. }
    apply in_app_or in Ht. destruct Ht as [Ht|Ht]; [exact (within_not ks _ _ 0 Ap Wd eq_refl t Ht Nc)|exact (within_not ks _ _ 1 Ap Wd eq_refl t Ht Nc)].
Qed.
Print Assumptions C47_apm_read_back.

(* The full statement would have the message read back unchanged.  That holds when the comments of the data block are where
   the reader puts them and no Euler part is left out; see the refutations below for the rest. *)
Theorem C47_apm_round_trip_partial : forall u header md cs quat euler secs mans,
  section "NdmHeader" header -> section "ApmMetadata" md -> Forall good_text cs ->
  quat_ok quat -> euler_ok euler -> sections apm_sections secs ->
  Forall (section "AttManeuverParametersType") mans -> no_new_fields mans ->
  comments_settled (texts cs) [("quaternion_state", quat)] -> all_filled euler ->
  exists t, kvn_to_string u (apm header md (texts cs) quat euler secs mans) = Ok t /\
            kvn_from_string u t = Ok (apm header md (texts cs) quat euler secs mans).
Proof.
  intros u header md cs quat euler secs mans Sh Sm G Hq He Hs Fm Nf C A.
  destruct (C47_apm_read_back u header md cs quat euler secs mans Sh Sm G Hq He Hs Fm Nf) as [t [W R]]. exists t. split; [exact W|].
  rewrite R, A. destruct Hq as [vars [a [b [-> _]]]]. destruct (settled_same _ _ C) as [C1 C2].
  assert (C3 : with_comments (skipn 1 (texts cs ++ comments_of (quat_state vars a b))) (quat_state vars a b) = quat_state vars a b).
  { apply (f_equal (fun l => match l with (_, v) :: _ => v | [] => VNone end)) in C2. exact C2. }
  rewrite C3. replace (firstn 1 (texts cs ++ comments_of (quat_state vars a b))) with (texts cs) by (symmetry; exact C1). reflexivity.
Qed.
Print Assumptions C47_apm_round_trip_partial.

(* ---- concrete messages ---- *)
Definition demo_quat (cs : list string) : pyval :=
  quat_state (firstn 5 (vars_of (demo_but "QuaternionStateType" cs []))) (demo_but "QuaternionType" [] []) (demo_but "QuaternionRateType" [] []).
Definition demo_angle (i : nat) (d : dec) (un : pyval) : pyval :=
  let m := nth i angle_names ("", "") in
  VObj "RotationAngleComponentType" [("value", VDec d); ("angle", VEnum "AngleKeywordType" (fst m) (lit (snd m))); ("units", un)].
Definition demo_rate (i : nat) (d : dec) (un : pyval) : pyval :=
  let m := nth i rate_names ("", "") in
  VObj "RotationRateComponentType" [("value", VDec d); ("rate", VEnum "AngleRateKeywordType" (fst m) (lit (snd m))); ("units", un)].
Definition demo_euler (cs : list string) (an ra : pyval) : pyval :=
  euler_elements (firstn 6 (vars_of (demo_but "EulerElementsThreeType" cs ["rate_frame"]))) an ra.
Definition demo_angles : pyval := VObj "RotationAngleType"
  (rotation (demo_angle 2 (DFin true 125 (-1)) (demo_scalar (TCls "AngleUnits"))) (demo_angle 0 (DFin false 3 0) VNone) (demo_angle 1 (DFin false 7 (-3)) VNone)).
Definition demo_rates : pyval := VObj "RotationRateType"
  (rotation (demo_rate 0 (DFin false 1 0) VNone) (demo_rate 1 (DFin false 2 0) (demo_scalar (TCls "AngleRateUnits"))) (demo_rate 2 (DFin true 3 0) VNone)).
Definition apm_meta : pyval := demo_but "ApmMetadata" ["m 1"] [].
Definition apm_parts : list (string * pyval) :=
  [("euler_elements_spin", demo_but "EulerElementsSpinType" ["s 1"; "s 2"] []);
   ("spacecraft_parameters", demo_only "AttSpacecraftParametersType" [] ["i11"; "i22"])].
Definition apm_mans : list pyval :=
  [demo_but "AttManeuverParametersType" ["a"] []; demo_but "AttManeuverParametersType" ["b"; "c"] []].


Definition some_setb (vars : list (string * pyval)) : bool :=
  existsb (fun nv => match snd nv with VNone | VList _ => false | _ => true end) vars.
Lemma some_setb_spec vars : some_setb vars = true -> some_set vars.
Proof.
  intros H. apply existsb_exists in H. destruct H as [[n x] [Hi X]]. exists n, x. split; [exact Hi|]. destruct x; try discriminate; exact I.
Qed.
Lemma quatb vars q r : wf_varsb (firstn 5 (fields_of "QuaternionStateType")) vars && some_setb vars && opt_sectionb "QuaternionType" q &&
  opt_sectionb "QuaternionRateType" r = true -> quat_ok (quat_state vars q r).
Proof.
  intros H. do 3 (apply andb_true_iff in H; destruct H as [H ?]). exists vars, q, r. split; [reflexivity|].
  split; [apply wf_varsb_spec; exact H|]. split; [apply some_setb_spec; assumption|]. split; apply opt_sectionb_spec; assumption.
Qed.
Definition componentb (c axis axes units : string) (v : pyval) : bool :=
  match v with
  | VObj c' [(k1, x); (k2, VEnum a m s); (k3, un)] =>
    String.eqb c' c && String.eqb k1 "value" && String.eqb k2 axis && String.eqb k3 "units" && String.eqb a axes && wf_amountb x &&
    match find_class axes with Some (CEnum ms) => existsb (fun p => String.eqb (fst p) m && str_eqb (lit (snd p)) s) ms | _ => false end &&
    match un with VNone => true | _ => wf_unitb (TCls units) un end
  | _ => false
  end.
Lemma componentb_spec c axis axes units v : componentb c axis axes units v = true -> component c axis axes units v.
Proof.
  unfold componentb. intros H. destruct v as [| | | | |c' vars|]; try discriminate.
  destruct vars as [|[k1 x] [|[k2 y] [|[k3 un] [|]]]]; try discriminate; destruct y as [| | | |a m s| |]; try discriminate.
  do 7 (apply andb_true_iff in H; destruct H as [H ?]).
  repeat match goal with X : String.eqb _ _ = true |- _ => apply String.eqb_eq in X; subst end.
  destruct (find_class axes) as [[|ms]|] eqn:E; try discriminate.
  match goal with X : existsb _ _ = true |- _ => apply existsb_exists in X; destruct X as [[m' s'] [Hi X]] end. cbn [fst snd] in *.
  match goal with X : _ && _ = true |- _ => apply andb_true_iff in X; destruct X as [Y1 Y2] end.
  apply String.eqb_eq in Y1. apply str_eqb_eq in Y2. subst m' s. exists x, ms, m, s', un. split; [reflexivity|].
  split; [apply wf_amountb_spec; assumption|]. split; [exact E|]. split; [exact Hi|].
  destruct un; try (left; reflexivity); right; apply wf_unitb_spec; assumption.
Qed.
Lemma eulerb vars an ra :
  wf_varsb (firstn 6 (fields_of "EulerElementsThreeType")) vars = true -> some_setb vars = true ->
  opt_rotation "RotationAngleType" angle_part an -> opt_rotation "RotationRateType" rate_part ra -> euler_ok (euler_elements vars an ra).
Proof.
  intros W H Ha Hr. right. exists vars, an, ra. split; [reflexivity|]. split; [apply wf_varsb_spec; exact W|].
  split; [left; apply some_setb_spec; exact H|]. split; assumption.
Qed.
Lemma demo_angles_ok : opt_rotation "RotationAngleType" angle_part demo_angles.
Proof. right. right. do 3 eexists. split; [reflexivity|]. repeat (apply conj); (apply componentb_spec; by_compute). Qed.
Lemma demo_rates_ok : opt_rotation "RotationRateType" rate_part demo_rates.
Proof. right. right. do 3 eexists. split; [reflexivity|]. repeat (apply conj); (apply componentb_spec; by_compute). Qed.

Example C47_example : section "NdmHeader" demo_header /\ section "ApmMetadata" apm_meta /\ Forall good_text [lit "d 1"] /\
  quat_ok (demo_quat ["q 1"; "q 2"]) /\ euler_ok (demo_euler ["e"] demo_angles demo_rates) /\ sections apm_sections apm_parts /\
  Forall (section "AttManeuverParametersType") apm_mans /\ no_new_fields apm_mans /\
  comments_settled (texts [lit "d 1"]) [("quaternion_state", demo_quat ["q 1"; "q 2"])] /\ all_filled (demo_euler ["e"] demo_angles demo_rates).
Proof.
  split; [met|]. split; [met|]. split; [eapply allb; [apply good_textb_spec|by_compute]|]. split; [apply quatb; by_compute|].
  split; [apply eulerb; [by_compute|by_compute|exact demo_angles_ok|exact demo_rates_ok]|]. split; [apply sectionsb_spec; by_compute|].
  split; [eapply allb; [apply sectionb_spec|by_compute]|]. split; [apply no_new_b_spec; by_compute|]. split; [left; reflexivity|by_compute].
Qed.

(* A message without Euler elements is read back with Euler elements that are there but empty. *)
Theorem C47_apm_round_trip_refuted : exists header md cs quat secs t v,
  section "NdmHeader" header /\ section "ApmMetadata" md /\ Forall good_text cs /\ quat_ok quat /\ sections apm_sections secs /\
  comments_settled (texts cs) [("quaternion_state", quat)] /\
  kvn_to_string demo_env (apm header md (texts cs) quat VNone secs []) = Ok t /\ kvn_from_string demo_env t = Ok v /\
  v <> apm header md (texts cs) quat VNone secs [].
Proof.
  exists demo_header, apm_meta, [lit "d 1"], (demo_quat []), apm_parts.
  destruct C47_example as [A [B [C [_ [_ [D _]]]]]].
  assert (Q : quat_ok (demo_quat [])) by (apply quatb; by_compute).
  destruct (C47_apm_read_back demo_env demo_header apm_meta [lit "d 1"] (demo_quat []) VNone apm_parts [] A B C Q (or_introl eq_refl) D
     (Forall_nil _) I) as [t [W R]].
  exists t. eexists. split; [exact A|]. split; [exact B|]. split; [exact C|]. split; [exact Q|]. split; [exact D|].
  split; [left; reflexivity|]. split; [exact W|]. split; [exact R|]. vm_compute. discriminate.
Qed.
