(* Ephemeris data: state-vector lines and covariance blocks are read and written. *)
From Coq Require Import NArith ZArith List Bool String Arith Lia.
From Verif Require Import PyStr PyDec PyVal Schema KvnPre KvnTree KvnSeg XmlBind KvnBuild NdmXml KvnWrite
     Spec SpecKvn SpecObj SpecMsg SpecEph StrFacts DecFacts PreFacts SegFacts BuildFacts WriteFacts ParseFacts ShiftFacts
     ReadFacts ComposeFacts MsgFacts PropWrite CoreFacts UserFacts DataFacts SingleFacts ListFacts RelFacts SegListFacts
     CheckFacts GapFacts EphText.
Import ListNotations.
Local Open Scope string_scope.
Local Open Scope list_scope.
Local Arguments find_class : simpl never.
Local Arguments lit : simpl never.

Definition kws_of (fs : list field) : list str := map (fun f => lit (kw_of f)) fs.
(* a text field *)
Definition text_field (f : field) : bool :=
  kw_field_ok f && negb (f_list f) && match f_ty f with TStr => true | _ => false end.

Section Eph.
Variable u : env.

Lemma bind_text cls fs1 f fs2 seen t cs vars : text_field f = true -> NoDup (map xml_name (fs1 ++ f :: fs2)) ->
  ~ In (f_name f) seen -> t <> [] -> Forall (fun c => xml_char c = true) t ->
  bind_children u cls (fs1 ++ f :: fs2) seen ((lit (kw_of f), [], t) :: cs) vars
  = bind_children u cls (fs1 ++ f :: fs2) (f_name f :: seen) cs (set_var (f_name f) (VStr t) vars).
Proof.
  intros H Dx Ns Ne X. unfold text_field in H. do 2 (apply andb_true_iff in H; destruct H as [H ?]).
  match goal with Y : negb (f_list f) = true |- _ => apply negb_true_iff in Y; rename Y into Lf end.
  pose proof (kw_field_spec u f H) as [Kd [_ [_ [Kw _]]]].
  assert (Ex : xml_name f = lit (kw_of f)) by (unfold xml_name; rewrite Kw; reflexivity).
  cbn [bind_children]. unfold child_ok. rewrite (forall_xml t X). cbn [forallb andb]. rewrite <- Ex.
  rewrite (find_elem_at fs1 f fs2 Dx Kd), Lf.
  replace (existsb (String.eqb (f_name f)) seen) with false.
  2:{ symmetry. apply not_true_is_false. intros Y. apply existsb_exists in Y. destruct Y as [y [Hy Ey]].
      apply String.eqb_eq in Ey. subst y. contradiction. }
  unfold bind_child. destruct (f_ty f); try discriminate. rewrite conv_nonempty by exact Ne. reflexivity.
Qed.

Lemma new_vars c : forallb unfixed (fields_of c) = true -> vars_of (new_obj c) = defaults (fields_of c).
Proof.
  intros Un. unfold new_obj, vars_of, init_fields, defaults. f_equal.
  induction (fields_of c) as [|f fs IH]; [reflexivity|]. cbn in *. unfold unfixed in Un at 1.
  destruct (f_fixed f); [discriminate|]. rewrite IH by exact Un. reflexivity.
Qed.

(* ---- state vectors ---- *)
Lemma state_fields : exists f0 fs, fields_of "StateVectorAccType" = f0 :: fs /\ f_name f0 = "epoch" /\ kw_of f0 = "EPOCH" /\
  text_field f0 = true /\ shape_of fs = state_columns /\ forallb column_field fs = true /\ List.length fs = 9 /\
  leaf_class "StateVectorAccType" = true.
Proof. eexists. eexists. split; [vm_compute; reflexivity|]. repeat (apply conj); vm_compute; reflexivity. Qed.

Lemma parse_state e ts ds : good_text e -> Forall2 number_text ts ds -> List.length ts <= 9 ->
  parse_list u "StateVectorAccType" None (zip_lines (kws_of (fields_of "StateVectorAccType")) (e :: ts)) = Ok (oem_state (e, ds)).
Proof.
  intros [Ne [_ [_ Xe]]] F L. destruct state_fields as [f0 [fs [E [N0 [K0 [T0 [Sh [Cf [Lf Lc]]]]]]]]].
  destruct (leaf_xml_ok u _ Lc) as [[Dn Dx] Un]. unfold parse_list. rewrite new_vars by exact Un. rewrite E in *. 
  destruct (bind_columns u "StateVectorAccType" (f0 :: fs) (conj Dn Dx) fs [f0] ts ds [("epoch", VStr e)] ["epoch"]) as [cs [E1 E2]];
    try assumption; try reflexivity; try lia.
  - cbn [map fst]. rewrite N0. reflexivity.
  - cbn [map]. rewrite N0. apply incl_refl.
  - cbn [kws_of map zip_lines map_res]. unfold child_of_line at 1. cbn [get nth_error guard_opt bind]. fold (kws_of fs) in *.
    unfold kws_of in *. rewrite E1. cbn [bind]. rewrite (bind_text "StateVectorAccType" [] f0 fs [] e cs) by (try assumption; intros []).
    cbn [defaults map set_var app]. rewrite String.eqb_refl, N0. cbn [app] in E2. unfold defaults. rewrite E2, Sh. reflexivity.
Qed.

Definition sline (l : line) (r : record) : Prop :=
  exists s ts extra, l = [s] /\ trimmed s /\ columned (fst r :: ts ++ extra) s /\ date_text (fst r) /\
               Forall2 number_text ts (snd r) /\ List.length ts <= 9 /\ (extra = [] \/ List.length ts = 9).
Lemma zip_lines_long ks a b : List.length ks <= List.length a -> zip_lines ks (a ++ b) = zip_lines ks a.
Proof. revert a; induction ks as [|k ks IH]; intros [|x a] L; cbn in L; try lia; destruct b; try reflexivity; cbn [app zip_lines]; rewrite IH by lia; reflexivity. Qed.
Definition state_elem (s : elem) : Prop :=
  e_cls s = "StateVectorAccType" /\ e_subs s = [] /\ e_kws s = kws_of (fields_of "StateVectorAccType") /\ e_islist s = true.

Lemma date_is e : date_text e -> is_datestr u e = Ok true.
Proof.
  intros [_ [_ [_ [a [b [c [d [r [-> F]]]]]]]]]. inversion F as [|? ? H1 F1]; subst. inversion F1 as [|? ? H2 F2]; subst.
  inversion F2 as [|? ? H3 F3]; subst. inversion F3 as [|? ? H4 F4]; subst.
  assert (A : forall x, is_digit x = true -> is_ascii x = true).
  { intros x Hx. apply is_digit_range in Hx. unfold is_ascii. apply N.ltb_lt. lia. }
  unfold is_datestr, isnumeric. cbn [firstn forallb]. rewrite !A by assumption. rewrite H1, H2, H3, H4. reflexivity.
Qed.
Lemma state_reads s l r R : state_elem s -> sline l r -> reads u s (l :: R) (oem_state r) 1.
Proof.
  intros [Ec [Es [Ek Il]]] [t [ts [extra [-> [Tr [C [D [F [L X]]]]]]]]]. exists 1, s. rewrite identify_eq. unfold own_range. rewrite Ec. cbn [String.eqb Ascii.eqb Bool.eqb orb].
  unfold date_range. cbn [get nth_error guard_opt bind]. rewrite (split_ws_columned _ _ C). cbn [nth_error guard_opt bind get].
  rewrite (date_is _ D). cbn [bind]. rewrite Es. cbn [snd]. split; [reflexivity|]. split; [left; lia|].
  intros pre fuel Df. destruct fuel as [|n]; [lia|]. rewrite shift_set_mm, shift_subs_nil by exact Es.
  cbn [build set_mm e_cls e_mm e_subs e_kws e_single]. rewrite Ec, Es. cbn [String.eqb Ascii.eqb Bool.eqb].
  unfold shift_range. cbn [fst snd]. rewrite slice_shift. unfold slice. cbn [skipn firstn Nat.sub].
  cbn [get nth_error guard_opt bind]. rewrite (split_ws_columned _ _ C), Ek.
  replace (zip_lines (kws_of (fields_of "StateVectorAccType")) (fst r :: ts ++ extra)) with (zip_lines (kws_of (fields_of "StateVectorAccType")) (fst r :: ts)).
  2:{ destruct X as [->|X]; [rewrite app_nil_r; reflexivity|]. change (fst r :: ts ++ extra) with ((fst r :: ts) ++ extra).
      rewrite zip_lines_long; [reflexivity|]. cbn [List.length]. rewrite X. apply Nat.leb_le. vm_compute. reflexivity. }
  rewrite (parse_state (fst r) ts (snd r)) by (try assumption; apply D). destruct r as [e ds]. reflexivity.
Qed.

(* a keyword: an ASCII word that begins with a capital letter and is not taken for a number *)
Definition wordb (s : str) : bool := match s with [] => false | _ => forallb (fun c => negb (is_ws c)) s end.
Definition plain_kw (k : str) : bool :=
  wordb k && forallb is_ascii k && match k with c :: _ => is_upper_ascii c | [] => false end && negb (float_ok_ascii k).
Definition keyed (l : line) : Prop := exists k r, l = k :: r /\ plain_kw k = true.
Lemma plain_kw_spec k : plain_kw k = true -> word k /\ (exists c w, k = c :: w /\ is_upper_ascii c = true) /\ float_ok u k = false.
Proof.
  unfold plain_kw, wordb. intros H. do 3 (apply andb_true_iff in H; destruct H as [H ?]). destruct k as [|c w]; [discriminate|].
  split; [split; [discriminate|]|split].
  - apply Forall_forall. intros x Hx. rewrite forallb_forall in H. apply H in Hx. apply negb_true_iff in Hx. exact Hx.
  - exists c, w. auto.
  - unfold float_ok. rewrite to_ascii_id; [apply negb_true_iff; assumption|]. apply Forall_forall. apply forallb_forall. assumption.
Qed.
Lemma upper_not_digit c : is_upper_ascii c = true -> is_ascii c = true /\ is_digit c = false.
Proof.
  unfold is_upper_ascii, is_ascii, is_digit, in_range. intros H. apply andb_true_iff in H. destruct H as [H1 H2]. apply N.leb_le in H1, H2.
  split; [apply N.ltb_lt; lia|]. apply andb_false_iff. right. apply N.leb_gt. lia.
Qed.
Lemma word_split k : word k -> split_ws k = [k].
Proof.
  intros W. apply split_ws_columned. rewrite <- (app_nil_r k) at 2. apply (col_word [] k [] []); [apply blank_nil|exact W|apply col_end, blank_nil|left; reflexivity].
Qed.
Lemma state_stops s l R : state_elem s -> keyed l -> stops u s (l :: R).
Proof.
  intros [Ec [Es [Ek Il]]] [k [r [-> P]]]. destruct (plain_kw_spec k P) as [W [[c [w [-> U]]] _]]. exists 0, 0, 0, s. rewrite identify_eq. unfold own_range. rewrite Ec. cbn [String.eqb Ascii.eqb Bool.eqb orb].
  unfold date_range. cbn [get nth_error guard_opt bind]. rewrite (word_split _ W). cbn [nth_error guard_opt bind get].
  destruct (upper_not_digit c U) as [A D]. unfold is_datestr, isnumeric. cbn [firstn forallb]. rewrite A, D. cbn [andb bind]. rewrite Es. auto.
Qed.
Lemma states_list s sls rs R : state_elem s -> Forall2 sline sls rs -> sls <> [] ->
  (R = [] \/ exists l R', R = l :: R' /\ keyed l) -> list_reads u s (sls ++ R) (map oem_state rs) R.
Proof.
  intros Se F Ne H. induction F as [|l r sls rs Hl F IH]; [congruence|]. cbn [app map].
  destruct sls as [|l' sls].
  - inversion F; subst. cbn [app map]. destruct H as [->|[k [R' [-> Hk]]]].
    + apply (lr_end u s [l]); [cbn; lia|apply state_reads; assumption].
    + apply (lr_cons u s [l]); [cbn; lia|cbn; lia|apply state_reads; assumption|]. apply lr_stop. apply state_stops; assumption.
  - apply (lr_cons u s [l]); [cbn; lia|cbn; lia|apply state_reads; assumption|]. apply IH. discriminate.
Qed.

(* writing *)
Lemma columns_texts shape ds : List.length ds <= List.length shape ->
  map_res (fun v => py_str (value_or_self v)) (filter truthy (map snd (columns shape ds))) = Ok (map show_dec ds).
Proof.
  revert ds; induction shape as [|[n c] shape IH]; intros ds L.
  - destruct ds; [reflexivity|cbn in L; lia].
  - destruct ds as [|d ds]; cbn [columns map snd filter truthy number].
    + specialize (IH [] (Nat.le_0_l _)). exact IH.
    + cbn [map_res]. unfold value_or_self at 1. cbn [py_getattr assoc String.eqb Ascii.eqb Bool.eqb py_str bind].
      rewrite IH by (cbn in L; lia). reflexivity.
Qed.
Lemma join_no_char c ts : c <> c_sp -> Forall (no_char c) ts -> no_char c (join gap ts).
Proof.
  intros N F. induction F as [|t ts Ht _ IH]; [intros []|]. destruct ts as [|t' ts]; [exact Ht|].
  change (join gap (t :: t' :: ts)) with (t ++ gap ++ join gap (t' :: ts)). apply no_char_app. split; [exact Ht|].
  apply no_char_app. split; [intros [X|[X|[]]]; congruence|exact IH].
Qed.
Lemma join_trimmed ts : Forall word ts -> trimmed (join gap ts).
Proof.
  intros F. destruct ts as [|t ts]; [apply trimmed_nil|]. 
  assert (H1 : exists c r, join gap (t :: ts) = c :: r /\ is_ws c = false).
  { inversion F as [|? ? [Ne W] _]; subst. destruct t as [|c t]; [congruence|]. inversion W; subst. destruct ts; do 2 eexists; split; try reflexivity; assumption. }
  assert (H2 : exists c r, join gap (t :: ts) = r ++ [c] /\ is_ws c = false).
  { clear H1. revert t F. induction ts as [|t' ts IH]; intros t F; inversion F as [|? ? [Ne W] F']; subst.
    - cbn [join]. destruct (snoc_case t) as [->|[r [c ->]]]; [congruence|]. apply Forall_app in W. destruct W as [_ W]. inversion W; subst. exists c, r. auto.
    - destruct (IH t' F') as [c [r [E Hc]]]. exists c, (t ++ gap ++ r). split; [|exact Hc].
      change (join gap (t :: t' :: ts)) with (t ++ gap ++ join gap (t' :: ts)). rewrite E, <- !app_assoc. reflexivity. }
  destruct H1 as [c [r [E1 C1]]]. destruct H2 as [c' [r' [E2 C2]]]. split; intros x y E.
  - rewrite E1 in E. injection E as -> _. exact C1.
  - rewrite E2 in E. apply app_inj_tail in E. destruct E as [_ ->]. exact C2.
Qed.
(* a line of words is read as one text *)
Lemma lex_columns t ts : Forall word (t :: ts) -> Forall (no_char c_eq) (t :: ts) -> (exists c r, t = c :: r /\ c <> 67%N) ->
  one_line (join gap (t :: ts)) /\ lex_line (join gap (t :: ts)) = Some [join gap (t :: ts)].
Proof.
  intros W E H. pose proof (join_trimmed _ W) as T. split.
  - apply join_no_char; [discriminate|]. eapply Forall_impl; [|exact W]. intros a [_ Wa] X. rewrite Forall_forall in Wa. apply Wa in X. discriminate.
  - rewrite lex_line_bare; rewrite ?(strip_trimmed _ T); [reflexivity| | |].
    + inversion W as [|? ? [Ne _] _]; subst. destruct t; [congruence|]. destruct ts; discriminate.
    + apply join_no_char; [discriminate|exact E].
    + destruct H as [c [r [-> N]]]. apply startswith_false. intros [s X]. destruct ts as [|t' ts]; cbn in X; injection X as X _; congruence.
Qed.

Definition state_line (r : record) : str := join gap (fst r :: map show_dec (snd r)).
Lemma numbers_ok ds : Forall canonical ds -> Forall2 number_text (map show_dec ds) ds.
Proof. induction 1; constructor; [apply show_dec_number|]; assumption. Qed.
Lemma numbers_words ts ds : Forall2 number_text ts ds -> Forall word ts /\ Forall (no_char c_eq) ts.
Proof. induction 1 as [|t d ts ds H _ [I1 I2]]; split; constructor; try assumption; [eapply number_word|eapply number_no_eq]; exact H. Qed.
Lemma date_head e : date_text e -> exists c r, e = c :: r /\ is_digit c = true.
Proof. intros [_ [_ [_ [a [b [c [d [r [-> F]]]]]]]]]. inversion F; subst. do 2 eexists. split; [reflexivity|assumption]. Qed.
Lemma digit_not_C c : is_digit c = true -> c <> 67%N.
Proof. intros H ->. discriminate. Qed.
Lemma state_written r : good_state r -> sline [state_line r] r /\ one_line (state_line r) /\ lex_line (state_line r) = Some [state_line r].
Proof.
  intros [D [L C]]. pose proof (numbers_ok _ C) as F. destruct (numbers_words _ _ F) as [W E].
  assert (W1 : Forall word (fst r :: map show_dec (snd r))) by (constructor; [apply D|exact W]).
  destruct (lex_columns (fst r) (map show_dec (snd r))) as [O X].
  - exact W1.
  - constructor; [apply D|exact E].
  - destruct (date_head _ D) as [c [x [-> Hc]]]. exists c, x. split; [reflexivity|apply digit_not_C; exact Hc].
  - split; [|split; [exact O|exact X]]. exists (state_line r), (map show_dec (snd r)), []. rewrite app_nil_r. split; [reflexivity|].
    split; [apply join_trimmed; exact W1|]. split; [apply columned_join; exact W1|]. split; [exact D|]. split; [exact F|].
    rewrite map_length. split; [lia|left; reflexivity].
Qed.
Lemma write_state_raw key r out : good_state r -> write_item u key (oem_state r) out = Ok (out ++ [state_line r]).
Proof.
  intros [D [L C]].
  unfold write_item, oem_state. replace (mem_string "StateVectorAccType" special_output_data_classes) with true by reflexivity.
  unfold special_data_lines. cbn [String.eqb Ascii.eqb Bool.eqb]. unfold state_vector_line. cbn [map snd filter].
  destruct (date_head _ D) as [c [e' [Ee Hc]]].
  assert (Tt : truthy (VStr (fst r)) = true) by (rewrite Ee; reflexivity). rewrite Tt. cbn [map_res]. unfold value_or_self at 1. cbn [py_getattr py_str bind].
  rewrite columns_texts by (cbn; lia). cbn [bind]. unfold fill_out_single_line.
  replace (str_eqb (fst r) [c_nl]) with false by (symmetry; apply str_eqb_neq; rewrite Ee; intros Y; injection Y as -> _; discriminate).
  reflexivity.
Qed.
Lemma write_state key r : good_state r -> adds (write_item u key (oem_state r)) [[state_line r]].
Proof.
  intros G out. destruct (state_written r G) as [_ [O X]]. exists [state_line r]. split; [apply write_state_raw; exact G|].
  split; [constructor; [exact O|constructor]|cbn [filter_map]; rewrite X; reflexivity].
Qed.

(* ---- covariance matrices ---- *)
Lemma cov_fields : exists fc fe ff fs, fields_of "OemCovarianceMatrixType" = fc :: fe :: ff :: fs /\ f_name fc = "comment" /\ f_list fc = true /\
  f_name fe = "epoch" /\ kw_of fe = "EPOCH" /\ text_field fe = true /\ f_name ff = "cov_ref_frame" /\ f_list ff = false /\
  shape_of fs = cov_columns /\ forallb column_field fs = true /\ List.length fs = 21 /\
  leaf_class "OemCovarianceMatrixType" = true.
Proof. do 4 eexists. split; [vm_compute; reflexivity|]. repeat (apply conj); vm_compute; reflexivity. Qed.
Lemma cov_texts : NoDup (kws_of (fields_of "OemCovarianceMatrixType")) /\ forallb plain_kw (kws_of (fields_of "OemCovarianceMatrixType")) = true /\
  In (lit "EPOCH") (kws_of (fields_of "OemCovarianceMatrixType")) /\ In kw_comment (kws_of (fields_of "OemCovarianceMatrixType")) /\
  List.length (kws_of (fields_of "OemCovarianceMatrixType")) = 24 /\ isalpha u (lit "EPOCH") = true.
Proof.
  split; [|repeat (apply conj); vm_compute; tauto]. unfold kws_of. rewrite <- map_map. apply FinFun.Injective_map_NoDup; [intros a b; apply lit_inj|].
  apply no_dup_strings_spec. vm_compute. reflexivity.
Qed.
Lemma parse_cov e ts ds : good_text e -> Forall2 number_text ts ds -> List.length ts <= 21 ->
  parse_list u "OemCovarianceMatrixType" None
    ([lit "EPOCH"; e] :: zip_lines (skipn 3 (kws_of (fields_of "OemCovarianceMatrixType"))) ts) = Ok (oem_cov (e, ds)).
Proof.
  intros [Ne [_ [_ Xe]]] F L. destruct cov_fields as [fc [fe [ff [fs [E [Nc [Lc0 [N0 [K0 [T0 [Nf [Lf0 [Sh [Cf [Lf Lc]]]]]]]]]]]]]]].
  destruct (leaf_xml_ok u _ Lc) as [[Dn Dx] Un]. unfold parse_list. rewrite new_vars by exact Un. rewrite E in *.
  destruct (bind_columns u "OemCovarianceMatrixType" (fc :: fe :: ff :: fs) (conj Dn Dx) fs [fc; fe; ff] ts ds
             [("comment", VList []); ("epoch", VStr e); ("cov_ref_frame", VNone)] ["epoch"]) as [cs [E1 E2]];
    try assumption; try reflexivity; try lia.
  - cbn [map fst]. rewrite Nc, N0, Nf. reflexivity.
  - cbn [map]. rewrite N0. intros x [<-|[]]. right; left; reflexivity.
  - cbn [kws_of map skipn map_res]. unfold child_of_line at 1. cbn [get nth_error guard_opt bind].
    rewrite E1. cbn [bind]. rewrite <- K0.
    rewrite (bind_text "OemCovarianceMatrixType" [fc] fe (ff :: fs) [] e cs) by (try assumption; intros []).
    assert (Le : f_list fe = false) by (unfold text_field in T0; destruct (f_list fe); [rewrite andb_false_r in T0; discriminate|reflexivity]).
    assert (Es : set_var (f_name fe) (VStr e) (defaults (fc :: fe :: ff :: fs)) =
      [("comment", VList []); ("epoch", VStr e); ("cov_ref_frame", VNone)] ++ map (fun f : field => (f_name f, field_default f)) fs).
    { unfold defaults. cbn [map]. rewrite Nc, N0, Nf. unfold field_default at 1 2 3. rewrite Lc0, Lf0, Le. reflexivity. }
    rewrite Es, N0. change ([fc] ++ fe :: ff :: fs) with (fc :: fe :: ff :: fs). rewrite E2, Sh. reflexivity.
Qed.

Definition covT : list str := kws_of (fields_of "OemCovarianceMatrixType").
Definition cov_elem (s : elem) : Prop :=
  e_cls s = "OemCovarianceMatrixType" /\ e_subs s = [] /\ e_kws s = covT /\ e_islist s = true /\ e_single s = None.
(* a row of finite numbers *)
Definition crow (l : line) (ts : list str) (ds : list dec) : Prop :=
  exists s, l = [s] /\ trimmed s /\ columned ts s /\ Forall2 number_text ts ds /\ Forall finite ds /\ ts <> [].
Definition cblock (ls : list line) (r : record) : Prop :=
  good_text (fst r) /\ exists rows tss dss, ls = [lit "EPOCH"; fst r] :: rows /\ Forall2 (fun l td => crow l (fst td) (snd td)) rows (combine tss dss) /\
    List.length tss = List.length dss /\ snd r = List.concat dss /\ List.length (snd r) <= 21.
Lemma crow_head l ts ds : crow l ts ds -> exists c s, l = [c :: s] /\ (is_digit c = true \/ c = 46%N \/ c = 43%N \/ c = 45%N) /\
  isalpha u (c :: s) = false /\ split_ws (c :: s) = ts /\ exists t ts', ts = t :: ts' /\ float_ok u t = true.
Proof.
  intros [s [-> [Tr [C [F [Fi Ne]]]]]]. destruct ts as [|t ts]; [congruence|]. inversion F as [|? d ? ds' Ht Fr]; subst. inversion Fi; subst.
  destruct (finite_number u t d Ht H1) as [Ff [[c [t' [Et Hc]]] [x [Ix Hx]]]].
  destruct (columned_first _ _ _ C Tr) as [s' Es]. subst t. cbn [app] in Es. exists c, (t' ++ s'). subst s. split; [reflexivity|]. split; [exact Hc|].
  split.
  - unfold isalpha. change (c :: t' ++ s') with ((c :: t') ++ s'). cbv iota. apply not_true_iff_false. intros X. rewrite forallb_forall in X.
    specialize (X x (in_or_app _ _ _ (or_introl Ix))). apply is_digit_range in Hx.
    replace (is_ascii x) with true in X by (symmetry; unfold is_ascii; apply N.ltb_lt; lia).
    unfold is_upper_ascii, is_lower_ascii, in_range in X. apply orb_true_iff in X.
    destruct X as [X|X]; apply andb_true_iff in X; destruct X as [I1 I2]; apply N.leb_le in I1, I2; lia.
  - split; [apply (split_ws_columned _ _ C)|]. exists (c :: t'), ts. auto.
Qed.
Lemma numeric_not_kw c s : (is_digit c = true \/ c = 46%N \/ c = 43%N \/ c = 45%N) -> ~ In (c :: s) covT.
Proof.
  intros H X. destruct cov_texts as [_ [P _]]. rewrite forallb_forall in P. apply P in X. destruct (plain_kw_spec _ X) as [_ [[c' [w [E U]]] _]].
  injection E as <- _. destruct (upper_not_digit c U) as [_ D]. destruct H as [H|[->|[->| ->]]]; [congruence| | |]; discriminate.
Qed.
Lemma crows_spec rows tss dss : Forall2 (fun l td => crow l (fst td) (snd td)) rows (combine tss dss) -> List.length tss = List.length dss ->
  (forall k, In k (keys_of rows) -> ~ In k covT /\ isalpha u k = false) /\
  flat_map (fun l => split_ws (key_of l)) rows = List.concat tss /\ Forall2 number_text (List.concat tss) (List.concat dss) /\
  forall R, (R = [] \/ exists l R', R = l :: R' /\ keyed l) -> count_floats u (rows ++ R) = List.length rows.
Proof.
  revert tss dss; induction rows as [|l rows IH]; intros tss dss F L.
  - inversion F as [E|]. destruct tss, dss; try discriminate. split; [intros k []|]. split; [reflexivity|]. split; [constructor|]. intros R [->|[l [R' [-> [k [r [-> P]]]]]]]; [reflexivity|].
    cbn [app count_floats]. destruct (plain_kw_spec _ P) as [W [_ Ff]]. rewrite (word_split _ W), Ff. reflexivity.
  - destruct tss as [|ts tss], dss as [|ds dss]; try discriminate; [inversion F|]. cbn [combine] in F. inversion F as [|? td ? tds Hl F']; subst. cbn [fst snd] in Hl.
    destruct (IH tss dss F') as [I1 [I2 [I3 I4]]]; [cbn in L; lia|]. pose proof Hl as [s0 [_ [_ [_ [Fn _]]]]].
    destruct (crow_head _ _ _ Hl) as [c [s [-> [Hc [Al [Sp [t [ts' [-> Ff]]]]]]]]]. split; [|split; [|split]].
    + intros k [<-|X]; [|exact (I1 k X)]. split; [apply numeric_not_kw; exact Hc|exact Al].
    + cbn [flat_map key_of hd List.concat]. rewrite Sp, I2. reflexivity.
    + cbn [List.concat]. apply Forall2_app; assumption.
    + intros R HR. cbn [app count_floats]. rewrite Sp, Ff, (I4 R HR). reflexivity.
Qed.
Lemma Forall2_len {A B} (P : A -> B -> Prop) l m : Forall2 P l m -> List.length l = List.length m.
Proof. induction 1; cbn; congruence. Qed.
Lemma filter_all {A} (f : A -> bool) l : (forall x, In x l -> f x = true) -> filter f l = l.
Proof. induction l as [|a l IH]; intros H; [reflexivity|]. cbn. rewrite (H a (or_introl eq_refl)), IH; [reflexivity|]. intros x X. apply H. right; exact X. Qed.
Lemma filter_none {A} (f : A -> bool) l : (forall x, In x l -> f x = false) -> filter f l = [].
Proof. induction l as [|a l IH]; intros H; [reflexivity|]. cbn. rewrite (H a (or_introl eq_refl)). apply IH. intros x X. apply H. right; exact X. Qed.

Lemma cov_reads s ls r R : cov_elem s -> cblock ls r -> (R = [] \/ exists l R', R = l :: R' /\ keyed l) ->
  (forall t, In t covT -> t <> kw_comment -> In t (keys_of R) -> t = lit "EPOCH") ->
  reads u s (ls ++ R) (oem_cov r) (List.length ls).
Proof.
  intros [Ec [Es [Ek [Il Sn]]]] [Ge [rows [tss [dss [-> [F [Lt [Er Ls]]]]]]]] HR Hk.
  destruct (crows_spec rows tss dss F Lt) as [K1 [K2 [K3 K4]]]. destruct cov_texts as [Nd [Pk [Ie [Ic [Ll Al]]]]]. fold covT in Nd, Pk, Ie, Ic, Ll.
  set (own := ([lit "EPOCH"; fst r] : line) :: rows).
  assert (Cl : get_min_max covT 0 (keys_of (own ++ R)) None false = Ok ((0, 1), covT)).
  { unfold own. cbn [app keys_of map key_of hd]. apply (claims_range covT [lit "EPOCH"] (map key_of (rows ++ R)) false).
    exists 0, [lit "EPOCH"]. split; [reflexivity|]. split; [discriminate|]. split; [constructor; [intros []|constructor]|].
    split; [intros x [<-|[]]; exact Ie|]. split; [intros [X|[]]; apply lit_inj in X; discriminate|]. split; [congruence|].
    split; [rewrite Ll; discriminate|]. intros t H1 H2 H3. rewrite map_app in H3. apply in_app_or in H3. destruct H3 as [H3|H3].
    - destruct (K1 t H3) as [X _]. contradiction.
    - left. symmetry. apply Hk; assumption. }
  exists (1 + List.length rows), s. rewrite identify_eq. unfold own_range. rewrite Ec. cbn [String.eqb Ascii.eqb Bool.eqb orb]. rewrite Ek, Sn.
  match goal with |- context [get_min_max covT 0 ?K None false] => replace (get_min_max covT 0 K None false) with (Ok ((0, 1), covT)) by (symmetry; exact Cl) end.
  cbn [bind Nat.eqb]. unfold own. cbn [app skipn]. rewrite (K4 R HR). rewrite <- Ek, set_kws_same. rewrite Es. cbn [snd]. split; [reflexivity|]. split; [left; lia|].
  intros pre fuel Df. destruct fuel as [|n]; [lia|]. rewrite shift_set_mm, shift_subs_nil by exact Es.
  cbn [build set_mm e_cls e_mm e_subs e_kws e_single]. rewrite Ec, Es. cbn [String.eqb Ascii.eqb Bool.eqb].
  set (k3 := skipn 3 (e_kws s)). unfold shift_range. cbn [fst snd]. rewrite slice_shift. unfold slice. cbn [skipn firstn Nat.sub Nat.add].
  rewrite firstn_app, Nat.sub_diag, firstn_O, firstn_all, app_nil_r. cbn [filter]. replace (isalpha u (key_of [lit "EPOCH"; fst r])) with true by (symmetry; exact Al). cbn [negb].
  rewrite (filter_all (fun l : line => negb (isalpha u (key_of l))) rows) by (intros l X; destruct (K1 (key_of l) (in_map key_of _ _ X)) as [_ Y]; rewrite Y; reflexivity).
  rewrite (filter_none (fun l : line => isalpha u (key_of l)) rows) by (intros l X; destruct (K1 (key_of l) (in_map key_of _ _ X)) as [_ Y]; exact Y).
  rewrite K2. cbn [app]. unfold k3. rewrite Ek. unfold covT.
  assert (P : parse_list u "OemCovarianceMatrixType" None ([lit "EPOCH"; fst r] :: zip_lines (skipn 3 (kws_of (fields_of "OemCovarianceMatrixType"))) (List.concat tss)) = Ok (oem_cov (fst r, snd r))).
  { apply parse_cov; [exact Ge|rewrite Er; exact K3|]. rewrite (Forall2_len _ _ _ K3), <- Er. exact Ls. }
  match goal with |- context [parse_list u ?c None ?L] => replace (parse_list u c None L) with (Ok (oem_cov (fst r, snd r))) by (symmetry; exact P) end.
  cbn [bind]. destruct r as [e ds]. reflexivity.
Qed.
(* covariance matrices end where metadata that does not start with a comment follows, or no matrix follows *)
Definition cov_clear (R : list line) : Prop :=
  (forall t, In t covT -> t <> kw_comment -> ~ In t (keys_of R)) \/ (forall k, hd_error (keys_of R) = Some k -> ~ In k covT).
Lemma cov_stops s R : cov_elem s -> cov_clear R -> stops u s R.
Proof.
  intros [Ec [Es [Ek [Il Sn]]]] H. destruct cov_texts as [Nd [Pk [Ie [Ic [Ll Al]]]]]. fold covT in Nd, Pk, Ie, Ic, Ll.
  assert (D : (forall t, In t covT -> t <> kw_comment -> ~ In t (keys_of R)) \/ exists t, In t covT /\ t <> kw_comment /\ In t (keys_of R)).
  { destruct (existsb (fun t => negb (str_eqb t kw_comment) && mem_str t (keys_of R)) covT) eqn:X.
    - right. apply existsb_exists in X. destruct X as [t [I Y]]. apply andb_true_iff in Y. destruct Y as [Y1 Y2]. exists t. split; [exact I|].
      split; [intros ->; rewrite str_eqb_refl in Y1; discriminate|apply mem_str_spec; exact Y2].
    - left. intros t I N J. assert (Z : existsb (fun t => negb (str_eqb t kw_comment) && mem_str t (keys_of R)) covT = true); [|congruence].
      apply existsb_exists. exists t. split; [exact I|]. apply andb_true_iff. split; [apply negb_true_iff, str_eqb_neq; exact N|apply mem_str_spec; exact J]. }
  destruct D as [D|D].
  - exists 0, 0, 0, s. rewrite identify_eq. unfold own_range. rewrite Ec. cbn [String.eqb Ascii.eqb Bool.eqb orb]. rewrite Ek, Sn.
    rewrite (misses_range covT (keys_of R) 0 false); [|split; [rewrite Ll; discriminate|exact D]].
    cbn [bind Nat.eqb]. rewrite <- Ek, set_kws_same. rewrite Es. auto.
  - destruct H as [H|H]; [destruct D as [t [D1 [D2 D3]]]; destruct (H t D1 D2 D3)|].
    destruct (later_range covT (keys_of R) Nd) as [lo [hi [E [L1 L2]]]]; [rewrite Ll; discriminate|exact H|exact D|].
    exists (hi + count_floats u (skipn hi R)), lo, (hi + count_floats u (skipn hi R)), s. rewrite identify_eq. unfold own_range. rewrite Ec. cbn [String.eqb Ascii.eqb Bool.eqb orb].
    rewrite Ek, Sn, E. cbn [bind]. replace (Nat.eqb lo hi) with false by (symmetry; apply Nat.eqb_neq; lia). rewrite <- Ek, set_kws_same. rewrite Es. cbn [snd]. split; [reflexivity|]. right. lia.
Qed.
Lemma cblock_head ls r : cblock ls r -> ls <> [] /\ exists R, ls = [lit "EPOCH"; fst r] :: R.
Proof. intros [_ [rows [tss [dss [-> _]]]]]. split; [discriminate|]. eexists; reflexivity. Qed.
Lemma cblock_keys ls r t : cblock ls r -> In t covT -> In t (keys_of ls) -> t = lit "EPOCH".
Proof.
  intros [_ [rows [tss [dss [-> [F [Lt _]]]]]]] H [<-|X]; [reflexivity|].
  destruct (crows_spec rows tss dss F Lt) as [K1 _]. destruct (K1 t X) as [Y _]. contradiction.
Qed.
Lemma epoch_keyed e : keyed [lit "EPOCH"; e].
Proof. exists (lit "EPOCH"), [e]. split; [reflexivity|vm_compute; reflexivity]. Qed.
Lemma covs_list s lss rs R : cov_elem s -> Forall2 cblock lss rs -> (R = [] \/ exists l R', R = l :: R' /\ keyed l) ->
  (forall t, In t covT -> t <> kw_comment -> In t (keys_of R) -> t = lit "EPOCH") -> cov_clear R ->
  list_reads u s (List.concat lss ++ R) (map oem_cov rs) R.
Proof.
  intros Se F HR Hk Hc. induction F as [|ls r lss rs Hl F IH].
  - apply lr_stop, cov_stops; assumption.
  - cbn [List.concat map]. rewrite <- app_assoc. destruct (cblock_head _ _ Hl) as [Ne _].
    assert (Rd : reads u s (ls ++ List.concat lss ++ R) (oem_cov r) (List.length ls)).
    { apply cov_reads; [exact Se|exact Hl| |].
      - destruct F as [|ls' r' lss rs Hl' F]; [exact HR|]. destruct (cblock_head _ _ Hl') as [_ [X E]]. right. cbn [List.concat]. rewrite E. cbn [app].
        do 2 eexists. split; [reflexivity|apply epoch_keyed].
      - intros t H1 H2 H3. unfold keys_of in H3. rewrite map_app in H3. apply in_app_or in H3. destruct H3 as [H3|H3]; [|apply Hk; assumption].
        apply in_map_iff in H3. destruct H3 as [l [<- H3]]. apply in_concat in H3. destruct H3 as [b [Hb Hi]].
        destruct (Forall2_in_l _ _ _ _ F Hb) as [r' [_ Hb']]. apply (cblock_keys b r'); [exact Hb'|exact H1|apply in_map; exact Hi]. }
    destruct (List.concat lss ++ R) as [|l0 R0] eqn:E0.
    + apply app_eq_nil in E0. destruct E0 as [E1 ->].
      assert (rs = []). { destruct F as [|ls' r' lss rs Hl' F]; [reflexivity|]. destruct (cblock_head _ _ Hl') as [X _]. cbn in E1. apply app_eq_nil in E1. destruct E1. congruence. }
      subst rs. rewrite app_nil_r in *. apply lr_end; [destruct ls; [congruence|cbn; lia]|exact Rd].
    + rewrite <- E0 in *. apply lr_cons; [destruct ls; [congruence|cbn; lia]|rewrite E0; cbn; lia|exact Rd|exact IH].
Qed.

(* ---- writing covariance matrices ---- *)
Lemma triangle_map {A B} (f : A -> B) n l rows : triangle n l rows -> triangle n (map f l) (map (map f) rows).
Proof. induction 1; [constructor|]. rewrite map_app. cbn [map]. constructor; [rewrite map_length; assumption|assumption]. Qed.
Lemma triangle_concat {A} n (l : list A) rows : triangle n l rows -> List.concat rows = l.
Proof. induction 1; [reflexivity|]. cbn. congruence. Qed.
Lemma triangle_ne {A} n (l : list A) rows : triangle n l rows -> n <> 0 -> Forall (fun r => r <> []) rows.
Proof. induction 1 as [|n row rest rows L T IH]; intros N; constructor; [destruct row; [cbn in L; congruence|discriminate]|apply IH; discriminate]. Qed.
Lemma triangle_21 {A} (l : list A) : List.length l = 21 -> exists rows, triangle 1 l rows.
Proof.
  intros H. do 21 (destruct l as [|? l]; [discriminate|]). destruct l; [|discriminate].
  match goal with |- exists rows, triangle 1 [?a;?b;?c;?d;?e;?f;?g;?h;?i;?j;?k;?l;?m;?n;?o;?p;?q;?r;?s;?t;?v] rows =>
    exists [[a];[b;c];[d;e;f];[g;h;i;j];[k;l;m;n;o];[p;q;r;s;t;v]];
    apply (tri_row 1 [a]); [reflexivity|]; apply (tri_row 2 [b;c]); [reflexivity|]; apply (tri_row 3 [d;e;f]); [reflexivity|];
    apply (tri_row 4 [g;h;i;j]); [reflexivity|]; apply (tri_row 5 [k;l;m;n;o]); [reflexivity|]; apply (tri_row 6 [p;q;r;s;t;v] []); [reflexivity|apply tri_end] end.
Qed.
Lemma cov_rows_triangle (vals : list str) (rows : list (list str)) n : triangle n vals rows -> n <> 0 -> Forall (fun v => v <> [c_nl]) vals -> forall fuel, List.length vals < fuel ->
  cov_rows fuel n vals = Ok (map (join gap) rows).
Proof.
  induction 1 as [n|n row rest rows L T IH]; intros N F fuel Hf; (destruct fuel as [|fuel]; [lia|]); cbn [cov_rows].
  - destruct n; [congruence|]. reflexivity.
  - replace (Nat.ltb (List.length (row ++ rest)) n) with false by (symmetry; apply Nat.ltb_ge; rewrite app_length; lia).
    assert (E1 : firstn n (row ++ rest) = row) by (rewrite <- L, firstn_app, Nat.sub_diag, firstn_O, firstn_all; apply app_nil_r).
    assert (E2 : skipn n (row ++ rest) = rest) by (rewrite <- L, skipn_app, Nat.sub_diag, skipn_O, skipn_all; reflexivity).
    rewrite E1, E2.
    apply Forall_app in F. destruct F as [F1 F2].
    destruct row as [|x row]; [cbn in L; congruence|]. unfold fill_out_single_line.
    replace (str_eqb x [c_nl]) with false by (symmetry; apply str_eqb_neq; inversion F1; assumption). cbn [bind].
    rewrite IH; [reflexivity|discriminate|exact F2|]. rewrite app_length in Hf. cbn in Hf. lia.
Qed.
Lemma columns_values shape ds : List.length ds = List.length shape ->
  map_res py_str (filter_map (fun kv => match py_getattr (snd kv) "value" with Ok x => Some x | Err _ => None end) (columns shape ds)) = Ok (map show_dec ds).
Proof.
  revert ds; induction shape as [|[n c] shape IH]; intros [|d ds] L; try discriminate; [reflexivity|].
  cbn [columns filter_map snd number py_getattr assoc String.eqb Ascii.eqb Bool.eqb map_res py_str bind map]. rewrite IH by (cbn in L; lia). reflexivity.
Qed.
Definition cov_lines (r : record) (rows : list (list str)) : list line := [lit "EPOCH"; fst r] :: map (fun ts => [join gap ts]) rows.
Lemma finite_canonical d : finite d -> canonical d.
Proof. destruct d; cbn; tauto. Qed.
Lemma row_written ts ds : Forall2 number_text ts ds -> Forall finite ds -> ts <> [] ->
  crow [join gap ts] ts ds /\ one_line (join gap ts) /\ lex_line (join gap ts) = Some [join gap ts].
Proof.
  intros F Fi Ne. destruct (numbers_words _ _ F) as [W E]. destruct ts as [|t ts]; [congruence|].
  destruct (lex_columns t ts W E) as [O X].
  - inversion F as [|? d ? ds' Ht _]; subst. inversion Fi; subst. destruct (finite_number u t d Ht H1) as [_ [[c [s [-> Hc]]] _]]. exists c, s. split; [reflexivity|].
    intros ->. destruct Hc as [Hc|[Hc|[Hc|Hc]]]; discriminate.
  - split; [|auto]. exists (join gap (t :: ts)). split; [reflexivity|]. split; [apply join_trimmed; exact W|]. split; [apply columned_join; exact W|]. auto.
Qed.
Lemma rows_written dss : Forall (fun ds => Forall finite ds /\ ds <> []) dss ->
  Forall2 (fun l td => crow l (fst td) (snd td)) (map (fun ts => [join gap ts]) (map (map show_dec) dss)) (combine (map (map show_dec) dss) dss) /\
  Forall one_line (map (join gap) (map (map show_dec) dss)) /\
  filter_map lex_line (map (join gap) (map (map show_dec) dss)) = map (fun ts => [join gap ts]) (map (map show_dec) dss).
Proof.
  induction 1 as [|ds dss [Fi Ne] _ [I1 [I2 I3]]]; [repeat split; constructor|].
  destruct (row_written (map show_dec ds) ds) as [R1 [R2 R3]]; [apply numbers_ok; eapply Forall_impl; [|exact Fi]; apply finite_canonical|exact Fi|destruct ds; [congruence|discriminate]|].
  cbn [map combine filter_map]. rewrite R3, I3. split; [constructor; assumption|]. split; [constructor; assumption|reflexivity].
Qed.
Lemma epoch_key : key_ok u "epoch" (lit "EPOCH").
Proof.
  destruct cov_fields as [fc [fe [ff [fs [_ [_ [_ [N0 [K0 [T0 _]]]]]]]]]]. unfold text_field in T0.
  do 2 (apply andb_true_iff in T0; destruct T0 as [T0 ?]). rewrite <- N0, <- K0. apply kw_field_key; [assumption|]. apply negb_true_iff. assumption.
Qed.
Lemma write_cov_raw key r dss out : good_cov r -> triangle 1 (snd r) dss ->
  write_item u key (oem_cov r) out = Ok (out ++ fill_kvn u (lit "epoch") (fst r) [] :: map (join gap) (map (map show_dec) dss)).
Proof.
  intros [[Ge Gu] [L Fi]] T.
    unfold write_item, oem_cov. replace (mem_string "OemCovarianceMatrixType" special_output_data_classes) with true by reflexivity.
    unfold special_data_lines. cbn [String.eqb Ascii.eqb Bool.eqb]. unfold covariance_lines.
    cbn [py_getattr assoc String.eqb Ascii.eqb Bool.eqb bind py_iter map_res py_str truthy filter_map snd].
    rewrite columns_values by (rewrite L; reflexivity). cbn [bind].
    rewrite (cov_rows_triangle _ (map (map show_dec) dss) 1); [reflexivity|apply triangle_map; exact T|discriminate| |lia].
    apply Forall_forall. intros v Hv ->. apply in_map_iff in Hv. destruct Hv as [d [Ev Hd]].
    assert (Nt : number_text (show_dec d) d) by (apply show_dec_number, finite_canonical; rewrite Forall_forall in Fi; apply Fi; exact Hd).
    rewrite Ev in Nt. destruct Nt as [_ [Nt _]]. inversion Nt as [|? ? [[X _] _] _]; subst. vm_compute in X. congruence.
Qed.
Lemma write_cov key r : good_cov r -> exists rows, triangle 1 (map show_dec (snd r)) rows /\
  cblock (cov_lines r rows) r /\ adds (write_item u key (oem_cov r)) (cov_lines r rows).
Proof.
  intros [[Ge Gu] [L Fi]]. destruct (triangle_21 (snd r) L) as [dss T]. exists (map (map show_dec) dss). split; [apply triangle_map; exact T|].
  assert (H : Forall (fun ds => Forall finite ds /\ ds <> []) dss).
  { pose proof (triangle_ne _ _ _ T (fun X => ltac:(discriminate X))) as Hn. apply triangle_concat in T. rewrite <- T in Fi. clear -Fi Hn. induction Hn; [constructor|].
    cbn [List.concat] in Fi. apply Forall_app in Fi. destruct Fi. constructor; [split; assumption|]. apply IHHn. assumption. }
  destruct (rows_written dss H) as [R1 [R2 R3]]. split.
  - split; [exact Ge|]. exists (map (fun ts => [join gap ts]) (map (map show_dec) dss)), (map (map show_dec) dss), dss.
    split; [reflexivity|]. split; [exact R1|]. split; [rewrite map_length; reflexivity|]. split; [symmetry; apply triangle_concat in T; exact T|rewrite L; lia].
  - intros out. destruct (line_plain u "epoch" (lit "EPOCH") (fst r) epoch_key) as [O1 X1]; [apply Ge|apply Ge|exact Gu|].
    exists (fill_kvn u (lit "epoch") (fst r) [] :: map (join gap) (map (map show_dec) dss)).
    split; [|split; [constructor; assumption|cbn [filter_map]; rewrite X1, R3; reflexivity]].
    apply write_cov_raw; [split; [split|split]; assumption|exact T].
Qed.
End Eph.
