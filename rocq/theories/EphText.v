(* Data lines: words separated by white space, and the numbers they stand for. *)
From Coq Require Import NArith ZArith List Bool String Arith Lia.
From Verif Require Import SpecNum NumFacts PyStr PyDec PyVal Schema KvnPre KvnTree KvnSeg XmlBind KvnBuild NdmXml KvnWrite
     Spec SpecKvn SpecObj SpecMsg SpecEph StrFacts DecFacts PreFacts SegFacts BuildFacts WriteFacts ParseFacts.
Import ListNotations.
Local Open Scope string_scope.
Local Open Scope list_scope.
Local Arguments find_class : simpl never.
Local Arguments lit : simpl never.

(* ---- words ---- *)
Lemma split_blank w s : blank w -> split_ws_aux [] (w ++ s) = split_ws_aux [] s.
Proof.
  induction w as [|c w IH]; intros B; [reflexivity|]. apply blank_inv in B. destruct B as [B1 B2]. cbn. rewrite B1. apply IH; exact B2.
Qed.
Lemma split_word t : Forall (fun c => is_ws c = false) t -> forall cur s, split_ws_aux cur (t ++ s) = split_ws_aux (rev t ++ cur) s.
Proof.
  induction 1 as [|c t Hc _ IH]; intros cur s; [reflexivity|]. cbn [app split_ws_aux rev]. rewrite Hc, IH, <- app_assoc. reflexivity.
Qed.
Lemma split_ws_columned ts s : columned ts s -> split_ws s = ts.
Proof.
  unfold split_ws. induction 1 as [w B|w t ts s B [Ne W] C IH H].
  - rewrite <- (app_nil_r w). rewrite split_blank by exact B. reflexivity.
  - rewrite split_blank, split_word, app_nil_r by assumption. 
    assert (N : rev t <> []) by (intros X; apply Ne; rewrite <- (rev_involutive t), X; reflexivity).
    destruct H as [->|[c [r [-> Hc]]]].
    + cbn [split_ws_aux] in *. rewrite <- IH. destruct (rev t) eqn:E; [congruence|]. rewrite <- E, rev_involutive. reflexivity.
    + cbn [split_ws_aux] in *. rewrite Hc in *. destruct (rev t) eqn:E; [congruence|]. rewrite <- E, rev_involutive, IH. reflexivity.
Qed.

Definition gap : str := [c_sp; c_sp].
Lemma columned_join ts : Forall word ts -> columned ts (join gap ts).
Proof.
  assert (H : forall ts, Forall word ts -> columned ts (join gap ts) /\ (ts <> [] -> columned ts (gap ++ join gap ts))).
  { clear. induction 1 as [|t ts W _ [IH1 IH2]].
    - split; [apply col_end, blank_nil|congruence].
    - assert (S : exists s, join gap (t :: ts) = t ++ s /\ columned ts s /\ (s = [] \/ exists c r, s = c :: r /\ is_ws c = true)).
      { destruct ts as [|t' ts].
        - exists []. cbn. rewrite app_nil_r. split; [reflexivity|]. split; [apply col_end, blank_nil|left; reflexivity].
        - exists (gap ++ join gap (t' :: ts)). split; [reflexivity|]. split; [apply IH2; discriminate|]. right. do 2 eexists. split; reflexivity. }
      destruct S as [s [E [C O]]]. rewrite E. split.
      + apply (col_word [] t ts s); [apply blank_nil|assumption..].
      + intros _. apply (col_word gap t ts s); [apply (blank_repeat 2)|assumption..]. }
  intros W. apply H. exact W.
Qed.
Lemma columned_chars ts s c : columned ts s -> In c s -> is_ws c = true \/ exists t, In t ts /\ In c t.
Proof.
  induction 1 as [w B|w t ts s B W C IH O]; intros H; [left; apply B; exact H|].
  apply in_app_or in H. destruct H as [H|H]; [left; apply B; exact H|]. apply in_app_or in H. destruct H as [H|H].
  - right. exists t. split; [left; reflexivity|exact H].
  - destruct (IH H) as [X|[x [X1 X2]]]; [left; exact X|right; exists x; split; [right; exact X1|exact X2]].
Qed.
(* without white space in front a line begins with its first word *)
Lemma columned_first t ts s : columned (t :: ts) s -> trimmed s -> exists r, s = t ++ r.
Proof.
  intros H T. inversion H as [|w ? ? s0 B W C O]; subst. destruct w as [|c w]; [exists s0; reflexivity|].
  exfalso. destruct T as [T _]. pose proof (T c (w ++ t ++ s0) eq_refl) as X. rewrite (B c) in X; [discriminate|left; reflexivity].
Qed.
Lemma columned_space t t' ts : In c_sp (join gap (t :: t' :: ts)).
Proof. apply in_or_app. right. left. reflexivity. Qed.

Lemma word_nonblank ts s : columned ts s -> ts <> [] -> strip s <> [].
Proof.
  intros H Ne E. apply strip_nil_blank in E. inversion H as [w B|w t ts0 s0 B [N W] C O]; subst; [congruence|].
  destruct t as [|c t]; [congruence|]. inversion W as [|? ? Wc _]; subst. rewrite (E c) in Wc; [discriminate|].
  apply in_or_app. right. left. reflexivity.
Qed.
Lemma columned_strip ts s : columned ts s -> columned ts (strip s).
Proof.
  assert (A : forall ts s, columned ts s -> columned ts (lstrip s)).
  { clear. intros ts s H. inversion H as [w B|w t ts0 s0 B [N W] C O]; subst.
    - rewrite lstrip_blank by exact B. apply col_end, blank_nil.
    - rewrite lstrip_blank_app by exact B. destruct t as [|c t]; [congruence|]. inversion W as [|? ? Wc Wt]; subst.
      cbn [app]. rewrite lstrip_nonws by exact Wc. apply (col_word [] (c :: t) ts0 s0); [apply blank_nil|split; assumption|exact C|exact O]. }
  assert (B : forall ts s, columned ts s -> columned ts (rstrip s) /\ ((exists c r, rstrip s = c :: r /\ exists r', s = c :: r') \/ rstrip s = [])).
  { clear. induction 1 as [w B|w t ts s B [N W] C [IH1 IH2] O].
    - rewrite rstrip_blank by exact B. split; [apply col_end, blank_nil|right; reflexivity].
    - assert (E : rstrip (w ++ t ++ s) = w ++ t ++ rstrip s).
      { destruct (snoc_case t) as [->|[t0 [c ->]]]; [congruence|]. apply Forall_app in W. destruct W as [_ W]. inversion W as [|? ? Wc _]; subst.
        rewrite <- !app_assoc. cbn [app]. rewrite (app_assoc w), rstrip_app_nonblank by exact Wc. rewrite <- app_assoc. reflexivity. }
      rewrite E. split.
      + apply col_word; [exact B|split; assumption|exact IH1|]. destruct IH2 as [[c [r [E1 [r' E2]]]]|E1]; [|left; exact E1].
        right. exists c, r. split; [exact E1|]. destruct O as [O|[c' [r0 [O Wc]]]]; [rewrite O in E2; discriminate|]. rewrite O in E2. injection E2 as -> _. exact Wc.
      + left. destruct w as [|c w]; [destruct t as [|c t]; [congruence|]|]; cbn [app]; do 2 eexists; (split; [reflexivity|eexists; reflexivity]). }
  intros H. unfold strip. apply B. apply A. exact H.
Qed.

(* ---- numbers ---- *)
Lemma number_word t d : number_text t d -> word t.
Proof.
  intros [Ne [F _]]. split; [exact Ne|]. eapply Forall_impl; [|exact F]. intros c [[H1 H2] _].
  unfold is_ws. repeat (apply orb_false_iff; split); try (apply N.eqb_neq; lia);
  try (unfold in_range; apply andb_false_iff; first [left; apply N.leb_gt; lia|right; apply N.leb_gt; lia]).
Qed.
Lemma number_xml t d : number_text t d -> Forall (fun c => xml_char c = true) t.
Proof.
  intros [Ne [F _]]. eapply Forall_impl; [|exact F]. intros c [[H1 H2] _]. unfold xml_char, in_range.
  rewrite (proj2 (N.leb_le 32 c)) by lia. rewrite (proj2 (N.leb_le c 55295)) by lia. rewrite !orb_true_r. reflexivity.
Qed.
Lemma number_no_eq t d : number_text t d -> no_char c_eq t.
Proof. intros [_ [F _]] X. rewrite Forall_forall in F. apply F in X. destruct X as [_ [_ X]]. congruence. Qed.
Lemma number_ascii u t d : number_text t d -> to_ascii_num u t = t.
Proof.
  intros [Ne [F _]]. apply to_ascii_id. eapply Forall_impl; [|exact F]. intros c [[H1 H2] _]. unfold is_ascii. apply N.ltb_lt. lia.
Qed.
Lemma number_plain t d : number_text t d -> plain t /\ is_core t t /\ no_underscores t = t.
Proof.
  intros H. pose proof (number_word t d H) as [Ne W]. destruct H as [_ [F _]]. split; [|split].
  - unfold plain. eapply Forall_impl; [|exact F]. intros c [[H1 H2] _]. lia.
  - exists [], []. rewrite app_nil_r. split; [reflexivity|]. split; [apply blank_nil|]. split; [apply blank_nil|].
    rewrite Forall_forall in W. split; intros c r ->; apply W; [left; reflexivity|apply in_or_app; right; left; reflexivity].
  - apply remove_char_no. intros X. rewrite Forall_forall in F. apply F in X. destruct X as [_ [X _]]. congruence.
Qed.
Lemma number_decimal u t d : number_text t d -> py_decimal u t = Some d.
Proof.
  intros H. destruct (number_plain t d H) as (P & C & N). destruct H as [_ [_ S]]. apply decimal_is; [exact P|]. exists t. rewrite N. auto.
Qed.
Lemma show_dec_number d : canonical d -> number_text (show_dec d) d.
Proof.
  intros C. split; [|split].
  - assert (good : show_dec d <> []).
    { destruct d as [n c e|n|n s p]; [rewrite show_dec_fin; destruct (fin_text_head c e) as [x [r [-> _]]]|..]; destruct n; try discriminate;
        cbn; destruct s; discriminate. }
    exact good.
  - pose proof (numtext_forall (fun c => (33 <=? c)%N && (c <=? 126)%N && negb (c =? 95)%N && negb (c =? c_eq)%N) _ eq_refl (numtext_show_dec d)) as F.
    eapply Forall_impl; [|exact F]. cbn beta. intros c H. do 3 (apply andb_true_iff in H; destruct H as [H ?]).
    repeat match goal with X : negb _ = true |- _ => apply negb_true_iff, N.eqb_neq in X | X : (_ <=? _)%N = true |- _ => apply N.leb_le in X end. auto.
  - pose proof (proj1 (parse_dec_is (show_dec d) d) (parse_dec_show d C)) as S. rewrite (strip_trimmed _ (numtext_trimmed _ (numtext_show_dec d))) in S.
    change (no_underscores (show_dec d)) with (remove_char 95 (show_dec d)) in S.
    rewrite (remove_char_no 95 _ (numtext_no_char 95 _ eq_refl (numtext_show_dec d))) in S. exact S.
Qed.

(* a finite number has a digit and can be taken for a float *)
Lemma take_digits_spec s : s = fst (take_digits s) ++ snd (take_digits s) /\ Forall (fun c => is_digit c = true) (fst (take_digits s)).
Proof.
  induction s as [|c s [E F]]; [split; [reflexivity|constructor]|]. cbn [take_digits]. destruct (is_digit c) eqn:D; [|split; [reflexivity|constructor]].
  destruct (take_digits s) as [d r]. cbn [fst snd] in *. split; [cbn; rewrite <- E; reflexivity|constructor; assumption].
Qed.
Lemma parse_fin_head r x : parse_fin r = Some x -> exists c s, r = c :: s /\ (is_digit c = true \/ c = 46%N).
Proof.
  unfold parse_fin. intros H. destruct r as [|c s]; [discriminate|]. exists c, s. split; [reflexivity|].
  cbn [take_digits] in H. destruct (is_digit c) eqn:E; [left; reflexivity|right].
  destruct (N.eq_dec c 46) as [->|N]; [reflexivity|exfalso].
  destruct c as [|p]; [discriminate|]. repeat (destruct p as [p|p|]; try discriminate H). congruence.
Qed.
Lemma parse_fin_digit r x : parse_fin r = Some x -> exists c, In c r /\ is_digit c = true.
Proof.
  unfold parse_fin. intros H. pose proof (take_digits_spec r) as [E1 F1]. destruct (take_digits r) as [d1 r1]. cbn [fst snd] in *.
  set (q := match r1 with 46%N :: r0 => take_digits r0 | _ => ([], r1) end) in H.
  assert (Q : Forall (fun c => is_digit c = true) (fst q) /\ incl (fst q) r1).
  { unfold q. destruct r1 as [|c s]; [split; [constructor|intros ? []]|].
    destruct (N.eq_dec c 46) as [->|N].
    - pose proof (take_digits_spec s) as [E2 F2]. split; [exact F2|]. intros y Hy. right. rewrite E2. apply in_or_app. left; exact Hy.
    - destruct c as [|p]; [split; [constructor|intros ? []]|].
      repeat (destruct p as [p|p|]; try (split; [constructor|intros ? []])). congruence. }
  destruct q as [d2 r2]. cbn [fst] in Q. destruct Q as [Q1 Q2].
  destruct d1 as [|c d1].
  - destruct d2 as [|c d2]; [discriminate|]. inversion Q1; subst. exists c. split; [cbn [app] in *; apply Q2; left; reflexivity|assumption].
  - inversion F1; subst. exists c. split; [left; reflexivity|assumption].
Qed.
Lemma take_sign_split t : (exists x, (x = 45%N \/ x = 43%N) /\ t = x :: snd (take_sign t)) \/ (t = snd (take_sign t) /\ fst (take_sign t) = false).
Proof.
  destruct t as [|c s]; [right; split; reflexivity|].
  destruct (N.eq_dec c 45) as [->|N1]; [left; exists 45%N; auto|]. destruct (N.eq_dec c 43) as [->|N2]; [left; exists 43%N; auto|].
  right. destruct c as [|p]; [split; reflexivity|]. repeat (destruct p as [p|p|]; try (split; reflexivity)); congruence.
Qed.
Lemma underscores_none b s : no_char 95 s -> underscores_ok b s = true.
Proof.
  revert b; induction s as [|c s IH]; intros b H; [reflexivity|]. apply no_char_cons in H. destruct H as [H1 H2]. cbn.
  rewrite (proj2 (N.eqb_neq c 95)) by exact H1. apply IH; exact H2.
Qed.
Definition numeric_head (t : str) : Prop := exists c s, t = c :: s /\ (is_digit c = true \/ c = 46%N \/ c = 43%N \/ c = 45%N).
Lemma finite_number u t d : number_text t d -> finite d ->
  float_ok u t = true /\ numeric_head t /\ exists c, In c t /\ is_digit c = true.
Proof.
  intros H Fi. pose proof (number_word t d H) as [Ne W]. pose proof (number_ascii u t d H) as A. pose proof (number_decimal u t d H) as P. destruct H as [_ [F _]].
  unfold py_decimal in P. unfold float_ok. rewrite A in *.
  assert (N95 : no_char 95 t). { intros X. rewrite Forall_forall in F. apply F in X. destruct X as [_ [X _]]. congruence. }
  assert (T : strip t = t).
  { apply strip_trimmed. rewrite Forall_forall in W. split; intros c r ->; apply W; [left; reflexivity|apply in_or_app; right; left; reflexivity]. }
  unfold parse_dec_ascii in P. rewrite T, remove_char_no in P by exact N95.
  pose proof (take_sign_split t) as Sg. destruct (take_sign t) as [sg r] eqn:Es. cbn [fst snd] in Sg.
  assert (Nr : no_char 95 r).
  { destruct Sg as [[x [_ ->]]|[-> _]]; [|exact N95]. apply no_char_cons in N95. apply N95. }
  destruct (str_eqb (to_lower r) (lit "inf") || str_eqb (to_lower r) (lit "infinity")) eqn:E1; [injection P as <-; destruct Fi|].
  destruct (startswith (lit "nan") (to_lower r)) eqn:E2; [destruct (parse_payload _); [injection P as <-; destruct Fi|discriminate]|].
  destruct (startswith (lit "snan") (to_lower r)) eqn:E3; [destruct (parse_payload _); [injection P as <-; destruct Fi|discriminate]|].
  destruct (parse_fin r) as [ce|] eqn:E4; [|discriminate].
  split; [|split].
  - unfold float_ok_ascii. rewrite T, Es. rewrite underscores_none, remove_char_no by exact Nr. rewrite E4. match goal with |- (if ?b then _ else _) = _ => destruct b end; reflexivity.
  - destruct (parse_fin_head r ce E4) as [c [s [Er Hc]]].
    destruct Sg as [[x [Hx ->]]|[-> _]]; [exists x, r|exists c, s]; split; auto.
    + destruct Hx as [->| ->]; auto.
    + destruct Hc; auto.
  - destruct (parse_fin_digit r ce E4) as [c [Hi Hd]]. exists c. split; [|exact Hd]. destruct Sg as [[x [_ ->]]|[-> _]]; [right; exact Hi|exact Hi].
Qed.

(* ---- binding columns ---- *)
Definition shape_of (fs : list field) : list (string * string) :=
  map (fun f => (f_name f, match f_ty f with TCls c => c | _ => "" end)) fs.
Definition column_field (f : field) : bool :=
  kw_field_ok f && negb (f_list f) &&
  match f_ty f with TCls c => match find_class c with Some (CData _ _) => true | _ => false end | _ => false end.
Lemma bind_number u cls f t d : column_field f = true -> number_text t d ->
  bind_child u cls f [] t = number (match f_ty f with TCls c => c | _ => "" end) d.
Proof.
  intros H Nt. unfold column_field in H. apply andb_true_iff in H. destruct H as [H Hc]. apply andb_true_iff in H. destruct H as [Hk _].
  pose proof (kw_field_spec u f Hk) as [_ [_ [T _]]]. unfold bind_child. destruct (f_ty f) as [| | |c]; try discriminate.
  unfold type_ok in T. destruct (find_class c) as [[m fs|ms]|] eqn:F; try discriminate.
  unfold value_class_ok in T. destruct fs as [|fv [|fu [|]]]; try discriminate.
  repeat (apply andb_true_iff in T; destruct T as [T ?]).
  repeat match goal with X : String.eqb _ _ = true |- _ => apply String.eqb_eq in X
                       | X : negb _ = true |- _ => apply negb_true_iff in X end.
  unfold bind_value_obj, fields_of, init_fields, unfixed, kind_eqb, field_default in *. rewrite F. cbn [filter].
  destruct (f_fixed fv); [discriminate|]. destruct (f_fixed fu); [discriminate|]. cbn [map].
  destruct (f_kind fv); try discriminate. destruct (f_kind fu); try discriminate.
  destruct (f_ty fv) eqn:Tv; try discriminate. cbn [assoc].
  match goal with X : f_name fv = _, Y : f_name fu = _, Z : f_list fu = false |- _ => rewrite X, Y, Z end.
  unfold number. f_equal. f_equal. f_equal. rewrite conv_nonempty by apply Nt. rewrite (number_decimal u t d Nt). reflexivity.
Qed.

Lemma bind_columns u cls fs : field_xml_ok fs -> forall fs2 fs1 ts ds vars1 seen,
  fs = fs1 ++ fs2 -> forallb column_field fs2 = true -> map fst vars1 = map f_name fs1 -> incl seen (map f_name fs1) ->
  Forall2 number_text ts ds -> List.length ts <= List.length fs2 ->
  exists cs, map_res child_of_line (zip_lines (map (fun f => lit (kw_of f)) fs2) ts) = Ok cs /\
  bind_children u cls fs seen cs (vars1 ++ map (fun f => (f_name f, field_default f)) fs2) = Ok (vars1 ++ columns (shape_of fs2) ds).
Proof.
  intros [Dn Dx]. induction fs2 as [|f fs2 IH]; intros fs1 ts ds vars1 seen E C M I F L.
  - destruct ts; [|cbn in L; lia]. inversion F; subst. exists []. split; reflexivity.
  - cbn [forallb] in C. apply andb_true_iff in C. destruct C as [Cf C].
    assert (Cf0 := Cf). unfold column_field in Cf0. do 2 (apply andb_true_iff in Cf0; destruct Cf0 as [Cf0 ?]).
    match goal with X : negb (f_list f) = true |- _ => apply negb_true_iff in X; rename X into Lf end.
    pose proof (kw_field_spec u f Cf0) as [Kd [_ [_ [Kw _]]]].
    assert (Ex : xml_name f = lit (kw_of f)) by (unfold xml_name; rewrite Kw; reflexivity).
    assert (Nn : ~ In (f_name f) (map f_name fs1)).
    { subst fs. rewrite map_app in Dn. cbn [map] in Dn. apply NoDup_remove_2 in Dn. intros X. apply Dn. apply in_or_app. left; exact X. }
    inversion F as [|t d ts' ds' Nt F']; subst ts ds.
    + destruct (IH (fs1 ++ [f]) [] [] (vars1 ++ [(f_name f, VNone)]) seen) as [cs [E1 E2]]; try assumption.
      * subst fs. rewrite <- app_assoc. reflexivity.
      * rewrite !map_app, M. reflexivity.
      * rewrite map_app. intros x Hx. apply in_or_app; left. apply I; exact Hx.
      * cbn. lia.
      * exists []. split; [reflexivity|].
        assert (cs = []) by (destruct fs2; injection E1 as <-; reflexivity). subst cs. cbn [bind_children] in *.
        rewrite <- !app_assoc in E2. cbn [app shape_of map columns] in *. unfold field_default at 1. rewrite Lf. exact E2.
    + destruct (IH (fs1 ++ [f]) ts' ds' (vars1 ++ [(f_name f, number (match f_ty f with TCls c => c | _ => "" end) d)]) (f_name f :: seen)) as [cs [E1 E2]]; try assumption.
      * subst fs. rewrite <- app_assoc. reflexivity.
      * rewrite !map_app, M. reflexivity.
      * rewrite map_app. cbn [map]. intros x [<-|Hx]; [apply in_or_app; right; left; reflexivity|]. apply in_or_app; left. apply I; exact Hx.
      * cbn [List.length] in L. lia.
      * exists ((lit (kw_of f), [], t) :: cs). split.
        { cbn [map zip_lines map_res]. unfold child_of_line at 1. cbn [get nth_error guard_opt bind]. rewrite E1. reflexivity. }
        cbn [bind_children]. unfold child_ok. rewrite (forall_xml t (number_xml t d Nt)). cbn [forallb andb].
        rewrite <- Ex. subst fs. rewrite (find_elem_at fs1 f fs2 Dx Kd), Lf.
        replace (existsb (String.eqb (f_name f)) seen) with false.
        2:{ symmetry. apply not_true_is_false. intros X. apply existsb_exists in X. destruct X as [y [Hy Ey]].
            apply String.eqb_eq in Ey. subst y. apply Nn, I, Hy. }
        rewrite (bind_number u cls f t d Cf Nt). cbn [map]. unfold field_default at 1. rewrite Lf.
        rewrite set_var_here by (rewrite M; exact Nn). rewrite <- !app_assoc in E2. exact E2.
Qed.
