(* Tracking data messages: reading the lines of segments with observations. *)
From Coq Require Import NArith ZArith List Bool String Arith Lia.
From Verif Require Import PyStr PyDec PyVal Schema KvnPre KvnTree KvnSeg XmlBind KvnBuild NdmXml KvnWrite
     Spec SpecKvn SpecObj SpecMsg SpecDoc StrFacts DecFacts PreFacts SegFacts BuildFacts WriteFacts ParseFacts ShiftFacts
     ReadFacts ComposeFacts MsgFacts PropWrite CoreFacts UserFacts DataFacts SingleFacts ListFacts RelFacts SegListFacts
     CheckFacts GapFacts SpecEph SpecTdm EphText EphFacts OemFacts.
Import ListNotations.
Local Open Scope string_scope.
Local Open Scope list_scope.
Local Arguments find_class : simpl never.
Local Arguments lit : simpl never.

Definition obs_cls : string := "TrackingDataObservationType".
Definition obs_field (f : field) : bool :=
  kw_field_ok f && negb (f_list f) &&
  match f_ty f with TDec => true | TCls c => match find_class c with Some (CData _ _) => true | _ => false end | _ => false end.

Lemma obs_fields : exists f0, fields_of obs_cls = f0 :: observables /\ f_name f0 = "epoch" /\ kw_of f0 = "EPOCH" /\
  text_field f0 = true /\ forallb obs_field observables = true /\ leaf_class obs_cls = true.
Proof. eexists. split; [vm_compute; reflexivity|]. repeat (apply conj); vm_compute; reflexivity. Qed.
Lemma obs_names : NoDup (map f_name observables) /\ ~ In "epoch" (map f_name observables).
Proof.
  split; [apply no_dup_strings_spec; vm_compute; reflexivity|].
  intros X. assert (Y : existsb (String.eqb "epoch") (map f_name observables) = true) by (apply existsb_exists; exists "epoch"; split; [exact X|reflexivity]).
  vm_compute in Y. discriminate.
Qed.
Definition obsT : list str := kws_of (fields_of obs_cls).
Lemma obsT_plain k : In k obsT -> plain_kw k = true /\ k <> kw_comment.
Proof.
  intros H. assert (P : forallb (fun k => plain_kw k && negb (str_eqb k kw_comment)) obsT = true) by (vm_compute; reflexivity).
  rewrite forallb_forall in P. apply P in H. apply andb_true_iff in H. destruct H as [H1 H2]. split; [exact H1|].
  intros ->. rewrite str_eqb_refl in H2. discriminate.
Qed.
Lemma obs_key_in n k : obs_key n k -> In (lit k) obsT.
Proof.
  intros [f [Hf [_ K]]]. destruct obs_fields as [f0 [E _]]. unfold obsT, kws_of. rewrite E. right.
  apply in_map_iff. exists f. split; [unfold kw_of; rewrite K; reflexivity|exact Hf].
Qed.
(* different observables have different keywords *)
Lemma obs_key_inj n n' k : obs_key n k -> obs_key n' k -> n = n'.
Proof.
  intros [f [Hf [<- K]]] [f' [Hf' [<- K']]].
  assert (D : NoDup (map kw_of observables)) by (apply no_dup_strings_spec; vm_compute; reflexivity).
  assert (E : kw_of f = kw_of f') by (unfold kw_of; rewrite K, K'; reflexivity).
  clear K K'. induction observables as [|g gs IH]; [destruct Hf|]. cbn [map] in D. inversion D as [|? ? N D']; subst.
  destruct Hf as [<-|Hf], Hf' as [<-|Hf'].
  - reflexivity.
  - exfalso. apply N. rewrite E. apply in_map. exact Hf'.
  - exfalso. apply N. rewrite <- E. apply in_map. exact Hf.
  - apply IH; assumption.
Qed.
Lemma obs_key_fun n k k' : obs_key n k -> obs_key n k' -> k = k'.
Proof.
  intros [f [Hf [E K]]] [f' [Hf' [E' K']]]. destruct obs_names as [D _]. rewrite <- E' in E. clear E' n.
  assert (X : f = f'). 2:{ subst f'. congruence. }
  clear K K'. induction observables as [|g gs IH]; [destruct Hf|]. cbn [map] in D. inversion D as [|? ? N D']; subst.
  destruct Hf as [<-|Hf], Hf' as [<-|Hf'].
  - reflexivity.
  - exfalso. apply N. rewrite E. apply in_map. exact Hf'.
  - exfalso. apply N. rewrite <- E. apply in_map. exact Hf.
  - apply IH; assumption.
Qed.

Section Tdm.
Variable u : env.

Lemma bind_measured cls f t d : obs_field f = true -> number_text t d -> bind_child u cls f [] t = measured f d.
Proof.
  intros H Nt. unfold measured. destruct (f_ty f) as [| | |c] eqn:T.
  - unfold obs_field in H. rewrite T in H. rewrite andb_false_r in H. discriminate.
  - unfold obs_field in H. rewrite T in H. rewrite andb_false_r in H. discriminate.
  - unfold bind_child. rewrite T. rewrite conv_nonempty by apply Nt. rewrite (number_decimal u t d Nt). reflexivity.
  - replace c with (match f_ty f with TCls c => c | _ => "" end) by (rewrite T; reflexivity). apply bind_number; [|exact Nt].
    unfold obs_field in H. unfold column_field. rewrite T in *. exact H.
Qed.
Lemma bind_one cls fs1 f fs2 seen t d cs vars : obs_field f = true -> NoDup (map xml_name (fs1 ++ f :: fs2)) ->
  ~ In (f_name f) seen -> number_text t d ->
  bind_children u cls (fs1 ++ f :: fs2) seen ((lit (kw_of f), [], t) :: cs) vars
  = bind_children u cls (fs1 ++ f :: fs2) (f_name f :: seen) cs (set_var (f_name f) (measured f d) vars).
Proof.
  intros H Dx Ns Nt. pose proof (bind_measured cls f t d H Nt) as B. pose proof (number_xml t d Nt) as X.
  unfold obs_field in H. do 2 (apply andb_true_iff in H; destruct H as [H ?]).
  match goal with Y : negb (f_list f) = true |- _ => apply negb_true_iff in Y; rename Y into Lf end.
  pose proof (kw_field_spec u f H) as [Kd [_ [_ [Kw _]]]].
  assert (Ex : xml_name f = lit (kw_of f)) by (unfold xml_name; rewrite Kw; reflexivity).
  cbn [bind_children]. unfold child_ok. rewrite (forall_xml t X). cbn [forallb andb]. rewrite <- Ex.
  rewrite (find_elem_at fs1 f fs2 Dx Kd), Lf.
  replace (existsb (String.eqb (f_name f)) seen) with false.
  2:{ symmetry. apply not_true_is_false. intros Y. apply existsb_exists in Y. destruct Y as [y [Hy Ey]].
      apply String.eqb_eq in Ey. subst y. contradiction. }
  rewrite B. reflexivity.
Qed.
Lemma set_measured fs f d : NoDup (map f_name fs) -> In f fs -> (forall g, In g fs -> f_list g = false) ->
  set_var (f_name f) (measured f d) (map (fun g => (f_name g, field_default g)) fs)
  = map (fun g => (f_name g, if String.eqb (f_name g) (f_name f) then measured g d else VNone)) fs.
Proof.
  induction fs as [|g fs IH]; intros D Hf L; [destruct Hf|]. cbn [map] in *. inversion D as [|? ? N D']; subst.
  cbn [set_var]. destruct (String.eqb (f_name g) (f_name f)) eqn:E.
  - apply String.eqb_eq in E. destruct Hf as [->|Hf]; [|exfalso; apply N; rewrite E; apply in_map; exact Hf]. f_equal.
    apply map_ext_in. intros h Hh. unfold field_default. rewrite (L h (or_intror Hh)).
    destruct (String.eqb (f_name h) (f_name f)) eqn:E2; [|reflexivity]. apply String.eqb_eq in E2. exfalso. apply N. rewrite <- E2. apply in_map. exact Hh.
  - destruct Hf as [->|Hf]; [rewrite String.eqb_refl in E; discriminate|]. unfold field_default at 1. rewrite (L g (or_introl eq_refl)).
    f_equal. apply IH; [exact D'|exact Hf|]. intros h Hh. apply L. right. exact Hh.
Qed.
Lemma parse_obs n k e w d : obs_key n k -> good_text e -> number_text w d ->
  parse_list u obs_cls None [[lit "EPOCH"; e]; [lit k; w]] = Ok (observation (n, e, d)).
Proof.
  intros [f [Hf [<- Kf]]] [Ne [_ [_ Xe]]] Nt. destruct obs_fields as [f0 [E [N0 [K0 [T0 [Of Lc]]]]]].
  destruct (leaf_xml_ok u _ Lc) as [[Dn Dx] Un]. unfold parse_list. rewrite new_vars by exact Un. rewrite E in *.
  rewrite forallb_forall in Of. pose proof (Of f Hf) as Off.
  assert (Kk : kw_of f = k) by (unfold kw_of; rewrite Kf; reflexivity).
  destruct obs_names as [Dm Nm].
  cbn [map_res]. unfold child_of_line. cbn [get nth_error guard_opt bind].
  rewrite <- K0, <- Kk. rewrite (bind_text u obs_cls [] f0 observables [] e) by (try assumption; intros []).
  assert (Sd : set_var (f_name f0) (VStr e) (defaults (f0 :: observables)) = ("epoch", VStr e) :: map (fun g => (f_name g, field_default g)) observables).
  { cbn [defaults map set_var]. rewrite String.eqb_refl, N0. reflexivity. }
  rewrite Sd. destruct (in_split _ _ Hf) as [o1 [o2 Eo]].
  cbn [app]. replace (f0 :: observables) with ((f0 :: o1) ++ f :: o2) by (rewrite Eo; reflexivity).
  rewrite (bind_one obs_cls (f0 :: o1) f o2 [f_name f0] w d); [|exact Off| | |exact Nt].
  - cbn [bind_children bind]. unfold observation. fold obs_cls. do 2 f_equal. cbn [set_var].
    replace (String.eqb "epoch" (f_name f)) with false by (symmetry; apply String.eqb_neq; intros X; apply Nm; rewrite X; apply in_map; exact Hf).
    f_equal. apply set_measured; [exact Dm|exact Hf|]. intros g Hg. apply Of in Hg. unfold obs_field in Hg.
    destruct (f_list g); [rewrite andb_false_r in Hg; discriminate|reflexivity].
  - cbn [app]. rewrite <- Eo. exact Dx.
  - intros [X|[]]. apply Nm. rewrite <- N0, X. apply in_map. exact Hf.
Qed.

(* an observation and its line *)
Definition oline (o : obs) (l : line) : Prop :=
  let '(n, e, d) := o in
  exists k t r w extra, obs_key n k /\ l = lit k :: t :: r /\ date_text e /\ columned (e :: w :: extra) t /\ number_text w d.
Definition obs_elem (s : elem) : Prop := e_cls s = obs_cls /\ e_subs s = [] /\ e_islist s = true.
Lemma obs_reads s l o R : obs_elem s -> oline o l -> reads u s (l :: R) (observation o) 1.
Proof.
  destruct o as [[n e] d]. intros [Ec [Es Il]] [k [t [r [w [extra [K [-> [D [C Nt]]]]]]]]]. exists 1, s. rewrite identify_eq. unfold own_range. rewrite Ec.
  unfold obs_cls. cbn [String.eqb Ascii.eqb Bool.eqb orb].
  unfold date_range. cbn [get nth_error guard_opt bind]. rewrite (split_ws_columned _ _ C). cbn [nth_error guard_opt bind get].
  rewrite (date_is u _ D). cbn [bind]. rewrite Es. cbn [snd]. split; [reflexivity|]. split; [left; lia|].
  intros pre fuel Df. destruct fuel as [|m]; [lia|]. rewrite shift_set_mm, shift_subs_nil by exact Es.
  cbn [build set_mm e_cls e_mm e_subs e_kws e_single]. rewrite Ec, Es. unfold obs_cls. cbn [String.eqb Ascii.eqb Bool.eqb].
  unfold shift_range. cbn [fst snd]. rewrite slice_shift. unfold slice. cbn [skipn firstn Nat.sub].
  cbn [get nth_error guard_opt bind]. rewrite (split_ws_columned _ _ C). cbn [zip_lines].
  pose proof (parse_obs n k e w d K ltac:(apply D) Nt) as P. unfold obs_cls in P.
  match goal with |- context [parse_list u ?c None ?L] => replace (parse_list u c None L) with (Ok (observation (n, e, d))) by (symmetry; exact P) end.
  cbn [bind observation fold_left]. reflexivity.
Qed.
Lemma undated_is t : undated t -> exists w ts, split_ws t = w :: ts /\ is_datestr u w = Ok false.
Proof.
  intros [w [ts [c [C [I [L D]]]]]]. exists w, ts. split; [apply split_ws_columned; exact C|].
  unfold is_datestr, isnumeric. destruct (firstn 4 w) as [|x y] eqn:E; [destruct I|].
  replace (forallb _ (x :: y)) with false; [reflexivity|]. symmetry. apply not_true_is_false. intros X. rewrite forallb_forall in X. apply X in I.
  unfold is_ascii in I. apply N.ltb_lt in L. rewrite L in I. congruence.
Qed.
Definition other_line (l : line) : Prop := exists k t r, l = k :: t :: r /\ undated t.
Lemma obs_stops s l R : obs_elem s -> other_line l -> stops u s (l :: R).
Proof.
  intros [Ec [Es Il]] [k [t [r [-> U]]]]. destruct (undated_is t U) as [w [ts [E D]]]. exists 0, 0, 0, s. rewrite identify_eq. unfold own_range. rewrite Ec.
  unfold obs_cls. cbn [String.eqb Ascii.eqb Bool.eqb orb].
  unfold date_range. cbn [get nth_error guard_opt bind]. rewrite E. cbn [nth_error guard_opt bind get]. rewrite D. cbn [bind]. rewrite Es. auto.
Qed.
Lemma obs_list s ols os R : obs_elem s -> Forall2 oline os ols -> ols <> [] ->
  (R = [] \/ exists l R', R = l :: R' /\ other_line l) -> list_reads u s (ols ++ R) (map observation os) R.
Proof.
  intros Se F Ne H. induction F as [|o l os ols Hl F IH]; [congruence|]. cbn [app map].
  destruct ols as [|l' ols].
  - inversion F; subst. cbn [app map]. destruct H as [->|[k [R' [-> Hk]]]].
    + apply (lr_end u s [l]); [cbn; lia|apply obs_reads; assumption].
    + apply (lr_cons u s [l]); [cbn; lia|cbn; lia|apply obs_reads; assumption|]. apply lr_stop. apply obs_stops; assumption.
  - apply (lr_cons u s [l]); [cbn; lia|cbn; lia|apply obs_reads; assumption|]. apply IH. discriminate.
Qed.
Lemma oline_key o l : oline o l -> exists k, key_of l = lit k /\ obs_key (fst (fst o)) k.
Proof. destruct o as [[n e] d]. intros [k [t [r [w [extra [K [-> _]]]]]]]. exists k. split; [reflexivity|exact K]. Qed.

(* a section followed by lines with other keywords, one of them repeated, ends there *)
Lemma section_reads_dup s v ds rest : leaf_elem s = true -> section (e_cls s) v ->
  Forall (fun l => ~ In (key_of l) (e_kws s) /\ key_of l <> kw_comment) ds -> has_dup (keys_of ds) = true ->
  reads u s (sec_lines v ++ ds ++ rest) v (List.length (sec_lines v)).
Proof.
  intros L S N1 N3. assert (C : claims (e_kws s) (keys_of (sec_lines v)) []) by (apply (section_claims u); [exact L|exact S|intros t _ _ []]).
  pose proof (section_keys_incl u s v L (or_intror S)) as Ki. pose proof (section_lines_ne u s v L S) as Nl.
  destruct S as [vars [-> [W Nz]]]. destruct (leaf_elem_spec s L) as [O [Sg [Es [Lc [Ek [H1 R]]]]]].
  destruct C as [n [ks [E [C1 [C2 [C3 [C4 [C5 [C6 _]]]]]]]]].
  apply leaf_reads_range; try assumption.
  - intros X. rewrite X in Nl. cbn in Nl. lia.
  - intros k Hk. destruct (list_eq_dec N.eq_dec k kw_comment) as [->|Nc]; [|destruct (Ki k Hk); [contradiction|assumption]].
    apply C5. intros ->. cbn [repeat app] in E. rewrite E in Hk. contradiction.
  - rewrite !keys_of_app. rewrite <- (keys_of_length (sec_lines _)). apply gap_range_many.
    + rewrite Ek. clear - Lc. unfold leaf_class in Lc. do 3 (apply andb_true_iff in Lc; destruct Lc as [Lc ?]).
      rewrite <- (map_map kw_of lit). apply FinFun.Injective_map_NoDup; [intros a b; apply lit_inj|]. apply no_dup_strings_spec. assumption.
    + exists n, ks. auto 10.
    + apply Forall_map. exact N1.
    + rewrite N3, orb_true_r. reflexivity.
  - cbn [sec_lines]. apply parse_section; assumption.
Qed.
Lemma dup_keys os ols : Forall2 oline os ols -> ~ NoDup (map (fun o => fst (fst o)) os) -> has_dup (keys_of ols) = true.
Proof.
  intros F. destruct (has_dup (keys_of ols)) eqn:E; [reflexivity|]. intros N. exfalso. apply N. clear N.
  induction F as [|o l os ols H F IH]; [constructor|]. cbn [map keys_of has_dup] in *. apply orb_false_iff in E. destruct E as [E1 E2]. constructor; [|apply IH; exact E2].
  intros X. apply not_true_iff_false in E1. apply E1. apply mem_str_spec. apply in_map_iff in X. destruct X as [o' [Eo Io]].
  destruct (Forall2_in_l _ _ _ _ F Io) as [l' [Il Hl]]. destruct (oline_key _ _ H) as [k [K1 K2]]. destruct (oline_key _ _ Hl) as [k' [K3 K4]].
  rewrite Eo in K4. rewrite (obs_key_fun _ _ _ K2 K4) in K1. rewrite K1, <- K3. apply in_map. exact Il.
Qed.

(* a segment and the lines of its observations *)
Definition tpart := (tdm_part * list line)%type.
Definition tdata (q : tpart) : list line := let '((_, cs, _), ols) := q in comment_lines cs ++ ols.
Definition tmeta (q : tpart) : pyval := let '((md, _, _), _) := q in md.
Definition tlines (q : tpart) : list line := sec_lines (tmeta q) ++ tdata q.
Definition tpart_ok (q : tpart) : Prop := tdm_part_ok (fst q) /\ let '((_, _, os), ols) := q in Forall2 oline os ols.
Definition tlater (r : list tpart) : list line := flat_map tlines r.

Definition tdm_shape (hdr body seg meta data ob : elem) : Prop :=
  (In "Tdm" root_classes /\ e_subs (tree_of "Tdm") = [hdr; body] /\ e_subs body = [seg] /\ e_subs seg = [meta; data] /\ e_subs data = [ob]) /\
  (sec_elem hdr = true /\ bare_elem body = true /\ e_islist body = false /\ bare_elem seg = true /\ e_islist seg = true) /\
  (leaf_elem meta = true /\ e_islist meta = false /\ has_comments (e_cls meta) = true /\ data_elem data = true /\ e_islist data = false /\ obs_elem ob) /\
  (disjointb (e_kws hdr) (e_kws meta) = true /\ disjointb (e_kws hdr) obsT = true /\ disjointb (e_kws meta) obsT = true /\
   disjointb (deleted_keywords "Tdm") (e_kws hdr ++ e_kws meta ++ obsT) = true) /\
  (e_name hdr = "header" /\ e_name body = "body" /\ e_name seg = "segment" /\ e_name meta = "metadata" /\ e_name data = "data" /\
   e_name ob = "observation") /\
  (e_cls hdr = "TdmHeader" /\ e_cls body = "TdmBody" /\ e_cls seg = "TdmSegment" /\ e_cls meta = "TdmMetadata" /\ e_cls data = "TdmData") /\
  (vars_of (new_obj "Tdm") = [("header", VNone); ("body", VNone)] /\ vars_of (new_obj (e_cls body)) = [("segment", VList [])] /\
   vars_of (new_obj (e_cls seg)) = [("metadata", VNone); ("data", VNone)] /\
   defaults (tl (fields_of (e_cls data))) = [("observation", VList [])]).
Lemma tdm_shape_ok : exists hdr body seg meta data ob, tdm_shape hdr body seg meta data ob.
Proof.
  exists (at_name ["header"] (tree_of "Tdm")), (at_name ["body"] (tree_of "Tdm")), (at_name ["body"; "segment"] (tree_of "Tdm")),
    (at_name ["body"; "segment"; "metadata"] (tree_of "Tdm")), (at_name ["body"; "segment"; "data"] (tree_of "Tdm")),
    (at_name ["body"; "segment"; "data"; "observation"] (tree_of "Tdm")).
  split; [split; [cbn [In root_classes]; tauto|]|]; repeat (apply conj); vm_compute; reflexivity.
Qed.

Section Shape.
Variables hdr body seg meta data ob : elem.
Hypothesis Sp : tdm_shape hdr body seg meta data ob.
Lemma tmeta_section q : tpart_ok q -> section "TdmMetadata" (tmeta q).
Proof. destruct q as [[[md cs] os] ols]. intros [[Sm _] _]. exact Sm. Qed.
Lemma tdata_keys q k : tpart_ok q -> In k (keys_of (tdata q)) -> k = kw_comment \/ In k obsT.
Proof.
  destruct q as [[[md cs] os] ols]. intros [_ F] H. cbn [tdata] in H. rewrite keys_of_app in H.
  apply in_app_or in H. destruct H as [H|H]; [left; exact (comment_keys _ _ H)|right].
  apply in_map_iff in H. destruct H as [l [<- Hl]]. clear - F Hl. induction F as [|o l0 os ols Ho F IH]; [destruct Hl|].
  destruct Hl as [<-|Hl]; [|exact (IH Hl)]. destruct (oline_key _ _ Ho) as [k [-> K]]. exact (obs_key_in _ _ K).
Qed.
Lemma tlines_keys q k : tpart_ok q -> In k (keys_of (tlines q)) -> k = kw_comment \/ In k (e_kws meta) \/ In k obsT.
Proof.
  intros Q H. unfold tlines in H. rewrite keys_of_app in H. apply in_app_or in H. destruct H as [H|H].
  - destruct Sp as [_ [_ [[Lm _] [_ [_ [[_ [_ [_ [C _]]]] _]]]]]]. pose proof (tmeta_section q Q) as Sm.
    destruct (section_keys_incl u meta (tmeta q) Lm) with (k := k) as [E|E]; [right; rewrite C; exact Sm|exact H|auto|auto].
  - destruct (tdata_keys q k Q H) as [E|E]; auto.
Qed.
Lemma tlater_keys r k : Forall tpart_ok r -> In k (keys_of (tlater r)) -> k = kw_comment \/ In k (e_kws meta) \/ In k obsT.
Proof.
  induction 1 as [|q r Q _ IH]; [intros []|]. cbn [tlater flat_map]. rewrite keys_of_app. intros H. apply in_app_or in H. destruct H as [H|H].
  - exact (tlines_keys q k Q H).
  - exact (IH H).
Qed.
Lemma obs_not_meta k : In k obsT -> ~ In k (e_kws meta).
Proof.
  intros H X. destruct Sp as [_ [_ [_ [[_ [_ [D _]]] _]]]]. destruct (obsT_plain k H) as [_ N]. exact (disjointb_spec _ _ _ D X N H).
Qed.
Lemma tmeta_first q : tpart_ok q -> exists l r, sec_lines (tmeta q) = l :: r /\ (starts_undated (tmeta q) -> other_line l).
Proof.
  intros Q. pose proof (tmeta_section q Q) as Sm. destruct Sp as [_ [_ [[Lm _] [_ [_ [[_ [_ [_ [C _]]]] _]]]]]]. rewrite <- C in Sm.
  pose proof (section_lines_ne u meta _ Lm Sm) as N. destruct (sec_lines (tmeta q)) as [|l r] eqn:E; [cbn in N; lia|].
  exists l, r. split; [reflexivity|]. intros [k [t [un [x [Ei U]]]]]. destruct Sm as [vars [Ev _]]. rewrite Ev in *. cbn [sec_lines section_items] in *.
  destruct (entries (fields_of (e_cls meta)) vars) as [|[[k0 t0] un0] es]; [discriminate|]. cbn [map] in *. injection Ei as -> -> -> _. injection E as <- _.
  exists k, t. unfold line_of. destruct un; eexists; (split; [reflexivity|exact U]).
Qed.

Definition tapart (qs : list tpart) : Prop := tdm_apart (map fst qs).
Lemma tapart_cons md cs os ols r : tapart (((md, cs, os), ols) :: r) ->
  ((cs = [] /\ ~ NoDup (map (fun o => fst (fst o)) os)) \/ forall q, In q r -> forall n, sets (tmeta q) n -> sets md n) /\
  match r with [] => True | q :: _ => starts_undated (tmeta q) end /\ tapart r.
Proof.
  unfold tapart. cbn [map fst tdm_apart]. intros [A [B C]]. split; [|split; [|exact C]].
  - destruct A as [A|A]; [left; exact A|right]. intros [[[md' cs'] os'] ols'] I n. apply (A md' cs' os'). apply in_map_iff. exists ((md', cs', os'), ols'). auto.
  - destruct r as [|[[[md' cs'] os'] ols'] r]; [exact I|]. exact B.
Qed.

Lemma tdata_reads q r : Forall tpart_ok (q :: r) -> tapart (q :: r) ->
  exists vd, tdm_segment (fst q) = VObj "TdmSegment" [("metadata", tmeta q); ("data", vd)] /\
  reads u data (tdata q ++ tlater r) vd (List.length (tdata q)).
Proof.
  intros F A. pose proof (Forall_inv F) as Q. pose proof (Forall_inv_tail F) as Fr. destruct q as [[[md cs] os] ols].
  cbn [fst tdm_segment tmeta]. eexists. split; [reflexivity|]. destruct Q as [[Sm [G [Lcs Ns]]] Fo]. cbn [fst] in *.
  destruct (tapart_cons _ _ _ _ _ A) as [_ [A2 _]].
  destruct Sp as [[_ [_ [_ [_ Es]]]] [_ [[_ [_ [_ [Dd [_ So]]]]] [_ [[_ [_ [_ [_ [_ No]]]]] [[_ [_ [_ [_ Cd]]]] [_ [_ [_ Df]]]]]]]]].
  assert (Hf : tlater r = [] \/ exists l R', tlater r = l :: R' /\ other_line l).
  { destruct r as [|q' r']; [left; reflexivity|right]. pose proof (Forall_inv Fr) as Q'. destruct (tmeta_first q' Q') as [l [x [E O]]].
    cbn [tlater flat_map]. unfold tlines. rewrite E. do 2 eexists. split; [reflexivity|exact (O A2)]. }
  assert (Ht : comment_lines cs = takes (hd_error cs)) by (rewrite takes_comment; destruct cs as [|a [|]]; [reflexivity|apply app_nil_r|cbn in Lcs; lia]).
  assert (Nl : ols <> []) by (intros ->; inversion Fo; subst; congruence).
  unfold tdata. rewrite <- app_assoc, Ht, app_length, <- Cd.
  apply (data_block u data cs (ols ++ tlater r) (map (fun v => (e_name ob, v)) (map observation os) ++ [])).
  - exact Dd.
  - exact G.
  - intros X. apply app_eq_nil in X. destruct X as [X _]. contradiction.
  - intros _. destruct Fo as [|o l os ols Hl Fo]; [congruence|]. destruct (oline_key _ _ Hl) as [k [K1 K2]]. apply obs_key_in, obsT_plain in K2. destruct K2 as [_ K2].
    cbn [app]. intros X. apply K2. rewrite <- K1. cbn in X. injection X as X. exact X.
  - destruct os; [congruence|]. discriminate.
  - rewrite Es. rewrite <- (Nat.add_0_r (List.length ols)). apply subs_list; [apply So| |apply subs_nil]. apply obs_list; assumption.
  - rewrite Df, No, app_nil_r, attach_list.
    2:{ eexists. reflexivity. } 2:{ clear. induction os as [|[[n e] d] os IH]; constructor; [discriminate|assumption]. }
    assert (Ef : firstn 1 (texts cs) = texts cs) by (destruct cs as [|a [|]]; [reflexivity|reflexivity|cbn in Lcs; lia]). rewrite Ef. reflexivity.
Qed.

Lemma tpart_reads q r : Forall tpart_ok (q :: r) -> tapart (q :: r) ->
  reads u seg (tlines q ++ tlater r) (tdm_segment (fst q)) (List.length (tlines q)).
Proof.
  intros F A. destruct (tdata_reads q r F A) as [vd [Eo Rd]]. rewrite Eo. pose proof (Forall_inv F) as Q. pose proof (Forall_inv_tail F) as Fr.
  assert (Rm : reads u meta (sec_lines (tmeta q) ++ tdata q ++ tlater r) (tmeta q) (List.length (sec_lines (tmeta q)))).
  { destruct Sp as [_ [_ [[Lm _] [_ [_ [[_ [_ [_ [C _]]]] _]]]]]]. pose proof (tmeta_section q Q) as Sm. rewrite <- C in Sm.
    pose proof Q as Q0. destruct q as [[[md cs] os] ols]. destruct (tapart_cons _ _ _ _ _ A) as [[[-> Dp]|A1] _]; cbn [tmeta] in *.
    - destruct Q as [_ Fo]. cbn [tdata comment_lines map app]. apply section_reads_dup; [exact Lm|exact Sm| |exact (dup_keys _ _ Fo Dp)].
      apply Forall_forall. intros l Hl. assert (I : In (key_of l) obsT).
      { destruct (tdata_keys _ (key_of l) Q0) as [E|E]; [cbn [tdata comment_lines map app]; apply in_map; exact Hl| |exact E]. clear - Fo Hl E.
        induction Fo as [|o l0 os ols Ho Fo IH]; [destruct Hl|]. destruct Hl as [->|Hl]; [|exact (IH Hl)]. destruct (oline_key _ _ Ho) as [k [K1 K2]].
        rewrite K1 in *. exact (obs_key_in _ _ K2). }
      split; [exact (obs_not_meta _ I)|]. apply (obsT_plain _ I).
    - apply section_reads; [exact Lm|exact Sm|]. rewrite keys_of_app.
      assert (Kd : forall q', tpart_ok q' -> known (e_kws meta) (keys_of (sec_lines md)) (keys_of (tdata q'))).
      { intros q' Q' t H1 H2 H3. exfalso. destruct (tdata_keys q' t Q' H3) as [E|E]; [contradiction|exact (obs_not_meta t E H1)]. }
      apply known_app; [apply Kd; exact Q0|]. clear - u A1 Fr Kd Sm Lm C. induction Fr as [|q' r Q' Fr IH]; [intros t _ _ []|].
      cbn [tlater flat_map]. unfold tlines. rewrite !keys_of_app. apply known_app; [apply known_app; [|apply Kd; exact Q']|].
      + apply (later_known u); [exact Lm|exact Sm| |exact (A1 q' (or_introl eq_refl))]. rewrite C. exact (tmeta_section q' Q').
      + apply IH. intros q0 I. exact (A1 q0 (or_intror I)). }
  destruct Sp as [[_ [_ [_ [Es _]]]] [[_ [_ [_ [B _]]]] [[_ [Im [_ [_ [Id _]]]]] [_ [[_ [_ [_ [Nm [Nd _]]]]] [[_ [_ [Cs _]]] [_ [_ [V _]]]]]]]]].
  unfold tlines. rewrite <- app_assoc. rewrite <- Cs, <- Nm, <- Nd.
  apply segment_of; try assumption; [rewrite Nm, Nd; exact V|rewrite Nm, Nd; discriminate].
Qed.
Lemma tapart_app a b : tapart (a ++ b) -> tapart b.
Proof. induction a as [|[[[md cs] os] ols] a IH]; cbn [app]; intros H; [exact H|]. apply IH. apply tapart_cons in H. apply H. Qed.
Lemma tparts_list qs : qs <> [] -> Forall tpart_ok qs -> tapart qs ->
  list_reads u seg (tlater qs) (map (fun q => tdm_segment (fst q)) qs) [].
Proof.
  intros Ne F A.
  assert (E1 : forall l, tlater l = flat_map fst (map (fun q => (tlines q, tdm_segment (fst q))) l)).
  { clear. induction l as [|p ps IH]; [reflexivity|]. cbn. unfold tlater in IH. rewrite IH. reflexivity. }
  assert (E2 : map (fun q => tdm_segment (fst q)) qs = map snd (map (fun q => (tlines q, tdm_segment (fst q))) qs)) by (rewrite map_map; reflexivity).
  rewrite E1, E2. apply items_list; [destruct qs; [congruence|discriminate]|].
  intros a own v b E.
  assert (X : exists pa p pb, qs = pa ++ p :: pb /\ own = tlines p /\ v = tdm_segment (fst p) /\ b = map (fun q => (tlines q, tdm_segment (fst q))) pb).
  { clear - E. revert qs E. induction a as [|x a IH]; intros [|p ps] E; try discriminate.
    - cbn in E. injection E as <- <- <-. exists [], p, ps. auto.
    - cbn in E. injection E as _ E. destruct (IH ps E) as [pa [q [pb [-> H]]]]. exists (p :: pa), q, pb. auto. }
  destruct X as [pa [p [pb [-> [-> [-> ->]]]]]]. rewrite <- E1. apply tapart_app in A. apply Forall_app in F. destruct F as [_ F].
  split; [|apply tpart_reads; assumption]. pose proof (Forall_inv F) as Q. destruct (tmeta_first p Q) as [l [x [El _]]]. unfold tlines. rewrite El. cbn. lia.
Qed.

(* the whole message *)
Lemma tdm_subs header qs pre : section "TdmHeader" header -> qs <> [] -> Forall tpart_ok qs -> tapart qs ->
  subs_at u pre (sec_lines header ++ tlater qs) (e_subs (tree_of "Tdm")) (List.length (sec_lines header) + (List.length (tlater qs) + 0))
    [("header", header); ("body", VObj "TdmBody" [("segment", VList (map (fun q => tdm_segment (fst q)) qs))])].
Proof.
  intros Sh Ne F A. pose proof (tparts_list qs Ne F A) as Ll.
  destruct Sp as [[_ [E1 [E2 _]]] [[Xh [Xb [Ib [_ Is]]]] [_ [[D1 [D2 _]] [[Nh [Nb [Ns _]]] [[Ch [Cb _]] [_ [V2 _]]]]]]]].
  destruct (sec_elem_spec hdr Xh) as [Lh [Ih _]]. rewrite <- Ch in Sh.
  assert (Rb : reads u body (tlater qs) (VObj (e_cls body) [("segment", VList (map (fun q => tdm_segment (fst q)) qs))]) (List.length (tlater qs))).
  { destruct (bare_elem_spec body Xb) as [O [Sg [Ek Eb]]]. eapply bare_reads with (att := map (fun v => (e_name seg, v)) (map (fun q => tdm_segment (fst q)) qs) ++ []); try assumption.
    - destruct qs; [congruence|discriminate].
    - rewrite E2. pose proof (subs_list u seg [] [] (tlater qs) [] (map (fun q => tdm_segment (fst q)) qs) 0 [] Is) as Q. rewrite app_nil_r, Nat.add_0_r in Q. apply Q; [exact Ll|apply subs_nil].
    - rewrite V2, Ns, app_nil_r. rewrite attach_list; [reflexivity|eexists; reflexivity|].
      clear. induction qs as [|[[[md cs] os] y] qs IH]; constructor; [discriminate|exact IH]. }
  rewrite E1, <- Nh, <- Nb, <- Cb. apply subs_one; [exact Ih|apply section_reads; [exact Lh|exact Sh|]|].
  - intros t H1 H2 H3. exfalso. destruct (tlater_keys qs t F H3) as [E|[E|E]].
    + contradiction.
    + exact (disjointb_spec _ _ _ D1 H1 H2 E).
    + exact (disjointb_spec _ _ _ D2 H1 H2 E).
  - rewrite <- (app_nil_r (tlater qs)) at 1. apply subs_one; [exact Ib|rewrite app_nil_r; exact Rb|apply subs_nil].
Qed.
(* the lines that are left after removing the markers *)
Lemma tkept ls : (forall k, In k (keys_of ls) -> k = kw_comment \/ In k (e_kws hdr) \/ In k (e_kws meta) \/ In k obsT) -> delete_keywords "Tdm" ls = ls.
Proof.
  intros H. unfold delete_keywords. apply filter_all. intros l Hl. apply negb_true_iff. apply not_true_iff_false. intros X. apply mem_str_spec in X.
  destruct Sp as [_ [_ [_ [[_ [_ [_ D]]] _]]]].
  assert (Nc : key_of l <> kw_comment). { intros Y. rewrite Y in X. revert X. cbn. intros X. repeat (destruct X as [X|X]; [apply lit_inj in X; discriminate|]). destruct X. }
  apply (disjointb_spec _ _ _ D X Nc). specialize (H (key_of l) (in_map key_of _ _ Hl)). destruct H as [H|[H|[H|H]]]; [contradiction| | |]; repeat (apply in_or_app; auto; right); auto.
Qed.
End Shape.
End Tdm.
