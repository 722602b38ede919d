(* Sections with parts of their own (keywords, then sub-sections) and rotations given line by line, read and written. *)
From Coq Require Import NArith ZArith List Bool String Arith Lia.
From Verif Require Import PyStr PyDec PyVal Schema KvnPre KvnTree KvnSeg XmlBind KvnBuild NdmXml KvnWrite
     Spec SpecKvn SpecObj SpecMsg SpecApm StrFacts DecFacts PreFacts SegFacts BuildFacts WriteFacts ParseFacts ShiftFacts
     ReadFacts ComposeFacts MsgFacts PropWrite CoreFacts UserFacts DataFacts SingleFacts ListFacts GapFacts RelFacts.
Import ListNotations.
Local Open Scope string_scope.
Local Open Scope list_scope.
Local Arguments find_class : simpl never.
Local Arguments lit : simpl never.

Section Apm.
Variable u : env.

(* ---- elements of one line ---- *)
Lemma range_single il start keys lo hi : range_of_indices il start keys false = Ok (lo, hi) -> lo < hi ->
  range_of_indices il start keys true = Ok (lo, lo + 1).
Proof.
  unfold range_of_indices. destruct il as [|i il]; cbn [bind].
  - intros H. injection H as <- <-. lia.
  - match goal with |- context [bind ?x _] => destruct x as [l|e]; cbn [bind] end; [|discriminate].
    destruct l as [|a l]; intros H; injection H as <- <-; [lia|]. intros _. reflexivity.
Qed.
Lemma single_range T t rest : NoDup T -> ~ In kw_comment T -> In t T ->
  get_min_max T 0 (t :: rest) None true = Ok ((0, 1), T).
Proof.
  intros D NC Ht. unfold get_min_max. cbn [extend_tags]. unfold process_comment_lines.
  rewrite (proj2 (mem_str_false _ _) NC). cbn [bind].
  assert (I0 : In 0 (index_list0 T 0 (t :: rest))).
  { apply index_list0_in. exists t. split; [exact Ht|]. split; [intros ->; contradiction|].
    unfold index_start. cbn [skipn index_from]. rewrite str_eqb_refl. reflexivity. }
  destruct (range_cases (index_list0 T 0 (t :: rest)) 0 (t :: rest)) as [hi [E [L _]]].
  - apply index_list0_nodup; exact D.
  - intros X. rewrite X in I0. destruct I0.
  - intros i Hi. apply index_list0_in in Hi. destruct Hi as [t' [_ [_ H]]]. apply index_start_nth in H. apply nth_error_Some. congruence.
  - assert (Z : list_min (index_list0 T 0 (t :: rest)) = 0) by (apply Nat.le_0_r; apply list_min_le; exact I0).
    rewrite Z in *. rewrite (range_single _ _ _ _ _ E L). reflexivity.
Qed.
Lemma own_range_single e p keys lines i mm tags : ordinary (e_cls e) = true -> e_single e = Some p ->
  get_min_max (e_kws e) i keys None true = Ok (mm, tags) ->
  own_range u e keys lines i = Ok (mm, set_kws e tags).
Proof.
  intros O S H. destruct (ordinary_spec _ O) as [H1 [H2 [H3 [H4 [H5 H6]]]]]. unfold own_range.
  rewrite S, H2, H3, H4, H5, H6. cbn [orb]. rewrite H. reflexivity.
Qed.

(* one element of one line *)
Definition line_elem (s : elem) (p comp : string) (axes : list str) : Prop :=
  ordinary (e_cls s) = true /\ e_single s = Some p /\ e_subs s = [] /\ e_islist s = false /\ e_cls s = comp /\
  e_kws s = axes /\ NoDup axes /\ ~ In kw_comment axes /\ root_kws axes = false.
Lemma line_reads s p comp axes l R v : line_elem s p comp axes -> In (key_of l) axes ->
  parse_single u comp p [l] = Ok v -> (exists c vs, v = VObj c vs) -> reads u s (l :: R) v 1.
Proof.
  intros [O [Sg [Es [_ [Ec [Ek [D [NC Rk]]]]]]]] Hk P [c [vs ->]]. exists 1, s. split.
  - rewrite identify_eq. rewrite (own_range_single s p _ _ 0 (0, 1) axes O Sg).
    + cbn [bind]. rewrite Es, <- Ek, set_kws_same. reflexivity.
    + rewrite Ek. cbn [keys_of map]. apply single_range; assumption.
  - split; [left; lia|]. intros pre fuel Df. destruct fuel as [|n]; [lia|]. rewrite shift_set_mm, shift_subs_nil by exact Es.
    destruct (ordinary_spec _ O) as [H1 [H2 [H3 [H4 [H5 H6]]]]].
    cbn [build set_mm e_cls e_mm e_subs e_kws e_single]. rewrite H1, H2, H3, H4, H5, H6, Es, Sg.
    change (match e_kws s with [a; b] => str_eqb a (lit "id") && str_eqb b (lit "version") | _ => false end) with (root_kws (e_kws s)).
    rewrite Ek, Rk. unfold shift_range. cbn [fst snd]. rewrite slice_shift. unfold slice. cbn [skipn Nat.sub firstn filter].
    rewrite (proj2 (mem_str_spec _ _) Hk). rewrite Ec, P. reflexivity.
Qed.
Lemma line_absent s p comp axes ss pre R m att : line_elem s p comp axes ->
  (forall t, In t axes -> ~ In t (keys_of (pre ++ R))) -> subs_at u pre R ss m att ->
  subs_at u pre R (s :: ss) m ((e_name s, VNone) :: att).
Proof.
  intros [O [Sg [Es [L [_ [Ek [_ [NC _]]]]]]]] N [gs [G F]].
  assert (R1 : forall i, own_range u s (keys_of (pre ++ R)) (pre ++ R) i = Ok ((i, i), s)).
  { intros i. rewrite <- (set_kws_same s) at 2. apply (own_range_single s p); [exact O|exact Sg|]. apply misses_range. rewrite Ek.
    split; [intros X; contradiction|]. intros t Ht _ X. apply in_skipn in X. exact (N t Ht X). }
  exists (set_mm s (0, 0) :: gs). split.
  - cbn [ident_subs]. rewrite L, identify_eq, R1. cbn [bind]. rewrite Es. cbn [bind fst snd].
    rewrite Nat.eqb_refl, Es. cbn [andb]. rewrite R1. cbn [bind fst snd]. rewrite G. reflexivity.
  - constructor; [|exact F]. split; [reflexivity|]. intros q fuel Df. apply build_empty; [lia| |].
    + rewrite shift_set_mm. cbn. rewrite Es. reflexivity.
    + rewrite shift_set_mm. cbn. unfold slice. replace (List.length q + 0 - (List.length q + 0)) with 0 by lia. reflexivity.
Qed.

(* ---- rotations ---- *)
Definition comp_line (v : pyval) : list line :=
  match v with
  | VObj _ [(_, x); (_, VEnum _ _ k); (_, un)] => [line_of (k, fst (shown x), match un with VEnum _ _ s => s | _ => [] end)]
  | _ => []
  end.
Definition rot_lines (v : pyval) : list line :=
  match v with VObj _ vars => flat_map (fun nv => comp_line (snd nv)) vars | _ => [] end.

Definition comp_class (comp p axes units : string) (ms : list (string * string)) : Prop :=
  fields_of comp = [mkField "value" None false TDec KText None; mkField p None false (TCls axes) KAttr None;
                    mkField "units" None false (TCls units) KAttr None] /\
  (String.eqb p "value" = false /\ String.eqb p "units" = false) /\
  find_class axes = Some (CEnum ms) /\ enum_ok axes ms = true /\ fty_is_enum (TCls units) = true /\
  mem_string comp special_output_header_classes = false /\
  forallb (fun m => forallb is_ascii (lit (snd m)) && str_eqb (ascii_upper (lit (snd m))) (lit (snd m)) && not_begins_comment (lit (snd m))) ms = true.

Lemma comp_parse comp p axes units ms v : comp_class comp p axes units ms -> component comp p axes units v ->
  exists l, comp_line v = [l] /\ In (key_of l) (map (fun m => lit (snd m)) ms) /\ parse_single u comp p [l] = Ok v /\
    exists c vs, v = VObj c vs.
Proof.
  intros [Ef [[P1 P2] [Fc [Eo [Un _]]]]] [x [ms' [m [s [un [-> [Wx [Fc' [Hm Hu]]]]]]]]].
  rewrite Fc in Fc'. injection Fc' as <-. destruct (enum_ok_spec _ _ _ _ Eo Hm) as [Pt Cv].
  assert (U : exists tu, match un with VEnum _ _ t => t | _ => [] end = tu /\ forallb xml_char tu = true /\
    ((tu = [] /\ un = VNone) \/ (tu <> [] /\ conv u comp "units" (TCls units) tu = un))).
  { destruct Hu as [->|Hu]; [exists []; repeat split; left; auto|].
    destruct (fty_enum_scalar _ _ Un Hu) as [ec [ums [em [xu [Et [Fu [_ [-> [Pu Cu]]]]]]]]]. injection Et as <-.
    exists (lit xu). split; [reflexivity|]. apply plain_text_spec in Pu. destruct Pu as [Ne [_ [_ [_ [_ [_ X]]]]]].
    split; [apply forallb_forall; apply Forall_forall; exact X|]. right. split; [exact Ne|].
    rewrite conv_nonempty by exact Ne. rewrite Fu. exact Cu. }
  destruct U as [tu [Eu [Xu Cu]]].
  exists (line_of (lit s, fst (shown x), tu)). split; [cbn [comp_line]; rewrite Eu; reflexivity|].
  split; [rewrite key_line_of; apply (in_map (fun m => lit (snd m)) ms (m, s)); exact Hm|].
  split; [|do 2 eexists; reflexivity].
  destruct (amount_text u x Wx) as [[[_ [_ [_ Xx]]] _] _].
  apply plain_text_spec in Pt. destruct Pt as [Nes [_ [_ [_ [_ [_ Xs]]]]]].
  assert (Ck : forall ats, forallb (fun a : string * str => xml_text (snd a)) ats = true -> child_ok (lit s, (p, lit s) :: ats, fst (shown x)) = true).
  { intros ats H. unfold child_ok, xml_text. cbn [forallb snd].
    rewrite (proj2 (forallb_forall _ _) (proj1 (Forall_forall _ _) Xx)), (proj2 (forallb_forall _ _) (proj1 (Forall_forall _ _) Xs)). exact H. }
  assert (Cs : conv u comp p (TCls axes) (lit s) = VEnum axes m (lit s)) by (rewrite conv_nonempty by exact Nes; rewrite Fc; exact Cv).
  assert (B : forall ats un', assoc p ats = None -> match assoc "units" ats with Some a => conv u comp "units" (TCls units) a | None => VNone end = un' ->
     bind_value_obj u comp ((p, lit s) :: ats) (fst (shown x)) = VObj comp [("value", x); (p, VEnum axes m (lit s)); ("units", un')]).
  { intros ats un' A1 A2. unfold bind_value_obj. rewrite Ef. unfold init_fields. cbn [filter map f_fixed f_name f_kind f_ty f_list].
    cbn [assoc]. rewrite String.eqb_refl, P2. rewrite (conv_amount u comp "value" x Wx), Cs. unfold field_default. cbn [f_list]. rewrite A2. reflexivity. }
  destruct Cu as [[-> ->]|[Nu Cu]].
  - unfold parse_single. cbn [line_of get nth_error guard_opt bind]. rewrite Ck by reflexivity. rewrite (B [] VNone); reflexivity.
  - assert (E : line_of (lit s, fst (shown x), tu) = [lit s; fst (shown x); tu]) by (destruct tu; [congruence|reflexivity]).
    rewrite E. unfold parse_single. cbn [get nth_error guard_opt bind]. rewrite Ck by (cbn; rewrite andb_true_r; exact Xu).
    rewrite (B _ un); [reflexivity| |].
    + cbn [assoc]. rewrite String.eqb_sym, P2. reflexivity.
    + cbn [assoc]. rewrite String.eqb_refl. exact Cu.
Qed.
Lemma comp_written comp p axes units ms v key : comp_class comp p axes units ms -> component comp p axes units v -> plain_key key ->
  exists c k1 x k2 c2 m s k3 un tu, v = VObj c [(k1, x); (k2, VEnum c2 m (lit s)); (k3, un)] /\
    match un with VEnum _ _ t => t | _ => [] end = tu /\ key_ok u s (lit s) /\
    good_value (fst (shown x)) /\ no_char c_lbr (fst (shown x)) /\ (tu = [] \/ plain_text tu = true) /\
    forall out, collate_sub u key v out = Ok (out ++ [fill_kvn u (lit s) (fst (shown x)) tu]).
Proof.
  intros [Ef [[P1 P2] [Fc [Eo [Un [Sp Up]]]]]] [x [ms' [m [s [un [-> [Wx [Fc' [Hm Hu]]]]]]]]] [K1 _].
  exists comp, "value", x, p, axes, m, s, "units", un, (match un with VEnum _ _ t => t | _ => [] end). split; [reflexivity|]. split; [reflexivity|].
  rewrite Fc in Fc'. injection Fc' as <-. destruct (enum_ok_spec _ _ _ _ Eo Hm) as [Pt _].
  rewrite forallb_forall in Up. specialize (Up _ Hm). cbn [snd] in Up. do 2 (apply andb_true_iff in Up; destruct Up as [Up ?]).
  split.
  { apply plain_text_spec in Pt. destruct Pt as [_ [T [O [E _]]]]. split; [rewrite upper_of_ascii by exact Up; apply str_eqb_eq; assumption|].
    split; [exact T|]. split; [exact E|]. split; [exact O|]. unfold not_begins_comment in *. apply negb_true_iff. assumption. }
  destruct (amount_text u x Wx) as [Gx [Bx _]]. split; [exact Gx|]. split; [exact Bx|].
  assert (Sh : py_str x = Ok (fst (shown x))) by (destruct Wx; reflexivity).
  apply String.eqb_neq in K1.
  assert (W : forall tu out, (tu = [] /\ un = VNone) \/ (tu <> [] /\ exists c n, un = VEnum c n tu) ->
    collate_sub u key (VObj comp [("value", x); (p, VEnum axes m (lit s)); ("units", un)]) out = Ok (out ++ [fill_kvn u (lit s) (fst (shown x)) tu])).
  { intros tu out Ht. cbn [collate_sub]. rewrite Sp, K1.
    assert (M1 : mem_string "units" (map fst [("value", x); (p, VEnum axes m (lit s)); ("units", un)]) = true).
    { unfold mem_string. cbn [map fst existsb]. rewrite String.eqb_refl. rewrite !orb_true_r. reflexivity. }
    rewrite M1. unfold value_obj_line.
    assert (M2 : filter (fun k => negb (mem_string k ["value"; "units"])) (map fst [("value", x); (p, VEnum axes m (lit s)); ("units", un)]) = [p]).
    { unfold mem_string. cbn [map fst filter existsb]. rewrite P1, P2. reflexivity. }
    rewrite M2. unfold dict_get. cbn [assoc]. rewrite (String.eqb_sym "value" p), P1, String.eqb_refl. cbn [guard_opt bind py_getattr].
    change (String.eqb "value" "value") with true. cbn [bind]. cbn [assoc]. rewrite P2.
    change (String.eqb "value" "units") with false. change (String.eqb "units" "units") with true. change (String.eqb "value" "value") with true. cbv iota. cbn [bind].
    rewrite Sh. cbn [bind]. rewrite !app_nil_r. destruct Ht as [[-> ->]|[Nt [c [n ->]]]].
    - cbn [truthy bind]. rewrite app_nil_r. reflexivity.
    - cbn [truthy py_getattr bind]. change (String.eqb "value" "value") with true. cbn [bind py_str truthy]. destruct tu; [congruence|]. cbn [bind]. rewrite app_nil_r. reflexivity. }
  destruct Hu as [->|Hu].
  - split; [left; reflexivity|]. intros out. apply W. left. auto.
  - destruct (fty_enum_scalar _ _ Un Hu) as [ec [ums [em [xu [_ [_ [_ [Eu [Pu _]]]]]]]]]. subst un. split; [right; exact Pu|].
    intros out. apply W. right. pose proof Pu as Pu'. apply plain_text_spec in Pu'. destruct Pu' as [Nu _]. split; [exact Nu|do 2 eexists; reflexivity].
Qed.
Lemma comp_emits comp p axes units ms v key : comp_class comp p axes units ms -> component comp p axes units v ->
  plain_key key -> emits u key v (comp_line v).
Proof.
  intros C H K out. destruct (comp_written _ _ _ _ _ v key C H K) as [c [k1 [x [k2 [c2 [m [s [k3 [un [tu [-> [Et [Ko [[[_ [Tx [Ox _]]] Nx] [Bx [Pu W]]]]]]]]]]]]]]]].
  rewrite W. cbn [comp_line]. rewrite Et. clear Et. destruct Pu as [->|Pu].
  - destruct (line_plain u s (lit s) _ Ko Tx Ox Nx) as [L1 L2].
    eexists. split; [reflexivity|]. split; [constructor; [exact L1|constructor]|]. cbn [filter_map]. rewrite L2. reflexivity.
  - destruct (line_unit u s (lit s) _ tu Ko Tx Ox Bx Pu) as [L1 L2]. apply plain_text_spec in Pu. destruct Pu as [Nu _].
    eexists. split; [reflexivity|]. split; [constructor; [exact L1|constructor]|]. cbn [filter_map]. rewrite L2.
    destruct tu; [congruence|reflexivity].
Qed.

(* three rotations in a container *)
Definition rot_elem (e : elem) (cont p comp axes units : string) (ms : list (string * string)) : Prop :=
  bare_elem e = true /\ e_cls e = cont /\ e_islist e = false /\ quiet_class cont = true /\
  vars_of (new_obj cont) = rotation VNone VNone VNone /\ comp_class comp p axes units ms /\
  exists s1 s2 s3, e_subs e = [s1; s2; s3] /\ (e_name s1 = "rotation1" /\ e_name s2 = "rotation2" /\ e_name s3 = "rotation3") /\
    forall s, In s [s1; s2; s3] -> line_elem s p comp (map (fun m => lit (snd m)) ms).
Definition axis_names (ms : list (string * string)) : list str := map (fun m => lit (snd m)) ms.

Lemma rot_keys e cont p comp axes units ms v : rot_elem e cont p comp axes units ms ->
  opt_rotation cont (component comp p axes units) v -> forall k, In k (keys_of (rot_lines v)) -> In k (axis_names ms).
Proof.
  intros [_ [_ [_ [_ [_ [C _]]]]]] [->|[->|[a [b [d [-> [Pa [Pb Pd]]]]]]]] k Hk; [destruct Hk|destruct Hk|].
  cbn [rot_lines rotation flat_map snd] in Hk. rewrite !keys_of_app in Hk.
  assert (K : forall x, component comp p axes units x -> In k (keys_of (comp_line x)) -> In k (axis_names ms)).
  { intros x Px Hx. destruct (comp_parse _ _ _ _ _ x C Px) as [l [E [I _]]]. rewrite E in Hx. destruct Hx as [<-|[]]. exact I. }
  repeat (apply in_app_or in Hk; destruct Hk as [Hk|Hk]); [apply (K a)|apply (K b)|apply (K d)|destruct Hk]; assumption.
Qed.
Lemma rot_reads e cont p comp axes units ms v R : rot_elem e cont p comp axes units ms ->
  opt_rotation cont (component comp p axes units) v ->
  (forall t, In t (axis_names ms) -> ~ In t (keys_of R)) ->
  reads u e (rot_lines v ++ R) (filled_rotation cont v) (List.length (rot_lines v)).
Proof.
  intros [B [Ec [_ [_ [Nv [C [s1 [s2 [s3 [Es [[N1 [N2 N3]] L]]]]]]]]]]] H N. destruct (bare_elem_spec e B) as [O [Sg [Ek Eb]]].
  assert (L1 := L s1 (or_introl eq_refl)). assert (L2 := L s2 (or_intror (or_introl eq_refl))).
  assert (L3 := L s3 (or_intror (or_intror (or_introl eq_refl)))). clear L.
  assert (Bare : v = VNone \/ v = VObj cont (rotation VNone VNone VNone) ->
          reads u e (rot_lines v ++ R) (VObj cont (rotation VNone VNone VNone)) (List.length (rot_lines v))).
  { intros Hv. assert (E : rot_lines v = []) by (destruct Hv as [->| ->]; reflexivity). rewrite E. cbn [app List.length].
    rewrite <- Ec. eapply bare_reads; try assumption.
    2:{ rewrite Es. eapply line_absent; [exact L1|intros t Ht; apply N; exact Ht|].
        eapply line_absent; [exact L2|intros t Ht; apply N; exact Ht|].
        eapply line_absent; [exact L3|intros t Ht; apply N; exact Ht|]. apply subs_nil. }
    - discriminate.
    - rewrite Ec, Nv, N1, N2, N3. reflexivity. }
  destruct H as [->|[->|[a [b [d [-> [Pa [Pb Pd]]]]]]]]; [apply Bare; left; reflexivity|apply Bare; right; reflexivity|]. clear Bare.
  destruct (comp_parse _ _ _ _ _ a C Pa) as [la [Ea [Ia [Ra Va]]]]. destruct (comp_parse _ _ _ _ _ b C Pb) as [lb [Eb' [Ib [Rb Vb]]]].
  destruct (comp_parse _ _ _ _ _ d C Pd) as [ld [Ed [Id [Rd Vd]]]].
  cbn [rot_lines rotation flat_map snd filled_rotation]. rewrite Ea, Eb', Ed. cbn [app List.length].
  rewrite <- Ec. eapply bare_reads with (att := [(e_name s1, a); (e_name s2, b); (e_name s3, d)]); try assumption.
  2:{ rewrite Es. change (subs_at u [] ([la] ++ [lb] ++ [ld] ++ R) [s1; s2; s3] (List.length [la] + (List.length [lb] + (List.length [ld] + 0))) 
        [(e_name s1, a); (e_name s2, b); (e_name s3, d)]).
      apply subs_one; [apply L1|eapply line_reads; [exact L1|exact Ia|exact Ra|exact Va]|].
      apply subs_one; [apply L2|eapply line_reads; [exact L2|exact Ib|exact Rb|exact Vb]|].
      apply subs_one; [apply L3|eapply line_reads; [exact L3|exact Id|exact Rd|exact Vd]|]. apply subs_nil. }
  - discriminate.
  - rewrite Ec, Nv, N1, N2, N3. reflexivity.
Qed.
Lemma rot_emits e cont p comp axes units ms v key : rot_elem e cont p comp axes units ms ->
  opt_rotation cont (component comp p axes units) v -> plain_key key -> emits u key v (rot_lines v).
Proof.
  intros [_ [_ [_ [Q [_ [C _]]]]]] H K.
  assert (E : forall a b d la lb ld, emits u "rotation1" a la -> emits u "rotation2" b lb -> emits u "rotation3" d ld ->
      emits u key (VObj cont (rotation a b d)) (la ++ lb ++ ld ++ [])).
  { intros a b d la lb ld Ha Hb Hd. apply emits_node; [exact K|exact Q|reflexivity|].
    apply emits_vars_cons; [exact Ha|]. apply emits_vars_cons; [exact Hb|]. apply emits_vars_cons; [exact Hd|apply emits_vars_nil]. }
  destruct H as [->|[->|[a [b [d [-> [Pa [Pb Pd]]]]]]]].
  - apply emits_none; apply K.
  - apply (E VNone VNone VNone [] [] []); apply emits_none; discriminate.
  - cbn [rot_lines rotation flat_map snd]. apply E; (eapply comp_emits; [exact C|assumption|split; discriminate]).
Qed.

(* ---- keywords, then parts ---- *)
Definition part_elem (e : elem) (fs1 fs2 : list field) : bool :=
  ordinary (e_cls e) && match e_single e with None => true | _ => false end && negb (root_kws (e_kws e))
  && match e_subs e with [] => false | _ => true end && negb (e_islist e)
  && forallb unfixed (fields_of (e_cls e)) && forallb kw_field_ok fs1 && forallb (fun f => negb (f_list f)) fs1
  && no_dup_strings (map f_name (fields_of (e_cls e)))
  && no_dup_strings (map (fun f => match f_kw f with Some k => k | None => f_name f end) (fields_of (e_cls e)))
  && strs_eqb (e_kws e) (kw_comment :: kws_of fs1) && negb (Nat.eqb (List.length (e_kws e)) 1)
  && forallb (fun f => negb (f_list f)) fs2.
Definition part_lines (fs1 : list field) (vars : list (string * pyval)) : list line := map line_of (entries (comment_field :: fs1) vars).

Lemma part_keys e fs1 fs2 vars : part_elem e fs1 fs2 = true -> wf_vars (comment_field :: fs1) vars ->
  forall k, In k (keys_of (part_lines fs1 vars)) -> In k (e_kws e).
Proof.
  intros H W k Hk. unfold part_elem in H. do 12 (apply andb_true_iff in H; destruct H as [H ?]).
  unfold strs_eqb in *. destruct (list_eq_dec (list_eq_dec N.eq_dec) (e_kws e) (kw_comment :: kws_of fs1)) as [Ek|]; [|discriminate]. rewrite Ek.
  inversion W as [|? [n v] ? vs [E1 Wf] Ws]; subst. cbn [fst snd f_name comment_field] in *. subst n.
  destruct (wf_comment_value v Wf) as [ts [-> G]].
  unfold part_lines in Hk. cbn [entries comment_field f_kw] in Hk. rewrite map_app, keys_of_app in Hk. apply in_app_or in Hk. destruct Hk as [Hk|Hk].
  - left. cbn [field_entries] in Hk. unfold keys_of in Hk. rewrite !map_map in Hk. apply in_map_iff in Hk. destruct Hk as [x [<- _]]. rewrite key_line_of. reflexivity.
  - right. destruct (nonlist_keys fs1 vs) as [ss [K1 [I1 _]]]; try assumption. rewrite K1 in Hk. unfold kws_of. revert Hk. apply incl_map. exact I1.
Qed.
Lemma part_reads e fs1 fs2 vars R att parts m : part_elem e fs1 fs2 = true -> fields_of (e_cls e) = (comment_field :: fs1) ++ fs2 ->
  wf_vars (comment_field :: fs1) vars -> (some_set vars \/ part_lines fs1 vars = []) ->
  (forall t, In t (e_kws e) -> t <> kw_comment -> ~ In t (keys_of R)) ->
  att <> [] -> subs_at u (part_lines fs1 vars) R (e_subs e) m att ->
  attach_all att (defaults fs2) = Ok parts -> Forall (fun nv => In (fst nv) (map f_name fs2)) att ->
  reads u e (part_lines fs1 vars ++ R) (VObj (e_cls e) (vars ++ parts)) (List.length (part_lines fs1 vars) + m).
Proof.
  intros H Ef W St Nr Na Sb A Fa. pose proof (part_keys e fs1 fs2 vars H W) as Ik.
  unfold part_elem in H. do 12 (apply andb_true_iff in H; let X := fresh "X" in destruct H as [H X]).
  destruct (e_single e) eqn:Sg; [discriminate|]. destruct (e_subs e) as [|s0 ss0] eqn:Es; [discriminate|].
  unfold strs_eqb in *. destruct (list_eq_dec (list_eq_dec N.eq_dec) (e_kws e) (kw_comment :: kws_of fs1)) as [Ek|]; [|discriminate].
  repeat match goal with Y : negb _ = true |- _ => apply negb_true_iff in Y end.
  match goal with Y : Nat.eqb _ _ = false |- _ => apply Nat.eqb_neq in Y end.
  set (own := part_lines fs1 vars) in *.
  eapply node_reads with (att := att) (vars0 := vars ++ defaults fs2); try assumption.
  - rewrite Es. discriminate.
  - rewrite keys_of_app. rewrite <- (keys_of_length own). destruct St as [St|St].
    + rewrite (claims_range _ (keys_of own) (keys_of R) false); [reflexivity|].
      inversion W as [|? [n v] ? vs [E1 Wf] Ws]; subst. cbn [fst snd f_name comment_field] in *. subst n.
      destruct (wf_comment_value v Wf) as [ts [-> G]].
      destruct (nonlist_keys fs1 vs) as [ks [K1 [I1 [D1 N1]]]]; try assumption.
      assert (Eo : keys_of own = repeat kw_comment (List.length ts) ++ kws_of ks).
      { unfold own, part_lines. cbn [entries comment_field f_kw field_entries]. rewrite map_app, keys_of_app, K1. f_equal.
        unfold texts. rewrite !map_map. unfold keys_of. rewrite map_map.
        clear. induction ts as [|t ts IH]; [reflexivity|]. cbn [map repeat List.length]. rewrite IH. reflexivity. }
      assert (Nd : NoDup (kws_of fs1)).
      { apply no_dup_strings_spec in X2. rewrite Ef in X2. rewrite map_app in X2. cbn [map app] in X2. apply NoDup_cons_iff in X2. destruct X2 as [_ X2].
        assert (Y : map (fun f => match f_kw f with Some k => k | None => f_name f end) fs1 = map kw_of fs1).
        { apply map_ext_in. intros f Hf. rewrite forallb_forall in X5. destruct (kw_field_spec u f (X5 f Hf)) as [_ [_ [_ [Y _]]]]. rewrite Y. reflexivity. }
        rewrite Y in X2. unfold kws_of. rewrite <- (map_map kw_of lit). apply FinFun.Injective_map_NoDup; [intros a b; apply lit_inj|].
        clear - X2. induction (map kw_of fs1) as [|a l IH]; [constructor|]. cbn in X2. apply NoDup_cons_iff in X2. destruct X2 as [Z1 Z2].
        constructor; [intros Z; apply Z1, in_or_app; left; exact Z|apply IH; exact Z2]. }
      assert (Ndk : NoDup (kws_of ks)).
      { assert (Nf : NoDup fs1) by (unfold kws_of in Nd; eapply NoDup_map_inv; exact Nd). specialize (D1 Nf).
        assert (Inj : forall a b, In a fs1 -> In b fs1 -> lit (kw_of a) = lit (kw_of b) -> a = b).
        { intros a b Ha Hb E. unfold kws_of in Nd. clear - Nd Ha Hb E. apply in_split in Ha. destruct Ha as [l1 [l2 ->]]. rewrite map_app in Nd. cbn in Nd.
          apply NoDup_remove_2 in Nd. apply in_app_or in Hb. destruct Hb as [Hb|[Hb|Hb]]; [|exact Hb|]; exfalso; apply Nd; rewrite E;
          apply in_or_app; [left|right]; apply (in_map (fun f => lit (kw_of f))); exact Hb. }
        clear - D1 I1 Inj. induction D1 as [|f l N _ IH]; [constructor|]. cbn. constructor; [|apply IH; intros x Hx; apply I1; right; exact Hx].
        intros Z. apply in_map_iff in Z. destruct Z as [g [E Z]]. apply Inj in E; [subst; contradiction|apply I1; right; exact Z|apply I1; left; reflexivity]. }
      exists (List.length ts), (kws_of ks). split; [exact Eo|]. split.
      { intros Z. apply map_eq_nil in Z. apply N1; [|exact Z]. destruct St as [n [x [[Hi|Hi] Hs]]]; [injection Hi as <- <-; destruct Hs|exists n, x; auto]. }
      split; [exact Ndk|]. split; [rewrite Ek; apply incl_tl; unfold kws_of; apply incl_map; exact I1|].
      split.
      { unfold kws_of. rewrite <- K1. apply (nonlist_no_comment u); assumption. }
      split; [intros _; rewrite Ek; left; reflexivity|]. split; [intros _; assumption|].
      intros t Ht Hc Hi. exfalso. exact (Nr t Ht Hc Hi).
    + assert (Z : own = []) by (exact St). rewrite Z in *. cbn [keys_of map app List.length]. rewrite misses_range; [reflexivity|].
      cbn [skipn]. split; [intros _; assumption|exact Nr].
  - reflexivity.
  - left; exact Na.
  - rewrite own_lines_all by exact Ik.
    assert (E : own = map line_of (entries (fields_of (e_cls e)) (vars ++ defaults fs2))).
    { rewrite Ef, entries_app.
      - rewrite map_app. replace (map line_of (entries fs2 (defaults fs2))) with (@nil line); [rewrite app_nil_r; reflexivity|].
        clear - X. symmetry. revert X. unfold defaults, field_default. induction fs2 as [|f fs IH]; [reflexivity|]. cbn [forallb map entries]. intros Y. apply andb_true_iff in Y.
        destruct Y as [Y1 Y2]. apply negb_true_iff in Y1. rewrite Y1. cbn [field_entries app]. apply IH. exact Y2.
      - clear - W. induction W; [reflexivity|]. cbn. f_equal. assumption. }
    rewrite E. apply parse_entries.
    + split; [apply no_dup_strings_spec; assumption|]. apply no_dup_strings_spec in X2.
      unfold xml_name. rewrite <- (map_map (fun f => match f_kw f with Some n => n | None => f_name f end) lit).
      apply FinFun.Injective_map_NoDup; [intros a b; apply lit_inj|exact X2].
    + assumption.
    + rewrite Ef. apply Forall2_app.
      * apply (wf_parsed (comment_field :: fs1)); [cbn [forallb]; rewrite comment_field_ok; exact X5|exact W].
      * clear. induction fs2 as [|f fs IH]; [constructor|]. constructor; [|exact IH]. split; [reflexivity|]. right. reflexivity.
  - rewrite Es. exact Sb.
  - assert (Nm : forall n, In n (map f_name fs2) -> ~ In n (map fst vars)).
    { intros n Hn. apply no_dup_strings_spec in X3. rewrite Ef, map_app in X3. rewrite (wf_vars_names _ _ W).
      clear - X3 Hn. revert X3. generalize (map f_name (comment_field :: fs1)) as l. induction l as [|a l IH]; [intros _ []|]. cbn. intros D [<-|Hi].
      - apply NoDup_cons_iff in D. apply D. apply in_or_app. right; exact Hn.
      - apply NoDup_cons_iff in D. apply IH; [apply D|exact Hi]. }
    revert A. generalize (defaults fs2) as dv. clear - Fa Nm. induction Fa as [|[n v] att Hn _ IH]; intros dv A; cbn [attach_all] in *; [injection A as ->; reflexivity|].
    cbn [fst] in Hn. unfold attach in *. rewrite assoc_skip by (apply Nm; exact Hn). destruct (assoc n dv) as [w|]; [|discriminate].
    destruct w; cbn [bind] in *; try (rewrite set_var_skip by (apply Nm; exact Hn); apply IH; exact A).
    destruct v; cbn [bind] in *; try (apply IH; exact A);
      (match goal with |- context [append_var n ?x (vars ++ dv)] => replace (append_var n x (vars ++ dv)) with (vars ++ append_var n x dv) end;
       [apply IH; exact A|]; clear - Nm Hn; specialize (Nm n Hn); induction vars as [|[k w] vars IH]; [reflexivity|]; cbn [app append_var];
       destruct (String.eqb_spec k n) as [->|]; [exfalso; apply Nm; left; reflexivity|]; f_equal; apply IH; intros Z; apply Nm; right; exact Z).
Qed.

(* keywords, then optional sections *)
Lemma leaves_reads e fs1 fs2 ss vars secs R : part_elem e fs1 fs2 = true -> fields_of (e_cls e) = (comment_field :: fs1) ++ fs2 ->
  e_subs e = ss -> forallb leaf_elem ss = true -> disjoint_all (e :: ss) = true ->
  Forall2 (fun f nv => fst nv = f_name f /\ f_list f = false) fs2 secs -> Forall2 sec_of ss secs -> NoDup (map f_name fs2) -> secs <> [] ->
  wf_vars (comment_field :: fs1) vars -> (some_set vars \/ part_lines fs1 vars = []) ->
  (forall t, In t (e_kws e ++ flat_map e_kws ss) -> t <> kw_comment -> ~ In t (keys_of R)) ->
  reads u e ((part_lines fs1 vars ++ lines_of secs) ++ R) (VObj (e_cls e) (vars ++ secs)) (List.length (part_lines fs1 vars ++ lines_of secs)).
Proof.
  intros Pe Ef Es L D Ff Fs Nd Ne W St Nr. rewrite app_length, <- app_assoc.
  cbn [disjoint_all] in D. apply andb_true_iff in D. destruct D as [De D]. rewrite forallb_forall in De.
  assert (Ks : forall k, In k (keys_of (lines_of secs)) -> k = kw_comment \/ exists s, In s ss /\ In k (e_kws s)).
  { apply (lines_keys u); assumption. }
  eapply part_reads with (att := secs); try eassumption.
  - intros t Ht Hc Hi. rewrite keys_of_app in Hi. apply in_app_or in Hi. destruct Hi as [Hi|Hi].
    + destruct (Ks t Hi) as [X|[x [X1 X2]]]; [contradiction|]. exact (disjointb_spec _ _ t (De x X1) Ht Hc X2).
    + apply (Nr t); [apply in_or_app; left; exact Ht|exact Hc|exact Hi].
  - pose proof (sections_subs u ss secs Fs [] [] 0 (part_lines fs1 vars) R L D) as SS.
    rewrite !app_nil_r, Nat.add_0_r in SS. rewrite Es. apply SS.
    + intros x t Hx Ht Hc Hi. apply (part_keys e fs1 fs2 vars Pe W) in Hi.
      exact (disjointb_spec _ _ t (De x Hx) Hi Hc Ht).
    + assert (Wk : Forall2 (fun s nv => known (e_kws s) (keys_of (sec_lines (snd nv))) (keys_of R)) ss secs).
      { apply (Forall2_weaken sec_of); [|exact Fs]. intros s nv Hs _ _ t Ht Hc Hi. exfalso. apply (Nr t); [|exact Hc|exact Hi].
        apply in_or_app. right. apply in_flat_map. exists s. auto. }
      exact Wk.
    + apply subs_nil.
  - pose proof (attach_fields fs2 secs Ff [] []) as AF. cbn [app map] in AF. rewrite !app_nil_r in AF. apply AF. exact Nd.
  - clear - Ff. apply Forall_forall. intros nv Hi. induction Ff as [|f x fs secs [E _] _ IH]; [destruct Hi|].
    cbn [map]. destruct Hi as [<-|Hi]; [left; symmetry; exact E|right; apply IH; exact Hi].
Qed.

(* ---- a message of one segment, whatever its data block is made of ---- *)
Definition outer_ok (c : string) (hdr body seg meta data : elem) : bool :=
  sec_elem hdr && bare_elem body && negb (e_islist body) && bare_elem seg && negb (e_islist seg)
  && sec_elem meta && negb (e_islist data) && disjoint_all [hdr; meta]
  && String.eqb (e_name hdr) "header" && String.eqb (e_name body) "body" && String.eqb (e_name seg) "segment"
  && String.eqb (e_name meta) "metadata" && String.eqb (e_name data) "data"
  && quiet_class (e_cls body) && quiet_class (e_cls seg) && quiet_class (e_cls data)
  && match deleted_keywords c with [] => true | _ => false end.
Lemma message_core c hdr body seg meta data header md dvars dl dvars' :
  In c root_classes -> outer_ok c hdr body seg meta data = true ->
  e_subs (tree_of c) = [hdr; body] -> e_subs body = [seg] -> e_subs seg = [meta; data] ->
  vars_of (new_obj c) = [("header", VNone); ("body", VNone)] -> vars_of (new_obj (e_cls body)) = [("segment", VNone)] ->
  vars_of (new_obj (e_cls seg)) = [("metadata", VNone); ("data", VNone)] ->
  section (e_cls hdr) header -> section (e_cls meta) md ->
  emits_vars u dvars dl -> mem_string "units" (map fst dvars) = false ->
  reads u data dl (VObj (e_cls data) dvars') (List.length dl) ->
  (forall t, In t (e_kws hdr ++ e_kws meta) -> t <> kw_comment -> ~ In t (keys_of dl)) ->
  exists t, kvn_to_string u (single_message c (e_cls body) (e_cls seg) (e_cls data) header md dvars) = Ok t /\
            kvn_from_string u t = Ok (single_message c (e_cls body) (e_cls seg) (e_cls data) header md dvars').
Proof.
  intros Hc Ok1 E1 E2 E3 N1 N2 N3 Sh Sm Em Um Rd Kd.
  unfold outer_ok in Ok1. do 16 (apply andb_true_iff in Ok1; let X := fresh "X" in destruct Ok1 as [Ok1 X]).
  repeat match goal with X : negb _ = true |- _ => apply negb_true_iff in X end.
  repeat match goal with X : String.eqb _ _ = true |- _ => apply String.eqb_eq in X end.
  destruct (deleted_keywords c) eqn:Ed; [|discriminate].
  destruct (sec_elem_spec hdr Ok1) as [Lh [Ih [Ch [Mh Kh]]]].
  match goal with X : sec_elem meta = true |- _ => destruct (sec_elem_spec meta X) as [Lm [Im [Cm [Mm Km]]]] end.
  match goal with X : disjoint_all _ = true |- _ => cbn [disjoint_all forallb] in X; do 2 (apply andb_true_iff in X; destruct X as [X _]); rename X into Dhm end.
  rewrite <- (app_nil_r dl) in Rd at 1.
  assert (Km1 : known (e_kws meta) (keys_of (sec_lines md)) (keys_of (dl ++ []))).
  { intros t Ht Hn Hi. rewrite app_nil_r in Hi. exfalso. apply (Kd t); [apply in_or_app; right; exact Ht|exact Hn|exact Hi]. }
  match goal with X : bare_elem seg = true |- _ => pose proof (segment_reads u seg meta data md dl [] _ X E3 Lm Im ltac:(assumption) Sm Km1 Rd) as Rs end.
  match goal with X : e_name meta = "metadata", Y : e_name data = "data" |- _ => rewrite X, Y in Rs end. specialize (Rs N3 ltac:(discriminate)).
  set (bl := sec_lines md ++ dl) in *. rewrite app_assoc in Rs. fold bl in Rs.
  assert (Rb : reads u body (bl ++ []) (VObj (e_cls body) [("segment", VObj (e_cls seg) [("metadata", md); ("data", VObj (e_cls data) dvars')])]) (List.length bl)).
  { match goal with X : bare_elem body = true |- _ => destruct (bare_elem_spec body X) as [O [Sg [Ek Eb]]] end.
    rewrite <- (Nat.add_0_r (List.length bl)). eapply bare_reads; try assumption.
    2:{ rewrite E2. apply subs_one; [assumption|exact Rs|apply subs_nil]. }
    - discriminate.
    - match goal with X : e_name seg = "segment" |- _ => rewrite N2, X end. reflexivity. }
  assert (Kh1 : known (e_kws hdr) (keys_of (sec_lines header)) (keys_of (bl ++ []))).
  { intros t Ht Hn Hi. rewrite app_nil_r in Hi. exfalso. unfold bl in Hi. rewrite keys_of_app in Hi. apply in_app_or in Hi. destruct Hi as [Hi|Hi].
    - destruct (section_keys_incl u meta md Lm (or_intror Sm) t Hi) as [Y|Y]; [contradiction|].
      exact (disjointb_spec _ _ _ Dhm Ht Hn Y).
    - apply (Kd t); [apply in_or_app; left; exact Ht|exact Hn|exact Hi]. }
  unfold single_message.
  eapply round_trip_core with (ls := sec_lines header ++ bl); try assumption; try reflexivity.
  - apply emits_vars_cons.
    + apply (emits_opt u _ _ _ Ch (Mh true) (Mh false)); [split; discriminate|right; exact Sh].
    + rewrite <- (app_nil_r bl). apply emits_vars_cons; [|apply emits_vars_nil].
      apply emits_node; [split; discriminate|assumption|reflexivity|].
      rewrite <- (app_nil_r bl). apply emits_vars_cons; [|apply emits_vars_nil].
      apply emits_node; [split; discriminate|assumption|reflexivity|].
      unfold bl. apply emits_vars_cons.
      { apply (emits_opt u _ _ _ Cm (Mm true) (Mm false)); [split; discriminate|right; exact Sm]. }
      rewrite <- (app_nil_r dl). apply emits_vars_cons; [|apply emits_vars_nil].
      apply emits_node; [split; discriminate|assumption|exact Um|exact Em].
  - unfold delete_keywords. rewrite Ed. cbn [mem_str existsb negb].
    replace (filter (fun _ : line => true) (sec_lines header ++ bl)) with (sec_lines header ++ bl ++ []).
    2:{ rewrite app_nil_r. symmetry. clear. induction (sec_lines header ++ bl) as [|a l IH]; [reflexivity|]. cbn. rewrite IH. reflexivity. }
    rewrite E1. apply subs_one; [assumption|apply section_reads; eassumption|].
    apply subs_one; [assumption|exact Rb|apply subs_nil].
  - discriminate.
  - match goal with X : e_name hdr = "header", Y : e_name body = "body" |- _ => rewrite N1, X, Y end. reflexivity.
Qed.
End Apm.
