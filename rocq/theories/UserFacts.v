(* User-defined parameters: written and read back. *)
From Coq Require Import NArith ZArith List Bool String Arith Lia.
From Verif Require Import PyStr PyDec PyVal Schema KvnPre KvnTree KvnSeg XmlBind KvnBuild NdmXml KvnWrite
     Spec SpecKvn SpecObj StrFacts DecFacts PreFacts SegFacts BuildFacts WriteFacts ParseFacts ShiftFacts
     ReadFacts ComposeFacts MsgFacts PropWrite CoreFacts.
Import ListNotations.
Local Open Scope string_scope.
Local Open Scope list_scope.
Local Arguments find_class : simpl never.
Local Arguments lit : simpl never.

Definition kw_user : str := lit "USER_DEFINED".
Definition param_line (p : str * str) : line := [user_prefix ++ fst p; snd p].
Definition user_lines (v : pyval) : list line :=
  match v with
  | VObj _ [_; (_, VList l)] =>
    map (fun x => match x with
                  | VObj _ [(_, VStr t); (_, VStr n)] => param_line (n, t)
                  | _ => []
                  end) l
  | _ => []
  end.
Lemma user_lines_block ps : user_lines (user_block ps) = map param_line ps.
Proof. cbn [user_block user_lines]. rewrite map_map. apply map_ext. intros [n t]. reflexivity. Qed.

(* ---- removing the prefix ---- *)
Lemma remove_aux_skip p k a b : List.length a = k -> remove_sub_aux p k (a ++ b) = remove_sub_aux p 0 b.
Proof. revert k; induction a as [|c a IH]; intros k <-; [reflexivity|]. cbn. apply IH. reflexivity. Qed.
Lemma remove_aux_none p s : ~ (exists a b, s = a ++ p ++ b) -> remove_sub_aux p 0 s = s.
Proof.
  induction s as [|c s IH]; intros H; [reflexivity|]. cbn [remove_sub_aux].
  destruct (startswith p (c :: s)) eqn:E.
  - exfalso. apply H. apply startswith_spec in E. destruct E as [r ->]. exists [], r. reflexivity.
  - f_equal. apply IH. intros [a [b X]]. apply H. exists (c :: a), b. rewrite X. reflexivity.
Qed.
Lemma remove_prefix p n : p <> [] -> ~ (exists a b, n = a ++ p ++ b) -> remove_sub p (p ++ n) = n.
Proof.
  intros Ne H. unfold remove_sub. destruct p as [|c p]; [congruence|]. cbn [app remove_sub_aux].
  replace (startswith (c :: p) (c :: p ++ n)) with true.
  - cbn [List.length]. rewrite Nat.sub_succ, Nat.sub_0_r. rewrite remove_aux_skip by reflexivity. apply remove_aux_none. exact H.
  - symmetry. apply startswith_spec. exists n. reflexivity.
Qed.

Lemma trimmed_app a b : trimmed a -> trimmed b -> a <> [] -> b <> [] -> trimmed (a ++ b).
Proof.
  intros [A _] [_ B] Na Nb. split; intros c r E.
  - destruct a as [|x a]; [congruence|]. injection E as <- <-. apply (A x a). reflexivity.
  - destruct (exists_last Nb) as [l [y ->]]. rewrite app_assoc in E. apply app_inj_tail in E. destruct E as [_ ->].
    apply (B c l). reflexivity.
Qed.

Section User.
Variable u : env.

Definition user_elem (s : elem) : bool :=
  String.eqb (e_cls s) "UserDefinedType" && match e_single s with None => true | _ => false end
  && match e_subs s with [] => true | _ => false end && strs_eqb (e_kws s) [kw_comment; kw_user] && negb (e_islist s).
Lemma user_elem_spec s : user_elem s = true ->
  e_cls s = "UserDefinedType" /\ e_single s = None /\ e_subs s = [] /\ e_kws s = [kw_comment; kw_user] /\ e_islist s = false.
Proof.
  unfold user_elem, strs_eqb. intros H. repeat (apply andb_true_iff in H; destruct H as [H ?]).
  destruct (e_single s); [discriminate|]. destruct (e_subs s); [|discriminate]. destruct (list_eq_dec _ _ _); [|discriminate].
  apply String.eqb_eq in H. match goal with X : negb _ = true |- _ => apply negb_true_iff in X end. auto 10.
Qed.

Definition no_user (ks : list str) : Prop := forall k, In k ks -> startswith kw_user k = false.
Lemma user_range s keys lines i mm tags : user_elem s = true ->
  extend_tags (e_kws s) i keys (Some kw_user) = tags ->
  get_min_max tags i keys None false = Ok (mm, tags) ->
  own_range u s keys lines i = Ok (mm, set_kws s tags).
Proof.
  intros U E H. destruct (user_elem_spec s U) as [E1 [E2 [E3 [E4 E5]]]]. unfold own_range. rewrite E1, E2.
  cbn [String.eqb Ascii.eqb Bool.eqb orb]. unfold get_min_max in *. cbn [extend_tags] in H. fold kw_user. rewrite E.
  destruct (process_comment_lines tags i keys (index_list0 tags i keys)); [|discriminate]. cbn [bind] in *.
  destruct (range_of_indices _ _ _ _); [|discriminate]. cbn [bind] in *. injection H as ->. reflexivity.
Qed.

Lemma filter_none_user ks : no_user ks -> filter (startswith kw_user) ks = [].
Proof. intros H. apply filter_none. intros k Hk. apply H. exact Hk. Qed.

(* ---- absent ---- *)
Lemma user_absent s ss pre R m att : user_elem s = true -> no_user (keys_of (pre ++ R)) ->
  subs_at u pre R ss m att -> subs_at u pre R (s :: ss) m ((e_name s, VNone) :: att).
Proof.
  intros U N [gs [G F]]. destruct (user_elem_spec s U) as [E1 [E2 [E3 [E4 E5]]]].
  assert (R1 : forall i, own_range u s (keys_of (pre ++ R)) (pre ++ R) i = Ok ((i, i), s)).
  { intros i. rewrite <- (set_kws_same s) at 2. apply user_range; [exact U| |].
    - cbn [extend_tags]. rewrite filter_none_user, app_nil_r; [reflexivity|]. intros k Hk. apply N. eapply in_skipn; exact Hk.
    - apply misses_range. rewrite E4. split; [cbn; discriminate|]. intros t [<-|[<-|[]]] Hc Hi; [congruence|].
      apply in_skipn in Hi. apply N in Hi. vm_compute in Hi. discriminate. }
  exists (set_mm s (0, 0) :: gs). split.
  - cbn [ident_subs]. rewrite E5, identify_eq, R1. cbn [bind]. rewrite E3. cbn [bind fst snd].
    rewrite Nat.eqb_refl, E3. cbn [andb]. rewrite R1. cbn [bind fst snd]. rewrite G. reflexivity.
  - constructor; [|exact F]. split; [reflexivity|]. intros p fuel D. apply build_empty; [lia| |].
    + rewrite shift_set_mm. cbn. rewrite E3. reflexivity.
    + rewrite shift_set_mm. cbn. unfold slice. replace (List.length p + 0 - (List.length p + 0)) with 0 by lia. reflexivity.
Qed.

(* ---- present ---- *)
Lemma user_child p : good_name u (fst p) ->
  child_of_user_line kw_user (param_line p) = Ok (kw_user, [("parameter", fst p)], snd p).
Proof.
  intros [_ [_ [_ H]]]. unfold child_of_user_line, param_line. cbn [get nth_error guard_opt bind].
  change (kw_user ++ [95%N]) with user_prefix. rewrite remove_prefix; [reflexivity|discriminate|exact H].
Qed.
Lemma user_parse ps : Forall (fun p => good_name u (fst p) /\ good_value (snd p)) ps ->
  parse_list u "UserDefinedType" (Some kw_user) (map param_line ps) = Ok (user_block ps).
Proof.
  intros H. unfold parse_list. rewrite map_res_map.
  rewrite (map_res_ok (B := child) _ (fun p => (kw_user, [("parameter", fst p)], snd p))).
  2:{ intros p Hp. rewrite Forall_forall in H. apply user_child. apply H. exact Hp. }
  cbn [bind].
  assert (E : forall l, bind_children u "UserDefinedType" (fields_of "UserDefinedType") []
                 (map (fun p => (kw_user, [("parameter", fst p)], snd p)) ps)
                 [("comment", VList []); ("user_defined", VList l)]
               = Ok [("comment", VList []); ("user_defined", VList (l ++ map user_param ps))]).
  { induction H as [|[n t] ps [Hn Hv] _ IH]; intros l; [rewrite app_nil_r; reflexivity|].
    cbn [map bind_children fst snd] in *.
    assert (Ok1 : child_ok (kw_user, [("parameter", n)], t) = true).
    { cbn [child_ok forallb snd]. destruct Hn as [[_ [_ [_ Xn]]] _]. destruct Hv as [[_ [_ [_ Xv]]] _]. unfold xml_text.
      rewrite (proj2 (forallb_forall _ _) (proj1 (Forall_forall _ _) Xn)), (proj2 (forallb_forall _ _) (proj1 (Forall_forall _ _) Xv)). reflexivity. }
    rewrite Ok1.
    replace (find_elem kw_user (fields_of "UserDefinedType")) with
      (Some (mkField "user_defined" (Some "USER_DEFINED") true (TCls "UserDefinedParameterType") KElem None)) by (vm_compute; reflexivity).
    cbn [f_list f_name].
    replace (append_var "user_defined" _ _) with [("comment", VList []); ("user_defined", VList (l ++ [user_param (n, t)]))].
    - rewrite IH, <- app_assoc. reflexivity.
    - destruct Hn as [[Nn _] _]. destruct Hv as [[Nv _] _]. destruct n as [|cn n]; [cbn in Nn; congruence|]. destruct t as [|ct t]; [cbn in Nv; congruence|].
      vm_compute. reflexivity. }
  change (vars_of (new_obj "UserDefinedType")) with [("comment", VList []); ("user_defined", VList [])].
  rewrite E. reflexivity.
Qed.

Lemma user_reads s ps rest : user_elem s = true -> good_params u ps -> no_user (keys_of rest) ->
  reads u s (map param_line ps ++ rest) (user_block ps) (List.length ps).
Proof.
  intros U [Ne [D G]] N. destruct (user_elem_spec s U) as [E1 [E2 [E3 [E4 E5]]]].
  assert (Ko : keys_of (map param_line ps) = map (fun p => user_prefix ++ fst p) ps) by (unfold keys_of; rewrite map_map; reflexivity).
  set (tags := [kw_comment; kw_user] ++ map (fun p => user_prefix ++ fst p) ps).
  assert (Sk : forall x, startswith kw_user (user_prefix ++ x) = true) by (intros x; apply startswith_spec; exists (95%N :: x); reflexivity).
  assert (C : claims tags (keys_of (map param_line ps)) (keys_of rest)).
  { exists 0, (map (fun p => user_prefix ++ fst p) ps). split; [exact Ko|]. split; [destruct ps; [congruence|discriminate]|].
    split.
    { rewrite <- (map_map fst (fun n => user_prefix ++ n)). apply FinFun.Injective_map_NoDup; [|exact D]. intros a b. apply app_inv_head. }
    split; [apply incl_appr, incl_refl|]. split; [intros X; apply in_map_iff in X; destruct X as [p [X _]]; discriminate|].
    split; [congruence|]. split; [unfold tags; cbn; discriminate|].
    intros t Ht Hc Hr. unfold tags in Ht. apply in_app_or in Ht. destruct Ht as [[<-|[<-|[]]]|Ht]; [congruence| |exact Ht].
    apply N in Hr. vm_compute in Hr. discriminate. }
  exists (List.length ps), (set_kws s tags). rewrite identify_eq.
  rewrite (user_range s _ _ 0 (0, List.length (keys_of (map param_line ps))) tags U).
  - cbn [bind]. rewrite E3. cbn [fst snd]. rewrite keys_of_length, map_length. split; [reflexivity|].
    split; [left; destruct ps; [congruence|cbn; lia]|].
    intros pre fuel Df. destruct fuel as [|n]; [lia|]. rewrite shift_set_mm.
    cbn [build set_mm e_cls e_mm e_subs e_kws e_single shift_subs set_subs set_kws]. rewrite E1, E2, E3.
    cbn [String.eqb Ascii.eqb Bool.eqb map].
    replace (match tags with [a; b] => str_eqb a (lit "id") && str_eqb b (lit "version") | _ => false end) with false
      by (unfold tags; destruct ps; [congruence|reflexivity]).
    unfold shift_range. cbn [fst snd]. rewrite slice_shift. unfold slice. cbn [skipn]. rewrite Nat.sub_0_r.
    replace (firstn (List.length ps) (map param_line ps ++ rest)) with (map param_line ps).
    2:{ rewrite <- (map_length param_line ps). rewrite firstn_len_app. reflexivity. }
    fold kw_user. rewrite user_parse by exact G. destruct ps; [congruence|]. reflexivity.
  - cbn [extend_tags skipn]. rewrite E4. unfold tags. f_equal. rewrite keys_of_app, filter_app.
    rewrite (filter_none_user (keys_of rest)) by exact N. rewrite app_nil_r, Ko. clear - Sk.
    induction ps as [|p ps IH]; [reflexivity|]. cbn [map filter]. rewrite Sk, IH. reflexivity.
  - rewrite keys_of_app. rewrite (claims_range tags _ _ false C). reflexivity.
Qed.

(* the optional block, in last place or before other elements *)
Lemma user_subs s ss pre v rest m att : user_elem s = true -> opt_user u v ->
  no_user (keys_of pre) -> no_user (keys_of rest) ->
  subs_at u (pre ++ user_lines v) rest ss m att ->
  subs_at u pre (user_lines v ++ rest) (s :: ss) (List.length (user_lines v) + m) ((e_name s, v) :: att).
Proof.
  intros U O Np Nr H. destruct O as [->|[ps [G ->]]].
  - cbn [user_lines app List.length Nat.add] in *. rewrite app_nil_r in H. apply user_absent; [exact U| |exact H].
    intros k Hk. rewrite keys_of_app in Hk. apply in_app_or in Hk. destruct Hk as [Hk|Hk]; [apply Np|apply Nr]; exact Hk.
  - rewrite user_lines_block in *. apply subs_one; [apply user_elem_spec; exact U| |exact H].
    rewrite map_length. apply user_reads; assumption.
Qed.

(* ---- writing ---- *)
Lemma upper_app a b : upper u (a ++ b) = upper u a ++ upper u b.
Proof. unfold upper. apply flat_map_app. Qed.
Lemma upper_prefix n : upper u n = n -> upper u (lit "user_defined_" ++ n) = user_prefix ++ n.
Proof. intros H. rewrite upper_app, H. reflexivity. Qed.
Lemma line_user n t : good_name u n -> good_value t ->
  one_line (fill_kvn u (lit "user_defined_" ++ n) t []) /\
  lex_line (fill_kvn u (lit "user_defined_" ++ n) t []) = Some (param_line (n, t)).
Proof.
  intros [[Ne [T [O _]]] [Eq [U _]]] [[_ [Tt [Ot _]]] Un]. pose proof (upper_prefix n U) as E. split.
  - apply fill_kvn_one_line; [rewrite E; apply no_char_app; split; [apply no_charb_spec; reflexivity|exact O]|exact Ot|exact one_line_nil].
  - rewrite fill_kvn_plain; rewrite ?E; try assumption.
    + reflexivity.
    + apply trimmed_app; [apply trimmedb_spec; reflexivity|exact T|discriminate|exact Ne].
    + apply no_char_app; split; [apply no_charb_spec; reflexivity|exact Eq].
    + reflexivity.
Qed.
Lemma emits_user key v : plain_key key -> opt_user u v -> emits u key v (user_lines v).
Proof.
  intros K [->|[ps [[_ [_ G]] ->]]]; [apply emits_none; apply K|]. rewrite user_lines_block.
  unfold user_block. replace (map param_line ps) with (markers "UserDefinedType" true ++ map param_line ps ++ markers "UserDefinedType" false)
    by (cbn; rewrite app_nil_r; reflexivity).
  apply emits_obj; [apply K|apply K|reflexivity|reflexivity|].
  change (map param_line ps) with ([] ++ map param_line ps). apply emits_vars_cons.
  - apply (emits_comments u []). constructor.
  - rewrite <- (app_nil_r (map param_line ps)). apply emits_vars_cons; [|apply emits_vars_nil].
    intros out. exists (map (fun p => fill_kvn u (lit "user_defined_" ++ fst p) (snd p) []) ps). split; [|split].
    + cbn [collate_sub String.eqb Ascii.eqb Bool.eqb]. rewrite app_nil_r.
      rewrite map_res_map. rewrite (map_res_ok _ (fun p => fill_kvn u (lit "user_defined_" ++ fst p) (snd p) [])).
      * cbn [bind]. rewrite app_nil_r. reflexivity.
      * intros [n t] Hp. rewrite Forall_forall in G. destruct (G _ Hp) as [_ [[Nt _] _]]. cbn [fst snd] in *.
        unfold user_defined_line, user_param. cbn [py_getattr assoc String.eqb Ascii.eqb Bool.eqb bind fst snd].
        destruct t as [|ct t]; [congruence|]. cbn [truthy py_str bind].
        change (lit "user_defined" ++ lit "_" ++ n) with (lit "user_defined_" ++ n). reflexivity.
    + apply Forall_map. eapply Forall_impl; [|exact G]. intros [n t] [Hn Hv]. cbn [fst snd] in *.
      apply (line_user n t Hn Hv).
    + clear - G. induction G as [|[n t] ps [Hn Hv] _ IH]; [reflexivity|]. cbn [map filter_map fst snd] in *.
      destruct (line_user n t Hn Hv) as [_ L]. rewrite L, IH. reflexivity.
Qed.
End User.
