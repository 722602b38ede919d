(* Composition: sections, containers and lists of sections are read back one after the other. *)
From Coq Require Import NArith ZArith List Bool String Arith Lia.
From Verif Require Import PyStr PyDec PyVal Schema KvnPre KvnTree KvnSeg XmlBind KvnBuild
     Spec SpecKvn SpecObj StrFacts DecFacts PreFacts SegFacts BuildFacts WriteFacts ParseFacts ShiftFacts ReadFacts.
Import ListNotations.
Local Open Scope string_scope.
Local Open Scope list_scope.
Local Arguments find_class : simpl never.
Local Arguments lit : simpl never.

Lemma shift_depth k e : depth (shift_elem k e) = depth e.
Proof.
  induction e as [n c subs kw l s m t F] using elem_ind'. rewrite !depth_eq. cbn [shift_elem e_subs]. f_equal.
  induction F as [|x xs Hx _ IH]; [reflexivity|]. unfold depths in *. cbn [map fold_right]. rewrite Hx, IH. reflexivity.
Qed.
Lemma shift_shift a b e : shift_elem a (shift_elem b e) = shift_elem (a + b) e.
Proof.
  induction e as [n c subs kw l s m t F] using elem_ind'. cbn [shift_elem e_name e_cls e_subs e_kws e_islist e_single e_mm e_tmpl].
  f_equal; [|unfold shift_range; cbn [fst snd]; f_equal; lia].
  rewrite map_map. apply map_ext_in. rewrite Forall_forall in F. exact F.
Qed.

Definition ordinary (c : string) : bool :=
  negb (existsb (String.eqb c) ["AemSegment"; "AttitudeStateType"; "StateVectorAccType"; "OemCovarianceMatrixType";
                      "TrackingDataObservationType"; "UserDefinedType"]).
Lemma ordinary_spec c : ordinary c = true ->
  String.eqb c "AemSegment" = false /\ String.eqb c "AttitudeStateType" = false /\
  String.eqb c "StateVectorAccType" = false /\ String.eqb c "OemCovarianceMatrixType" = false /\
  String.eqb c "TrackingDataObservationType" = false /\ String.eqb c "UserDefinedType" = false.
Proof.
  unfold ordinary. cbn [existsb]. intros H. apply negb_true_iff in H.
  repeat (apply orb_false_iff in H; let A := fresh in destruct H as [A H]). auto 10.
Qed.
Definition root_kws (k : list str) : bool :=
  match k with [a; b] => str_eqb a (lit "id") && str_eqb b (lit "version") | _ => false end.

Fixpoint attach_all (att : list (string * pyval)) (vars : list (string * pyval)) : res (list (string * pyval)) :=
  match att with
  | [] => Ok vars
  | (n, v) :: r => do vs <- attach n v vars; attach_all r vs
  end.
Lemma attach_all_app a b vars : attach_all (a ++ b) vars = do vs <- attach_all a vars; attach_all b vs.
Proof.
  revert vars; induction a as [|[n v] a IH]; intros vars; [reflexivity|]. cbn [app attach_all].
  destruct (attach n v vars); [|reflexivity]. cbn [bind]. apply IH.
Qed.
(* a list variable collects the elements *)
Fixpoint extend_var (n : string) (vs : list pyval) (vars : list (string * pyval)) : list (string * pyval) :=
  match vars with
  | [] => []
  | (k, w) :: r =>
    if String.eqb k n then (k, match w with VList l => VList (l ++ vs) | _ => w end) :: r
    else (k, w) :: extend_var n vs r
  end.
Lemma extend_var_nil n vars : extend_var n [] vars = vars.
Proof.
  induction vars as [|[k w] r IH]; [reflexivity|]. cbn. rewrite IH. destruct (String.eqb k n); [|reflexivity].
  destruct w; try reflexivity. rewrite app_nil_r. reflexivity.
Qed.
Lemma extend_append n v vs vars : extend_var n vs (append_var n v vars) = extend_var n (v :: vs) vars.
Proof.
  induction vars as [|[k w] r IH]; [reflexivity|]. cbn [append_var extend_var].
  destruct (String.eqb k n) eqn:E; cbn [extend_var]; rewrite E.
  - destruct w; try reflexivity. rewrite <- app_assoc. reflexivity.
  - rewrite IH. reflexivity.
Qed.
Lemma assoc_append n m v vars l : assoc n vars = Some (VList l) -> exists l', assoc n (append_var m v vars) = Some (VList l').
Proof.
  induction vars as [|[k w] r IH]; cbn; [discriminate|]. destruct (String.eqb k n) eqn:E1.
  - intros H. injection H as ->. destruct (String.eqb k m); cbn; rewrite E1; eexists; reflexivity.
  - intros H. destruct (String.eqb k m); cbn; rewrite E1; [eexists; exact H|apply IH; exact H].
Qed.
Lemma attach_list n vs vars : (exists l, assoc n vars = Some (VList l)) -> Forall (fun v => v <> VNone) vs ->
  attach_all (map (fun v => (n, v)) vs) vars = Ok (extend_var n vs vars).
Proof.
  intros H F. revert vars H. induction F as [|v vs Hv _ IH]; intros vars [l H]; cbn [map attach_all].
  - rewrite extend_var_nil. reflexivity.
  - unfold attach. rewrite H. destruct v; try congruence; cbn [bind];
      rewrite IH by (eapply assoc_append; exact H); rewrite extend_append; reflexivity.
Qed.

Section Compose.
Variable u : env.

Definition builds (g : elem) (L : list line) (v : pyval) : Prop :=
  forall pre fuel, depth g < fuel ->
    build u fuel (pre ++ L) (shift_elem (List.length pre) g) (pre ++ L) = Ok v.
Lemma builds_shift g pre L v : builds g L v -> builds (shift_elem (List.length pre) g) (pre ++ L) v.
Proof.
  intros H p fuel D. rewrite shift_depth in D. rewrite shift_shift, <- app_length, app_assoc. apply H. exact D.
Qed.

(* element [e] takes the first [m] lines of [R] and gives [v] *)
Definition reads (e : elem) (R : list line) (v : pyval) (m : nat) : Prop :=
  exists hi e', identify u e (keys_of R) R 0 = Ok (m, (0, hi), e') /\
    (0 < hi \/ e_subs e' <> []) /\ builds (set_mm e' (0, hi)) R v.

(* the subclasses take [m] lines after [pre] and give the attribute values [att] *)
Definition subs_at (pre R : list line) (ss : list elem) (m : nat) (att : list (string * pyval)) : Prop :=
  exists gs, ident_subs u (keys_of (pre ++ R)) (pre ++ R) 0 ss (List.length pre) = Ok (List.length pre + m, gs) /\
    Forall2 (fun g nv => e_name g = fst nv /\ builds g (pre ++ R) (snd nv)) gs att.

Lemma subs_nil pre R : subs_at pre R [] 0 [].
Proof. exists []. cbn. rewrite Nat.add_0_r. split; [reflexivity|constructor]. Qed.
Lemma identify_at s pre R :
  identify u s (keys_of (pre ++ R)) (pre ++ R) (List.length pre)
  = shift_ident (List.length pre) (identify u s (keys_of R) R 0).
Proof. rewrite <- (Nat.add_0_r (List.length pre)) at 1. apply identify_shift. Qed.

Lemma subs_one s ss pre own R v m att : e_islist s = false ->
  reads s (own ++ R) v (List.length own) -> subs_at (pre ++ own) R ss m att ->
  subs_at pre (own ++ R) (s :: ss) (List.length own + m) ((e_name s, v) :: att).
Proof.
  intros L [hi [e' [E [Nz B]]]] [gs [G F]]. rewrite <- app_assoc in G, F. rewrite app_length in G.
  cbn [ident_subs]. unfold subs_at.
  exists (shift_elem (List.length pre) (set_mm e' (0, hi)) :: gs). split.
  - cbn [ident_subs]. rewrite L, identify_at, E. cbn [shift_ident bind shift_range fst snd].
    unfold shift_range. cbn [fst snd].
    replace (Nat.eqb (List.length pre + 0) (List.length pre + hi) &&
             match e_subs (shift_subs (List.length pre) e') with [] => true | _ => false end)%bool with false.
    2:{ symmetry. apply andb_false_iff. destruct Nz as [Nz|Nz].
        - left. apply Nat.eqb_neq. lia.
        - right. destruct e' as [? ? [|] ? ? ? ? ?]; [cbn in Nz; congruence|reflexivity]. }
    cbn [bind]. rewrite G. cbn [bind]. rewrite shift_set_mm. unfold shift_range. cbn [fst snd].
    rewrite Nat.add_assoc. reflexivity.
  - constructor; [|exact F]. split.
    + apply identify_kept in E. destruct E as [E _]. destruct e'; cbn in *. exact E.
    + apply builds_shift. exact B.
Qed.

Lemma build_empty fuel doc e full : 0 < fuel -> e_subs e = [] -> slice (fst (e_mm e)) (snd (e_mm e)) full = [] ->
  build u fuel doc e full = Ok VNone.
Proof. intros H1 H2 H3. destruct fuel; [lia|]. cbn [build]. rewrite H2, H3. reflexivity. Qed.

Lemma own_range_ordinary e keys lines i mm tags : ordinary (e_cls e) = true -> e_single e = None ->
  get_min_max (e_kws e) i keys None false = Ok (mm, tags) ->
  own_range u e keys lines i = Ok (mm, set_kws e tags).
Proof.
  intros O S H. destruct (ordinary_spec _ O) as [H1 [H2 [H3 [H4 [H5 H6]]]]]. unfold own_range.
  rewrite S, H2, H3, H4, H5, H6. cbn [orb]. rewrite H. reflexivity.
Qed.
Lemma set_kws_same e : set_kws e (e_kws e) = e.
Proof. destruct e; reflexivity. Qed.

(* an element without subclasses, nothing of which is there *)
Lemma subs_absent s ss pre R m att : e_islist s = false -> ordinary (e_cls s) = true -> e_single s = None ->
  e_subs s = [] -> misses (e_kws s) (keys_of (pre ++ R)) -> subs_at pre R ss m att ->
  subs_at pre R (s :: ss) m ((e_name s, VNone) :: att).
Proof.
  intros L O S Es M [gs [G F]].
  assert (R1 : forall i, own_range u s (keys_of (pre ++ R)) (pre ++ R) i = Ok ((i, i), s)).
  { intros i. rewrite <- (set_kws_same s) at 2. apply own_range_ordinary; [exact O|exact S|]. apply misses_range.
    destruct M as [M1 M2]. split; [exact M1|]. intros t Ht Hc X. apply in_skipn in X. exact (M2 t Ht Hc X). }
  exists (set_mm s (0, 0) :: gs). split.
  - cbn [ident_subs]. rewrite L, identify_eq, R1. cbn [bind]. rewrite Es. cbn [bind fst snd].
    rewrite Nat.eqb_refl, Es. cbn [andb]. rewrite R1. cbn [bind fst snd]. rewrite G. reflexivity.
  - constructor; [|exact F]. split; [reflexivity|]. intros p fuel D. apply build_empty; [lia| |].
    + rewrite shift_set_mm. cbn. rewrite Es. reflexivity.
    + rewrite shift_set_mm. cbn. unfold slice. replace (List.length p + 0 - (List.length p + 0)) with 0 by lia. reflexivity.
Qed.

(* ---- lists ---- *)
Definition stops (s : elem) (R : list line) : Prop :=
  exists mx lo hi e', identify u s (keys_of R) R 0 = Ok (mx, (lo, hi), e') /\
    ((mx = 0 /\ lo = 0 /\ hi = 0) \/ (0 < lo /\ lo < mx)).
Inductive list_reads (s : elem) : list line -> list pyval -> list line -> Prop :=
| lr_stop R : stops s R -> list_reads s R [] R
| lr_end own v : 0 < List.length own -> reads s own v (List.length own) -> list_reads s own [v] []
| lr_cons own R v vs rest : 0 < List.length own -> 0 < List.length R -> reads s (own ++ R) v (List.length own) ->
    list_reads s R vs rest -> list_reads s (own ++ R) (v :: vs) rest.
Lemma list_reads_split s R vs rest : list_reads s R vs rest -> exists own, R = own ++ rest.
Proof.
  induction 1 as [R H|own v H H1|own R v vs rest H H0 H1 _ [o ->]].
  - exists []. reflexivity.
  - exists own. rewrite app_nil_r. reflexivity.
  - exists (own ++ o). rewrite app_assoc. reflexivity.
Qed.
Lemma list_identified s R vs rest : list_reads s R vs rest -> forall pre fuel, List.length R < fuel ->
  exists es, identify_list (identify u s (keys_of (pre ++ R)) (pre ++ R)) (List.length (pre ++ R)) fuel
                           (List.length pre) (List.length pre)
             = Ok (List.length (pre ++ R) - List.length rest, es) /\
  Forall2 (fun g v => e_name g = e_name s /\ builds g (pre ++ R) v) es vs.
Proof.
  induction 1 as [R [mx [lo [hi [e' [E H]]]]]|own v Hl [hi [e' [E [Nz B]]]]|own R v vs rest Hl Hr [hi [e' [E [Nz B]]]] _ IH];
    intros pre fuel Hf; (destruct fuel as [|fuel]; [lia|]); rewrite identify_list_S, identify_at, E;
    cbn [shift_ident bind shift_range]; unfold shift_range; cbn [fst snd].
  - exists []. split; [|constructor]. rewrite app_length. replace (List.length pre + List.length R - List.length R) with (List.length pre) by lia.
    destruct H as [[-> [-> ->]]|H].
    + rewrite !Nat.eqb_refl. cbn [andb]. rewrite Nat.add_0_r. reflexivity.
    + rewrite (proj2 (Nat.eqb_neq (List.length pre + mx) (List.length pre + lo))) by lia. cbn [andb].
      rewrite (proj2 (Nat.ltb_lt _ _)) by lia. reflexivity.
  - rewrite (proj2 (Nat.eqb_neq (List.length pre + List.length own) (List.length pre + 0))) by lia. cbn [andb].
    rewrite (proj2 (Nat.ltb_ge _ _)) by lia. cbv zeta. rewrite app_length. rewrite Nat.leb_refl.
    eexists. split; [cbn [List.length]; rewrite Nat.sub_0_r; reflexivity|].
    constructor; [|constructor]. split; [apply identify_kept in E; destruct E as [E _]; destruct e'; exact E|].
    replace (set_mm (shift_subs (List.length pre) e') (List.length pre + 0, List.length pre + hi))
      with (shift_elem (List.length pre) (set_mm e' (0, hi))) by (rewrite shift_set_mm; reflexivity).
    apply builds_shift. exact B.
  - rewrite (proj2 (Nat.eqb_neq (List.length pre + List.length own) (List.length pre + 0))) by lia. cbn [andb].
    rewrite (proj2 (Nat.ltb_ge _ _)) by lia. cbv zeta. rewrite (proj2 (Nat.leb_gt _ _)) by (rewrite !app_length; lia).
    destruct (IH (pre ++ own) fuel) as [es [G F]]; [rewrite app_length in Hf; lia|].
    rewrite <- app_assoc in G, F. rewrite (app_length pre own) in G. rewrite G. cbn [bind]. eexists. split; [reflexivity|].
    constructor; [|exact F]. split; [apply identify_kept in E; destruct E as [E _]; destruct e'; exact E|].
    replace (set_mm (shift_subs (List.length pre) e') (List.length pre + 0, List.length pre + hi))
      with (shift_elem (List.length pre) (set_mm e' (0, hi))) by (rewrite shift_set_mm; reflexivity).
    apply builds_shift. exact B.
Qed.
Lemma subs_list s ss pre own rest vs m att : e_islist s = true -> list_reads s (own ++ rest) vs rest ->
  subs_at (pre ++ own) rest ss m att ->
  subs_at pre (own ++ rest) (s :: ss) (List.length own + m) (map (fun v => (e_name s, v)) vs ++ att).
Proof.
  intros L H [gs [G F]]. rewrite <- app_assoc in G, F. rewrite app_length in G.
  destruct (list_identified s _ vs rest H pre (S (List.length (keys_of (pre ++ own ++ rest))))) as [es [E Fe]].
  { rewrite keys_of_length, !app_length. lia. }
  exists (es ++ gs). split.
  - cbn [ident_subs]. rewrite L, E. cbn [bind].
    replace (List.length (pre ++ own ++ rest) - List.length rest) with (List.length pre + List.length own)
      by (rewrite !app_length; lia).
    rewrite G. cbn [bind]. rewrite Nat.add_assoc. reflexivity.
  - apply Forall2_app; [|exact F]. clear - Fe. induction Fe as [|g v es vs H _ IH]; [constructor|]. constructor; [exact H|exact IH].
Qed.

(* ---- building ---- *)
Lemma slice_shift (p L : list line) lo hi : slice (List.length p + lo) (List.length p + hi) (p ++ L) = slice lo hi L.
Proof. unfold slice. rewrite (skipn_shift p L _ lo eq_refl). f_equal. lia. Qed.
Definition own_lines (e : elem) (L : list line) : list line :=
  filter (fun l => mem_str (key_of l) (e_kws e)) L.

Lemma build_leaf e own rest c vars : ordinary (e_cls e) = true -> e_single e = None -> root_kws (e_kws e) = false ->
  e_subs e = [] -> own_lines e own = own -> own <> [] -> parse_list u (e_cls e) None own = Ok (VObj c vars) ->
  builds (set_mm e (0, List.length own)) (own ++ rest) (VObj c vars).
Proof.
  intros O S K Es F Ne P pre fuel D. destruct fuel as [|n]; [lia|]. rewrite shift_set_mm, shift_subs_nil by exact Es.
  destruct (ordinary_spec _ O) as [H1 [H2 [H3 [H4 [H5 H6]]]]].
  cbn [build set_mm e_cls e_mm e_subs e_kws e_single]. rewrite H1, H2, H3, H4, H5, H6, Es, S.
  change (match e_kws e with [a; b] => str_eqb a (lit "id") && str_eqb b (lit "version") | _ => false end) with (root_kws (e_kws e)).
  rewrite K. unfold shift_range. cbn [fst snd]. rewrite slice_shift.
  unfold slice. cbn [skipn]. rewrite Nat.sub_0_r, firstn_len_app. unfold own_lines in F. rewrite F.
  destruct own as [|l own]; [congruence|]. rewrite P. reflexivity.
Qed.

Lemma fold_builds n doc full gs att : Forall2 (fun g nv => e_name g = fst nv /\ build u n doc g full = Ok (snd nv)) gs att ->
  forall acc, fold_left (fun acc s => do vs <- acc; do sub <- build u n doc s full; attach (e_name s) sub vs) gs acc
              = do vs <- acc; attach_all att vs.
Proof.
  induction 1 as [|g [k v] gs att [E B] _ IH]; intros acc; cbn [fold_left].
  - destruct acc; reflexivity.
  - rewrite IH. destruct acc as [vs|]; [|reflexivity]. cbn [bind fst snd] in *. rewrite B. cbn [bind attach_all]. rewrite E. reflexivity.
Qed.
Lemma build_node e own rest c vars0 vars gs att : ordinary (e_cls e) = true -> e_single e = None -> root_kws (e_kws e) = false ->
  (gs <> [] \/ own_lines e own <> []) -> parse_list u (e_cls e) None (own_lines e own) = Ok (VObj c vars0) ->
  Forall2 (fun g nv => e_name g = fst nv /\ builds g (own ++ rest) (snd nv)) gs att ->
  attach_all att vars0 = Ok vars ->
  builds (set_mm (set_subs e gs) (0, List.length own)) (own ++ rest) (VObj c vars).
Proof.
  intros O S K Ne P F A pre fuel D. destruct fuel as [|n]; [lia|].
  assert (Fb : Forall2 (fun g nv => e_name g = fst nv /\ build u n (pre ++ own ++ rest) g (pre ++ own ++ rest) = Ok (snd nv))
                 (map (shift_elem (List.length pre)) gs) att).
  { rewrite depth_set_mm, depth_eq in D. cbn [e_subs set_subs] in D. clear - F D. induction F as [|g nv gs att [E B] _ IH]; [constructor|].
    unfold depths in *. cbn [fold_right] in D. constructor; [|apply IH; lia]. split.
    - destruct g; exact E.
    - apply B. lia. }
  rewrite shift_set_mm.
  destruct (ordinary_spec _ O) as [H1 [H2 [H3 [H4 [H5 H6]]]]].
  cbn [build set_mm e_cls e_mm e_subs e_kws e_single shift_subs set_subs]. rewrite H1, H2, H3, H4, H5, H6, S.
  change (match e_kws e with [a; b] => str_eqb a (lit "id") && str_eqb b (lit "version") | _ => false end) with (root_kws (e_kws e)).
  rewrite K. unfold shift_range. cbn [fst snd]. rewrite slice_shift.
  unfold slice. cbn [skipn]. rewrite Nat.sub_0_r, firstn_len_app.
  fold (own_lines e own). rewrite P. cbn [bind]. rewrite (fold_builds _ _ _ _ _ Fb). cbn [bind]. rewrite A. cbn [bind].
  destruct gs as [|g gs].
  - destruct Ne as [Ne|Ne]; [congruence|]. cbn [map].
    destruct own as [|l own]; [cbn in Ne; congruence|]. destruct (own_lines e (l :: own)); [congruence|]. reflexivity.
  - cbn [map]. destruct own, (own_lines e _); reflexivity.
Qed.

(* ---- a section ---- *)
Lemma leaf_reads e own rest c vars : ordinary (e_cls e) = true -> e_single e = None -> root_kws (e_kws e) = false ->
  e_subs e = [] -> claims (e_kws e) (keys_of own) (keys_of rest) ->
  parse_list u (e_cls e) None own = Ok (VObj c vars) ->
  reads e (own ++ rest) (VObj c vars) (List.length own).
Proof.
  intros O S K Es C P. exists (List.length own), e. rewrite identify_eq, keys_of_app.
  rewrite (own_range_ordinary e _ _ 0 _ _ O S (claims_range _ _ _ false C)). cbn [bind]. rewrite Es, set_kws_same, keys_of_length.
  assert (Ne : own <> []) by (destruct C as [n [ks [E [N _]]]]; intros ->; destruct n; cbn in E; [subst ks; congruence|discriminate]).
  split; [reflexivity|]. split; [left; destruct own; [congruence|cbn; lia]|].
  apply build_leaf; try assumption. unfold own_lines.
  assert (I : forall k, In k (keys_of own) -> In k (e_kws e)).
  { destruct C as [n [ks [E [_ [_ [I [_ [Hn _]]]]]]]]. intros k Hk. rewrite E in Hk. apply in_app_or in Hk.
    destruct Hk as [Hk|Hk]; [|apply I; exact Hk]. destruct n; [destruct Hk|]. apply repeat_spec in Hk. subst. apply Hn. discriminate. }
  clear - I. induction own as [|l own IH]; [reflexivity|]. cbn [filter]. rewrite (proj2 (mem_str_spec _ _)) by (apply I; left; reflexivity).
  f_equal. apply IH. intros k Hk. apply I. right. exact Hk.
Qed.

(* ---- a container ---- *)
Lemma node_reads e own rest tags c vars0 vars m att : ordinary (e_cls e) = true -> e_single e = None -> root_kws (e_kws e) = false ->
  e_subs e <> [] ->
  get_min_max (e_kws e) 0 (keys_of (own ++ rest)) None false = Ok ((0, List.length own), tags) -> tags = e_kws e ->
  (att <> [] \/ own_lines e own <> []) -> parse_list u (e_cls e) None (own_lines e own) = Ok (VObj c vars0) ->
  subs_at own rest (e_subs e) m att -> attach_all att vars0 = Ok vars ->
  reads e (own ++ rest) (VObj c vars) (List.length own + m).
Proof.
  intros O S K Es G -> Ne P [gs [I F]] A. exists (List.length own), (set_subs e gs).
  rewrite identify_eq. rewrite (own_range_ordinary e _ _ 0 _ _ O S G). cbn [bind fst snd].
  destruct (e_subs e) as [|s0 ss] eqn:E0; [congruence|]. rewrite I. cbn [bind]. rewrite set_kws_same.
  split; [reflexivity|].
  assert (Ng : gs <> [] \/ own_lines e own <> []).
  { destruct Ne as [Ne|Ne]; [left|right; exact Ne]. intros ->. inversion F. congruence. }
  split.
  - destruct Ng as [Ng|Ng]; [right; exact Ng|left]. destruct own; [cbn in Ng; congruence|cbn; lia].
  - eapply build_node; eassumption.
Qed.
End Compose.
