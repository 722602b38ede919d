(* What one line says stays in its place. *)
From Coq Require Import NArith ZArith List Bool String Arith Lia.
From Verif Require Import PyStr PyDec PyVal Schema KvnPre KvnTree KvnSeg XmlBind KvnBuild
     Spec SpecKvn SpecObj SpecMsg SpecDoc SpecFrom SpecOrder SpecSpell SpecPlace StrFacts PreFacts SegFacts BuildFacts ReadFacts GapFacts ComposeFacts
     DocFacts CheckFacts OrderFacts PropOrder PropVers AlikeFacts PropSpell PlaceFacts Demo.
Import ListNotations.
Local Open Scope string_scope.
Local Open Scope list_scope.
Local Arguments find_class : simpl never.
Local Arguments lit : simpl never.

(* ---- the object maps ---- *)
Definition disjointb (a b : list str) : bool := forallb (fun t => mem_str t special_words || negb (mem_str t b)) a.
Lemma disjointb_spec k a b : disjointb a b = true -> ~ In k special_words -> In k a -> In k b -> False.
Proof.
  intros H N Ha Hb. unfold disjointb in H. rewrite forallb_forall in H. specialize (H k Ha). apply mem_str_spec in Hb. rewrite Hb in H. cbn [negb] in H.
  rewrite orb_false_r in H. apply mem_str_spec in H. exact (N H).
Qed.
Fixpoint pairsb (ss : list elem) : bool :=
  match ss with
  | [] => true
  | x :: r => forallb (fun y => negb (leaf x || leaf y) || disjointb (all_words x) (all_words y)) r && pairsb r
  end.
Definition apartb (e : elem) : bool :=
  negb (String.eqb (e_cls e) "TrackingDataObservationType") &&
  (att e || ((negb (leaf e) || negb (unsorted (e_cls e))) && disjointb (words e) (flat_map all_words (e_subs e)) && pairsb (e_subs e))) &&
  match e_single e with Some _ => forallb (fun t => mem_str t special_words) (e_kws e) | None => true end.
Lemma pairsb_spec k ss : pairsb ss = true -> ~ In k special_words -> pairs k ss.
Proof.
  intros H N. induction ss as [|x ss IH]; [exact I|]. cbn [pairsb pairs] in *. apply andb_true_iff in H. destruct H as [H1 H2]. split; [|exact (IH H2)].
  intros y Hy L Kx Ky. rewrite forallb_forall in H1. specialize (H1 y Hy). replace (leaf x || leaf y) with true in H1 by (destruct L as [-> | ->]; [reflexivity|destruct (leaf x); reflexivity]).
  exact (disjointb_spec k _ _ H1 N Kx Ky).
Qed.
Lemma apartb_spec k e : apartb e = true -> ~ In k special_words -> apart1 k e.
Proof.
  unfold apartb. intros H N. apply andb_true_iff in H. destruct H as [H _]. apply andb_true_iff in H. destruct H as [H1 H2]. apply negb_true_iff in H1. split; [exact H1|].
  intros Ha. rewrite Ha in H2. cbn [orb] in H2. apply andb_true_iff in H2. destruct H2 as [H2 H4]. apply andb_true_iff in H2. destruct H2 as [H2 H3].
  split; [intros Le; rewrite Le in H2; cbn [negb orb] in H2; apply negb_true_iff; exact H2|]. split; [intros K1 K2; exact (disjointb_spec k _ _ H3 N K1 K2)|exact (pairsb_spec k _ H4 N)].
Qed.
Lemma roots_apart c : In c root_classes -> c <> "Tdm" -> forallb apartb (all_elems (tree_of c)) = true.
Proof. intros H N. repeat (destruct H as [<-|H]; [vm_compute; reflexivity|]). destruct H as [<-|[]]. congruence. Qed.
Lemma roots_single c e p : In c root_classes -> c <> "Tdm" -> In e (all_elems (tree_of c)) -> e_single e = Some p -> forall k, In k (e_kws e) -> In k special_words.
Proof.
  intros Hc N He E k Hk. pose proof (roots_apart c Hc N) as W. rewrite forallb_forall in W. specialize (W e He). unfold apartb in W. apply andb_true_iff in W. destruct W as [_ W].
  rewrite E, forallb_forall in W. apply mem_str_spec, W. exact Hk.
Qed.
Lemma roots_suit u k s s' c : In c root_classes -> c <> "Tdm" -> ~ In k special_words -> all_fit u k s s' (tree_of c).
Proof.
  intros Hc N Nk z Hz. pose proof (roots_fitb c Hc N) as W. rewrite forallb_forall in W. specialize (W z Hz). unfold fitb in W.
  apply andb_true_iff in W. destruct W as [W _]. apply andb_true_iff in W. destruct W as [W1 W2]. apply negb_true_iff in W1. split; [exact W1|]. split.
  - intros U. rewrite U in W2. cbn [negb orb] in W2. apply andb_true_iff in W2. destruct W2 as [W2 W4]. apply Nat.leb_le in W2.
    split; [exact W2|]. intros t Ht. rewrite forallb_forall in W4. specialize (W4 t Ht).
    apply orb_true_iff in W4. destruct W4 as [W4|W4]; [left; apply str_eqb_eq; exact W4|right; exact W4].
  - intros p Ep Hk. exfalso. apply Nk. exact (roots_single c z p Hc N Hz Ep k Hk).
Qed.

Section Place.
Variable u : env.
Variables k s s' : str.
Hypothesis Ho : ordinary_word k.
Hypothesis Hs : good_text s.
Hypothesis Hs' : good_text s'.
Lemma good_xml t : good_text t -> xml_text t = true.
Proof. intros [_ [_ [_ F]]]. apply forallb_forall. rewrite Forall_forall in F. exact F. Qed.

Lemma read_place c (A : list line) w (l l' : line) (B : list line) : l = k :: s :: w -> l' = k :: s' :: w -> identify_data_type (A ++ l :: B) = Ok c -> identify_data_type (A ++ l' :: B) = Ok c -> c <> "Tdm" ->
  (forall h, In h (keys_of B) -> userk h = false) \/ (forall h, In h (keys_of A) -> userk h = false /\ h <> kw_comment) ->
  rrel (one_change k) (read_lines u (A ++ l :: B)) (read_lines u (A ++ l' :: B)).
Proof.
  intros El El' Ea Eb Nc D. unfold read_lines. rewrite Ea, Eb. cbn [bind].
  assert (Hc : In c root_classes).
  { unfold identify_data_type in Ea. inv_ok Ea. inv_ok Ea. destruct (find_element a0) as [d|] eqn:F; [|discriminate]. cbn [guard_opt] in Ea. injection Ea as ->.
    exact (find_element_in _ _ F). }
  rewrite (init_object_map_ok c Hc). cbn [bind]. destruct Ho as [_ [_ [Wc [Wu Wk]]]]. apply startswith_false in Wu.
  assert (Hcm : k <> kw_comment) by (intros ->; apply Wc; exists []; reflexivity).
  assert (Nk : ~ In k special_words) by (intros X; apply Wk; right; right; exact X).
  assert (Hat : k <> lit "ATTITUDE_TYPE" /\ k <> lit "QUATERNION_TYPE" /\ k <> lit "EULER_ROT_SEQ").
  { repeat split; intros ->; apply Nk; cbn [special_words map In]; tauto. }
  assert (Hid : k <> lit "id") by (intros ->; apply Wk; left; reflexivity).
  assert (Hve : k <> lit "version") by (intros ->; apply Wk; right; left; reflexivity).
  assert (Dk : forall m h, In h (keys_of (delete_keywords c m)) -> In h (keys_of m)).
  { intros m h Hh. unfold keys_of in *. apply in_map_iff in Hh. destruct Hh as [x [<- Hl]]. apply in_map. unfold delete_keywords in Hl. apply filter_In in Hl. apply Hl. }
  assert (Ed : forall x, key_of x = k -> delete_keywords c (A ++ x :: B) =
    delete_keywords c A ++ (if negb (mem_str k (deleted_keywords c)) then [x] else []) ++ delete_keywords c B).
  { intros x Kx. unfold delete_keywords. rewrite filter_app. cbn [filter]. rewrite Kx. destruct (negb _); reflexivity. }
  assert (Kl : key_of l = k) by (rewrite El; reflexivity). assert (Kl' : key_of l' = k) by (rewrite El'; reflexivity).
  rewrite (Ed l Kl), (Ed l' Kl'). destruct (negb (mem_str k (deleted_keywords c))); [|apply rrel_refl; intros; apply change_none]. cbn [app].
  assert (D2 : (forall h, In h (keys_of (delete_keywords c B)) -> userk h = false) \/ (forall h, In h (keys_of (delete_keywords c A)) -> userk h = false /\ h <> kw_comment)).
  { destruct D as [D|D]; [left|right]; intros h Hh; apply D, Dk; exact Hh. }
  revert D2. generalize (delete_keywords c A) (delete_keywords c B). clear - u El El' Kl Kl' Ho Hs Hs' Hc Nc Hat Hid Hve Hcm Wu Nk. intros A B D.
  set (x := A ++ l :: B). set (y := A ++ l' :: B).
  assert (L : alike k s s' x y).
  { apply alike_app; [apply alike_refl|]. constructor; [|apply alike_refl]. right. exists w. split; assumption. }
  unfold identify_segments. rewrite <- (alike_keys k s s' x y L).
  assert (HU : forall tags i sg lo hi tags', user_words tags -> get_min_max tags i (keys_of x) (Some (lit "USER_DEFINED")) sg = Ok ((lo, hi), tags') -> slice lo hi x = slice lo hi y).
  { intros tags i sg lo hi tags' W H. exact (user_range k A _ _ B tags i sg lo hi tags' Kl Kl' Wu Hcm D W H). }
  destruct (identify_alike u k s s' Hcm Wu x y L HU (tree_of c) (roots_suit u k s s' c Hc Nc Nk) 0) as [I1 I2]. rewrite <- I1.
  assert (Kp : nth_error (keys_of x) (List.length A) = Some k).
  { unfold x, keys_of. rewrite map_app, nth_error_app2; rewrite map_length; [|lia]. rewrite Nat.sub_diag. cbn. rewrite Kl. reflexivity. }
  assert (Ap : apart k (tree_of c)).
  { intros z Hz. apply apartb_spec; [|exact Nk]. pose proof (roots_apart c Hc Nc) as W. rewrite forallb_forall in W. exact (W z Hz). }
  pose proof (spot_identify u k Hcm Wu Hat (List.length A) (keys_of x) x Kp (tree_of c) Ap 0) as Sp.
  destruct (identify u (tree_of c) (keys_of x) x 0) as [[[mx mm] e']|er]; [|reflexivity]. cbn [bind good_ident spot] in *. destruct I2 as [F [U G]].
  unfold build_object. subst l l'. eapply rrel_impl; [|apply (build_place u k s s' (good_xml s Hs) (good_xml s' Hs') (proj1 Hs) (proj1 Hs') Hid Hve Hat (List.length A) A B w eq_refl x y L)].
  - intros v v' [Q _]. exact Q.
  - apply good_rel; [|exact L]. apply good_mm; assumption.
  - apply Sp.
Qed.
End Place.

Lemma ordinary_entry k s un : ordinary_word k -> good_value s -> unit_text un -> (un = [] \/ no_char c_lbr s) -> entry_ok (k, s, un).
Proof.
  intros [T [N [C _]]] [[_ [Ts _]] Nu] [Tu [L1 L2]] D. right. split; [exact T|]. split; [exact N|]. split; [exact C|]. split; [exact Ts|].
  destruct un as [|c un]; [left; split; [reflexivity|exact Nu]|]. right. destruct D as [D|D]; [discriminate|]. split; [discriminate|]. auto.
Qed.
(* Two documents that differ in the value of one line: either both are read, to messages that differ at most in one field, whose
   keyword is that of the line; or neither is, and the error is the same.  The value may be anything that fits on a line.  The
   keywords whose values say how other lines are read (and those of the rotations of an APM) are left out, as are tracking data
   messages; lines with user defined parameters stand all before or all after the line (and if after, no comment stands before it). *)
Theorem C56_place : forall u c id k s s' un blanks first pre raw raw' after,
  In c root_classes -> c <> "Tdm" -> class_fixed c "id" = Some id -> Forall blank blanks -> heads first (lit id) ->
  ordinary_word k -> good_value s -> good_value s' -> unit_text un -> (un = [] \/ (no_char c_lbr s /\ no_char c_lbr s')) ->
  said (k, s, un) raw -> said (k, s', un) raw' ->
  (forall r h, In r after -> heads r h -> ~ begins (lit "USER_DEFINED") h) \/
  (forall r h, In r pre -> heads r h -> ~ begins (lit "USER_DEFINED") h /\ h <> kw_comment) ->
  Forall one_line (blanks ++ first :: pre ++ raw :: after) -> one_line raw' ->
  let one := kvn_from_string u (text_of (blanks ++ first :: pre ++ raw :: after)) in
  let two := kvn_from_string u (text_of (blanks ++ first :: pre ++ raw' :: after)) in
  (exists v v', one = Ok v /\ two = Ok v' /\ one_change k v v') \/ (exists e, one = Err e /\ two = Err e).
Proof.
  intros u c id k s s' un blanks first pre raw raw' after Hc Nc Ei Bb Hf Ho G1 G2 Un D S1 S2 Nu O O'. cbv zeta.
  assert (D1 : un = [] \/ no_char c_lbr s) by (destruct D as [D|[D _]]; auto). assert (D2 : un = [] \/ no_char c_lbr s') by (destruct D as [D|[_ D]]; auto).
  pose proof (said_lex _ _ (ordinary_entry k s un Ho G1 Un D1) S1) as L1. pose proof (said_lex _ _ (ordinary_entry k s' un Ho G2 Un D2) S2) as L2.
  apply heads_lex in Hf. destruct Hf as [vs Lf].
  assert (O2 : Forall one_line (blanks ++ first :: pre ++ raw' :: after)).
  { rewrite Forall_forall in O |- *. intros r Hr. apply in_app_or in Hr. destruct Hr as [Hr|[<-|Hr]]; [apply O; apply in_or_app; auto|apply O; apply in_or_app; right; left; reflexivity|].
    apply in_app_or in Hr. destruct Hr as [Hr|[<-|Hr]]; [|exact O'|]; apply O; apply in_or_app; right; right; apply in_or_app; [left; exact Hr|right; right; exact Hr]. }
  assert (R : rrel (one_change k) (kvn_from_string u (text_of (blanks ++ first :: pre ++ raw :: after))) (kvn_from_string u (text_of (blanks ++ first :: pre ++ raw' :: after)))).
  2:{ destruct (kvn_from_string u _) as [v|e], (kvn_from_string u _) as [v'|e']; cbn [rrel] in R; try contradiction; [left; exists v, v'; auto|right; exists e; subst; auto]. }
  unfold kvn_from_string, pre_process, text_of. rewrite !lex_lines_join by (try assumption; destruct blanks; discriminate).
  rewrite !gap_lex by exact Bb. cbn [filter_map]. rewrite Lf, !filter_map_app. cbn [filter_map]. rewrite L1, L2. cbn [split_first bind].
  assert (Fe : find_element (lit id) = Some c).
  { clear - Hc Ei. repeat (destruct Hc as [<-|Hc]; [vm_compute in Ei; injection Ei as <-; vm_compute; reflexivity|]). destruct Hc. }
  apply (read_place u k s s' Ho (proj1 G1) (proj1 G2) c ([lit "id"; lit id] :: (lit "version" :: vs) :: filter_map lex_line pre) (match un with [] => [] | _ => [un] end) (line_of (k, s, un)) (line_of (k, s', un))).
  - unfold line_of. destruct un; reflexivity.
  - unfold line_of. destruct un; reflexivity.
  - change (guard_opt (find_element (lit id)) AttributeError = Ok c). rewrite Fe. reflexivity.
  - change (guard_opt (find_element (lit id)) AttributeError = Ok c). rewrite Fe. reflexivity.
  - exact Nc.
  - assert (Nk : forall rs h, In h (keys_of (filter_map lex_line rs)) -> exists r, In r rs /\ (h = [] \/ heads r h)).
    { intros rs h Hh. unfold keys_of in Hh. apply in_map_iff in Hh. destruct Hh as [l [<- Hl]]. destruct (PropFrom.filter_map_in _ _ _ Hl) as [r [H1 H2]].
      exists r. split; [exact H1|]. destruct l as [|h vs0]; [left; reflexivity|right]. exact (lex_heads r h vs0 H2). }
    destruct Nu as [Nu|Nu]; [left|right].
    + intros h Hh. destruct (Nk _ _ Hh) as [r [Hr [->|H]]]; [reflexivity|]. apply startswith_false. exact (Nu r h Hr H).
    + intros h Hh. cbn [keys_of map In key_of hd] in Hh. destruct Hh as [<-|[<-|Hh]]; [split; [reflexivity|discriminate]|split; [reflexivity|discriminate]|].
      destruct (Nk _ _ Hh) as [r [Hr [->|H]]]; [split; [reflexivity|discriminate]|]. destruct (Nu r h Hr H) as [X Y]. split; [apply startswith_false; exact X|exact Y].
Qed.
Print Assumptions C56_place.

(* ---- examples ---- *)
Lemma ordinary_check k : trimmedb k && no_charb c_eq k && negb (startswith kw_comment k) && negb (startswith (lit "USER_DEFINED") k) &&
  negb (mem_str k (lit "id" :: lit "version" :: special_words)) = true -> ordinary_word k.
Proof.
  intros H. repeat (apply andb_true_iff in H; destruct H as [H ?]). split; [apply trimmedb_spec; assumption|]. split; [apply no_charb_spec; assumption|].
  split; [apply startswith_false, negb_true_iff; assumption|]. split; [apply startswith_false, negb_true_iff; assumption|]. apply mem_str_false, negb_true_iff. assumption.
Qed.
(* the mass of an OPM, said as a number and as something else; the messages read *)
Definition mass_of (v : pyval) : pyval :=
  match v with
  | VObj _ [_; (_, VObj _ [(_, VObj _ [_; (_, VObj _ vars)])])] =>
    match find (fun nv => String.eqb (fst nv) "spacecraft_parameters") vars with
    | Some (_, VObj _ (_ :: (_, m) :: _)) => m
    | _ => VNone
    end
  | _ => VNone
  end.
Example C56_example : let first := lit "CCSDS_OPM_VERS = 2.0" in let raw := lit "MASS = 150 [kg]" in let raw' := lit " MASS = heavy = 3[kg]" in
  In "Opm" root_classes /\ "Opm" <> "Tdm" /\ class_fixed "Opm" "id" = Some "CCSDS_OPM_VERS" /\ heads first (lit "CCSDS_OPM_VERS") /\
  ordinary_word (lit "MASS") /\ good_value (lit "150") /\ good_value (lit "heavy = 3") /\ unit_text (lit "kg") /\ no_char c_lbr (lit "150") /\ no_char c_lbr (lit "heavy = 3") /\
  said (lit "MASS", lit "150", lit "kg") raw /\ said (lit "MASS", lit "heavy = 3", lit "kg") raw' /\
  (forall r h, In r opm_after -> heads r h -> ~ begins (lit "USER_DEFINED") h) /\
  Forall one_line (first :: (opm_pre ++ [lit "USER_DEFINED_A = 1"]) ++ raw :: opm_after) /\ one_line raw' /\
  exists v v', kvn_from_string demo_env (text_of (first :: (opm_pre ++ [lit "USER_DEFINED_A = 1"]) ++ raw :: opm_after)) = Ok v /\
    kvn_from_string demo_env (text_of (first :: (opm_pre ++ [lit "USER_DEFINED_A = 1"]) ++ raw' :: opm_after)) = Ok v' /\ mass_of v <> mass_of v' /\ mass_of v <> VNone.
Proof.
  assert (B0 : blank []) by (intros c []). assert (B1 : blank (lit " ")) by (intros c [<-|[]]; reflexivity).
  cbv zeta. split; [vm_compute; tauto|]. split; [discriminate|]. split; [reflexivity|]. split; [apply head_of_heads; vm_compute; reflexivity|].
  split; [apply ordinary_check; reflexivity|].
  assert (NB : forall t, no_char c_lbr t -> ~ unit_like t) by (intros t H [X _]; exact (H X)).
  assert (N1 : no_char c_lbr (lit "150")) by (apply no_charb_spec; reflexivity). assert (N2 : no_char c_lbr (lit "heavy = 3")) by (apply no_charb_spec; reflexivity).
  split; [split; [apply good_textb_spec; reflexivity|apply NB; exact N1]|]. split; [split; [apply good_textb_spec; reflexivity|apply NB; exact N2]|].
  split; [split; [apply trimmedb_spec; reflexivity|split; apply no_charb_spec; reflexivity]|]. split; [exact N1|]. split; [exact N2|].
  split; [apply (said_unit (lit "MASS") (lit "150") (lit "kg") [] (lit " ") (lit " ") (lit " ") []); try assumption; discriminate|].
  split; [apply (said_unit (lit "MASS") (lit "heavy = 3") (lit "kg") (lit " ") (lit " ") (lit " ") [] []); try assumption; discriminate|].
  split.
  { intros r h Hr Hh. apply head_of_heads in Hh. repeat (destruct Hr as [<-|Hr]; [vm_compute in Hh; injection Hh as <-; apply startswith_false; vm_compute; reflexivity|]). destruct Hr. }
  split; [apply Forall_forall; intros t Ht; repeat (destruct Ht as [<-|Ht]; [apply no_charb_spec; reflexivity|]); destruct Ht|].
  split; [apply no_charb_spec; reflexivity|]. do 2 eexists. split; [vm_compute; reflexivity|]. split; [vm_compute; reflexivity|]. split; vm_compute; discriminate.
Qed.
(* The words of the rotations of an APM are rightly left out: an attitude with a single rotation line is read as three rotations, and
   the value of the line is the value of each. *)
Definition apm_pre : list str :=
  map lit ["CREATION_DATE = 2003"; "ORIGINATOR = X"; "OBJECT_NAME = A"; "OBJECT_ID = 1"; "CENTER_NAME = EARTH"; "TIME_SYSTEM = UTC"; "EPOCH = 2003";
           "Q_FRAME_A = A"; "Q_FRAME_B = B"; "Q_DIR = A2B"; "Q1 = 1"; "Q2 = 2"; "Q3 = 3"; "QC = 4";
           "EULER_FRAME_A = A"; "EULER_FRAME_B = B"; "EULER_DIR = A2B"; "EULER_ROT_SEQ = 313"; "RATE_FRAME = EULER_FRAME_A"].
Definition value_of (v : pyval) : option pyval := match v with VObj _ ((_, x) :: _) => Some x | _ => None end.
Definition rotation_values (v : pyval) : list (option pyval) :=
  match v with
  | VObj _ [_; (_, VObj _ [(_, VObj _ [_; (_, VObj _ vars)])])] =>
    match find (fun nv => String.eqb (fst nv) "euler_elements_three") vars with
    | Some (_, VObj _ vs) => match find (fun nv => String.eqb (fst nv) "rotation_angles") vs with Some (_, VObj _ rs) => map (fun nv => value_of (snd nv)) rs | _ => [] end
    | _ => []
    end
  | _ => []
  end.
Theorem C56_rotation_refuted : let first := lit "CCSDS_APM_VERS = 1.0" in
  In "Apm" root_classes /\ heads first (lit "CCSDS_APM_VERS") /\
  said (lit "X_ANGLE", lit "1", []) (lit "X_ANGLE = 1") /\ said (lit "X_ANGLE", lit "2", []) (lit "X_ANGLE = 2") /\
  (exists v, kvn_from_string demo_env (text_of (first :: apm_pre ++ [lit "X_ANGLE = 1"])) = Ok v /\ rotation_values v = repeat (Some (VDec (DFin false 1 0))) 3) /\
  (exists v, kvn_from_string demo_env (text_of (first :: apm_pre ++ [lit "X_ANGLE = 2"])) = Ok v /\ rotation_values v = repeat (Some (VDec (DFin false 2 0))) 3).
Proof.
  assert (B0 : blank []) by (intros c []). assert (B1 : blank (lit " ")) by (intros c [<-|[]]; reflexivity).
  cbv zeta. split; [vm_compute; tauto|]. split; [apply head_of_heads; vm_compute; reflexivity|].
  split; [apply (said_plain (lit "X_ANGLE") (lit "1") [] (lit " ") (lit " ") []); assumption|]. split; [apply (said_plain (lit "X_ANGLE") (lit "2") [] (lit " ") (lit " ") []); assumption|].
  split; (eexists; split; [vm_compute; reflexivity|vm_compute; reflexivity]).
Qed.
