(* A line with an unknown keyword is ignored, if it stands before a line of a section that comes once. *)
From Coq Require Import NArith ZArith List Bool String Arith Lia Sorted.
From Verif Require Import PyStr PyDec PyVal Schema KvnPre KvnTree KvnSeg XmlBind KvnBuild
     Spec SpecKvn SpecObj SpecMsg SpecDoc SpecFrom SpecOrder SpecSpell SpecInsert StrFacts PreFacts SegFacts BuildFacts ReadFacts GapFacts ComposeFacts
     DocFacts CheckFacts OrderFacts PropFrom PropOrder PropVers AlikeFacts InsertFacts Demo.
Import ListNotations.
Local Open Scope string_scope.
Local Open Scope list_scope.
Local Arguments find_class : simpl never.
Local Arguments lit : simpl never.

Definition plain_types : list string := ["Omm"; "Opm"; "Rdm"; "Apm"; "Cdm"].

(* ---- the object maps ---- *)
Definition sound1 (c : string) (e : elem) : bool :=
  negb (existsb (String.eqb (e_cls e)) odd_classes) && (Nat.eqb (fst (e_mm e)) 0 && Nat.eqb (snd (e_mm e)) 0) &&
  (if user e then match e_subs e with [] => true | _ => false end && negb (e_islist e) && match e_single e with None => true | _ => false end &&
                  forallb (fun t => str_eqb t kw_comment || userk t) (e_kws e) && Nat.leb 2 (List.length (e_kws e))
   else nodup_strs (e_kws e) && forallb (fun t => negb (userk t)) (e_kws e)).
Definition sound2 (c d : string) (k : str) : bool :=
  str_eqb k kw_comment ||
  (okd k false (tree_of c) &&
   forallb (fun e => negb (mem_str k (e_kws e)) || (String.eqb (e_cls e) d && same_strs (e_kws e) (keywords d) && match e_single e with None => true | _ => false end && negb (e_islist e)))
           (all_elems (tree_of c))).
Definition sound (c : string) : bool :=
  let ks := PropOrder.reach 8 [c] in
  existsb (String.eqb c) ks && closedb ks && match deleted_keywords c with [] => true | _ => false end && forallb (sound1 c) (all_elems (tree_of c)) &&
  forallb (fun d => existsb (String.eqb d) ["ManeuverParametersType"; "AttManeuverParametersType"; "UserDefinedType"] || negb (mem_str kw_comment (keywords d)) || forallb (sound2 c d) (keywords d)) ks.
Lemma plain_sound c : In c plain_types -> sound c = true.
Proof. intros H. repeat (destruct H as [<-|H]; [vm_compute; reflexivity|]). destruct H. Qed.
Lemma plain_root c : In c plain_types -> In c root_classes.
Proof. intros H. repeat (destruct H as [<-|H]; [vm_compute; tauto|]). destruct H. Qed.
Lemma existsb_str d l : existsb (String.eqb d) l = true <-> In d l.
Proof.
  rewrite existsb_exists. split; [intros [e [H E]]; apply String.eqb_eq in E; subst; exact H|]. intros H. exists d. split; [exact H|apply String.eqb_refl].
Qed.
Lemma section_sound c d k : In c plain_types -> section_of c d -> In k (keywords d) -> k <> kw_comment -> sound2 c d k = true.
Proof.
  intros Hc [W [Hk Nd]] Ik Nk. pose proof (plain_sound c Hc) as S. unfold sound in S. cbv zeta in S. do 4 (apply andb_true_iff in S; destruct S as [S ?]).
  apply (within_closed c _ S) in W; [|assumption]. rewrite forallb_forall in H. specialize (H d W). apply orb_true_iff in H. destruct H as [H|H].
  - apply orb_true_iff in H. destruct H as [H|H]; [apply existsb_str in H; contradiction|]. apply mem_str_spec in Hk. rewrite Hk in H. discriminate.
  - rewrite forallb_forall in H. exact (H k Ik).
Qed.
Lemma tree_fine c d J k keys q : In c plain_types -> unknown c J -> section_of c d -> In k (keywords d) -> k <> kw_comment ->
  (forall t a, In t (keywords d) -> t <> kw_comment -> nth_error keys a = Some t -> a < q) ->
  forall e, In e (all_elems (tree_of c)) -> ~ In (e_cls e) odd_classes /\ ~ In J (e_kws e) /\ e_mm e = (0, 0) /\
  (user e = true -> e_subs e = [] /\ e_islist e = false /\ e_single e = None /\ (forall t, In t (e_kws e) -> t = kw_comment \/ userk t = true) /\ 2 <= List.length (e_kws e)) /\
  (user e = false -> NoDup (e_kws e) /\ (forall t, In t (e_kws e) -> userk t = false) /\
     (In k (e_kws e) -> In kw_comment (e_kws e) /\ forall t a, In t (e_kws e) -> t <> kw_comment -> nth_error keys a = Some t -> a < q) /\ (In k (e_kws e) -> e_single e = None)) /\
  (e_islist e = true -> ~ In k (e_kws e)).
Proof.
  intros Hc HJ Hs Ik Nk Q e He. pose proof (plain_sound c Hc) as S. unfold sound in S. cbv zeta in S. do 4 (apply andb_true_iff in S; destruct S as [S ?]). clear S H H1 H2.
  rewrite forallb_forall in H0. specialize (H0 e He). unfold sound1 in H0. apply andb_true_iff in H0. destruct H0 as [H0 S3]. apply andb_true_iff in H0. destruct H0 as [S1 S2].
  pose proof (section_sound c d k Hc Hs Ik Nk) as S4. unfold sound2 in S4. rewrite (proj2 (str_eqb_neq k kw_comment) Nk) in S4. cbn [orb] in S4. apply andb_true_iff in S4. destruct S4 as [_ S4].
  rewrite forallb_forall in S4. specialize (S4 e He).
  assert (K : In k (e_kws e) -> e_kws e = keywords d /\ e_single e = None /\ e_islist e = false).
  { intros I. apply mem_str_spec in I. rewrite I in S4. cbn [negb orb] in S4. do 3 (apply andb_true_iff in S4; destruct S4 as [S4 ?]). split.
    - unfold same_strs in H1. destruct (list_eq_dec _ _ _); [assumption|discriminate].
    - split; [destruct (e_single e); [discriminate|reflexivity]|apply negb_true_iff; assumption]. }
  split; [intros X; apply existsb_str in X; rewrite X in S1; discriminate|]. split.
  { pose proof (tree_checked c (plain_root c Hc)) as T. unfold tree_chk in T. do 3 (apply andb_true_iff in T; destruct T as [T ?]).
    apply String.eqb_eq in H1. assert (We : SpecOrder.within c (e_cls e)) by (apply (within_elems c (tree_of c) T); [rewrite H1; apply SpecOrder.within_self|exact He]).
    destruct HJ as [J1 [J2 [J3 [J4 J5]]]]. destruct (J5 _ We) as [J6 J7]. rewrite all_elems_eq in He. destruct He as [<-|He].
    - unfold same_strs in H0. destruct (list_eq_dec _ _ _) as [E|]; [|discriminate]. rewrite E. intros [X|[X|[]]]; [exact (J3 (eq_sym X))|exact (J4 (eq_sym X))].
    - assert (Ne : String.eqb (e_cls e) c = false).
      { apply in_flat_map in He. destruct He as [s [Hs1 Hs2]]. rewrite forallb_forall in H. specialize (H s Hs1). rewrite forallb_forall in H. specialize (H e Hs2). apply negb_true_iff. exact H. }
      rewrite all_elems_eq in T. cbn [forallb] in T. apply andb_true_iff in T. destruct T as [_ T]. rewrite forallb_forall in T. specialize (T e He). unfold elem_chk in T. cbv zeta in T.
      do 2 (apply andb_true_iff in T; destruct T as [T _]). apply andb_true_iff in T. destruct T as [_ T]. rewrite Ne in T. cbn [orb] in T. destruct (e_single e).
      + intros X. rewrite forallb_forall in T. specialize (T J X). apply mem_str_spec in T. exact (J7 T).
      + apply andb_true_iff in T. destruct T as [T _]. unfold same_strs in T. destruct (list_eq_dec _ _ _) as [E|]; [|discriminate]. rewrite E. exact J6. }
  split. { apply andb_true_iff in S2. destruct S2 as [X Y]. apply Nat.eqb_eq in X, Y. destruct (e_mm e). cbn in *. subst. reflexivity. }
  split.
  { intros U. rewrite U in S3. do 4 (apply andb_true_iff in S3; destruct S3 as [S3 ?]). split; [destruct (e_subs e); [reflexivity|discriminate]|]. split; [apply negb_true_iff; assumption|].
    split; [destruct (e_single e); [discriminate|reflexivity]|]. split; [|apply Nat.leb_le; assumption]. intros t Ht. rewrite forallb_forall in H0. specialize (H0 t Ht). apply orb_true_iff in H0.
    destruct H0 as [H0|H0]; [left; apply str_eqb_eq; exact H0|right; exact H0]. }
  split; [|intros L X; destruct (K X) as [_ [_ Y]]; congruence].
  intros U. rewrite U in S3. apply andb_true_iff in S3. destruct S3 as [X Y]. split; [apply nodup_strs_spec; exact X|]. split; [intros t Ht; rewrite forallb_forall in Y; specialize (Y t Ht); apply negb_true_iff; exact Y|].
  split; [|intros I; apply K; exact I]. intros I. destruct (K I) as [-> _]. split; [apply Hs|exact Q].
Qed.

(* ---- keywords of lines ---- *)
Lemma mem_char_false c s : no_char c s -> mem_char c s = false.
Proof. intros H. apply no_charb_spec in H. unfold no_charb in H. apply negb_true_iff. exact H. Qed.
Lemma lex_ne r l : lex_line r = Some l -> l <> [].
Proof.
  intros H. assert (Nb : strip r <> []) by (intros E; unfold lex_line in H; rewrite E in H; discriminate). rewrite lex_line_nonblank in H by exact Nb. apply PropFrom.some_inj in H. subst l.
  destruct (startswith kw_comment (strip r)); [discriminate|]. unfold lex_data.
  assert (N : split_once c_eq (strip r) <> []) by (destruct (strip r) as [|a t]; [congruence|]; cbn [split_once]; destruct (N.eqb _ _); [discriminate|]; destruct (split_once c_eq t); discriminate).
  destruct (split_once c_eq (strip r)) as [|a [|b [|e t]]]; [congruence| | |]; try discriminate. destruct (endswith _ _); [|discriminate]. destruct (find_char _ _); discriminate.
Qed.
Definition heads_of (rs : list str) : list str := keys_of (filter_map lex_line rs).
Lemma heads_of_cons r rs : (heads_of (r :: rs) = heads_of rs) \/ (exists h, heads r h /\ heads_of (r :: rs) = h :: heads_of rs).
Proof.
  unfold heads_of. cbn [filter_map]. destruct (lex_line r) as [[|h vs]|] eqn:E; [destruct (lex_ne r [] E eq_refl)| |left; reflexivity]. right. exists h. split; [exact (lex_heads r h vs E)|reflexivity].
Qed.
Lemma heads_of_in rs h : In h (heads_of rs) -> exists r, In r rs /\ heads r h.
Proof.
  induction rs as [|r rs IH]; [intros []|]. destruct (heads_of_cons r rs) as [->|[k [Hk ->]]].
  - intros H. destruct (IH H) as [r' [X Y]]. exists r'. split; [right; exact X|exact Y].
  - intros [<-|H]; [exists r; split; [left; reflexivity|exact Hk]|]. destruct (IH H) as [r' [X Y]]. exists r'. split; [right; exact X|exact Y].
Qed.
Lemma heads_of_pairs (R : str -> str -> Prop) rs : (forall a r b s e h k, rs = a ++ r :: b ++ s :: e -> heads r h -> heads s k -> R h k) ->
  forall A h B k, heads_of rs = A ++ h :: B -> In k B -> R h k.
Proof.
  induction rs as [|r rs IH]; intros H A h B k E I; [destruct A; discriminate|].
  assert (H2 : forall a r b s e h k, rs = a ++ r :: b ++ s :: e -> heads r h -> heads s k -> R h k) by (intros a r1 b s e h1 k1 E1; apply (H (r :: a) r1 b s e); rewrite E1; reflexivity).
  specialize (IH H2). destruct (heads_of_cons r rs) as [E2|[h1 [Hh E2]]]; rewrite E2 in E; [exact (IH A h B k E I)|].
  destruct A as [|a A]; injection E as -> E; [|exact (IH A h B k E I)]. rewrite <- E in I. apply heads_of_in in I. destruct I as [s [Is Hs]].
  apply in_split in Is. destruct Is as [b [e ->]]. exact (H [] r b s e h k eq_refl Hh Hs).
Qed.
Lemma pairs_once L : (forall A h B, L = A ++ h :: B -> In h B -> h = kw_comment) -> forall a b k, nth_error L a = Some k -> nth_error L b = Some k -> k <> kw_comment -> a = b.
Proof.
  intros H. assert (X : forall a b k, a < b -> nth_error L a = Some k -> nth_error L b = Some k -> k = kw_comment).
  { intros a b k Lt Ha Hb. destruct (nth_error_split L a Ha) as [A [B [E La]]]. apply (H A k B E). rewrite E in Hb. rewrite nth_error_app2 in Hb by lia.
    destruct (b - List.length A) as [|m] eqn:Em; [lia|]. cbn in Hb. eapply nth_error_In. exact Hb. }
  intros a b k Ha Hb N. destruct (Nat.lt_total a b) as [L1|[L1|L1]]; [destruct (N (X a b k L1 Ha Hb))|exact L1|destruct (N (X b a k L1 Hb Ha))].
Qed.
Fixpoint first_user (ks : list str) : nat := match ks with [] => 0 | h :: r => if userk h then 0 else S (first_user r) end.
Lemma first_user_le ks : forall a h, nth_error ks a = Some h -> userk h = true -> first_user ks <= a.
Proof.
  induction ks as [|k ks IH]; intros a h H Hu; [destruct a; discriminate|]. cbn [first_user]. destruct (userk k) eqn:E; [lia|]. destruct a as [|a]; [injection H as ->; congruence|]. specialize (IH a h H Hu). lia.
Qed.
Lemma first_user_at ks : first_user ks < List.length ks -> exists h, nth_error ks (first_user ks) = Some h /\ userk h = true.
Proof.
  induction ks as [|k ks IH]; cbn [first_user List.length]; [lia|]. destruct (userk k) eqn:E; [intros _; exists k; auto|]. intros L. apply IH. lia.
Qed.
Lemma nth_app_lt {A} (l m : list A) a : a < List.length l -> nth_error (l ++ m) a = nth_error l a.
Proof. intros H. apply nth_error_app1. exact H. Qed.

(* An OMM, OPM, RDM, APM or CDM that can be read, and one more line with a keyword that the standard does not know: the message read is
   the same.  The line stands directly before a line of a section that may hold comments and comes once; the next lines up to the
   last one of that section, and all lines before, say no keyword twice; keywords have no spaces; user defined parameters come last. *)
Theorem C57_unknown_line : forall u c id d j k blanks first pre raw next mid rest v,
  In c plain_types -> class_fixed c "id" = Some id -> Forall blank blanks -> heads first (lit id) ->
  unknown c j -> no_char c_sp j -> heads raw j -> (forall r, In r (pre ++ next :: mid ++ rest) -> ~ heads r j) ->
  section_of c d -> In k (keywords d) -> k <> kw_comment -> heads next k ->
  said_once (pre ++ next :: mid) -> (forall r h, In r (pre ++ next :: mid) -> heads r h -> no_char c_sp h /\ h <> lit "id" /\ h <> lit "version") ->
  (forall r h, In r rest -> heads r h -> In h (keywords d) -> h = kw_comment) -> user_last (pre ++ next :: mid ++ rest) ->
  Forall one_line (blanks ++ first :: pre ++ raw :: next :: mid ++ rest) ->
  kvn_from_string u (text_of (blanks ++ first :: pre ++ next :: mid ++ rest)) = Ok v ->
  kvn_from_string u (text_of (blanks ++ first :: pre ++ raw :: next :: mid ++ rest)) = Ok v.
Proof.
  intros u c id d j k blanks first pre raw next mid rest v Hc Ei Bb Hf Hj Js Hr Nj Hs Ik Nk Hn So Th Re Ul O.
  assert (O2 : Forall one_line (blanks ++ first :: pre ++ next :: mid ++ rest)).
  { apply Forall_app in O. destruct O as [O1 O]. inversion O as [|? ? O3 O4]. subst. apply Forall_app in O4. destruct O4 as [O4 O5]. inversion O5. subst.
    apply Forall_app. split; [exact O1|]. constructor; [exact O3|]. apply Forall_app. auto. }
  apply heads_lex in Hf. destruct Hf as [vs Lf]. pose proof (heads_lex _ _ Hr) as [jv Lj]. pose proof (heads_lex _ _ Hn) as [kv Lk].
  unfold kvn_from_string, pre_process, text_of. rewrite !lex_lines_join by (try assumption; destruct blanks; discriminate).
  rewrite !gap_lex by exact Bb. cbn [filter_map]. rewrite Lf, !filter_map_app. cbn [filter_map]. rewrite Lj, Lk, filter_map_app. cbn [split_first bind].
  assert (Fe : find_element (lit id) = Some c).
  { pose proof (plain_root c Hc) as H. clear - H Ei. repeat (destruct H as [<-|H]; [vm_compute in Ei; injection Ei as <-; vm_compute; reflexivity|]). destruct H. }
  set (LA := [lit "id"; lit id] :: (lit "version" :: vs) :: filter_map lex_line pre). set (LB := (k :: kv) :: filter_map lex_line mid ++ filter_map lex_line rest).
  change (read_lines u (LA ++ LB) = Ok v -> read_lines u (LA ++ (j :: jv) :: LB) = Ok v).
  unfold read_lines. assert (I1 : identify_data_type (LA ++ LB) = Ok c) by (change (guard_opt (find_element (lit id)) AttributeError = Ok c); rewrite Fe; reflexivity).
  assert (I2 : identify_data_type (LA ++ (j :: jv) :: LB) = Ok c) by (change (guard_opt (find_element (lit id)) AttributeError = Ok c); rewrite Fe; reflexivity).
  rewrite I1, I2. cbn [bind]. rewrite (init_object_map_ok c (plain_root c Hc)). cbn [bind].
  assert (Dk : forall m, delete_keywords c m = m).
  { pose proof (plain_sound c Hc) as S. unfold sound in S. cbv zeta in S. do 2 (apply andb_true_iff in S; destruct S as [S _]). apply andb_true_iff in S. destruct S as [_ S].
    intros m. unfold delete_keywords. destruct (deleted_keywords c); [|discriminate]. clear. induction m as [|a m IH]; [reflexivity|]. cbn. f_equal. exact IH. }
  rewrite !Dk. clear I1 I2 Dk. intros H. inv_ok H.
  assert (Kx : keys_of LA ++ keys_of LB = lit "id" :: lit "version" :: heads_of (pre ++ next :: mid ++ rest)).
  { unfold LA, LB, heads_of. rewrite filter_map_app. cbn [filter_map]. rewrite Lk, filter_map_app. unfold keys_of. cbn [map key_of hd app]. rewrite !map_app. cbn [map key_of hd]. rewrite !map_app. reflexivity. }
  assert (Kq : exists K2, heads_of (pre ++ next :: mid ++ rest) = heads_of (pre ++ next :: mid) ++ K2 /\ K2 = heads_of rest).
  { exists (heads_of rest). split; [|reflexivity]. unfold heads_of, keys_of. rewrite <- map_app, <- filter_map_app. rewrite <- app_assoc. reflexivity. }
  destruct Kq as [K2 [Kq K2e]]. set (K1 := heads_of (pre ++ next :: mid)) in *.
  set (q := List.length (lit "id" :: lit "version" :: K1)).
  assert (Kn : forall a, a < q -> nth_error (keys_of LA ++ keys_of LB) a = nth_error (lit "id" :: lit "version" :: K1) a).
  { intros i La. rewrite Kx, Kq. change (lit "id" :: lit "version" :: K1 ++ K2) with ((lit "id" :: lit "version" :: K1) ++ K2). apply nth_app_lt. exact La. }
  assert (T1 : forall h, In h K1 -> no_char c_sp h /\ h <> lit "id" /\ h <> lit "version").
  { intros h Hh. apply heads_of_in in Hh. destruct Hh as [r [X Y]]. exact (Th r h X Y). }
  assert (Hq : forall t a, In t (keywords d) -> t <> kw_comment -> nth_error (keys_of LA ++ keys_of LB) a = Some t -> a < q).
  { intros t i Ht Nt Ha. destruct (le_lt_dec q i) as [L|L]; [|exact L]. exfalso. rewrite Kx, Kq in Ha. change (lit "id" :: lit "version" :: K1 ++ K2) with ((lit "id" :: lit "version" :: K1) ++ K2) in Ha.
    rewrite nth_error_app2 in Ha by exact L. apply nth_error_In in Ha. rewrite K2e in Ha. apply heads_of_in in Ha. destruct Ha as [r [X Y]]. exact (Nt (Re r t X Y Ht)). }
  pose proof Hj as [Jc [Ju [Ji [Jv _]]]]. apply startswith_false in Ju.
  destruct (object_moved (keys_of LA) (keys_of LB) j k (keys_of (filter_map lex_line mid ++ filter_map lex_line rest)) eq_refl Jc) with (q := q) (U := first_user (keys_of LA ++ keys_of LB)) (LA := LA) (LB := LB) (j := j :: jv)
    (u := u) (e := tree_of c) (t := a) (v := v) as [t' [R1 R2]].
  - rewrite Kx. intros [X|[X|X]]; [exact (Ji (eq_sym X))|exact (Jv (eq_sym X))|]. apply heads_of_in in X. destruct X as [r [X Y]]. exact (Nj r X Y).
  - apply mem_char_false. exact Js.
  - exact Nk.
  - assert (X : List.length (keys_of LA) < q).
    { unfold q, LA, K1, heads_of. rewrite filter_map_app. cbn [filter_map]. rewrite Lk. unfold keys_of. rewrite !map_app. cbn [map List.length]. rewrite app_length. cbn [List.length]. lia. }
    exact X.
  - intros a0 b0 k1 La Lb Ha Hb. rewrite Kn in Ha, Hb by assumption. revert Ha Hb. apply pairs_once. intros A h B E1 I1. destruct A as [|a1 A]; injection E1 as Ea E1.
    { subst h. rewrite <- E1 in I1. destruct I1 as [I1|I1]; [discriminate I1|]. destruct (T1 _ I1) as [_ [X _]]. congruence. }
    destruct A as [|a2 A]; injection E1 as Eb E1; [subst h; rewrite <- E1 in I1; destruct (T1 _ I1) as [_ [_ X]]; congruence|].
    refine (heads_of_pairs (fun h k => h = k -> h = kw_comment) (pre ++ next :: mid) _ A h B h E1 I1 eq_refl).
    intros a3 r b s e0 h1 k2 E2 X Y <-. exact (So a3 r b s e0 h1 E2 X Y).
  - intros a0 k1 La Ha. rewrite Kn in Ha by assumption. apply nth_error_In in Ha. destruct Ha as [<-|[<-|Ha]]; [reflexivity|reflexivity|]. apply mem_char_false. apply T1. exact Ha.
  - exact Ju.
  - intros a0 h. apply first_user_le.
  - intros a0 h La Ha. destruct (first_user_at (keys_of LA ++ keys_of LB)) as [h0 [X Y]].
    { assert (a0 < List.length (keys_of LA ++ keys_of LB)) by (apply nth_error_Some; congruence). lia. }
    destruct (Nat.eq_dec a0 (first_user (keys_of LA ++ keys_of LB))) as [E1|N1]; [subst a0; right; congruence|].
    destruct (nth_error_split _ _ X) as [A [B [E1 L1]]]. assert (I1 : In h B).
    { rewrite E1 in Ha, La, N1. rewrite E1 in L1. rewrite nth_error_app2 in Ha by lia. destruct (a0 - List.length A) as [|m] eqn:Em; [lia|]. cbn in Ha. eapply nth_error_In. exact Ha. }
    rewrite Kx in E1. destruct A as [|a1 A]; injection E1 as Ea E1; [subst h0; discriminate Y|]. destruct A as [|a2 A]; injection E1 as Eb E1; [subst h0; discriminate Y|].
    refine (heads_of_pairs (fun h k => userk h = true -> k = kw_comment \/ userk k = true) (pre ++ next :: mid ++ rest) _ A h0 B h E1 I1 Y).
    intros a3 r b s e0 h1 k2 E2 X1 X2 X3. apply startswith_spec in X3. destruct (Ul a3 r b s e0 h1 k2 E2 X1) as [Z|Z]; [|exact X2|left; exact Z|right; apply startswith_spec; exact Z].
    exact X3.
  - intros L. apply first_user_at. exact L.
  - reflexivity.
  - reflexivity.
  - reflexivity.
  - cbn. lia.
  - intros e He. unfold fine1, near. apply (tree_fine c d j k (keys_of LA ++ keys_of LB) q); assumption.
  - pose proof (section_sound c d k Hc Hs Ik Nk) as S. unfold sound2 in S. rewrite (proj2 (str_eqb_neq k kw_comment) Nk) in S. cbn [orb] in S. apply andb_true_iff in S. apply S.
  - exact E.
  - exact H.
  - match goal with |- bind ?a _ = _ => change (a = Ok t') in R1 end. rewrite R1. exact R2.
Qed.
Print Assumptions C57_unknown_line.

(* ---- examples ---- *)
Definition head_is (P : str -> bool) (r : str) : bool := match head_of r with Some k => P k | None => true end.
Lemma head_is_spec P r k : head_is P r = true -> heads r k -> P k = true.
Proof. unfold head_is. intros H X. apply head_of_heads in X. rewrite X in H. exact H. Qed.
Fixpoint pairb (R : str -> str -> bool) (rs : list str) : bool :=
  match rs with [] => true | r :: t => head_is (fun h => forallb (head_is (R h)) t) r && pairb R t end.
Lemma pairb_spec R rs : pairb R rs = true -> forall a r b s e h k, rs = a ++ r :: b ++ s :: e -> heads r h -> heads s k -> R h k = true.
Proof.
  induction rs as [|r0 rs IH]; intros H a r b s e h k E X Y; [destruct a; discriminate|]. cbn [pairb] in H. apply andb_true_iff in H. destruct H as [H1 H2].
  destruct a as [|a0 a]; injection E as -> E; [|exact (IH H2 a r b s e h k E X Y)].
  apply (head_is_spec _ _ h) in H1; [|exact X]. rewrite forallb_forall in H1. apply (head_is_spec (R h) s k); [|exact Y]. apply H1. rewrite E. apply in_or_app. right. left. reflexivity.
Qed.
Lemma once_check rs : pairb (fun h k => negb (str_eqb h k) || str_eqb h kw_comment) rs = true -> said_once rs.
Proof. intros H a r b s e k E X Y. pose proof (pairb_spec _ rs H a r b s e k k E X Y) as P. cbv beta in P. rewrite str_eqb_refl in P. apply str_eqb_eq. exact P. Qed.
Lemma user_check rs : pairb (fun h k => negb (startswith (lit "USER_DEFINED") h) || str_eqb k kw_comment || startswith (lit "USER_DEFINED") k) rs = true -> user_last rs.
Proof.
  intros H a r b s e h k E X B Y. pose proof (pairb_spec _ rs H a r b s e h k E X Y) as P. cbv beta in P. apply startswith_spec in B. rewrite B in P. cbn [negb orb] in P. apply orb_true_iff in P.
  destruct P as [P|P]; [left; apply str_eqb_eq; exact P|right; apply startswith_spec; exact P].
Qed.
Lemma unknown_check c j : (let ks := PropOrder.reach 8 [c] in
  existsb (String.eqb c) ks && closedb ks && negb (str_eqb j kw_comment) && negb (startswith (lit "USER_DEFINED") j) && negb (str_eqb j (lit "id")) && negb (str_eqb j (lit "version")) &&
  forallb (fun d => negb (mem_str j (keywords d)) && negb (mem_str j (attribute_words d))) ks) = true -> unknown c j.
Proof.
  cbv zeta. intros H. do 6 (apply andb_true_iff in H; destruct H as [H ?]). split; [apply str_eqb_neq, negb_true_iff; assumption|]. split; [apply startswith_false, negb_true_iff; assumption|].
  split; [apply str_eqb_neq, negb_true_iff; assumption|]. split; [apply str_eqb_neq, negb_true_iff; assumption|]. intros d W. apply (within_closed c _ H) in W; [|assumption].
  rewrite forallb_forall in H0. specialize (H0 d W). apply andb_true_iff in H0. destruct H0 as [X Y]. apply negb_true_iff in X, Y. split; apply mem_str_false; assumption.
Qed.
Definition opm_first : str := lit "CCSDS_OPM_VERS = 2.0".
Definition opm_head : list str := map lit ["COMMENT an orbit"; "CREATION_DATE = 2003"; "ORIGINATOR = X"; ""; "OBJECT_NAME = A"; "OBJECT_ID = 1"; "CENTER_NAME = EARTH"; "REF_FRAME = ITRF"; "TIME_SYSTEM = UTC";
   "EPOCH = 2003"; "COMMENT where it is"; "X = 1"].
Definition opm_mid : list str := map lit ["Z = 3"; "COMMENT how it moves"; "X_DOT = 1"; "Y_DOT = 1"; "Z_DOT = 1"].
Definition opm_maneuvers : list str := map lit ["MAN_EPOCH_IGNITION = 2003"; "MAN_DURATION = 1"; "MAN_DELTA_MASS = -1"; "MAN_REF_FRAME = RTN"; "MAN_DV_1 = 1"; "MAN_DV_2 = 1"; "MAN_DV_3 = 1"].
Definition opm_user : list str := map lit ["USER_DEFINED_A = 1"; "COMMENT more"; "USER_DEFINED_B = 2"].
Example C57_example : let rest := opm_maneuvers ++ opm_maneuvers ++ opm_user in let next := lit "Y = 2 [km]" in let raw := lit "ATMOSPHERE = NRLMSIS" in
  In "Opm" plain_types /\ class_fixed "Opm" "id" = Some "CCSDS_OPM_VERS" /\ heads opm_first (lit "CCSDS_OPM_VERS") /\ unknown "Opm" (lit "ATMOSPHERE") /\ no_char c_sp (lit "ATMOSPHERE") /\
  heads raw (lit "ATMOSPHERE") /\ (forall r, In r (opm_head ++ next :: opm_mid ++ rest) -> ~ heads r (lit "ATMOSPHERE")) /\
  section_of "Opm" "StateVectorType" /\ In (lit "Y") (keywords "StateVectorType") /\ heads next (lit "Y") /\ said_once (opm_head ++ next :: opm_mid) /\
  (forall r h, In r (opm_head ++ next :: opm_mid) -> heads r h -> no_char c_sp h /\ h <> lit "id" /\ h <> lit "version") /\
  (forall r h, In r rest -> heads r h -> In h (keywords "StateVectorType") -> h = kw_comment) /\ user_last (opm_head ++ next :: opm_mid ++ rest) /\
  Forall one_line (opm_first :: opm_head ++ raw :: next :: opm_mid ++ rest) /\
  exists v, kvn_from_string demo_env (text_of (opm_first :: opm_head ++ next :: opm_mid ++ rest)) = Ok v.
Proof.
  cbv zeta. split; [vm_compute; tauto|]. split; [reflexivity|]. split; [apply head_of_heads; vm_compute; reflexivity|]. split; [apply unknown_check; vm_compute; reflexivity|]. split; [apply no_charb_spec; reflexivity|].
  split; [apply head_of_heads; vm_compute; reflexivity|]. split.
  { assert (X : forallb (head_is (fun h => negb (str_eqb h (lit "ATMOSPHERE")))) (opm_head ++ lit "Y = 2 [km]" :: opm_mid ++ opm_maneuvers ++ opm_maneuvers ++ opm_user) = true) by (vm_compute; reflexivity).
    intros r Hr Hh. rewrite forallb_forall in X. specialize (X r Hr). apply (head_is_spec _ _ _ X) in Hh. rewrite str_eqb_refl in Hh. discriminate. }
  split.
  { split.
    - apply (SpecOrder.within_field _ "OpmData" (mkField "state_vector" (Some "stateVector") false (TCls "StateVectorType") KElem None)); [|vm_compute; auto 10|reflexivity].
      apply (SpecOrder.within_field _ "OpmSegment" (mkField "data" None false (TCls "OpmData") KElem None)); [|vm_compute; auto 10|reflexivity].
      apply (SpecOrder.within_field _ "OpmBody" (mkField "segment" None false (TCls "OpmSegment") KElem None)); [|vm_compute; auto 10|reflexivity].
      apply (SpecOrder.within_field _ "Opm" (mkField "body" None false (TCls "OpmBody") KElem None)); [|vm_compute; auto 10|reflexivity]. apply SpecOrder.within_self.
    - split; [vm_compute; tauto|]. intros H. repeat (destruct H as [H|H]; [discriminate|]). destruct H. }
  split; [vm_compute; tauto|]. split; [apply head_of_heads; vm_compute; reflexivity|]. split; [apply once_check; vm_compute; reflexivity|]. split.
  { assert (X : forallb (head_is (fun h => no_charb c_sp h && negb (str_eqb h (lit "id")) && negb (str_eqb h (lit "version")))) (opm_head ++ lit "Y = 2 [km]" :: opm_mid) = true) by (vm_compute; reflexivity).
    intros r h Hr Hh. rewrite forallb_forall in X. specialize (X r Hr). apply (head_is_spec _ _ _ X) in Hh. do 2 (apply andb_true_iff in Hh; destruct Hh as [Hh ?]).
    split; [apply no_charb_spec; exact Hh|]. split; apply str_eqb_neq, negb_true_iff; assumption. }
  split.
  { assert (X : forallb (head_is (fun h => negb (mem_str h (keywords "StateVectorType")) || str_eqb h kw_comment)) (opm_maneuvers ++ opm_maneuvers ++ opm_user) = true) by (vm_compute; reflexivity).
    intros r h Hr Hh Hk. rewrite forallb_forall in X. specialize (X r Hr). apply (head_is_spec _ _ _ X) in Hh. apply mem_str_spec in Hk. rewrite Hk in Hh. apply str_eqb_eq. exact Hh. }
  split; [apply user_check; vm_compute; reflexivity|]. split; [apply Forall_forall; intros t Ht; repeat (destruct Ht as [<-|Ht]; [apply no_charb_spec; vm_compute; reflexivity|]); destruct Ht|].
  eexists. vm_compute. reflexivity.
Qed.

(* ---- elsewhere such a line is not harmless ---- *)
Definition data_field (n : string) (v : pyval) : option pyval :=
  match v with
  | VObj _ [_; (_, VObj _ [(_, VObj _ [_; (_, VObj _ vars)])])] => match find (fun nv => String.eqb (fst nv) n) vars with Some (_, x) => Some x | None => None end
  | _ => None
  end.
Definition vlen (v : option pyval) : option nat := match v with Some (VList l) => Some (List.length l) | _ => None end.
Definition opm_state : list str := opm_head ++ [lit "Y = 2 [km]"] ++ opm_mid.
(* before the first line of the maneuvers: none of the maneuvers is read, and nothing is said about it *)
Theorem C57_maneuvers_refuted : let raw := lit "ATMOSPHERE = NRLMSIS" in unknown "Opm" (lit "ATMOSPHERE") /\ heads raw (lit "ATMOSPHERE") /\
  exists v v', kvn_from_string demo_env (text_of (opm_first :: opm_state ++ opm_maneuvers ++ opm_maneuvers)) = Ok v /\
    kvn_from_string demo_env (text_of (opm_first :: opm_state ++ raw :: opm_maneuvers ++ opm_maneuvers)) = Ok v' /\
    vlen (data_field "maneuver_parameters" v) = Some 2 /\ vlen (data_field "maneuver_parameters" v') = Some 0.
Proof.
  cbv zeta. split; [apply unknown_check; vm_compute; reflexivity|]. split; [apply head_of_heads; vm_compute; reflexivity|].
  do 2 eexists. split; [vm_compute; reflexivity|]. split; [vm_compute; reflexivity|]. split; vm_compute; reflexivity.
Qed.
(* between user defined parameters: it is read as one of them *)
Definition user_names (v : option pyval) : list (option pyval) :=
  match v with Some (VObj _ vars) => match find (fun nv => String.eqb (fst nv) "user_defined") vars with
                                     | Some (_, VList l) => map (fun x => match x with VObj _ vs => match find (fun nv => String.eqb (fst nv) "parameter") vs with Some (_, p) => Some p | None => None end | _ => None end) l
                                     | _ => [] end
             | _ => [] end.
Theorem C57_user_refuted : let raw := lit "ATMOSPHERE = NRLMSIS" in let a := lit "USER_DEFINED_A = 1" in let b := lit "USER_DEFINED_B = 1" in unknown "Opm" (lit "ATMOSPHERE") /\ heads raw (lit "ATMOSPHERE") /\
  exists v v', kvn_from_string demo_env (text_of (opm_first :: opm_state ++ [a; b])) = Ok v /\ kvn_from_string demo_env (text_of (opm_first :: opm_state ++ [a; raw; b])) = Ok v' /\
    List.length (user_names (data_field "user_defined_parameters" v)) = 2 /\ In (Some (VStr (lit "ATMOSPHERE"))) (user_names (data_field "user_defined_parameters" v')).
Proof.
  cbv zeta. split; [apply unknown_check; vm_compute; reflexivity|]. split; [apply head_of_heads; vm_compute; reflexivity|].
  do 2 eexists. split; [vm_compute; reflexivity|]. split; [vm_compute; reflexivity|]. split; vm_compute; [reflexivity|tauto].
Qed.
(* two such lines with the same keyword inside a section: the lines of the section behind them are lost *)
Definition state_field (n : string) (v : pyval) : option pyval :=
  match data_field "state_vector" v with Some (VObj _ vars) => match find (fun nv => String.eqb (fst nv) n) vars with Some (_, x) => Some x | None => None end | _ => None end.
Definition given (v : option pyval) : bool := match v with Some (VObj _ _) => true | _ => false end.
Theorem C57_twice_refuted : let raw := lit "ATMOSPHERE = NRLMSIS" in unknown "Opm" (lit "ATMOSPHERE") /\ heads raw (lit "ATMOSPHERE") /\
  exists v v', kvn_from_string demo_env (text_of (opm_first :: opm_state)) = Ok v /\ kvn_from_string demo_env (text_of (opm_first :: opm_head ++ raw :: raw :: lit "Y = 2 [km]" :: opm_mid)) = Ok v' /\
    given (state_field "z_dot" v) = true /\ given (state_field "z_dot" v') = false.
Proof.
  cbv zeta. split; [apply unknown_check; vm_compute; reflexivity|]. split; [apply head_of_heads; vm_compute; reflexivity|].
  do 2 eexists. split; [vm_compute; reflexivity|]. split; [vm_compute; reflexivity|]. split; vm_compute; reflexivity.
Qed.
(* and one such line whose keyword has a space *)
Theorem C57_space_refuted : let raw := lit "ATMOSPHERE MODEL = NRLMSIS" in unknown "Opm" (lit "ATMOSPHERE MODEL") /\ heads raw (lit "ATMOSPHERE MODEL") /\
  exists v v', kvn_from_string demo_env (text_of (opm_first :: opm_state)) = Ok v /\ kvn_from_string demo_env (text_of (opm_first :: opm_head ++ raw :: lit "Y = 2 [km]" :: opm_mid)) = Ok v' /\
    given (state_field "z_dot" v) = true /\ given (state_field "z_dot" v') = false.
Proof.
  cbv zeta. split; [apply unknown_check; vm_compute; reflexivity|]. split; [apply head_of_heads; vm_compute; reflexivity|].
  do 2 eexists. split; [vm_compute; reflexivity|]. split; [vm_compute; reflexivity|]. split; vm_compute; reflexivity.
Qed.
