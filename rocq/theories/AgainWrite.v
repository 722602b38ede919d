(* Comments that move between a data block and its first section do not change the text. *)
From Coq Require Import NArith ZArith List Bool String Arith Lia.
From Verif Require Import PyStr PyDec PyVal Schema KvnPre KvnTree KvnSeg XmlBind KvnBuild NdmXml KvnWrite Spec SpecKvn SpecObj SpecMsg
     DecFacts StrFacts BuildFacts WriteFacts CoreFacts DataFacts PropRound PropCdm PropStable.
Import ListNotations.
Local Open Scope string_scope.
Local Open Scope list_scope.
Local Arguments find_class : simpl never.
Local Arguments lit : simpl never.

Section Moved.
Variable u : env.
Notation sub := (collate_sub u).
Notation run := (collate_vars (collate_sub u)).
Definition alike_vars (a b : list (string * pyval)) : Prop := map fst a = map fst b /\ forall out, run a out = run b out.
Lemma close_same key a b out : map fst a = map fst b -> close_section key a out = close_section key b out.
Proof. intros E. unfold close_section. rewrite E. destruct a, b; try discriminate E; reflexivity. Qed.
Lemma sub_same key c a b : mem_string "units" (map fst a) = false -> mem_string c special_output_data_classes = false -> alike_vars a b -> forall out, sub key (VObj c a) out = sub key (VObj c b) out.
Proof.
  intros U S [E R] out. cbn [collate_sub]. rewrite <- E, U, S. destruct (String.eqb key "comment"); [reflexivity|]. destruct (String.eqb key "user_defined"); [reflexivity|].
  change (collate_vars (collate_sub u)) with (run). rewrite R. destruct (run b _); [|reflexivity]. cbn [bind]. rewrite (close_same key a b _ E). reflexivity.
Qed.
Lemma alike_one n x y r : (forall out, sub n x out = sub n y out) -> alike_vars ((n, x) :: r) ((n, y) :: r).
Proof. intros H. split; [reflexivity|]. intros out. cbn [collate_vars]. rewrite H. reflexivity. Qed.
Lemma alike_cons n x a b : alike_vars a b -> alike_vars ((n, x) :: a) ((n, x) :: b).
Proof. intros [E R]. split; [cbn [map fst]; rewrite E; reflexivity|]. intros out. cbn [collate_vars]. destruct (sub n x out); [apply R|reflexivity]. Qed.
Lemma run_app a b out : run (a ++ b) out = match run a out with Ok o => run b o | Err e => Err e end.
Proof. revert out. induction a as [|[n x] a IH]; intros out; [reflexivity|]. cbn [app collate_vars]. destruct (sub n x out); [apply IH|reflexivity]. Qed.

(* a section whose lines are its comments and the lines of its other fields *)
Definition plain_names (nc : string * string) : bool :=
  negb (String.eqb (fst nc) "comment") && negb (String.eqb (fst nc) "user_defined") && negb (mem_string (snd nc) special_output_header_classes) &&
  negb (mem_string (snd nc) special_output_data_classes) && negb (mem_string "units" (map f_name (fields_of (snd nc)))).
Definition note (t : str) : str := fill_kvn u (lit "comment") t [].
Lemma wf_names fs vars : wf_vars fs vars -> map fst vars = map f_name fs.
Proof. intros W. induction W as [|f [n x] fs vars [E _] _ IH]; [reflexivity|]. cbn [map fst] in *. rewrite E, IH. reflexivity. Qed.
Lemma section_run nc v : plain_names nc = true -> has_comments (snd nc) = true -> section (snd nc) v ->
  exists ts K, comments_of v = texts ts /\ (forall out, sub (fst nc) v out = K (out ++ map note ts)) /\
    forall ts', with_comments (texts ts') v = VObj (snd nc) (("comment", VList (texts ts')) :: match v with VObj _ (_ :: r) => r | _ => [] end) /\ forall out, sub (fst nc) (with_comments (texts ts') v) out = K (out ++ map note ts').
Proof.
  destruct nc as [n c]. unfold plain_names. cbn [fst snd]. intros P H [vars [-> [W _]]]. repeat (apply andb_true_iff in P; destruct P as [P ?]). repeat match goal with H : negb _ = true |- _ => apply negb_true_iff in H end.
  pose proof (wf_names _ _ W) as Nm. destruct (has_comments_spec c H) as [fs E]. rewrite E in W. inversion W as [|? [k w] ? vars0 [Ek Wf] Ws]; subst. cbn [fst snd f_name comment_field] in *. subst k.
  destruct (wf_comment_value w Wf) as [ts [-> _]]. exists ts, (fun o => do o' <- run vars0 o; Ok (close_section n (("comment", VNone) :: vars0) o')). split; [reflexivity|].
  assert (X : forall t out, sub n (VObj c (("comment", VList (map VStr t)) :: vars0)) out = (do o' <- run vars0 (out ++ map note t); Ok (close_section n (("comment", VNone) :: vars0) o'))).
  { intros t out. cbn [collate_sub]. rewrite <- Nm in *. cbn [map fst] in *. rewrite !H0, H1, H2, H3, P, app_nil_r. cbn [collate_vars]. rewrite (sub_comments u t out). fold note. change (fun t0 => fill_kvn u (lit "comment") t0 []) with note.
    destruct (run vars0 (out ++ map note t)); [|reflexivity]. cbn [bind]. rewrite app_nil_r. f_equal. }
  split; [intros out; apply X|]. intros ts'. cbn [with_comments]. split; [reflexivity|]. intros out. apply X.
Qed.
Lemma give_run shape secs r : forallb plain_names shape = true -> shape_ok shape = true -> sections shape secs -> some_section secs ->
  exists ts K, first_comments secs = texts ts /\ (forall out, run (secs ++ r) out = K (out ++ map note ts)) /\
    forall ts', map fst (give_comments (texts ts') secs) = map fst secs /\ forall out, run (give_comments (texts ts') secs ++ r) out = K (out ++ map note ts').
Proof.
  intros P Sh F. revert P Sh. induction F as [|[n c] [m v] shape secs [En O] F IH]; intros P Sh Ss; [destruct Ss as [n [v [[] _]]]|].
  cbn [shape_ok forallb fst snd] in *. subst m. apply andb_true_iff in Sh. destruct Sh as [Sc Sh]. apply andb_true_iff in Sc. destruct Sc as [_ Hc]. apply andb_true_iff in P. destruct P as [P1 P].
  destruct O as [->|O].
  - destruct IH as [ts [K [E1 [R A]]]]; [exact P|exact Sh| |].
    { destruct Ss as [k [w [[Hin|Hin] Nv]]]; [congruence|]. exists k, w. auto. }
    assert (N : forall out, sub n VNone out = Ok out).
    { unfold plain_names in P1. cbn [fst snd] in P1. repeat (apply andb_true_iff in P1; destruct P1 as [P1 ?]). repeat match goal with H : negb _ = true |- _ => apply negb_true_iff in H end. intros out. apply sub_none; apply String.eqb_neq; assumption. }
    exists ts, K. split; [exact E1|]. cbn [app collate_vars give_comments]. split; [intros out; rewrite N; apply R|]. intros ts'. destruct (A ts') as [A1 A2]. split; [cbn [map fst]; f_equal; exact A1|]. intros out. cbn [app collate_vars]. rewrite N. apply A2.
  - destruct (section_run (n, c) v P1 Hc O) as [ts [K [E1 [R A]]]]. cbn [fst snd] in *. assert (Ev : exists vars, v = VObj c vars) by (destruct O as [vars [-> _]]; eexists; reflexivity). destruct Ev as [vars Ev].
    exists ts, (fun o => match K o with Ok o' => run (secs ++ r) o' | Err e => Err e end). split; [cbn [first_comments]; rewrite Ev; rewrite <- Ev; exact E1|]. split; [intros out; cbn [app collate_vars]; rewrite R; reflexivity|].
    intros ts'. destruct (A ts') as [_ A2]. assert (Eg : give_comments (texts ts') ((n, v) :: secs) = (n, with_comments (texts ts') v) :: secs) by (rewrite Ev; reflexivity). rewrite Eg. split; [reflexivity|].
    intros out. cbn [app collate_vars]. rewrite A2. reflexivity.
Qed.
Lemma data_same shape secs r cs cs' secs' : forallb plain_names shape = true -> shape_ok shape = true -> sections shape secs -> some_section secs ->
  data_comments (texts cs) secs = texts cs' -> give_comments (section_comments (texts cs) secs) secs = secs' ->
  alike_vars (("comment", VList (texts cs')) :: secs' ++ r) (("comment", VList (texts cs)) :: secs ++ r).
Proof.
  intros P Sh F Ss E1 E2. destruct (give_run shape secs r P Sh F Ss) as [ts [K [Ef [R A]]]]. unfold data_comments, section_comments in *. rewrite Ef in *.
  unfold texts in E2 at 1 2. rewrite <- map_app, skipn_map in E2. fold (texts (skipn 1 (cs ++ ts))) in E2. subst secs'. destruct (A (skipn 1 (cs ++ ts))) as [A1 A2].
  split; [cbn [map fst]; rewrite !map_app, A1; reflexivity|]. intros out. cbn [collate_vars]. unfold texts at 1 3. rewrite !sub_comments. fold note. change (fun t0 => fill_kvn u (lit "comment") t0 []) with note. rewrite A2, R, <- !app_assoc, <- !map_app. do 3 f_equal.
  unfold texts in E1. rewrite <- map_app, firstn_map in E1. assert (E3 : firstn 1 (cs ++ ts) = cs').
  { revert E1. generalize (firstn 1 (cs ++ ts)). clear. intros l. revert cs'. induction l as [|x l IH]; intros [|y m] E; try discriminate E; [reflexivity|]. injection E as -> E. f_equal. apply IH. exact E. }
  rewrite <- E3. apply firstn_skipn.
Qed.

(* two segments whose variables give the same lines *)
Inductive alike_obj : pyval -> pyval -> Prop :=
| alike_objects c a b : mem_string c special_output_data_classes = false -> alike_vars a b -> alike_obj (VObj c a) (VObj c b).
Lemma items_same key l l' : String.eqb key "comment" = false -> String.eqb key "user_defined" = false -> Forall2 alike_obj l l' -> forall out, sub key (VList l) out = sub key (VList l') out.
Proof.
  intros K1 K2 F out. cbn [collate_sub]. rewrite K1, K2.
  assert (Hd : forall b : bool, match l with VObj c _ :: _ => if mem_string c special_output_header_classes then [[]; special_header c b; []] else [] | _ => [] end =
    match l' with VObj c _ :: _ => if mem_string c special_output_header_classes then [[]; special_header c b; []] else [] | _ => [] end).
  { intros b. destruct F as [|? ? ? ? [c a b' _ _] _]; reflexivity. }
  rewrite (Hd true), (Hd false). clear Hd.
  generalize (match l' with VObj c _ :: _ => if mem_string c special_output_header_classes then [[]; special_header c true; []] else [] | _ => [] end).
  generalize (match l' with VObj c _ :: _ => if mem_string c special_output_header_classes then [[]; special_header c false; []] else [] | _ => [] end).
  intros h1 h2. generalize ((out ++ []) ++ h2). intros o.
  match goal with |- context [?f l o] => assert (X : f l o = f l' o); [|rewrite X; reflexivity] end.
  revert o. induction F as [|x y l l' A F IH]; intros o; [reflexivity|]. destruct A as [c a b S [E R]]. rewrite S. change (collate_vars (collate_sub u)) with (run). rewrite R.
  destruct (run b o); [|reflexivity]. cbn [bind]. rewrite (close_same key a b _ E). apply IH.
Qed.
Lemma assoc_absent {A} n (l : list (string * A)) : mem_string n (map fst l) = false -> assoc n l = None.
Proof. induction l as [|[m x] l IH]; [reflexivity|]. cbn [map fst mem_string existsb assoc]. rewrite String.eqb_sym. destruct (String.eqb m n); [discriminate|exact IH]. Qed.
Lemma root_same c a b : match meta_name c with Some n => String.eqb n "ndm" | None => false end = false ->
  mem_string "id" (map fst a) = false -> mem_string "version" (map fst a) = false -> alike_vars a b -> kvn_to_string u (VObj c a) = kvn_to_string u (VObj c b).
Proof.
  intros N I V [E R]. unfold kvn_to_string. destruct (meta_name c) as [n|]; [|reflexivity]. cbn [guard_opt bind]. rewrite N. cbn [bind].
  unfold py_getattr. rewrite !assoc_absent; try assumption; try (rewrite <- E; assumption).
  change (collate_vars (collate_sub u)) with (run). 
  destruct (find_field "id" (fields_of c)) as [f|]; [|reflexivity]. destruct (f_fixed f) as [s|]; [|destruct (f_list f); [reflexivity|]]; cbn [bind].
  - destruct (find_field "version" (fields_of c)) as [g|]; [|reflexivity]. destruct (f_fixed g) as [s'|]; [|destruct (f_list g); [reflexivity|]]; cbn [bind py_str]; rewrite R; reflexivity.
  - reflexivity.
Qed.
Lemma names_of shape secs : sections shape secs -> map fst secs = map fst shape.
Proof. intros F. induction F as [|nc nv shape secs [E _] _ IH]; [reflexivity|]. cbn [map]. rewrite E, IH. reflexivity. Qed.

(* the text of a message with one segment depends on its data block only through the lines of the block *)
Lemma single_same c b sg dc h m a a' : match meta_name c with Some n => String.eqb n "ndm" | None => false end = false ->
  mem_string b special_output_data_classes = false -> mem_string sg special_output_data_classes = false -> mem_string dc special_output_data_classes = false ->
  mem_string "units" (map fst a) = false -> alike_vars a a' -> kvn_to_string u (single_message c b sg dc h m a) = kvn_to_string u (single_message c b sg dc h m a').
Proof.
  intros Ic Nb Ns Nd U A. apply root_same; [exact Ic|reflexivity|reflexivity|].
  apply alike_cons, alike_one. apply sub_same; [reflexivity|exact Nb|]. apply alike_one. apply sub_same; [reflexivity|exact Ns|]. apply alike_cons, alike_one. apply sub_same; [exact U|exact Nd|exact A].
Qed.
Lemma cdm_same header relative l l' : Forall2 alike_obj l l' -> kvn_to_string u (cdm_message header relative l) = kvn_to_string u (cdm_message header relative l').
Proof.
  intros F. apply root_same; [vm_compute; reflexivity|reflexivity|reflexivity|]. apply alike_cons, alike_one. apply sub_same; [reflexivity|vm_compute; reflexivity|]. apply alike_cons, alike_one. apply items_same; [reflexivity|reflexivity|exact F].
Qed.
End Moved.
