(* Containers and whole messages: written, then read back. *)
From Coq Require Import NArith ZArith List Bool String Arith Lia.
From Verif Require Import PyStr PyDec PyVal Schema KvnPre KvnTree KvnSeg XmlBind KvnBuild NdmXml KvnWrite
     Spec SpecKvn SpecObj StrFacts DecFacts PreFacts SegFacts BuildFacts WriteFacts ParseFacts ShiftFacts
     ReadFacts ComposeFacts MsgFacts PropWrite.
Import ListNotations.
Local Open Scope string_scope.
Local Open Scope list_scope.
Local Arguments find_class : simpl never.
Local Arguments lit : simpl never.

Section Core.
Variable u : env.

(* ---- reading containers ---- *)
Lemma bare_range keys : get_min_max [] 0 keys None false = Ok ((0, 0), []).
Proof. reflexivity. Qed.
Lemma parse_nothing c : parse_list u c None [] = Ok (VObj c (vars_of (new_obj c))).
Proof. reflexivity. Qed.

(* a container without keywords *)
Lemma bare_reads e R vars m att : ordinary (e_cls e) = true -> e_single e = None -> e_kws e = [] ->
  e_subs e <> [] -> att <> [] -> subs_at u [] R (e_subs e) m att ->
  attach_all att (vars_of (new_obj (e_cls e))) = Ok vars ->
  reads u e R (VObj (e_cls e) vars) m.
Proof.
  intros O S K Es Na H A. change R with ([] ++ R). change m with (List.length (@nil line) + m).
  eapply node_reads; try eassumption.
  - rewrite K. reflexivity.
  - cbn [app]. rewrite K. apply bare_range.
  - symmetry. exact K.
  - left; exact Na.
  - cbn [own_lines filter]. apply parse_nothing.
Qed.

(* a container whose only keyword is COMMENT takes the first comment, if there is one *)
Definition first_key (R : list line) : option str := option_map key_of (hd_error R).
Definition takes (t : option str) : list line := match t with Some s => [[kw_comment; s]] | None => [] end.
Definition comment_list (t : option str) : pyval := VList match t with Some s => [VStr s] | None => [] end.
Lemma data_reads e t R f fs vars m att : ordinary (e_cls e) = true -> e_single e = None ->
  e_kws e = [kw_comment] -> e_subs e <> [] -> R <> [] -> (t = None -> first_key R <> Some kw_comment) ->
  fields_of (e_cls e) = f :: fs -> kw_field_ok f = true -> f_list f = true -> f_name f = "comment" ->
  field_xml_ok (f :: fs) -> forallb unfixed (f :: fs) = true ->
  match t with Some s => good_text s | None => True end ->
  att <> [] -> subs_at u (takes t) R (e_subs e) m att ->
  attach_all att (("comment", comment_list t) :: map (fun f => (f_name f, field_default f)) fs) = Ok vars ->
  reads u e (takes t ++ R) (VObj (e_cls e) vars) (List.length (takes t) + m).
Proof.
  intros O S K Es NR Nt Ef Kf Lf Nf X U G Na H A.
  eapply node_reads; try eassumption.
  - rewrite K. reflexivity.
  - rewrite K. destruct t as [s|]; cbn [takes app List.length].
    + cbn [keys_of map key_of hd]. apply comment_only_some.
    + destruct R as [|l R]; [congruence|]. cbn [keys_of map]. apply comment_only_none. intros E. apply Nt; [reflexivity|].
      cbn. rewrite E. reflexivity.
  - symmetry. exact K.
  - left; exact Na.
  - pose proof (kw_field_spec u f Kf) as [_ [_ [_ [Ek [_ [_ [_ [XL _]]]]]]]]. destruct (XL Lf) as [_ [Ec _]].
    assert (E : own_lines e (takes t) = map line_of (entries (fields_of (e_cls e))
              (("comment", comment_list t) :: map (fun f => (f_name f, field_default f)) fs))).
    { rewrite Ef. cbn [entries]. rewrite Ek, Ec, map_app.
      assert (E0 : map line_of (entries fs (map (fun f => (f_name f, field_default f)) fs)) = []).
      { clear - U. induction fs as [|g fs IH]; [reflexivity|]. cbn [forallb] in U. apply andb_true_iff in U. destruct U as [Uf U].
        apply andb_true_iff in U. destruct U as [Ug U].
        cbn [map entries]. unfold field_default, unfixed in *. destruct (f_fixed g); [discriminate|].
        rewrite map_app, IH by (cbn [forallb]; rewrite Uf; exact U). destruct (f_list g); reflexivity. }
      rewrite E0, app_nil_r. unfold own_lines. rewrite K. destruct t; reflexivity. }
    rewrite E. apply parse_entries; rewrite Ef; [exact X|exact U|]. constructor.
    + split; [symmetry; exact Nf|]. left. split; [exact Kf|]. destruct t as [s|]; cbn [snd comment_list].
      * apply (wf_comments f [s]); [exact Lf|repeat constructor; apply G].
      * apply (wf_comments f []); [exact Lf|constructor].
    + clear. induction fs as [|g fs IH]; [constructor|]. constructor; [|exact IH]. split; [reflexivity|]. right. reflexivity.
Qed.

(* ---- the root ---- *)
Definition id_line (c : string) : line := [lit "id"; lit match class_fixed c "id" with Some i => i | None => "" end].
Definition version_line (c : string) : line :=
  [lit "version"; lit match class_fixed c "version" with Some i => i | None => "" end].
Definition head_lines (c : string) : list line := [id_line c; version_line c].
Lemma root_tree c : In c root_classes ->
  e_cls (tree_of c) = c /\ e_single (tree_of c) = None /\ e_kws (tree_of c) = [lit "id"; lit "version"] /\
  e_subs (tree_of c) <> [] /\
  e_mm (tree_of c) = (0, 0) /\ ordinary c = true /\ root_kws [lit "id"; lit "version"] = true /\
  (exists vs, parse_root c (head_lines c) = Ok (VObj c vs) /\ new_obj c = VObj c vs) /\
  delete_keywords c (head_lines c) = head_lines c.
Proof.
  intros H. repeat (destruct H as [<-|H]; [split; [vm_compute; reflexivity|]; split; [vm_compute; reflexivity|];
    split; [vm_compute; reflexivity|]; split; [vm_compute; discriminate|]; split; [vm_compute; reflexivity|]; split; [vm_compute; reflexivity|];
    split; [vm_compute; reflexivity|]; split; [eexists; split; vm_compute; reflexivity|vm_compute; reflexivity]|]). destruct H.
Qed.

Lemma shift_zero e : shift_elem 0 e = e.
Proof.
  induction e as [n cl subs kw l s m t F] using elem_ind'. cbn [shift_elem e_name e_cls e_subs e_kws e_islist e_single e_mm e_tmpl]. f_equal.
  - rewrite <- (map_id subs) at 2. apply map_ext_in. rewrite Forall_forall in F. exact F.
  - unfold shift_range. destruct m; reflexivity.
Qed.

Lemma build_root e own rest c vars0 vars gs att : ordinary (e_cls e) = true -> root_kws (e_kws e) = true ->
  gs <> [] -> parse_root (e_cls e) (own_lines e own) = Ok (VObj c vars0) ->
  Forall2 (fun g nv => e_name g = fst nv /\ builds u g (own ++ rest) (snd nv)) gs att ->
  attach_all att vars0 = Ok vars ->
  builds u (set_mm (set_subs e gs) (0, List.length own)) (own ++ rest) (VObj c vars).
Proof.
  intros O K Ne P F A pre fuel D. destruct fuel as [|n]; [lia|].
  assert (Fb : Forall2 (fun g nv => e_name g = fst nv /\ build u n (pre ++ own ++ rest) g (pre ++ own ++ rest) = Ok (snd nv))
                 (map (shift_elem (List.length pre)) gs) att).
  { rewrite depth_set_mm, depth_eq in D. cbn [e_subs set_subs] in D. clear - F D. induction F as [|g nv gs att [E B] _ IH]; [constructor|].
    unfold depths in *. cbn [fold_right] in D. constructor; [|apply IH; lia]. split.
    - destruct g; exact E.
    - apply B. lia. }
  rewrite shift_set_mm.
  destruct (ordinary_spec _ O) as [H1 [H2 [H3 [H4 [H5 H6]]]]].
  cbn [build set_mm e_cls e_mm e_subs e_kws e_single shift_subs set_subs]. rewrite H1, H2, H3, H4, H5, H6.
  change (match e_kws e with [a; b] => str_eqb a (lit "id") && str_eqb b (lit "version") | _ => false end) with (root_kws (e_kws e)).
  rewrite K. unfold shift_range. cbn [fst snd]. rewrite slice_shift.
  unfold slice. cbn [skipn]. rewrite Nat.sub_0_r, firstn_len_app.
  fold (own_lines e own). rewrite P. cbn [bind]. rewrite (fold_builds _ _ _ _ _ _ Fb). cbn [bind]. rewrite A. cbn [bind].
  destruct gs as [|g gs]; [congruence|]. cbn [map]. destruct own, (own_lines e _); reflexivity.
Qed.

Lemma identified_read c lines e : find_element (nth 1 (nth 0 lines []) []) = Some c ->
  2 <= List.length (nth 0 lines []) -> In c root_classes ->
  identify_segments u (tree_of c) (delete_keywords c lines) = Ok e ->
  read_lines u lines = build_object u e (delete_keywords c lines).
Proof.
  intros F L H I. unfold read_lines, identify_data_type.
  destruct lines as [|l0 lines]; [cbn in L; lia|]. cbn [nth get nth_error guard_opt bind] in *.
  destruct l0 as [|a [|b l0]]; cbn in L; try lia. cbn [get nth nth_error guard_opt bind] in *. rewrite F. cbn [guard_opt bind].
  rewrite (init_object_map_ok c H). cbn [bind]. rewrite I. reflexivity.
Qed.

Lemma read_back c R vars m att : In c root_classes ->
  subs_at u (head_lines c) R (e_subs (tree_of c)) m att -> att <> [] ->
  attach_all att (vars_of (new_obj c)) = Ok vars ->
  forall R0, delete_keywords c R0 = R ->
  read_lines u (head_lines c ++ R0) = Ok (VObj c vars).
Proof.
  intros H [gs [G F]] Na A R0 D.
  destruct (root_tree c H) as [Ec [Es [Ek [Eb [Em [O [Rk [[vs [P N]] Dh]]]]]]]].
  set (e := tree_of c) in *.
  assert (Dl : delete_keywords c (head_lines c ++ R0) = head_lines c ++ R).
  { unfold delete_keywords in *. rewrite filter_app, Dh, D. reflexivity. }
  assert (Cl : claims [lit "id"; lit "version"] (keys_of (head_lines c)) (keys_of R)).
  { exists 0, [lit "id"; lit "version"]. split; [reflexivity|]. split; [discriminate|].
    split; [constructor; [|constructor; [|constructor]]; cbn; [intros [X|[]]; vm_compute in X; discriminate|intros []]|].
    split; [apply incl_refl|]. split; [intros [X|[X|[]]]; vm_compute in X; discriminate|]. split; [congruence|].
    split; [discriminate|]. auto. }
  assert (I : identify_segments u e (head_lines c ++ R) = Ok (set_mm (set_subs e gs) (0, 2))).
  { unfold identify_segments. rewrite identify_eq. rewrite (own_range_ordinary u e _ _ 0 (0, 2) (e_kws e)).
    - cbn [bind fst snd]. destruct (e_subs e) as [|s0 ss]; [congruence|]. change (List.length (head_lines c)) with 2 in G. rewrite G. cbn [bind].
      rewrite set_kws_same. reflexivity.
    - rewrite Ec. exact O.
    - exact Es.
    - rewrite keys_of_app, Ek. exact (claims_range _ _ _ false Cl). }
  rewrite (identified_read c _ (set_mm (set_subs e gs) (0, 2))).
  - rewrite Dl. unfold build_object. rewrite <- (shift_zero (set_mm (set_subs e gs) (0, 2))) at 2.
    change (head_lines c ++ R) with ([] ++ (head_lines c ++ R)). change 0 with (List.length (@nil line)).
    change (set_mm (set_subs e gs) (List.length (@nil line), 2)) with (set_mm (set_subs e gs) (0, List.length (head_lines c))).
    apply (build_root e (head_lines c) R c vs vars gs att).
    + rewrite Ec. exact O.
    + rewrite Ek. exact Rk.
    + intros ->. inversion F. congruence.
    + rewrite Ec. unfold own_lines. rewrite Ek. exact P.
    + exact F.
    + rewrite N in A. exact A.
    + apply Nat.lt_succ_diag_r.
  - clear - H. repeat (destruct H as [<-|H]; [vm_compute; reflexivity|]). destruct H.
  - cbn. lia.
  - exact H.
  - rewrite Dl. exact I.
Qed.

(* ---- writing a message and reading the text ---- *)
Lemma round_trip_core c vars ls vars' m att : In c root_classes ->
  assoc "id" vars = None -> assoc "version" vars = None ->
  emits_vars u vars ls ->
  subs_at u (head_lines c) (delete_keywords c ls) (e_subs (tree_of c)) m att -> att <> [] ->
  attach_all att (vars_of (new_obj c)) = Ok vars' ->
  exists t, kvn_to_string u (VObj c vars) = Ok t /\ kvn_from_string u t = Ok (VObj c vars').
Proof.
  intros Hc Hi Hv Em S Na A.
  destruct (root_fixed c Hc) as [id [ver [Ht [Ei [Ev [[fi [fv [F1 [F2 [F3 F4]]]]] [[mn [Mn Nn]] [Ai [Ui [P [_ O]]]]]]]]]]].
  assert (UE : upper u (lit id) = lit id) by (rewrite upper_of_ascii by exact Ai; exact Ui).
  assert (Tv : trimmed (lit ver) /\ ~ unit_like (lit ver)).
  { clear - Hc Ev. repeat (destruct Hc as [<-|Hc]; [vm_compute in Ev; injection Ev as <-; split;
      [apply trimmedb_spec; reflexivity|intros [Hin _]; revert Hin; apply no_charb_spec; reflexivity]|]). destruct Hc. }
  pose proof P as P0. apply plain_text_spec in P0. destruct P0 as [_ [Tk [Ok1 [Eq _]]]].
  assert (C : startswith kw_comment (lit id) = false).
  { clear - Hc Ei. repeat (destruct Hc as [<-|Hc]; [vm_compute in Ei; injection Ei as <-; reflexivity|]). destruct Hc. }
  assert (LP : one_line (fill_kvn u (lit id) (lit ver) []) /\ lex_line (fill_kvn u (lit id) (lit ver) []) = Some [lit id; lit ver]).
  { apply line_plain; [|apply Tv|exact O|apply Tv]. split; [exact UE|]. auto. }
  destruct LP as [L1 L2].
  destruct (Em [fill_kvn u (lit id) (lit ver) []]) as [raws [E [Fo Fl]]].
  exists (join [c_nl] ([fill_kvn u (lit id) (lit ver) []] ++ raws)). split.
  - unfold kvn_to_string. rewrite Mn. cbn [guard_opt bind]. rewrite Nn. cbn [bind].
    unfold py_getattr. rewrite Hi, Hv, F1, F2, F3, F4. cbn [bind py_str]. rewrite E. reflexivity.
  - unfold kvn_from_string, pre_process. rewrite lex_lines_join; [|discriminate|constructor; assumption].
    cbn [app filter_map]. rewrite L2, Fl. cbn [split_first bind].
    pose proof (read_back c _ vars' m att Hc S Na A ls eq_refl) as RB.
    unfold head_lines, id_line, version_line in RB. rewrite Ei, Ev in RB. exact RB.
Qed.

(* ---- writing sections and containers ---- *)
Definition plain_class (c : string) : bool :=
  negb (mem_string c special_output_data_classes) && negb (mem_string "units" (map f_name (fields_of c))).
Definition sec_class (c : string) : bool := leaf_class c && plain_class c.
Definition plain_key (k : string) : Prop := k <> "comment" /\ k <> "user_defined".
Lemma plain_class_spec c : plain_class c = true ->
  mem_string c special_output_data_classes = false /\ mem_string "units" (map f_name (fields_of c)) = false.
Proof. unfold plain_class. intros H. apply andb_true_iff in H. destruct H as [H1 H2]. apply negb_true_iff in H1, H2. auto. Qed.

Lemma emits_section key c v : sec_class c = true -> plain_key key -> section c v ->
  emits u key v (markers c true ++ sec_lines v ++ markers c false).
Proof.
  intros H [K1 K2] [vars [-> [W _]]]. unfold sec_class in H. apply andb_true_iff in H. destruct H as [L P].
  destruct (plain_class_spec c P) as [P1 P2]. apply emits_obj; try assumption.
  - rewrite (wf_vars_names _ _ W). exact P2.
  - cbn [sec_lines]. apply emits_fields; [|exact W]. unfold leaf_class in L.
    repeat (apply andb_true_iff in L; destruct L as [L ?]). exact L.
Qed.
Lemma emits_opt key c v : sec_class c = true -> markers c true = [] -> markers c false = [] -> plain_key key ->
  opt_section c v -> emits u key v (sec_lines v).
Proof.
  intros H M1 M2 K [->|S].
  - apply emits_none; apply K.
  - replace (sec_lines v) with (markers c true ++ sec_lines v ++ markers c false) by (rewrite M1, M2, app_nil_r; reflexivity).
    apply emits_section; assumption.
Qed.
Lemma emits_vars_app a b l1 l2 : emits_vars u a l1 -> emits_vars u b l2 -> emits_vars u (a ++ b) (l1 ++ l2).
Proof.
  revert l1. intros l1 H1 H2 out. destruct (H1 out) as [r1 [E1 [O1 F1]]]. destruct (H2 (out ++ r1)) as [r2 [E2 [O2 F2]]].
  exists (r1 ++ r2). split.
  - rewrite app_assoc, <- E2. clear - E1. revert E1. generalize (out ++ r1) as o1. intros o1 E1.
    revert out E1. induction a as [|[k v] a IH]; intros out E1.
    + cbn in *. injection E1 as ->. reflexivity.
    + cbn [app collate_vars] in *. destruct (collate_sub u k v out); [|discriminate]. apply IH. exact E1.
  - split; [apply Forall_app; auto|]. rewrite filter_map_app, F1, F2. reflexivity.
Qed.
Definition sec_elem (s : elem) : bool :=
  leaf_elem s && negb (e_islist s) && plain_class (e_cls s)
  && negb (mem_string (e_cls s) special_output_header_classes)
  && negb (String.eqb (e_name s) "comment") && negb (String.eqb (e_name s) "user_defined").
Lemma sec_elem_spec s : sec_elem s = true ->
  leaf_elem s = true /\ e_islist s = false /\ sec_class (e_cls s) = true /\ (forall b, markers (e_cls s) b = []) /\ plain_key (e_name s).
Proof.
  unfold sec_elem. intros H. do 5 (apply andb_true_iff in H; destruct H as [H ?]).
  repeat match goal with X : negb _ = true |- _ => apply negb_true_iff in X end.
  repeat match goal with X : String.eqb _ _ = false |- _ => apply String.eqb_neq in X end.
  split; [exact H|]. split; [assumption|]. split.
  - unfold sec_class. destruct (leaf_elem_spec s H) as [_ [_ [_ [-> _]]]]. assumption.
  - split; [intros b; unfold markers; match goal with X : mem_string _ special_output_header_classes = false |- _ => rewrite X end; reflexivity|]. split; assumption.
Qed.
Lemma emits_sections ss att : forallb sec_elem ss = true -> Forall2 sec_of ss att -> emits_vars u att (lines_of att).
Proof.
  intros H F. induction F as [|s [n v] ss att [En [_ S]] _ IH]; [apply emits_vars_nil|].
  cbn [forallb] in H. apply andb_true_iff in H. destruct H as [Hs H]. cbn [fst snd] in *. subst n.
  destruct (sec_elem_spec s Hs) as [_ [_ [Sc [M K]]]].
  cbn [lines_of flat_map snd]. apply emits_vars_cons; [|apply IH; exact H].
  eapply emits_opt; try eassumption; apply M.
Qed.
Lemma sec_elems_leaf ss : forallb sec_elem ss = true -> forallb leaf_elem ss = true.
Proof. rewrite !forallb_forall. intros H s Hs. apply H in Hs. apply sec_elem_spec in Hs. apply Hs. Qed.
End Core.
