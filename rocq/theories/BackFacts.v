(* Messages that were read have a shape that can be written. *)
From Coq Require Import NArith ZArith List Bool String Arith Lia.
From Verif Require Import PyStr PyDec PyVal Schema KvnPre KvnTree KvnSeg XmlBind KvnBuild NdmXml KvnWrite
     SpecBack StrFacts PreFacts SegFacts BuildFacts WriteFacts ComposeFacts MsgFacts CoreFacts ErrFacts.
Import ListNotations.
Local Open Scope string_scope.
Local Open Scope list_scope.
Local Arguments find_class : simpl never.
Local Arguments lit : simpl never.

(* ---- the shape ---- *)
Definition scalar (v : pyval) : Prop := match v with VObj _ _ | VList _ => False | _ => True end.
Definition unitary (v : pyval) : Prop := match v with VNone | VStr _ | VEnum _ _ _ => True | _ => False end.
Definition valued (vars : list (string * pyval)) : Prop :=
  exists x un, scalar x /\ unitary un /\
    (vars = [("value", x); ("units", un)] \/
     exists p a m s, vars = [("value", x); (p, VEnum a m s); ("units", un)] /\ p <> "value" /\ p <> "units").
Definition kept (n : string) : bool := negb (String.eqb n "comment") && negb (String.eqb n "user_defined").
Definition flat (vars : list (string * pyval)) : Prop :=
  forall n x, In (n, x) vars -> scalar x \/ (exists c vs, x = VObj c vs /\ valued vs) \/ (exists l, x = VList l /\ Forall scalar l).
Definition special (c : string) (vars : list (string * pyval)) : Prop :=
  (c = "StateVectorAccType" /\ flat vars /\ (forall n l, ~ In (n, VList l) vars) /\ exists n x, In (n, x) vars /\ truthy x = true) \/
  (c = "OemCovarianceMatrixType" /\ flat vars /\ (exists l, assoc "comment" vars = Some (VList l)) /\
     (exists x, assoc "epoch" vars = Some x /\ scalar x) /\ (exists x, assoc "cov_ref_frame" vars = Some x /\ scalar x)) \/
  (c = "TrackingDataObservationType" /\ exists x, assoc "epoch" vars = Some x /\ scalar x).
Definition user_item (x : pyval) : Prop := exists c a s, x = VObj c [("value", a); ("parameter", VStr s)] /\ scalar a.
Inductive shaped : string -> pyval -> Prop :=
| sh_scalar n v : kept n = true -> scalar v -> shaped n v
| sh_comments l : Forall scalar l -> shaped "comment" (VList l)
| sh_users l : Forall user_item l -> shaped "user_defined" (VList l)
| sh_value n c vars : kept n = true -> valued vars -> shaped n (VObj c vars)
| sh_special n c vars : kept n = true -> ~ In "units" (map fst vars) -> special c vars -> shaped n (VObj c vars)
| sh_object n c vars : kept n = true -> ~ In "units" (map fst vars) -> mem_string c special_output_data_classes = false ->
    (forall m x, In (m, x) vars -> shaped m x) -> shaped n (VObj c vars)
| sh_list n l : kept n = true -> (forall x, In x l -> shaped n x /\ exists c vars, x = VObj c vars /\ ~ In "units" (map fst vars)) -> shaped n (VList l).

Section Back.
Variable u : env.

Lemma mem_string_in s l : mem_string s l = true <-> In s l.
Proof.
  unfold mem_string. rewrite existsb_exists. split; [intros [x [H E]]; apply String.eqb_eq in E; subst; exact H|intros H; exists s; split; [exact H|apply String.eqb_refl]].
Qed.
Lemma kept_spec n : kept n = true -> String.eqb n "comment" = false /\ String.eqb n "user_defined" = false.
Proof. unfold kept. intros H. apply andb_true_iff in H. destruct H as [A B]. apply negb_true_iff in A, B. auto. Qed.
Lemma scalar_str v : scalar v -> exists s, py_str v = Ok s.
Proof. destruct v; intros H; try destruct H; eexists; reflexivity. Qed.
Lemma map_res_total {A B} (f : A -> res B) l : (forall a, In a l -> exists b, f a = Ok b) -> exists bs, map_res f l = Ok bs /\ List.length bs = List.length l.
Proof.
  induction l as [|a l IH]; intros H; [exists []; split; reflexivity|]. destruct (H a (or_introl eq_refl)) as [b Hb]. destruct IH as [bs [Hbs Ln]]; [intros x Hx; apply H; right; exact Hx|].
  exists (b :: bs). cbn [map_res]. rewrite Hb. cbn [bind]. rewrite Hbs. cbn [bind List.length]. split; [reflexivity|congruence].
Qed.
Lemma fill_line_total l : l <> [] -> exists s, fill_out_single_line l = Ok s.
Proof. destruct l as [|x l]; [congruence|]. intros _. cbn. destruct (str_eqb x [c_nl]); eexists; reflexivity. Qed.
Lemma valued_get c vars : valued vars -> exists x, py_getattr (VObj c vars) "value" = Ok x /\ scalar x.
Proof. intros [x [un [Sx [Su [->|[p [a [m [s [-> _]]]]]]]]]]; exists x; split; try exact Sx; reflexivity. Qed.
Lemma value_line k c vars : valued vars -> (forall s, In ("units", VStr s) vars -> s = []) -> exists l, value_obj_line u k c vars = Ok l.
Proof.
  intros [x [un [Sx [Su V]]]] N. destruct (scalar_str x Sx) as [t Ht]. unfold value_obj_line.
  assert (Hu : forall ky : str, exists l, (do un0 <- Ok un; do v <- Ok x; do s <- py_str v;
     if truthy un0 then do y <- py_getattr un0 "value"; do us <- py_str y; Ok (fill_kvn u ky s (if truthy y then us else [])) else Ok (fill_kvn u ky s [])) = Ok l).
  { intros ky. cbn [bind]. rewrite Ht. cbn [bind]. destruct un as [|s| | |a m s| |]; try destruct Su; try (eexists; reflexivity).
    - assert (E : s = []) by (apply N; destruct V as [->|[p [a [m [s0 [-> _]]]]]]; cbn; auto). subst s. cbn [truthy]. eexists. reflexivity. }
  destruct V as [->|[p [a [m [s [-> [P1 P2]]]]]]].
  - cbn [map fst filter mem_string existsb String.eqb Ascii.eqb Bool.eqb orb negb bind]. exact (Hu (lit k)).
  - cbn [map fst]. assert (F : filter (fun k => negb (mem_string k ["value"; "units"])) ["value"; p; "units"] = [p]).
    { cbn. apply String.eqb_neq in P1, P2. rewrite P1, P2. reflexivity. }
    rewrite F. unfold dict_get. cbn [assoc]. replace (String.eqb "value" p) with false by (symmetry; apply String.eqb_neq; congruence).
    rewrite String.eqb_refl. cbn [guard_opt bind py_getattr String.eqb Ascii.eqb Bool.eqb assoc]. replace (String.eqb p "units") with false by (symmetry; apply String.eqb_neq; exact P2).
    cbn [bind]. exact (Hu s).
Qed.
Lemma user_line x : user_item x -> exists l, user_defined_line u "user_defined" x = Ok l.
Proof.
  intros [c [a [s [-> Sa]]]]. unfold user_defined_line. cbn [py_getattr assoc String.eqb Ascii.eqb Bool.eqb bind]. destruct (scalar_str a Sa) as [t Ht].
  destruct (truthy a); [rewrite Ht|]; cbn [bind]; eexists; reflexivity.
Qed.
Lemma flat_value vars n x y : flat vars -> In (n, x) vars -> py_getattr x "value" = Ok y -> scalar y.
Proof.
  intros F I H. destruct (F n x I) as [S|[[c [vs [-> V]]]|[l [-> _]]]]; [| |discriminate].
  - destruct x; try discriminate; try destruct S. cbn in H. injection H as <-. exact Logic.I.
  - destruct (valued_get c vs V) as [z [Hz Sz]]. rewrite Hz in H. injection H as <-. exact Sz.
Qed.
Lemma state_total vars : flat vars -> (forall n l, ~ In (n, VList l) vars) -> (exists n x, In (n, x) vars /\ truthy x = true) -> exists ls, state_vector_line vars = Ok ls.
Proof.
  intros F NL [n0 [x0 [I0 T0]]]. unfold state_vector_line.
  destruct (map_res_total (fun v => py_str (value_or_self v)) (filter truthy (map snd vars))) as [bs [-> Ln]].
  { intros v Hv. apply filter_In in Hv. destruct Hv as [Hv _]. apply in_map_iff in Hv. destruct Hv as [[n x] [E I]]. cbn in E. subst x. apply scalar_str. unfold value_or_self.
    destruct (py_getattr v "value") as [y|] eqn:G; [exact (flat_value _ _ _ _ F I G)|]. destruct (F n v I) as [S|[[c [vs [-> V]]]|[l [-> _]]]]; [exact S| |destruct (NL _ _ I)].
    destruct (valued_get c vs V) as [z [Hz _]]. congruence. }
  cbn [bind]. destruct (fill_line_total bs) as [s ->]; [|eexists; reflexivity]. intros ->. cbn in Ln.
  assert (X : In x0 (filter truthy (map snd vars))) by (apply filter_In; split; [apply in_map_iff; exists (n0, x0); auto|exact T0]).
  destruct (filter truthy (map snd vars)); [destruct X|discriminate].
Qed.
Lemma rows_total : forall fuel n vals, List.length vals < fuel -> 1 <= n -> exists rs, cov_rows fuel n vals = Ok rs.
Proof.
  induction fuel as [|f IH]; intros n vals L N; [lia|]. cbn [cov_rows]. destruct (Nat.ltb (List.length vals) n) eqn:E; [eexists; reflexivity|]. apply Nat.ltb_ge in E.
  destruct (fill_line_total (firstn n vals)) as [s ->].
  { intros X. apply (f_equal (@List.length str)) in X. rewrite firstn_length in X. cbn in X. lia. }
  cbn [bind]. destruct (IH (S n) (skipn n vals)) as [rs ->]; [rewrite skipn_length; lia|lia|]. eexists. reflexivity.
Qed.
Lemma filter_map_from {A B} (f : A -> option B) l b : In b (filter_map f l) -> exists a, In a l /\ f a = Some b.
Proof.
  induction l as [|a l IH]; [intros []|]. cbn [filter_map]. destruct (f a) as [x|] eqn:E.
  - intros [<-|H]; [exists a; split; [left; reflexivity|exact E]|]. destruct (IH H) as [y [Y1 Y2]]. exists y. split; [right; exact Y1|exact Y2].
  - intros H. destruct (IH H) as [y [Y1 Y2]]. exists y. split; [right; exact Y1|exact Y2].
Qed.
Lemma assoc_in {A} n (vars : list (string * A)) x : assoc n vars = Some x -> In (n, x) vars.
Proof.
  induction vars as [|[k y] vars IH]; [discriminate|]. cbn [assoc]. destruct (String.eqb k n) eqn:E; [|intros H; right; exact (IH H)].
  apply String.eqb_eq in E. subst k. intros H. injection H as <-. left. reflexivity.
Qed.
Lemma cov_total key c vars : flat vars -> (exists l, assoc "comment" vars = Some (VList l)) ->
  (exists x, assoc "epoch" vars = Some x /\ scalar x) -> (exists x, assoc "cov_ref_frame" vars = Some x /\ scalar x) ->
  exists ls, covariance_lines u key (VObj c vars) vars = Ok ls.
Proof.
  intros F [l El] [x [Ex Sx]] [y [Ey Sy]]. unfold covariance_lines, py_getattr at 1 2 3. rewrite El, Ex, Ey. cbn [bind py_iter].
  destruct (map_res_total (fun c => do s <- py_str c; Ok (fill_kvn u (lit key) s [])) l) as [cl [-> _]].
  { intros a Ha. destruct (F "comment" (VList l) (assoc_in _ _ _ El)) as [[]|[[c0 [vs [X _]]]|[l0 [X Fs]]]]; [discriminate|]. injection X as <-.
    rewrite Forall_forall in Fs. destruct (scalar_str a (Fs a Ha)) as [s ->]. eexists. reflexivity. }
  cbn [bind]. destruct (scalar_str x Sx) as [sx ->]. cbn [bind]. destruct (scalar_str y Sy) as [sy Hy].
  assert (Hf : exists fl, (if truthy y then do s <- py_str y; Ok [fill_kvn u (lit "cov_ref_frame") s []] else Ok []) = Ok fl).
  { rewrite Hy. destruct (truthy y); eexists; reflexivity. }
  destruct Hf as [fl ->]. cbn [bind].
  destruct (map_res_total py_str (filter_map (fun kv => match py_getattr (snd kv) "value" with Ok x => Some x | Err _ => None end) vars)) as [vals [-> _]].
  { intros a Ha. apply filter_map_from in Ha. destruct Ha as [[n w] [I Hw]]. cbn [snd] in Hw. destruct (py_getattr w "value") as [z|] eqn:G; [|discriminate].
    injection Hw as <-. apply scalar_str. exact (flat_value _ _ _ _ F I G). }
  cbn [bind]. destruct (rows_total (S (List.length vals)) 1 vals) as [rs ->]; [lia|lia|]. eexists. reflexivity.
Qed.
Lemma tracking_total vars : (exists x, assoc "epoch" vars = Some x /\ scalar x) -> (exists n d, In (n, VDec d) vars /\ n <> "epoch") ->
  exists ls, tracking_line u vars = Ok ls.
Proof.
  intros [x [Ex Sx]] [n [d [I N]]]. unfold tracking_line.
  set (g := fun kv : string * pyval => match snd kv with VDec d => if String.eqb (fst kv) "epoch" then None else Some (fst kv, d) | _ => None end).
  assert (Hg : filter_map g vars <> []).
  { intros X. assert (Y : In (n, d) (filter_map g vars)).
    { clear - I N. induction vars as [|a vars IH]; [destruct I|]. cbn [filter_map]. destruct I as [->|I].
      - unfold g at 1. cbn [snd fst]. apply String.eqb_neq in N. rewrite N. left. reflexivity.
      - destruct (g a); [right|]; exact (IH I). }
    rewrite X in Y. destruct Y. }
  destruct (filter_map g vars) as [|kv r]; [congruence|]. cbn [get nth_error guard_opt bind]. unfold dict_get. rewrite Ex. cbn [guard_opt bind].
  destruct (scalar_str x Sx) as [s ->]. eexists. reflexivity.
Qed.
Lemma special_total k c vars out : special c vars -> ~ no_number (VObj c vars) -> exists ls, special_data_lines u k c vars out = Ok ls.
Proof.
  intros [[-> [F [NL T]]]|[[-> [F [A [B C]]]]|[-> E]]] NN; unfold special_data_lines; cbn [String.eqb Ascii.eqb Bool.eqb].
  - exact (state_total vars F NL T).
  - exact (cov_total k _ vars F A B C).
  - apply tracking_total; [exact E|].
    assert (D : (exists n d, In (n, VDec d) vars /\ n <> "epoch") \/ forall n d, In (n, VDec d) vars -> n = "epoch").
    { clear. induction vars as [|[k v] vars IH]; [right; intros n d []|]. destruct IH as [[n [d [I N]]]|IH]; [left; exists n, d; split; [right; exact I|exact N]|].
      destruct (String.eqb k "epoch") eqn:Ek; [apply String.eqb_eq in Ek|apply String.eqb_neq in Ek].
      - right. intros n d [X|X]; [injection X as <- _; exact Ek|exact (IH n d X)].
      - destruct v as [| | |d| | |]; try (right; intros n d' [X|X]; [discriminate X|exact (IH n d' X)]). left. exists k, d. split; [left; reflexivity|exact Ek]. }
    destruct D as [D|D]; [exact D|]. exfalso. apply NN. exists vars. split; [constructor|exact D].
Qed.
Definition well_off (v : pyval) : Prop := ~ odd_unit v /\ ~ no_number v.
Lemma well_attr c vars n x : well_off (VObj c vars) -> In (n, x) vars -> well_off x.
Proof.
  intros [A B] I. split.
  - intros [c0 [vs [s [H X]]]]. apply A. exists c0, vs, s. split; [eapply inside_attr; eassumption|exact X].
  - intros [vs [H X]]. apply B. exists vs. split; [eapply inside_attr; eassumption|exact X].
Qed.
Lemma well_item l x : well_off (VList l) -> In x l -> well_off x.
Proof.
  intros [A B] I. split.
  - intros [c0 [vs [s [H X]]]]. apply A. exists c0, vs, s. split; [eapply inside_item; eassumption|exact X].
  - intros [vs [H X]]. apply B. exists vs. split; [eapply inside_item; eassumption|exact X].
Qed.
Lemma well_units c vars s : well_off (VObj c vars) -> In ("units", VStr s) vars -> s = [].
Proof.
  intros [A _] I. destruct s as [|a s]; [reflexivity|]. exfalso. apply A. exists c, vars, (a :: s). split; [constructor|]. split; [exact I|discriminate].
Qed.
Lemma vars_total f vars : (forall n x out, In (n, x) vars -> exists o, f n x out = Ok o) -> forall out, exists o, collate_vars f vars out = Ok o.
Proof.
  induction vars as [|[n x] vars IH]; intros H out; [eexists; reflexivity|]. cbn [collate_vars]. destruct (H n x out (or_introl eq_refl)) as [o ->].
  apply IH. intros m y o' I. apply H. right. exact I.
Qed.
Lemma in_units vars : mem_string "units" (map fst (vars : list (string * pyval))) = false <-> ~ In "units" (map fst vars).
Proof. rewrite <- mem_string_in. destruct (mem_string _ _); split; congruence. Qed.
Lemma special_class c vars : special c vars -> mem_string c special_output_data_classes = true.
Proof. intros [[-> _]|[[-> _]|[-> _]]]; reflexivity. Qed.
Definition written (v : pyval) : Prop := forall n, shaped n v -> well_off v -> forall out, exists o, collate_sub u n v out = Ok o.
Definition body_written (v : pyval) : Prop := match v with VObj c vars => Forall (fun kv => written (snd kv)) vars | _ => True end.
Lemma all_written v : written v /\ body_written v.
Proof.
  induction v as [|s|z|d|c m s|c vars F|l F] using pyval_ind'; (split; [|first [exact Logic.I|idtac]]).
  7: { eapply Forall_impl; [|exact F]. intros a [X _]. exact X. }
  1-5: intros n H W out; inversion H as [n0 v0 K S| | | | | |]; subst; destruct (kept_spec _ K) as [K1 K2]; cbn [collate_sub]; rewrite ?K1, ?K2; cbn [orb bind]; eexists; reflexivity.
  - intros n H W out. cbn [collate_sub]. set (hdr := fun b : bool => if mem_string c special_output_header_classes then [special_header c b; []] else []).
    assert (Fw : Forall (fun kv => written (snd kv)) vars) by (eapply Forall_impl; [|exact F]; intros a [X _]; exact X). rewrite Forall_forall in Fw. clear F.
    inversion H as [n0 v0 K S| | |n0 c0 vs K V|n0 c0 vs K Nu S|n0 c0 vs K Nu Ns Sh|]; subst; [destruct S| | |]; destruct (kept_spec _ K) as [K1 K2]; rewrite K1.
    + replace (mem_string "units" (map fst vars)) with true.
      2: { symmetry. apply mem_string_in. destruct V as [x [un [_ [_ [->|[p [a [m [s [-> _]]]]]]]]]]; cbn; auto. }
      destruct (value_line n c vars V (fun s I => well_units c vars s W I)) as [l ->]. cbn [bind]. eexists. reflexivity.
    + rewrite (proj2 (in_units vars) Nu), K2, (special_class _ _ S). destruct (special_total n c vars (out ++ hdr true) S (proj2 W)) as [ls Hl]. unfold hdr in Hl. rewrite Hl. cbn [bind].
      eexists. reflexivity.
    + rewrite (proj2 (in_units vars) Nu), K2, Ns. edestruct (vars_total (collate_sub u) vars) as [o Ho]; [|rewrite Ho; cbn [bind]; eexists; reflexivity].
      intros m x o I. apply (Fw (m, x) I); [exact (Sh m x I)|exact (well_attr _ _ _ _ W I)].
  - intros n H W out. cbn [collate_sub]. rewrite app_nil_r.
    inversion H as [n0 v0 K S|l0 Fs|l0 Fu| | | |n0 l0 K Hl]; subst; [destruct S| | |].
    + cbn [String.eqb Ascii.eqb Bool.eqb].
      destruct (map_res_total (fun x => do s <- py_str x; Ok (fill_kvn u (lit "comment") s [])) l) as [ls [-> _]]; [|cbn [bind]; eexists; reflexivity].
      intros a Ha. rewrite Forall_forall in Fs. destruct (scalar_str a (Fs a Ha)) as [s ->]. eexists. reflexivity.
    + cbn [String.eqb Ascii.eqb Bool.eqb].
      destruct (map_res_total (user_defined_line u "user_defined") l) as [ls [-> _]]; [|cbn [bind]; eexists; reflexivity].
      intros a Ha. rewrite Forall_forall in Fu. exact (user_line a (Fu a Ha)).
    + destruct (kept_spec _ K) as [K1 K2]. rewrite K1, K2.
      set (items := fix items (l : list pyval) (out : list str) : res (list str) :=
                    match l with
                    | [] => Ok out
                    | VObj c vars :: r =>
                      do o <- (if mem_string c special_output_data_classes then do ls <- special_data_lines u n c vars out; Ok (out ++ ls)
                               else do o <- collate_vars (collate_sub u) vars out; Ok (close_section n vars o));
                      items r o
                    | _ :: _ => Err TypeError
                    end).
      assert (It : forall o0, exists o, items l o0 = Ok o).
      { clear H. induction F as [|x l [_ Bx] F IH]; intros o0; [eexists; reflexivity|].
        destruct (Hl x (or_introl eq_refl)) as [Sx [c [vars [-> Nu]]]]. change (items (VObj c vars :: l) o0) with (do o <- (if mem_string c special_output_data_classes then do ls <- special_data_lines u n c vars o0; Ok (o0 ++ ls) else do o <- collate_vars (collate_sub u) vars o0; Ok (close_section n vars o)); items l o). cbn [body_written] in Bx. rewrite Forall_forall in Bx.
        pose proof (well_item _ _ W (or_introl eq_refl)) as Wx.
        assert (T : forall o1, exists o2, items l o1 = Ok o2).
        { apply IH; [|intros y Hy; apply Hl; right; exact Hy]. destruct W as [W1 W2]. split.
          - intros [c1 [vs [s [I X]]]]. apply W1. exists c1, vs, s. split; [|exact X]. inversion I as [|? ? ? ? I1 I2|y l0 I1 I2]; subst. eapply inside_item; [right; exact I1|exact I2].
          - intros [vs [I X]]. apply W2. exists vs. split; [|exact X]. inversion I as [|? ? ? ? I1 I2|y l0 I1 I2]; subst. eapply inside_item; [right; exact I1|exact I2]. }
        inversion Sx as [n0 v0 K' S| | |n0 c0 vs K' V|n0 c0 vs K' Nu' S|n0 c0 vs K' Nu' Ns Sh|]; subst; [destruct S| | |].
        - exfalso. apply Nu. destruct V as [y [un [_ [_ [->|[p [a [m [s [-> _]]]]]]]]]]; cbn; auto.
        - rewrite (special_class _ _ S). destruct (special_total n c vars o0 S (proj2 Wx)) as [ls ->]. cbn [bind]. apply T.
        - rewrite Ns. destruct (vars_total (collate_sub u) vars) with (out := o0) as [o Ho]; [|rewrite Ho; cbn [bind]; apply T].
          intros m y o I. apply (Bx (m, y) I); [exact (Sh m y I)|exact (well_attr _ _ _ _ Wx I)]. }
      cbv zeta. match goal with |- context [bind (?f l ?o0) _] => destruct (It o0) as [o Ho]; change (f l o0) with (items l o0); rewrite Ho end. cbn [bind]. eexists. reflexivity.
Qed.
End Back.
