(* Which exceptions the writer raises on the shape of BackFacts, and why. *)
From Coq Require Import NArith ZArith List Bool String Arith Lia.
From Verif Require Import PyStr PyDec PyVal Schema KvnWrite SpecBack StrFacts SegFacts WriteFacts BackFacts.
Import ListNotations.
Local Open Scope string_scope.
Local Open Scope list_scope.

Definition blame (v : pyval) (e : exn) : Prop := (e = AttributeError /\ odd_unit v) \/ (e = IndexError /\ no_number v).
Definition fair {A} (v : pyval) (r : res A) : Prop := forall e, r = Err e -> blame v e.
Lemma fair_ok {A} v (r : res A) : (exists a, r = Ok a) -> fair v r. Proof. intros [a ->] e. discriminate. Qed.
Lemma fair_bind {A B} v (r : res A) (f : A -> res B) : fair v r -> (forall a, r = Ok a -> fair v (f a)) -> fair v (bind r f).
Proof. intros H K e. destruct r as [a|x]; cbn [bind]; [apply K; reflexivity|]. intros E. injection E as <-. apply H. reflexivity. Qed.
Lemma fair_up {A} v w (r : res A) : (forall x, inside x w -> inside x v) -> fair w r -> fair v r.
Proof.
  intros I H e E. destruct (H e E) as [[-> [c [vars [s [J X]]]]]|[-> [vars [J X]]]]; [left|right]; (split; [reflexivity|]); [exists c, vars, s|exists vars]; (split; [apply I; exact J|exact X]).
Qed.
Section Errs.
Variable u : env.
Lemma value_fair k c vars : valued vars -> fair (VObj c vars) (value_obj_line u k c vars).
Proof.
  intros V. assert (D : (exists s, In ("units", VStr s) vars /\ s <> []) \/ forall s, In ("units", VStr s) vars -> s = []).
  { destruct V as [x [un [_ [_ V]]]]. destruct un as [|[|a s]| | | | |].
    3: left; exists (a :: s); split; [destruct V as [->|[p [b [m [t [-> _]]]]]]; cbn; auto|discriminate].
    all: right; destruct V as [->|[p [b [m [t [-> [P1 P2]]]]]]]; cbn; intros s H; intuition congruence. }
  destruct D as [[s [I N]]|D]; [|apply fair_ok; exact (value_line u k c vars V D)].
  intros e E. left. split; [|exists c, vars, s; split; [constructor|split; assumption]].
  destruct V as [x [un [Sx [_ V]]]]. destruct (scalar_str x Sx) as [t Ht].
  assert (Eu : un = VStr s) by (destruct V as [->|[p [b [m [z [-> [P1 P2]]]]]]]; cbn in I; intuition congruence). subst un.
  assert (Hu : forall ky : str, (do un0 <- Ok (VStr s); do v <- Ok x; do s0 <- py_str v;
     if truthy un0 then do y <- py_getattr un0 "value"; do us <- py_str y; Ok (fill_kvn u ky s0 (if truthy y then us else [])) else Ok (fill_kvn u ky s0 [])) = Err AttributeError).
  { intros ky. cbn [bind]. rewrite Ht. cbn [bind truthy]. destruct s; [congruence|reflexivity]. }
  unfold value_obj_line in E. destruct V as [->|[p [a [m [z [-> [P1 P2]]]]]]].
  - cbn [map fst filter mem_string existsb String.eqb Ascii.eqb Bool.eqb orb negb bind] in E. change (_ = Err e) with ((do un0 <- Ok (VStr s); do v <- Ok x; do s0 <- py_str v;
     if truthy un0 then do y <- py_getattr un0 "value"; do us <- py_str y; Ok (fill_kvn u (lit k) s0 (if truthy y then us else [])) else Ok (fill_kvn u (lit k) s0 [])) = Err e) in E.
    rewrite Hu in E. congruence.
  - cbn [map fst] in E. assert (F : filter (fun k => negb (mem_string k ["value"; "units"])) ["value"; p; "units"] = [p]).
    { cbn. apply String.eqb_neq in P1, P2. rewrite P1, P2. reflexivity. }
    rewrite F in E. unfold dict_get in E. cbn [assoc] in E. replace (String.eqb "value" p) with false in E by (symmetry; apply String.eqb_neq; congruence).
    rewrite String.eqb_refl in E. cbn [guard_opt bind py_getattr String.eqb Ascii.eqb Bool.eqb assoc] in E. replace (String.eqb p "units") with false in E by (symmetry; apply String.eqb_neq; exact P2).
    cbn [bind] in E. change (_ = Err e) with ((do un0 <- Ok (VStr s); do v <- Ok x; do s0 <- py_str v;
     if truthy un0 then do y <- py_getattr un0 "value"; do us <- py_str y; Ok (fill_kvn u z s0 (if truthy y then us else [])) else Ok (fill_kvn u z s0 [])) = Err e) in E.
    rewrite Hu in E. congruence.
Qed.
Lemma special_fair k c vars out : special c vars -> fair (VObj c vars) (special_data_lines u k c vars out).
Proof.
  intros S. assert (D : (exists n d, In (n, VDec d) vars /\ n <> "epoch") \/ forall n d, In (n, VDec d) vars -> n = "epoch").
  { clear. induction vars as [|[k v] vars IH]; [right; intros n d []|]. destruct IH as [[n [d [I N]]]|IH]; [left; exists n, d; split; [right; exact I|exact N]|].
    destruct (String.eqb k "epoch") eqn:Ek; [apply String.eqb_eq in Ek|apply String.eqb_neq in Ek].
    - right. intros n d [X|X]; [injection X as <- _; exact Ek|exact (IH n d X)].
    - destruct v as [| | |d| | |]; try (right; intros n d' [X|X]; [discriminate X|exact (IH n d' X)]). left. exists k, d. split; [left; reflexivity|exact Ek]. }
  destruct S as [[-> [F [NL T]]]|[[-> [F [A [B C]]]]|[-> E]]]; unfold special_data_lines; cbn [String.eqb Ascii.eqb Bool.eqb].
  - apply fair_ok. exact (state_total vars F NL T).
  - apply fair_ok. exact (cov_total u k _ vars F A B C).
  - destruct D as [D|D]; [apply fair_ok; exact (tracking_total u vars E D)|]. intros e H. right. split; [|exists vars; split; [constructor|exact D]].
    unfold tracking_line in H. match type of H with bind (get ?l 0) _ = _ => destruct l as [|[n d] r] eqn:El end; [cbn in H; congruence|]. exfalso.
    assert (X : In (n, d) ((n, d) :: r)) by (left; reflexivity). rewrite <- El in X. apply filter_map_from in X. destruct X as [[n1 x] [I X]]. cbn [snd fst] in X. destruct x; try discriminate.
    rewrite (D n1 d0 I) in X. discriminate.
Qed.
Lemma vars_fair v f vars : (forall n x out, In (n, x) vars -> fair v (f n x out)) -> forall out, fair v (collate_vars f vars out).
Proof.
  induction vars as [|[n x] vars IH]; intros H out; [apply fair_ok; eexists; reflexivity|]. cbn [collate_vars]. pose proof (H n x out (or_introl eq_refl)) as Hx.
  destruct (f n x out) as [o|e]; [|intros e' E; injection E as <-; apply Hx; reflexivity]. apply IH. intros m y o' I. apply H. right. exact I.
Qed.
Definition wfair (v : pyval) : Prop := forall n, shaped n v -> forall out, fair v (collate_sub u n v out).
Definition body_fair (v : pyval) : Prop := match v with VObj c vars => Forall (fun kv => wfair (snd kv)) vars | _ => True end.
Lemma all_fair v : wfair v /\ body_fair v.
Proof.
  induction v as [|s|z|d|c m s|c vars F|l F] using pyval_ind'; (split; [|first [exact Logic.I|idtac]]).
  7: { eapply Forall_impl; [|exact F]. intros a [X _]. exact X. }
  1-5: intros n H out; inversion H as [n0 v0 K S| | | | | |]; subst; destruct (kept_spec _ K) as [K1 K2]; apply fair_ok; cbn [collate_sub]; rewrite ?K1, ?K2; cbn [orb bind]; eexists; reflexivity.
  - intros n H out. cbn [collate_sub]. apply fair_bind; [|intros; apply fair_ok; eexists; reflexivity].
    assert (Fw : Forall (fun kv => wfair (snd kv)) vars) by (eapply Forall_impl; [|exact F]; intros a [X _]; exact X). rewrite Forall_forall in Fw. clear F.
    inversion H as [n0 v0 K S| | |n0 c0 vs K V|n0 c0 vs K Nu S|n0 c0 vs K Nu Ns Sh|]; subst; [destruct S| | |]; destruct (kept_spec _ K) as [K1 K2]; rewrite K1.
    + replace (mem_string "units" (map fst vars)) with true.
      2: { symmetry. apply mem_string_in. destruct V as [x [un [_ [_ [->|[p [a [m [s [-> _]]]]]]]]]]; cbn; auto. }
      apply fair_bind; [apply value_fair; exact V|intros; apply fair_ok; eexists; reflexivity].
    + rewrite (proj2 (in_units vars) Nu), K2, (special_class _ _ S). apply fair_bind; [apply special_fair; exact S|intros; apply fair_ok; eexists; reflexivity].
    + rewrite (proj2 (in_units vars) Nu), K2, Ns. apply fair_bind; [|intros; apply fair_ok; eexists; reflexivity].
      apply vars_fair. intros m x o I. eapply fair_up; [|apply (Fw (m, x) I); exact (Sh m x I)]. intros y Hy. eapply inside_attr; [exact I|exact Hy].
  - intros n H out. cbn [collate_sub]. rewrite app_nil_r. apply fair_bind; [|intros; apply fair_ok; eexists; reflexivity].
    inversion H as [n0 v0 K S|l0 Fs|l0 Fu| | | |n0 l0 K Hl]; subst; [destruct S| | |].
    + cbn [String.eqb Ascii.eqb Bool.eqb]. apply fair_ok.
      destruct (map_res_total (fun x => do s <- py_str x; Ok (fill_kvn u (lit "comment") s [])) l) as [ls [-> _]]; [|cbn [bind]; eexists; reflexivity].
      intros a Ha. rewrite Forall_forall in Fs. destruct (scalar_str a (Fs a Ha)) as [s ->]. eexists. reflexivity.
    + cbn [String.eqb Ascii.eqb Bool.eqb]. apply fair_ok.
      destruct (map_res_total (user_defined_line u "user_defined") l) as [ls [-> _]]; [|cbn [bind]; eexists; reflexivity].
      intros a Ha. rewrite Forall_forall in Fu. exact (user_line u a (Fu a Ha)).
    + destruct (kept_spec _ K) as [K1 K2]. rewrite K1, K2.
      set (items := fix items (l : list pyval) (out : list str) : res (list str) :=
                    match l with
                    | [] => Ok out
                    | VObj c vars :: r =>
                      do o <- (if mem_string c special_output_data_classes then do ls <- special_data_lines u n c vars out; Ok (out ++ ls)
                               else do o <- collate_vars (collate_sub u) vars out; Ok (close_section n vars o));
                      items r o
                    | _ :: _ => Err TypeError
                    end).
      assert (It : forall v, (forall x y, In y l -> inside x y -> inside x v) -> forall o0, fair v (items l o0)).
      { clear H. induction F as [|x l [_ Bx] F IH]; intros v Iv o0; [apply fair_ok; eexists; reflexivity|].
        destruct (Hl x (or_introl eq_refl)) as [Sx [c [vars [-> Nu]]]]. change (items (VObj c vars :: l) o0) with (do o <- (if mem_string c special_output_data_classes then do ls <- special_data_lines u n c vars o0; Ok (o0 ++ ls) else do o <- collate_vars (collate_sub u) vars o0; Ok (close_section n vars o)); items l o). cbn [body_fair] in Bx. rewrite Forall_forall in Bx.
        apply fair_bind; [|intros o1 _; apply IH; [intros y Hy; apply Hl; right; exact Hy|intros y z Hz Hy; apply (Iv y z); [right; exact Hz|exact Hy]]].
        apply fair_up with (w := VObj c vars); [intros y Hy; apply (Iv y _ (or_introl eq_refl) Hy)|].
        inversion Sx as [n0 v0 K' S| | |n0 c0 vs K' V|n0 c0 vs K' Nu' S|n0 c0 vs K' Nu' Ns Sh|]; subst; [destruct S| | |].
        - exfalso. apply Nu. destruct V as [y [un [_ [_ [->|[p [a [m [s [-> _]]]]]]]]]]; cbn; auto.
        - rewrite (special_class _ _ S). apply fair_bind; [apply special_fair; exact S|intros; apply fair_ok; eexists; reflexivity].
        - rewrite Ns. apply fair_bind; [|intros; apply fair_ok; eexists; reflexivity].
          apply vars_fair. intros m y o I. eapply fair_up; [|apply (Bx (m, y) I); exact (Sh m y I)]. intros z Hz. eapply inside_attr; [exact I|exact Hz]. }
      cbv zeta. apply fair_bind; [|intros; apply fair_ok; eexists; reflexivity].
      match goal with |- fair _ (?f l ?o0) => change (f l o0) with (items l o0) end. apply It. intros x y Hy Hx. eapply inside_item; [exact Hy|exact Hx].
Qed.
End Errs.
