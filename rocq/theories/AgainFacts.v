(* A message that fits the schema and has nothing blank or misleading in it is well formed. *)
From Coq Require Import NArith ZArith List Bool String Arith Lia.
From Verif Require Import PyStr PyDec PyVal Schema KvnPre KvnTree KvnSeg XmlBind KvnBuild KvnWrite Spec SpecKvn SpecObj SpecMsg SpecNum SpecBack SpecSchema SpecAgain
     DecFacts StrFacts.
Import ListNotations.
Local Open Scope string_scope.
Local Open Scope list_scope.
Local Arguments find_class : simpl never.
Local Arguments lit : simpl never.

Lemma members_each fs vars : members fs vars -> Forall2 (fun f kv => fst kv = f_name f /\ holds f (snd kv)) (init_fields fs) vars.
Proof.
  revert vars. induction fs as [|f fs IH]; intros vars M; inversion M as [|? ? ? X M'|? ? w vs X Hw M']; subst; unfold init_fields; cbn [filter]; [constructor| |].
  - destruct (f_fixed f); [exact (IH _ M')|congruence].
  - rewrite X. constructor; [split; [reflexivity|exact Hw]|exact (IH _ M')].
Qed.
Lemma object_fields c x : conforms (TCls c) x -> forall c' vars, x = VObj c' vars -> c' = c /\ Forall2 (fun f kv => fst kv = f_name f /\ holds f (snd kv)) (init_fields (fields_of c)) vars.
Proof.
  intros C c' vars ->. inversion C as [| | | | | | |? m fs ? F M]; subst. split; [reflexivity|]. unfold fields_of. rewrite F. apply members_each. exact M.
Qed.

Definition plain_field (f : field) : bool :=
  match f_fixed f with None => true | _ => false end &&
  (if f_list f then String.eqb (f_name f) "comment" && match f_ty f with TStr => true | _ => false end
   else negb (String.eqb (f_name f) "units") &&
     match f_ty f with
     | TCls c => match find_class c with
                 | Some (CEnum _) => true
                 | Some (CData _ [fv; fu]) =>
                   negb (String.eqb c "UserDefinedParameterType") && String.eqb (f_name fv) "value" && String.eqb (f_name fu) "units" &&
                   match f_fixed fv, f_fixed fu with None, None => true | _, _ => false end && negb (f_list fv) && negb (f_list fu) &&
                   match f_ty fv with TDec => true | _ => false end && match f_ty fu with TCls c' => match find_class c' with Some (CEnum _) => true | _ => false end | _ => false end
                 | _ => false
                 end
     | _ => true
     end).
Definition plain_class (c : string) : bool := forallb plain_field (fields_of c) && negb (String.eqb c "UserDefinedParameterType").
Lemma sections_plain c : In c section_classes -> plain_class c = true.
Proof. apply forallb_forall. vm_compute. reflexivity. Qed.

Lemma inside_trans x y z : inside x y -> inside y z -> inside x z.
Proof. intros H. induction 1; [exact H|eapply inside_attr; eassumption|eapply inside_item; eassumption]. Qed.
Lemma inside_var c vars n x : In (n, x) vars -> inside x (VObj c vars).
Proof. intros H. eapply inside_attr; [exact H|constructor]. Qed.
Lemma tidy_inside v w : tidy v -> inside w v -> tidy w.
Proof. intros T I c vars I' N. apply (T c vars); [exact (inside_trans _ _ _ I' I)|exact N]. Qed.
Ltac bools := repeat match goal with H : _ && _ = true |- _ => apply andb_true_iff in H; destruct H
  | H : negb _ = true |- _ => apply negb_true_iff in H | H : String.eqb _ _ = true |- _ => apply String.eqb_eq in H | H : String.eqb _ _ = false |- _ => apply String.eqb_neq in H end.

Lemma each_texts l : each TStr l -> (forall x, In x l -> (exists s, x = VStr s /\ good_text s) \/ exists c' vars', x = VObj c' vars') -> exists ts, l = map VStr ts /\ Forall good_text ts.
Proof.
  induction l as [|x l IH]; intros E H; [exists []; split; [reflexivity|constructor]|].
  destruct (H x (or_introl eq_refl)) as [[s [-> G]]|[c' [vs ->]]].
  - inversion E as [|? ? E'|? ? ? C E']; subst. destruct (IH E') as [ts [-> F]]; [intros y Hy; apply H; right; exact Hy|]. exists (s :: ts). split; [reflexivity|constructor; assumption].
  - inversion E as [|? ? E'|? ? ? C E']; subst. inversion C.
Qed.
Lemma field_ok c vars f x : plain_field f = true -> In f (fields_of c) -> c <> "UserDefinedParameterType" -> tidy (VObj c vars) -> In (f_name f, x) vars -> holds f x -> wf_field f x.
Proof.
  intros P If Nc T I H. destruct (T c vars (inside_here _) Nc) as [_ [Ts [Tl _]]]. unfold plain_field in P. apply andb_true_iff in P. destruct P as [_ P].
  inversion H as [? L|? ? L C|? l L E]; subst.
  - apply wf_absent. exact L.
  - rewrite L in P. apply andb_true_iff in P. destruct P as [Nu P]. apply wf_present; [exact L|].
    assert (Tx : forall s, x = VStr s -> text_fits c (f_name f) s) by (intros s ->; apply (Ts _ _ I)).
    inversion C as [s Et|z Et|s X Et|d X Et|s X Et|k ms m v X Y Et|k ms s X Y Et|k m fs vs X Y Et]; subst.
    + apply wf_simple. constructor. apply (Tx s eq_refl).
    + apply wf_simple. constructor.
    + apply wf_simple. destruct (Tx s eq_refl) as [G [_ Nn]]. apply wf_odd_int; [exact G|]. apply (Nn f If eq_refl). right. symmetry. exact Et.
    + apply wf_simple. constructor. exact X.
    + apply wf_simple. destruct (Tx s eq_refl) as [G [_ Nn]]. apply wf_odd_dec; [exact G|]. apply (Nn f If eq_refl). left. symmetry. exact Et.
    + apply wf_simple. econstructor; eassumption.
    + apply wf_simple. destruct (Tx s eq_refl) as [G _]. eapply wf_odd_enum; [exact X|exact G|exact Y].
    + rewrite <- Et, X in P. destruct fs as [|fv [|fu [|? ?]]]; try discriminate. bools.
      destruct (f_fixed fv) eqn:Xv; [discriminate|]. destruct (f_fixed fu) eqn:Xu; [discriminate|]. destruct (f_ty fv) eqn:Tv; try discriminate. destruct (f_ty fu) as [| | |uc] eqn:Tu; try discriminate.
      destruct (find_class uc) as [[? ?|us]|] eqn:Fu; try discriminate.
      inversion Y as [|? ? ? Z|? ? a va _ Ha Ya]; subst; [congruence|]. inversion Ya as [|? ? ? Z|? ? b vb _ Hb Yb]; subst; [congruence|]. inversion Yb; subst.
      assert (Ik : inside (VObj k [(f_name fv, a); (f_name fu, b)]) (VObj c vars)) by (eapply inside_var; exact I).
      destruct (T k _ Ik ltac:(assumption)) as [Tv0 [Tv1 _]].
      assert (Wa : wf_amount a).
      { inversion Ha as [|? ? _ Ca|? ? La]; subst; [|rewrite Tv in Ca; inversion Ca as [| | |d Cd|s Cd| | |]; subst|congruence].
        - exfalso. apply Tv0. left. congruence.
        - constructor. exact Cd.
        - destruct (Tv1 (f_name fv) s (or_introl eq_refl)) as [G [_ Nn]]. destruct (Nn fv) as [N1 N2]; [unfold fields_of; rewrite X; left; reflexivity|reflexivity|left; exact Tv|]. apply wf_amount_odd; assumption. }
      assert (Wb : b = VNone \/ wf_unit (f_ty fu) b).
      { inversion Hb as [|? ? _ Cb|? ? Lb]; subst; [left; reflexivity| |congruence]. rewrite Tu in Cb. inversion Cb as [| | | | |? ms' m' v' X1 X2|? ms' s X1 X2|? m' fs' vs' X1 X2]; subst.
        - right. exists uc, ms', m', v'. rewrite Tu. auto.
        - exfalso. destruct (Tv1 (f_name fu) s) as [_ [N _]]; [right; left; reflexivity|]. apply N. assumption.
        - congruence. }
      match goal with H : f_name fv = "value" |- _ => rewrite H end. match goal with H : f_name fu = "units" |- _ => rewrite H end.
      destruct Wb as [->|Wb]; [eapply wf_number; eassumption|eapply wf_quantity; eassumption].
  - rewrite L in P. apply andb_true_iff in P. destruct P as [_ P]. destruct (f_ty f) eqn:Et; try discriminate. destruct (each_texts l E) as [ts [-> F]]; [intros y Hy; exact (Tl _ _ _ I Hy)|]. apply wf_comments; assumption.
Qed.
Lemma fields_ok c vars fs vs : forallb plain_field fs = true -> (forall f, In f fs -> In f (fields_of c)) -> (forall kv, In kv vs -> In kv vars) -> c <> "UserDefinedParameterType" -> tidy (VObj c vars) ->
  Forall2 (fun f kv => fst kv = f_name f /\ holds f (snd kv)) (init_fields fs) vs -> wf_vars fs vs.
Proof.
  intros P Sub Sv Nc T. assert (E : init_fields fs = fs).
  { clear Sub. induction fs as [|f fs IH]; [reflexivity|]. cbn [forallb] in P. apply andb_true_iff in P. destruct P as [P1 P2]. unfold init_fields. cbn [filter]. unfold plain_field in P1. destruct (f_fixed f); [discriminate|]. f_equal. exact (IH P2). }
  rewrite E. clear E. rewrite forallb_forall in P. unfold wf_vars. revert vs Sv. induction fs as [|f fs IH]; intros vs Sv F; inversion F as [|? [n x] ? vs' [En H] F']; subst; constructor.
  - cbn [fst snd] in *. split; [exact En|]. subst n. apply (field_ok c vars f x); [apply P; left; reflexivity|apply Sub; left; reflexivity|exact Nc|exact T|apply Sv; left; reflexivity|exact H].
  - apply IH; [intros g Hg; apply P; right; exact Hg|intros g Hg; apply Sub; right; exact Hg|intros kv Hkv; apply Sv; right; exact Hkv|exact F'].
Qed.
Lemma section_ok c vars : In c section_classes -> conforms (TCls c) (VObj c vars) -> tidy (VObj c vars) -> section c (VObj c vars).
Proof.
  intros Ic C T. pose proof (sections_plain c Ic) as P. unfold plain_class in P. apply andb_true_iff in P. destruct P as [P Nc]. apply negb_true_iff, String.eqb_neq in Nc.
  destruct (object_fields c _ C c vars eq_refl) as [_ F]. exists vars. split; [reflexivity|]. split; [|destruct (T c vars (inside_here _) Nc) as [_ [_ [_ S]]]; exact (S Ic)].
  apply (fields_ok c vars); auto.
Qed.
Lemma holds_section f c x : f_ty f = TCls c -> f_list f = false -> In c section_classes -> holds f x -> tidy x -> opt_section c x.
Proof.
  intros Et L Ic H T. inversion H as [|? ? _ C|? ? L']; subst; [left; reflexivity|right|congruence]. rewrite Et in C.
  inversion C as [| | | | |? ms m v X1 X2|? ms s X1 X2|? m fs vs X1 X2]; subst; [| |apply section_ok; assumption].
  all: exfalso; assert (B : forallb (fun c => match find_class c with Some (CEnum _) => false | _ => true end) section_classes = true) by (vm_compute; reflexivity);
    rewrite forallb_forall in B; specialize (B c Ic); rewrite X1 in B; discriminate.
Qed.
