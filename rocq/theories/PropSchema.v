(* C66: what is read fits the schema. *)
From Coq Require Import NArith ZArith List Bool String Arith Lia.
From Verif Require Import PyStr PyDec PyVal Schema KvnPre KvnTree KvnSeg XmlBind KvnBuild Spec SpecNum SpecBack SpecSchema
     DecFacts StrFacts PreFacts SegFacts BuildFacts ErrFacts ConformFacts PropSeg Demo.
Import ListNotations.
Local Open Scope string_scope.
Local Open Scope list_scope.

Theorem C66_conforms : forall u src v, empty_read u -> kvn_from_string u src = Ok v ->
  exists c vars, In c root_classes /\ v = VObj c vars /\ conforms (TCls c) v.
Proof.
  intros u src v Em H. unfold kvn_from_string in H. inv_ok H. rename a into ls. pose proof H as H'. unfold read_lines in H. inv_ok H. rename a into c.
  assert (Hin : In c root_classes).
  { unfold identify_data_type in E0. inv_ok E0. inv_ok E0. unfold guard_opt in E0. destruct (find_element a0) eqn:F; [|discriminate]. injection E0 as <-. apply find_element_in in F. exact F. }
  destruct (read_lines_class u ls c E0 v H') as [vs Hv]. exists c, vs. split; [exact Hin|]. split; [exact Hv|].
  rewrite (init_object_map_ok c Hin) in H. cbn [bind] in H. inv_ok H. unfold identify_segments in E1. inv_ok E1. destruct a0 as [[mx mm] e]. injection E1 as <-.
  apply identify_tkin in E2. destruct E2 as [_ [Kc Kw]]. specialize (Kw (roots_typed c Hin)).
  pose proof (typed_here _ Kw) as T. assert (K2 : tkin e (set_mm e mm)) by apply mm_tkin. destruct K2 as [_ [Kc2 Kw2]].
  unfold build_object in H. apply (build_grown u Em _ _ _ _ _ (Kw2 Kw)) in H. rewrite Kc2, Kc, (root_cls c Hin) in H.
  destruct (grown_conforms _ _ H) as [X|X]; [congruence|exact X].
Qed.
Print Assumptions C66_conforms.

(* a concrete message: it is read, and fits; the relation tells apart: an object without its variables does not fit, nor does
   one with a number in the place of a text *)
Definition read_omm : pyval := ok_or_none (kvn_from_string demo_env omm_doc).
Lemma demo_reads : empty_read demo_env.
Proof. split; [intros c f; right; reflexivity|intros c; reflexivity]. Qed.
Example C66_example : kvn_from_string demo_env omm_doc = Ok read_omm /\ conforms (TCls "Omm") read_omm /\
  at_path ["body"; "segment"; "data"; "mean_elements"; "eccentricity"] read_omm = Some (VDec (DFin false 1 (-3))).
Proof.
  assert (R : kvn_from_string demo_env omm_doc = Ok read_omm) by (vm_compute; reflexivity). split; [exact R|]. split; [|vm_compute; reflexivity].
  destruct (C66_conforms _ _ _ demo_reads R) as [c [vars [_ [E C]]]]. assert (c = "Omm") by (revert E; vm_compute; congruence). subst c. exact C.
Qed.
Lemma no_fixed f fs vars : f_fixed f = None -> members (f :: fs) vars -> exists v vs, vars = (f_name f, v) :: vs /\ holds f v /\ members fs vs.
Proof. intros X M. inversion M; subst; [congruence|eauto]. Qed.
Example C66_tells_apart : ~ conforms (TCls "Omm") (VObj "Omm" []) /\
  ~ conforms (TCls "NdmHeader") (VObj "NdmHeader" [("comment", VList []); ("creation_date", VStr (lit "2021-01-01")); ("originator", VInt 1)]) /\
  ~ conforms TDec (VStr (lit "0.001")) /\ ~ conforms TInt (VStr (lit "12")) /\ ~ conforms TStr VNone.
Proof.
  split; [|split; [|split; [|split]]].
  - intros C. inversion C as [| | | | | | |? m fs ? F M]; subst. vm_compute in F. injection F as <- <-. apply no_fixed in M; [|reflexivity]. destruct M as [? [? [M _]]]. discriminate M.
  - intros C. inversion C as [| | | | | | |? m fs ? F M]; subst. vm_compute in F. injection F as <- <-.
    apply no_fixed in M; [|reflexivity]. destruct M as [? [? [E1 [_ M]]]]. injection E1 as <- <-.
    apply no_fixed in M; [|reflexivity]. destruct M as [? [? [E2 [_ M]]]]. injection E2 as <- <-.
    apply no_fixed in M; [|reflexivity]. destruct M as [? [? [E3 [H M]]]]. injection E3 as <- <-.
    inversion H as [|? ? L C3|]; subst. cbn in C3. inversion C3.
  - intros C. inversion C as [| | | |s X| | |]; subst.
    apply (X ltac:(repeat constructor) (lit "0.001") (DFin false 1 (-3))).
    + exact (strip_core _).
    + change (no_underscores (lit "0.001")) with ([] ++ ([48%N] ++ 46%N :: [48; 48; 49]%N) ++ [])%list. apply (spells_finite [] false _ [48]%N [48; 48; 49]%N [] 0%Z); [constructor| |constructor].
      apply mantissa_point; [| |discriminate]; repeat constructor; discriminate.
  - intros C. inversion C as [| |s X| | | | |]; subst. apply (X ltac:(repeat constructor) (lit "12") 12%Z (strip_core _)). apply (spells_groups [] false (lit "12")); [exact sign_none| |repeat constructor; discriminate|discriminate].
    intros a b E. exfalso. destruct a as [|? [|? [|? ?]]]; discriminate E.
  - intros C. inversion C.
Qed.
(* a number field may hold a text *)
Definition odd_doc : str := doc
  ["CCSDS_OMM_VERS = 2.0"; "CREATION_DATE = 2021-01-01T00:00:00"; "ORIGINATOR = ME"; "OBJECT_NAME = SAT"; "EPOCH = 2021-01-01T00:00:00"; "ECCENTRICITY = small"].
Theorem C66_only_texts_refuted : ~ (forall u src v, empty_read u -> kvn_from_string u src = Ok v ->
  forall c vars n s f, inside (VObj c vars) v -> In (n, VStr s) vars -> In f (fields_of c) -> f_name f = n -> f_ty f = TStr).
Proof.
  intros H. let v := eval vm_compute in (ok_or_none (kvn_from_string demo_env odd_doc)) in pose (w := v).
  assert (R : kvn_from_string demo_env odd_doc = Ok w) by (vm_compute; reflexivity).
  let x := eval vm_compute in (match at_path ["body"; "segment"; "data"; "mean_elements"] w with Some (VObj _ vs) => vs | _ => [] end) in pose (vars := x).
  let f := eval vm_compute in (find (fun f => String.eqb (f_name f) "eccentricity") (fields_of "MeanElementsType")) in match f with Some ?f => pose (ecc := f) end.
  specialize (H _ _ _ demo_reads R "MeanElementsType" vars "eccentricity" (lit "small") ecc).
  assert (I : inside (VObj "MeanElementsType" vars) w).
  { eapply inside_attr with (n := "body"); [right; left; reflexivity|]. eapply inside_attr with (n := "segment"); [left; reflexivity|].
    eapply inside_attr with (n := "data"); [right; left; reflexivity|]. eapply inside_attr with (n := "mean_elements"); [right; left; reflexivity|]. constructor. }
  assert (I2 : In ("eccentricity", VStr (lit "small")) vars) by (unfold vars; cbn [In]; auto 12).
  assert (I3 : In ecc (fields_of "MeanElementsType")) by (apply (nth_error_In _ 4); vm_compute; reflexivity).
  discriminate (H I I2 I3 eq_refl).
Qed.
Print Assumptions C66_only_texts_refuted.
