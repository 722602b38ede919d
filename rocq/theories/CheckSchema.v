(* Refuting that a value fits the schema: a check that every fitting value passes (used for C66). *)
From Coq Require Import NArith ZArith List Bool String Arith Lia.
From Verif Require Import PyStr PyDec PyVal Schema KvnPre KvnTree KvnSeg XmlBind KvnBuild Spec SpecNum SpecBack SpecSchema
     DecFacts StrFacts PreFacts SegFacts BuildFacts ErrFacts ConformFacts PropNum PropSeg PropSchema Demo.
Import ListNotations.
Local Open Scope string_scope.
Local Open Scope list_scope.

Definition ascii_text (s : str) : bool := forallb (fun c => N.ltb c 128) s.
Definition same_words (a b : str) : bool := if list_eq_dec (list_eq_dec N.eq_dec) (split_ws a) (split_ws b) then true else false.
Section Fields.
Variable g : ftype -> pyval -> bool.
Definition may_hold (f : field) (x : pyval) : bool :=
  match x with
  | VNone => negb (f_list f)
  | VList l => f_list f && forallb (fun y => match y with VNone => true | _ => g (f_ty f) y end) l
  | _ => negb (f_list f) && g (f_ty f) x
  end.
Definition may_have (fs : list field) (vars : list (string * pyval)) : bool :=
  forallb (fun nx => existsb (fun f => String.eqb (f_name f) (fst nx) && may_hold f (snd nx)) fs) vars.
End Fields.
Fixpoint may_fit (k : nat) (t : ftype) (v : pyval) : bool :=
  match k with
  | O => true
  | S k =>
    match t, v with
    | TStr, VStr _ | TInt, VInt _ | TDec, VDec _ => true
    | TInt, VStr s => negb (ascii_text s) || match py_int demo_env s with None => true | _ => false end
    | TDec, VStr s => negb (ascii_text s) || match py_decimal demo_env s with None => true | _ => false end
    | TCls c, VEnum c' _ _ => String.eqb c c'
    | TCls c, VStr s => match find_class c with Some (CEnum ms) => forallb (fun mv => negb (same_words (lit (snd mv)) s)) ms | _ => false end
    | TCls c, VObj c' vars => String.eqb c c' && match find_class c with Some (CData _ fs) => may_have (may_fit k) fs vars | _ => false end
    | _, _ => false
    end
  end.
Lemma ascii_plain s : ascii_text s = true -> plain s.
Proof. unfold ascii_text, plain. rewrite forallb_forall, Forall_forall. intros H c I. apply N.ltb_lt. exact (H c I). Qed.
Lemma may_have_spec g : (forall t v, conforms t v -> g t v = true) -> forall fs vars, members fs vars -> may_have g fs vars = true.
Proof.
  intros G fs vars M. apply forallb_forall. intros [n x] I. apply existsb_exists. cbn [fst snd].
  assert (X : exists f, In f fs /\ f_name f = n /\ holds f x).
  { revert vars M I. induction fs as [|f fs IH]; intros vars M I; inversion M as [|? ? ? Y M'|? ? w ws Y Hw M']; subst; [destruct I| |].
    - destruct (IH _ M' I) as [f' [A B]]. exists f'. split; [right; exact A|exact B].
    - destruct I as [I|I]; [injection I as <- <-; exists f; split; [left; reflexivity|split; [reflexivity|exact Hw]]|]. destruct (IH _ M' I) as [f' [A B]]. exists f'. split; [right; exact A|exact B]. }
  destruct X as [f [A [<- H]]]. exists f. split; [exact A|]. rewrite String.eqb_refl. cbn [andb].
  inversion H as [? L|? ? L C|? l L E]; subst; unfold may_hold.
  - rewrite L. reflexivity.
  - pose proof (G _ _ C) as Q. destruct x; rewrite ?L; try exact Q; [reflexivity|inversion C].
  - rewrite L. cbn [andb]. clear - G E. remember (f_ty f) as t eqn:Et. clear Et. induction l as [|y l IH]; [reflexivity|]. cbn [forallb]. inversion E as [|? ? E'|? ? ? Cy E']; subst; [apply IH; exact E'|].
    rewrite (IH E'), andb_true_r. destruct y; try reflexivity; exact (G _ _ Cy).
Qed.
Lemma may_fit_spec k : forall t v, conforms t v -> may_fit k t v = true.
Proof.
  induction k as [|k IH]; intros t v C; [reflexivity|]. cbn [may_fit]. inversion C as [| |s X| |s X|c ms m w F I|c ms s F X|c m fs vars F M]; subst; try reflexivity.
  - destruct (ascii_text s) eqn:A; [|reflexivity]. cbn [negb orb]. destruct (py_int demo_env s) as [z|] eqn:E; [|reflexivity]. exfalso.
    apply ascii_plain in A. apply C53_whole_value in E; [|exact A]. destruct E as [core [K S]]. exact (X A core z K S).
  - destruct (ascii_text s) eqn:A; [|reflexivity]. cbn [negb orb]. destruct (py_decimal demo_env s) as [z|] eqn:E; [|reflexivity]. exfalso.
    apply ascii_plain in A. apply C53_decimal_value in E; [|exact A]. destruct E as [core [K S]]. exact (X A core z K S).
  - apply String.eqb_refl.
  - rewrite F. apply forallb_forall. intros [m w] I. cbn [snd]. unfold same_words. destruct (list_eq_dec _ _ _) as [E|]; [|reflexivity]. destruct (X m w I E).
  - rewrite String.eqb_refl, F. exact (may_have_spec _ IH _ _ M).
Qed.
(* the claim of C66 is false if some text is read as a value that fails the check *)
Lemma misfit src c vars : kvn_from_string demo_env src = Ok (VObj c vars) -> may_fit 20 (TCls c) (VObj c vars) = false ->
  ~ (forall u src v, empty_read u -> kvn_from_string u src = Ok v -> exists c vars, In c root_classes /\ v = VObj c vars /\ conforms (TCls c) v).
Proof.
  intros R F A. destruct (A _ _ _ demo_reads R) as [c' [vars' [_ [E C]]]]. injection E as <- <-. rewrite (may_fit_spec 20 _ _ C) in F. discriminate F.
Qed.
(* the check is not idle *)
Example C66_misfits : may_fit 20 (TCls "Omm") read_omm = true /\ may_fit 20 TInt (VStr (lit " 12 ")) = false /\
  may_fit 20 (TCls "OemBody") (VObj "OemBody" [("segment", new_obj "OemSegment")]) = false /\
  may_fit 20 (TCls "PositionType") (VObj "PositionType" [("value", VDec (DFin false 1 0)); ("units", VStr (lit "km"))]) = false /\
  may_fit 20 (TCls "TdmData") (VObj "TdmData" [("observation", VList [new_obj "StateVectorAccType"])]) = false.
Proof. vm_compute. repeat split; reflexivity. Qed.
