(* Property C46: texts that do not fit the type of their field are kept, and units that do not cannot be written. *)
From Coq Require Import NArith ZArith List Bool String Arith Lia.
From Verif Require Import PyStr PyDec PyVal Schema KvnPre KvnTree KvnSeg XmlBind KvnBuild NdmXml KvnWrite
     Spec SpecKvn SpecObj SpecMsg StrFacts DecFacts WriteFacts ParseFacts MsgFacts Demo PropWrite CheckFacts PropRound PropCdm.
Import ListNotations.
Local Open Scope string_scope.
Local Open Scope list_scope.
Local Arguments find_class : simpl never.
Local Arguments lit : simpl never.

(* what a field holds when its text does not fit: the text, as the value of a number with a unit if it is one of those *)
Definition kept_value (f : field) (s : str) : pyval :=
  match f_ty f with
  | TCls c => match find_class c with Some (CData _ _) => VObj c [("value", VStr s); ("units", VNone)] | _ => VStr s end
  | _ => VStr s
  end.
Definition misfit (f : field) (s : str) : Prop :=
  match f_ty f with
  | TStr => False
  | TInt | TDec => not_number s
  | TCls c => match find_class c with
              | Some (CEnum ms) => forall m v, In (m, v) ms -> split_ws (lit v) <> split_ws s
              | Some (CData _ [_; _]) => not_number s /\ no_char c_lbr s
              | _ => False
              end
  end.
(* an object with one field set *)
Definition only (c : string) (f : field) (v : pyval) : pyval :=
  VObj c (map (fun g => (f_name g, if String.eqb (f_name g) (f_name f) then v else if f_list g then VList [] else VNone)) (fields_of c)).
Lemma misfit_value f s : good_value s -> misfit f s -> wf_value (f_ty f) (kept_value f s).
Proof.
  intros G M. unfold misfit, kept_value in *. destruct (f_ty f) as [| | |c]; try contradiction.
  - apply wf_simple, wf_odd_int; assumption.
  - apply wf_simple, wf_odd_dec; assumption.
  - destruct (find_class c) as [[m fs|ms]|] eqn:F; try contradiction.
    + destruct fs as [|fv [|fu [|? ?]]]; try contradiction. destruct M as [M B]. eapply wf_number; [exact F|apply wf_amount_odd; assumption].
    + apply wf_simple. eapply wf_odd_enum; eassumption.
Qed.
Lemma only_wf c f s : In f (fields_of c) -> NoDup (map f_name (fields_of c)) -> f_list f = false -> good_value s -> misfit f s ->
  wf_vars (fields_of c) (map (fun g => (f_name g, if String.eqb (f_name g) (f_name f) then kept_value f s else if f_list g then VList [] else VNone)) (fields_of c)).
Proof.
  intros Hf D L G M. unfold wf_vars.
  assert (X : forall gs, incl gs (fields_of c) -> Forall2 (fun f0 kv => fst kv = f_name f0 /\ wf_field f0 (snd kv)) gs
    (map (fun g => (f_name g, if String.eqb (f_name g) (f_name f) then kept_value f s else if f_list g then VList [] else VNone)) gs)).
  { induction gs as [|g gs IH]; intros I; [constructor|]. cbn [map]. constructor; [|apply IH; intros x Hx; apply I; right; exact Hx].
    cbn [fst snd]. split; [reflexivity|]. destruct (String.eqb (f_name g) (f_name f)) eqn:E.
    - apply String.eqb_eq in E. assert (g = f).
      { assert (Hg : In g (fields_of c)) by (apply I; left; reflexivity). clear - D Hg Hf E. induction (fields_of c) as [|a l IH]; [destruct Hg|].
        cbn [map] in D. inversion D as [|? ? N D']; subst. destruct Hg as [->|Hg], Hf as [->|Hf]; [reflexivity| | |apply IH; assumption].
        - exfalso. apply N. rewrite E. apply in_map. exact Hf.
        - exfalso. apply N. rewrite <- E. apply in_map. exact Hg. }
      subst g. apply wf_present; [exact L|apply misfit_value; assumption].
    - destruct (f_list g) eqn:Lg; [apply (wf_comments g []); [exact Lg|constructor]|apply wf_absent; exact Lg]. }
  apply X. apply incl_refl.
Qed.
Lemma only_entries f s gs : (forall g, In g gs -> NoDup (map f_name gs)) -> In f gs -> f_list f = false ->
  entries gs (map (fun g => (f_name g, if String.eqb (f_name g) (f_name f) then kept_value f s else if f_list g then VList [] else VNone)) gs) =
  [(lit (kw_of f), s, [])].
Proof.
  intros D0 Hf L. assert (D : NoDup (map f_name gs)) by exact (D0 f Hf). clear D0.
  assert (K : forall k, field_entries k (kept_value f s) = [(lit k, s, [])]).
  { intros k. unfold kept_value. destruct (f_ty f) as [| | |c]; try reflexivity. destruct (find_class c) as [[]|]; reflexivity. }
  assert (No : forall hs, ~ In (f_name f) (map f_name hs) ->
    entries hs (map (fun g => (f_name g, if String.eqb (f_name g) (f_name f) then kept_value f s else if f_list g then VList [] else VNone)) hs) = []).
  { induction hs as [|h hs IH]; intros N; [reflexivity|]. cbn [map entries] in *. replace (String.eqb (f_name h) (f_name f)) with false by (symmetry; apply String.eqb_neq; intros X; apply N; left; exact X).
    rewrite IH by (intros X; apply N; right; exact X). destruct (f_list h); reflexivity. }
  induction gs as [|g gs IH]; [destruct Hf|]. cbn [map] in D. inversion D as [|? ? N D']; subst. cbn [map entries].
  destruct (String.eqb (f_name g) (f_name f)) eqn:E.
  - apply String.eqb_eq in E. destruct Hf as [->|Hf]; [|exfalso; apply N; rewrite E; apply in_map; exact Hf].
    rewrite No by exact N. rewrite app_nil_r. apply K.
  - destruct Hf as [->|Hf]; [rewrite String.eqb_refl in E; discriminate|]. rewrite IH; [destruct (f_list g); reflexivity|exact Hf|exact D'].
Qed.

(* Reading a line with a text that does not fit gives the object with the text; writing that object gives the line. *)
Theorem C46_text_kept : forall u c f k s, In c section_classes -> In f (fields_of c) -> f_list f = false -> f_kw f = Some k ->
  good_value s -> misfit f s ->
  parse_list u c None [[lit k; s]] = Ok (only c f (kept_value f s)) /\
  forall key out, key <> "comment" -> key <> "user_defined" ->
  exists open_ raw close_, collate_sub u key (only c f (kept_value f s)) out = Ok (out ++ open_ ++ [raw] ++ close_) /\
    spelled (lit k, s, []) raw /\ frame open_ /\ frame close_.
Proof.
  intros u c f k s Hc Hf L K G M. destruct (section_leaf c Hc) as [Lc _]. destruct (leaf_xml_ok u c Lc) as [[D _] _].
  pose proof (only_wf c f s Hf D L G M) as W. pose proof (only_entries f s (fields_of c) (fun _ _ => D) Hf L) as E.
  assert (Kw : kw_of f = k) by (unfold kw_of; rewrite K; reflexivity). rewrite Kw in E. split.
  - pose proof (parse_section u c _ Lc W) as P. rewrite E in P. exact P.
  - intros key out K1 K2. destruct (C24_section_lines u key c _ out Hc W K1 K2) as [o [raws [cl [Q1 [Q2 [Q3 Q4]]]]]]. rewrite E in Q2.
    inversion Q2 as [|? raw ? r0 Sp Z]; subst. inversion Z; subst. exists o, raw, cl. auto.
Qed.
Print Assumptions C46_text_kept.
Example C46_example :
  (In "TdmMetadata" section_classes /\ exists f, In f (fields_of "TdmMetadata") /\ f_list f = false /\ f_kw f = Some "TIME_SYSTEM" /\
     good_value (lit "MARS TIME") /\ misfit f (lit "MARS TIME")) /\
  (In "SpacecraftParametersType" section_classes /\ exists f, In f (fields_of "SpacecraftParametersType") /\ f_list f = false /\ f_kw f = Some "MASS" /\
     good_value (lit "about 5") /\ misfit f (lit "about 5")).
Proof.
  split; (split; [cbn [In section_classes]; tauto|]).
  - eexists. split; [do 3 right; left; reflexivity|]. split; [reflexivity|]. split; [reflexivity|]. split; [apply good_valueb_spec; by_compute|].
    unfold misfit. intros m v Hi. vm_compute in Hi. repeat (destruct Hi as [E|Hi]; [injection E as <- <-; vm_compute; discriminate|]). destruct Hi.
  - eexists. split; [right; left; reflexivity|]. split; [reflexivity|]. split; [reflexivity|]. split; [apply good_valueb_spec; by_compute|].
    split; [apply not_numberb_spec; by_compute|apply no_charb_spec; by_compute].
Qed.
(* the messages of the round trips may hold such texts *)
Definition odd_metadata : pyval :=
  match demo_but "TdmMetadata" [] [] with
  | VObj c vars => VObj c (map (fun nv => if String.eqb (fst nv) "time_system" then (fst nv, VStr (lit "MARS TIME"))
                                          else if String.eqb (fst nv) "freq_offset" then (fst nv, VStr (lit "unknown")) else nv) vars)
  | v => v
  end.
Example C46_section_example : section "TdmMetadata" odd_metadata /\ In ("time_system", VStr (lit "MARS TIME")) (vars_part odd_metadata) /\
  In ("freq_offset", VStr (lit "unknown")) (vars_part odd_metadata).
Proof. split; [met|]. split; vm_compute; tauto. Qed.

(* A unit that is not a member of its enumeration is read, and then the message cannot be written. *)
Definition pounds : list string :=
  ["CCSDS_OPM_VERS = 2.0"; "CREATION_DATE = 2021-01-01T00:00:00"; "ORIGINATOR = ME"; "OBJECT_NAME = A"; "OBJECT_ID = B"; "CENTER_NAME = EARTH";
   "REF_FRAME = EME2000"; "TIME_SYSTEM = UTC"; "EPOCH = 2021-01-01T00:00:00"; "X = 1"; "Y = 1"; "Z = 1"; "X_DOT = 1"; "Y_DOT = 1"; "Z_DOT = 1";
   "MASS = 5 [lb]"].
Theorem C46_unknown_unit_refuted : exists v,
  kvn_from_string demo_env (doc pounds) = Ok v /\
  at_path ["body"; "segment"; "data"; "spacecraft_parameters"; "mass"; "units"] v = Some (VStr (lit "lb")) /\
  kvn_to_string demo_env v = Err AttributeError.
Proof. eexists. split; [by_compute|]. split; by_compute. Qed.
Print Assumptions C46_unknown_unit_refuted.
