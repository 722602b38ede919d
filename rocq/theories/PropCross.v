(* Property C69: messages of any input format written as KVN. *)
From Coq Require Import NArith ZArith List Bool String Arith Lia.
From Verif Require Import PyStr PyDec PyVal Schema KvnPre KvnTree KvnSeg XmlBind KvnBuild NdmXml KvnWrite NdmIo
     Spec SpecIo SpecKvn SpecObj SpecMsg SpecBack SpecSchema SpecAgain SpecSave SpecFix SpecCross SegFacts BuildFacts AgainFacts IoFacts PropIo CheckFacts Demo PropSchema PropRepeat PropSave CheckAgain PropAgain PropFix.
Import ListNotations.
Local Open Scope string_scope.
Local Open Scope list_scope.
Local Arguments find_class : simpl never.
Local Arguments lit : simpl never.

Lemma convertible_formed u v c : In c root_classes -> conforms (TCls c) v -> tidy v -> convertible u v -> well_formed u v.
Proof.
  intros _ C T H. destruct H as [c' vars Ic v Ah Am Ad Nm Us|vars v Ah Ar Sg].
  - assert (E : c' = c) by (destruct (object_fields _ _ C _ _ eq_refl); assumption). subst c'. cbn [In] in Ic. destruct Ic as [<-|[<-|[<-|[]]]].
    + destruct (omm_parts_of u v C T Ah Am Ad Us) as [header [md [cs [secs [user [-> [Sh [Sm [G [Se [Ss Uo]]]]]]]]]]]. apply well_formed_omm; assumption.
    + destruct (rdm_parts_of u v C T Ah Am Ad Us) as [header [md [cs [secs [user [-> [Sh [Sm [G [Se [Ss Uo]]]]]]]]]]]. apply well_formed_rdm; assumption.
    + destruct (opm_parts_of u v C T Ah Am Ad Nm Us) as [header [md [cs [secs [mans [user [-> [Sh [Sm [G [Se [Ss [Fm [Nn Uo]]]]]]]]]]]]]]. apply well_formed_opm; assumption.
  - assert (E : "Cdm" = c) by (destruct (object_fields _ _ C _ _ eq_refl); assumption). subst c.
    destruct (cdm_parts_of v C T Ah Ar Sg) as [header [relative [ps [-> [Sh [Rl [Ne [Fp Nn]]]]]]]]. apply well_formed_cdm; assumption.
Qed.

(* ---- what the XML reader returns ---- *)
Lemma map_res_in {A B} (f : A -> res B) l l' y : map_res f l = Ok l' -> In y l' -> exists x, In x l /\ f x = Ok y.
Proof.
  revert l'. induction l as [|a l IH]; intros l' E I; cbn [map_res] in E; [injection E as <-; destruct I|]. inv_ok E. inv_ok E. injection E as <-. destruct I as [<-|I]; [exists a; split; [left; reflexivity|assumption]|].
  destruct (IH _ E1 I) as [x [H F]]. exists x. split; [right; exact H|exact F].
Qed.
Definition message_key (k : string) : bool := negb (String.eqb k "comment" || String.eqb k "message_id").
Lemma downcast_vars_in vars vs k w : downcast_vars vars = Ok vs -> In (k, w) vs -> message_key k = true ->
  exists v l l', In (k, v) vars /\ py_iter v = Ok l /\ map_res downcast l = Ok l' /\ w = VList l'.
Proof.
  unfold message_key. revert vs. induction vars as [|[n v] vars IH]; intros vs E I K; cbn [downcast_vars] in E; [injection E as <-; destruct I|].
  destruct (String.eqb n "comment" || String.eqb n "message_id") eqn:N.
  - inv_ok E. injection E as <-. destruct I as [I|I]; [injection I as -> ->; rewrite N in K; discriminate K|]. destruct (IH _ E0 I K) as [v' [l [l' [H X]]]]. exists v', l, l'. split; [right; exact H|exact X].
  - inv_ok E. inv_ok E. inv_ok E. injection E as <-. destruct I as [I|I].
    + injection I as -> <-. exists v, a, a0. split; [left; reflexivity|]. auto.
    + destruct (IH _ E2 I K) as [v' [l [l' [H X]]]]. exists v', l, l'. split; [right; exact H|exact X].
Qed.
Lemma non_zero_in vars nz k w : non_zero_elems vars = Ok nz -> In (k, w) nz -> In (k, w) vars /\ message_key k = true.
Proof.
  unfold message_key. revert nz. induction vars as [|[n v] vars IH]; intros nz E I; cbn [non_zero_elems] in E; [injection E as <-; destruct I|].
  destruct (String.eqb n "message_id" || String.eqb n "comment") eqn:N.
  - destruct (IH _ E I) as [H X]. split; [right; exact H|exact X].
  - inv_ok E. inv_ok E. injection E as <-. destruct (Nat.ltb 0 a).
    + destruct I as [I|I]; [injection I as -> ->; split; [left; reflexivity|rewrite orb_comm, N; reflexivity]|]. destruct (IH _ E1 I) as [H X]. split; [right; exact H|exact X].
    + destruct (IH _ E1 I) as [H X]. split; [right; exact H|exact X].
Qed.
(* the classes of the messages in a combined message, and the classes they are turned into *)
Lemma ndm_item f : In f (init_fields (fields_of "Ndm")) -> message_key (f_name f) = true ->
  exists c d m m' fs, f_list f = true /\ f_ty f = TCls c /\ find_class c = Some (CData m fs) /\ first_subclass c = Some d /\ find_class d = Some (CData m' fs) /\ In d root_classes.
Proof.
  intros I K. let l := eval vm_compute in (init_fields (fields_of "Ndm")) in change (init_fields (fields_of "Ndm")) with l in I. cbn [In] in I.
  repeat (destruct I as [<-|I]; [first [vm_compute in K; discriminate K|do 5 eexists; split; [reflexivity|]; split; [reflexivity|]; split; [vm_compute; reflexivity|]; split; [vm_compute; reflexivity|]; split; [vm_compute; reflexivity|]; vm_compute; tauto]|]). destruct I.
Qed.
Lemma each_in t l x : each t l -> In x l -> x = VNone \/ conforms t x.
Proof. intros E. induction E as [t|t l E IH|t v l C E IH]; intros I; [destruct I|destruct I as [<-|I]; auto|destruct I as [<-|I]; auto]. Qed.
Lemma downcast_fits vars vs k w l y : conforms (TCls "Ndm") (VObj "Ndm" vars) -> downcast_vars vars = Ok vs -> In (k, w) vs -> message_key k = true -> py_iter w = Ok l -> In y l ->
  exists c, In c root_classes /\ conforms (TCls c) y.
Proof.
  intros C D I K P Iy. destruct (downcast_vars_in _ _ _ _ D I K) as [v [l0 [l1 [Iv [Pv [M ->]]]]]]. cbn [py_iter] in P. injection P as <-. destruct (map_res_in _ _ _ _ M Iy) as [x [Ix Dx]].
  destruct (object_fields _ _ C _ _ eq_refl) as [_ F]. destruct (Forall2_in_r _ _ _ _ F Iv) as [f [If [Ek H]]]. cbn [fst snd] in *. subst k.
  destruct (ndm_item f If K) as [c [d [m [m' [fs [L [Et [Fc [Sc [Fd Id]]]]]]]]]]. inversion H as [? L'|? ? L' _|? l2 _ E]; subst; try congruence. cbn [py_iter] in Pv. injection Pv as ->.
  rewrite Et in E. destruct (each_in _ _ _ E Ix) as [->|Cx]; [discriminate Dx|]. exists d. split; [exact Id|].
  inversion Cx as [| | | | |? ms ? ? X1|? ms ? X1|? m2 fs2 vs2 X1 X2]; subst; try congruence. rewrite Fc in X1. injection X1 as <- <-. cbn [downcast] in Dx. rewrite Sc in Dx. injection Dx as <-. econstructor; eassumption.
Qed.
Lemma root_header k : In k root_classes -> exists f rest c m fs, init_fields (fields_of k) = f :: rest /\ f_name f = "header" /\ f_list f = false /\ f_ty f = TCls c /\ find_class c = Some (CData m fs).
Proof.
  intros I. unfold root_classes in I. cbn [In] in I. repeat (destruct I as [<-|I]; [do 5 eexists; split; [vm_compute; reflexivity|]; split; [reflexivity|]; split; [reflexivity|]; split; [reflexivity|]; vm_compute; reflexivity|]). destruct I.
Qed.
Lemma no_lengths k w : In k root_classes -> conforms (TCls k) (VObj k w) -> non_zero_elems w = Err TypeError.
Proof.
  intros I C. destruct (object_fields _ _ C _ _ eq_refl) as [_ F]. destruct (root_header k I) as [f [rest [c [m [fs [E [N [L [T Fc]]]]]]]]]. rewrite E in F. inversion F as [|? [n x] ? w' [En H] _]; subst. cbn [fst snd] in *. subst n. rewrite N.
  cbn [non_zero_elems]. replace (String.eqb "header" "message_id" || String.eqb "header" "comment") with false by reflexivity.
  inversion H as [|? ? _ Cx|? ? L' _]; subst; [reflexivity| |congruence]. rewrite T in Cx. inversion Cx as [| | | | |? ms ? ? X1|? ms ? X1|]; subst; try congruence. reflexivity.
Qed.
Lemma io_fits u et_root xs_parse src v c vars : empty_read u -> parser_fits xs_parse -> io_from_string u et_root xs_parse src = Ok v -> v = VObj c vars -> c <> "Ndm" ->
  In c root_classes /\ conforms (TCls c) v.
Proof.
  intros Em Pf R Ev Nc. unfold io_from_string in R. inv_ok R. destruct a; try discriminate R.
  2:{ destruct (C66_conforms u src v Em R) as [c' [vars' [Ic [Ex C]]]]. assert (c' = c) by congruence. subst c'. auto. }
  unfold xml_from_string in R. cbn [snd] in R. inv_ok R. rename a into ndm. destruct (Pf _ _ E0) as [k [Ik C]].
  assert (Cls : exists w, ndm = VObj k w).
  { assert (B : forallb (fun c => match find_class c with Some (CEnum _) => false | _ => true end) ("Ndm" :: root_classes) = true) by (vm_compute; reflexivity).
    rewrite forallb_forall in B. specialize (B k Ik). inversion C as [| | | | |? ms ? ? X1|? ms ? X1|? m fs ? X1 X2]; subst; try (rewrite X1 in B; discriminate B). eauto. }
  destruct Cls as [w ->]. inv_ok R. destruct (String.eqb k "Ndm") eqn:Ek.
  - apply String.eqb_eq in Ek. subst k. inv_ok E1. injection E1 as <-. rename a0 into vs. 
    assert (X : v = VObj "Ndm" vs \/ exists c, In c root_classes /\ conforms (TCls c) v).
    { destruct (xml_is_combi et_root src); [|left; congruence]. unfold strip_multi_ndm in R. cbn [py_vars bind] in R. inv_ok R. destruct a as [|[n y] [|? ?]]; try (left; congruence).
      inv_ok R. destruct (Nat.eqb a 1); [|left; congruence]. right. inv_ok R. destruct (non_zero_in _ _ n y E1 (or_introl eq_refl)) as [In_y Kn].
      apply (downcast_fits w vs n y a0 v C E2 In_y Kn); [assumption|]. unfold get in R. destruct a0; [discriminate R|]. injection R as <-. left. reflexivity. }
    destruct X as [X|[c' [Ic Cv]]]; [congruence|]. assert (c' = c) by (destruct (object_fields _ _ Cv _ _ Ev); congruence). subst c'. auto.
  - injection E1 as <-. assert (k <> "Ndm") by (apply String.eqb_neq; exact Ek). cbn [In] in Ik. destruct Ik as [Ik|Ik]; [congruence|].
    destruct (xml_is_combi et_root src).
    + unfold strip_multi_ndm in R. cbn [py_vars bind] in R. rewrite (no_lengths k w Ik C) in R. discriminate R.
    + injection R as <-. injection Ev as <- <-. auto.
Qed.

(* Whatever the format of the input (KVN, XML, an XML message wrapped in a combined message), writing the message as KVN and
   reading that keeps its values and its comments, and the text is stable. *)
Theorem C69_converts : forall u et_root xs_parse src v, empty_read u -> parser_fits xs_parse -> io_from_string u et_root xs_parse src = Ok v ->
  tidy v -> convertible u v -> converts (kvn_to_string u) (kvn_from_string u) v.
Proof.
  intros u et xp src v Em Pf R T Cv. apply C68_converts. assert (X : exists c vars, v = VObj c vars /\ c <> "Ndm").
  { destruct Cv as [c vars Ic|]; [|eexists; eexists; split; [reflexivity|discriminate]]. exists c, vars. split; [reflexivity|]. intros ->. cbn [In] in Ic. decompose [or] Ic; try contradiction; discriminate. }
  destruct X as [c [vars [Ev Nc]]]. destruct (io_fits u et xp src v c vars Em Pf R Ev Nc) as [Ic C]. exact (convertible_formed u v c Ic C T Cv).
Qed.
Print Assumptions C69_converts.
(* A file of any format, loaded and saved as KVN: the new file loads as a message with the same values and comments, and copies
   of it have the same content. *)
Theorem C69_files : forall u et_root xs_parse xs_render can_open can_encode fs p v n cfg fs1, empty_read u -> parser_fits xs_parse ->
  io_from_path u et_root xs_parse fs p = Ok v -> tidy v -> convertible u v -> no_returns u v ->
  io_to_file u xs_render can_open can_encode fs v FKvn (PPath n) cfg = (fs1, Ok tt) ->
  exists v', io_from_path u et_root xs_parse fs1 (PPath n) = Ok v' /\ uncommented v' = uncommented v /\ all_comments v' = all_comments v /\
    forall ms fs2, copied u et_root xs_parse xs_render can_open can_encode fs1 n ms fs2 -> forall m, In m (n :: ms) -> fs2 m = fs1 n.
Proof.
  intros u et xp xr co ce fs p v n cfg fs1 Em Pf L T Cv Nr S. unfold io_from_path in L. inv_ok L.
  assert (X : exists c vars, v = VObj c vars /\ c <> "Ndm").
  { destruct Cv as [c vars Ic|]; [|eexists; eexists; split; [reflexivity|discriminate]]. exists c, vars. split; [reflexivity|]. intros ->. cbn [In] in Ic. decompose [or] Ic; try contradiction; discriminate. }
  destruct X as [c [vars [Ev Nc]]]. destruct (io_fits u et xp a v c vars Em Pf L Ev Nc) as [Ic C]. pose proof (convertible_formed u v c Ic C T Cv) as W.
  destruct (C68_copies u et xp xr co ce fs v n cfg fs1 [] fs1 W Nr S (copied_none _ _ _ _ _ _ _ _)) as [v' [B [A H]]]. exists v'. destruct (H n (or_introl eq_refl)) as [_ R]. split; [exact R|]. split; [exact B|]. split; [exact A|].
  intros ms fs2 Cp m Im. destruct (C68_copies u et xp xr co ce fs v n cfg fs1 ms fs2 W Nr S Cp) as [w [_ [_ H']]]. exact (proj1 (H' m Im)).
Qed.
Print Assumptions C69_files.

(* ---- a concrete case: an XML document with one message in a combined message ---- *)
Definition xml_source : str := lit "<ndm></ndm>".
Definition wrapped : pyval := VObj "Ndm" [("message_id", VNone); ("comment", VList []); ("aem", VList []); ("apm", VList []); ("cdm", VList []); ("oem", VList []);
  ("omm", VList [VObj "OmmType" (vars_of (read_of moving_doc))]); ("opm", VList []); ("rdm", VList []); ("tdm", VList [])].
Definition demo_parse (s : str) : res pyval := if str_eqb s xml_source then Ok wrapped else Err XmlReject.
Lemma as_type vs : conforms (TCls "Omm") (VObj "Omm" vs) -> conforms (TCls "OmmType") (VObj "OmmType" vs).
Proof.
  intros C. inversion C as [| | | | | | |? m fs ? F M]; subst. apply (co_object "OmmType" "ommType" fs); [|exact M].
  assert (E : find_class "OmmType" = Some (CData "ommType" (fields_of "Omm"))) by (vm_compute; reflexivity). unfold fields_of in E. rewrite F in E. exact E.
Qed.
Lemma demo_parse_fits : parser_fits demo_parse.
Proof.
  intros s v H. unfold demo_parse in H. destruct (str_eqb s xml_source); [|discriminate H]. injection H as <-. exists "Ndm". split; [left; reflexivity|].
  destruct C67_omm_example as [A [[vars B] _]]. destruct (C66_conforms _ _ _ demo_reads A) as [c [vars' [_ [E C]]]]. rewrite B in *. assert (c = "Omm") by congruence. subst c. apply as_type in C.
  unfold wrapped. rewrite B. cbn [vars_of]. clear - C. cbn beta iota in C.
  eapply co_object; [vm_compute; reflexivity|].
  repeat (apply (me_var (mkField _ _ _ _ _ _)); [reflexivity|first [apply ho_none; reflexivity|apply ho_list; [reflexivity|first [apply ea_nil|apply ea_cons; [exact C|apply ea_nil]]]]|]). constructor.
Qed.
Example C69_example : parser_fits demo_parse /\ io_from_string demo_env (fun _ => Some (lit "ndm")) demo_parse xml_source = Ok (read_of moving_doc) /\
  tidy (read_of moving_doc) /\ convertible demo_env (read_of moving_doc) /\ no_returns demo_env (read_of moving_doc).
Proof.
  destruct C67_omm_example as [A [[vars B] [T [Ah [Am [Ad [Us _]]]]]]]. split; [exact demo_parse_fits|]. split; [vm_compute; reflexivity|]. split; [exact T|]. split.
  - assert (M : forall l, attribute ["body"; "segment"; "data"; "maneuver_parameters"] (read_of moving_doc) (VList l) -> no_new_fields l).
    { intros l H. apply all_at_spec in H. vm_compute in H. contradiction H. }
    rewrite B in *. apply convertible_single; try assumption. left. reflexivity.
  - intros t E H. assert (F : forallb (fun c => negb (N.eqb c 13)) (match kvn_to_string demo_env (read_of moving_doc) with Ok t => t | Err _ => [] end) = true) by (vm_compute; reflexivity).
    rewrite E in F. rewrite forallb_forall in F. specialize (F _ H). discriminate F.
Qed.
