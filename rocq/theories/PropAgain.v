(* C67: converting a message that was read keeps its values and its comments. *)
From Coq Require Import NArith ZArith List Bool String Arith Lia.
From Verif Require Import PyStr PyDec PyVal Schema KvnPre KvnTree KvnSeg XmlBind KvnBuild KvnWrite Spec SpecKvn SpecObj SpecMsg SpecNum SpecBack SpecSchema SpecAgain SpecSave
     DecFacts StrFacts BuildFacts CoreFacts DataFacts PropRound PropCdm PropStable PropSave AgainFacts AgainWrite PropSchema CheckFacts CheckAgain Demo Samples.
Import ListNotations.
Local Open Scope string_scope.
Local Open Scope list_scope.
Local Arguments find_class : simpl never.
Local Arguments lit : simpl never.

(* ---- what settling the comments keeps ---- *)
Definition bare (nx : string * pyval) : list (string * pyval) := if String.eqb (fst nx) "comment" then [] else [(fst nx, uncommented (snd nx))].
Definition said (nx : string * pyval) : list pyval := match snd nx with VList l => if String.eqb (fst nx) "comment" then l else [] | _ => [] end ++ all_comments (snd nx).
Lemma bare_object c vars : uncommented (VObj c vars) = VObj c (flat_map bare vars).
Proof. reflexivity. Qed.
Lemma said_object c vars : all_comments (VObj c vars) = flat_map said vars.
Proof. reflexivity. Qed.
Lemma texts_say ts : flat_map all_comments (texts ts) = [].
Proof. induction ts; [reflexivity|assumption]. Qed.
Lemma said_comment ts : said ("comment", VList (texts ts)) = texts ts.
Proof. unfold said. cbn [fst snd]. rewrite String.eqb_refl. cbn [all_comments]. rewrite texts_say. apply app_nil_r. Qed.
Lemma give_same shape secs : shape_ok shape = true -> sections shape secs -> some_section secs ->
  exists ts rest, first_comments secs = texts ts /\ flat_map said secs = texts ts ++ rest /\
    forall ts', flat_map said (give_comments (texts ts') secs) = texts ts' ++ rest /\ flat_map bare (give_comments (texts ts') secs) = flat_map bare secs.
Proof.
  intros Sh F. revert Sh. induction F as [|[n c] [m v] shape secs [En O] F IH]; intros Sh Ss; [destruct Ss as [n [v [[] _]]]|].
  cbn [shape_ok forallb fst snd] in *. subst m. apply andb_true_iff in Sh. destruct Sh as [Sc Sh]. apply andb_true_iff in Sc. destruct Sc as [Lc Hc].
  destruct O as [->|O].
  - destruct IH as [ts [rest [E1 [E2 A]]]]; [exact Sh| |].
    { destruct Ss as [k [w [[Hin|Hin] Nv]]]; [congruence|]. exists k, w. auto. }
    exists ts, rest. split; [exact E1|]. cbn [flat_map give_comments]. split; [exact E2|]. intros ts'. destruct (A ts') as [A1 A2]. split; [exact A1|]. f_equal. exact A2.
  - destruct O as [vars [-> [W _]]]. destruct (has_comments_spec c Hc) as [fs E]. rewrite E in W. inversion W as [|? [k w] ? vars0 [Ek Wf] Ws]; subst. cbn [fst snd f_name comment_field] in *. subst k.
    destruct (wf_comment_value w Wf) as [ts [-> _]]. exists ts, (flat_map said vars0 ++ flat_map said secs). split; [reflexivity|].
    assert (X : forall t, said (n, VObj c (("comment", VList (texts t)) :: vars0)) = texts t ++ flat_map said vars0).
    { intros t. unfold said at 1. cbn [fst snd]. rewrite said_object. cbn [app flat_map]. rewrite said_comment. reflexivity. }
    cbn [give_comments with_comments flat_map]. split; [change (map VStr ts) with (texts ts); rewrite X, <- app_assoc; reflexivity|]. intros ts'. split; [rewrite X, <- app_assoc; reflexivity|]. reflexivity.
Qed.
Lemma settled_same (u : env) shape cs secs cs' secs' : shape_ok shape = true -> sections shape secs -> some_section secs ->
  data_comments (texts cs) secs = texts cs' -> give_comments (section_comments (texts cs) secs) secs = secs' ->
  texts cs' ++ flat_map said secs' = texts cs ++ flat_map said secs /\ flat_map bare secs' = flat_map bare secs.
Proof.
  intros Sh F Ss E1 E2. destruct (give_same shape secs Sh F Ss) as [ts [rest [Ef [Es A]]]]. unfold data_comments, section_comments in *. rewrite Ef in *.
  unfold texts in E2 at 1 2. rewrite <- map_app, skipn_map in E2. fold (texts (skipn 1 (cs ++ ts))) in E2. subst secs'. destruct (A (skipn 1 (cs ++ ts))) as [A1 A2]. split; [|exact A2].
  rewrite A1, Es, <- E1, !app_assoc. f_equal. unfold texts. rewrite <- !map_app, firstn_map, <- map_app, firstn_skipn. reflexivity.
Qed.
Lemma bare_app a b : flat_map bare (a ++ b) = flat_map bare a ++ flat_map bare b.
Proof. apply flat_map_app. Qed.

(* ---- taking a message that fits the schema apart ---- *)
Notation declared := (Forall2 (fun f kv => fst kv = f_name f /\ holds f (snd kv))).
Lemma take_field f fs vars : declared (f :: fs) vars -> exists x vs, vars = (f_name f, x) :: vs /\ holds f x /\ declared fs vs.
Proof. intros F. inversion F as [|? [n x] ? vs [E H] F']; subst. cbn [fst snd] in *. subst n. eauto. Qed.
Lemma take_none vars : declared [] vars -> vars = [].
Proof. intros F. inversion F. reflexivity. Qed.
Lemma take_object f c x c' vars : f_ty f = TCls c -> f_list f = false -> holds f x -> x = VObj c' vars -> c' = c /\ declared (init_fields (fields_of c)) vars.
Proof. intros Et L H E. inversion H as [|? ? _ C|? ? L']; subst; [discriminate|rewrite Et in C|congruence]. exact (object_fields _ _ C _ _ eq_refl). Qed.
Lemma take_list f x : f_list f = true -> holds f x -> exists l, x = VList l /\ each (f_ty f) l.
Proof. intros L H. inversion H as [? L'|? ? L' C|? l ? E]; subst; try congruence. eauto. Qed.
Lemma attribute_next n r c vars y : attribute (n :: r) (VObj c vars) y -> exists x, In (n, x) vars /\ attribute r x y.
Proof. intros A. inversion A; subst. eauto. Qed.
Lemma attribute_end x y : attribute [] x y -> y = x.
Proof. intros A. inversion A. reflexivity. Qed.
Lemma attribute_object n r x c vars : attribute (n :: r) x (VObj c vars) -> exists c' vars', x = VObj c' vars'.
Proof. intros A. inversion A; subst. eauto. Qed.
Ltac fields F := lazymatch type of F with Forall2 _ (init_fields (fields_of ?c)) _ => let l := eval vm_compute in (init_fields (fields_of c)) in change (init_fields (fields_of c)) with l in F end.
Ltac take F x H := let vs := fresh "vs" in let E := fresh "E" in apply take_field in F; destruct F as [x [vs [E [H F]]]]; cbn [f_name] in E; subst.
Ltac done F := apply take_none in F; subst.
Ltac here I := cbn [In] in I; repeat (destruct I as [I|I]; [first [discriminate I|injection I as <-|injection I as <- <-]|]); try contradiction I.
(* the message with its comments where the reader puts them *)
Definition settles (u : env) (m : pyval) : Prop :=
  exists m', keeps u m' /\ kvn_to_string u m' = kvn_to_string u m /\ uncommented m' = uncommented m /\ all_comments m' = all_comments m.
Lemma settled u m m' : keeps u m' -> kvn_to_string u m' = kvn_to_string u m -> uncommented m' = uncommented m -> all_comments m' = all_comments m -> settles u m.
Proof. intros. exists m'. auto. Qed.
Lemma settles_converts u m : settles u m -> converts (kvn_to_string u) (kvn_from_string u) m.
Proof. intros [m' [K [W [B S]]]]. destruct (keeps_round u m' K) as [t [W' R]]. exists t, m'. rewrite <- W. auto 8. Qed.
Lemma tidy_attr c vars n x : tidy (VObj c vars) -> In (n, x) vars -> tidy x.
Proof. intros T I. exact (tidy_inside _ _ T (inside_var _ _ _ _ I)). Qed.
Lemma tidy_texts c vars n l : c <> "UserDefinedParameterType" -> tidy (VObj c vars) -> In (n, VList l) vars -> each TStr l -> exists ts, l = texts ts /\ Forall good_text ts.
Proof. intros Nc T I E. destruct (T c vars (inside_here _) Nc) as [_ [_ [Tl _]]]. exact (each_texts l E (fun x Hx => Tl _ _ _ I Hx)). Qed.
Lemma holds_there f c x : holds f x -> f_ty f = TCls c -> f_list f = false -> In c section_classes -> tidy x -> x <> VNone -> section c x.
Proof. intros H Et L Ic T N. destruct (holds_section f c x Et L Ic H T) as [->|S]; [contradiction|exact S]. Qed.
Lemma in_member c l : existsb (String.eqb c) l = true -> In c l.
Proof. intros H. apply existsb_exists in H. destruct H as [x [I E]]. apply String.eqb_eq in E. subst. exact I. Qed.
Ltac listed := apply in_member; vm_compute; reflexivity.

(* the header, the metadata and the variables of the data block of a message with one segment *)
Ltac skeleton C Ah Am Ad F :=
  let h := fresh "h" in let Hh := fresh "Hh" in let m := fresh "m" in let Hm := fresh "Hm" in let d := fresh "d" in let Hd := fresh "Hd" in let dvars := fresh "dvars" in let In_d := fresh "In_d" in
  let c := fresh in let vars := fresh in let I := fresh in let A := fresh in let Hb := fresh in let b := fresh "b" in let s := fresh in let Hs := fresh in
  destruct (attribute_object _ _ _ _ _ Ah) as [c [vars ->]]; destruct (object_fields _ _ C _ _ eq_refl) as [-> F]; fields F; take F h Hh; take F b Hb; done F;
  apply attribute_next in Ah; destruct Ah as [? [I A]]; here I; apply attribute_end in A; subst h;
  apply attribute_next in Am; destruct Am as [? [I Am]]; here I; destruct (attribute_object _ _ _ _ _ Am) as [? [? ->]]; eapply take_object in Hb; try reflexivity; destruct Hb as [-> F]; fields F; take F s Hs; done F;
  apply attribute_next in Am; destruct Am as [? [I Am]]; here I; destruct (attribute_object _ _ _ _ _ Am) as [? [? ->]]; eapply take_object in Hs; try reflexivity; destruct Hs as [-> F]; fields F; take F m Hm; take F d Hd; done F;
  apply attribute_next in Am; destruct Am as [? [I Am]]; here I; apply attribute_end in Am; subst m;
  apply attribute_next in Ad; destruct Ad as [? [I Ad]]; here I; apply attribute_next in Ad; destruct Ad as [? [I Ad]]; here I; apply attribute_next in Ad; destruct Ad as [? [I Ad]]; here I;
  destruct (attribute_object _ _ _ _ _ Ad) as [? [dvars ->]]; eapply take_object in Hd; try reflexivity; destruct Hd as [-> F]; fields F;
  apply attribute_next in Ad; destruct Ad as [? [In_d Ad]]; apply attribute_end in Ad; subst.

Ltac tidied T Th Tm Td :=
  let Tb := fresh in let Ts := fresh in
  pose proof (tidy_attr _ _ "header" _ T ltac:(left; reflexivity)) as Th; pose proof (tidy_attr _ _ "body" _ T ltac:(right; left; reflexivity)) as Tb;
  pose proof (tidy_attr _ _ "segment" _ Tb ltac:(left; reflexivity)) as Ts; pose proof (tidy_attr _ _ "metadata" _ Ts ltac:(left; reflexivity)) as Tm;
  pose proof (tidy_attr _ _ "data" _ Ts ltac:(right; left; reflexivity)) as Td; clear Tb Ts.
Ltac part Td H := split; [reflexivity|]; apply (fun a b c => holds_section _ _ _ a b c H); [reflexivity|reflexivity|listed|]; eapply (tidy_attr _ _ _ _ Td); cbn [In]; auto 12.
Ltac comments_here Td H cs G := let l := fresh in let E := fresh in
  apply take_list in H; [|reflexivity]; destruct H as [l [-> E]]; lazymatch type of Td with tidy (VObj ?c _) => let N := fresh in assert (N : c <> "UserDefinedParameterType") by discriminate; destruct (tidy_texts _ _ _ _ N Td (or_introl eq_refl) E) as [cs [-> G]]; clear N end.
Ltac user_here Us := apply Us; eapply attribute_of; [right; left; reflexivity|]; eapply attribute_of; [left; reflexivity|]; eapply attribute_of; [right; left; reflexivity|]; eapply attribute_of; [cbn [In]; auto 12|constructor].

(* the parts of an orbit mean-elements message, of a reentry data message and of an orbit parameter message *)
Lemma omm_parts_of u v : conforms (TCls "Omm") v -> tidy v ->
  object_at ["header"] v -> object_at ["body"; "segment"; "metadata"] v ->
  (exists n, n <> "user_defined_parameters" /\ object_at ["body"; "segment"; "data"; n] v) ->
  (forall x, attribute ["body"; "segment"; "data"; "user_defined_parameters"] v x -> opt_user u x) ->
  exists header md cs secs user, v = omm header md (texts cs) secs user /\ section "NdmHeader" header /\ section "OmmMetadata" md /\ Forall good_text cs /\
    sections omm_sections secs /\ some_section secs /\ opt_user u user.
Proof.
  intros C T [ch [vh Ah]] [cm [vm Am]] [n [Nn [cd [vd Ad]]]] Us. skeleton C Ah Am Ad F. tidied T Th Tm Td.
  take F c0 H0. take F c1 H1. take F c2 H2. take F c3 H3. take F c4 H4. take F us Hu. done F. comments_here Td H0 cs G.
  exists (VObj ch vh), (VObj cm vm), cs, [("mean_elements", c1); ("spacecraft_parameters", c2); ("tle_parameters", c3); ("covariance_matrix", c4)], us.
  split; [reflexivity|]. split; [apply (holds_there _ _ _ Hh); [reflexivity|reflexivity|listed|exact Th|discriminate]|].
  split; [apply (holds_there _ _ _ Hm); [reflexivity|reflexivity|listed|exact Tm|discriminate]|]. split; [exact G|].
  split; [constructor; [part Td H1|constructor; [part Td H2|constructor; [part Td H3|constructor; [part Td H4|constructor]]]]|].
  split; [exists n, (VObj cd vd); split; [|discriminate]; cbn [In] in In_d |- *; decompose [or] In_d; try congruence; auto|]. user_here Us.
Qed.
Lemma rdm_parts_of u v : conforms (TCls "Rdm") v -> tidy v ->
  object_at ["header"] v -> object_at ["body"; "segment"; "metadata"] v ->
  (exists n, n <> "user_defined_parameters" /\ object_at ["body"; "segment"; "data"; n] v) ->
  (forall x, attribute ["body"; "segment"; "data"; "user_defined_parameters"] v x -> opt_user u x) ->
  exists header md cs secs user, v = rdm header md (texts cs) secs user /\ section "RdmHeader" header /\ section "RdmMetadata" md /\ Forall good_text cs /\
    sections rdm_sections secs /\ some_section secs /\ opt_user u user.
Proof.
  intros C T [ch [vh Ah]] [cm [vm Am]] [n [Nn [cd [vd Ad]]]] Us. skeleton C Ah Am Ad F. tidied T Th Tm Td.
  take F c0 H0. take F c1 H1. take F c2 H2. take F c3 H3. take F c4 H4. take F c5 H5. take F c6 H6. take F us Hu. done F. comments_here Td H0 cs G.
  exists (VObj ch vh), (VObj cm vm), cs, [("atmospheric_reentry_parameters", c1); ("ground_impact_parameters", c2); ("state_vector", c3); ("covariance_matrix", c4); ("spacecraft_parameters", c5); ("od_parameters", c6)], us.
  split; [reflexivity|]. split; [apply (holds_there _ _ _ Hh); [reflexivity|reflexivity|listed|exact Th|discriminate]|].
  split; [apply (holds_there _ _ _ Hm); [reflexivity|reflexivity|listed|exact Tm|discriminate]|]. split; [exact G|].
  split; [constructor; [part Td H1|constructor; [part Td H2|constructor; [part Td H3|constructor; [part Td H4|constructor; [part Td H5|constructor; [part Td H6|constructor]]]]]]|].
  split; [exists n, (VObj cd vd); split; [|discriminate]; cbn [In] in In_d |- *; decompose [or] In_d; try congruence; auto 8|]. user_here Us.
Qed.
Lemma each_sections c l : In c section_classes -> each (TCls c) l -> tidy (VList l) -> (forall x, In x l -> (exists s, x = VStr s /\ good_text s) \/ exists c' vars', x = VObj c' vars') -> Forall (section c) l.
Proof.
  intros Ic E T H. apply Forall_forall. intros x Hx. assert (Cx : conforms (TCls c) x).
  { clear T. induction l as [|y l IH]; [destruct Hx|]. inversion E as [|? ? E'|? ? ? Cy E']; subst.
    - destruct Hx as [<-|Hx]; [destruct (H VNone (or_introl eq_refl)) as [[s [X _]]|[c' [vs X]]]; discriminate X|]. apply IH; auto. intros z Hz. apply H. right. exact Hz.
    - destruct Hx as [<-|Hx]; [exact Cy|]. apply IH; auto. intros z Hz. apply H. right. exact Hz. }
  assert (Tx : tidy x) by (apply (tidy_inside _ _ T); eapply inside_item; [exact Hx|constructor]).
  assert (B : forallb (fun c => match find_class c with Some (CEnum _) => false | _ => true end) section_classes = true) by (vm_compute; reflexivity).
  rewrite forallb_forall in B. specialize (B c Ic). inversion Cx as [| | | | |? ms m v X1 X2|? ms s X1 X2|? m fs vs X1 X2]; subst; [rewrite X1 in B; discriminate B|rewrite X1 in B; discriminate B|]. apply section_ok; assumption.
Qed.
Lemma opm_parts_of u v : conforms (TCls "Opm") v -> tidy v ->
  object_at ["header"] v -> object_at ["body"; "segment"; "metadata"] v ->
  (exists n, n <> "user_defined_parameters" /\ object_at ["body"; "segment"; "data"; n] v) ->
  (forall l, attribute ["body"; "segment"; "data"; "maneuver_parameters"] v (VList l) -> no_new_fields l) ->
  (forall x, attribute ["body"; "segment"; "data"; "user_defined_parameters"] v x -> opt_user u x) ->
  exists header md cs secs mans user, v = opm header md (texts cs) secs mans user /\ section "NdmHeader" header /\ section "OpmMetadata" md /\ Forall good_text cs /\
    sections opm_sections secs /\ some_section secs /\ Forall (section "ManeuverParametersType") mans /\ no_new_fields mans /\ opt_user u user.
Proof.
  intros C T [ch [vh Ah]] [cm [vm Am]] [n [Nn [cd [vd Ad]]]] Nm Us. skeleton C Ah Am Ad F. tidied T Th Tm Td.
  take F c0 H0. take F c1 H1. take F c2 H2. take F c3 H3. take F c4 H4. take F ms Hx. take F us Hu. done F. comments_here Td H0 cs G.
  apply take_list in Hx; [|reflexivity]. destruct Hx as [mans [-> Ex]]. cbn [f_ty] in Ex.
  exists (VObj ch vh), (VObj cm vm), cs, [("state_vector", c1); ("keplerian_elements", c2); ("spacecraft_parameters", c3); ("covariance_matrix", c4)], mans, us.
  split; [reflexivity|]. split; [apply (holds_there _ _ _ Hh); [reflexivity|reflexivity|listed|exact Th|discriminate]|].
  split; [apply (holds_there _ _ _ Hm); [reflexivity|reflexivity|listed|exact Tm|discriminate]|]. split; [exact G|].
  split; [constructor; [part Td H1|constructor; [part Td H2|constructor; [part Td H3|constructor; [part Td H4|constructor]]]]|].
  split; [exists n, (VObj cd vd); split; [|discriminate]; cbn [In] in In_d |- *; decompose [or] In_d; try congruence; auto|].
  split; [|split; [apply Nm; eapply attribute_of; [right; left; reflexivity|]; eapply attribute_of; [left; reflexivity|]; eapply attribute_of; [right; left; reflexivity|]; eapply attribute_of; [cbn [In]; auto 12|constructor]|user_here Us]].
  apply each_sections; [listed|exact Ex|eapply (tidy_attr _ _ _ _ Td); cbn [In]; auto 12|]. intros x Ix. destruct (Td "OpmData" _ (inside_here _) ltac:(discriminate)) as [_ [_ [Tl _]]]. apply (Tl "maneuver_parameters" mans x); [cbn [In]; auto 12|exact Ix].
Qed.

(* the data block of a message before and after *)
Lemma bare_named n x y : uncommented x = uncommented y -> bare (n, x) = bare (n, y).
Proof. unfold bare. cbn [fst snd]. intros ->. reflexivity. Qed.
Lemma said_named n c vars c' vars' : all_comments (VObj c vars) = all_comments (VObj c' vars') -> said (n, VObj c vars) = said (n, VObj c' vars').
Proof. unfold said. cbn [fst snd]. intros ->. reflexivity. Qed.
Lemma single_bare c b sg dc h m cs cs' secs secs' r : flat_map bare secs' = flat_map bare secs ->
  uncommented (single_message c b sg dc h m (("comment", VList cs') :: secs' ++ r)) = uncommented (single_message c b sg dc h m (("comment", VList cs) :: secs ++ r)).
Proof.
  intros E. unfold single_message. rewrite !bare_object. cbn [flat_map]. do 3 f_equal. apply bare_named. rewrite !bare_object. cbn [flat_map]. do 2 f_equal. apply bare_named.
  rewrite !bare_object. cbn [flat_map]. do 3 f_equal. apply bare_named. rewrite !bare_object. cbn [flat_map]. rewrite !bare_app, E. reflexivity.
Qed.
Lemma single_said c b sg dc h m cs cs' secs secs' r : texts cs' ++ flat_map said secs' = texts cs ++ flat_map said secs ->
  all_comments (single_message c b sg dc h m (("comment", VList (texts cs')) :: secs' ++ r)) = all_comments (single_message c b sg dc h m (("comment", VList (texts cs)) :: secs ++ r)).
Proof.
  intros E. unfold single_message. rewrite !said_object. cbn [flat_map]. do 2 f_equal. apply said_named. rewrite !said_object. cbn [flat_map]. f_equal. apply said_named.
  rewrite !said_object. cbn [flat_map]. do 2 f_equal. apply said_named. rewrite !said_object. cbn [flat_map]. rewrite !said_comment, !flat_map_app, !app_assoc, E. reflexivity.
Qed.

Lemma omm_settles u header md cs secs user : section "NdmHeader" header -> section "OmmMetadata" md -> Forall good_text cs ->
  sections omm_sections secs -> some_section secs -> opt_user u user -> settles u (omm header md (texts cs) secs user).
Proof.
  intros Sh Sm G Se Ss Uo.
  destruct (settle_data u omm_sections cs secs ltac:(vm_compute; reflexivity) Se Ss G) as [cs' [secs' [E1 [E2 [G' [Se' [Ss' [Cm _]]]]]]]].
  destruct (settled_same u omm_sections cs secs cs' secs' ltac:(vm_compute; reflexivity) Se Ss E1 E2) as [A1 A2].
  apply (settled u _ (omm header md (texts cs') secs' user)).
  - apply keeps_omm; assumption.
  - apply single_same; [vm_compute; reflexivity|vm_compute; reflexivity|vm_compute; reflexivity|vm_compute; reflexivity| |apply (data_same u omm_sections); try assumption; vm_compute; reflexivity].
    cbn [map fst]. rewrite map_app, (names_of _ _ Se'). vm_compute. reflexivity.
  - apply single_bare. exact A2.
  - apply single_said. exact A1.
Qed.
Theorem C67_omm : forall u src v, empty_read u -> kvn_from_string u src = Ok v -> (exists vars, v = VObj "Omm" vars) -> tidy v ->
  object_at ["header"] v -> object_at ["body"; "segment"; "metadata"] v ->
  (exists n, n <> "user_defined_parameters" /\ object_at ["body"; "segment"; "data"; n] v) ->
  (forall x, attribute ["body"; "segment"; "data"; "user_defined_parameters"] v x -> opt_user u x) ->
  converts (kvn_to_string u) (kvn_from_string u) v.
Proof.
  intros u src v Em R [vars Ev] T Ah Am Ad Us. destruct (C66_conforms u src v Em R) as [c [vars' [_ [E C]]]]. assert (c = "Omm") by congruence. subst c.
  destruct (omm_parts_of u v C T Ah Am Ad Us) as [header [md [cs [secs [user [E' [Sh [Sm [G [Se [Ss Uo]]]]]]]]]]]. clear Ev E. subst v.
  apply settles_converts, omm_settles; assumption.
Qed.
Lemma rdm_settles u header md cs secs user : section "RdmHeader" header -> section "RdmMetadata" md -> Forall good_text cs ->
  sections rdm_sections secs -> some_section secs -> opt_user u user -> settles u (rdm header md (texts cs) secs user).
Proof.
  intros Sh Sm G Se Ss Uo.
  destruct (settle_data u rdm_sections cs secs ltac:(vm_compute; reflexivity) Se Ss G) as [cs' [secs' [E1 [E2 [G' [Se' [Ss' [Cm _]]]]]]]].
  destruct (settled_same u rdm_sections cs secs cs' secs' ltac:(vm_compute; reflexivity) Se Ss E1 E2) as [A1 A2].
  apply (settled u _ (rdm header md (texts cs') secs' user)).
  - apply keeps_rdm; assumption.
  - apply single_same; [vm_compute; reflexivity|vm_compute; reflexivity|vm_compute; reflexivity|vm_compute; reflexivity| |apply (data_same u rdm_sections); try assumption; vm_compute; reflexivity].
    cbn [map fst]. rewrite map_app, (names_of _ _ Se'). vm_compute. reflexivity.
  - apply single_bare. exact A2.
  - apply single_said. exact A1.
Qed.
Theorem C67_rdm : forall u src v, empty_read u -> kvn_from_string u src = Ok v -> (exists vars, v = VObj "Rdm" vars) -> tidy v ->
  object_at ["header"] v -> object_at ["body"; "segment"; "metadata"] v ->
  (exists n, n <> "user_defined_parameters" /\ object_at ["body"; "segment"; "data"; n] v) ->
  (forall x, attribute ["body"; "segment"; "data"; "user_defined_parameters"] v x -> opt_user u x) ->
  converts (kvn_to_string u) (kvn_from_string u) v.
Proof.
  intros u src v Em R [vars Ev] T Ah Am Ad Us. destruct (C66_conforms u src v Em R) as [c [vars' [_ [E C]]]]. assert (c = "Rdm") by congruence. subst c.
  destruct (rdm_parts_of u v C T Ah Am Ad Us) as [header [md [cs [secs [user [E' [Sh [Sm [G [Se [Ss Uo]]]]]]]]]]]. clear Ev E. subst v.
  apply settles_converts, rdm_settles; assumption.
Qed.
Lemma opm_settles u header md cs secs mans user : section "NdmHeader" header -> section "OpmMetadata" md -> Forall good_text cs ->
  sections opm_sections secs -> some_section secs -> Forall (section "ManeuverParametersType") mans -> no_new_fields mans -> opt_user u user ->
  settles u (opm header md (texts cs) secs mans user).
Proof.
  intros Sh Sm G Se Ss Fm Nn Uo.
  destruct (settle_data u opm_sections cs secs ltac:(vm_compute; reflexivity) Se Ss G) as [cs' [secs' [E1 [E2 [G' [Se' [Ss' [Cm _]]]]]]]].
  destruct (settled_same u opm_sections cs secs cs' secs' ltac:(vm_compute; reflexivity) Se Ss E1 E2) as [A1 A2].
  apply (settled u _ (opm header md (texts cs') secs' mans user)).
  - apply keeps_opm; assumption.
  - apply single_same; [vm_compute; reflexivity|vm_compute; reflexivity|vm_compute; reflexivity|vm_compute; reflexivity| |apply (data_same u opm_sections); try assumption; vm_compute; reflexivity].
    cbn [map fst]. rewrite map_app, (names_of _ _ Se'). vm_compute. reflexivity.
  - apply single_bare. exact A2.
  - apply single_said. exact A1.
Qed.
Theorem C67_opm : forall u src v, empty_read u -> kvn_from_string u src = Ok v -> (exists vars, v = VObj "Opm" vars) -> tidy v ->
  object_at ["header"] v -> object_at ["body"; "segment"; "metadata"] v ->
  (exists n, n <> "user_defined_parameters" /\ object_at ["body"; "segment"; "data"; n] v) ->
  (forall l, attribute ["body"; "segment"; "data"; "maneuver_parameters"] v (VList l) -> no_new_fields l) ->
  (forall x, attribute ["body"; "segment"; "data"; "user_defined_parameters"] v x -> opt_user u x) ->
  converts (kvn_to_string u) (kvn_from_string u) v.
Proof.
  intros u src v Em R [vars Ev] T Ah Am Ad Nm Us. destruct (C66_conforms u src v Em R) as [c [vars' [_ [E C]]]]. assert (c = "Opm") by congruence. subst c.
  destruct (opm_parts_of u v C T Ah Am Ad Nm Us) as [header [md [cs [secs [mans [user [E' [Sh [Sm [G [Se [Ss [Fm [Nn Uo]]]]]]]]]]]]]]. clear Ev E. subst v.
  apply settles_converts, opm_settles; assumption.
Qed.

(* ---- conjunction data messages ---- *)
Lemma sets_at v n : sets v n <-> exists x, attribute [n] v x /\ is_set x.
Proof.
  split.
  - intros [c [vars [x [-> [I S]]]]]. exists x. split; [eapply attribute_of; [exact I|constructor]|exact S].
  - intros [x [A S]]. inversion A as [|? ? c vars z ? I A']; subst. apply attribute_end in A'. subst. exists c, vars, z. auto.
Qed.
Lemma own_metadata p n x : attribute ["metadata"; n] (segment_object "CdmSegment" "CdmData" p) x <-> attribute [n] (fst (fst p)) x.
Proof.
  destruct p as [[md cs] secs]. cbn [segment_object fst]. split.
  - intros A. apply attribute_next in A. destruct A as [y [I A]]. here I. exact A.
  - intros A. eapply attribute_of; [left; reflexivity|exact A].
Qed.
Lemma own_data p s n x : s <> "comment" -> attribute ["data"; s; n] (segment_object "CdmSegment" "CdmData" p) x <-> exists y, In (s, y) (snd p) /\ attribute [n] y x.
Proof.
  intros Ns. destruct p as [[md cs] secs]. cbn [segment_object snd]. split.
  - intros A. apply attribute_next in A. destruct A as [y [I A]]. here I. apply attribute_next in A. destruct A as [y [I A]]. destruct I as [I|I]; [congruence|]. eauto.
  - intros [y [I A]]. eapply attribute_of; [right; left; reflexivity|]. eapply attribute_of; [right; exact I|exact A].
Qed.
Lemma cdm_four secs : sections cdm_sections secs -> exists a b c d, secs = [("od_parameters", a); ("additional_parameters", b); ("state_vector", c); ("covariance_matrix", d)].
Proof.
  intros S. unfold sections, cdm_sections in S. inversion S as [|? [? a] ? ? [Ea _] S1]; subst. inversion S1 as [|? [? b] ? ? [Eb _] S2]; subst. inversion S2 as [|? [? c] ? ? [Ec _] S3]; subst.
  inversion S3 as [|? [? d] ? ? [Ed _] S4]; subst. inversion S4; subst. cbn [fst] in *. subst. eauto.
Qed.
Lemma no_new_parts ps : Forall cdm_segment_ok ps -> no_new_attributes (map (segment_object "CdmSegment" "CdmData") ps) -> no_new_keys ps.
Proof.
  induction ps as [|p ps IH]; intros F H; [exact I|]. inversion F as [|? ? Fp F']; subst. cbn [map no_new_attributes] in H. destruct H as [H Hr]. pose proof (IH F' Hr) as X. destruct p as [[md cs] secs].
  split; [|exact X]. intros md' cs' secs' Ip. pose proof (in_map (segment_object "CdmSegment" "CdmData") _ _ Ip) as Im. assert (H' := fun p x => H _ p x Im). clear H. rename H' into H. split.
  - intros n Sn. apply sets_at in Sn. destruct Sn as [x [A Sx]]. destruct (H ["metadata"; n] x) as [y [B Sy]]; [left; eauto|apply own_metadata; exact A|exact Sx|]. apply sets_at. exists y. split; [|exact Sy]. apply own_metadata in B. exact B.
  - rewrite Forall_forall in F'. specialize (F' _ Ip). destruct F' as [_ [_ [Se' _]]]. destruct Fp as [_ [_ [Se _]]]. destruct (cdm_four _ Se) as [a [b [c [d ->]]]]. destruct (cdm_four _ Se') as [a' [b' [c' [d' ->]]]].
    assert (K : forall s n, In s ["od_parameters"; "additional_parameters"; "state_vector"; "covariance_matrix"] -> forall w v, In (s, w) [("od_parameters", a'); ("additional_parameters", b'); ("state_vector", c'); ("covariance_matrix", d')] ->
      (forall z, In (s, z) [("od_parameters", a); ("additional_parameters", b); ("state_vector", c); ("covariance_matrix", d)] -> z = v) -> sets w n -> sets v n).
    { intros s n Is w v Iw Iv Sn. apply sets_at in Sn. destruct Sn as [x [A Sx]]. assert (Ns : s <> "comment") by (cbn [In] in Is; decompose [or] Is; try contradiction; subst; discriminate).
      destruct (H ["data"; s; n] x) as [y [B Sy]]; [right; eauto|apply own_data; [exact Ns|eauto]|exact Sx|]. apply (own_data _ _ _ _ Ns) in B. destruct B as [z [Iz B]]. rewrite <- (Iv z Iz). apply sets_at. eauto. }
    repeat constructor; cbn [snd]; intros n.
    + apply (K "od_parameters"); [cbn [In]; auto|cbn [In]; auto|]. intros z Iz. here Iz; reflexivity.
    + apply (K "additional_parameters"); [cbn [In]; auto|cbn [In]; auto|]. intros z Iz. here Iz; reflexivity.
    + apply (K "state_vector"); [cbn [In]; auto|cbn [In]; auto|]. intros z Iz. here Iz; reflexivity.
    + apply (K "covariance_matrix"); [cbn [In]; auto 6|cbn [In]; auto 6|]. intros z Iz. here Iz; reflexivity.
Qed.
Lemma cdm_segment_of v : conforms (TCls "CdmSegment") v -> tidy v -> object_at ["metadata"] v -> (exists n, object_at ["data"; n] v) ->
  exists p, v = segment_object "CdmSegment" "CdmData" p /\ cdm_segment_ok p.
Proof.
  intros C T [cm [vm Am]] [n [cd [vd Ad]]]. destruct (attribute_object _ _ _ _ _ Am) as [c [vars ->]]. destruct (object_fields _ _ C _ _ eq_refl) as [-> F]. fields F. take F m Hm. take F d Hd. done F.
  apply attribute_next in Am. destruct Am as [? [I A]]. here I. apply attribute_end in A. subst m. apply attribute_next in Ad. destruct Ad as [? [I Ad]]. here I.
  destruct (attribute_object _ _ _ _ _ Ad) as [? [dvars ->]]. eapply take_object in Hd; try reflexivity. destruct Hd as [-> F]. fields F. apply attribute_next in Ad. destruct Ad as [? [In_d Ad]]. apply attribute_end in Ad. subst.
  pose proof (tidy_attr _ _ "metadata" _ T ltac:(left; reflexivity)) as Tm. pose proof (tidy_attr _ _ "data" _ T ltac:(right; left; reflexivity)) as Td.
  take F c0 H0. take F c1 H1. take F c2 H2. take F c3 H3. take F c4 H4. done F. comments_here Td H0 cs G.
  exists (VObj cm vm, cs, [("od_parameters", c1); ("additional_parameters", c2); ("state_vector", c3); ("covariance_matrix", c4)]). split; [reflexivity|].
  split; [apply (holds_there _ _ _ Hm); [reflexivity|reflexivity|listed|exact Tm|discriminate]|]. split; [exact G|].
  split; [constructor; [part Td H1|constructor; [part Td H2|constructor; [part Td H3|constructor; [part Td H4|constructor]]]]|].
  exists n, (VObj cd vd). split; [|discriminate]. cbn [In] in In_d |- *. decompose [or] In_d; try congruence; auto.
Qed.
Lemma cdm_segments_of l : each (TCls "CdmSegment") l -> tidy (VList l) -> Forall (fun s => object_at ["metadata"] s /\ exists n, object_at ["data"; n] s) l ->
  exists ps, l = map (segment_object "CdmSegment" "CdmData") ps /\ Forall cdm_segment_ok ps.
Proof.
  intros E T F. induction F as [|s l [A B] F IH]; [exists []; split; [reflexivity|constructor]|].
  assert (Ts : tidy s) by (apply (tidy_inside _ _ T); eapply inside_item; [left; reflexivity|constructor]).
  assert (Tl : tidy (VList l)). { intros c vars Iv. apply T. inversion Iv; subst. eapply inside_item; [right; eassumption|assumption]. }
  inversion E as [|? ? E'|? ? ? C E']; subst; [destruct A as [? [? A]]; inversion A|].
  destruct (IH E' Tl) as [ps [-> G]]. destruct (cdm_segment_of s C Ts A B) as [p [-> Gp]]. exists (p :: ps). split; [reflexivity|constructor; assumption].
Qed.
Lemma firstn_subset {A} k (l : list A) x : In x (firstn k l) -> In x l.
Proof. intros H. rewrite <- (firstn_skipn k l). apply in_or_app. left. exact H. Qed.
Lemma skipn_subset {A} k (l : list A) x : In x (skipn k l) -> In x l.
Proof. intros H. rewrite <- (firstn_skipn k l). apply in_or_app. right. exact H. Qed.
Lemma relative_of x : conforms (TCls "RelativeMetadataData") x -> tidy x -> (exists n y, In n ["tca"; "miss_distance"; "relative_speed"] /\ attribute [n] x y /\ is_set y) -> relative_data x.
Proof.
  intros C T [n [y [In_n [A Sy]]]]. inversion A as [|? ? c vars y0 ? Iy A']; subst. apply attribute_end in A'. subst y0. destruct (object_fields _ _ C _ _ eq_refl) as [-> F]. fields F. pose proof F as F0.
  take F c0 H0. take F c1 H1. take F c2 H2. take F c3 H3. take F rs Hr. pose proof F as F1. repeat (let z := fresh "z" in let Hz := fresh "Hz" in take F z Hz). done F.
  eexists [("comment", c0); ("tca", c1); ("miss_distance", c2); ("relative_speed", c3)], rs, _. split; [reflexivity|].
  assert (Nc : "RelativeMetadataData" <> "UserDefinedParameterType") by discriminate.
  split; [|split; [|split]].
  - apply (fun a b c => fields_ok _ _ (firstn 4 (fields_of "RelativeMetadataData")) _ a b c Nc T); [vm_compute; reflexivity|intros f Hf; exact (firstn_subset 4 _ _ Hf)|intros kv Hkv; cbn [In] in *; tauto|].
    repeat (constructor; [split; [reflexivity|assumption]|]). constructor.
  - apply (fun a b c => holds_section _ _ _ a b c Hr); [reflexivity|reflexivity|listed|]. eapply (tidy_attr _ _ _ _ T). cbn [In]. auto 12.
  - apply (fun a b c => fields_ok _ _ (skipn 5 (fields_of "RelativeMetadataData")) _ a b c Nc T); [vm_compute; reflexivity|intros f Hf; exact (skipn_subset 5 _ _ Hf)|intros kv Hkv; do 5 right; exact Hkv|]. exact F1.
  - exists n, y. split; [|exact Sy]. cbn [In] in In_n, Iy |- *. decompose [or] In_n; try contradiction; subst; decompose [or] Iy; try congruence; auto.
Qed.

Lemma cdm_parts_of v : conforms (TCls "Cdm") v -> tidy v -> object_at ["header"] v ->
  (exists n x, In n ["tca"; "miss_distance"; "relative_speed"] /\ attribute ["body"; "relative_metadata_data"; n] v x /\ is_set x) ->
  (forall l, attribute ["body"; "segment"] v (VList l) -> l <> [] /\ Forall (fun s => object_at ["metadata"] s /\ exists n, object_at ["data"; n] s) l /\ no_new_attributes l) ->
  exists header relative ps, v = cdm_message header relative (map (segment_object "CdmSegment" "CdmData") ps) /\ section "CdmHeader" header /\ relative_data relative /\ ps <> [] /\
    Forall cdm_segment_ok ps /\ no_new_keys ps.
Proof.
  intros C T [ch [vh Ah]] [n [x [In_n [Ax Sx]]]] Sg. destruct (attribute_object _ _ _ _ _ Ah) as [c [vars ->]]. destruct (object_fields _ _ C _ _ eq_refl) as [-> F]. fields F. take F h Hh. take F b Hb. done F.
  apply attribute_next in Ah. destruct Ah as [? [I A]]. here I. apply attribute_end in A. subst h. apply attribute_next in Ax. destruct Ax as [? [I Ax]]. here I.
  inversion Ax as [|? ? c vars y ? Iy Ax']; subst. eapply take_object in Hb; try reflexivity. destruct Hb as [-> F]. fields F. take F r Hr. take F s Hs. done F. apply take_list in Hs; [|reflexivity]. destruct Hs as [l [-> El]].
  here Iy.
  pose proof (tidy_attr _ _ "header" _ T ltac:(left; reflexivity)) as Th. pose proof (tidy_attr _ _ "body" _ T ltac:(right; left; reflexivity)) as Tb.
  pose proof (tidy_attr _ _ "relative_metadata_data" _ Tb ltac:(left; reflexivity)) as Tr. pose proof (tidy_attr _ _ "segment" _ Tb ltac:(right; left; reflexivity)) as Ts.
  destruct (Sg l) as [Nl [Fl Nn]]; [eapply attribute_of; [right; left; reflexivity|]; eapply attribute_of; [right; left; reflexivity|constructor]|].
  destruct (cdm_segments_of l El Ts Fl) as [ps [-> Fp]].
  eexists (VObj ch vh), _, ps. split; [reflexivity|]. split; [apply (holds_there _ _ _ Hh); [reflexivity|reflexivity|listed|exact Th|discriminate]|].
  split; [|split; [destruct ps; [contradiction Nl; reflexivity|discriminate]|split; [exact Fp|exact (no_new_parts ps Fp Nn)]]].
  apply relative_of; [|exact Tr|eauto]. inversion Hr as [|? ? _ Cr|? ? Lr]; subst; [inversion Ax'|exact Cr|discriminate Lr].
Qed.
Lemma cdm_settles u header relative ps : section "CdmHeader" header -> relative_data relative -> ps <> [] -> Forall cdm_segment_ok ps -> no_new_keys ps ->
  settles u (cdm_message header relative (map (segment_object "CdmSegment" "CdmData") ps)).
Proof.
  intros Sh Rl Ne Fp Nn.
  assert (X : exists ps', map (settle "CdmSegment" "CdmData") ps = map (segment_object "CdmSegment" "CdmData") ps' /\
    Forall cdm_segment_ok ps' /\ Forall cdm_segment_settled ps' /\ Forall2 alike ps ps' /\
    Forall2 (fun p p' => uncommented (segment_object "CdmSegment" "CdmData" p') = uncommented (segment_object "CdmSegment" "CdmData" p) /\
                         all_comments (segment_object "CdmSegment" "CdmData" p') = all_comments (segment_object "CdmSegment" "CdmData" p) /\
                         alike_obj u (segment_object "CdmSegment" "CdmData" p') (segment_object "CdmSegment" "CdmData" p)) ps ps').
  { clear Ne Nn. induction Fp as [|p ps Hp _ IH]; [exists []; repeat split; constructor|]. destruct IH as [ps' [A [B [D [E F]]]]].
    destruct p as [[md cs] secs]. pose proof Hp as Hp'. destruct Hp as [Sm [G [Se Ss]]].
    destruct (settle_data u cdm_sections cs secs ltac:(vm_compute; reflexivity) Se Ss G) as [cs' [secs' [E1 [E2 [G' [Se' [Ss' [Cm [_ Fs]]]]]]]]].
    destruct (settled_same u cdm_sections cs secs cs' secs' ltac:(vm_compute; reflexivity) Se Ss E1 E2) as [A1 A2].
    exists ((md, cs', secs') :: ps'). cbn [map]. rewrite A. split; [f_equal; cbn [settle segment_object]; rewrite E1, E2; reflexivity|]. split; [constructor; [repeat split; assumption|exact B]|].
    split; [constructor; [exact Cm|exact D]|]. split; [constructor; [split; [reflexivity|exact Fs]|exact E]|]. constructor; [|exact F]. cbn [segment_object]. split; [|split].
    - rewrite !bare_object. cbn [flat_map]. do 3 f_equal. apply bare_named. rewrite !bare_object. cbn [flat_map]. rewrite A2. reflexivity.
    - rewrite !said_object. cbn [flat_map]. do 2 f_equal. apply said_named. rewrite !said_object. cbn [flat_map]. rewrite !said_comment, A1. reflexivity.
    - constructor; [vm_compute; reflexivity|]. apply alike_cons, alike_one. apply sub_same; [|vm_compute; reflexivity|].
      + cbn [map fst]. rewrite (names_of _ _ Se'). vm_compute. reflexivity.
      + pose proof (data_same u cdm_sections secs [] cs cs' secs' ltac:(vm_compute; reflexivity) ltac:(vm_compute; reflexivity) Se Ss E1 E2) as X. rewrite !app_nil_r in X. exact X. }
  destruct X as [ps' [A [B [D [E F]]]]].
  apply (settled u _ (cdm_message header relative (map (segment_object "CdmSegment" "CdmData") ps'))).
  - apply keeps_cdm; try assumption; [|exact (no_new_alike _ _ E Nn)]. inversion E; subst; [contradiction|discriminate].
  - apply cdm_same. clear - F. induction F as [|p p' ps ps' [_ [_ H]] _ IH]; cbn [map]; constructor; assumption.
  - unfold cdm_message. rewrite !bare_object. cbn [flat_map]. do 3 f_equal. apply bare_named. rewrite !bare_object. cbn [flat_map]. do 3 f_equal. apply bare_named. cbn [uncommented]. f_equal.
    clear - F. induction F as [|p p' ps ps' [H _] _ IH]; [reflexivity|]. cbn [map]. rewrite H, IH. reflexivity.
  - unfold cdm_message. rewrite !said_object. cbn [flat_map]. do 2 f_equal. apply said_named. rewrite !said_object. cbn [flat_map]. do 2 f_equal. unfold said. cbn [fst snd all_comments String.eqb Ascii.eqb Bool.eqb app].
    clear - F. induction F as [|p p' ps ps' [_ [H _]] _ IH]; [reflexivity|]. cbn [map flat_map]. rewrite H, IH. reflexivity.
Qed.
Theorem C67_cdm : forall u src v, empty_read u -> kvn_from_string u src = Ok v -> (exists vars, v = VObj "Cdm" vars) -> tidy v ->
  object_at ["header"] v ->
  (exists n x, In n ["tca"; "miss_distance"; "relative_speed"] /\ attribute ["body"; "relative_metadata_data"; n] v x /\ is_set x) ->
  (forall l, attribute ["body"; "segment"] v (VList l) ->
     l <> [] /\ Forall (fun s => object_at ["metadata"] s /\ exists n, object_at ["data"; n] s) l /\ no_new_attributes l) ->
  converts (kvn_to_string u) (kvn_from_string u) v.
Proof.
  intros u src v Em R [vars Ev] T Ah Ar Sg. destruct (C66_conforms u src v Em R) as [c [vars' [_ [E C]]]]. assert (c = "Cdm") by congruence. subst c.
  destruct (cdm_parts_of v C T Ah Ar Sg) as [header [relative [ps [E' [Sh [Rl [Ne [Fp Nn]]]]]]]]. clear Ev E. subst v.
  apply settles_converts, cdm_settles; assumption.
Qed.

(* ---- concrete messages ---- *)
(* a document with a comment inside a section *)
Definition moving_doc : str := doc
  ["CCSDS_OMM_VERS = 2.0"; "CREATION_DATE = 2021-01-01T00:00:00"; "ORIGINATOR = ME"; "OBJECT_NAME = SAT"; "OBJECT_ID = 2021-001A";
   "EPOCH = 2021-01-01T00:00:00"; "COMMENT inside"; "ECCENTRICITY = 0.001"; "COMMENT of the mass"; "MASS = 12 [kg]"; "USER_DEFINED_A = 1"].
Definition read_of (s : str) : pyval := ok_or_none (kvn_from_string demo_env s).
Definition same_class (c : string) (v : pyval) : bool := match v with VObj c' _ => String.eqb c' c | _ => false end.
Lemma same_class_spec c v : same_class c v = true -> exists vars, v = VObj c vars.
Proof. destruct v as [| | | | |c' vars|]; try discriminate. intros H. apply String.eqb_eq in H. subst. eauto. Qed.
Ltac at_all A := apply all_at_spec in A; vm_compute in A; repeat (destruct A as [A|A]; [subst|]); [|contradiction A].
Example C67_omm_example : kvn_from_string demo_env moving_doc = Ok (read_of moving_doc) /\ (exists vars, read_of moving_doc = VObj "Omm" vars) /\ tidy (read_of moving_doc) /\
  object_at ["header"] (read_of moving_doc) /\ object_at ["body"; "segment"; "metadata"] (read_of moving_doc) /\
  (exists n, n <> "user_defined_parameters" /\ object_at ["body"; "segment"; "data"; n] (read_of moving_doc)) /\
  (forall x, attribute ["body"; "segment"; "data"; "user_defined_parameters"] (read_of moving_doc) x -> opt_user demo_env x) /\
  all_comments (read_of moving_doc) = [VStr (lit "inside"); VStr (lit "of the mass")].
Proof.
  split; [vm_compute; reflexivity|]. split; [apply same_class_spec; vm_compute; reflexivity|]. split; [apply tidyb_spec; vm_compute; reflexivity|].
  split; [apply object_atb_spec; vm_compute; reflexivity|]. split; [apply object_atb_spec; vm_compute; reflexivity|].
  split; [exists "mean_elements"; split; [discriminate|apply object_atb_spec; vm_compute; reflexivity]|].
  split; [|vm_compute; reflexivity]. intros x A. at_all A. right. exists [(lit "A", lit "1")]. split; [|reflexivity]. apply good_paramsb_spec. vm_compute. reflexivity.
Qed.
Example C67_rdm_example : kvn_from_string demo_env (lit kvn_508x1b1_figc_2_rdm) = Ok (read_of (lit kvn_508x1b1_figc_2_rdm)) /\ (exists vars, read_of (lit kvn_508x1b1_figc_2_rdm) = VObj "Rdm" vars) /\
  tidy (read_of (lit kvn_508x1b1_figc_2_rdm)) /\ object_at ["header"] (read_of (lit kvn_508x1b1_figc_2_rdm)) /\ object_at ["body"; "segment"; "metadata"] (read_of (lit kvn_508x1b1_figc_2_rdm)) /\
  (exists n, n <> "user_defined_parameters" /\ object_at ["body"; "segment"; "data"; n] (read_of (lit kvn_508x1b1_figc_2_rdm))) /\
  (forall x, attribute ["body"; "segment"; "data"; "user_defined_parameters"] (read_of (lit kvn_508x1b1_figc_2_rdm)) x -> opt_user demo_env x).
Proof.
  split; [vm_compute; reflexivity|]. split; [apply same_class_spec; vm_compute; reflexivity|]. split; [apply tidyb_spec; vm_compute; reflexivity|].
  split; [apply object_atb_spec; vm_compute; reflexivity|]. split; [apply object_atb_spec; vm_compute; reflexivity|].
  split; [exists "state_vector"; split; [discriminate|apply object_atb_spec; vm_compute; reflexivity]|].
  intros x A. at_all A. left. reflexivity.
Qed.
Example C67_opm_example : kvn_from_string demo_env (lit kvn_502x0b2c1e2_fig3_4_opm) = Ok (read_of (lit kvn_502x0b2c1e2_fig3_4_opm)) /\ (exists vars, read_of (lit kvn_502x0b2c1e2_fig3_4_opm) = VObj "Opm" vars) /\
  tidy (read_of (lit kvn_502x0b2c1e2_fig3_4_opm)) /\ object_at ["header"] (read_of (lit kvn_502x0b2c1e2_fig3_4_opm)) /\ object_at ["body"; "segment"; "metadata"] (read_of (lit kvn_502x0b2c1e2_fig3_4_opm)) /\
  (exists n, n <> "user_defined_parameters" /\ object_at ["body"; "segment"; "data"; n] (read_of (lit kvn_502x0b2c1e2_fig3_4_opm))) /\
  (forall l, attribute ["body"; "segment"; "data"; "maneuver_parameters"] (read_of (lit kvn_502x0b2c1e2_fig3_4_opm)) (VList l) -> no_new_fields l) /\
  (forall x, attribute ["body"; "segment"; "data"; "user_defined_parameters"] (read_of (lit kvn_502x0b2c1e2_fig3_4_opm)) x -> opt_user demo_env x).
Proof.
  split; [vm_compute; reflexivity|]. split; [apply same_class_spec; vm_compute; reflexivity|]. split; [apply tidyb_spec; vm_compute; reflexivity|].
  split; [apply object_atb_spec; vm_compute; reflexivity|]. split; [apply object_atb_spec; vm_compute; reflexivity|].
  split; [exists "state_vector"; split; [discriminate|apply object_atb_spec; vm_compute; reflexivity]|].
  split; [|intros x A; at_all A; right; exists [(lit "EARTH_MODEL", lit "WGS-84")]; split; [|reflexivity]; apply good_paramsb_spec; vm_compute; reflexivity].
  intros l A. apply all_at_spec in A. vm_compute in A. destruct A as [A|[]]. injection A as <-. apply no_new_b_spec. vm_compute. reflexivity.
Qed.
Example C67_cdm_example : kvn_from_string demo_env (lit kvn_cdm_example_section4) = Ok (read_of (lit kvn_cdm_example_section4)) /\ (exists vars, read_of (lit kvn_cdm_example_section4) = VObj "Cdm" vars) /\
  tidy (read_of (lit kvn_cdm_example_section4)) /\ object_at ["header"] (read_of (lit kvn_cdm_example_section4)) /\
  (exists n x, In n ["tca"; "miss_distance"; "relative_speed"] /\ attribute ["body"; "relative_metadata_data"; n] (read_of (lit kvn_cdm_example_section4)) x /\ is_set x) /\
  (forall l, attribute ["body"; "segment"] (read_of (lit kvn_cdm_example_section4)) (VList l) ->
     l <> [] /\ Forall (fun s => object_at ["metadata"] s /\ exists n, object_at ["data"; n] s) l /\ no_new_attributes l).
Proof.
  split; [vm_compute; reflexivity|]. split; [apply same_class_spec; vm_compute; reflexivity|]. split; [apply tidyb_spec; vm_compute; reflexivity|].
  split; [apply object_atb_spec; vm_compute; reflexivity|]. split.
  - exists "tca". eexists. split; [left; reflexivity|]. split; [apply all_at_spec; vm_compute; left; reflexivity|exact I].
  - intros l A. apply all_at_spec in A. vm_compute in A. destruct A as [A|[]]. injection A as <-. split; [discriminate|]. split; [|apply no_newb_spec; vm_compute; reflexivity].
    repeat (constructor; [split; [apply object_atb_spec; vm_compute; reflexivity|exists "state_vector"; apply object_atb_spec; vm_compute; reflexivity]|]). constructor.
Qed.
(* the message that is read after the conversion need not be the one that was converted: comments move *)
Theorem C67_unchanged_refuted : ~ (forall u src v, empty_read u -> kvn_from_string u src = Ok v -> (exists vars, v = VObj "Omm" vars) -> tidy v ->
  object_at ["header"] v -> object_at ["body"; "segment"; "metadata"] v ->
  (exists n, n <> "user_defined_parameters" /\ object_at ["body"; "segment"; "data"; n] v) ->
  (forall x, attribute ["body"; "segment"; "data"; "user_defined_parameters"] v x -> opt_user u x) ->
  exists t, kvn_to_string u v = Ok t /\ kvn_from_string u t = Ok v).
Proof.
  intros H. destruct C67_omm_example as [A [B [C [D [E [F [G _]]]]]]]. destruct (H _ _ _ demo_reads A B C D E F G) as [t [W R]]. clear - W R.
  assert (X : match kvn_to_string demo_env (read_of moving_doc) with Ok t => kvn_from_string demo_env t | Err e => Err e end = Ok (read_of moving_doc)) by (rewrite W; exact R).
  apply (f_equal (fun r => all_at ["body"; "segment"; "data"; "comment"] (ok_or_none r))) in X. vm_compute in X. discriminate X.
Qed.
Print Assumptions C67_omm.
Print Assumptions C67_rdm.
Print Assumptions C67_opm.
Print Assumptions C67_cdm.
Print Assumptions C67_unchanged_refuted.
