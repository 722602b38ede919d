(* Properties C25-C28: sections and one-segment messages, written and read back. *)
From Coq Require Import NArith ZArith List Bool String Arith Lia.
From Verif Require Import PyStr PyDec PyVal Schema KvnPre KvnTree KvnSeg XmlBind KvnBuild NdmXml KvnWrite
     Spec SpecKvn SpecObj SpecMsg StrFacts DecFacts PreFacts SegFacts BuildFacts WriteFacts ParseFacts ShiftFacts
     ReadFacts ComposeFacts MsgFacts PropWrite CoreFacts UserFacts DataFacts SingleFacts ListFacts CheckFacts Demo.
Import ListNotations.
Local Open Scope string_scope.
Local Open Scope list_scope.
Local Arguments find_class : simpl never.
Local Arguments lit : simpl never.

(* ---- comments that are settled stay ---- *)
Lemma with_same v : with_comments (comments_of v) v = v.
Proof. destruct v as [| | | | |c vars|]; try reflexivity. destruct vars as [|[n []] r]; reflexivity. Qed.
Lemma give_same secs : give_comments (first_comments secs) secs = secs.
Proof.
  induction secs as [|[n v] r IH]; [reflexivity|]. cbn [first_comments give_comments].
  destruct v; try (rewrite with_same; reflexivity). rewrite IH. reflexivity.
Qed.
Lemma settled_same cs secs : comments_settled cs secs ->
  data_comments cs secs = cs /\ give_comments (section_comments cs secs) secs = secs.
Proof.
  unfold data_comments, section_comments. intros [H|[-> H]].
  - destruct cs as [|c [|d cs]]; try discriminate. cbn [app firstn skipn]. rewrite give_same. auto.
  - cbn [app]. rewrite H. cbn [firstn skipn]. split; [reflexivity|]. rewrite <- H. apply give_same.
Qed.

(* ---- user-defined parameters at the end ---- *)
Lemma user_keys u v k : opt_user u v -> In k (keys_of (user_lines v)) -> startswith kw_user k = true.
Proof.
  intros [->|[ps [_ ->]]] Hk; [destruct Hk|]. rewrite user_lines_block in Hk. unfold keys_of in Hk. rewrite map_map in Hk.
  apply in_map_iff in Hk. destruct Hk as [[n t] [<- _]]. apply startswith_spec. exists (95%N :: n). reflexivity.
Qed.
Definition no_user_kws (ss : list elem) : bool :=
  forallb (fun s => forallb (fun t => negb (startswith kw_user t)) (e_kws s)) ss.
Lemma no_user_kws_spec ss s t : no_user_kws ss = true -> In s ss -> In t (e_kws s) -> startswith kw_user t = false.
Proof.
  unfold no_user_kws. rewrite forallb_forall. intros H Hs Ht. specialize (H s Hs). rewrite forallb_forall in H.
  apply negb_true_iff. apply H. exact Ht.
Qed.
Lemma user_tail u s ss v pre : no_user_kws ss = true -> user_elem s = true -> opt_user u v ->
  (forall k, In k (keys_of pre) -> k = kw_comment \/ exists s, In s ss /\ In k (e_kws s)) ->
  subs_at u pre (user_lines v) [s] (List.length (user_lines v)) [(e_name s, v)].
Proof.
  intros N U O P. rewrite <- (app_nil_r (user_lines v)) at 1. rewrite <- (Nat.add_0_r (List.length _)).
  apply user_subs; [exact U|exact O| |intros k []|apply subs_nil].
  intros k Hk. destruct (P k Hk) as [->|[x [Hx Hi]]]; [reflexivity|]. exact (no_user_kws_spec ss x k N Hx Hi).
Qed.

(* ---- C25 ---- *)
(* a line that only marks the start or the end of a block *)
Definition marker (l : line) : bool :=
  match l with [k] => str_eqb k (lit "META_START") || str_eqb k (lit "META_STOP") | _ => false end.
(* Writing a section, reading the lines of the text and parsing them (markers aside, which the reader drops)
   gives the section. *)
Theorem C25_section_round_trip : forall u c v key,
  In c section_classes -> section c v -> key <> "comment" -> key <> "user_defined" ->
  exists raws, collate_sub u key v [] = Ok raws /\
    parse_list u c None (filter (fun l => negb (marker l)) (lex_lines (join [c_nl] raws))) = Ok v.
Proof.
  intros u c v key Hc S K1 K2.
  assert (Sc : sec_class c = true /\ forall b, forallb marker (markers c b) = true).
  { clear - Hc. repeat (destruct Hc as [<-|Hc]; [split; [vm_compute; reflexivity|intros []; vm_compute; reflexivity]|]). destruct Hc. }
  destruct Sc as [Sc M]. destruct (emits_section u key c v Sc (conj K1 K2) S []) as [raws [E [O F]]].
  exists raws. split; [exact E|]. destruct S as [vars [-> [W [n [x [Hi Si]]]]]].
  unfold sec_class in Sc. apply andb_true_iff in Sc. destruct Sc as [L _].
  assert (Nm : forall b, filter (fun l => negb (marker l)) (markers c b) = []).
  { intros b. specialize (M b). clear - M. induction (markers c b) as [|l r IH]; [reflexivity|]. cbn in *. apply andb_true_iff in M. destruct M as [-> M]. apply IH. exact M. }
  assert (Ns : forall es : list entry, filter (fun l => negb (marker l)) (map line_of es) = map line_of es).
  { induction es as [|[[k t] un] es IH]; [reflexivity|]. cbn [map filter line_of]. destruct un; cbn [marker negb]; rewrite IH; reflexivity. }
  rewrite lex_lines_join; [|intros ->|exact O].
  - rewrite F, !filter_app, !Nm. cbn [app sec_lines]. rewrite Ns, app_nil_r. apply parse_section; assumption.
  - assert (X : sec_lines (VObj c vars) = []) by (symmetry in F; apply app_eq_nil in F; destruct F as [_ F]; apply app_eq_nil in F; apply F).
    destruct (section_keys u c vars L W) as [m [ks [E1 [_ [_ [_ [_ N]]]]]]]. cbv zeta in E1. rewrite X in E1.
    apply N; [exists n, x; auto|]. destruct m; [symmetry; exact E1|discriminate].
Qed.
Print Assumptions C25_section_round_trip.

(* what the object map of a one-segment message looks like *)
Definition single_shape (c bc sc dc hc mc : string) (shape : list (string * string)) (fs2 : list field)
           (hdr body seg meta data : elem) (ss ss' : list elem) : Prop :=
  In c root_classes /\ single_ok c hdr body seg meta data ss = true /\
  (e_subs (tree_of c) = [hdr; body] /\ e_subs body = [seg] /\ e_subs seg = [meta; data] /\ e_subs data = ss ++ ss') /\
  (vars_of (new_obj c) = [("header", VNone); ("body", VNone)] /\ vars_of (new_obj bc) = [("segment", VNone)] /\
   vars_of (new_obj sc) = [("metadata", VNone); ("data", VNone)]) /\
  (exists fs1, tl (fields_of dc) = fs1 ++ fs2 /\ Forall2 (fun f s => f_name f = e_name s /\ f_list f = false) fs1 ss) /\
  (e_cls body = bc /\ e_cls seg = sc /\ e_cls data = dc /\ e_cls hdr = hc /\ e_cls meta = mc) /\
  (map (fun s => (e_name s, e_cls s)) ss = shape /\ forallb (fun s => negb (e_islist s)) ss = true) /\
  no_user_kws (hdr :: meta :: ss) = true.

Lemma fields_match fs ss : map f_name fs = map e_name ss -> forallb (fun f => negb (f_list f)) fs = true ->
  Forall2 (fun f s => f_name f = e_name s /\ f_list f = false) fs ss.
Proof.
  revert ss. induction fs as [|f fs IH]; intros [|s ss] H L; try discriminate; [constructor|].
  cbn in H, L. injection H as H1 H2. apply andb_true_iff in L. destruct L as [L1 L2]. constructor; [|apply IH; assumption].
  split; [exact H1|]. apply negb_true_iff. exact L1.
Qed.

Lemma names_given ss secs l : Forall2 sec_of ss secs -> map fst (give_comments l secs) = map e_name ss.
Proof.
  intros F. transitivity (map fst secs).
  - clear. induction secs as [|[n v] r IH]; [reflexivity|]. cbn [give_comments]. destruct v; cbn [map fst]; try reflexivity. rewrite IH. reflexivity.
  - induction F as [|s nv ss sv [E _] _ IH]; [reflexivity|]. cbn. rewrite E, IH. reflexivity.
Qed.

Lemma single_at u c bc sc dc hc mc shape fs2 hdr body seg meta data ss ss' header md cs secs more lsm att' :
  single_shape c bc sc dc hc mc shape fs2 hdr body seg meta data ss ss' ->
  section hc header -> section mc md -> Forall good_text cs -> sections shape secs -> some_section secs ->
  emits_vars u more lsm -> mem_string "units" (map fst more) = false ->
  (forall pre, (forall k, In k (keys_of pre) -> k = kw_comment \/ exists s, In s ss /\ In k (e_kws s)) ->
     subs_at u pre lsm ss' (List.length lsm) att') ->
  (forall s t, In s (hdr :: meta :: ss) -> In t (e_kws s) -> t <> kw_comment -> ~ In t (keys_of lsm)) ->
  (forall pre, map fst pre = "comment" :: map fst shape -> attach_all att' (pre ++ defaults fs2) = Ok (pre ++ more)) ->
  exists t, kvn_to_string u (single_message c bc sc dc header md (("comment", VList (texts cs)) :: secs ++ more)) = Ok t /\
            kvn_from_string u t = Ok (single_message c bc sc dc header md
               (("comment", VList (data_comments (texts cs) secs)) ::
                give_comments (section_comments (texts cs) secs) secs ++ more)).
Proof.
  intros [Hc [Ok1 [[E1 [E2 [E3 E4]]] [[N1 [N2 N3]] [[fs1 [Ef Fn]] [[<- [<- [<- [<- <-]]]] [[Em Ei] _]]]]]]].
  intros Sh Sm G S Ss Emm Um HS KS A.
  pose proof (sections_sec_of shape ss secs Em Ei S) as F.
  eapply single_core; try eassumption.
  specialize (A (("comment", VList (data_comments (texts cs) secs)) :: give_comments (section_comments (texts cs) secs) secs)).
  cbn [map fst app] in A. apply A. rewrite (names_given ss) by exact F. rewrite <- Em, map_map. reflexivity.
Qed.

Ltac by_compute := vm_compute; reflexivity.
(* [n] sections, then what is left of the data block *)
Ltac shape c n d :=
  exists (at_name ["header"] (tree_of c)), (at_name ["body"] (tree_of c)), (at_name ["body"; "segment"] (tree_of c)),
    (at_name ["body"; "segment"; "metadata"] (tree_of c)), (at_name ["body"; "segment"; "data"] (tree_of c)),
    (firstn n (e_subs (at_name ["body"; "segment"; "data"] (tree_of c))));
  split; [cbn [In root_classes]; tauto|]; split; [by_compute|];
  split; [repeat (apply conj); by_compute|]; split; [repeat (apply conj); by_compute|];
  split; [exists (firstn n (tl (fields_of d))); split; [by_compute|apply fields_match; by_compute]|];
  split; [repeat (apply conj); by_compute|]; split; [apply conj; by_compute|by_compute].

Definition user_field : field := nth 5 (fields_of "OmmData") comment_field.
Definition user_part : elem := at_name ["body"; "segment"; "data"; "user_defined_parameters"] (tree_of "Omm").
Lemma user_part_ok : user_elem user_part = true /\ e_name user_part = "user_defined_parameters".
Proof. split; by_compute. Qed.
Lemma user_field_ok : f_name user_field = "user_defined_parameters" /\ f_list user_field = false.
Proof. split; by_compute. Qed.

Lemma omm_shape : exists hdr body seg meta data ss,
  single_shape "Omm" "OmmBody" "OmmSegment" "OmmData" "NdmHeader" "OmmMetadata" omm_sections [user_field]
               hdr body seg meta data ss [user_part].
Proof. shape "Omm" 4 "OmmData". Qed.
Lemma rdm_shape : exists hdr body seg meta data ss,
  single_shape "Rdm" "RdmBody" "RdmSegment" "RdmData" "RdmHeader" "RdmMetadata" rdm_sections [user_field]
               hdr body seg meta data ss [user_part].
Proof. shape "Rdm" 6 "RdmData". Qed.

(* messages whose last part are the user-defined parameters *)
Lemma single_user u c bc sc dc hc mc shape hdr body seg meta data ss header md cs secs user :
  single_shape c bc sc dc hc mc shape [user_field] hdr body seg meta data ss [user_part] ->
  NoDup (("comment" :: map fst shape) ++ ["user_defined_parameters"]) ->
  section hc header -> section mc md -> Forall good_text cs -> sections shape secs -> some_section secs -> opt_user u user ->
  exists t, kvn_to_string u (single_message c bc sc dc header md
                (("comment", VList (texts cs)) :: secs ++ [("user_defined_parameters", user)])) = Ok t /\
            kvn_from_string u t = Ok (single_message c bc sc dc header md
               (("comment", VList (data_comments (texts cs) secs)) ::
                give_comments (section_comments (texts cs) secs) secs ++ [("user_defined_parameters", user)])).
Proof.
  intros Sp Nu Sh Sm G S Ss Us.
  assert (Nk : no_user_kws (hdr :: meta :: ss) = true) by apply Sp.
  apply (single_at u c bc sc dc hc mc shape [user_field] hdr body seg meta data ss [user_part] header md cs secs
    [("user_defined_parameters", user)] (user_lines user) [("user_defined_parameters", user)]); try assumption; destruct user_part_ok as [Pu Pn]; destruct user_field_ok as [Fu Fl].
  - rewrite <- (app_nil_r (user_lines user)). apply emits_vars_cons; [|apply emits_vars_nil]. apply emits_user; [split; discriminate|exact Us].
  - reflexivity.
  - intros pre P. rewrite <- Pn. apply (user_tail u user_part ss user pre); [|exact Pu|exact Us|exact P].
    unfold no_user_kws in Nk. cbn [forallb] in Nk. apply andb_true_iff in Nk. destruct Nk as [_ Nk]. apply andb_true_iff in Nk. apply Nk.
  - intros s t Hs Ht _ Hi. apply (user_keys u user t Us) in Hi. rewrite (no_user_kws_spec _ s t Nk Hs Ht) in Hi. discriminate.
  - intros pre P. rewrite <- (app_nil_r (defaults _)). rewrite attach_fields.
    + rewrite app_nil_r. reflexivity.
    + constructor; [split; [symmetry; exact Fu|exact Fl]|constructor].
    + rewrite P. cbn [map]. rewrite Fu. exact Nu.
Qed.

Ltac no_dup := apply no_dup_strings_spec; by_compute.

(* ---- C26 ---- *)
(* Writing a well-formed OMM and reading the text gives the message back, except that of the comments in
   front of the first section one belongs to the data block and the others to that section. *)
Theorem C26_omm_read_back : forall u header md cs secs user,
  section "NdmHeader" header -> section "OmmMetadata" md -> Forall good_text cs ->
  sections omm_sections secs -> some_section secs -> opt_user u user ->
  exists t, kvn_to_string u (omm header md (texts cs) secs user) = Ok t /\
            kvn_from_string u t = Ok (omm header md (data_comments (texts cs) secs)
                                        (give_comments (section_comments (texts cs) secs) secs) user).
Proof.
  intros u header md cs secs user Sh Sm G S Ss Us. destruct omm_shape as [hdr [body [seg [meta [data [ss Sp]]]]]].
  apply (single_user _ _ _ _ _ _ _ _ _ _ _ _ _ _ _ _ _ _ _ Sp); try assumption. no_dup.
Qed.

(* With the comments where the reader puts them the same message is read back. *)
Theorem C26_omm_round_trip_partial : forall u header md cs secs user,
  section "NdmHeader" header -> section "OmmMetadata" md -> Forall good_text cs ->
  sections omm_sections secs -> some_section secs -> opt_user u user ->
  comments_settled (texts cs) secs ->
  exists t, kvn_to_string u (omm header md (texts cs) secs user) = Ok t /\
            kvn_from_string u t = Ok (omm header md (texts cs) secs user).
Proof.
  intros u header md cs secs user Sh Sm G S Ss Us C.
  destruct (C26_omm_read_back u header md cs secs user Sh Sm G S Ss Us) as [t [W R]].
  destruct (settled_same _ _ C) as [C1 C2]. rewrite C1, C2 in R. exists t. split; assumption.
Qed.

(* ---- C28 ---- *)
Theorem C28_rdm_read_back : forall u header md cs secs user,
  section "RdmHeader" header -> section "RdmMetadata" md -> Forall good_text cs ->
  sections rdm_sections secs -> some_section secs -> opt_user u user ->
  exists t, kvn_to_string u (rdm header md (texts cs) secs user) = Ok t /\
            kvn_from_string u t = Ok (rdm header md (data_comments (texts cs) secs)
                                        (give_comments (section_comments (texts cs) secs) secs) user).
Proof.
  intros u header md cs secs user Sh Sm G S Ss Us. destruct rdm_shape as [hdr [body [seg [meta [data [ss Sp]]]]]].
  apply (single_user _ _ _ _ _ _ _ _ _ _ _ _ _ _ _ _ _ _ _ Sp); try assumption. no_dup.
Qed.
Theorem C28_rdm_round_trip_partial : forall u header md cs secs user,
  section "RdmHeader" header -> section "RdmMetadata" md -> Forall good_text cs ->
  sections rdm_sections secs -> some_section secs -> opt_user u user ->
  comments_settled (texts cs) secs ->
  exists t, kvn_to_string u (rdm header md (texts cs) secs user) = Ok t /\
            kvn_from_string u t = Ok (rdm header md (texts cs) secs user).
Proof.
  intros u header md cs secs user Sh Sm G S Ss Us C.
  destruct (C28_rdm_read_back u header md cs secs user Sh Sm G S Ss Us) as [t [W R]].
  destruct (settled_same _ _ C) as [C1 C2]. rewrite C1, C2 in R. exists t. split; assumption.
Qed.

(* ---- C27 ---- *)
Definition man_field : field := nth 5 (fields_of "OpmData") comment_field.
Definition man_part : elem := at_name ["body"; "segment"; "data"; "maneuver_parameters"] (tree_of "Opm").
Definition list_elem (s : elem) : bool :=
  leaf_elem s && e_islist s && plain_class (e_cls s) && negb (mem_string (e_cls s) special_output_header_classes).
Lemma list_elem_spec s : list_elem s = true ->
  leaf_elem s = true /\ e_islist s = true /\ sec_class (e_cls s) = true /\ (forall b, markers (e_cls s) b = []).
Proof.
  unfold list_elem. intros H. do 3 (apply andb_true_iff in H; destruct H as [H ?]).
  split; [exact H|]. split; [assumption|]. destruct (leaf_elem_spec s H) as [_ [_ [_ [L _]]]].
  split; [unfold sec_class; rewrite L; assumption|]. intros b. unfold markers.
  match goal with X : negb _ = true |- _ => apply negb_true_iff in X; rewrite X end. reflexivity.
Qed.
Lemma man_part_ok : list_elem man_part = true /\ e_name man_part = "maneuver_parameters" /\ e_cls man_part = "ManeuverParametersType".
Proof. repeat (apply conj); by_compute. Qed.
Lemma man_field_ok : f_name man_field = "maneuver_parameters" /\ field_default man_field = VList [].
Proof. split; by_compute. Qed.
Lemma user_default : field_default user_field = VNone.
Proof. by_compute. Qed.

Lemma opm_shape : exists hdr body seg meta data ss,
  single_shape "Opm" "OpmBody" "OpmSegment" "OpmData" "NdmHeader" "OpmMetadata" opm_sections [man_field; user_field]
               hdr body seg meta data ss [man_part; user_part] /\
  no_user_kws [man_part] = true /\
  forallb (fun s => disjointb (e_kws s) (e_kws man_part)) (hdr :: meta :: ss) = true.
Proof.
  exists (at_name ["header"] (tree_of "Opm")), (at_name ["body"] (tree_of "Opm")), (at_name ["body"; "segment"] (tree_of "Opm")),
    (at_name ["body"; "segment"; "metadata"] (tree_of "Opm")), (at_name ["body"; "segment"; "data"] (tree_of "Opm")),
    (firstn 4 (e_subs (at_name ["body"; "segment"; "data"] (tree_of "Opm")))).
  split; [|split; by_compute].
  split; [cbn [In root_classes]; tauto|]; split; [by_compute|];
  split; [repeat (apply conj); by_compute|]; split; [repeat (apply conj); by_compute|];
  split; [exists (firstn 4 (tl (fields_of "OpmData"))); split; [by_compute|apply fields_match; by_compute]|];
  split; [repeat (apply conj); by_compute|]; split; [apply conj; by_compute|by_compute].
Qed.

Lemma extend_skip n vs a b : ~ In n (map fst a) -> extend_var n vs (a ++ b) = a ++ extend_var n vs b.
Proof.
  induction a as [|[k v] a IH]; intros H; [reflexivity|]. cbn [app extend_var]. destruct (String.eqb_spec k n) as [->|].
  - exfalso. apply H. left. reflexivity.
  - rewrite IH; [reflexivity|]. intros X. apply H. right. exact X.
Qed.

(* Maneuvers: a later maneuver sets no field that an earlier one lacks (without this the message is rejected or
   misread, see the refutation below). *)
Theorem C27_opm_read_back : forall u header md cs secs mans user,
  section "NdmHeader" header -> section "OpmMetadata" md -> Forall good_text cs ->
  sections opm_sections secs -> some_section secs ->
  Forall (section "ManeuverParametersType") mans -> no_new_fields mans -> opt_user u user ->
  exists t, kvn_to_string u (opm header md (texts cs) secs mans user) = Ok t /\
            kvn_from_string u t = Ok (opm header md (data_comments (texts cs) secs)
                                        (give_comments (section_comments (texts cs) secs) secs) mans user).
Proof.
  intros u header md cs secs mans user Sh Sm G S Ss Fm Nf Us.
  destruct opm_shape as [hdr [body [seg [meta [data [ss [Sp [Num Dm]]]]]]]].
  assert (Nk : no_user_kws (hdr :: meta :: ss) = true) by apply Sp.
  destruct man_part_ok as [Pl [Pn Pc]]. destruct (list_elem_spec _ Pl) as [Lm [Im [Sc Mk]]].
  rewrite <- Pc in Fm.
  assert (Um : forall t, In t (e_kws man_part) -> t <> kw_comment -> ~ In t (keys_of (user_lines user))).
  { intros t Ht _ Hi. apply (user_keys u user t Us) in Hi. rewrite (no_user_kws_spec _ man_part t Num (or_introl eq_refl) Ht) in Hi. discriminate. }
  apply (single_at u "Opm" "OpmBody" "OpmSegment" "OpmData" "NdmHeader" "OpmMetadata" opm_sections [man_field; user_field]
     hdr body seg meta data ss [man_part; user_part] header md cs secs
    [("maneuver_parameters", VList mans); ("user_defined_parameters", user)] (list_lines mans ++ user_lines user)
    (map (fun v => ("maneuver_parameters", v)) mans ++ [("user_defined_parameters", user)]) Sp); try assumption.
  - apply emits_vars_cons.
    + eapply emits_list_sections; [exact Sc|exact Mk|split; discriminate|exact Fm].
    + rewrite <- (app_nil_r (user_lines user)). apply emits_vars_cons; [|apply emits_vars_nil]. apply emits_user; [split; discriminate|exact Us].
  - reflexivity.
  - intros pre P. rewrite app_length. destruct user_part_ok as [Pu Pun]. rewrite <- Pn, <- Pun.
    apply subs_list; [exact Im|apply section_list; assumption|].
    apply (user_tail u user_part (man_part :: ss) user); [|exact Pu|exact Us|].
    + unfold no_user_kws in Num, Nk |- *. cbn [forallb] in Num, Nk |- *. apply andb_true_iff in Num. destruct Num as [Num _]. rewrite Num.
      apply andb_true_iff in Nk. destruct Nk as [_ Nk]. apply andb_true_iff in Nk. apply Nk.
    + intros k Hk. rewrite keys_of_app in Hk. apply in_app_or in Hk. destruct Hk as [Hk|Hk].
      * destruct (P k Hk) as [Y|[x [Y1 Y2]]]; [left; exact Y|right; exists x; split; [right; exact Y1|exact Y2]].
      * destruct (list_lines_incl u man_part mans k Lm Fm Hk) as [Y|Y]; [left; exact Y|right; exists man_part; split; [left; reflexivity|exact Y]].
  - intros s t Hs Ht Nc Hi. rewrite keys_of_app in Hi. apply in_app_or in Hi. destruct Hi as [Hi|Hi].
    + destruct (list_lines_incl u man_part mans t Lm Fm Hi) as [Y|Y]; [contradiction|].
      rewrite forallb_forall in Dm. exact (disjointb_spec _ _ _ (Dm s Hs) Ht Nc Y).
    + apply (user_keys u user t Us) in Hi. rewrite (no_user_kws_spec _ s t Nk Hs Ht) in Hi. discriminate.
  - intros pre P. destruct man_field_ok as [Fn Fd]. destruct user_field_ok as [Fu Fl].
    assert (Nd : NoDup (("comment" :: map fst opm_sections) ++ ["maneuver_parameters"; "user_defined_parameters"])) by (apply no_dup_strings_spec; by_compute).
    rewrite <- P in Nd. cbn [defaults map]. rewrite Fn, Fd, Fu, user_default. rewrite attach_all_app.
    assert (N1 : ~ In "maneuver_parameters" (map fst pre)) by (apply NoDup_remove_2 in Nd; intros X; apply Nd; apply in_or_app; left; exact X).
    rewrite attach_list.
    + cbn [bind]. rewrite extend_skip by exact N1. cbn [extend_var String.eqb Ascii.eqb Bool.eqb app].
      pose proof (attach_fields [user_field] [("user_defined_parameters", user)]
        ltac:(constructor; [split; [symmetry; exact Fu|exact Fl]|constructor]) (pre ++ [("maneuver_parameters", VList mans)]) []) as AF.
      rewrite map_app, <- app_assoc in AF. cbn [map fst] in AF. rewrite Fu in AF. specialize (AF Nd). cbn [defaults map app] in AF.
      rewrite Fu, user_default, <- !app_assoc in AF. exact AF.
    + exists []. rewrite assoc_skip by exact N1. reflexivity.
    + clear - Fm. induction Fm as [|v vs [vars [-> _]] _ IH]; constructor; [discriminate|exact IH].
Qed.
Theorem C27_opm_round_trip_partial : forall u header md cs secs mans user,
  section "NdmHeader" header -> section "OpmMetadata" md -> Forall good_text cs ->
  sections opm_sections secs -> some_section secs ->
  Forall (section "ManeuverParametersType") mans -> no_new_fields mans -> opt_user u user ->
  comments_settled (texts cs) secs ->
  exists t, kvn_to_string u (opm header md (texts cs) secs mans user) = Ok t /\
            kvn_from_string u t = Ok (opm header md (texts cs) secs mans user).
Proof.
  intros u header md cs secs mans user Sh Sm G S Ss Fm Nf Us C.
  destruct (C27_opm_read_back u header md cs secs mans user Sh Sm G S Ss Fm Nf Us) as [t [W R]].
  destruct (settled_same _ _ C) as [C1 C2]. rewrite C1, C2 in R. exists t. split; assumption.
Qed.

(* ---- the hypotheses are met by concrete messages ---- *)
Definition demo_params : list (str * str) := [(lit "EARTH_MODEL", lit "WGS-84"); (lit "N 2", lit "[3 x")].
Definition demo_user : pyval := user_block demo_params.
Lemma demo_user_ok : opt_user demo_env demo_user.
Proof. right. exists demo_params. split; [apply good_paramsb_spec; by_compute|reflexivity]. Qed.
Definition demo_header : pyval := demo_but "NdmHeader" ["h 1"; "h 2"] [].
Ltac met := apply sectionb_spec; by_compute.

Example C25_example : In "SpacecraftParametersType" section_classes /\
  section "SpacecraftParametersType" (demo_but "SpacecraftParametersType" ["a b"; "c"] ["drag_area"]) /\
  In "TdmMetadata" section_classes /\ section "TdmMetadata" (demo_but "TdmMetadata" [] []).
Proof. split; [cbn [In section_classes]; tauto|]. split; [met|]. split; [cbn [In section_classes]; tauto|met]. Qed.

Definition omm_parts (c1 c2 : list string) : list (string * pyval) :=
  [("mean_elements", demo_but "MeanElementsType" c1 ["semi_major_axis"]);
   ("spacecraft_parameters", demo_only "SpacecraftParametersType" c2 ["mass"]);
   ("tle_parameters", VNone); ("covariance_matrix", demo_but "OpmCovarianceMatrixType" c2 ["cov_ref_frame"])].
Definition omm_meta : pyval := demo_but "OmmMetadata" ["m"] ["ref_frame_epoch"].
Example C26_example : section "NdmHeader" demo_header /\ section "OmmMetadata" omm_meta /\
  Forall good_text [lit "d 1"] /\ sections omm_sections (omm_parts ["e 1"; "e 2"] ["s"]) /\
  some_section (omm_parts ["e 1"; "e 2"] ["s"]) /\ opt_user demo_env demo_user /\
  comments_settled (texts [lit "d 1"]) (omm_parts ["e 1"; "e 2"] ["s"]).
Proof.
  split; [met|]. split; [met|]. split; [constructor; [apply good_textb_spec; by_compute|constructor]|].
  split; [apply sectionsb_spec; by_compute|]. split; [apply some_sectionb_spec; by_compute|]. split; [exact demo_user_ok|].
  left. reflexivity.
Qed.
(* A comment of the mean elements of an OMM without a comment of its data block becomes one of the data block. *)
Theorem C26_omm_round_trip_refuted : exists header md secs t v,
  section "NdmHeader" header /\ section "OmmMetadata" md /\ sections omm_sections secs /\ some_section secs /\
  kvn_to_string demo_env (omm header md [] secs VNone) = Ok t /\
  kvn_from_string demo_env t = Ok v /\ v <> omm header md [] secs VNone.
Proof.
  exists demo_header, omm_meta, (omm_parts ["e 1"] []). do 2 eexists. split; [met|]. split; [met|].
  split; [apply sectionsb_spec; by_compute|]. split; [apply some_sectionb_spec; by_compute|].
  split; [by_compute|]. split; [by_compute|].
  intros H. apply (f_equal (at_path ["body"; "segment"; "data"; "comment"])) in H. vm_compute in H. discriminate.
Qed.
(* An OMM without any section cannot be read back at all. *)
Theorem C26_omm_no_section_refuted : exists header md t,
  section "NdmHeader" header /\ section "OmmMetadata" md /\
  sections omm_sections (map (fun nc => (fst nc, VNone)) omm_sections) /\
  kvn_to_string demo_env (omm header md [] (map (fun nc => (fst nc, VNone)) omm_sections) VNone) = Ok t /\
  kvn_from_string demo_env t = Err IndexError.
Proof.
  exists demo_header, omm_meta. eexists. split; [met|]. split; [met|]. split; [apply sectionsb_spec; by_compute|]. split; [by_compute|]. by_compute.
Qed.

Definition rdm_header : pyval := demo_but "RdmHeader" ["h 1"; "h 2"] [].
Definition rdm_meta : pyval := demo_but "RdmMetadata" [] ["ref_frame_epoch"; "object_owner"].
Definition rdm_parts (c1 c2 : list string) : list (string * pyval) :=
  [("atmospheric_reentry_parameters", demo_but "AtmosphericReentryParametersType" c1 []);
   ("ground_impact_parameters", VNone); ("state_vector", demo_but "StateVectorType" c2 []);
   ("covariance_matrix", VNone); ("spacecraft_parameters", demo_but "RdmSpacecraftParametersType" [] []);
   ("od_parameters", demo_only "OdParametersType" c2 ["rms"; "weighted_rms"])].
Example C28_example : section "RdmHeader" rdm_header /\ section "RdmMetadata" rdm_meta /\
  Forall good_text [lit "d 1"] /\ sections rdm_sections (rdm_parts ["e 1"; "e 2"] ["s"]) /\
  some_section (rdm_parts ["e 1"; "e 2"] ["s"]) /\ opt_user demo_env demo_user /\
  comments_settled (texts [lit "d 1"]) (rdm_parts ["e 1"; "e 2"] ["s"]).
Proof.
  split; [met|]. split; [met|]. split; [constructor; [apply good_textb_spec; by_compute|constructor]|].
  split; [apply sectionsb_spec; by_compute|]. split; [apply some_sectionb_spec; by_compute|]. split; [exact demo_user_ok|].
  left. reflexivity.
Qed.
Theorem C28_rdm_round_trip_refuted : exists header md secs t v,
  section "RdmHeader" header /\ section "RdmMetadata" md /\ sections rdm_sections secs /\ some_section secs /\
  kvn_to_string demo_env (rdm header md [] secs VNone) = Ok t /\
  kvn_from_string demo_env t = Ok v /\ v <> rdm header md [] secs VNone.
Proof.
  exists rdm_header, rdm_meta, (rdm_parts ["e 1"] []). do 2 eexists. split; [met|]. split; [met|].
  split; [apply sectionsb_spec; by_compute|]. split; [apply some_sectionb_spec; by_compute|].
  split; [by_compute|]. split; [by_compute|].
  intros H. apply (f_equal (at_path ["body"; "segment"; "data"; "comment"])) in H. vm_compute in H. discriminate.
Qed.

Definition opm_meta : pyval := demo_but "OpmMetadata" ["m"] ["ref_frame_epoch"].
Definition opm_parts (c1 c2 : list string) : list (string * pyval) :=
  [("state_vector", demo_but "StateVectorType" c1 []); ("keplerian_elements", demo_but "KeplerianElementsType" c2 ["mean_anomaly"]);
   ("spacecraft_parameters", demo_but "SpacecraftParametersType" [] []); ("covariance_matrix", VNone)].
Definition full_man (cs : list string) : pyval := demo_but "ManeuverParametersType" cs [].
(* a maneuver with every field set, as the schema requires *)
Definition all_set (c : string) (v : pyval) : Prop :=
  forall f, In f (fields_of c) -> f_list f = false -> sets v (f_name f).
Lemma all_set_no_new c vs : forallb kw_field_ok (fields_of c) = true ->
  Forall (section c) vs -> Forall (all_set c) vs -> no_new_fields vs.
Proof.
  intros K S A. induction A as [|v vs Av A IH]; [exact I|]. inversion S as [|? ? Sv Ss]; subst. split; [|apply IH; exact Ss].
  intros w n Hw [c' [vars [x [-> [Hi Hs]]]]]. rewrite Forall_forall in Ss. destruct (Ss _ Hw) as [vars' [E [W _]]].
  injection E as -> <-. clear - Av W Hi Hs K.
  assert (X : exists f, In f (fields_of c) /\ f_name f = n /\ f_list f = false).
  { revert W. generalize (fields_of c) as fs. intros fs W. induction W as [|f [m y] fs vars [E Wf] _ IH]; [destruct Hi|].
    cbn [fst snd] in *. subst m. destruct Hi as [Hi|Hi].
    - injection Hi as <- <-. exists f. split; [left; reflexivity|]. split; [reflexivity|].
      destruct Wf as [L|v0 L W0|ts L G]; [exact L|exact L|destruct Hs].
    - destruct (IH Hi) as [g [G1 G2]]. exists g. split; [right; exact G1|exact G2]. }
  destruct X as [f [F1 [<- F2]]]. apply Av; assumption.
Qed.
(* With all fields of every maneuver set any number of maneuvers is read back. *)
Theorem C27_opm_full_maneuvers : forall u header md cs secs mans user,
  section "NdmHeader" header -> section "OpmMetadata" md -> Forall good_text cs ->
  sections opm_sections secs -> some_section secs ->
  Forall (section "ManeuverParametersType") mans -> Forall (all_set "ManeuverParametersType") mans -> opt_user u user ->
  comments_settled (texts cs) secs ->
  exists t, kvn_to_string u (opm header md (texts cs) secs mans user) = Ok t /\
            kvn_from_string u t = Ok (opm header md (texts cs) secs mans user).
Proof.
  intros. apply C27_opm_round_trip_partial; try assumption. apply (all_set_no_new "ManeuverParametersType"); try assumption. by_compute.
Qed.
Fixpoint no_new_b (vs : list pyval) : bool :=
  match vs with
  | [] => true
  | v :: r => forallb (fun w => match w, v with
                                | VObj _ a, VObj _ b => forallb (fun nx => match snd nx with
                                      | VNone | VList _ => true
                                      | _ => existsb (fun my => String.eqb (fst my) (fst nx) && match snd my with VNone | VList _ => false | _ => true end) b
                                      end) a
                                | _, _ => false end) r && no_new_b r
  end.
Lemma no_new_b_spec vs : no_new_b vs = true -> no_new_fields vs.
Proof.
  induction vs as [|v r IH]; intros H; [exact I|]. cbn [no_new_b] in H. apply andb_true_iff in H. destruct H as [H1 H2].
  split; [|apply IH; exact H2]. intros w n Hw [c [vars [x [-> [Hi Hs]]]]]. rewrite forallb_forall in H1. specialize (H1 _ Hw).
  cbn beta iota in H1. destruct v as [| | | | |c' b|]; try discriminate. rewrite forallb_forall in H1. specialize (H1 _ Hi). cbn [fst snd] in H1.
  assert (X : existsb (fun my => String.eqb (fst my) n && match snd my with VNone | VList _ => false | _ => true end) b = true)
    by (destruct x; try destruct Hs; exact H1).
  apply existsb_exists in X. destruct X as [[m y] [X1 X2]]. apply andb_true_iff in X2. destruct X2 as [X2 X3]. apply String.eqb_eq in X2. cbn [fst snd] in *. subst m.
  exists c', b, y. split; [reflexivity|]. split; [exact X1|]. destruct y; try discriminate; exact I.
Qed.
Definition demo_mans : list pyval := [full_man ["m 1"; "m 2"]; full_man []; demo_but "ManeuverParametersType" ["m 3"] ["man_delta_mass"]].
Example C27_example : section "NdmHeader" demo_header /\ section "OpmMetadata" opm_meta /\
  Forall good_text [lit "d 1"] /\ sections opm_sections (opm_parts ["e 1"; "e 2"] ["s"]) /\
  some_section (opm_parts ["e 1"; "e 2"] ["s"]) /\ Forall (section "ManeuverParametersType") demo_mans /\ no_new_fields demo_mans /\
  opt_user demo_env demo_user /\
  comments_settled (texts [lit "d 1"]) (opm_parts ["e 1"; "e 2"] ["s"]).
Proof.
  split; [met|]. split; [met|]. split; [constructor; [apply good_textb_spec; by_compute|constructor]|].
  split; [apply sectionsb_spec; by_compute|]. split; [apply some_sectionb_spec; by_compute|].
  split; [repeat (constructor; [met|]); constructor|]. split; [apply no_new_b_spec; by_compute|].
  split; [exact demo_user_ok|]. left. reflexivity.
Qed.
Theorem C27_opm_round_trip_refuted : exists header md secs t v,
  section "NdmHeader" header /\ section "OpmMetadata" md /\ sections opm_sections secs /\ some_section secs /\
  kvn_to_string demo_env (opm header md [] secs [] VNone) = Ok t /\
  kvn_from_string demo_env t = Ok v /\ v <> opm header md [] secs [] VNone.
Proof.
  exists demo_header, opm_meta, (opm_parts ["e 1"] []). do 2 eexists. split; [met|]. split; [met|].
  split; [apply sectionsb_spec; by_compute|]. split; [apply some_sectionb_spec; by_compute|].
  split; [by_compute|]. split; [by_compute|].
  intros H. apply (f_equal (at_path ["body"; "segment"; "data"; "comment"])) in H. vm_compute in H. discriminate.
Qed.
(* A field that only a later maneuver has makes the reader fail. *)
Theorem C27_opm_maneuvers_refuted : exists header md secs mans t,
  section "NdmHeader" header /\ section "OpmMetadata" md /\ sections opm_sections secs /\ some_section secs /\
  comments_settled [] secs /\ Forall (section "ManeuverParametersType") mans /\
  kvn_to_string demo_env (opm header md [] secs mans VNone) = Ok t /\
  kvn_from_string demo_env t = Err XmlReject.
Proof.
  exists demo_header, opm_meta, (opm_parts [] []), [demo_but "ManeuverParametersType" [] ["man_delta_mass"]; full_man []]. eexists. split; [met|]. split; [met|].
  split; [apply sectionsb_spec; by_compute|]. split; [apply some_sectionb_spec; by_compute|]. split; [right; split; reflexivity|].
  split; [repeat (constructor; [met|]); constructor|]. split; [by_compute|]. by_compute.
Qed.
Print Assumptions C26_omm_read_back.
Print Assumptions C26_omm_round_trip_partial.
Print Assumptions C28_rdm_read_back.
Print Assumptions C28_rdm_round_trip_partial.
Print Assumptions C27_opm_read_back.
Print Assumptions C27_opm_full_maneuvers.
