(* A line between two lines of one section sets the field of its keyword, and changes nothing else. *)
From Coq Require Import NArith ZArith List Bool String Arith Lia Sorted.
From Verif Require Import PyStr PyDec PyVal Schema KvnPre KvnTree KvnSeg XmlBind KvnBuild
     Spec SpecKvn SpecObj SpecMsg SpecDoc SpecNum SpecFrom SpecOrder SpecSpell SpecInsert SpecComment SpecField StrFacts PreFacts SegFacts BuildFacts ReadFacts GapFacts ComposeFacts
     DocFacts CheckFacts OrderFacts NumFacts PropFrom PropOrder PropVers AlikeFacts InsertFacts CommentFacts PropInsert PropComment Demo.
Import ListNotations.
Local Open Scope string_scope.
Local Open Scope list_scope.
Local Arguments find_class : simpl never.
Local Arguments lit : simpl never.

(* what the fields of the sections are like *)
Definition plain_value (f : field) : bool :=
  match f_ty f with
  | TCls c => forallb (fun g => match f_fixed g with None => true | Some _ => false end && (negb (String.eqb (f_name g) "units") || match f_kind g with KAttr => true | _ => false end)) (fields_of c)
  | _ => true
  end.
Definition field_ok (d : string) (k : str) : bool :=
  str_eqb k kw_comment ||
  match find_elem k (fields_of d) with
  | Some f => negb (f_list f) && forallb (fun g => negb (String.eqb (f_name g) (f_name f)) || str_eqb (xml_name g) k) (fields_of d) &&
              match assoc (f_name f) (vars_of (new_obj d)) with Some VNone => true | _ => false end && plain_value f && negb (startswith kw_comment k) && negb (mem_char c_sp k) && negb (mem_char c_eq k) && str_eqb (strip k) k
  | None => false
  end.
Definition fields_ok (l : list string) : bool :=
  forallb (fun d => negb (mem_str kw_comment (keywords d)) || inb d ["ManeuverParametersType"; "AttManeuverParametersType"; "UserDefinedType"] || forallb (field_ok d) (keywords d)) l.
Lemma plain_fields c : In c plain_types -> fields_ok (rch c) = true.
Proof. intros H. repeat (destruct H as [<-|H]; [vm_cast_no_check (eq_refl true)|]). destruct H. Qed.
Lemma fields_in l d k : fields_ok l = true -> In d l -> In kw_comment (keywords d) -> ~ In d ["ManeuverParametersType"; "AttManeuverParametersType"; "UserDefinedType"] -> In k (keywords d) -> field_ok d k = true.
Proof.
  intros F W Hk Nd Ik. unfold fields_ok in F. rewrite forallb_forall in F. specialize (F d W). apply orb_true_iff in F. destruct F as [F|F]; [|rewrite forallb_forall in F; exact (F k Ik)].
  exfalso. apply orb_true_iff in F. destruct F as [F|F]; [apply mem_str_spec in Hk; rewrite Hk in F; discriminate|]. apply Nd. apply inb_spec. exact F.
Qed.
Lemma closed_in c (l : list string) d : inb c l = true -> closedb l = true -> SpecOrder.within c d -> In d l.
Proof. intros A B W. exact (within_closed c l A B d W). Qed.
Lemma shut_in c d : shut c = true -> SpecOrder.within c d -> In d (rch c).
Proof. unfold shut. intros H W. do 2 (apply andb_true_iff in H; destruct H as [H ?]). exact (closed_in c (rch c) d H H1 W). Qed.
Lemma section_field c d k : In c plain_types -> section_of c d -> In k (keywords d) -> k <> kw_comment -> field_ok d k = true.
Proof.
  intros Hc [W [Hk Nd]] Ik N. apply (fields_in (rch c)); try assumption; [exact (plain_fields c Hc)|]. exact (shut_in c d (plain_shut c Hc) W).
Qed.

(* the value *)
Lemma conv_some u c n s t : s <> [] -> conv u c n t s = match t with
    | TStr => VStr s
    | TInt => match py_int u s with Some z => VInt z | None => VStr s end
    | TDec => match py_decimal u s with Some d => VDec d | None => VStr s end
    | TCls c => match find_class c with Some (CEnum ms) => conv_enum c ms s | _ => VStr s end
    end.
Proof. intros N. unfold conv. destruct s; [contradiction|reflexivity]. Qed.
Lemma conv_bears u c n s t : s <> [] -> trimmed s ->
  (forall d, t = TDec -> plain s -> spells (no_underscores s) d -> conv u c n t s = VDec d) /\
  (forall z, t = TInt -> plain s -> spells_whole s z -> conv u c n t s = VInt z) /\
  (t = TStr -> conv u c n t s = VStr s) /\ conv u c n t s <> VNone.
Proof.
  intros N T. assert (Cs : is_core s s) by (apply core_of, strip_trimmed; exact T). rewrite (conv_some u c n s t N). split; [|split; [|split]].
  - intros d -> P Sp. rewrite (proj2 (decimal_is u s d P)); [reflexivity|]. exists s. auto.
  - intros z -> P Sp. rewrite (proj2 (whole_is u s z P)); [reflexivity|]. exists s. auto.
  - intros ->. reflexivity.
  - destruct t as [| | |e]; [discriminate|destruct (py_int u s); discriminate|destruct (py_decimal u s); discriminate|]. destruct (find_class e) as [[m fs|ms]|]; try discriminate. unfold conv_enum. destruct (find _ ms); discriminate.
Qed.
Lemma conv_read u c f t s : s <> [] -> reading u s (conv u c f t s).
Proof.
  intros N. unfold conv. destruct s as [|a s]; [contradiction|]. set (x := a :: s). destruct t as [| | |cl]; [constructor| | |].
  - destruct (py_int u x) eqn:E; [|constructor]. destruct (plain_dec x) as [P|P]; [|apply reading_other_int; assumption].
    destruct (proj1 (whole_is u x _ P) E) as (core & Hc & Hs). apply (reading_int u x core); assumption.
  - destruct (py_decimal u x) eqn:E; [|constructor]. destruct (plain_dec x) as [P|P]; [|apply reading_other_dec; assumption].
    destruct (proj1 (decimal_is u x _ P) E) as (core & Hc & Hs). apply (reading_dec u x core); assumption.
  - destruct (find_class cl) as [[m fs|ms]|] eqn:E; try constructor. unfold conv_enum. destruct (find _ ms) as [[m n]|] eqn:G; [|constructor].
    apply find_some in G. destruct G as [I G]. cbn [snd fst] in *. eapply reading_enum; [exact E|exact I|]. apply orb_true_iff in G.
    destruct G as [G|G]; apply str_eqb_eq in G; [left; exact G|right]. exact G.
Qed.
Lemma child_read u d k s un f : s <> [] -> SpecFrom.taken u k s (match un with [] => None | _ => Some un end) (bind_child u d f (match un with [] => [] | _ => [("units", un)] end) s).
Proof.
  intros N. unfold bind_child. destruct (f_ty f) as [| | |c]; try (apply taken_plain, conv_read; exact N). destruct (find_class c) as [[m fs|ms]|]; try (apply taken_plain, conv_read; exact N).
  unfold bind_value_obj. apply taken_object. intros n x H. apply in_map_iff in H. destruct H as [g [E H]]. injection E as <- <-. apply filter_In in H. exists g. split; [apply H|]. split; [reflexivity|].
  destruct (f_kind g); [apply default_none| |apply conv_read; exact N]. destruct un as [|u0 un]; [cbn [assoc]; destruct (default_none g) as [->| ->]; auto|]. cbn [assoc].
  rewrite (String.eqb_sym (f_name g) "units"). destruct (String.eqb "units" (f_name g)); [|destruct (default_none g) as [->| ->]; auto]. right. right. eexists. split; [reflexivity|]. apply conv_read. discriminate.
Qed.
Lemma child_set u d k s un f : f_kind f = KElem -> plain_value f = true -> good_text s -> (un = [] \/ trimmed un) ->
  set_by u k s un f (bind_child u d f (match un with [] => [] | _ => [("units", un)] end) s).
Proof.
  intros Fk Pv [Ns [Ts _]] Tu. split.
  { apply child_read. exact Ns. }
  set (attrs := match un with [] => [] | _ => [("units", un)] end).
  assert (V : forall y, (match f_ty f with TCls e => match find is_text (fields_of e) with Some g => conv u e (f_name g) (f_ty g) s = y | None => conv u d (f_name f) (f_ty f) s = y /\ text_type (f_ty f) <> f_ty f end | t => conv u d (f_name f) t s = y end) -> bears y (bind_child u d f attrs s)).
  { intros y Hy. unfold bind_child. destruct (f_ty f) as [| | |e] eqn:Et; try (left; exact Hy). unfold plain_value in Pv. rewrite Et in Pv.
    destruct (find is_text (fields_of e)) as [g|] eqn:Eg.
    - pose proof (find_some _ _ Eg) as [Ig Tg]. unfold is_text in Tg. destruct (f_kind g) eqn:Kg; try discriminate. assert (Fc : exists m fs, find_class e = Some (CData m fs)).
      { unfold fields_of in Ig. destruct (find_class e) as [[m fs|ms]|]; [eauto|destruct Ig|destruct Ig]. }
      destruct Fc as [m [fs Fc]]. rewrite Fc. right. exists e, g. eexists. split; [reflexivity|]. split; [exact Ig|]. split; [exact Kg|]. apply in_map_iff. exists g. rewrite Kg, Hy. split; [reflexivity|].
      unfold init_fields. apply filter_In. split; [exact Ig|]. rewrite forallb_forall in Pv. specialize (Pv g Ig). apply andb_true_iff in Pv. exact (proj1 Pv).
    - destruct Hy as [_ Hy]. exfalso. apply Hy. unfold text_type. rewrite Eg. reflexivity. }
  assert (Q : forall t y, text_type (f_ty f) = t -> (forall c, t <> TCls c) -> (forall c n, conv u c n t s = y) -> bears y (bind_child u d f attrs s)).
  { intros t y Ht Nt Hy. apply V. destruct (f_ty f) as [| | |e] eqn:Et; cbn [text_type] in Ht; try (subst t; apply Hy). destruct (find is_text (fields_of e)) as [g|]; [rewrite Ht; apply Hy|]. exfalso. exact (Nt e (eq_sym Ht)). }
  split; [|split; [|split]].
  - intros n Ht P Sp. apply (Q TDec); [exact Ht|discriminate|]. intros c n0. exact (proj1 (conv_bears u c n0 s TDec Ns Ts) n eq_refl P Sp).
  - intros z Ht P Sp. apply (Q TInt); [exact Ht|discriminate|]. intros c n0. exact (proj1 (proj2 (conv_bears u c n0 s TInt Ns Ts)) z eq_refl P Sp).
  - intros Ht. apply (Q TStr); [exact Ht|discriminate|]. intros c n0. reflexivity || (rewrite conv_some by exact Ns; reflexivity).
  - intros c Nu Et Iu. unfold plain_value in Pv. rewrite Et in Pv. apply in_map_iff in Iu. destruct Iu as [g [Ng Ig]]. rewrite forallb_forall in Pv. specialize (Pv g Ig). apply andb_true_iff in Pv. destruct Pv as [P1 P2].
    rewrite Ng in P2. cbn [String.eqb Ascii.eqb Bool.eqb negb orb] in P2. destruct (f_kind g) eqn:Kg; try discriminate.
    assert (Fc : exists m fs, find_class c = Some (CData m fs)) by (unfold fields_of in Ig; destruct (find_class c) as [[m fs|ms]|]; [eauto|destruct Ig|destruct Ig]).
    destruct Fc as [m [fs Fc]]. unfold bind_child. rewrite Et, Fc. unfold bind_value_obj. eexists _, (conv u c "units" (f_ty g) un). split; [reflexivity|]. split.
    + apply in_map_iff. exists g. rewrite Ng, Kg. unfold attrs. destruct un as [|u0 un]; [contradiction|]. cbn [assoc]. rewrite String.eqb_refl. split; [reflexivity|]. unfold init_fields. apply filter_In. split; assumption.
    + destruct Tu as [Tu|Tu]; [contradiction|]. split; [exact (proj2 (proj2 (proj2 (conv_bears u c "units" un (f_ty g) Nu Tu))))|apply conv_read; exact Nu].
Qed.
Lemma put_filled u d k s un f v w : In f (fields_of d) -> kvn_name f = k -> set_by u k s un f (bind_child u d f (match un with [] => [] | _ => [("units", un)] end) s) ->
  put_at d (f_name f) (filled u d s (match un with [] => None | _ => Some un end) f) v w -> put_field u d k s un v w.
Proof.
  intros If Kf Hs. induction 1 as [pre x y po _ [-> ->]|c pre m x y po H IH|a x y b H IH]; [|apply field_in; exact IH|apply field_list; exact IH].
  apply field_here; [exact If|exact Kf|]. destruct un; exact Hs.
Qed.

(* An OMM, OPM, RDM, APM or CDM that can be read, and one more line between two lines of a section that comes once, with a keyword of that
   section that no other line has: the message read has the field of the keyword set from the line, and is otherwise the same.  The other
   conditions are those of C60. *)
Theorem C61_field_line : forall u c id d ka k x s un blanks first pre prev gap1 raw gap2 next mid rest head v,
  In c plain_types -> class_fixed c "id" = Some id -> Forall blank blanks -> heads first (lit id) ->
  section_of c d -> lone c d -> In ka (keywords d) -> ka <> kw_comment -> heads prev ka -> In k (keywords d) -> k <> kw_comment -> heads next k ->
  Forall blank gap1 -> Forall blank gap2 -> In x (keywords d) -> x <> kw_comment -> (forall r, In r (head ++ rest) -> ~ heads r x) ->
  good_value s -> unit_text un -> Forall (fun x => xml_char x = true) un -> (un = [] \/ no_char c_lbr s) -> said (x, s, un) raw ->
  head = pre ++ prev :: gap1 ++ gap2 ++ next :: mid ->
  said_once head -> (forall r h, In r head -> heads r h -> no_char c_sp h) -> (forall r h, In r (head ++ rest) -> heads r h -> h <> lit "id" /\ h <> lit "version") ->
  (forall r h, In r rest -> heads r h -> In h (keywords d) -> h = kw_comment) -> user_last (head ++ rest) -> in_order c (head ++ rest) ->
  Forall one_line (blanks ++ first :: pre ++ prev :: gap1 ++ raw :: gap2 ++ next :: mid ++ rest) ->
  kvn_from_string u (text_of (blanks ++ first :: pre ++ prev :: gap1 ++ gap2 ++ next :: mid ++ rest)) = Ok v ->
  exists w, kvn_from_string u (text_of (blanks ++ first :: pre ++ prev :: gap1 ++ raw :: gap2 ++ next :: mid ++ rest)) = Ok w /\ put_field u d x s un v w.
Proof.
  intros u c id d ka k x s un blanks first pre prev gap1 raw gap2 next mid rest head v Hc Ei Bb Hf Hs Hl Ia Na Hp Ik Nk Hn Bg1 Bg2 Ix Nx Xno [Gs Nu] [Tu [Ul1 Ul2]] Xu Du Sd Eh So Th Re Rd Ul Io O H.
  pose proof (section_field c d x Hc Hs Ix Nx) as Fo. unfold field_ok in Fo. rewrite (proj2 (str_eqb_neq x kw_comment) Nx) in Fo. cbn [orb] in Fo. destruct (find_elem x (fields_of d)) as [f|] eqn:Ff; [|discriminate].
  do 7 (apply andb_true_iff in Fo; destruct Fo as [Fo ?]). rename H0 into F7, H1 into F6, H2 into F5, H3 into F4, H4 into F3, H5 into F2, H6 into F1. apply negb_true_iff in Fo, F4, F5, F6.
  pose proof Ff as Ff2. unfold find_elem in Ff2. apply find_some in Ff2. destruct Ff2 as [If Ff2]. destruct (f_kind f) eqn:Kf; try discriminate. apply str_eqb_eq in Ff2.
  assert (Eo : entry_ok (x, s, un)).
  { right. apply str_eqb_eq in F7. destruct Gs as [G1 [G2 G3]]. split; [rewrite <- F7; apply trimmed_strip|]. split; [apply no_charb_spec; unfold no_charb; rewrite F6; reflexivity|]. split; [apply startswith_false; exact F4|]. split; [exact G2|].
    destruct un as [|u0 un]; [left; split; [reflexivity|exact Nu]|]. right. destruct Du as [Du|Du]; [discriminate|]. split; [discriminate|]. auto. }
  pose proof (said_lex _ _ Eo Sd) as Lx.
  set (xu := match un with [] => None | _ => Some un end).
  assert (El : line_of (x, s, un) = fieldl x s xu) by (unfold xu, fieldl, line_of; destruct un; reflexivity).
  destruct (line_put u c id d ka k x (s :: match xu with Some t => [t] | None => [] end) (f_name f) (filled u d s xu f) blanks first pre prev gap1 raw gap2 next mid rest head v) as [w [W1 W2]]; try assumption.
  - rewrite Lx, El. reflexivity.
  - right. exact Xno.
  - intros g1 g2 v0 Hg H2. refine (parse_field u d x s xu f Ff Fo _ _ _ g1 g2 v0 _ H2).
    + intros g Ig Eg. rewrite forallb_forall in F1. specialize (F1 g Ig). rewrite Eg, String.eqb_refl in F1. apply str_eqb_eq. exact F1.
    + destruct (assoc (f_name f) (vars_of (new_obj d))) as [[]|] eqn:Q; try discriminate. apply assoc_split in Q. exact Q.
    + destruct Gs as [_ [_ [_ Gx]]]. assert (T : forall z, Forall (fun x => xml_char x = true) z -> xml_text z = true) by (intros z Hz; unfold xml_text; apply forallb_forall; rewrite Forall_forall in Hz; exact Hz).
      unfold child_ok, xu. rewrite (T s Gx). destruct un as [|u0 un]; [reflexivity|]. cbn [forallb snd]. rewrite (T _ Xu). reflexivity.
    + intros l Hl0. destruct (Hg l Hl0) as [Q|Q]; [contradiction|exact Q].
  - intros m sub A A' B Ho. apply attach_other. destruct Ho as [Ho|Ho]; [contradiction|]. intros Q. exact (Ho f If Ff2 (eq_sym Q)).
  - exists w. split; [exact W1|]. apply (put_filled u d x s un f v w If Ff2); [|exact W2]. apply child_set; [exact Kf|exact F3|exact Gs|right; exact Tu].
Qed.
Print Assumptions C61_field_line.

Definition part_field (p n : string) (v : pyval) : option pyval :=
  match data_field p v with Some (VObj _ vars) => assoc n vars | _ => None end.
(* the drag area put between the mass and the drag coefficient *)
Definition opm_before : list str := opm_short ++ lit "COMMENT where it is" :: opm_vector.
Example C61_example : let rest := man ++ man ++ opm_user in let prev := lit "MASS = 1 [kg]" in let next := lit "DRAG_COEFF = 2" in let raw := lit " DRAG_AREA= 12.5 [m**2]" in let head := opm_before ++ prev :: [[]] ++ [] ++ next :: [] in
  In "Opm" plain_types /\ class_fixed "Opm" "id" = Some "CCSDS_OPM_VERS" /\ heads opm_first (lit "CCSDS_OPM_VERS") /\
  section_of "Opm" "SpacecraftParametersType" /\ lone "Opm" "SpacecraftParametersType" /\ In (lit "MASS") (keywords "SpacecraftParametersType") /\ heads prev (lit "MASS") /\
  In (lit "DRAG_COEFF") (keywords "SpacecraftParametersType") /\ heads next (lit "DRAG_COEFF") /\ Forall blank [@nil N] /\ In (lit "DRAG_AREA") (keywords "SpacecraftParametersType") /\
  (forall r, In r (head ++ rest) -> ~ heads r (lit "DRAG_AREA")) /\ good_value (lit "12.5") /\ unit_text (lit "m**2") /\ Forall (fun x => xml_char x = true) (lit "m**2") /\ no_char c_lbr (lit "12.5") /\
  said (lit "DRAG_AREA", lit "12.5", lit "m**2") raw /\
  said_once head /\ (forall r h, In r head -> heads r h -> no_char c_sp h) /\ (forall r h, In r (head ++ rest) -> heads r h -> h <> lit "id" /\ h <> lit "version") /\
  (forall r h, In r rest -> heads r h -> In h (keywords "SpacecraftParametersType") -> h = kw_comment) /\ user_last (head ++ rest) /\ in_order "Opm" (head ++ rest) /\
  Forall one_line (opm_first :: opm_before ++ prev :: [[]] ++ raw :: [] ++ next :: [] ++ rest) /\
  exists v w, kvn_from_string demo_env (text_of (opm_first :: opm_before ++ prev :: [[]] ++ [] ++ next :: [] ++ rest)) = Ok v /\
    kvn_from_string demo_env (text_of (opm_first :: opm_before ++ prev :: [[]] ++ raw :: [] ++ next :: [] ++ rest)) = Ok w /\
    part_field "spacecraft_parameters" "drag_area" v = Some VNone /\
    part_field "spacecraft_parameters" "drag_area" w = Some (VObj "AreaType" [("value", VDec (DFin false 125 (-1))); ("units", VEnum "AreaUnits" "M_2" (lit "m**2"))]).
Proof.
  cbv zeta. assert (Hs : section_of "Opm" "SpacecraftParametersType").
  { split.
    - apply (SpecOrder.within_field _ "OpmData" (mkField "spacecraft_parameters" (Some "spacecraftParameters") false (TCls "SpacecraftParametersType") KElem None)); [|vm_compute; auto 10|reflexivity].
      apply (SpecOrder.within_field _ "OpmSegment" (mkField "data" None false (TCls "OpmData") KElem None)); [|vm_compute; auto 10|reflexivity].
      apply (SpecOrder.within_field _ "OpmBody" (mkField "segment" None false (TCls "OpmSegment") KElem None)); [|vm_compute; auto 10|reflexivity].
      apply (SpecOrder.within_field _ "Opm" (mkField "body" None false (TCls "OpmBody") KElem None)); [|vm_compute; auto 10|reflexivity]. apply SpecOrder.within_self.
    - split; [vm_compute; tauto|]. intros H. repeat (destruct H as [H|H]; [discriminate|]). destruct H. }
  split; [vm_compute; tauto|]. split; [reflexivity|]. split; [apply head_of_heads; vm_compute; reflexivity|]. split; [exact Hs|].
  split; [apply lone_sound; [apply plain_shut; vm_compute; tauto|vm_cast_no_check (eq_refl false)|refine (proj1 (inb_spec "SpacecraftParametersType" (sections "Opm")) _); vm_cast_no_check (eq_refl true)|exact (proj1 Hs)]|].
  split; [vm_compute; tauto|]. split; [apply head_of_heads; vm_compute; reflexivity|]. split; [vm_compute; tauto|]. split; [apply head_of_heads; vm_compute; reflexivity|]. split; [constructor; [intros x []|constructor]|].
  split; [vm_compute; tauto|]. split.
  { assert (X : forallb (head_is (fun h => negb (str_eqb h (lit "DRAG_AREA")))) ((opm_before ++ lit "MASS = 1 [kg]" :: [[]] ++ [] ++ lit "DRAG_COEFF = 2" :: []) ++ man ++ man ++ opm_user) = true) by (vm_compute; reflexivity).
    intros r Hr Hh. rewrite forallb_forall in X. specialize (X r Hr). apply (head_is_spec _ _ _ X) in Hh. rewrite str_eqb_refl in Hh. discriminate. }
  split.
  { split; [|intros [Q _]; repeat (destruct Q as [Q|Q]; [discriminate|]); destruct Q].
    split; [discriminate|]. split; [apply trimmedb_spec; reflexivity|]. split; [apply no_charb_spec; vm_compute; reflexivity|]. apply Forall_forall; apply forallb_forall; vm_compute; reflexivity. }
  split; [split; [apply trimmedb_spec; reflexivity|split; apply no_charb_spec; vm_compute; reflexivity]|]. split; [apply Forall_forall; apply forallb_forall; vm_compute; reflexivity|]. split; [apply no_charb_spec; vm_compute; reflexivity|].
  split. { apply (said_unit (lit "DRAG_AREA") (lit "12.5") (lit "m**2") [c_sp] [] [c_sp] [c_sp] []); try discriminate; intros x Hx; repeat (destruct Hx as [<-|Hx]; [reflexivity|]); destruct Hx. }
  split; [apply once_check; vm_compute; reflexivity|]. split.
  { assert (X : forallb (head_is (no_charb c_sp)) (opm_before ++ lit "MASS = 1 [kg]" :: [[]] ++ [] ++ lit "DRAG_COEFF = 2" :: []) = true) by (vm_compute; reflexivity).
    intros r h Hr Hh. rewrite forallb_forall in X. specialize (X r Hr). apply (head_is_spec _ _ _ X) in Hh. apply no_charb_spec. exact Hh. }
  split.
  { assert (X : forallb (head_is (fun h => negb (str_eqb h (lit "id")) && negb (str_eqb h (lit "version")))) ((opm_before ++ lit "MASS = 1 [kg]" :: [[]] ++ [] ++ lit "DRAG_COEFF = 2" :: []) ++ man ++ man ++ opm_user) = true) by (vm_compute; reflexivity).
    intros r h Hr Hh. rewrite forallb_forall in X. specialize (X r Hr). apply (head_is_spec _ _ _ X) in Hh. apply andb_true_iff in Hh. destruct Hh as [Hh ?]. split; apply str_eqb_neq, negb_true_iff; assumption. }
  split.
  { assert (X : forallb (head_is (fun h => negb (mem_str h (keywords "SpacecraftParametersType")) || str_eqb h kw_comment)) (man ++ man ++ opm_user) = true) by (vm_compute; reflexivity).
    intros r h Hr Hh Hk. rewrite forallb_forall in X. specialize (X r Hr). apply (head_is_spec _ _ _ X) in Hh. apply mem_str_spec in Hk. rewrite Hk in Hh. apply str_eqb_eq. exact Hh. }
  split; [apply user_check; vm_compute; reflexivity|]. split; [apply order_check; vm_cast_no_check (eq_refl true)|].
  split; [apply Forall_forall; intros t Ht; repeat (destruct Ht as [<-|Ht]; [apply no_charb_spec; vm_compute; reflexivity|]); destruct Ht|].
  do 2 eexists. split; [vm_compute; reflexivity|]. split; [vm_compute; reflexivity|]. split; vm_compute; reflexivity.
Qed.

(* Outside its section the line may be lost: the mass between the lines of the state vector, and the message read is the one without it *)
Theorem C61_elsewhere_refuted : let a := map lit ["EPOCH = 2003"; "X = 1"; "Y = 1"; "Z = 3"] in let b := map lit ["X_DOT = 1"; "Y_DOT = 1"; "Z_DOT = 1"; "DRAG_COEFF = 2"] in let raw := lit "MASS = 1" in
  heads raw (lit "MASS") /\ exists v, kvn_from_string demo_env (text_of (opm_first :: opm_short ++ a ++ b)) = Ok v /\ kvn_from_string demo_env (text_of (opm_first :: opm_short ++ a ++ raw :: b)) = Ok v /\
    part_field "spacecraft_parameters" "mass" v = Some VNone.
Proof. cbv zeta. split; [apply head_of_heads; vm_compute; reflexivity|]. eexists. split; [vm_compute; reflexivity|]. split; vm_compute; reflexivity. Qed.
(* A second line with the keyword makes the document unreadable *)
Theorem C61_twice_refuted : let a := lit "MASS = 1" in let b := lit "DRAG_COEFF = 2" in let raw := lit "DRAG_AREA = 3" in
  exists v, kvn_from_string demo_env (text_of (opm_first :: opm_short ++ opm_vector ++ [a; raw; b])) = Ok v /\
    kvn_from_string demo_env (text_of (opm_first :: opm_short ++ opm_vector ++ [a; raw; raw; b])) = Err XmlReject.
Proof. cbv zeta. eexists. split; vm_compute; reflexivity. Qed.
