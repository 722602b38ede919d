(* C64: taking a line out of a document undoes what the line said. *)
From Coq Require Import NArith List Bool String Arith Lia.
From Verif Require Import PyStr PyDec PyVal Schema KvnPre KvnTree KvnSeg XmlBind KvnBuild Spec SpecKvn SpecObj SpecFrom SpecOrder SpecInsert SpecComment SpecField SpecSpell SpecDoc SpecErr StrFacts PreFacts SegFacts BuildFacts DocFacts ReadFacts PropSeg PropFrom PropOrder ComposeFacts InsertFacts PropInsert CommentFacts PropComment PropField Demo ErrFacts RejectFacts PropErr TotalFacts PropTotal.
Import ListNotations.
Local Open Scope string_scope.
Local Open Scope list_scope.

Lemma plain_type c id : In c plain_types -> class_fixed c "id" = Some id -> In (lit id, c) type_table.
Proof. intros H E. repeat (destruct H as [<-|H]; [vm_compute in E; injection E as <-; vm_compute; tauto|]). destruct H. Qed.
Lemma heads_key raw k : heads raw k -> k <> kw_comment -> line_key raw k.
Proof. intros H N. destruct H; [eapply lk_eq; try eassumption; reflexivity|apply lk_bare; assumption|contradiction]. Qed.
Lemma join_allowed raws : Forall (Forall xml_allowed) raws -> Forall xml_allowed (join [c_nl] raws).
Proof.
  induction raws as [|r raws IH]; intros F; [constructor|]. inversion F as [|? ? F1 F2]. subst. destruct raws as [|r2 raws]; [exact F1|].
  change (join [c_nl] (r :: r2 :: raws)) with (r ++ [c_nl] ++ join [c_nl] (r2 :: raws)). apply Forall_app. split; [exact F1|]. constructor; [right; left; reflexivity|apply IH; exact F2].
Qed.
Lemma trouble_read u c id blanks first rest : In c plain_types -> class_fixed c "id" = Some id -> Forall blank blanks -> heads first (lit id) ->
  Forall one_line (blanks ++ first :: rest) -> trouble_free c blanks first rest -> exists v, kvn_from_string u (text_of (blanks ++ first :: rest)) = Ok v.
Proof.
  intros Hc Ei Bb Hf O [X [V [S [pre [last [post [h [E [B [Hh Nh]]]]]]]]]].
  assert (Ni : lit id <> kw_comment) by (intros Q; pose proof (plain_type c id Hc Ei) as T; rewrite Q in T; vm_compute in T; repeat (destruct T as [T|T]; [discriminate T|]); exact T).
  destruct (C63_read u (text_of (blanks ++ first :: rest)) blanks first rest (lit id) c pre last post h) as [vars R]; try assumption.
  - unfold text_of. apply split_join; [destruct blanks; discriminate|exact O].
  - apply heads_key; assumption.
  - apply plain_type; assumption.
  - apply join_allowed. exact X.
  - exists (VObj c vars). exact R.
Qed.
Lemma out_valued {A} (P : A -> Prop) a r b : Forall P (a ++ r :: b) -> Forall P (a ++ b).
Proof. intros F. apply Forall_app in F. destruct F as [F1 F2]. inversion F2. subst. apply Forall_app. split; assumption. Qed.
Ltac apps := repeat (cbn [app]; rewrite <- app_assoc); cbn [app]; reflexivity.
Lemma pair_out {A} (P : A -> A -> Prop) a r b : (forall p x q y e, a ++ r :: b = p ++ x :: q ++ y :: e -> P x y) -> forall p x q y e, a ++ b = p ++ x :: q ++ y :: e -> P x y.
Proof.
  intros H p x q y e E. apply app_eq_app in E. destruct E as [m [[E1 E2]|[E1 E2]]].
  - destruct m as [|x0 m]; [apply (H (a ++ [r]) x q y e); cbn in E2; rewrite E2; apps|].
    injection E2 as <- E2. apply app_eq_app in E2. destruct E2 as [n [[E2 E3]|[E2 E3]]].
    + apply (H p x (m ++ r :: n) y e). rewrite E1, E3. apps.
    + destruct n as [|y0 n]; [apply (H p x (m ++ [r]) y e); cbn in E3; rewrite E1, <- E3; apps|].
      injection E3 as <- E3. apply (H p x q y (n ++ r :: b)). rewrite E1, E2. apps.
  - apply (H (a ++ r :: m) x q y e). rewrite E2. apps.
Qed.
Lemma out_once a r b : said_once (a ++ r :: b) -> said_once (a ++ b).
Proof. intros S p x q y e k E Hx Hy. exact (pair_out (fun x y => heads x k -> heads y k -> k = kw_comment) a r b (fun p x q y e E => S p x q y e k E) p x q y e E Hx Hy). Qed.
Lemma out_user a r b : user_last (a ++ r :: b) -> user_last (a ++ b).
Proof. intros S p x q y e h k E Hx Ux Hy. exact (pair_out (fun x y => heads x h -> begins (lit "USER_DEFINED") h -> heads y k -> k = kw_comment \/ begins (lit "USER_DEFINED") k) a r b (fun p x q y e E => S p x q y e h k E) p x q y e E Hx Ux Hy). Qed.
Lemma out_order c a r b : in_order c (a ++ r :: b) -> in_order c (a ++ b).
Proof.
  intros S p x q y e h k z w E Hx Hy. exact (pair_out (fun x y => heads x h -> heads y k -> h <> kw_comment -> k <> kw_comment -> SpecComment.lone c z -> In h (SpecComment.words z) -> SpecOrder.within c w -> In k (SpecComment.words w) -> z <> w -> ~ SpecComment.precedes c w z) a r b (fun p x q y e E => S p x q y e h k z w E) p x q y e E Hx Hy).
Qed.
(* a line before another line that is not blank is not the last one *)
Lemma out_free c blanks first a r g next b h : heads next h -> trouble_free c blanks first (a ++ r :: g ++ next :: b) -> trouble_free c blanks first (a ++ g ++ next :: b).
Proof.
  intros Hn [X [V [S [pre [last [post [t [E [B [Hh Nh]]]]]]]]]]. split; [|split; [|split]].
  - rewrite app_comm_cons, app_assoc in X. apply out_valued in X. rewrite <- app_assoc in X. exact X.
  - rewrite app_comm_cons in *. apply (out_valued _ (first :: a) r). exact V.
  - apply (out_once a r). exact S.
  - apply app_eq_app in E. destruct E as [m [[E1 E2]|[E1 E2]]].
    + (* the last line is in a or is r: then next is behind it *)
      exfalso. assert (I : In next post).
      { destruct m as [|m0 m]; [injection E2 as _ E2; rewrite E2; apply in_or_app; right; left; reflexivity|]. injection E2 as _ E2. rewrite E2. apply in_or_app. right. right. apply in_or_app. right. left. reflexivity. }
      rewrite Forall_forall in B. specialize (B next I). destruct (heads_lex _ _ Hn) as [hv L]. rewrite lex_line_blank in L by exact B. discriminate.
    + destruct m as [|m0 m]; [exfalso|].
      * injection E2 as _ E2. assert (I : In next post) by (rewrite <- E2; apply in_or_app; right; left; reflexivity).
        rewrite Forall_forall in B. specialize (B next I). destruct (heads_lex _ _ Hn) as [hv L]. rewrite lex_line_blank in L by exact B. discriminate.
      * injection E2 as <- E2. exists (a ++ m), last, post, t. split; [rewrite E2, <- app_assoc; reflexivity|]. auto.
Qed.

(* a line that sets a field *)
Lemma field_heads c d x s un raw : In c plain_types -> section_of c d -> In x (keywords d) -> x <> kw_comment ->
  good_value s -> unit_text un -> (un = [] \/ no_char c_lbr s) -> said (x, s, un) raw -> heads raw x.
Proof.
  intros Hc Hs Ix Nx [Gs Nu] [Tu [Ul1 Ul2]] Du Sd.
  pose proof (section_field c d x Hc Hs Ix Nx) as Fo. unfold field_ok in Fo. rewrite (proj2 (str_eqb_neq x kw_comment) Nx) in Fo. cbn [orb] in Fo. destruct (find_elem x (fields_of d)) as [f|]; [|discriminate].
  do 7 (apply andb_true_iff in Fo; destruct Fo as [Fo ?]). rename H into F7, H0 into F6, H1 into F5, H2 into F4. apply negb_true_iff in F4, F5, F6.
  assert (Eo : entry_ok (x, s, un)).
  { right. apply str_eqb_eq in F7. destruct Gs as [G1 [G2 G3]]. split; [rewrite <- F7; apply trimmed_strip|]. split; [apply no_charb_spec; unfold no_charb; rewrite F6; reflexivity|]. split; [apply startswith_false; exact F4|]. split; [exact G2|].
    destruct un as [|u0 un]; [left; split; [reflexivity|exact Nu]|]. right. destruct Du as [Du|Du]; [discriminate|]. split; [discriminate|]. auto. }
  pose proof (said_lex _ _ Eo Sd) as Lx. destruct un; exact (lex_heads _ _ _ Lx).
Qed.
Theorem C64_field : forall u c id d ka k x s un blanks first pre prev gap1 raw gap2 next mid,
  let whole := pre ++ prev :: gap1 ++ raw :: gap2 ++ next :: mid in
  In c plain_types -> class_fixed c "id" = Some id -> Forall blank blanks -> heads first (lit id) -> Forall one_line (blanks ++ first :: whole) -> trouble_free c blanks first whole ->
  section_of c d -> SpecComment.lone c d -> In ka (keywords d) -> ka <> kw_comment -> heads prev ka -> In k (keywords d) -> k <> kw_comment -> heads next k ->
  Forall blank gap1 -> Forall blank gap2 -> In x (keywords d) -> x <> kw_comment -> good_value s -> unit_text un -> Forall xml_allowed un -> (un = [] \/ no_char c_lbr s) -> said (x, s, un) raw ->
  (forall r h, In r whole -> heads r h -> no_char c_sp h /\ h <> lit "id" /\ h <> lit "version") -> user_last whole -> in_order c whole ->
  exists v w, kvn_from_string u (text_of (blanks ++ first :: whole)) = Ok v /\
    kvn_from_string u (text_of (blanks ++ first :: pre ++ prev :: gap1 ++ gap2 ++ next :: mid)) = Ok w /\ put_field u d x s un w v.
Proof.
  intros u c id d ka k x s un blanks first pre prev gap1 raw gap2 next mid whole Hc Ei Bb Hf O T Hs Hl Ia Na Hp Ik Nk Hn Bg1 Bg2 Ix Nx Gs Tu Xu Du Sd Th Ul Io.
  pose (a := pre ++ prev :: gap1). pose (b := gap2 ++ next :: mid).
  assert (Ew : whole = a ++ raw :: b) by (unfold whole, a, b; apps). assert (Es : pre ++ prev :: gap1 ++ gap2 ++ next :: mid = a ++ b) by (unfold a, b; apps).
  pose proof (field_heads c d x s un raw Hc Hs Ix Nx Gs Tu Du Sd) as Hx.
  assert (T2 : trouble_free c blanks first (a ++ b)) by (apply (out_free c blanks first a raw gap2 next mid k Hn); fold b; rewrite <- Ew; exact T).
  assert (O2 : Forall one_line (blanks ++ first :: a ++ b)). { pose proof O as O1. rewrite Ew, app_comm_cons, app_assoc in O1. apply out_valued in O1. rewrite <- app_assoc in O1. exact O1. }
  destruct (trouble_read u c id blanks first (a ++ b) Hc Ei Bb Hf O2 T2) as [w W].
  destruct (C61_field_line u c id d ka k x s un blanks first pre prev gap1 raw gap2 next mid [] (a ++ b) w) as [v [V P]]; try assumption.
  - rewrite app_nil_r. destruct T as [_ [_ [S _]]]. rewrite Ew in S. intros r Hr Q. apply Nx. apply in_app_or in Hr. destruct Hr as [Hr|Hr]; apply in_split in Hr; destruct Hr as [p [q Er]].
    + apply (S p r q raw b x); [rewrite Er; apps|exact Q|exact Hx].
    + apply (S a raw p r q x); [rewrite Er; reflexivity|exact Hx|exact Q].
  - apply Forall_forall. rewrite Forall_forall in Xu. intros ch Hch. specialize (Xu ch Hch). unfold xml_char, in_range. rewrite !orb_true_iff, !andb_true_iff, !N.eqb_eq, !N.leb_le. unfold xml_allowed in Xu. tauto.
  - symmetry. exact Es.
  - destruct T2 as [_ [_ [S _]]]. exact S.
  - intros r h Hr Hh. apply (Th r h); [|exact Hh]. rewrite Ew. apply in_or_app. apply in_app_or in Hr. destruct Hr as [Hr|Hr]; [left; exact Hr|right; right; exact Hr].
  - intros r h Hr Hh. rewrite app_nil_r in Hr. apply (Th r h); [|exact Hh]. rewrite Ew. apply in_or_app. apply in_app_or in Hr. destruct Hr as [Hr|Hr]; [left; exact Hr|right; right; exact Hr].
  - intros r h [].
  - rewrite app_nil_r. apply (out_user a raw). rewrite <- Ew. exact Ul.
  - rewrite app_nil_r. apply (out_order c a raw). rewrite <- Ew. exact Io.
  - rewrite app_nil_r. exact O.
  - rewrite app_nil_r, Es. exact W.
  - exists v, w. split; [rewrite app_nil_r in V; exact V|]. split; [rewrite Es; exact W|exact P].
Qed.
Print Assumptions C64_field.
(* a comment *)
Theorem C64_comment : forall u c id d ka k s blanks first pre prev gap1 raw gap2 next mid,
  let whole := pre ++ prev :: gap1 ++ raw :: gap2 ++ next :: mid in
  In c plain_types -> class_fixed c "id" = Some id -> Forall blank blanks -> heads first (lit id) -> Forall one_line (blanks ++ first :: whole) -> trouble_free c blanks first whole ->
  section_of c d -> SpecComment.lone c d -> In ka (keywords d) -> ka <> kw_comment -> heads prev ka -> In k (keywords d) -> k <> kw_comment -> heads next k ->
  Forall blank gap1 -> Forall blank gap2 -> comments raw s ->
  (forall r h, In r whole -> heads r h -> no_char c_sp h /\ h <> lit "id" /\ h <> lit "version") -> user_last whole -> in_order c whole ->
  exists v w, kvn_from_string u (text_of (blanks ++ first :: whole)) = Ok v /\
    kvn_from_string u (text_of (blanks ++ first :: pre ++ prev :: gap1 ++ gap2 ++ next :: mid)) = Ok w /\ put_comment d s w v.
Proof.
  intros u c id d ka k s blanks first pre prev gap1 raw gap2 next mid whole Hc Ei Bb Hf O T Hs Hl Ia Na Hp Ik Nk Hn Bg1 Bg2 Sd Th Ul Io.
  pose (a := pre ++ prev :: gap1). pose (b := gap2 ++ next :: mid).
  assert (Ew : whole = a ++ raw :: b) by (unfold whole, a, b; apps). assert (Es : pre ++ prev :: gap1 ++ gap2 ++ next :: mid = a ++ b) by (unfold a, b; apps).
  assert (T2 : trouble_free c blanks first (a ++ b)) by (apply (out_free c blanks first a raw gap2 next mid k Hn); fold b; rewrite <- Ew; exact T).
  assert (O2 : Forall one_line (blanks ++ first :: a ++ b)). { pose proof O as O1. rewrite Ew, app_comm_cons, app_assoc in O1. apply out_valued in O1. rewrite <- app_assoc in O1. exact O1. }
  destruct (trouble_read u c id blanks first (a ++ b) Hc Ei Bb Hf O2 T2) as [w W].
  destruct (C60_comment_line u c id d ka k s blanks first pre prev gap1 raw gap2 next mid [] (a ++ b) w) as [v [V P]]; try assumption.
  - destruct T as [X _]. rewrite Forall_forall in X. assert (Xr : Forall xml_allowed raw) by (apply X; apply in_or_app; right; right; rewrite Ew; apply in_or_app; right; left; reflexivity).
    destruct Sd as [w0 [b0 [E0 [_ [[p [q [E1 _]]] _]]]]]. apply Forall_forall. intros ch Hch. rewrite Forall_forall in Xr. assert (Q : xml_allowed ch) by (apply Xr; rewrite E0, E1, !in_app_iff; tauto).
    unfold xml_char, in_range. rewrite !orb_true_iff, !andb_true_iff, !N.eqb_eq, !N.leb_le. unfold xml_allowed in Q. tauto.
  - symmetry. exact Es.
  - destruct T2 as [_ [_ [S _]]]. exact S.
  - intros r h Hr Hh. apply (Th r h); [|exact Hh]. rewrite Ew. apply in_or_app. apply in_app_or in Hr. destruct Hr as [Hr|Hr]; [left; exact Hr|right; right; exact Hr].
  - intros r h Hr Hh. rewrite app_nil_r in Hr. apply (Th r h); [|exact Hh]. rewrite Ew. apply in_or_app. apply in_app_or in Hr. destruct Hr as [Hr|Hr]; [left; exact Hr|right; right; exact Hr].
  - intros r h [].
  - rewrite app_nil_r. apply (out_user a raw). rewrite <- Ew. exact Ul.
  - rewrite app_nil_r. apply (out_order c a raw). rewrite <- Ew. exact Io.
  - rewrite app_nil_r. exact O.
  - rewrite app_nil_r, Es. exact W.
  - exists v, w. split; [rewrite app_nil_r in V; exact V|]. split; [rewrite Es; exact W|exact P].
Qed.
Print Assumptions C64_comment.
(* a line with a word that no class knows *)
Theorem C64_unknown : forall u c id d j k blanks first pre raw next mid,
  let whole := pre ++ raw :: next :: mid in
  In c plain_types -> class_fixed c "id" = Some id -> Forall blank blanks -> heads first (lit id) -> Forall one_line (blanks ++ first :: whole) -> trouble_free c blanks first whole ->
  unknown c j -> heads raw j -> section_of c d -> In k (keywords d) -> k <> kw_comment -> heads next k ->
  (forall r h, In r whole -> heads r h -> no_char c_sp h /\ h <> lit "id" /\ h <> lit "version") -> user_last whole ->
  exists v, kvn_from_string u (text_of (blanks ++ first :: whole)) = Ok v /\ kvn_from_string u (text_of (blanks ++ first :: pre ++ next :: mid)) = Ok v.
Proof.
  intros u c id d j k blanks first pre raw next mid whole Hc Ei Bb Hf O T Uj Hr Hs Ik Nk Hn Th Ul.
  assert (T2 : trouble_free c blanks first (pre ++ next :: mid)) by (apply (out_free c blanks first pre raw [] next mid k Hn); exact T).
  assert (O2 : Forall one_line (blanks ++ first :: pre ++ next :: mid)). { pose proof O as O1. unfold whole in O1. rewrite app_comm_cons, app_assoc in O1. apply out_valued in O1. rewrite <- app_assoc in O1. exact O1. }
  destruct (trouble_read u c id blanks first _ Hc Ei Bb Hf O2 T2) as [w W]. exists w. split; [|exact W].
  assert (N : forall r, In r (pre ++ next :: mid) -> ~ heads r j).
  { destruct T as [_ [_ [S _]]]. intros r Ir Q. destruct Uj as [Nj _]. apply Nj. apply in_app_or in Ir. destruct Ir as [Ir|Ir]; apply in_split in Ir; destruct Ir as [p [q Er]].
    - apply (S p r q raw (next :: mid) j); [unfold whole; rewrite Er; apps|exact Q|exact Hr].
    - apply (S pre raw p r q j); [unfold whole; rewrite Er; reflexivity|exact Hr|exact Q]. }
  assert (Inw : forall r, In r (pre ++ next :: mid) -> In r whole) by (intros r Ir; unfold whole; apply in_or_app; apply in_app_or in Ir; destruct Ir as [Ir|Ir]; [left; exact Ir|right; right; exact Ir]).
  pose proof (C57_unknown_line u c id d j k blanks first pre raw next mid [] w) as G. rewrite app_nil_r in G. apply G; try assumption.
  - apply (Th raw j); [unfold whole; apply in_or_app; right; left; reflexivity|exact Hr].
  - destruct T2 as [_ [_ [S _]]]. exact S.
  - intros r h Ir Hh. exact (Th r h (Inw r Ir) Hh).
  - intros r h [].
  - apply (out_user pre raw). exact Ul.
Qed.
Print Assumptions C64_unknown.

(* one document with a line of each kind that can be taken out *)
Definition removable : list str := opm_before ++ map lit ["MASS = 1 [kg]"; ""; " DRAG_AREA= 12.5 [m**2]"; "SOLAR_RAD_AREA = 3"; "COMMENT all but one "; "SOLAR_RAD_COEFF = 4"; "ATMOSPHERE = thin"; "DRAG_COEFF = 2"].
Example C64_example : let d := "SpacecraftParametersType" in
  In "Opm" plain_types /\ class_fixed "Opm" "id" = Some "CCSDS_OPM_VERS" /\ heads opm_first (lit "CCSDS_OPM_VERS") /\ Forall one_line ([] ++ opm_first :: removable) /\ trouble_free "Opm" [] opm_first removable /\
  section_of "Opm" d /\ SpecComment.lone "Opm" d /\ (forall r h, In r removable -> heads r h -> no_char c_sp h /\ h <> lit "id" /\ h <> lit "version") /\ user_last removable /\ in_order "Opm" removable /\
  (exists pre mid prev raw next, removable = pre ++ prev :: [[]] ++ raw :: [] ++ next :: mid /\ heads prev (lit "MASS") /\ heads next (lit "SOLAR_RAD_AREA") /\ said (lit "DRAG_AREA", lit "12.5", lit "m**2") raw /\
     In (lit "MASS") (keywords d) /\ In (lit "SOLAR_RAD_AREA") (keywords d) /\ In (lit "DRAG_AREA") (keywords d) /\ good_value (lit "12.5") /\ unit_text (lit "m**2") /\ Forall xml_allowed (lit "m**2") /\ no_char c_lbr (lit "12.5")) /\
  (exists pre mid prev raw next, removable = pre ++ prev :: [] ++ raw :: [] ++ next :: mid /\ heads prev (lit "SOLAR_RAD_AREA") /\ heads next (lit "SOLAR_RAD_COEFF") /\ comments raw (lit "all but one") /\ In (lit "SOLAR_RAD_COEFF") (keywords d)) /\
  (exists pre mid raw next, removable = pre ++ raw :: next :: mid /\ heads raw (lit "ATMOSPHERE") /\ unknown "Opm" (lit "ATMOSPHERE") /\ heads next (lit "DRAG_COEFF") /\ In (lit "DRAG_COEFF") (keywords d)).
Proof.
  cbv zeta. assert (Hs : section_of "Opm" "SpacecraftParametersType").
  { split.
    - apply (SpecOrder.within_field _ "OpmData" (mkField "spacecraft_parameters" (Some "spacecraftParameters") false (TCls "SpacecraftParametersType") KElem None)); [|vm_compute; auto 10|reflexivity].
      apply (SpecOrder.within_field _ "OpmSegment" (mkField "data" None false (TCls "OpmData") KElem None)); [|vm_compute; auto 10|reflexivity].
      apply (SpecOrder.within_field _ "OpmBody" (mkField "segment" None false (TCls "OpmSegment") KElem None)); [|vm_compute; auto 10|reflexivity].
      apply (SpecOrder.within_field _ "Opm" (mkField "body" None false (TCls "OpmBody") KElem None)); [|vm_compute; auto 10|reflexivity]. apply SpecOrder.within_self.
    - split; [vm_compute; tauto|]. intros H. repeat (destruct H as [H|H]; [discriminate|]). destruct H. }
  split; [vm_compute; tauto|]. split; [reflexivity|]. split; [apply head_of_heads; vm_compute; reflexivity|].
  split; [apply Forall_forall; intros t Ht; repeat (destruct Ht as [<-|Ht]; [apply no_charb_spec; vm_compute; reflexivity|]); destruct Ht|].
  split.
  { split; [apply Forall_forall; intros t Ht; repeat (destruct Ht as [<-|Ht]; [apply allowed_check; vm_compute; reflexivity|]); destruct Ht|].
    split; [|split; [apply once_check; vm_compute; reflexivity|]].
    - apply Forall_forall. intros t Ht. repeat (destruct Ht as [<-|Ht]; [first [right; left; vm_compute; tauto|left; intros x Hx; destruct Hx; fail|right; right; exists []; eexists; split; [intros x Hx; destruct Hx|reflexivity]]|]). destruct Ht.
    - exists (removelast removable), (List.last removable []), [], (lit "DRAG_COEFF"). split; [vm_compute; reflexivity|]. split; [constructor|]. split; [apply head_of_heads; vm_compute; reflexivity|]. right.
      intros X. apply front_spec, mem_str_spec in X. vm_compute in X. discriminate. }
  split; [exact Hs|].
  split; [apply lone_sound; [apply plain_shut; vm_compute; tauto|vm_cast_no_check (eq_refl false)|refine (proj1 (inb_spec "SpacecraftParametersType" (sections "Opm")) _); vm_cast_no_check (eq_refl true)|exact (proj1 Hs)]|].
  split.
  { assert (X : forallb (head_is (fun h => no_charb c_sp h && (negb (str_eqb h (lit "id")) && negb (str_eqb h (lit "version"))))) removable = true) by (vm_compute; reflexivity).
    intros r h Hr Hh. rewrite forallb_forall in X. specialize (X r Hr). apply (head_is_spec _ _ _ X) in Hh. apply andb_true_iff in Hh. destruct Hh as [Hp Hh]. apply andb_true_iff in Hh. destruct Hh as [Hh ?]. split; [apply no_charb_spec; exact Hp|]. split; apply str_eqb_neq, negb_true_iff; assumption. }
  split; [apply user_check; vm_compute; reflexivity|]. split; [apply order_check; vm_cast_no_check (eq_refl true)|].
  split; [|split].
  - exists opm_before, (map lit ["COMMENT all but one "; "SOLAR_RAD_COEFF = 4"; "ATMOSPHERE = thin"; "DRAG_COEFF = 2"]), (lit "MASS = 1 [kg]"), (lit " DRAG_AREA= 12.5 [m**2]"), (lit "SOLAR_RAD_AREA = 3").
    split; [reflexivity|]. split; [apply head_of_heads; vm_compute; reflexivity|]. split; [apply head_of_heads; vm_compute; reflexivity|].
    split. { apply (said_unit (lit "DRAG_AREA") (lit "12.5") (lit "m**2") [c_sp] [] [c_sp] [c_sp] []); try discriminate; intros x Hx; repeat (destruct Hx as [<-|Hx]; [reflexivity|]); destruct Hx. }
    split; [vm_compute; tauto|]. split; [vm_compute; tauto|]. split; [vm_compute; tauto|]. split.
    { split; [|intros [Q _]; repeat (destruct Q as [Q|Q]; [discriminate|]); destruct Q].
      split; [discriminate|]. split; [apply trimmedb_spec; reflexivity|]. split; [apply no_charb_spec; vm_compute; reflexivity|]. apply Forall_forall; apply forallb_forall; vm_compute; reflexivity. }
    split; [split; [apply trimmedb_spec; reflexivity|split; apply no_charb_spec; vm_compute; reflexivity]|]. split; [apply allowed_check; vm_compute; reflexivity|apply no_charb_spec; vm_compute; reflexivity].
  - exists (opm_before ++ map lit ["MASS = 1 [kg]"; ""; " DRAG_AREA= 12.5 [m**2]"]), (map lit ["ATMOSPHERE = thin"; "DRAG_COEFF = 2"]), (lit "SOLAR_RAD_AREA = 3"), (lit "COMMENT all but one "), (lit "SOLAR_RAD_COEFF = 4").
    split; [reflexivity|]. split; [apply head_of_heads; vm_compute; reflexivity|]. split; [apply head_of_heads; vm_compute; reflexivity|].
    split. { exists [], (lit " all but one "). split; [reflexivity|]. split; [intros x []|]. split; [apply core_of; vm_compute; reflexivity|]. split; [discriminate|]. intros [X Y]. discriminate Y. }
    vm_compute; tauto.
  - exists (opm_before ++ map lit ["MASS = 1 [kg]"; ""; " DRAG_AREA= 12.5 [m**2]"; "SOLAR_RAD_AREA = 3"; "COMMENT all but one "; "SOLAR_RAD_COEFF = 4"]), [], (lit "ATMOSPHERE = thin"), (lit "DRAG_COEFF = 2").
    split; [reflexivity|]. split; [apply head_of_heads; vm_compute; reflexivity|]. split; [apply unknown_check; vm_compute; reflexivity|]. split; [apply head_of_heads; vm_compute; reflexivity|]. vm_compute; tauto.
Qed.
(* "A document that is read can be read without one of its lines" is false: without its only data line it ends in the metadata. *)
Theorem C64_last_refuted : let raw := lit "EPOCH = 2003" in
  trouble_free "Opm" [] opm_first (opm_short ++ [raw]) /\ (exists v, kvn_from_string demo_env (text_of (opm_first :: opm_short ++ [raw])) = Ok v) /\ kvn_from_string demo_env (text_of (opm_first :: opm_short)) = Err IndexError.
Proof.
  cbv zeta. split; [|split; [eexists; vm_compute; reflexivity|vm_compute; reflexivity]].
  split; [apply Forall_forall; intros t Ht; repeat (destruct Ht as [<-|Ht]; [apply allowed_check; vm_compute; reflexivity|]); destruct Ht|].
  split; [apply valued_check; vm_compute; reflexivity|]. split; [apply once_check; vm_compute; reflexivity|].
  exists opm_short, (lit "EPOCH = 2003"), [], (lit "EPOCH"). split; [reflexivity|]. split; [constructor|]. split; [apply head_of_heads; vm_compute; reflexivity|]. right.
  intros X. apply front_spec, mem_str_spec in X. vm_compute in X. discriminate.
Qed.
(* "Taking out a line of a section empties its field and changes nothing else" is false at the end of the section: the comment before
   the line moves to the next section. *)
Theorem C64_edge_refuted : let a := opm_short ++ map lit ["EPOCH = 2003"; "X = 1"; "COMMENT the last"] in let raw := lit "Y = 1" in let b := map lit ["MASS = 1"; "DRAG_AREA = 2"] in
  exists v w, kvn_from_string demo_env (text_of (opm_first :: a ++ raw :: b)) = Ok v /\ kvn_from_string demo_env (text_of (opm_first :: a ++ b)) = Ok w /\
    comments_in "state_vector" v = Some (VList [VStr (lit "the last")]) /\ comments_in "spacecraft_parameters" v = Some (VList []) /\
    comments_in "state_vector" w = Some (VList []) /\ comments_in "spacecraft_parameters" w = Some (VList [VStr (lit "the last")]).
Proof. cbv zeta. do 2 eexists. split; [vm_compute; reflexivity|]. split; [vm_compute; reflexivity|]. repeat split; vm_compute; reflexivity. Qed.
