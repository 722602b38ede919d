(* Messages with several segments. *)
From Coq Require Import NArith ZArith List Bool String Arith Lia.
From Verif Require Import PyStr PyDec PyVal Schema KvnPre KvnTree KvnSeg XmlBind KvnBuild NdmXml KvnWrite
     Spec SpecKvn SpecObj SpecMsg StrFacts DecFacts PreFacts SegFacts BuildFacts WriteFacts ParseFacts ShiftFacts
     ReadFacts ComposeFacts MsgFacts PropWrite CoreFacts UserFacts DataFacts SingleFacts ListFacts RelFacts.
Import ListNotations.
Local Open Scope string_scope.
Local Open Scope list_scope.
Local Arguments find_class : simpl never.
Local Arguments lit : simpl never.

Section SegList.
Variable u : env.

Lemma known_app T own a b : known T own a -> known T own b -> known T own (a ++ b).
Proof. intros A B t Ht Hc Hi. apply in_app_or in Hi. destruct Hi as [Hi|Hi]; [exact (A t Ht Hc Hi)|exact (B t Ht Hc Hi)]. Qed.

(* elements one after the other up to the end *)
Lemma items_list s (items : list (list line * pyval)) : items <> [] ->
  (forall a own v b, items = a ++ (own, v) :: b -> 0 < List.length own /\ reads u s (own ++ flat_map fst b) v (List.length own)) ->
  list_reads u s (flat_map fst items) (map snd items) [].
Proof.
  induction items as [|[own v] items IH]; intros Ne H; [congruence|]. destruct (H [] own v items eq_refl) as [L R].
  destruct items as [|i items].
  - cbn [flat_map fst map snd app] in *. rewrite app_nil_r in *. apply lr_end; assumption.
  - cbn [flat_map map fst snd]. apply lr_cons; [exact L| |exact R|].
    + destruct i as [o w]. destruct (H [(own, v)] o w items eq_refl) as [L2 _]. cbn [flat_map fst]. rewrite app_length. lia.
    + apply IH; [discriminate|]. intros a o w b E. apply (H ((own, v) :: a) o w b). rewrite E. reflexivity.
Qed.

Lemma sets_with l v n : sets v n -> sets (with_comments l v) n.
Proof.
  intros [c [vars [x [-> [Hi S]]]]]. destruct vars as [|[k w] r]; [destruct Hi|]. cbn [with_comments]. destruct w as [| | | | | |wl];
    try (exists c, ((k, VNone) :: r), x; auto; fail); try (eexists; eexists; exists x; split; [reflexivity|]; split; [exact Hi|exact S]).
  exists c, ((k, VList l) :: r), x. split; [reflexivity|]. split; [|exact S]. destruct Hi as [Hi|Hi]; [|right; exact Hi].
  injection Hi as <- <-. destruct S.
Qed.
Lemma sets_given l secs : Forall2 (fun a b => forall n, sets (snd a) n -> sets (snd b) n) secs (give_comments l secs).
Proof.
  assert (Rf : forall r : list (string * pyval), Forall2 (fun a b => forall n, sets (snd a) n -> sets (snd b) n) r r)
    by (induction r; constructor; auto).
  induction secs as [|[n v] r IH]; [constructor|]. cbn [give_comments].
  destruct v; (constructor; [|first [apply Rf|exact IH]]); intros m X; apply (sets_with l) in X; exact X.
Qed.

Lemma opt_known s v w : leaf_elem s = true -> opt_section (e_cls s) v -> opt_section (e_cls s) w ->
  (forall n, sets w n -> sets v n) -> known (e_kws s) (keys_of (sec_lines v)) (keys_of (sec_lines w)).
Proof.
  intros L Sv [->|Sw] H; [intros t _ _ []|]. destruct Sv as [->|Sv]; [|apply (later_known u); assumption].
  intros t Ht Hc Hi. exfalso. destruct (leaf_elem_spec s L) as [_ [_ [_ [Lc _]]]]. destruct Sw as [wa [-> [Ww _]]].
  destruct (key_set u _ _ t (e_cls s) (leaf_kw_ok _ Lc) Ww Hc Hi) as [f [_ [_ S]]]. apply H in S.
  destruct S as [c [vars [x [E _]]]]. discriminate.
Qed.

(* the keywords of the sections of a later block are used in those of the earlier one *)
Lemma blocks_known ss secs later : Forall2 sec_of ss secs -> Forall2 sec_of ss later ->
  forallb leaf_elem ss = true -> disjoint_all ss = true ->
  Forall2 (fun b a => forall n, sets (snd b) n -> sets (snd a) n) later secs ->
  Forall2 (fun s nv => known (e_kws s) (keys_of (sec_lines (snd nv))) (keys_of (lines_of later))) ss secs.
Proof.
  intros F. revert later. induction F as [|s nv ss secs [En [Il S]] F IH]; intros later Fl L D H; [constructor|].
  inversion Fl as [|? lv ? later' [En' [Il' S']] Fl']; subst. inversion H as [|? ? ? ? H1 H2]; subst.
  cbn [forallb disjoint_all] in L, D. apply andb_true_iff in L. destruct L as [Ls L]. apply andb_true_iff in D. destruct D as [Ds D].
  rewrite forallb_forall in Ds. cbn [lines_of flat_map]. fold (lines_of later'). rewrite keys_of_app. constructor.
  - apply known_app; [apply opt_known; assumption|]. intros t Ht Hc Hi. exfalso.
    destruct (lines_keys u ss later' Fl' L t Hi) as [E|[x [X1 X2]]]; [contradiction|]. exact (disjointb_spec _ _ _ (Ds x X1) Ht Hc X2).
  - apply (Forall2_weaken (fun s nv => known (e_kws s) (keys_of (sec_lines (snd nv))) (keys_of (lines_of later')))); [|apply IH; assumption].
    intros x xv Hx _ K. apply known_app; [|exact K]. intros t Ht Hc Hi. exfalso.
    destruct (section_keys_incl u s _ Ls S' t Hi) as [E|E]; [contradiction|]. exact (disjointb_spec _ _ _ (Ds x Hx) E Hc Ht).
Qed.

Lemma Forall2_and {A B} (P Q : A -> B -> Prop) la lb : Forall2 P la lb -> Forall2 Q la lb -> Forall2 (fun a b => P a b /\ Q a b) la lb.
Proof. intros H. induction H; intros G; inversion G; subst; constructor; auto. Qed.
Lemma Forall2_trans3 {A} (P : A -> A -> Prop) la lb lc : (forall a b c, P a b -> P b c -> P a c) ->
  Forall2 P la lb -> Forall2 P lb lc -> Forall2 P la lc.
Proof. intros T H. revert lc. induction H; intros lc G; inversion G; subst; constructor; eauto. Qed.

(* ---- segments made of metadata, comments and sections ---- *)
Definition part_lines (p : segment_parts) : list line :=
  let '(md, cs, secs) := p in sec_lines md ++ comment_lines cs ++ lines_of secs.
Definition part_ok (meta : elem) (ss : list elem) (p : segment_parts) : Prop :=
  let '(md, cs, secs) := p in
  section (e_cls meta) md /\ Forall good_text cs /\ Forall2 sec_of ss secs /\ some_section secs.
Definition seg_shape (seg meta data : elem) (ss : list elem) : Prop :=
  (bare_elem seg = true /\ e_subs seg = [meta; data] /\ data_elem data = true /\ e_subs data = ss /\ sec_elem meta = true /\ e_islist data = false) /\
  (forallb sec_elem ss = true /\ forallb (fun s => has_comments (e_cls s)) ss = true /\ disjoint_all (meta :: ss) = true) /\
  Forall2 (fun f s => f_name f = e_name s /\ f_list f = false) (tl (fields_of (e_cls data))) ss /\
  (vars_of (new_obj (e_cls seg)) = [("metadata", VNone); ("data", VNone)] /\ e_name meta = "metadata" /\ e_name data = "data") /\
  (quiet_class (e_cls seg) = true /\ quiet_class (e_cls data) = true /\ mem_string "units" (map e_name ss) = false).

Lemma comment_keys cs k : In k (keys_of (comment_lines cs)) -> k = kw_comment.
Proof. unfold keys_of, comment_lines. rewrite map_map. intros H. apply in_map_iff in H. destruct H as [? [<- _]]. reflexivity. Qed.
Lemma part_keys meta ss p k : leaf_elem meta = true -> forallb leaf_elem ss = true -> part_ok meta ss p ->
  In k (keys_of (part_lines p)) -> k = kw_comment \/ In k (e_kws meta) \/ exists s, In s ss /\ In k (e_kws s).
Proof.
  destruct p as [[md cs] secs]. intros Lm Ls [Sm [G [F _]]] Hk. unfold part_lines in Hk. rewrite !keys_of_app in Hk.
  apply in_app_or in Hk. destruct Hk as [Hk|Hk].
  - destruct (section_keys_incl u meta md Lm (or_intror Sm) k Hk); auto.
  - apply in_app_or in Hk. destruct Hk as [Hk|Hk]; [left; exact (comment_keys _ _ Hk)|].
    destruct (lines_keys u ss secs F Ls k Hk) as [Y|Y]; auto.
Qed.
Lemma parts_keys meta ss ps k : leaf_elem meta = true -> forallb leaf_elem ss = true -> Forall (part_ok meta ss) ps ->
  In k (keys_of (flat_map part_lines ps)) -> k = kw_comment \/ In k (e_kws meta) \/ exists s, In s ss /\ In k (e_kws s).
Proof.
  intros Lm Ls F. induction F as [|p ps Hp _ IH]; [intros []|]. cbn [flat_map]. rewrite keys_of_app. intros H. apply in_app_or in H.
  destruct H as [H|H]; [exact (part_keys meta ss p k Lm Ls Hp H)|exact (IH H)].
Qed.

Lemma part_reads seg meta data ss p r : seg_shape seg meta data ss -> Forall (part_ok meta ss) (p :: r) -> no_new_keys (p :: r) ->
  reads u seg (part_lines p ++ flat_map part_lines r) (settle (e_cls seg) (e_cls data) p) (List.length (part_lines p)).
Proof.
  intros [[B [Es [Dd [Ed [Sm Il]]]]] [[Xs [Xc Xd]] [Fn [[Nv [Nm Nd]] _]]]] Fa Nn. destruct p as [[md cs] secs]. destruct Nn as [Nn _].
  pose proof (Forall_inv Fa) as Hp. pose proof (Forall_inv_tail Fa) as Fr. cbn [part_ok] in Hp. destruct Hp as [Smd [G [F Ss]]]. destruct (sec_elem_spec meta Sm) as [Lm [Im _]].
  pose proof (sec_elems_leaf ss Xs) as Ls. cbn [disjoint_all] in Xd. apply andb_true_iff in Xd. destruct Xd as [Dm Ds]. rewrite forallb_forall in Dm.
  set (R := flat_map part_lines r).
  assert (F' : Forall2 sec_of ss (give_comments (section_comments (texts cs) secs) secs)).
  { destruct (give_split u ss secs F Ls Xc Ss) as [ts [r0 [F1 [Gt [_ [_ Y0]]]]]].
    unfold section_comments. rewrite F1, <- texts_app, texts_skip. apply Y0.
    assert (Ga : Forall good_text (cs ++ ts)) by (apply Forall_app; auto). destruct (cs ++ ts); [constructor|inversion Ga; assumption]. }
  assert (Kb : Forall2 (fun s nv => known (e_kws s) (keys_of (sec_lines (snd nv))) (keys_of R)) ss (give_comments (section_comments (texts cs) secs) secs)).
  { revert Nn Fr. unfold R. clear - u F F' Ls Ds Dm Lm. intros Nn Fr. induction Fr as [|q r Hq Fr IH].
    - cbn. eapply Forall2_weaken; [|exact F']. intros s nv _ _ _ t _ _ [].
    - cbn [flat_map]. destruct q as [[md' cs'] secs'].
      assert (I1 := IH (fun md0 cs0 secs0 H => Nn md0 cs0 secs0 (or_intror H))). clear IH.
      destruct (Nn md' cs' secs' (or_introl eq_refl)) as [_ Hs]. destruct Hq as [Sq [_ [Fq _]]].
      assert (K : Forall2 (fun s nv => known (e_kws s) (keys_of (sec_lines (snd nv))) (keys_of (lines_of secs'))) ss (give_comments (section_comments (texts cs) secs) secs)).
      { apply blocks_known; try assumption. eapply (Forall2_trans3 (fun a b => forall n, sets (snd a) n -> sets (snd b) n)); [|exact Hs|apply sets_given]. auto. }
      eapply Forall2_weaken; [|apply (Forall2_and _ _ _ _ K I1)]. cbn beta. intros s nv Hs0 _ [K1 K2]. rewrite keys_of_app. apply known_app; [|exact K2].
      unfold part_lines. rewrite !keys_of_app. apply known_app; [|apply known_app; [|exact K1]].
      + intros t Ht Hc Hi. exfalso. destruct (section_keys_incl u meta md' Lm (or_intror Sq) t Hi) as [Y|Y]; [contradiction|].
        exact (disjointb_spec _ _ _ (Dm s Hs0) Y Hc Ht).
      + intros t Ht Hc Hi. exfalso. exact (Hc (comment_keys _ _ Hi)). }
  assert (Km : known (e_kws meta) (keys_of (sec_lines md)) (keys_of ((comment_lines cs ++ lines_of secs) ++ R))).
  { rewrite !keys_of_app. apply known_app; [apply known_app|].
    - intros t Ht Hc Hi. exfalso. exact (Hc (comment_keys _ _ Hi)).
    - intros t Ht Hc Hi. exfalso. destruct (lines_keys u ss secs F Ls t Hi) as [Y|[s [Y1 Y2]]]; [contradiction|]. exact (disjointb_spec _ _ _ (Dm s Y1) Ht Hc Y2).
    - unfold R. clear Kb. revert Nn Fr. clear - u F Ls Dm Lm Smd. intros Nn Fr. induction Fr as [|q r Hq Fr IH]; [intros t _ _ []|].
      cbn [flat_map]. rewrite keys_of_app. apply known_app; [|apply IH; intros md0 cs0 secs0 H; exact (Nn md0 cs0 secs0 (or_intror H))].
      destruct q as [[md' cs'] secs']. destruct (Nn md' cs' secs' (or_introl eq_refl)) as [Hs _]. destruct Hq as [Sq [_ [Fq _]]].
      unfold part_lines. rewrite !keys_of_app. apply known_app; [apply (later_known u); assumption|apply known_app].
      + intros t Ht Hc Hi. exfalso. exact (Hc (comment_keys _ _ Hi)).
      + intros t Ht Hc Hi. exfalso. destruct (lines_keys u ss secs' Fq Ls t Hi) as [Y|[s [Y1 Y2]]]; [contradiction|]. exact (disjointb_spec _ _ _ (Dm s Y1) Ht Hc Y2). }
  assert (Rd : reads u data ((comment_lines cs ++ lines_of secs) ++ R)
            (VObj (e_cls data) (("comment", VList (data_comments (texts cs) secs)) :: give_comments (section_comments (texts cs) secs) secs))
            (List.length (comment_lines cs ++ lines_of secs))).
  { rewrite <- app_assoc, <- (Nat.add_0_r (List.length (comment_lines cs ++ lines_of secs))).
    eapply data_sections with (ss' := []) (fs2 := []) (att' := []); try eassumption.
    - rewrite app_nil_r. exact Ed.
    - rewrite app_nil_r. reflexivity.
    - intros pre _. apply subs_nil.
    - cbn [attach_all defaults map]. rewrite app_nil_r. reflexivity. }
  unfold part_lines, settle. rewrite <- app_assoc.
  pose proof (segment_reads u seg meta data md (comment_lines cs ++ lines_of secs) R _ B Es Lm Im Il Smd Km Rd) as Rs.
  rewrite Nm, Nd in Rs. apply Rs; [exact Nv|discriminate].
Qed.

Lemma part_lines_ne meta ss p : leaf_elem meta = true -> part_ok meta ss p -> 0 < List.length (part_lines p).
Proof.
  destruct p as [[md cs] secs]. intros Lm [Sm _]. pose proof (section_lines_ne u meta md Lm Sm). unfold part_lines. rewrite app_length. lia.
Qed.
Lemma no_new_keys_app a b : no_new_keys (a ++ b) -> no_new_keys b.
Proof. induction a as [|[[md cs] secs] a IH]; cbn; intros H; [exact H|apply IH, H]. Qed.
Lemma parts_list seg meta data ss ps : seg_shape seg meta data ss -> ps <> [] -> Forall (part_ok meta ss) ps -> no_new_keys ps ->
  list_reads u seg (flat_map part_lines ps) (map (settle (e_cls seg) (e_cls data)) ps) [].
Proof.
  intros Sh Ne F N.
  assert (Lm : leaf_elem meta = true) by (destruct Sh as [[_ [_ [_ [_ [Sm _]]]]] _]; apply (sec_elem_spec meta Sm)).
  assert (E1 : forall l, flat_map part_lines l = flat_map fst (map (fun p => (part_lines p, settle (e_cls seg) (e_cls data) p)) l)).
  { clear. induction l as [|p ps IH]; [reflexivity|]. cbn. rewrite IH. reflexivity. }
  assert (E2 : map (settle (e_cls seg) (e_cls data)) ps = map snd (map (fun p => (part_lines p, settle (e_cls seg) (e_cls data) p)) ps)).
  { rewrite map_map. reflexivity. }
  rewrite E1, E2. apply items_list; [destruct ps; [congruence|discriminate]|].
  intros a own v b E. 
  assert (X : exists pa p pb, ps = pa ++ p :: pb /\ own = part_lines p /\ v = settle (e_cls seg) (e_cls data) p /\
              b = map (fun p => (part_lines p, settle (e_cls seg) (e_cls data) p)) pb).
  { clear - E. revert ps E. induction a as [|x a IH]; intros [|p ps] E; try discriminate.
    - cbn in E. injection E as <- <- <-. exists [], p, ps. auto.
    - cbn in E. injection E as _ E. destruct (IH ps E) as [pa [q [pb [-> H]]]]. exists (p :: pa), q, pb. auto. }
  destruct X as [pa [p [pb [-> [-> [-> ->]]]]]]. rewrite <- E1. apply no_new_keys_app in N. apply Forall_app in F. destruct F as [_ F].
  split; [|apply (part_reads seg meta data ss); assumption]. inversion F as [|? ? Hp _]; subst. exact (part_lines_ne meta ss p Lm Hp).
Qed.

Lemma emits_parts key seg meta data ss ps : seg_shape seg meta data ss -> plain_key key -> Forall (part_ok meta ss) ps ->
  emits u key (VList (map (segment_object (e_cls seg) (e_cls data)) ps)) (flat_map part_lines ps).
Proof.
  intros [[B [Es [Dd [Ed [Sm Il]]]]] [[Xs [Xc Xd]] [Fn [[Nv [Nm Nd]] [Qs [Qd Nu]]]]]] [K1 K2] F.
  destruct (sec_elem_spec meta Sm) as [Lm [Im [Cm [Mm Km]]]].
  assert (X : flat_map part_lines ps = list_markers (map (segment_object (e_cls seg) (e_cls data)) ps) true
              ++ List.concat (map part_lines ps) ++ list_markers (map (segment_object (e_cls seg) (e_cls data)) ps) false).
  { unfold quiet_class in Qs. apply andb_true_iff in Qs. destruct Qs as [_ Qs]. apply negb_true_iff in Qs.
    rewrite flat_map_concat_map. destruct ps as [|[[md cs] secs] ps]; [reflexivity|]. cbn [map segment_object list_markers]. unfold markers. rewrite Qs, app_nil_r. reflexivity. }
  rewrite X. apply emits_list; [exact K1|exact K2|]. clear X.
  unfold quiet_class in Qs. apply andb_true_iff in Qs. destruct Qs as [Qs _]. apply negb_true_iff in Qs.
  induction F as [|[[md cs] secs] ps [Smd [G [Fs Ss]]] _ IH]; [constructor|]. cbn [map]. constructor; [|exact IH].
  cbn [segment_object part_lines]. apply adds_item_obj; [exact Qs|]. apply emits_vars_cons.
  - apply (emits_opt u _ _ _ Cm (Mm true) (Mm false)); [split; discriminate|right; exact Smd].
  - rewrite <- (app_nil_r (comment_lines cs ++ lines_of secs)). apply emits_vars_cons; [|apply emits_vars_nil].
    apply emits_node; [split; discriminate|exact Qd| |].
    + assert (Nms : map fst secs = map e_name ss).
      { clear - Fs. induction Fs as [|s nv ss secs [E _] _ IH]; [reflexivity|]. cbn. rewrite E, IH. reflexivity. }
      cbn [map fst]. rewrite Nms. unfold mem_string in *. cbn [existsb]. rewrite Nu. reflexivity.
    + apply emits_comment_vars; [exact G|]. eapply emits_sections; eassumption.
Qed.
End SegList.
