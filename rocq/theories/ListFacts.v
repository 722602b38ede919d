(* Repeated keyword sections, written and read back. *)
From Coq Require Import NArith ZArith List Bool String Arith Lia.
From Verif Require Import PyStr PyDec PyVal Schema KvnPre KvnTree KvnSeg XmlBind KvnBuild NdmXml KvnWrite
     Spec SpecKvn SpecObj SpecMsg StrFacts DecFacts PreFacts SegFacts BuildFacts WriteFacts ParseFacts ShiftFacts
     ReadFacts ComposeFacts MsgFacts CoreFacts UserFacts DataFacts.
Import ListNotations.
Local Open Scope string_scope.
Local Open Scope list_scope.
Local Arguments find_class : simpl never.
Local Arguments lit : simpl never.

Section Lists.
Variable u : env.

Definition list_lines (vs : list pyval) : list line := flat_map sec_lines vs.

(* the keywords of a section are those of the fields that are set *)
Lemma value_lines kw t v : wf_value t v -> field_entries kw v = [(lit kw, fst (shown v), snd (shown v))] /\ is_set v.
Proof. intros W. destruct W as [t v W| |]; [destruct W|..]; split; try reflexivity; exact I. Qed.
Lemma key_set fs vars t c : forallb kw_field_ok fs = true -> wf_vars fs vars -> t <> kw_comment ->
  In t (keys_of (map line_of (entries fs vars))) -> exists f, In f fs /\ t = lit (kw_of f) /\ sets (VObj c vars) (f_name f).
Proof.
  intros K W Nc. induction W as [|f [n v] fs vars [E Wf] _ IH]; [intros []|].
  cbn [forallb] in K. apply andb_true_iff in K. destruct K as [Kf K]. cbn [fst snd] in *. subst n.
  cbn [entries]. rewrite map_app, keys_of_app. intros Hi. apply in_app_or in Hi. destruct Hi as [Hi|Hi].
  - change (match f_kw f with Some k => k | None => "" end) with (kw_of f) in Hi. exists f. split; [left; reflexivity|]. destruct Wf as [L|v L W|ts L G].
    + destruct Hi.
    + destruct (value_lines (kw_of f) _ _ W) as [E1 S]. rewrite E1 in Hi. cbn [map] in Hi. unfold keys_of in Hi. cbn [map] in Hi.
      rewrite key_line_of in Hi. destruct Hi as [<-|[]]. split; [reflexivity|]. exists c, ((f_name f, v) :: vars), v.
      split; [reflexivity|]. split; [left; reflexivity|exact S].
    + exfalso. destruct (kw_field_spec u f Kf) as [_ [_ [_ [_ [_ [_ [_ [X _]]]]]]]]. destruct (X L) as [_ [X1 _]].
      cbn [field_entries] in Hi. unfold keys_of in Hi. rewrite !map_map in Hi. apply in_map_iff in Hi. destruct Hi as [x [Hx _]].
      rewrite key_line_of, X1 in Hx. apply Nc. symmetry. exact Hx.
  - destruct (IH K Hi) as [g [G1 [G2 [c' [vars' [x [G3 [G4 G5]]]]]]]]. exists g. split; [right; exact G1|]. split; [exact G2|].
    injection G3 as _ <-. exists c, ((f_name f, v) :: vars), x. split; [reflexivity|]. split; [right; exact G4|exact G5].
Qed.
Lemma set_key fs vars f c : forallb kw_field_ok fs = true -> wf_vars fs vars -> kw_field_ok f = true ->
  sets (VObj c vars) (f_name f) -> In (lit (kw_of f)) (keys_of (map line_of (entries fs vars))).
Proof.
  intros K W Kf [c' [vars' [x [E [Hi S]]]]]. injection E as _ <-.
  induction W as [|g [n v] fs vars [E Wf] _ IH]; [destruct Hi|].
  cbn [forallb] in K. apply andb_true_iff in K. destruct K as [Kg K]. cbn [fst snd] in *. subst n.
  cbn [entries]. rewrite map_app, keys_of_app. apply in_or_app. destruct Hi as [Hi|Hi]; [left|right; apply IH; assumption].
  injection Hi as En Ev. subst v.
  destruct (kw_field_spec u f Kf) as [_ [_ [_ [_ [Uf _]]]]]. destruct (kw_field_spec u g Kg) as [_ [_ [_ [_ [Ug _]]]]].
  change (match f_kw g with Some k => k | None => "" end) with (kw_of g). rewrite <- Uf, <- En, Ug.
  destruct Wf as [L|v L W|ts L G]; [destruct S| |destruct S].
  destruct (value_lines (kw_of g) _ _ W) as [E1 _]. rewrite E1. cbn [map]. unfold keys_of. cbn [map]. rewrite key_line_of. left. reflexivity.
Qed.

Lemma leaf_kw_ok c : leaf_class c = true -> forallb kw_field_ok (fields_of c) = true.
Proof. unfold leaf_class. intros H. do 3 (apply andb_true_iff in H; destruct H as [H ?]). exact H. Qed.
Lemma later_known s v w : leaf_elem s = true -> section (e_cls s) v -> section (e_cls s) w ->
  (forall n, sets w n -> sets v n) -> known (e_kws s) (keys_of (sec_lines v)) (keys_of (sec_lines w)).
Proof.
  intros L [va [-> [Wv _]]] [wa [-> [Ww _]]] H t Ht Nc Hi. destruct (leaf_elem_spec s L) as [_ [_ [_ [Lc _]]]].
  pose proof (leaf_kw_ok _ Lc) as K. cbn [sec_lines] in *. destruct (key_set _ _ t (e_cls s) K Ww Nc Hi) as [f [Hf [-> S]]].
  rewrite forallb_forall in K. pose proof (K f Hf) as Kf. apply H in S.
  eapply set_key; [|exact Wv|exact Kf|exact S]. apply forallb_forall. exact K.
Qed.
Lemma section_lines_ne s v : leaf_elem s = true -> section (e_cls s) v -> 0 < List.length (sec_lines v).
Proof.
  intros L S. destruct (section_claims u s v [] L S) as [n [ks [E [N _]]]]; [intros t _ _ []|].
  destruct (sec_lines v); [|cbn; lia]. destruct n; cbn in E; [subst; congruence|discriminate].
Qed.
Lemma list_lines_keys s vs t : leaf_elem s = true -> Forall (section (e_cls s)) vs -> In t (keys_of (list_lines vs)) ->
  exists w, In w vs /\ In t (keys_of (sec_lines w)).
Proof.
  intros L F. induction F as [|v vs S _ IH]; [intros []|]. cbn [list_lines flat_map]. rewrite keys_of_app. intros H. apply in_app_or in H.
  destruct H as [H|H]; [exists v; split; [left; reflexivity|exact H]|]. destruct (IH H) as [w [W1 W2]]. exists w. split; [right; exact W1|exact W2].
Qed.
Lemma list_lines_incl s vs t : leaf_elem s = true -> Forall (section (e_cls s)) vs -> In t (keys_of (list_lines vs)) ->
  t = kw_comment \/ In t (e_kws s).
Proof.
  intros L F H. destruct (list_lines_keys s vs t L F H) as [w [W1 W2]]. rewrite Forall_forall in F.
  apply (section_keys_incl u s w L (or_intror (F w W1)) t W2).
Qed.

Lemma list_stops s rest : leaf_elem s = true -> (forall t, In t (e_kws s) -> t <> kw_comment -> ~ In t (keys_of rest)) -> stops u s rest.
Proof.
  intros L N. destruct (leaf_elem_spec s L) as [O [Sg [Es [Lc [Ek [H1 R]]]]]].
  exists 0, 0, 0, s. split; [|left; auto]. rewrite identify_eq.
  rewrite (own_range_ordinary u s _ _ 0 (0, 0) (e_kws s) O Sg).
  - cbn [bind]. rewrite Es, set_kws_same. reflexivity.
  - apply misses_range. split; [intros _; exact H1|]. cbn [skipn]. exact N.
Qed.

Lemma section_list s vs rest : leaf_elem s = true -> Forall (section (e_cls s)) vs -> no_new_fields vs ->
  (forall t, In t (e_kws s) -> t <> kw_comment -> ~ In t (keys_of rest)) ->
  list_reads u s (list_lines vs ++ rest) vs rest.
Proof.
  intros L F N R. induction F as [|v vs S F IH]; [apply lr_stop; apply list_stops; assumption|].
  destruct N as [N1 N2]. specialize (IH N2). cbn [list_lines flat_map]. fold (list_lines vs). rewrite <- app_assoc.
  assert (Rv : reads u s (sec_lines v ++ list_lines vs ++ rest) v (List.length (sec_lines v))).
  { apply section_reads; [exact L|exact S|]. intros t Ht Nc Hi. rewrite keys_of_app in Hi. apply in_app_or in Hi. destruct Hi as [Hi|Hi].
    - destruct (list_lines_keys s vs t L F Hi) as [w [W1 W2]]. rewrite Forall_forall in F.
      apply (later_known s v w L S (F w W1) (fun n => N1 w n W1) t Ht Nc W2).
    - exfalso. exact (R t Ht Nc Hi). }
  pose proof (section_lines_ne s v L S) as Nv.
  destruct (list_lines vs ++ rest) as [|l0 R0] eqn:E.
  - apply app_eq_nil in E. destruct E as [E1 E2]. destruct vs as [|w vs].
    + subst rest. rewrite app_nil_r in *. apply lr_end; assumption.
    + inversion F as [|? ? Sw]; subst. pose proof (section_lines_ne s w L Sw) as Nw. cbn in E1. apply app_eq_nil in E1. destruct E1 as [E1 _]. rewrite E1 in Nw. cbn in Nw. lia.
  - rewrite <- E in *. apply lr_cons; try assumption. rewrite E. cbn. lia.
Qed.

(* writing them *)
Lemma emits_list_sections key c vs : sec_class c = true -> (forall b, markers c b = []) -> plain_key key -> Forall (section c) vs ->
  emits u key (VList vs) (list_lines vs).
Proof.
  intros Sc M [K1 K2] F. unfold sec_class in Sc. apply andb_true_iff in Sc. destruct Sc as [L P]. destruct (plain_class_spec c P) as [P1 P2].
  assert (X : list_lines vs = list_markers vs true ++ List.concat (map sec_lines vs) ++ list_markers vs false).
  { rewrite <- flat_map_concat_map. unfold list_markers. destruct F as [|v vs [vars [-> _]] F]; [reflexivity|]. rewrite !M, app_nil_r. reflexivity. }
  rewrite X. apply emits_list; [exact K1|exact K2|]. clear X. induction F as [|v vs [vars [-> [W _]]] _ IH]; [constructor|].
  cbn [map]. constructor; [|exact IH]. apply adds_item_obj; [exact P1|]. cbn [sec_lines]. apply emits_fields; [apply leaf_kw_ok; exact L|exact W].
Qed.
End Lists.
