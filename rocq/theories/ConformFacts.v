(* What is read fits the schema. *)
From Coq Require Import NArith ZArith List Bool String Arith Lia.
From Verif Require Import PyStr PyDec PyVal Schema KvnPre KvnTree KvnSeg XmlBind KvnBuild Spec SpecNum SpecBack SpecSchema
     DecFacts StrFacts PreFacts SegFacts BuildFacts WriteFacts NumFacts PropNum ErrFacts.
Import ListNotations.
Local Open Scope string_scope.
Local Open Scope list_scope.
Local Arguments find_class : simpl never.
Local Arguments lit : simpl never.

(* ---- classes ---- *)
Definition simple_type (t : ftype) : bool := match t with TCls c => match find_class c with Some (CEnum _) => true | _ => false end | _ => true end.
Definition known_type (t : ftype) : bool := match t with TCls c => match find_class c with Some _ => true | None => false end | _ => true end.
Fixpoint distinct (l : list string) : bool := match l with [] => true | x :: r => negb (existsb (String.eqb x) r) && distinct r end.
Definition class_ok (fs : list field) : bool :=
  distinct (map f_name fs) &&
  forallb (fun f => known_type (f_ty f) && match f_kind f with KElem => true | _ => simple_type (f_ty f) && negb (f_list f) end) fs.
Definition member_ok (mv : string * string) : bool := str_eqb (join [c_sp] (split_ws (lit (snd mv)))) (lit (snd mv)).
Definition def_ok (d : cdef) : bool := match d with CData _ fs => class_ok fs | CEnum ms => forallb member_ok ms end.
Lemma schema_ok : forallb (fun cd => def_ok (snd cd)) schema = true.
Proof. vm_compute. reflexivity. Qed.
Lemma find_ok c d : find_class c = Some d -> def_ok d = true.
Proof.
  unfold find_class. pose proof schema_ok as H. induction schema as [|[k v] l IH]; [discriminate|]. cbn [forallb snd] in H. apply andb_true_iff in H. destruct H as [H1 H2].
  cbn [assoc]. destruct (String.eqb k c); [intros E; injection E as <-; exact H1|exact (IH H2)].
Qed.
Lemma distinct_name fs : distinct (map f_name fs) = true -> forall f g, In f fs -> In g fs -> f_name f = f_name g -> f = g.
Proof.
  induction fs as [|a fs IH]; [intros _ f g []|]. cbn [map distinct]. intros H. apply andb_true_iff in H. destruct H as [H1 H2]. apply negb_true_iff in H1.
  assert (N : forall x, In x fs -> f_name x <> f_name a).
  { intros x Hx E. assert (X : existsb (String.eqb (f_name a)) (map f_name fs) = true) by (apply existsb_exists; exists (f_name x); split; [apply in_map; exact Hx|rewrite E; apply String.eqb_refl]). congruence. }
  intros f g [<-|Hf] [<-|Hg] E; [reflexivity| | |exact (IH H2 f g Hf Hg E)]; exfalso; [eapply N; [exact Hg|congruence]|eapply N; [exact Hf|exact E]].
Qed.
Lemma class_known c m fs : find_class c = Some (CData m fs) -> class_ok fs = true.
Proof. intros H. exact (find_ok c _ H). Qed.
Lemma class_field fs f : class_ok fs = true -> In f fs -> known_type (f_ty f) = true /\ (f_kind f <> KElem -> simple_type (f_ty f) = true /\ f_list f = false).
Proof.
  intros H If. unfold class_ok in H. apply andb_true_iff in H. destruct H as [_ H]. rewrite forallb_forall in H. specialize (H f If). apply andb_true_iff in H. destruct H as [H1 H2].
  split; [exact H1|]. intros K. destruct (f_kind f); [congruence| |]; apply andb_true_iff in H2; destruct H2 as [H2 H3]; apply negb_true_iff in H3; auto.
Qed.

(* ---- numbers and names ---- *)
Lemma spells_canonical s d : spells s d -> canonical d.
Proof. intros H. destruct H; try exact I; destruct (value ds) as [|p]; exact I. Qed.
Lemma decimal_canonical u s d : py_decimal u s = Some d -> canonical d.
Proof. unfold py_decimal. intros H. apply parse_dec_is in H. exact (spells_canonical _ _ H). Qed.
Lemma decimal_none u s : py_decimal u s = None -> no_decimal s.
Proof. intros H P core d C S. assert (X : py_decimal u s = Some d) by (apply C53_decimal_value; [exact P|eauto]). congruence. Qed.
Lemma whole_none u s : py_int u s = None -> no_whole s.
Proof. intros H P core d C S. assert (X : py_int u s = Some d) by (apply C53_whole_value; [exact P|eauto]). congruence. Qed.
Lemma split_aux_blank w : blank w -> split_ws_aux [] w = [].
Proof. induction w as [|c w IH]; intros B; [reflexivity|]. cbn [split_ws_aux]. rewrite (B c (or_introl eq_refl)). apply IH. intros x Hx. apply B. right. exact Hx. Qed.
Lemma split_aux_tail w : blank w -> forall s cur, split_ws_aux cur (s ++ w) = split_ws_aux cur s.
Proof.
  intros B. induction s as [|c s IH]; intros cur; cbn [app split_ws_aux].
  - destruct w as [|c w]; [reflexivity|]. cbn [split_ws_aux]. rewrite (B c (or_introl eq_refl)).
    assert (Z : split_ws_aux [] w = []) by (apply split_aux_blank; intros x Hx; apply B; right; exact Hx). destruct cur; rewrite Z; reflexivity.
  - destruct (is_ws c); [|apply IH]. destruct cur; rewrite IH; reflexivity.
Qed.
Lemma split_aux_head w s : blank w -> split_ws_aux [] (w ++ s) = split_ws_aux [] s.
Proof. induction w as [|c w IH]; intros B; [reflexivity|]. cbn [app split_ws_aux]. rewrite (B c (or_introl eq_refl)). apply IH. intros x Hx. apply B. right. exact Hx. Qed.
Lemma split_strip s : split_ws (strip s) = split_ws s.
Proof.
  destruct (strip_core s) as [w1 [w2 [E [B1 [B2 T]]]]]. unfold split_ws. rewrite E at 2. rewrite split_aux_head by exact B1. rewrite split_aux_tail by exact B2. reflexivity.
Qed.
Lemma enum_conforms c ms s : find_class c = Some (CEnum ms) -> conforms (TCls c) (conv_enum c ms s).
Proof.
  intros F. unfold conv_enum. destruct (find _ ms) as [[m v]|] eqn:E; [apply find_some in E; destruct E as [E _]; apply (co_enum c ms m v F E)|].
  apply (co_no_enum c ms s F). intros m v I X. pose proof (find_none _ _ E _ I) as N. cbn [snd] in N. apply orb_false_iff in N. destruct N as [_ N].
  pose proof (find_ok c _ F) as D. cbn [def_ok] in D. rewrite forallb_forall in D. specialize (D _ I). unfold member_ok in D. cbn [snd] in D. apply str_eqb_eq in D.
  rewrite split_strip, <- X, D in N. assert (Y : str_eqb (lit v) (lit v) = true) by (apply str_eqb_eq; reflexivity). congruence.
Qed.

Section Conform.
Variable u : env.
Hypothesis empties : empty_read u.

Lemma not_plain_text : forall t, simple_type t = true -> conforms t (VStr []).
Proof.
  assert (C0 : forall core, is_core [] core -> core = []).
  { intros core [w1 [w2 [E _]]]. destruct w1; [|discriminate]. destruct core; [reflexivity|discriminate]. }
  intros [| | |c] S; [constructor| | |].
  - apply co_no_int. intros _ core z C X. apply C0 in C. subst core.
    assert (Y : py_int u [] = Some z) by (apply C53_whole_value; [constructor|exists []; split; [exact (strip_core [])|exact X]]). discriminate Y.
  - apply co_no_dec. intros _ core d C X. apply C0 in C. subst core. change (no_underscores []) with (@nil N) in X.
    assert (Y : py_decimal u [] = Some d) by (apply C53_decimal_value; [constructor|exists []; split; [exact (strip_core [])|exact X]]). discriminate Y.
  - cbn in S. destruct (find_class c) as [[m fs|ms]|] eqn:E; try discriminate. apply (co_no_enum c ms [] E). intros m v I X. change (split_ws []) with (@nil str) in X.
    pose proof (find_ok c _ E) as D. cbn [def_ok] in D. rewrite forallb_forall in D. specialize (D _ I). unfold member_ok in D. cbn [snd] in D. rewrite X in D.
    assert (Nn : forallb (fun cd => match snd cd with CEnum ms => forallb (fun mv => negb (str_eqb [] (lit (snd mv)))) ms | _ => true end) schema = true) by (vm_compute; reflexivity).
    assert (N2 : forallb (fun mv => negb (str_eqb [] (lit (snd mv)))) ms = true).
    { clear - E Nn. unfold find_class in E. induction schema as [|[k d] l IH]; [discriminate|]. cbn [forallb snd] in Nn. apply andb_true_iff in Nn. destruct Nn as [N1 N2]. cbn [assoc] in E.
      destruct (String.eqb k c); [injection E as ->; exact N1|exact (IH E N2)]. }
    rewrite forallb_forall in N2. specialize (N2 _ I). cbn [snd] in N2. change (join [c_sp] []) with (@nil N) in D. rewrite D in N2. discriminate.
Qed.
(* a converted text: None for an empty one, or a value of the type *)
Lemma conv_conforms cls n t s : simple_type t = true -> conv u cls n t s = VNone \/ conforms t (conv u cls n t s).
Proof.
  intros S. unfold conv. destruct s as [|a s]; [destruct (proj1 empties cls n) as [-> | ->]; [left; reflexivity|right; apply not_plain_text; exact S]|]. right.
  destruct t as [| | |c]; [constructor| | |].
  - destruct (py_int u _) eqn:E; [constructor|]. apply co_no_int. exact (whole_none u _ E).
  - destruct (py_decimal u _) eqn:E; [apply co_dec; exact (decimal_canonical u _ _ E)|]. apply co_no_dec. exact (decimal_none u _ E).
  - cbn in S. destruct (find_class c) as [[m fs|ms]|] eqn:E; try discriminate. apply enum_conforms. exact E.
Qed.
Lemma conv_holds cls n f s : simple_type (f_ty f) = true -> f_list f = false -> holds f (conv u cls n (f_ty f) s).
Proof. intros S L. destruct (conv_conforms cls n (f_ty f) s S) as [->|C]; [apply ho_none; exact L|apply ho_one; assumption]. Qed.
Lemma default_holds f : holds f (field_default f).
Proof. unfold field_default. destruct (f_list f) eqn:L; [apply ho_list; [exact L|constructor]|apply ho_none; exact L]. Qed.
Lemma mapped_members (g : field -> pyval) fs : (forall f, In f fs -> holds f (g f)) -> members fs (map (fun f => (f_name f, g f)) (init_fields fs)).
Proof.
  induction fs as [|f fs IH]; intros H; [constructor|]. unfold init_fields. cbn [filter]. destruct (f_fixed f) eqn:E.
  - apply me_fixed; [congruence|]. apply IH. intros x Hx. apply H. right. exact Hx.
  - cbn [map]. apply me_var; [exact E|apply H; left; reflexivity|]. apply IH. intros x Hx. apply H. right. exact Hx.
Qed.
Lemma value_members c m fs ats t : find_class c = Some (CData m fs) -> exists vars, bind_value_obj u c ats t = VObj c vars /\ members fs vars.
Proof.
  intros F. pose proof (class_known _ _ _ F) as K. unfold bind_value_obj. assert (E : fields_of c = fs) by (unfold fields_of; rewrite F; reflexivity). rewrite E.
  eexists. split; [reflexivity|]. apply (mapped_members (fun f => match f_kind f with
                  | KText => conv u c (f_name f) (f_ty f) t
                  | KAttr => match assoc (f_name f) ats with
                             | Some a => conv u c (f_name f) (f_ty f) a
                             | None => field_default f
                             end
                  | KElem => field_default f
                  end)).
  intros f If. destruct (class_field fs f K If) as [_ X]. destruct (f_kind f); [apply default_holds| |]; destruct X as [X1 X2]; try discriminate.
  - destruct (assoc _ ats); [apply conv_holds; assumption|apply default_holds].
  - apply conv_holds; assumption.
Qed.
Lemma child_conforms cls f ats t : known_type (f_ty f) = true -> bind_child u cls f ats t = VNone \/ conforms (f_ty f) (bind_child u cls f ats t).
Proof.
  unfold bind_child. intros K. destruct (f_ty f) as [| | |c] eqn:E; try (apply conv_conforms; reflexivity). cbn in K. destruct (find_class c) as [[m fs|ms]|] eqn:F; [| |discriminate].
  - right. destruct (value_members c m fs ats t F) as [vars [-> M]]. exact (co_object c m fs vars F M).
  - apply conv_conforms. cbn. rewrite F. reflexivity.
Qed.
Lemma members_set fs vars n v : members fs vars -> (forall f, In f fs -> f_name f = n -> holds f v) -> members fs (set_var n v vars).
Proof.
  revert vars. induction fs as [|f fs IH]; intros vars M H; inversion M as [|? ? ? X M'|? ? w vs X Hw M']; subst; [constructor| |].
  - apply me_fixed; [exact X|]. apply IH; [exact M'|]. intros g Hg. apply H. right. exact Hg.
  - cbn [set_var]. destruct (String.eqb (f_name f) n) eqn:E.
    + apply String.eqb_eq in E. apply me_var; [exact X|apply H; [left; reflexivity|exact E]|exact M'].
    + apply me_var; [exact X|exact Hw|]. apply IH; [exact M'|]. intros g Hg. apply H. right. exact Hg.
Qed.
Lemma each_app t l l' : each t l -> each t l' -> each t (l ++ l').
Proof. intros H H'. revert H. induction l as [|x l IH]; intros H; [exact H'|]. inversion H; subst; cbn [app]; [apply ea_none|apply ea_cons]; auto. Qed.
Lemma members_append fs vars n v : members fs vars -> (forall f, In f fs -> f_name f = n -> v = VNone \/ conforms (f_ty f) v) -> members fs (append_var n v vars).
Proof.
  revert vars. induction fs as [|f fs IH]; intros vars M H; inversion M as [|? ? ? X M'|? ? w vs X Hw M']; subst; [constructor| |].
  - apply me_fixed; [exact X|]. apply IH; [exact M'|]. intros g Hg. apply H. right. exact Hg.
  - cbn [append_var]. destruct (String.eqb (f_name f) n) eqn:E.
    + apply String.eqb_eq in E. apply me_var; [exact X| |exact M']. destruct w; try exact Hw. inversion Hw as [|? ? Lf C|? ? Lf C]; subst; [inversion C|].
      apply ho_list; [exact Lf|]. apply each_app; [exact C|]. destruct (H f (or_introl eq_refl) eq_refl) as [->|Cv]; [apply ea_none|apply ea_cons; [exact Cv|]]; constructor.
    + apply me_var; [exact X|exact Hw|]. apply IH; [exact M'|]. intros g Hg. apply H. right. exact Hg.
Qed.
Lemma find_elem_field tag fs f : find_elem tag fs = Some f -> In f fs.
Proof. intros H. apply find_some in H. apply H. Qed.
Lemma children_members cls fs cs : class_ok fs = true -> forall seen vars vars', members fs vars -> bind_children u cls fs seen cs vars = Ok vars' -> members fs vars'.
Proof.
  intros K. pose proof K as K0. unfold class_ok in K0. apply andb_true_iff in K0. destruct K0 as [Kd _].
  induction cs as [|[[tag ats] t] cs IH]; intros seen vars vars' M; cbn [bind_children]; [intros H; injection H as <-; exact M|].
  destruct (child_ok _); [|discriminate]. destruct (find_elem tag fs) as [f|] eqn:E; [|discriminate]. apply find_elem_field in E. cbv zeta.
  destruct (child_conforms cls f ats t (proj1 (class_field fs f K E))) as [Y|Y].
  - destruct (f_list f) eqn:L; [|destruct (existsb _ _); [discriminate|]]; apply IH; [apply members_append|apply members_set]; try exact M; intros g Hg Eg; apply (distinct_name fs Kd g f Hg E) in Eg; subst g; [left; exact Y|].
    rewrite Y. apply ho_none. exact L.
  - destruct (f_list f) eqn:L; [|destruct (existsb _ _); [discriminate|]]; apply IH; [apply members_append|apply members_set]; try exact M; intros g Hg Eg; apply (distinct_name fs Kd g f Hg E) in Eg; subst g; [right; exact Y|].
    apply ho_one; assumption.
Qed.
Definition fitting (c : string) (v : pyval) : Prop := exists m fs vars, find_class c = Some (CData m fs) /\ v = VObj c vars /\ members fs vars.
Lemma new_members c m fs : find_class c = Some (CData m fs) -> members fs (vars_of (new_obj c)).
Proof. intros F. assert (E : fields_of c = fs) by (unfold fields_of; rewrite F; reflexivity). unfold new_obj. cbn [vars_of]. rewrite E. apply (mapped_members field_default). intros f _. apply default_holds. Qed.
Lemma parse_list_fits c m fs p items v : find_class c = Some (CData m fs) -> parse_list u c p items = Ok v -> fitting c v.
Proof.
  intros F. unfold parse_list. intros H. inv_ok H. inv_ok H. injection H as <-. exists m, fs, a0. split; [exact F|]. split; [reflexivity|].
  assert (Ef : fields_of c = fs) by (unfold fields_of; rewrite F; reflexivity). rewrite Ef in E0. eapply children_members; [exact (class_known _ _ _ F)| |exact E0]. exact (new_members c m fs F).
Qed.
Lemma parse_single_fits c m fs p items v : find_class c = Some (CData m fs) -> parse_single u c p items = Ok v -> fitting c v.
Proof.
  intros F. unfold parse_single. intros H. inv_ok H. inv_ok H. inv_ok H. cbv zeta in H. destruct (child_ok _); [|discriminate]. injection H as <-.
  match goal with |- fitting c (bind_value_obj u c ?x ?y) => destruct (value_members c m fs x y F) as [vars [-> M]] end. exists m, fs, vars. auto.
Qed.
Lemma parse_root_fits c m fs items v : find_class c = Some (CData m fs) -> parse_root c items = Ok v -> fitting c v.
Proof.
  intros F. unfold parse_root. intros H. inv_ok H. match type of H with (if ?b then _ else _) = _ => destruct b end; [|discriminate]. injection H as <-.
  exists m, fs, (vars_of (new_obj c)). split; [exact F|]. split; [reflexivity|]. exact (new_members c m fs F).
Qed.

(* ---- the object map: a part has the type of its attribute ---- *)
Definition suits_type (e : elem) : Prop :=
  exists m fs, find_class (e_cls e) = Some (CData m fs) /\ forall s, In s (e_subs e) -> forall f, In f fs -> f_name f = e_name s -> f_ty f = TCls (e_cls s).
Definition typed_tree (e : elem) : Prop := forall x, In x (all_elems e) -> suits_type x.
Definition suits_typeb (e : elem) : bool :=
  match find_class (e_cls e) with
  | Some (CData _ fs) => forallb (fun s => forallb (fun f => negb (String.eqb (f_name f) (e_name s)) || match f_ty f with TCls c => String.eqb c (e_cls s) | _ => false end) fs) (e_subs e)
  | _ => false
  end.
Lemma suits_typeb_spec e : suits_typeb e = true -> suits_type e.
Proof.
  unfold suits_typeb, suits_type. destruct (find_class (e_cls e)) as [[m fs|ms]|]; try discriminate. intros H. exists m, fs. split; [reflexivity|].
  intros s Hs f Hf En. rewrite forallb_forall in H. specialize (H s Hs). rewrite forallb_forall in H. specialize (H f Hf). rewrite En, String.eqb_refl in H. cbn [negb orb] in H.
  destruct (f_ty f); try discriminate. apply String.eqb_eq in H. congruence.
Qed.
Lemma roots_typed c : In c root_classes -> typed_tree (tree_of c).
Proof.
  intros H x Hx. apply suits_typeb_spec. revert x Hx. apply forallb_forall. repeat (destruct H as [<-|H]; [vm_compute; reflexivity|]). destruct H.
Qed.
Lemma typed_intro e : suits_type e -> (forall s, In s (e_subs e) -> typed_tree s) -> typed_tree e.
Proof. intros C S x Hx. rewrite all_elems_eq in Hx. destruct Hx as [<-|Hx]; [exact C|]. apply in_flat_map in Hx. destruct Hx as [s [Hs Hx]]. exact (S s Hs x Hx). Qed.
Lemma typed_here e : typed_tree e -> suits_type e.
Proof. intros W. apply W. rewrite all_elems_eq. left. reflexivity. Qed.
Lemma typed_sub e s : typed_tree e -> In s (e_subs e) -> typed_tree s.
Proof. intros W H x Hx. apply W. rewrite all_elems_eq. right. apply in_flat_map. exists s. split; assumption. Qed.
Definition tkin (e e' : elem) : Prop := e_name e' = e_name e /\ e_cls e' = e_cls e /\ (typed_tree e -> typed_tree e').
Lemma tkin_same e e' : e_name e' = e_name e -> e_cls e' = e_cls e -> (forall g, In g (e_subs e') -> exists s, In s (e_subs e) /\ tkin s g) -> tkin e e'.
Proof.
  intros En Ec H. split; [exact En|]. split; [exact Ec|]. intros W. destruct (typed_here e W) as [m [fs [F W1]]]. apply typed_intro.
  - exists m, fs. rewrite Ec. split; [exact F|]. intros g Hg f Hf Ef. destruct (H g Hg) as [s [Hs [Kn [Kc _]]]]. rewrite Kc. apply (W1 s Hs f Hf). congruence.
  - intros g Hg. destruct (H g Hg) as [s [Hs [_ [_ Kw]]]]. apply Kw. exact (typed_sub e s W Hs).
Qed.
Lemma tkin_refl e : tkin e e. Proof. repeat split; auto. Qed.
Lemma tkin_trans a b c : tkin a b -> tkin b c -> tkin a c.
Proof. intros [A1 [A2 A3]] [B1 [B2 B3]]. split; [congruence|]. split; [congruence|auto]. Qed.
Lemma own_tkin e keys lines i mm e' : own_range u e keys lines i = Ok (mm, e') -> tkin e e'.
Proof. intros H. apply own_range_same in H. destruct H as [H1 [H2 [H3 _]]]. apply tkin_same; try assumption. intros g Hg. rewrite H3 in Hg. exists g. split; [exact Hg|apply tkin_refl]. Qed.
Lemma mm_tkin e m : tkin e (set_mm e m).
Proof. apply tkin_same; try reflexivity. intros g Hg. exists g. split; [exact Hg|apply tkin_refl]. Qed.
Lemma identify_tkin keys lines : forall e i a b e', identify u e keys lines i = Ok (a, b, e') -> tkin e e'.
Proof.
  intros e. induction e as [n c subs k l s m t F] using elem_ind'. intros i a b e'. rewrite identify_eq. intros H. inv_ok H. destruct a0 as [mm e1].
  pose proof (own_tkin _ _ _ _ _ _ E) as K. apply own_range_same in E. destruct E as [H1 [H2 [H3 _]]]. cbn [e_subs e_name e_cls] in *.
  destruct subs as [|s0 subs]; [injection H as <- <- <-; exact K|]. inv_ok H. destruct a0 as [mx gs]. injection H as <- <- <-. apply tkin_same; try assumption.
  eapply ident_subs_prop with (P := tkin) in E.
  - rewrite Forall_forall in E. intros g Hg. cbn [e_subs set_subs] in Hg |- *. exact (E g Hg).
  - exact F.
  - intros s1 e2 m1 K1. eapply tkin_trans; [exact K1|apply mm_tkin].
  - intros s1 e2 i1 mm1 e3 K1 O. eapply tkin_trans; [exact K1|eapply own_tkin; exact O].
Qed.
Lemma prepare_tkin e e' d : prepare_aem_segment e d = Ok e' -> tkin e e'.
Proof.
  unfold prepare_aem_segment. intros H. inv_ok H. inv_ok H. destruct a0 as [att tmpl]. injection H as <-. apply get_ok in E.
  assert (Ha : In a (e_subs e)) by (eapply nth_error_In; exact E).
  apply tkin_same; try reflexivity. intros g Hg. cbn [set_subs e_subs] in Hg. apply in_app_or in Hg. destruct Hg as [Hg|[<-|Hg]].
  - exists g. split; [|apply tkin_refl]. rewrite <- (firstn_skipn 1 (e_subs e)). apply in_or_app. left. exact Hg.
  - exists a. split; [exact Ha|]. apply tkin_same; try reflexivity. intros y Hy. cbn [set_subs e_subs] in Hy. apply in_map_iff in Hy. destruct Hy as [z [<- Hz]].
    exists z. split; [exact Hz|]. apply tkin_same; try reflexivity. intros w Hw. cbn [set_tmpl set_subs e_subs] in Hw. apply filter_In in Hw.
    exists w. split; [apply Hw|apply tkin_refl].
  - exists g. split; [|apply tkin_refl]. rewrite <- (firstn_skipn 2 (e_subs e)). apply in_or_app. right. exact Hg.
Qed.

(* ---- the values of attitude records are read again ---- *)
Lemma fixed_canonical d : canonical d -> canonical (fixed_point d).
Proof. destruct d as [neg n e| |]; cbn; auto. intros _. destruct (Z.ltb 0 e); exact I. Qed.
Definition again (v : pyval) : Prop :=
  forall cls n t, (conforms t v -> reparse u cls n t v = VNone \/ conforms t (reparse u cls n t v)) /\
    (forall l, v = VList l -> each t l -> exists l', reparse u cls n t v = VList l' /\ each t l').
Lemma reparse_conforms v : again v.
Proof.
  induction v as [|s|z|d|c m s|c vars F|l F] using pyval_ind'; intros cls n t; (split; [intros C|try discriminate]).
  - inversion C.
  - cbn [reparse]. apply conv_conforms. inversion C; subst; try reflexivity. cbn. rewrite H0. reflexivity.
  - right. exact C.
  - right. cbn [reparse]. inversion C; subst. apply co_dec. apply fixed_canonical. assumption.
  - right. exact C.
  - right. inversion C as [| | | | | | |? m fs ? Fc M]; subst. cbn [reparse]. apply (co_object c m fs _ Fc). clear C. assert (Ef : fields_of c = fs) by (unfold fields_of; rewrite Fc; reflexivity). rewrite Ef.
    pose proof (class_known _ _ _ Fc) as K. unfold class_ok in K. apply andb_true_iff in K. destruct K as [Kd _].
    assert (X : forall f, In f fs -> find_field (f_name f) fs = Some f).
    { intros f Hf. unfold find_field. destruct (find _ fs) as [g|] eqn:E; [apply find_some in E; destruct E as [Ig E]; apply String.eqb_eq in E; f_equal; exact (distinct_name fs Kd g f Ig Hf E)|].
      pose proof (find_none _ _ E f Hf) as N. cbn in N. rewrite String.eqb_refl in N. discriminate. }
    clear Ef Fc Kd. assert (S : forall gs, (forall f, In f gs -> In f fs) -> forall vs, Forall (fun kv => again (snd kv)) vs -> members gs vs ->
      members gs (map (fun nv => (fst nv, reparse u c (fst nv) match find_field (fst nv) fs with Some f => f_ty f | None => TStr end (snd nv))) vs)).
    { induction gs as [|f gs IH]; intros Sub vs Fv Mv; inversion Mv as [|? ? ? Y M'|? ? w ws Y Hw M']; subst; [constructor| |].
      - apply me_fixed; [exact Y|]. apply IH; [intros g Hg; apply Sub; right; exact Hg|exact Fv|exact M'].
      - cbn [map fst snd]. rewrite (X f (Sub f (or_introl eq_refl))). inversion Fv as [|? ? Aw Fv']; subst. cbn [snd] in Aw.
        apply me_var; [exact Y| |apply IH; [intros g Hg; apply Sub; right; exact Hg|exact Fv'|exact M']].
        inversion Hw as [? L|? ? L Cw|? l L Ea]; subst.
        + cbn [reparse]. apply ho_none. exact L.
        + destruct (proj1 (Aw c (f_name f) (f_ty f)) Cw) as [->|Z]; [apply ho_none; exact L|apply ho_one; assumption].
        + destruct (proj2 (Aw c (f_name f) (f_ty f)) l eq_refl Ea) as [l' [-> El]]. apply ho_list; assumption. }
    apply S; [auto|exact F|exact M].
  - inversion C.
  - intros l0 E Ea. injection E as <-. cbn [reparse]. eexists. split; [reflexivity|]. clear - F Ea. induction F as [|x l Ax F IH]; [constructor|]. cbn [map]. inversion Ea as [|? ? E'|? ? ? Cx E']; subst.
    + cbn [reparse]. apply ea_none. exact (IH E').
    + destruct (proj1 (Ax cls n t) Cx) as [->|Z]; [apply ea_none|apply ea_cons; [exact Z|]]; exact (IH E').
Qed.

(* ---- building ---- *)
Definition grown (c : string) (v : pyval) : Prop := v = VNone \/ fitting c v.
Lemma grown_conforms c v : grown c v -> v = VNone \/ conforms (TCls c) v.
Proof. intros [->|[m [fs [vars [F [-> M]]]]]]; [left; reflexivity|right; exact (co_object c m fs vars F M)]. Qed.
Lemma holds_list fs vars n l : members fs vars -> assoc n vars = Some (VList l) -> exists f, In f fs /\ f_name f = n /\ f_list f = true.
Proof.
  revert vars. induction fs as [|f fs IH]; intros vars M H; inversion M as [|? ? ? X M'|? ? w vs X Hw M']; subst; [discriminate| |].
  - destruct (IH _ M' H) as [g [G1 G2]]. exists g. split; [right; exact G1|exact G2].
  - cbn [assoc] in H. destruct (String.eqb (f_name f) n) eqn:E; [|destruct (IH _ M' H) as [g [G1 G2]]; exists g; split; [right; exact G1|exact G2]].
    injection H as ->. apply String.eqb_eq in E. exists f. split; [left; reflexivity|]. split; [exact E|]. inversion Hw as [|? ? L C|? ? L C]; subst; [inversion C|exact L].
Qed.
Lemma holds_single fs vars n x : members fs vars -> assoc n vars = Some x -> (forall l, x <> VList l) -> exists f, In f fs /\ f_name f = n /\ f_list f = false.
Proof.
  revert vars. induction fs as [|f fs IH]; intros vars M H N; inversion M as [|? ? ? X M'|? ? w vs X Hw M']; subst; [discriminate| |].
  - destruct (IH _ M' H N) as [g [G1 G2]]. exists g. split; [right; exact G1|exact G2].
  - cbn [assoc] in H. destruct (String.eqb (f_name f) n) eqn:E; [|destruct (IH _ M' H N) as [g [G1 G2]]; exists g; split; [right; exact G1|exact G2]].
    injection H as ->. apply String.eqb_eq in E. exists f. split; [left; reflexivity|]. split; [exact E|]. inversion Hw as [? L|? ? L C|? ? L C]; subst; try exact L. destruct (N _ eq_refl).
Qed.
Lemma attach_members fs n sc sub vars vars' : class_ok fs = true -> (forall f, In f fs -> f_name f = n -> f_ty f = TCls sc) -> grown sc sub -> members fs vars ->
  attach n sub vars = Ok vars' -> members fs vars'.
Proof.
  intros K T G M. pose proof K as K0. unfold class_ok in K0. apply andb_true_iff in K0. destruct K0 as [Kd _]. apply grown_conforms in G. unfold attach. destruct (assoc n vars) as [x|] eqn:E; [|discriminate].
  assert (Set_ : (forall l, x <> VList l) -> members fs (set_var n sub vars)).
  { intros N. destruct (holds_single fs vars n x M E N) as [g [G1 [G2 G3]]]. apply members_set; [exact M|]. intros f If En. assert (f = g) by (apply (distinct_name fs Kd); congruence). subst g.
    destruct G as [->|G]; [apply ho_none; exact G3|apply ho_one; [exact G3|rewrite (T f If En); exact G]]. }
  assert (App : members fs (append_var n sub vars)).
  { apply members_append; [exact M|]. intros f If En. rewrite (T f If En). exact G. }
  destruct x; try (intros H; injection H as <-; apply Set_; discriminate). destruct sub; intros H; injection H as <-; try exact M; exact App.
Qed.
Lemma attitude_grown c m fs n internal sc : String.eqb c "AttitudeStateType" = true -> find_class c = Some (CData m fs) -> (forall f, In f fs -> f_name f = n -> f_ty f = TCls sc) ->
  internal = VNone \/ conforms (TCls sc) internal -> grown c (reparse u "" "" TStr (VObj c (set_var n internal (vars_of (new_obj c))))).
Proof.
  intros C F T G. assert (L : forallb (fun f => negb (f_list f)) fs = true).
  { apply String.eqb_eq in C. subst c. revert F. vm_compute. intros F. injection F as _ <-. reflexivity. }
  rewrite forallb_forall in L.
  assert (M : members fs (set_var n internal (vars_of (new_obj c)))).
  { apply members_set; [exact (new_members c m fs F)|]. intros f If En. specialize (L f If). apply negb_true_iff in L. destruct G as [->|G]; [apply ho_none; exact L|apply ho_one; [exact L|rewrite (T f If En); exact G]]. }
  change (reparse u "" "" TStr (VObj c (set_var n internal (vars_of (new_obj c))))) with (reparse u "" "" (TCls c) (VObj c (set_var n internal (vars_of (new_obj c))))).
  destruct (proj1 (reparse_conforms (VObj c (set_var n internal (vars_of (new_obj c)))) "" "" (TCls c)) (co_object c m fs _ F M)) as [X|X]; [left; exact X|right].
  cbn [reparse] in X |- *. inversion X as [| | | | | | |? m' fs' ? F' M']; subst. exists m', fs'. eexists. split; [exact F'|]. split; [reflexivity|exact M'].
Qed.
Lemma build_grown n doc : forall e full v, typed_tree e -> build u n doc e full = Ok v -> grown (e_cls e) v.
Proof.
  induction n as [|n IH]; intros e full v W; [discriminate|]. destruct (typed_here e W) as [m [fs [Fc W1]]]. pose proof (class_known _ _ _ Fc) as K.
  assert (Fill : forall obj subs, fitting (e_cls e) obj -> (forall s, In s subs -> typed_tree s /\ forall f, In f fs -> f_name f = e_name s -> f_ty f = TCls (e_cls s)) -> forall w,
    match obj with
        | VObj c vars =>
          do vars' <- fold_left (fun acc s => do vs <- acc; do sub <- build u n doc s full;
                                   attach (e_name s) sub vs) subs (Ok vars);
          Ok (VObj c vars')
        | _ => Err AttributeError
        end = Ok w -> grown (e_cls e) w).
  { intros obj subs [m' [fs' [vars [F' [-> M]]]]] Hs w H. rewrite Fc in F'. injection F' as <- <-. inv_ok H. injection H as <-. right. exists m, fs, a. split; [exact Fc|]. split; [reflexivity|].
    assert (Q : forall acc, (forall vs, acc = Ok vs -> members fs vs) -> forall r, fold_left (fun acc s => do vs <- acc; do sub <- build u n doc s full; attach (e_name s) sub vs) subs acc = Ok r -> members fs r).
    { clear E M. induction subs as [|s subs IHs]; intros acc A r; cbn [fold_left]; [apply A|]. apply IHs; [intros z Hz; apply Hs; right; exact Hz|].
      intros vs H. inv_ok H. inv_ok H. destruct (Hs s (or_introl eq_refl)) as [Ws Ts]. eapply attach_members; [exact K|exact Ts|eapply IH; [exact Ws|eassumption]|apply A; eassumption|exact H]. }
    eapply Q; [|exact E]. intros vs H. injection H as <-. exact M. }
  assert (Hs : forall s, In s (e_subs e) -> typed_tree s /\ forall f, In f fs -> f_name f = e_name s -> f_ty f = TCls (e_cls s)) by (intros s Hs; split; [exact (typed_sub e s W Hs)|exact (W1 s Hs)]).
  cbn [build].
  destruct (slice (fst (e_mm e)) (snd (e_mm e)) full) as [|l0 ll] eqn:El;
    destruct (match e_subs e with [] => true | _ => false end) eqn:En; try (intros H; injection H as <-; left; reflexivity); rewrite <- El.
  all: destruct (String.eqb (e_cls e) "AemSegment") eqn:C1;
    [intros H; inv_ok H; inv_ok H; apply parse_list_fits with (m := m) (fs := fs) in E0; [|exact Fc]; eapply (Fill _ (e_subs a)); [exact E0| |exact H];
     apply prepare_tkin in E; destruct E as [_ [Kc Kw]]; specialize (Kw W); intros s Hs'; split; [exact (typed_sub a s Kw Hs')|];
     destruct (typed_here a Kw) as [m' [fs' [F' W']]]; rewrite Kc, Fc in F'; injection F' as <- <-; exact (W' s Hs')|].
  all: destruct (String.eqb (e_cls e) "AttitudeStateType") eqn:C2;
    [intros H; inv_ok H; inv_ok H; inv_ok H; inv_ok H; destruct a2 as [[mx mm] e1]; inv_ok H; inv_ok H; cbn [bind] in H; injection H as <-;
     apply identify_tkin in E2; destruct E2 as [_ [Kc Kw]]; specialize (Kw W); apply get_ok, nth_error_In in E3;
     apply (IH _ _ _ (typed_sub e1 a2 Kw E3)) in E4; apply grown_conforms in E4;
     destruct (typed_here e1 Kw) as [m' [fs' [F' W']]]; rewrite Kc, Fc in F'; injection F' as <- <-; specialize (W' a2 E3);
     exact (attitude_grown _ m fs _ a3 (e_cls a2) C2 Fc W' E4)|].
  all: destruct (String.eqb (e_cls e) "StateVectorAccType");
    [intros H; inv_ok H; inv_ok H; inv_ok H; eapply Fill; [eapply parse_list_fits; [exact Fc|eassumption]|exact Hs|exact H]|].
  all: destruct (String.eqb (e_cls e) "OemCovarianceMatrixType");
    [intros H; inv_ok H; eapply Fill; [eapply parse_list_fits; [exact Fc|eassumption]|exact Hs|exact H]|].
  all: destruct (String.eqb (e_cls e) "TrackingDataObservationType");
    [intros H; inv_ok H; inv_ok H; inv_ok H; inv_ok H; eapply Fill; [eapply parse_list_fits; [exact Fc|eassumption]|exact Hs|exact H]|].
  all: match goal with |- match ?x with _ => _ end = Ok _ -> _ => destruct x end; try (intros H; injection H as <-; left; reflexivity).
  all: intros H; inv_ok H; (eapply Fill; [|exact Hs|exact H]);
    match type of E with (if ?b then _ else _) = _ => destruct b end; [eapply parse_root_fits; [exact Fc|exact E]|destruct (e_single e); [eapply parse_single_fits; [exact Fc|exact E]|eapply parse_list_fits; [exact Fc|exact E]]].
Qed.
End Conform.
