(* The message types other than AEM are read into the shape of BackFacts. *)
From Coq Require Import NArith ZArith List Bool String Arith Lia.
From Verif Require Import PyStr PyDec PyVal Schema KvnPre KvnTree KvnSeg XmlBind KvnBuild NdmXml KvnWrite
     SpecBack StrFacts PreFacts SegFacts BuildFacts WriteFacts ComposeFacts MsgFacts CoreFacts ErrFacts BackFacts.
From Verif Require KeptFacts.
Import ListNotations.
Local Open Scope string_scope.
Local Open Scope list_scope.
Local Arguments find_class : simpl never.
Local Arguments lit : simpl never.

(* ---- classes ---- *)
Definition simple_ty (t : ftype) : bool := match t with TCls c => match find_class c with Some (CData _ _) => false | _ => true end | _ => true end.
Definition enum_ty (t : ftype) : bool := match t with TCls c => match find_class c with Some (CEnum _) => true | _ => false end | _ => false end.
Definition value_cls (c : string) : bool :=
  match init_fields (fields_of c) with
  | [fv; fu] => String.eqb (f_name fv) "value" && String.eqb (f_name fu) "units" && negb (f_list fv) && negb (f_list fu) &&
                match f_kind fv with KText => true | _ => false end && match f_kind fu with KAttr => true | _ => false end && enum_ty (f_ty fu)
  | _ => false
  end.
Definition value_ty (t : ftype) : bool := match t with TCls c => match find_class c with Some (CData _ _) => value_cls c | _ => false end | _ => false end.
Definition user_cls (c : string) : bool :=
  match init_fields (fields_of c) with
  | [fv; fu] => String.eqb (f_name fv) "value" && String.eqb (f_name fu) "parameter" &&
                match f_kind fv with KText => true | _ => false end && match f_kind fu with KAttr => true | _ => false end && match f_ty fu with TStr => true | _ => false end
  | _ => false
  end.
Definition user_ty (t : ftype) : bool := match t with TCls c => match find_class c with Some (CData _ _) => user_cls c | _ => false end | _ => false end.
Definition leafb (f : field) : bool :=
  if f_list f then (String.eqb (f_name f) "comment" && simple_ty (f_ty f)) || (String.eqb (f_name f) "user_defined" && user_ty (f_ty f))
  else kept (f_name f) && (simple_ty (f_ty f) || value_ty (f_ty f)).
Fixpoint nodupb (l : list string) : bool := match l with [] => true | x :: r => negb (mem_string x r) && nodupb r end.
Definition classb (c : string) : bool := nodupb (map f_name (fields_of c)) && forallb (fun f => f_list f || kept (f_name f)) (fields_of c).
Definition flatb (c : string) : bool :=
  forallb (fun f => if f_list f then String.eqb (f_name f) "comment" && simple_ty (f_ty f) else simple_ty (f_ty f) || value_ty (f_ty f)) (fields_of c).
Definition subb (c n sc : string) : bool :=
  kept n && forallb (fun f => negb (String.eqb (f_name f) n) || (negb (simple_ty (f_ty f)) && negb (value_ty (f_ty f)) && (negb (f_list f) || negb (mem_string "units" (attrs sc))))) (fields_of c).
Definition singleb (c p : string) : bool :=
  match init_fields (fields_of c) with
  | [fv; fp; fu] => String.eqb (f_name fv) "value" && String.eqb (f_name fp) p && String.eqb (f_name fu) "units" && negb (String.eqb p "value") && negb (String.eqb p "units") &&
      match f_kind fv with KText => true | _ => false end && match f_kind fp with KAttr => true | _ => false end && match f_kind fu with KAttr => true | _ => false end && enum_ty (f_ty fu) &&
      negb (f_list fu)
  | _ => false
  end.
Definition axisb (c p : string) (k : str) : bool :=
  match k with [] => false | _ => match find_field p (fields_of c) with Some fp => match f_ty fp with TCls en =>
    match find_class en with Some (CEnum ms) => match conv_enum en ms k with VEnum _ _ _ => true | _ => false end | _ => false end | _ => false end | None => false end end.
Definition nil {A} (l : list A) : bool := match l with [] => true | _ => false end.
Definition user_class (c : string) : bool := String.eqb c "UserDefinedType".
Definition tag_leaf (c : string) (k : str) : bool := match find_elem k (fields_of c) with Some f => leafb f | None => true end.
Definition statb (e : elem) : bool :=
  let c := e_cls e in
  negb (mem_string c ["AemSegment"; "AttitudeStateType"]) && classb c && forallb (fun s => subb c (e_name s) (e_cls s)) (e_subs e) &&
  (negb (mem_string c special_output_data_classes) || (nil (e_subs e) && flatb c)) &&
  (negb (String.eqb c "StateVectorAccType") || match e_kws e with k :: _ => str_eqb k (lit "EPOCH") | [] => false end) &&
  match e_single e with
  | Some p => nil (e_subs e) && singleb c p && forallb (axisb c p) (e_kws e) && ordinary c && negb (root_kws (e_kws e))
  | None => negb (mem_string "units" (attrs c)) &&
      (if ordinary c then root_kws (e_kws e) || forallb (tag_leaf c) (e_kws e)
       else if user_class c then tag_leaf c (lit "USER_DEFINED") else forallb leafb (fields_of c)) &&
      (user_class c || forallb (fun f => negb (String.eqb (f_name f) "user_defined")) (fields_of c))
  end.
Definition back_roots : list string := ["Omm"; "Opm"; "Rdm"; "Apm"; "Cdm"; "Oem"; "Tdm"].
Lemma roots_stat c : In c back_roots -> forall x, In x (all_elems (tree_of c)) -> statb x = true.
Proof. intros H. apply forallb_forall. repeat (destruct H as [<-|H]; [vm_compute; reflexivity|]). destruct H. Qed.
Lemma roots_unset c : In c back_roots -> forall x, In x (all_elems (tree_of c)) -> e_mm x = (0, 0).
Proof.
  intros H x Hx. assert (B : forallb (fun x => Nat.eqb (fst (e_mm x)) 0 && Nat.eqb (snd (e_mm x)) 0) (all_elems (tree_of c)) = true).
  { clear x Hx. repeat (destruct H as [<-|H]; [vm_compute; reflexivity|]). destruct H. }
  rewrite forallb_forall in B. specialize (B x Hx). apply andb_true_iff in B. destruct B as [B1 B2]. apply Nat.eqb_eq in B1, B2. destruct (e_mm x). cbn in *. congruence.
Qed.
Ltac bools := repeat match goal with H : _ && _ = true |- _ => apply andb_true_iff in H; destruct H
  | H : negb _ = true |- _ => apply negb_true_iff in H | H : String.eqb _ _ = true |- _ => apply String.eqb_eq in H end.

Ltac names := repeat match goal with H : f_name ?f = ?n |- context [f_name ?f] => rewrite H end.
Ltac flags := repeat match goal with H : f_list ?f = _ |- context [f_list ?f] => rewrite H end.

Section Read.
Variable u : env.
Hypothesis empties : empty_read u.

(* ---- values ---- *)
Definition typed (f : field) (x : pyval) : Prop :=
  shaped (f_name f) x /\
  if f_list f then exists l, x = VList l
  else (forall l, x <> VList l) /\ (simple_ty (f_ty f) = true -> scalar x) /\ (value_ty (f_ty f) = true -> x = VNone \/ exists c vs, x = VObj c vs /\ valued vs).
Definition okvars (c : string) (vars : list (string * pyval)) : Prop :=
  map fst vars = attrs c /\ forall n x, In (n, x) vars -> forall f, In f (fields_of c) -> f_name f = n -> typed f x.
Lemma conv_scalar c n t s : scalar (conv u c n t s).
Proof.
  unfold conv. destruct s as [|a s]; [destruct (proj1 empties c n) as [-> | ->]; exact I|]. destruct t as [| | |k]; try exact I.
  - destruct (py_int _ _); exact I.
  - destruct (py_decimal _ _); exact I.
  - destruct (find_class k) as [[m fs|ms]|]; try exact I. unfold conv_enum. destruct (find _ ms); exact I.
Qed.
Lemma conv_unit c n t s : enum_ty t = true -> unitary (conv u c n t s).
Proof.
  intros E. unfold conv. destruct s as [|a s]; [destruct (proj1 empties c n) as [-> | ->]; exact I|]. destruct t as [| | |k]; try discriminate. cbn in E.
  destruct (find_class k) as [[m fs|ms]|]; try discriminate. unfold conv_enum. destruct (find _ ms); exact I.
Qed.
Lemma value_obj c ats t : value_cls c = true -> exists vs, bind_value_obj u c ats t = VObj c vs /\ valued vs.
Proof.
  unfold value_cls, bind_value_obj. destruct (init_fields (fields_of c)) as [|fv [|fu [|? ?]]]; try discriminate. intros H. bools.
  eexists. split; [reflexivity|]. cbn [map]. destruct (f_kind fv); try discriminate. destruct (f_kind fu); try discriminate. names.
  do 2 eexists. split; [apply conv_scalar|]. split; [|left; reflexivity]. destruct (assoc "units" ats); [apply conv_unit; assumption|]. unfold field_default. flags. exact I.
Qed.
Lemma user_obj c ats t a : user_cls c = true -> assoc "parameter" ats = Some a -> user_item (bind_value_obj u c ats t).
Proof.
  unfold user_cls, bind_value_obj. destruct (init_fields (fields_of c)) as [|fv [|fu [|? ?]]]; try discriminate. intros H A. bools.
  cbn [map]. destruct (f_kind fv); try discriminate. destruct (f_kind fu); try discriminate. destruct (f_ty fu); try discriminate. names. rewrite A.
  unfold user_item. assert (X : exists s, conv u c "parameter" TStr a = VStr s).
  { unfold conv. destruct a as [|x a]; [exists []; apply (proj2 empties)|eexists; reflexivity]. }
  destruct X as [s ->]. do 3 eexists. split; [reflexivity|apply conv_scalar].
Qed.
Lemma simple_child cls f ats t : simple_ty (f_ty f) = true -> scalar (bind_child u cls f ats t).
Proof.
  unfold simple_ty, bind_child. destruct (f_ty f) as [| | |c]; intros H; try apply conv_scalar. destruct (find_class c) as [[m fs|ms]|]; [discriminate| |]; apply conv_scalar.
Qed.
Lemma value_child cls f ats t : value_ty (f_ty f) = true -> exists c vs, bind_child u cls f ats t = VObj c vs /\ valued vs.
Proof.
  unfold value_ty, bind_child. destruct (f_ty f) as [| | |c]; try discriminate. destruct (find_class c) as [[m fs|ms]|]; try discriminate. intros H. exists c. apply value_obj. exact H.
Qed.
Lemma value_not_simple t : value_ty t = true -> simple_ty t = false.
Proof. unfold value_ty, simple_ty. destruct t as [| | |c]; try discriminate. destruct (find_class c) as [[m fs|ms]|]; try discriminate. reflexivity. Qed.
Lemma scalar_not_list x : scalar x -> forall l, x <> VList l.
Proof. intros S l ->. exact S. Qed.
Lemma leaf_typed cls f ats t : leafb f = true -> f_list f = false -> typed f (bind_child u cls f ats t).
Proof.
  unfold leafb, typed. intros L E. rewrite E in *. apply andb_true_iff in L. destruct L as [K L]. apply orb_true_iff in L. destruct L as [L|L].
  - pose proof (simple_child cls f ats t L) as S. split; [apply sh_scalar; assumption|]. split; [apply scalar_not_list; exact S|]. split; [auto|].
    intros V. apply value_not_simple in V. congruence.
  - destruct (value_child cls f ats t L) as [c [vs [-> V]]]. split; [apply sh_value; assumption|]. split; [discriminate|]. split; [intros X; apply value_not_simple in L; congruence|].
    intros _. right. exists c, vs. auto.
Qed.

(* ---- variables ---- *)
Lemma nodup_unique c f f' : classb c = true -> In f (fields_of c) -> In f' (fields_of c) -> f_name f = f_name f' -> f = f'.
Proof.
  unfold classb. intros H. apply andb_true_iff in H. destruct H as [H _]. revert H. generalize (fields_of c). intros fs. induction fs as [|g fs IH]; [intros _ []|].
  cbn [map nodupb]. intros H. apply andb_true_iff in H. destruct H as [H1 H2]. apply negb_true_iff in H1.
  assert (N : forall h, In h fs -> f_name h <> f_name g).
  { intros h Hh E. assert (X : mem_string (f_name g) (map f_name fs) = true) by (apply mem_string_in, in_map_iff; exists h; auto). congruence. }
  intros [<-|A] [<-|B] E; [reflexivity| | |exact (IH H2 A B E)]; exfalso; [apply (N f' B)|apply (N f A)]; congruence.
Qed.
Lemma attr_field c n : In n (attrs c) -> exists f, In f (fields_of c) /\ f_name f = n.
Proof.
  unfold attrs, new_obj. cbn [vars_of]. rewrite map_map. intros H. apply in_map_iff in H. destruct H as [f [E H]]. apply filter_In in H. exists f. split; [apply H|exact E].
Qed.
Lemma list_default f : f_list f = true -> shaped (f_name f) (VList []).
Proof.
  intros _. destruct (String.eqb (f_name f) "comment") eqn:E1; [apply String.eqb_eq in E1; rewrite E1; constructor; constructor|].
  destruct (String.eqb (f_name f) "user_defined") eqn:E2; [apply String.eqb_eq in E2; rewrite E2; constructor; constructor|].
  apply sh_list; [unfold kept; rewrite E1, E2; reflexivity|intros x []].
Qed.
Lemma new_ok c : classb c = true -> okvars c (vars_of (new_obj c)).
Proof.
  intros C. split; [reflexivity|]. intros n x H f If En. cbn [new_obj vars_of] in H. apply in_map_iff in H. destruct H as [g [E H]]. injection E as Eg <-.
  apply filter_In in H. assert (g = f) by (apply (nodup_unique c); [exact C|apply H|exact If|congruence]). subst g. unfold field_default, typed.
  destruct (f_list f) eqn:L; [split; [apply list_default; exact L|exists []; reflexivity]|].
  assert (K : kept (f_name f) = true).
  { unfold classb in C. apply andb_true_iff in C. destruct C as [_ C]. rewrite forallb_forall in C. specialize (C f If). rewrite L in C. exact C. }
  split; [apply sh_scalar; [exact K|exact I]|]. split; [discriminate|]. split; [intros _; exact I|auto].
Qed.
Lemma set_in n v vars m x : In (m, x) (set_var n v vars) -> In (m, x) vars \/ (m = n /\ x = v).
Proof.
  induction vars as [|[k y] vars IH]; [intros []|]. cbn [set_var]. destruct (String.eqb k n) eqn:E.
  - apply String.eqb_eq in E. subst k. intros [X|X]; [injection X as <- <-; auto|left; right; exact X].
  - intros [X|X]; [left; left; exact X|]. destruct (IH X) as [Y|Y]; [left; right; exact Y|right; exact Y].
Qed.
Lemma append_in n v vars m x : In (m, x) (append_var n v vars) -> In (m, x) vars \/ (m = n /\ exists l, x = VList (l ++ [v]) /\ In (n, VList l) vars).
Proof.
  induction vars as [|[k y] vars IH]; [intros []|]. cbn [append_var]. destruct (String.eqb k n) eqn:E.
  - apply String.eqb_eq in E. subst k. intros [X|X]; [injection X as <- <-|left; right; exact X].
    destruct y; try (left; left; reflexivity). right. split; [reflexivity|]. exists l. split; [reflexivity|left; reflexivity].
  - intros [X|X]; [left; left; exact X|]. destruct (IH X) as [Y|[Y [l [Z W]]]]; [left; right; exact Y|right; split; [exact Y|exists l; split; [exact Z|right; exact W]]].
Qed.
Lemma set_ok c n v vars : okvars c vars -> (forall f, In f (fields_of c) -> f_name f = n -> typed f v) -> okvars c (set_var n v vars).
Proof.
  intros [N A] H. split; [rewrite set_names; exact N|]. intros m x X f If En. apply set_in in X. destruct X as [X|[-> ->]]; [exact (A m x X f If En)|exact (H f If En)].
Qed.
Definition tail_ok (n : string) (v : pyval) : Prop :=
  (n = "comment" /\ scalar v) \/ (n = "user_defined" /\ user_item v) \/ (kept n = true /\ shaped n v /\ exists c vs, v = VObj c vs /\ ~ In "units" (map fst vs)).
Lemma shaped_tail n l v : shaped n (VList l) -> tail_ok n v -> shaped n (VList (l ++ [v])).
Proof.
  intros S T. inversion S as [n0 v0 K X|l0 F|l0 F| | | |n0 l0 K F]; subst; [destruct X| | |].
  - destruct T as [[_ T]|[[X _]|[K _]]]; [|discriminate|discriminate]. apply sh_comments, Forall_app. split; [exact F|constructor; [exact T|constructor]].
  - destruct T as [[X _]|[[_ T]|[K _]]]; [discriminate| |discriminate]. apply sh_users, Forall_app. split; [exact F|constructor; [exact T|constructor]].
  - destruct T as [[-> _]|[[-> _]|[_ [T1 T2]]]]; [discriminate|discriminate|]. apply sh_list; [exact K|]. intros x Hx. apply in_app_or in Hx. destruct Hx as [Hx|[<-|[]]]; [exact (F x Hx)|auto].
Qed.
Lemma append_ok c n v vars : okvars c vars -> (forall f, In f (fields_of c) -> f_name f = n -> f_list f = true -> tail_ok n v) -> okvars c (append_var n v vars).
Proof.
  intros [N A] H. split; [rewrite append_names; exact N|]. intros m x X f If En. apply append_in in X. destruct X as [X|[-> [l [-> X]]]]; [exact (A m x X f If En)|].
  destruct (A n (VList l) X f If En) as [S T]. unfold typed. destruct (f_list f) eqn:L; [|destruct T as [T _]; destruct (T l eq_refl)].
  split; [|eexists; reflexivity]. rewrite En in *. apply shaped_tail; [exact S|exact (H f If En L)].
Qed.
Lemma find_elem_in tag fs f : find_elem tag fs = Some f -> In f fs.
Proof. intros H. apply find_some in H. apply H. Qed.
Definition child_fine (cls : string) (ch : child) : Prop :=
  let '(tag, ats, _) := ch in forall f, find_elem tag (fields_of cls) = Some f ->
    leafb f = true /\ (f_list f = true -> f_name f = "user_defined" -> exists a, assoc "parameter" ats = Some a).
Lemma children_ok cls cs : classb cls = true -> (forall ch, In ch cs -> child_fine cls ch) -> forall seen vars vars', okvars cls vars ->
  bind_children u cls (fields_of cls) seen cs vars = Ok vars' -> okvars cls vars'.
Proof.
  intros C. induction cs as [|[[tag ats] t] cs IH]; intros F seen vars vars' A; cbn [bind_children]; [intros H; injection H as <-; exact A|].
  destruct (child_ok _); [|discriminate]. destruct (find_elem tag (fields_of cls)) as [f|] eqn:E; [|discriminate]. pose proof (find_elem_in _ _ _ E) as If.
  destruct (F _ (or_introl eq_refl) f E) as [L P]. assert (F' : forall ch, In ch cs -> child_fine cls ch) by (intros ch Hc; apply F; right; exact Hc).
  destruct (f_list f) eqn:El.
  - apply IH; [exact F'|]. apply append_ok; [exact A|]. intros g Ig Eg Lg. unfold leafb in L. rewrite El in L. apply orb_true_iff in L.
    destruct L as [L|L]; apply andb_true_iff in L; destruct L as [L1 L2]; apply String.eqb_eq in L1.
    + left. split; [exact L1|apply simple_child; exact L2].
    + right. left. split; [exact L1|]. destruct (P eq_refl L1) as [a Ha]. unfold user_ty in L2. unfold bind_child. destruct (f_ty f) as [| | |k]; try discriminate.
      destruct (find_class k) as [[m fs|ms]|]; try discriminate. exact (user_obj k ats t a L2 Ha).
  - destruct (existsb _ _); [discriminate|]. apply IH; [exact F'|]. apply set_ok; [exact A|]. intros g Ig Eg. assert (g = f) by (apply (nodup_unique cls); assumption). subst g.
    apply leaf_typed; assumption.
Qed.
Lemma list_ok cls items v : classb cls = true -> (forall l, In l items -> tag_leaf cls (key_of l) = true) -> ~ (exists f, In f (fields_of cls) /\ f_name f = "user_defined") ->
  parse_list u cls None items = Ok v -> exists vars, v = VObj cls vars /\ okvars cls vars.
Proof.
  intros C T Nu. unfold parse_list. intros H. inv_ok H. inv_ok H. injection H as <-. eexists. split; [reflexivity|].
  eapply children_ok; [exact C| |apply new_ok; exact C|exact E0]. intros [[tag ats] t] Hc f Ef.
  assert (X : exists l, In l items /\ child_of_line l = Ok (tag, ats, t)).
  { clear - E Hc. revert a E Hc. induction items as [|l items IH]; intros cs; cbn [map_res]; [intros H; injection H as <-; intros []|]. intros H. inv_ok H. inv_ok H. injection H as <-.
    intros [->|H]; [exists l; split; [left; reflexivity|exact E]|]. destruct (IH _ E0 H) as [x [A B]]. exists x. split; [right; exact A|exact B]. }
  destruct X as [l [Hl El]]. unfold child_of_line in El. destruct l as [|k [|s r]]; try discriminate. cbn in El. injection El as <- _ _. specialize (T _ Hl). unfold tag_leaf in T. cbn [key_of hd] in T.
  rewrite Ef in T. split; [exact T|]. intros _ X. exfalso. apply Nu. exists f. split; [exact (find_elem_in _ _ _ Ef)|exact X].
Qed.
Lemma user_ok cls items v : classb cls = true -> tag_leaf cls (lit "USER_DEFINED") = true ->
  parse_list u cls (Some (lit "USER_DEFINED")) items = Ok v -> exists vars, v = VObj cls vars /\ okvars cls vars.
Proof.
  intros C T. unfold parse_list. intros H. inv_ok H. inv_ok H. injection H as <-. eexists. split; [reflexivity|].
  eapply children_ok; [exact C| |apply new_ok; exact C|exact E0]. intros [[tag ats] t] Hc f Ef.
  assert (X : exists l, In l items /\ child_of_user_line (lit "USER_DEFINED") l = Ok (tag, ats, t)).
  { clear - E Hc. revert a E Hc. induction items as [|l items IH]; intros cs; cbn [map_res]; [intros H; injection H as <-; intros []|]. intros H. inv_ok H. inv_ok H. injection H as <-.
    intros [->|H]; [exists l; split; [left; reflexivity|exact E]|]. destruct (IH _ E0 H) as [x [A B]]. exists x. split; [right; exact A|exact B]. }
  destruct X as [l [Hl El]]. unfold child_of_user_line in El. destruct l as [|k [|s r]]; try discriminate. cbn in El. injection El as <- <- _. unfold tag_leaf in T. rewrite Ef in T.
  split; [exact T|]. intros _ _. eexists. reflexivity.
Qed.
Lemma single_ok cls p items v : classb cls = true -> singleb cls p = true -> (forall l, In l items -> axisb cls p (key_of l) = true) ->
  parse_single u cls p items = Ok v -> exists vars, v = VObj cls vars /\ valued vars.
Proof.
  intros C S T. unfold parse_single. intros H. inv_ok H. inv_ok H. inv_ok H. apply get_ok in E, E0. destruct (child_ok _); [|discriminate]. injection H as <-.
  specialize (T a (nth_error_In _ _ E)). destruct a as [|k r]; [discriminate|]. cbn in E0. injection E0 as ->. cbn [key_of hd] in T.
  unfold singleb in S. unfold bind_value_obj. unfold axisb in T. destruct (find_field p (fields_of cls)) as [fq|] eqn:Eq; [|destruct a0; discriminate].
  assert (Ip : forall fv fp fu, init_fields (fields_of cls) = [fv; fp; fu] -> f_name fp = p -> fq = fp).
  { intros fv fp fu Ei En. apply find_some in Eq. destruct Eq as [I1 I2]. apply String.eqb_eq in I2. apply (nodup_unique cls); [exact C|exact I1| |congruence].
    assert (X : In fp (init_fields (fields_of cls))) by (rewrite Ei; cbn; auto). apply filter_In in X. apply X. }
  destruct (init_fields (fields_of cls)) as [|fv [|fp [|fu [|? ?]]]] eqn:Ei; try discriminate. bools. 
  assert (fq = fp) by (eapply Ip; [reflexivity|assumption]). subst fq.
  eexists. split; [reflexivity|]. cbn [map]. destruct (f_kind fv); try discriminate. destruct (f_kind fp); try discriminate. destruct (f_kind fu); try discriminate. names.
  destruct a0 as [|x a0]; [discriminate|]. destruct (f_ty fp) as [| | |en] eqn:Ety; try discriminate. destruct (find_class en) as [[m fs|ms]|] eqn:Ecl; try discriminate.
  destruct (conv_enum en ms (x :: a0)) eqn:Ece; try discriminate.
  assert (Np : p <> "units") by (apply String.eqb_neq; assumption). assert (Nv : p <> "value") by (apply String.eqb_neq; assumption).
  cbn [assoc]. rewrite String.eqb_refl. assert (Eu : String.eqb "units" p = false) by (apply String.eqb_neq; congruence). assert (Eu' : String.eqb p "units" = false) by (apply String.eqb_neq; congruence).
  eexists. eexists. split; [apply conv_scalar|]. split; [|right; do 4 eexists; split; [|split; [exact Nv|exact Np]]].
  2: { unfold conv at 2. rewrite Ecl, Ece. reflexivity. }
  match goal with |- unitary (match ?z with _ => _ end) => destruct z end; [apply conv_unit; assumption|]. unfold field_default. flags. exact I.
Qed.

(* ---- identification ---- *)
Variable lines : list line.
Definition dated (e : elem) : Prop := e_cls e = "StateVectorAccType" ->
  slice (fst (e_mm e)) (snd (e_mm e)) lines = [] \/ exists l r, slice (fst (e_mm e)) (snd (e_mm e)) lines = l :: r /\ split_ws (key_of l) <> [].
Definition good (e : elem) : Prop := forall x, In x (all_elems e) -> statb x = true /\ dated x.
Lemma good_intro e : statb e = true -> dated e -> (forall s, In s (e_subs e) -> good s) -> good e.
Proof.
  intros C D S x Hx. rewrite all_elems_eq in Hx. destruct Hx as [<-|Hx]; [split; assumption|]. apply in_flat_map in Hx. destruct Hx as [s [Hs Hx]]. exact (S s Hs x Hx).
Qed.
Lemma good_here e : good e -> statb e = true /\ dated e.
Proof. intros W. apply W. rewrite all_elems_eq. left. reflexivity. Qed.
Lemma good_sub e s : good e -> In s (e_subs e) -> good s.
Proof. intros W H x Hx. apply W. rewrite all_elems_eq. right. apply in_flat_map. exists s. split; assumption. Qed.
Definition near (e e' : elem) : Prop := e_name e' = e_name e /\ e_cls e' = e_cls e /\ (good e -> good e').
Definition similar (e e' : elem) : Prop :=
  e_name e' = e_name e /\ e_cls e' = e_cls e /\ e_single e' = e_single e /\ (user_class (e_cls e) = false -> e_kws e' = e_kws e).
Lemma stat_similar e e' : similar e e' -> (forall g, In g (e_subs e') -> exists s, In s (e_subs e) /\ e_name g = e_name s /\ e_cls g = e_cls s) -> statb e = true -> statb e' = true.
Proof.
  intros [Sn [Sc [Ss Sk]]] Sub H. unfold statb in *. rewrite Sc, Ss.
  apply andb_true_iff in H. destruct H as [H X5]. apply andb_true_iff in H. destruct H as [H X4]. apply andb_true_iff in H. destruct H as [H X3]. apply andb_true_iff in H. destruct H as [H X2].
  rewrite H. assert (N : nil (e_subs e) = true -> nil (e_subs e') = true).
  { destruct (e_subs e); [|discriminate]. intros _. destruct (e_subs e') as [|g r]; [reflexivity|]. destruct (Sub g (or_introl eq_refl)) as [s [[] _]]. }
  assert (Y2 : forallb (fun s => subb (e_cls e) (e_name s) (e_cls s)) (e_subs e') = true).
  { rewrite forallb_forall in *. intros g Hg. destruct (Sub g Hg) as [s [Hs [-> ->]]]. exact (X2 s Hs). }
  assert (Y3 : negb (mem_string (e_cls e) special_output_data_classes) || (nil (e_subs e') && flatb (e_cls e)) = true).
  { apply orb_true_iff in X3. destruct X3 as [X3|X3]; [rewrite X3; reflexivity|]. apply andb_true_iff in X3. destruct X3 as [A B]. rewrite (N A), B. apply orb_true_r. }
  rewrite Y2, Y3. cbn [andb]. destruct (user_class (e_cls e)) eqn:U.
  - unfold user_class in U. apply String.eqb_eq in U. rewrite U in *. cbn [negb String.eqb Ascii.eqb Bool.eqb orb andb] in *. destruct (e_single e) as [p|].
    + rewrite !andb_true_iff in X5. destruct X5 as [[_ X] _]. discriminate.
    + exact X5.
  - rewrite (Sk eq_refl), X4. cbn [andb]. destruct (e_single e) as [p|]; [|exact X5]. rewrite !andb_true_iff in *. destruct X5 as [[[[A B] C] D] X]. repeat split; auto.
Qed.
Lemma own_similar e keys i mm e' : own_range u e keys lines i = Ok (mm, e') -> similar e e' /\ e_subs e' = e_subs e.
Proof.
  intros H. pose proof H as S. apply own_range_same in S. destruct S as [H1 [H2 [H3 [H4 [H5 _]]]]]. split; [|exact H3]. repeat (split; [assumption|]).
  intros U. unfold user_class in U. unfold own_range in H. rewrite U in H. 
  destruct (_ || _); [inv_ok H; injection H as _ <-; reflexivity|]. destruct (String.eqb _ "TrackingDataObservationType"); [inv_ok H; injection H as _ <-; reflexivity|].
  assert (G : forall r, get_min_max (e_kws e) i keys None (match e_single e with Some _ => true | None => false end) = Ok r -> snd r = e_kws e).
  { intros r. unfold get_min_max. cbn [extend_tags]. intros X. inv_ok X. inv_ok X. injection X as <-. reflexivity. }
  destruct (String.eqb _ "OemCovarianceMatrixType"); inv_ok H; apply G in E; destruct a as [[lo hi] tags]; injection H as _ <-; exact E.
Qed.
Lemma own_dated e keys i mm e' : own_range u e keys lines i = Ok (mm, e') -> dated (set_mm e' mm).
Proof.
  intros H. pose proof H as S. apply own_range_same in S. destruct S as [_ [H2 _]]. intros C. cbn [set_mm e_cls e_mm] in *. rewrite H2 in C. unfold own_range in H. rewrite C in H.
  cbn [String.eqb Ascii.eqb Bool.eqb orb] in H. inv_ok H. injection H as <- _. unfold date_range in E. inv_ok E. inv_ok E. inv_ok E. inv_ok E. injection E as <-. cbn [fst snd].
  apply get_ok in E0, E1, E2. destruct a3.
  - right. exists a0. assert (X : slice i (i + 1) lines = [a0]).
    { unfold slice. apply nth_error_split in E0. destruct E0 as [l1 [l2 [-> Ln]]]. subst i. rewrite skipn_app, skipn_all, Nat.sub_diag. cbn [skipn app]. replace (List.length l1 + 1 - List.length l1) with 1 by lia. reflexivity. }
    rewrite X. exists []. split; [reflexivity|]. destruct a0 as [|k r]; [discriminate|]. cbn in E1. injection E1 as ->. cbn [key_of hd]. destruct (split_ws a1); [discriminate|discriminate].
  - left. unfold slice. rewrite Nat.sub_diag. reflexivity.
Qed.
Lemma near_own e keys i mm e' : own_range u e keys lines i = Ok (mm, e') -> (forall m, good (set_mm e m) -> good (set_mm e' mm)).
Proof.
  intros H m G. destruct (own_similar _ _ _ _ _ H) as [[Sn [Sc [Ss Sk]]] Sb]. pose proof (good_here _ G) as [G1 _]. apply good_intro.
  - revert G1. apply stat_similar; [repeat split; assumption|]. cbn [set_mm e_subs]. rewrite Sb. intros g Hg. exists g. auto.
  - eapply own_dated. exact H.
  - cbn [set_mm e_subs]. rewrite Sb. intros s Hs. exact (good_sub _ _ G Hs).
Qed.
Definition linked (P : elem -> elem -> Prop) (s : elem) (r : res ident) : Prop := forall a b e, r = Ok (a, b, e) -> P s (set_mm e b).
Lemma list_linked (Q : elem -> Prop) one n f : (forall i a b e, one i = Ok (a, b, e) -> Q (set_mm e b)) -> forall i last mx es, identify_list one n f i last = Ok (mx, es) -> Forall Q es.
Proof.
  intros H1. induction f as [|k IH]; intros init last mx es; [discriminate|].
  rewrite identify_list_S. intros H. inv_ok H. destruct a as [[mx1 [lo hi]] e1].
  destruct (_ && _); [injection H; intros; subst; constructor|].
  destruct (Nat.ltb _ _); [injection H; intros; subst; constructor|].
  pose proof (H1 _ _ _ _ E) as P1.
  cbv zeta in H. destruct (Nat.leb _ _); [injection H; intros; subst; repeat constructor; exact P1|].
  inv_ok H. destruct a as [mx' es']. injection H; intros; subst. constructor; [exact P1|]. eapply IH; exact E0.
Qed.
Lemma subs_linked (P : elem -> elem -> Prop) keys lo ss : 
  Forall (fun s => forall i, linked P s (identify u s keys lines i)) ss ->
  (forall s e m init mm e', P s (set_mm e m) -> own_range u e keys lines init = Ok (mm, e') -> P s (set_mm e' mm)) ->
  forall idx mx gs, ident_subs u keys lines lo ss idx = Ok (mx, gs) -> Forall (fun g => exists s, In s ss /\ P s g) gs.
Proof.
  intros F H3. induction F as [|s ss Hs F IH]; intros idx mx gs; cbn [ident_subs].
  { intros H; injection H; intros; subst. constructor. }
  assert (W : forall l, Forall (fun g => exists s, In s ss /\ P s g) l -> Forall (fun g => exists s0, In s0 (s :: ss) /\ P s0 g) l).
  { intros l. apply Forall_impl. intros g [s0 [I0 P0]]. exists s0; split; [right; exact I0|exact P0]. }
  destruct (e_islist s).
  - intros H. inv_ok H. destruct a as [idx' es]. inv_ok H. destruct a as [idx'' gs']. injection H; intros; subst.
    apply Forall_app; split; [|apply W; eapply IH; exact E0].
    eapply list_linked with (Q := fun g => exists s0, In s0 (s :: ss) /\ P s0 g) in E; [exact E|].
    intros i a b e Hi. exists s; split; [left; reflexivity|]. exact (Hs i a b e Hi).
  - intros H. inv_ok H. destruct a as [[idx' smm] s']. inv_ok H. inv_ok H. destruct a0 as [idx'' gs'].
    injection H; intros; subst. constructor; [|apply W; eapply IH; exact E1].
    exists s; split; [left; reflexivity|]. pose proof (Hs _ _ _ _ E) as K. destruct (_ && _).
    + inv_ok E0. destruct a0 as [mm2 e2]. injection E0; intros <-. cbn. eapply H3; eassumption.
    + injection E0; intros <-. exact K.
Qed.
Lemma identify_near keys : forall e i, linked near e (identify u e keys lines i).
Proof.
  intros e. induction e as [n c subs k l s m t F] using elem_ind'. intros i a b e'. rewrite identify_eq. intros H. inv_ok H. destruct a0 as [mm e1].
  pose proof (own_similar _ _ _ _ _ E) as [[Sn [Sc [Ss Sk]]] Sb]. pose proof (near_own _ _ _ _ _ E m) as K. pose proof (own_dated _ _ _ _ _ E) as D.
  cbn [e_subs e_name e_cls e_single e_kws] in *.
  destruct subs as [|s0 subs]; [injection H as <- <- <-; split; [exact Sn|split; [exact Sc|exact K]]|].
  inv_ok H. destruct a0 as [mx gs]. injection H as <- <- <-. split; [exact Sn|]. split; [exact Sc|]. intros G. pose proof (good_here _ G) as [G1 _].
  apply (subs_linked near) in E0; [|exact F|].
  - rewrite Forall_forall in E0. apply good_intro.
    + revert G1. apply stat_similar; [repeat split; assumption|]. cbn [set_mm set_subs e_subs]. intros g Hg. destruct (E0 g Hg) as [s1 [Hs1 [N1 [N2 _]]]]. exists s1. auto.
    + intros C. exact (D C).
    + cbn [set_mm set_subs e_subs]. intros g Hg. destruct (E0 g Hg) as [s1 [Hs1 [_ [_ N3]]]]. apply N3. exact (good_sub _ _ G Hs1).
  - intros s1 e2 m1 i1 mm1 e3 [N1 [N2 N3]] O. destruct (own_similar _ _ _ _ _ O) as [[On [Oc _]] _]. cbn [set_mm e_name e_cls] in *. split; [cbn; congruence|]. split; [cbn; congruence|].
    intros G'. eapply near_own; [exact O|]. exact (N3 G').
Qed.
Lemma segments_good c t : In c back_roots -> identify_segments u (tree_of c) lines = Ok t -> good t /\ e_cls t = e_cls (tree_of c).
Proof.
  intros C. unfold identify_segments. intros H. inv_ok H. destruct a as [[mx mm] e]. injection H as <-. destruct (identify_near _ _ _ _ _ _ E) as [_ [N2 N3]]. split; [|exact N2]. apply N3.
  intros x Hx. split; [exact (roots_stat c C x Hx)|]. intros _. left. rewrite (roots_unset c C x Hx). reflexivity.
Qed.

(* ---- building ---- *)
Definition done (c : string) (vars : list (string * pyval)) : Prop :=
  valued vars \/ (~ In "units" (map fst vars) /\ (special c vars \/ (mem_string c special_output_data_classes = false /\ forall m x, In (m, x) vars -> shaped m x))).
Definition built (c : string) (v : pyval) : Prop := v = VNone \/ exists vars, v = VObj c vars /\ map fst vars = attrs c /\ done c vars.
Lemma built_shaped c v n : kept n = true -> built c v -> shaped n v.
Proof.
  intros K [->|[vars [-> [_ [V|[N [S|[M A]]]]]]]]; [apply sh_scalar; [exact K|exact I]|apply sh_value; assumption|apply sh_special; assumption|apply sh_object; assumption].
Qed.
Lemma attach_ok c n sc sub vars vars' : classb c = true -> subb c n sc = true -> built sc sub -> okvars c vars -> attach n sub vars = Ok vars' -> okvars c vars'.
Proof.
  intros C S B O. unfold subb in S. apply andb_true_iff in S. destruct S as [K S]. rewrite forallb_forall in S. unfold attach.
  assert (T : forall f, In f (fields_of c) -> f_name f = n -> simple_ty (f_ty f) = false /\ value_ty (f_ty f) = false /\ (f_list f = true -> ~ In "units" (attrs sc))).
  { intros f If En. specialize (S f If). rewrite En, String.eqb_refl in S. cbn [negb orb] in S. rewrite !andb_true_iff in S. destruct S as [[S1 S2] S3]. apply negb_true_iff in S1, S2. split; [exact S1|]. split; [exact S2|].
    intros L I. rewrite L in S3. cbn [negb orb] in S3. apply negb_true_iff in S3. apply mem_string_in in I. congruence. }
  pose proof (built_shaped _ _ n K B) as Sh.
  destruct (assoc n vars) as [x|] eqn:E; [|discriminate]. apply assoc_in in E.
  assert (Set_ : (forall l, x <> VList l) -> okvars c (set_var n sub vars)).
  { intros Nl. apply set_ok; [exact O|]. intros f If En. destruct (T f If En) as [T1 [T2 T3]]. destruct (proj2 O n x E f If En) as [_ Ty]. unfold typed. destruct (f_list f) eqn:L; [destruct Ty as [l Ty]; destruct (Nl l Ty)|].
    rewrite En, T1, T2. split; [exact Sh|]. split; [|split; discriminate]. destruct B as [->|[vs [-> _]]]; discriminate. }
  assert (App : sub <> VNone -> okvars c (append_var n sub vars)).
  { intros Nn. apply append_ok; [exact O|]. intros f If En L. destruct (T f If En) as [_ [_ T3]]. right. right. split; [exact K|]. split; [exact Sh|]. destruct B as [->|[vs [-> [Nm _]]]]; [congruence|].
    exists sc, vs. split; [reflexivity|]. rewrite Nm. exact (T3 L). }
  destruct x; try (intros H; injection H as <-; apply Set_; discriminate). destruct sub; intros H; injection H as <-; try exact O; apply App; discriminate.
Qed.
Lemma in_attr (vars : list (string * pyval)) n x : In (n, x) vars -> In n (map fst vars). Proof. intros H. apply (in_map fst) in H. exact H. Qed.
Lemma flat_ok c vars : flatb c = true -> okvars c vars -> flat vars.
Proof.
  intros F [Nm A] n x H. destruct (attr_field c n) as [f [If En]]; [rewrite <- Nm; exact (in_attr _ _ _ H)|]. destruct (A n x H f If En) as [Sh Ty]. unfold flatb in F. rewrite forallb_forall in F. specialize (F f If).
  destruct (f_list f).
  - destruct Ty as [l ->]. right. right. exists l. split; [reflexivity|]. apply andb_true_iff in F. destruct F as [F _]. apply String.eqb_eq in F. rewrite F in Sh. inversion Sh as [? ? K X| ? X| | | | |? ? K X]; subst; [destruct X|exact X|discriminate].
  - destruct Ty as [_ [T1 T2]]. apply orb_true_iff in F. destruct F as [F|F]; [left; exact (T1 F)|]. destruct (T2 F) as [->|V]; [left; exact I|right; left; exact V].
Qed.
Lemma shaped_ok c vars : okvars c vars -> forall m x, In (m, x) vars -> shaped m x.
Proof. intros [Nm A] n x H. destruct (attr_field c n) as [f [If En]]; [rewrite <- Nm; exact (in_attr _ _ _ H)|]. destruct (A n x H f If En) as [Sh Ty]. rewrite <- En. exact Sh. Qed.
Lemma assoc_some {A} n (vars : list (string * A)) : In n (map fst vars) -> exists x, assoc n vars = Some x.
Proof. intros H. destruct (assoc n vars) as [x|] eqn:E; [eauto|destruct (assoc_none _ _ E H)]. Qed.
Lemma scalar_at c vars n f : okvars c vars -> In n (attrs c) -> In f (fields_of c) -> f_name f = n -> f_list f = false -> simple_ty (f_ty f) = true -> exists x, assoc n vars = Some x /\ scalar x.
Proof.
  intros [Nm A] H If En L S. destruct (assoc_some n vars) as [x Hx]; [rewrite Nm; exact H|]. exists x. split; [exact Hx|]. destruct (A n x (assoc_in _ _ _ Hx) f If En) as [_ Ty]. rewrite L in Ty. apply Ty. exact S.
Qed.
Lemma list_at c vars n f : okvars c vars -> In n (attrs c) -> In f (fields_of c) -> f_name f = n -> f_list f = true -> exists l, assoc n vars = Some (VList l).
Proof.
  intros [Nm A] H If En L. destruct (assoc_some n vars) as [x Hx]; [rewrite Nm; exact H|]. destruct (A n x (assoc_in _ _ _ Hx) f If En) as [_ Ty]. rewrite L in Ty. destruct Ty as [l ->]. exists l. exact Hx.
Qed.
Lemma set_keeps n v m x vars : m <> n -> In (m, x) vars -> In (m, x) (set_var n v vars).
Proof.
  intros N. induction vars as [|[k y] vars IH]; [intros []|]. cbn [set_var]. destruct (String.eqb k n) eqn:E; intros [H|H]; try (left; exact H); try (right; exact H); try (right; exact (IH H)).
  exfalso. injection H as -> ->. apply String.eqb_eq in E. congruence.
Qed.
Lemma append_keeps n v m x vars : m <> n -> In (m, x) vars -> In (m, x) (append_var n v vars).
Proof.
  intros N. induction vars as [|[k y] vars IH]; [intros []|]. cbn [append_var]. destruct (String.eqb k n) eqn:E; intros [H|H]; try (left; exact H); try (right; exact H); try (right; exact (IH H)).
  exfalso. injection H as -> ->. apply String.eqb_eq in E. congruence.
Qed.
Lemma children_keep cls cs m x : classb cls = true -> (forall f, In f (fields_of cls) -> f_name f = m -> f_list f = false) -> forall seen vars vars', In m seen -> In (m, x) vars ->
  bind_children u cls (fields_of cls) seen cs vars = Ok vars' -> In (m, x) vars'.
Proof.
  intros C L. induction cs as [|[[tag ats] t] cs IH]; intros seen vars vars' S H; cbn [bind_children]; [intros X; injection X as <-; exact H|].
  destruct (child_ok _); [|discriminate]. destruct (find_elem tag (fields_of cls)) as [f|] eqn:E; [|discriminate]. pose proof (find_elem_in _ _ _ E) as If.
  destruct (f_list f) eqn:El.
  - apply IH; [exact S|]. apply append_keeps; [|exact H]. intros ->. rewrite (L f If eq_refl) in El. discriminate.
  - destruct (existsb _ _) eqn:Ex; [discriminate|]. apply IH; [right; exact S|]. apply set_keeps; [|exact H]. intros ->.
    assert (X : existsb (String.eqb (f_name f)) seen = true) by (apply existsb_exists; exists (f_name f); split; [exact S|apply String.eqb_refl]). congruence.
Qed.
Lemma set_there n v (vars : list (string * pyval)) : In n (map fst vars) -> In (n, v) (set_var n v vars).
Proof.
  induction vars as [|[k y] vars IH]; [intros []|]. cbn [map fst set_var]. destruct (String.eqb k n) eqn:E; [apply String.eqb_eq in E; subst k; left; reflexivity|].
  intros [->|H]; [rewrite String.eqb_refl in E; discriminate|right; exact (IH H)].
Qed.
Lemma split_first s t ts : split_ws s = t :: ts -> t <> [].
Proof. intros H. pose proof (KeptFacts.split_nonblank s [] (Forall_nil _)) as F. unfold split_ws in H. rewrite H in F. inversion F as [|? ? X _]. exact (proj1 X). Qed.
Lemma epoch_kept kws s v : match kws with k :: _ => str_eqb k (lit "EPOCH") | [] => false end = true -> split_ws s <> [] ->
  parse_list u "StateVectorAccType" None (zip_lines kws (split_ws s)) = Ok v -> exists n x, In (n, x) (vars_of v) /\ truthy x = true.
Proof.
  intros K S. destruct kws as [|k kws]; [discriminate|]. apply str_eqb_eq in K. subst k. destruct (split_ws s) as [|t ts] eqn:Es; [congruence|]. apply split_first in Es.
  cbn [zip_lines]. unfold parse_list. cbn [map_res]. intros H. inv_ok H. inv_ok H. injection H as <-. unfold child_of_line at 1 in E. cbn [get nth_error guard_opt bind] in E. inv_ok E. injection E as <-.
  cbn [bind_children] in E0. destruct (child_ok _); [|discriminate].
  destruct (find_elem (lit "EPOCH") (fields_of "StateVectorAccType")) as [f|] eqn:Ef; [|discriminate]. assert (X : f_name f = "epoch" /\ f_list f = false /\ f_ty f = TStr).
  { revert Ef. vm_compute. intros X. injection X as <-. auto. }
  destruct X as [X1 [X2 X3]]. rewrite X1, X2 in E0. cbn [existsb] in E0. cbn [vars_of].
  exists "epoch", (VStr t). split; [|destruct t; [congruence|reflexivity]].
  eapply children_keep with (seen := ["epoch"]); [| |left; reflexivity| |exact E0]; [vm_compute; reflexivity| |].
  - intros g Ig Eg. assert (B : forallb (fun f => negb (String.eqb (f_name f) "epoch") || negb (f_list f)) (fields_of "StateVectorAccType") = true) by (vm_compute; reflexivity).
    rewrite forallb_forall in B. specialize (B g Ig). rewrite Eg, String.eqb_refl in B. destruct (f_list g); [discriminate|reflexivity].
  - unfold bind_child. rewrite X3. unfold conv. destruct t as [|a t]; [congruence|]. apply set_there. vm_compute. auto.
Qed.
Lemma cov_special vars : okvars "OemCovarianceMatrixType" vars -> special "OemCovarianceMatrixType" vars.
Proof.
  intros O. right. left. split; [reflexivity|]. split; [eapply flat_ok; [|exact O]; vm_compute; reflexivity|].
  assert (F : forall n, existsb (fun f => String.eqb (f_name f) n && negb (f_list f) && simple_ty (f_ty f)) (fields_of "OemCovarianceMatrixType") && mem_string n (attrs "OemCovarianceMatrixType") = true -> exists x, assoc n vars = Some x /\ scalar x).
  { intros n H. apply andb_true_iff in H. destruct H as [H M]. apply existsb_exists in H. destruct H as [f [If H]]. bools. apply mem_string_in in M. eapply scalar_at; eassumption. }
  split; [|split; apply F; vm_compute; reflexivity].
  assert (X : existsb (fun f => String.eqb (f_name f) "comment" && f_list f) (fields_of "OemCovarianceMatrixType") = true) by (vm_compute; reflexivity).
  apply existsb_exists in X. destruct X as [f [If H]]. bools. eapply list_at; try eassumption. apply mem_string_in. vm_compute. reflexivity.
Qed.
Lemma tdm_special vars : okvars "TrackingDataObservationType" vars -> special "TrackingDataObservationType" vars.
Proof.
  intros O. right. right. split; [reflexivity|].
  assert (X : existsb (fun f => String.eqb (f_name f) "epoch" && negb (f_list f) && simple_ty (f_ty f)) (fields_of "TrackingDataObservationType") = true) by (vm_compute; reflexivity).
  apply existsb_exists in X. destruct X as [f [If H]]. bools. eapply scalar_at; try eassumption. apply mem_string_in. vm_compute. reflexivity.
Qed.
Lemma state_special vars : okvars "StateVectorAccType" vars -> (exists n x, In (n, x) vars /\ truthy x = true) -> special "StateVectorAccType" vars.
Proof.
  intros O T. left. split; [reflexivity|]. split; [eapply flat_ok; [|exact O]; vm_compute; reflexivity|]. split; [|exact T].
  intros n l H. destruct O as [Nm A]. destruct (attr_field "StateVectorAccType" n) as [f [If En]]; [rewrite <- Nm; exact (in_attr _ _ _ H)|]. destruct (A n _ H f If En) as [_ Ty].
  assert (B : forallb (fun f => negb (f_list f)) (fields_of "StateVectorAccType") = true) by (vm_compute; reflexivity). rewrite forallb_forall in B. specialize (B f If). apply negb_true_iff in B. rewrite B in Ty.
  destruct Ty as [Ty _]. exact (Ty l eq_refl).
Qed.

Lemma build_built n doc : forall e, good e -> forall v, build u n doc e lines = Ok v -> built (e_cls e) v.
Proof.
  induction n as [|n IH]; intros e G v; [discriminate|]. pose proof (good_here e G) as [St Da].
  unfold statb in St. apply andb_true_iff in St. destruct St as [St X5]. apply andb_true_iff in St. destruct St as [St X4]. apply andb_true_iff in St. destruct St as [St X3].
  apply andb_true_iff in St. destruct St as [St X2]. apply andb_true_iff in St. destruct St as [X0 X1]. apply negb_true_iff in X0.
  assert (Fill : forall vars w, okvars (e_cls e) vars ->
    (do vars' <- fold_left (fun acc s => do vs <- acc; do sub <- build u n doc s lines; attach (e_name s) sub vs) (e_subs e) (Ok vars); Ok (VObj (e_cls e) vars')) = Ok w ->
    exists vars', w = VObj (e_cls e) vars' /\ okvars (e_cls e) vars').
  { intros vars w O H. inv_ok H. injection H as <-. exists a. split; [reflexivity|].
    assert (Q : forall ss, (forall s, In s ss -> In s (e_subs e)) -> forall acc, (forall vs, acc = Ok vs -> okvars (e_cls e) vs) -> forall r,
      fold_left (fun acc s => do vs <- acc; do sub <- build u n doc s lines; attach (e_name s) sub vs) ss acc = Ok r -> okvars (e_cls e) r).
    { induction ss as [|s ss IHs]; intros Hs acc A r; cbn [fold_left]; [apply A|]. apply IHs; [intros z Hz; apply Hs; right; exact Hz|].
      intros vs H. inv_ok H. inv_ok H. assert (Is : In s (e_subs e)) by (apply Hs; left; reflexivity). rewrite forallb_forall in X2.
      eapply attach_ok; [exact X1|apply X2; exact Is|eapply IH; [exact (good_sub e s G Is)|exact E1]|apply A; exact E0|exact H]. }
    eapply Q; [| |exact E]; [auto|]. intros vs H. injection H as <-. exact O. }
  assert (Nu : e_single e = None -> forall vars, okvars (e_cls e) vars -> ~ In "units" (map fst vars)).
  { intros Es vars [O _] I. rewrite Es in X5. rewrite !andb_true_iff in X5. destruct X5 as [[X5 _] _]. apply negb_true_iff in X5. rewrite O in I. apply mem_string_in in I. congruence. }
  assert (Plain : mem_string (e_cls e) special_output_data_classes = false -> e_single e = None -> forall vars, okvars (e_cls e) vars -> built (e_cls e) (VObj (e_cls e) vars)).
  { intros M Es vars O. right. exists vars. split; [reflexivity|]. split; [apply O|]. right. split; [exact (Nu Es vars O)|]. right. split; [exact M|apply (shaped_ok (e_cls e)); exact O]. }
  assert (Spec : mem_string (e_cls e) special_output_data_classes = true -> e_subs e = []).
  { intros M. rewrite M in X3. cbn [negb orb] in X3. apply andb_true_iff in X3. destruct X3 as [X3 _]. destruct (e_subs e); [reflexivity|discriminate]. }
  assert (Odd : ordinary (e_cls e) = false -> e_single e = None).
  { intros Or. destruct (e_single e); [|reflexivity]. rewrite !andb_true_iff in X5. destruct X5 as [[_ X] _]. congruence. }
  assert (Users : user_class (e_cls e) = false -> e_single e = None -> ~ (exists f, In f (fields_of (e_cls e)) /\ f_name f = "user_defined")).
  { intros Uc Es [f [If Ef]]. rewrite Es, Uc in X5. apply andb_true_iff in X5. destruct X5 as [_ X]. cbn [orb] in X. rewrite forallb_forall in X. specialize (X f If). rewrite Ef in X. discriminate. }
  assert (Leaf : ordinary (e_cls e) = false -> user_class (e_cls e) = false -> forall k, tag_leaf (e_cls e) k = true).
  { intros Or Uc k. pose proof (Odd Or) as Es. rewrite Es, Or, Uc in X5. rewrite !andb_true_iff in X5. destruct X5 as [[_ X] _]. unfold tag_leaf. destruct (find_elem k _) as [f|] eqn:Ef; [|reflexivity].
    rewrite forallb_forall in X. apply X. exact (find_elem_in _ _ _ Ef). }
  assert (Ul : user_class (e_cls e) = true -> ordinary (e_cls e) = false -> tag_leaf (e_cls e) (lit "USER_DEFINED") = true).
  { intros Uc Or. rewrite (Odd Or), Or, Uc in X5. rewrite !andb_true_iff in X5. apply X5. }
  assert (C1 : String.eqb (e_cls e) "AemSegment" = false /\ String.eqb (e_cls e) "AttitudeStateType" = false).
  { unfold mem_string in X0. cbn [existsb] in X0. rewrite !orb_false_iff in X0. rewrite (String.eqb_sym (e_cls e)), (String.eqb_sym (e_cls e)). tauto || (destruct X0 as [A [B _]]; rewrite String.eqb_sym in A; rewrite String.eqb_sym in B; auto). }
  destruct C1 as [C1 C2].
  assert (HL : forall items obj w, ordinary (e_cls e) = false -> user_class (e_cls e) = false -> mem_string (e_cls e) special_output_data_classes = true ->
    parse_list u (e_cls e) None items = Ok obj ->
    match obj with VObj c vars => do vars' <- fold_left (fun acc s => do vs <- acc; do sub <- build u n doc s lines; attach (e_name s) sub vs) (e_subs e) (Ok vars); Ok (VObj c vars') | _ => Err AttributeError end = Ok w ->
    exists vars, obj = VObj (e_cls e) vars /\ w = VObj (e_cls e) vars /\ okvars (e_cls e) vars /\ (special (e_cls e) vars -> built (e_cls e) w)).
  { intros items obj w Or Uc M P F. apply list_ok in P; [|exact X1|intros l _; exact (Leaf Or Uc (key_of l))|exact (Users Uc (Odd Or))]. destruct P as [vars [-> O]]. rewrite (Spec M) in F. cbn [fold_left bind] in F. injection F as <-.
    exists vars. split; [reflexivity|]. split; [reflexivity|]. split; [exact O|]. intros S. right. exists vars. split; [reflexivity|]. split; [apply O|]. right. split; [exact (Nu (Odd Or) vars O)|left; exact S]. }
  assert (HO : forall loc obj w, String.eqb (e_cls e) "StateVectorAccType" = false -> String.eqb (e_cls e) "OemCovarianceMatrixType" = false -> String.eqb (e_cls e) "TrackingDataObservationType" = false ->
    (if root_kws (e_kws e) then parse_root (e_cls e) (match (if String.eqb (e_cls e) "UserDefinedType" then Some (lit "USER_DEFINED") else None) with Some _ => loc | None => filter (fun l => mem_str (key_of l) (e_kws e)) loc end)
     else match e_single e with
          | Some p => parse_single u (e_cls e) p (match (if String.eqb (e_cls e) "UserDefinedType" then Some (lit "USER_DEFINED") else None) with Some _ => loc | None => filter (fun l => mem_str (key_of l) (e_kws e)) loc end)
          | None => parse_list u (e_cls e) (if String.eqb (e_cls e) "UserDefinedType" then Some (lit "USER_DEFINED") else None) (match (if String.eqb (e_cls e) "UserDefinedType" then Some (lit "USER_DEFINED") else None) with Some _ => loc | None => filter (fun l => mem_str (key_of l) (e_kws e)) loc end)
          end) = Ok obj ->
    match obj with VObj c vars => do vars' <- fold_left (fun acc s => do vs <- acc; do sub <- build u n doc s lines; attach (e_name s) sub vs) (e_subs e) (Ok vars); Ok (VObj c vars') | _ => Err AttributeError end = Ok w ->
    built (e_cls e) w).
  { intros loc obj w C3 C4 C5 P F.
    assert (M : mem_string (e_cls e) special_output_data_classes = false).
    { unfold mem_string, special_output_data_classes. cbn [existsb]. rewrite C3, C4, C5, C2. reflexivity. }
    assert (Pl : e_single e = None -> (exists vars, obj = VObj (e_cls e) vars /\ okvars (e_cls e) vars) -> built (e_cls e) w).
    { intros Es [vars [-> O]]. destruct (Fill vars w O F) as [vars' [-> O']]. exact (Plain M Es vars' O'). }
    destruct (user_class (e_cls e)) eqn:Uc.
    - assert (Or : ordinary (e_cls e) = false) by (unfold user_class in Uc; apply String.eqb_eq in Uc; rewrite Uc; reflexivity). pose proof (Odd Or) as Es.
      pose proof Uc as Uc'. unfold user_class in Uc'. rewrite Es, Uc' in P. apply Pl; [exact Es|]. destruct (root_kws (e_kws e)).
      + unfold parse_root in P. inv_ok P. match type of P with (if ?b then _ else _) = _ => destruct b end; [|discriminate]. injection P as <-. eexists. split; [reflexivity|exact (new_ok _ X1)].
      + eapply user_ok; [exact X1| |exact P]. exact (Ul eq_refl Or).
    - pose proof Uc as Uc'. unfold user_class in Uc. rewrite Uc in P.
      assert (Or : ordinary (e_cls e) = true) by (unfold ordinary; cbn [existsb]; rewrite C1, C2, C3, C4, C5, Uc; reflexivity).
      assert (Fl : forall l, In l (filter (fun l => mem_str (key_of l) (e_kws e)) loc) -> In (key_of l) (e_kws e)).
      { intros l Hl. apply filter_In in Hl. destruct Hl as [_ Hl]. apply mem_str_spec in Hl. exact Hl. }
      destruct (e_single e) as [p|] eqn:Es.
      + rewrite !andb_true_iff in X5. destruct X5 as [[[[Ni Si] Ax] _] Rk]. apply negb_true_iff in Rk. rewrite Rk in P. pose proof (parse_single_made _ _ _ _ _ P) as Md.
        rewrite forallb_forall in Ax. apply single_ok in P; [|exact X1|exact Si|intros l Hl; apply Ax, Fl, Hl]. destruct P as [vars [-> V]].
        destruct (e_subs e); [|discriminate]. cbn [fold_left bind] in F. injection F as <-. right. exists vars. split; [reflexivity|]. split; [|left; exact V]. destruct Md as [vs [Mv Mn]]. injection Mv as <-. exact Mn.
      + apply Pl; [exact eq_refl|]. destruct (root_kws (e_kws e)) eqn:Rk.
        { unfold parse_root in P. inv_ok P. match type of P with (if ?b then _ else _) = _ => destruct b end; [|discriminate]. injection P as <-. eexists. split; [reflexivity|exact (new_ok _ X1)]. }
        rewrite Or in X5. cbn [orb] in X5. rewrite !andb_true_iff in X5. destruct X5 as [[_ X5] _]. rewrite forallb_forall in X5. eapply list_ok; [exact X1| |exact (Users eq_refl eq_refl)|exact P]. intros l Hl. apply X5, Fl, Hl. }
  cbn [build]. rewrite C1, C2.
  destruct (slice (fst (e_mm e)) (snd (e_mm e)) lines) as [|l0 ll] eqn:El;
    destruct (match e_subs e with [] => true | _ => false end) eqn:En; try (intros H; injection H as <-; left; reflexivity); rewrite <- El.
  all: destruct (String.eqb (e_cls e) "StateVectorAccType") eqn:C3;
    [apply String.eqb_eq in C3; intros H; inv_ok H; inv_ok H; inv_ok H;
     assert (A1 : ordinary (e_cls e) = false) by (rewrite C3; reflexivity); assert (A2 : user_class (e_cls e) = false) by (rewrite C3; reflexivity); assert (A3 : mem_string (e_cls e) special_output_data_classes = true) by (rewrite C3; reflexivity);
     destruct (HL _ _ v A1 A2 A3 E1 H) as [vars [-> [-> [O B]]]]; apply B;
     rewrite C3 in *; apply state_special; [exact O|]; apply epoch_kept in E1; [exact E1|exact X4|];
     apply get_ok in E, E0; destruct (Da C3) as [Dn|[l1 [r1 [Dn Ds]]]]; rewrite Dn in E; [discriminate|]; cbn in E; injection E as <-; destruct l1 as [|k1 r2]; [discriminate|]; cbn in E0; injection E0 as <-; exact Ds|].
  all: destruct (String.eqb (e_cls e) "OemCovarianceMatrixType") eqn:C4;
    [apply String.eqb_eq in C4; intros H; inv_ok H;
     assert (A1 : ordinary (e_cls e) = false) by (rewrite C4; reflexivity); assert (A2 : user_class (e_cls e) = false) by (rewrite C4; reflexivity); assert (A3 : mem_string (e_cls e) special_output_data_classes = true) by (rewrite C4; reflexivity);
     destruct (HL _ _ v A1 A2 A3 E H) as [vars [-> [-> [O B]]]]; apply B;
     rewrite C4 in *; apply cov_special; exact O|].
  all: destruct (String.eqb (e_cls e) "TrackingDataObservationType") eqn:C5;
    [apply String.eqb_eq in C5; intros H; inv_ok H; inv_ok H; inv_ok H; inv_ok H;
     assert (A1 : ordinary (e_cls e) = false) by (rewrite C5; reflexivity); assert (A2 : user_class (e_cls e) = false) by (rewrite C5; reflexivity); assert (A3 : mem_string (e_cls e) special_output_data_classes = true) by (rewrite C5; reflexivity);
     destruct (HL _ _ v A1 A2 A3 E2 H) as [vars [-> [-> [O B]]]]; apply B;
     rewrite C5 in *; apply tdm_special; exact O|].
  all: match goal with |- match ?x with _ => _ end = Ok _ -> _ => destruct x eqn:Ex end; try (intros H; injection H as <-; left; reflexivity).
  all: rewrite <- Ex; intros H; inv_ok H; eapply HO; try eassumption; try reflexivity.
Qed.
Lemma read_built c v : In c back_roots -> (do e <- identify_segments u (tree_of c) lines; build_object u e lines) = Ok v -> built (e_cls (tree_of c)) v.
Proof.
  intros C H. inv_ok H. destruct (segments_good c a C E) as [G Ec]. rewrite <- Ec. exact (build_built _ _ a G v H).
Qed.
End Read.
