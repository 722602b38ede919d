(* A comment between two lines of one section is read as a comment of that section, and changes nothing else. *)
From Coq Require Import NArith ZArith List Bool String Arith Lia Sorted.
From Verif Require Import PyStr PyDec PyVal Schema KvnPre KvnTree KvnSeg XmlBind KvnBuild
     Spec SpecKvn SpecObj SpecMsg SpecDoc SpecFrom SpecOrder SpecSpell SpecInsert SpecComment StrFacts PreFacts SegFacts BuildFacts ReadFacts GapFacts ComposeFacts
     DocFacts CheckFacts OrderFacts PropFrom PropOrder PropVers AlikeFacts InsertFacts CommentFacts PropInsert Demo.
Import ListNotations.
Local Open Scope string_scope.
Local Open Scope list_scope.
Local Arguments find_class : simpl never.
Local Arguments lit : simpl never.

(* the classes within a class *)
Definition inb (x : string) (l : list string) : bool := existsb (String.eqb x) l.
Fixpoint grow (n : nat) (seen todo : list string) : list string :=
  match n, todo with
  | S m, k :: r => if inb k seen then grow m seen r else grow m (k :: seen) (types_of k ++ r)
  | _, _ => seen
  end.
Definition rch (c : string) : list string := grow 2000 [] [c].
(* for each class of a message, the sections within each of its fields *)
Definition sections (c : string) : list string := nodup string_dec (map e_cls (all_elems (tree_of c))).
Definition inner (c : string) : list (string * list string) := let S := sections c in map (fun k => (k, filter (fun x => inb x S) (rch k))) (rch c).
Definition row (I : list (string * list string)) (k : string) : list (bool * list string) :=
  filter (fun m => negb (match snd m with [] => true | _ => false end))
         (map (fun f => (f_list f, match f_ty f with TCls e => match assoc e I with Some l => l | None => [] end | _ => [] end)) (fields_of k)).
Definition table (c : string) : list (string * (list string * list (bool * list string))) := let I := inner c in map (fun kl => (fst kl, (snd kl, row I (fst kl)))) I.
Fixpoint later (x y : string) (r : list (bool * list string)) : bool :=
  match r with [] => false | (_, l) :: r' => (inb x l && existsb (fun m => inb y (snd m)) r') || later x y r' end.
Section Chk.
Variable T : list (string * (list string * list (bool * list string))).
Variables c d : string.
Definition precb (x y : string) : bool :=
  match assoc x T with Some (l, _) => inb y l | None => false end || existsb (fun k => later x y (snd (snd k))) T.
Definition repb (x : string) : bool := existsb (fun k => existsb (fun m => fst m && inb x (snd m)) (snd (snd k))) T.
Definition disj (z s : elem) : bool := forallb (fun t => str_eqb t kw_comment || negb (mem_str t (e_kws s))) (e_kws z).
Definition aftb (z s : elem) : bool :=
  negb (String.eqb (e_cls z) (e_cls s)) && precb (e_cls z) (e_cls s) && negb (repb (e_cls s)) && disj z s.
Definition leafb (Z : list elem) (s : elem) : bool :=
  if user s then match e_single s with None => true | _ => false end && forallb (fun t => str_eqb t kw_comment || userk t) (e_kws s) && Nat.leb 2 (List.length (e_kws s))
  else (negb (mem_str kw_comment (e_kws s)) || negb (Nat.eqb (List.length (e_kws s)) 1)) && negb (String.eqb (e_cls s) d) && forallb (fun z => aftb z s) Z.
Definition none {A} (l : list A) : bool := match l with [] => true | _ => false end.
Fixpoint tailb (Z : list elem) (l : list elem) : option (list elem) :=
  match l with
  | [] => Some Z
  | s :: r => if (e_islist s || (none (e_subs s) && leafb Z s) || existsb (fun x => negb (e_islist x)) (e_subs s)) && (negb (usr s) || none r)
              then tailb (Z ++ all_elems s) r else None
  end.
Definition lowb (z : elem) : bool := negb (user z) && negb (String.eqb (e_cls z) d) && precb (e_cls z) d.
Definition namesb (e : elem) : bool := forallb (fun s => forallb (fun f => negb (mem_str (kvn_name f) (keywords d)) || negb (String.eqb (f_name f) (e_name s))) (fields_of d)) (e_subs e).
Fixpoint pathb (n : nat) (e : elem) : option (list elem) :=
  match n with
  | O => None
  | S n =>
    if String.eqb (e_cls e) d then
      if negb (user e) && match e_single e with None => true | _ => false end && same_strs (e_kws e) (keywords d) && namesb e then tailb [e] (e_subs e) else None
    else if lowb e || String.eqb (e_cls e) c then
      (fix go (pre ss : list elem) : option (list elem) :=
         match ss with
         | [] => None
         | s :: r => if existsb (fun z => String.eqb (e_cls z) d) (all_elems s) then
                       if negb (e_islist s) && forallb (fun x => forallb lowb (all_elems x)) pre && (negb (usr s) || none r) && negb (inb (e_name s) (map e_name r)) then
                         match pathb n s with Some Zs => tailb Zs r | None => None end
                       else None
                     else go (pre ++ [s]) r
         end) [] (e_subs e)
    else None
  end.
End Chk.
(* ---- what the checks mean ---- *)
Lemma within_trans c k d : SpecOrder.within c k -> SpecOrder.within k d -> SpecOrder.within c d.
Proof. intros H. induction 1 as [|k' f d W IH Hf Et]; [exact H|]. exact (SpecOrder.within_field c k' f d IH Hf Et). Qed.
Lemma types_in k d : In d (types_of k) <-> exists f, In f (fields_of k) /\ f_ty f = TCls d.
Proof.
  unfold types_of. induction (fields_of k) as [|g gs IH]; [split; [intros []|intros [f [[] _]]]|]. cbn [filter_map]. destruct (f_ty g) eqn:E; cbn [In]; rewrite ?IH;
    (split; [intros H|intros [f [[<-|F1] F2]]]); try congruence; try (exists f; auto); try (destruct H as [f [F1 F2]]; exists f; auto).
  - destruct H as [<-|[f [F1 F2]]]; [exists g; auto|exists f; auto].
  - left. congruence.
  - right. exists f. auto.
Qed.
Lemma grow_sound c n : forall seen todo, (forall x, In x seen -> SpecOrder.within c x) -> (forall x, In x todo -> SpecOrder.within c x) -> forall x, In x (grow n seen todo) -> SpecOrder.within c x.
Proof.
  induction n as [|n IH]; intros seen todo Hs Ht x H; [exact (Hs x H)|]. cbn [grow] in H. destruct todo as [|k r]; [exact (Hs x H)|]. destruct (inb k seen).
  - apply (IH seen r Hs); [|exact H]. intros y Hy. apply Ht. right. exact Hy.
  - apply (IH (k :: seen) (types_of k ++ r)); [| |exact H].
    + intros y [<-|Hy]; [apply Ht; left; reflexivity|exact (Hs y Hy)].
    + intros y Hy. apply in_app_or in Hy. destruct Hy as [Hy|Hy]; [|apply Ht; right; exact Hy]. apply types_in in Hy. destruct Hy as [f [F1 F2]].
      apply (SpecOrder.within_field c k f); [apply Ht; left; reflexivity|exact F1|exact F2].
Qed.
Lemma rch_within c x : In x (rch c) -> SpecOrder.within c x.
Proof. unfold rch. apply grow_sound; [intros y []|intros y [<-|[]]; apply SpecOrder.within_self]. Qed.
Local Opaque rch.
Lemma inb_spec x l : inb x l = true <-> In x l.
Proof. apply existsb_str. Qed.
Lemma assoc_in {A} k (l : list (string * A)) v : assoc k l = Some v -> In (k, v) l.
Proof. induction l as [|[a w] l IH]; [discriminate|]. cbn [assoc]. destruct (String.eqb_spec a k) as [->|E]; [intros H; injection H as ->; left; reflexivity|intros H; right; exact (IH H)]. Qed.
Lemma inner_in c k l : In (k, l) (inner c) -> In k (rch c) /\ forall x, In x l <-> In x (rch k) /\ In x (sections c).
Proof.
  unfold inner. cbv zeta. intros H. apply in_map_iff in H. destruct H as [x [E H]]. injection E as <- <-. split; [exact H|]. intros y. rewrite filter_In, inb_spec. reflexivity.
Qed.
Lemma inner_assoc c k : In k (rch c) -> exists l, assoc k (inner c) = Some l /\ forall x, In x l <-> In x (rch k) /\ In x (sections c).
Proof.
  intros H. assert (X : exists l, assoc k (inner c) = Some l).
  { unfold inner. cbv zeta. induction (rch c) as [|y ys IH]; [destruct H|]. cbn [map assoc]. destruct (String.eqb_spec y k) as [->|N]; [eexists; reflexivity|]. apply IH. destruct H as [H|H]; [contradiction|exact H]. }
  destruct X as [l E]. exists l. split; [exact E|]. apply assoc_in, inner_in in E. apply E.
Qed.
Lemma table_in c k l r : In (k, (l, r)) (table c) -> In (k, l) (inner c) /\ r = row (inner c) k.
Proof. unfold table. cbv zeta. intros H. apply in_map_iff in H. destruct H as [[a b] [E H]]. injection E as <- <- <-. auto. Qed.
Definition entry (c : string) (f : field) : bool * list string := (f_list f, match f_ty f with TCls e => match assoc e (inner c) with Some l => l | None => [] end | _ => [] end).
Lemma entry_in c f x : In x (snd (entry c f)) -> exists e, f_ty f = TCls e /\ SpecOrder.within e x.
Proof.
  unfold entry. cbn [snd]. destruct (f_ty f) as [| | |e]; try (intros []). destruct (assoc e (inner c)) as [l|] eqn:E; [|intros []]. apply assoc_in, inner_in in E. intros H. apply E in H.
  exists e. split; [reflexivity|]. apply rch_within. apply H.
Qed.
Lemma later_spec c x y : forall fs, later x y (filter (fun m => negb (match snd m with [] => true | _ => false end)) (map (entry c) fs)) = true ->
  exists A f B g C e1 e2, fs = A ++ f :: B ++ g :: C /\ f_ty f = TCls e1 /\ SpecOrder.within e1 x /\ f_ty g = TCls e2 /\ SpecOrder.within e2 y.
Proof.
  induction fs as [|f fs IH]; [discriminate|]. cbn [map filter]. intros H. assert (H2 : later x y (filter (fun m => negb (match snd m with [] => true | _ => false end)) (map (entry c) fs)) = true \/
    (In x (snd (entry c f)) /\ exists g, In g fs /\ In y (snd (entry c g)))).
  { destruct (negb _) in H; [|left; exact H]. destruct (entry c f) as [b l]. cbn [later] in H. apply orb_true_iff in H. destruct H as [H|H]; [right|left; exact H]. apply andb_true_iff in H. destruct H as [H1 H2].
    apply inb_spec in H1. split; [exact H1|]. apply existsb_exists in H2. destruct H2 as [m [M1 M2]]. apply filter_In in M1. destruct M1 as [M1 _]. apply in_map_iff in M1. destruct M1 as [g [<- M1]]. exists g. split; [exact M1|apply inb_spec; exact M2]. }
  destruct H2 as [H2|[H2 [g [H3 H4]]]].
  - destruct (IH H2) as [A [f' [B [g [C [e1 [e2 [-> R]]]]]]]]. exists (f :: A), f', B, g, C, e1, e2. split; [reflexivity|exact R].
  - apply entry_in in H2, H4. destruct H2 as [e1 [E1 W1]], H4 as [e2 [E2 W2]]. apply in_split in H3. destruct H3 as [B [C ->]]. exists [], f, B, g, C, e1, e2. repeat split; assumption.
Qed.
Lemma prec_sound c x y : precb (table c) x y = true -> precedes c x y.
Proof.
  unfold precb. intros H. apply orb_true_iff in H. destruct H as [H|H].
  - left. destruct (assoc x (table c)) as [[l r]|] eqn:E; [|discriminate]. apply assoc_in, table_in in E. destruct E as [E _]. apply inner_in in E. destruct E as [E1 E2]. apply inb_spec, E2 in H. split; apply rch_within; [exact E1|apply H].
  - right. apply existsb_exists in H. destruct H as [[k [l r]] [H1 H2]]. cbn [snd] in H2. apply table_in in H1. destruct H1 as [H1 ->]. apply inner_in in H1. destruct H1 as [H1 _]. unfold row in H2. apply (later_spec c x y) in H2.
    destruct H2 as [A [f [B [g [C [e1 [e2 [E R]]]]]]]]. exists k, A, f, B, g, C, e1, e2. split; [apply rch_within; exact H1|]. split; [exact E|exact R].
Qed.
Definition shut (c : string) : bool :=
  inb c (rch c) && closedb (rch c) && forallb (fun e => inb e (rch e) && closedb (rch e)) (rch c).
Lemma lone_sound c x : shut c = true -> repb (table c) x = false -> In x (sections c) -> SpecOrder.within c x -> lone c x.
Proof.
  intros S R Sx W. split; [exact W|]. intros [k [f [e [Wk [Hf [Fl [Ft We]]]]]]]. unfold shut in S. do 2 (apply andb_true_iff in S; destruct S as [S ?]).
  assert (Wc : SpecOrder.within c e) by (exact (SpecOrder.within_field c k f e Wk Hf Ft)).
  apply (within_closed c (rch c) S) in Wk; [|assumption]. apply (within_closed c (rch c) S) in Wc; [|assumption]. rewrite forallb_forall in H. specialize (H e Wc). apply andb_true_iff in H. destruct H as [H1 H2].
  apply (within_closed e (rch e) H1 H2) in We. destruct (inner_assoc c e Wc) as [l [El Hl]]. assert (Ix : In x l) by (apply Hl; auto). destruct (inner_assoc c k Wk) as [lk [Ek _]].
  assert (X : repb (table c) x = true); [|congruence]. unfold repb. apply existsb_exists. exists (k, (lk, row (inner c) k)). split.
  - unfold table. cbv zeta. apply in_map_iff. exists (k, lk). split; [reflexivity|]. apply assoc_in. exact Ek.
  - cbn [snd]. apply existsb_exists. exists (entry c f). split; [|unfold entry; rewrite Ft, El; cbn [fst snd]; rewrite Fl; apply inb_spec; exact Ix].
    unfold row. apply filter_In. split; [apply in_map_iff; exists f; auto|]. unfold entry. rewrite Ft, El. cbn [snd]. destruct l; [destruct Ix|reflexivity].
Qed.
(* the words of a message *)
Definition begins_z (t : str) : bool := match t with 122%N :: _ => true | _ => false end.
Definition wordsb (c : string) : bool :=
  forallb (fun k => forallb (fun t => negb (begins_z t) && negb (str_eqb t (lit "id")) && negb (str_eqb t (lit "version"))) (words k)) (rch c).
Definition comment_ok (d : string) : bool :=
  match find_elem kw_comment (fields_of d) with Some f => f_list f && match f_ty f with TStr => true | _ => false end && String.eqb (f_name f) "comment" | None => false end &&
  forallb (fun f => negb (String.eqb (f_name f) "comment") || f_list f) (fields_of d) &&
  match assoc "comment" (vars_of (new_obj d)) with Some (VList _) => true | _ => false end.
Definition checked (c : string) : bool :=
  let T := table c in let t := tree_of c in
  shut c && wordsb c && forallb (fun d => negb (mem_str kw_comment (keywords d)) || repb T d || inb d ["ManeuverParametersType"; "AttManeuverParametersType"; "UserDefinedType"] ||
                                  (comment_ok d && match pathb T c d 20 t with Some _ => true | None => false end)) (rch c).
Lemma plain_checked c : In c plain_types -> checked c = true.
Proof. intros H. repeat (destruct H as [<-|H]; [vm_cast_no_check (eq_refl true)|]). destruct H. Qed.
Lemma plain_pathed c d : In c plain_types -> section_of c d -> lone c d -> shut c = true /\ wordsb c = true /\ comment_ok d = true /\ exists Z, pathb (table c) c d 20 (tree_of c) = Some Z.
Proof.
  intros Hc [W [Hk Nd]] [_ Nr]. pose proof (plain_checked c Hc) as S. unfold checked in S. cbv zeta in S. do 2 (apply andb_true_iff in S; destruct S as [S ?]). split; [exact S|]. split; [assumption|].
  pose proof S as S2. unfold shut in S2. do 2 (apply andb_true_iff in S2; destruct S2 as [S2 ?]). pose proof (within_closed c (rch c) S2 H2 d W) as Id. rewrite forallb_forall in H. specialize (H d Id).
  apply orb_true_iff in H. destruct H as [H|H].
  - exfalso. apply orb_true_iff in H. destruct H as [H|H]; [|apply inb_spec in H; contradiction]. apply orb_true_iff in H. destruct H as [H|H]; [apply mem_str_spec in Hk; rewrite Hk in H; discriminate|].
    apply Nr. unfold repb in H. apply existsb_exists in H. destruct H as [[k [l r]] [H3 H4]]. apply table_in in H3. destruct H3 as [H3 ->]. apply inner_in in H3. destruct H3 as [H3 _]. cbn [snd] in H4. unfold row in H4. apply existsb_exists in H4.
    destruct H4 as [m [H4 H5]]. apply filter_In in H4. destruct H4 as [H4 _]. apply in_map_iff in H4. destruct H4 as [f [<- H4]]. apply andb_true_iff in H5. destruct H5 as [H5 H6]. apply inb_spec in H6. apply (entry_in c f) in H6. destruct H6 as [e [Et We]].
    exists k, f, e. split; [apply rch_within; exact H3|]. repeat split; assumption.
  - apply andb_true_iff in H. destruct H as [H3 H4]. split; [exact H3|]. destruct (pathb (table c) c d 20 (tree_of c)) as [Z|]; [exists Z; reflexivity|discriminate].
Qed.

(* ---- the way to the section, in a document in order ---- *)
Lemma plain_not_user c : In c plain_types -> String.eqb c "UserDefinedType" = false.
Proof. intros H. repeat (destruct H as [<-|H]; [reflexivity|]). destruct H. Qed.
Section Doc.
Variables (c d : string) (KA KB : list str) (J k0 ka : str) (q : nat).
Let p := List.length KA.
Let k1 := KA ++ J :: KB.
Hypothesis Hc : In c plain_types.
Hypothesis Hs : section_of c d.
Hypothesis Hj : unknown c J.
Hypothesis shutc : shut c = true.
Hypothesis ladder : forall a b h k x y, a < b -> nth_error k1 a = Some h -> nth_error k1 b = Some k -> h <> kw_comment -> k <> kw_comment ->
  lone c x -> In h (words x) -> SpecOrder.within c y -> In k (words y) -> x <> y -> ~ precedes c y x.
Hypothesis Hl : lone c d.
Hypothesis prev : nth_error k1 (p - 1) = Some ka.
Hypothesis Ika : In ka (keywords d).
Hypothesis ac : ka <> kw_comment.
Variable xk : str.
Hypothesis Ixk : In xk (keywords d).
Hypothesis Xroot : xk <> lit "id" /\ xk <> lit "version".
Definition okf (n : string) : Prop := xk = kw_comment \/ forall f, In f (fields_of d) -> kvn_name f = xk -> f_name f <> n.
Hypothesis Ik0 : In k0 (keywords d).
Hypothesis roots : forall a t, nth_error k1 a = Some t -> t = lit "id" \/ t = lit "version" -> a < p - 1.
Hypothesis inside : forall t a, In t (keywords d) -> t <> kw_comment -> nth_error k1 a = Some t -> a < q.
Definition aft0 (z s : elem) : Prop := (forall t, In t (e_kws z) -> In t (e_kws s) -> t = kw_comment) /\
  forall a b t1 t2, nth_error k1 a = Some t1 -> In t1 (e_kws s) -> t1 <> kw_comment -> nth_error k1 b = Some t2 -> In t2 (e_kws z) -> t2 <> kw_comment -> b <= a.
Definition member (z : elem) : Prop := In z (all_elems (tree_of c)) /\ e_cls z <> c.
Lemma fine_elem e : In e (all_elems (tree_of c)) -> ~ In (e_cls e) odd_classes /\ ~ In J (e_kws e) /\ (user e = false -> forall t, In t (e_kws e) -> userk t = false).
Proof. intros H. destruct (tree_fine c d J ka k1 q Hc Hj Hs Ika ac inside e H) as [A [B [_ [_ [D _]]]]]. split; [exact A|]. split; [exact B|]. intros U. apply D. exact U. Qed.
Lemma elem_within e : In e (all_elems (tree_of c)) -> SpecOrder.within c (e_cls e).
Proof.
  pose proof (tree_checked c (plain_root c Hc)) as T. unfold tree_chk in T. do 3 (apply andb_true_iff in T; destruct T as [T ?]). apply String.eqb_eq in H1.
  apply (within_elems c (tree_of c) T). rewrite H1. apply SpecOrder.within_self.
Qed.
Lemma member_words z t : member z -> In t (e_kws z) -> In t (words (e_cls z)).
Proof.
  intros [H N] I. pose proof (tree_checked c (plain_root c Hc)) as T. unfold tree_chk in T. do 3 (apply andb_true_iff in T; destruct T as [T ?]). rewrite forallb_forall in T. specialize (T z H). unfold elem_chk in T. cbv zeta in T.
  do 2 (apply andb_true_iff in T; destruct T as [T _]). apply andb_true_iff in T. destruct T as [_ T]. apply String.eqb_neq in N. rewrite N in T. cbn [orb] in T. unfold words. apply in_or_app. destruct (e_single z).
  - rewrite forallb_forall in T. right. apply mem_str_spec. apply T. exact I.
  - apply andb_true_iff in T. destruct T as [T _]. unfold same_strs in T. destruct (list_eq_dec _ _ _) as [E|]; [|discriminate]. left. rewrite <- E. exact I.
Qed.
Lemma root_kws : e_kws (tree_of c) = [lit "id"; lit "version"] /\ e_cls (tree_of c) = c /\ forall s, In s (e_subs (tree_of c)) -> forall z, In z (all_elems s) -> member z.
Proof.
  pose proof (tree_checked c (plain_root c Hc)) as T. unfold tree_chk in T. do 3 (apply andb_true_iff in T; destruct T as [T ?]). split; [unfold same_strs in H0; destruct (list_eq_dec _ _ _); [assumption|discriminate]|].
  split; [apply String.eqb_eq; exact H1|]. intros s Hx z Hz. split; [rewrite all_elems_eq; right; apply in_flat_map; exists s; auto|]. rewrite forallb_forall in H. specialize (H s Hx). rewrite forallb_forall in H. specialize (H z Hz).
  intros E. rewrite E, String.eqb_refl in H. discriminate.
Qed.
Lemma member_section z : member z -> In (e_cls z) (sections c).
Proof. intros [H _]. unfold sections. apply nodup_In. apply in_map. exact H. Qed.
Lemma aft_sound z s : member z -> member s -> aftb (table c) z s = true -> aft0 z s.
Proof.
  intros Mz Ms H. unfold aftb in H. do 3 (apply andb_true_iff in H; destruct H as [H ?]). rename H0 into H1, H1 into H2, H2 into H3. apply negb_true_iff in H, H2. apply String.eqb_neq in H. split.
  - intros t I1 I2. unfold disj in H1. rewrite forallb_forall in H1. specialize (H1 t I1). apply orb_true_iff in H1. destruct H1 as [X|X]; [apply str_eqb_eq; exact X|]. apply negb_true_iff in X. apply mem_str_false in X. contradiction.
  - intros a b t1 t2 A1 A2 A3 B1 B2 B3. destruct (le_lt_dec b a) as [L|L]; [exact L|]. exfalso.
    refine (ladder a b t1 t2 (e_cls s) (e_cls z) L A1 B1 A3 B3 _ (member_words s t1 Ms A2) (elem_within z (proj1 Mz)) (member_words z t2 Mz B2) _ (prec_sound c _ _ H3)).
    + apply lone_sound; [exact shutc|exact H2|apply member_section; exact Ms|apply elem_within; apply Ms].
    + intros X. apply H. symmetry. exact X.
Qed.
Lemma none_spec {A} (l : list A) : none l = true -> l = [].
Proof. destruct l; [reflexivity|discriminate]. Qed.
Lemma section_only t z : In t (keywords d) -> t <> kw_comment -> member z -> In t (e_kws z) -> e_cls z = d.
Proof.
  intros It Nt [H _] I. pose proof (section_sound c d t Hc Hs It Nt) as S4. unfold sound2 in S4. rewrite (proj2 (str_eqb_neq t kw_comment) Nt) in S4. cbn [orb] in S4. apply andb_true_iff in S4. destruct S4 as [_ S4].
  rewrite forallb_forall in S4. specialize (S4 z H). apply mem_str_spec in I. rewrite I in S4. cbn [negb orb] in S4. do 3 (apply andb_true_iff in S4; destruct S4 as [S4 ?]). apply String.eqb_eq. exact S4.
Qed.
Lemma free_other z : member z -> e_cls z <> d -> free xk (e_kws z).
Proof. intros M N. destruct (list_eq_dec N.eq_dec xk kw_comment) as [E|E]; [left; exact E|right]. intros I. exact (N (section_only xk z Ixk E M I)). Qed.
Lemma tail_sound l : forall Z Z', (forall z, In z Z -> member z) -> (forall s, In s l -> forall z, In z (all_elems s) -> member z) -> tailb (table c) d Z l = Some Z' -> tail_ok J xk aft0 Z l Z' /\ forall z, In z Z' -> member z.
Proof.
  induction l as [|s l IH]; intros Z Z' Mz Ml H; cbn [tailb] in H; [injection H as <-; split; [constructor|exact Mz]|].
  destruct ((e_islist s || none (e_subs s) && leafb (table c) d Z s || existsb (fun x => negb (e_islist x)) (e_subs s)) && (negb (usr s) || none l)) eqn:B; [|discriminate].
  apply andb_true_iff in B. destruct B as [B1 B2]. assert (Ms : member s) by (apply (Ml s (or_introl eq_refl)); rewrite all_elems_eq; left; reflexivity).
  destruct (IH (Z ++ all_elems s) Z') as [T M]; [|intros x Hx; apply Ml; right; exact Hx|exact H|split; [|exact M]].
  - intros z Hz. apply in_app_or in Hz. destruct Hz as [Hz|Hz]; [exact (Mz z Hz)|]. exact (Ml s (or_introl eq_refl) z Hz).
  - constructor; [| | |exact T].
    + intros z Hz. destruct (Ml s (or_introl eq_refl) z Hz) as [Iz _]. destruct (fine_elem z Iz) as [F1 [F2 F3]]. split; [exact F1|]. intros Uz. split; [exact F2|exact (F3 Uz)].
    + intros Il. rewrite Il in B1. cbn [orb] in B1. apply orb_true_iff in B1. destruct B1 as [B1|B1]; [left|right; exact B1]. apply andb_true_iff in B1. destruct B1 as [B1 B3]. split; [apply none_spec; exact B1|].
      unfold leafb in B3. destruct (user s) eqn:Us.
      * left. split; [exact Us|]. do 2 (apply andb_true_iff in B3; destruct B3 as [B3 ?]). split; [destruct (e_single s); [discriminate|reflexivity]|]. split; [|apply Nat.leb_le; assumption].
        intros t Ht. rewrite forallb_forall in H1. specialize (H1 t Ht). apply orb_true_iff in H1. destruct H1 as [X|X]; [left; apply str_eqb_eq; exact X|right; exact X].
      * right. split; [exact Us|]. do 2 (apply andb_true_iff in B3; destruct B3 as [B3 ?]). rename H0 into B4. split; [|split].
        -- apply orb_true_iff in B3. destruct B3 as [B3|B3]; apply negb_true_iff in B3; [left; exact B3|right; apply Nat.eqb_neq; exact B3].
        -- apply free_other; [exact Ms|]. apply String.eqb_neq, negb_true_iff. assumption.
        -- intros z Hz. rewrite forallb_forall in B4. apply aft_sound; [exact (Mz z Hz)|exact Ms|exact (B4 z Hz)].
    + apply orb_true_iff in B2. destruct B2 as [B2|B2]; [left; apply negb_true_iff; exact B2|right; apply none_spec; exact B2].
Qed.
Lemma low_sound z : member z -> lowb (table c) d z = true -> low1 KA KB J xk z.
Proof.
  intros M H. unfold lowb in H. do 2 (apply andb_true_iff in H; destruct H as [H ?]). apply negb_true_iff in H, H1. apply String.eqb_neq in H1. destruct (fine_elem z (proj1 M)) as [F1 [F2 _]]. split; [exact F1|]. split; [exact H|]. split; [split; [exact F2|apply free_other; assumption]|].
  intros a t A I N. fold p. fold k1 in A. destruct (Nat.lt_total a (p - 1)) as [L|[L|L]]; [exact L| |]; exfalso.
  - subst a. assert (t = ka) by congruence. subst t. exact (H1 (section_only ka z Ika ac M I)).
  - refine (ladder (p - 1) a ka t d (e_cls z) L prev A ac N Hl _ (elem_within z (proj1 M)) (member_words z t M I) _ (prec_sound c _ _ H0)).
    + unfold words. apply in_or_app. left. exact Ika.
    + intros X. apply H1. symmetry. exact X.
Qed.
Lemma root_low : low1 KA KB J xk (tree_of c).
Proof.
  assert (I : In (tree_of c) (all_elems (tree_of c))) by (rewrite all_elems_eq; left; reflexivity). destruct (fine_elem _ I) as [F1 [F2 _]]. destruct root_kws as [K1 [K2 _]]. split; [exact F1|]. split.
  - unfold user. rewrite K2. apply plain_not_user. exact Hc.
  - split; [split; [exact F2|right; rewrite K1; intros [X|[X|[]]]; destruct Xroot; congruence]|]. intros a t A It _. rewrite K1 in It. apply (roots a t A). destruct It as [<-|[<-|[]]]; auto.
Qed.
Lemma path_sound n : forall e Z, (member e \/ e = tree_of c) -> (forall s, In s (e_subs e) -> forall z, In z (all_elems s) -> member z) -> pathb (table c) c d n e = Some Z ->
  path KA KB J k0 xk ka q aft0 d okf e Z /\ forall z, In z Z -> member z.
Proof.
  induction n as [|n IH]; intros e Z He Hsub H; [discriminate|]. cbn [pathb] in H. destruct (String.eqb_spec (e_cls e) d) as [Ed|Ed].
  - destruct (negb (user e) && match e_single e with None => true | _ => false end && same_strs (e_kws e) (keywords d) && namesb d e) eqn:B; [|discriminate]. do 3 (apply andb_true_iff in B; destruct B as [B ?]). apply negb_true_iff in B. rename H0 into Nb, H1 into H0.
    unfold same_strs in H0. destruct (list_eq_dec _ _ _) as [Ek|]; [|discriminate].
    assert (Me : member e).
    { destruct He as [He| ->]; [exact He|]. exfalso. destruct root_kws as [K1 _]. rewrite K1 in Ek. destruct Hs as [_ [Hk _]]. rewrite <- Ek in Hk. destruct Hk as [X|[X|[]]]; vm_compute in X; discriminate. }
    destruct (tail_sound (e_subs e) [e] Z) as [T M]; [intros z [<-|[]]; exact Me|exact Hsub|exact H|]. split; [|exact M]. destruct (fine_elem e (proj1 Me)) as [F1 [F2 F3]]. apply path_here; [|exact Ed|exact (F3 B)| |exact T].
    { split; [exact F1|]. split; [exact B|]. split; [exact F2|]. split; [destruct (e_single e); [discriminate|reflexivity]|]. rewrite Ek. split; [exact Ika|]. split; [exact Ik0|]. split; [split; [apply Hs|exact Ixk]|]. exact inside. }
    intros n0 Hn. right. intros f If Kf Q. apply in_map_iff in Hn. destruct Hn as [s [Es Is]]. unfold namesb in Nb. rewrite forallb_forall in Nb. specialize (Nb s Is). rewrite forallb_forall in Nb. specialize (Nb f If).
    rewrite Kf, (proj2 (mem_str_spec xk (keywords d)) Ixk) in Nb. cbn [negb orb] in Nb. apply negb_true_iff in Nb. apply String.eqb_neq in Nb. congruence.
  - destruct (lowb (table c) d e || String.eqb (e_cls e) c) eqn:B; [|discriminate].
    assert (Le : low1 KA KB J xk e).
    { destruct He as [He| ->]; [|exact root_low]. apply low_sound; [exact He|]. apply orb_true_iff in B. destruct B as [B|B]; [exact B|]. apply String.eqb_eq in B. destruct He. contradiction. }
    assert (G : forall ss pre, e_subs e = pre ++ ss -> (fix go (pre ss : list elem) : option (list elem) :=
         match ss with
         | [] => None
         | s :: r => if existsb (fun z => String.eqb (e_cls z) d) (all_elems s) then
                       if negb (e_islist s) && forallb (fun x => forallb (lowb (table c) d) (all_elems x)) pre && (negb (usr s) || none r) && negb (inb (e_name s) (map e_name r)) then
                         match pathb (table c) c d n s with Some Zs => tailb (table c) d Zs r | None => None end
                       else None
                     else go (pre ++ [s]) r
         end) pre ss = Some Z -> path KA KB J k0 xk ka q aft0 d okf e Z /\ forall z, In z Z -> member z); [|exact (G (e_subs e) [] eq_refl H)].
    clear H. induction ss as [|s r IHs]; intros pre Es H; [discriminate|]. destruct (existsb (fun z => String.eqb (e_cls z) d) (all_elems s)).
    + destruct (negb (e_islist s) && forallb (fun x => forallb (lowb (table c) d) (all_elems x)) pre && (negb (usr s) || none r) && negb (inb (e_name s) (map e_name r))) eqn:C; [|discriminate].
      do 3 (apply andb_true_iff in C; destruct C as [C ?]). destruct (pathb (table c) c d n s) as [Zs|] eqn:Ps; [|discriminate].
      assert (Is : In s (e_subs e)) by (rewrite Es; apply in_or_app; right; left; reflexivity).
      destruct (IH s Zs) as [Pa Ma]; [left; apply (Hsub s Is); rewrite all_elems_eq; left; reflexivity| |exact Ps|].
      { intros x Hx z Hz. apply (Hsub s Is). rewrite all_elems_eq. right. apply in_flat_map. exists x. auto. }
      destruct (tail_sound r Zs Z Ma) as [T M]; [|exact H|].
      { intros x Hx. apply Hsub. rewrite Es. apply in_or_app. right. right. exact Hx. }
      split; [|exact M]. apply (path_down KA KB J k0 xk ka q aft0 d okf e pre s r Zs Z Es Le).
      * apply Forall_forall. intros x Hx z Hz. assert (Ix : In x (e_subs e)) by (rewrite Es; apply in_or_app; left; exact Hx). apply low_sound; [exact (Hsub x Ix z Hz)|].
        rewrite forallb_forall in H2. specialize (H2 x Hx). rewrite forallb_forall in H2. exact (H2 z Hz).
      * apply negb_true_iff. exact C.
      * exact Pa.
      * apply orb_true_iff in H1. destruct H1 as [X|X]; [left; apply negb_true_iff; exact X|right; apply none_spec; exact X].
      * exact T.
      * intros X. apply inb_spec in X. rewrite X in H0. discriminate.
    + apply (IHs (pre ++ [s])); [rewrite <- app_assoc; exact Es|exact H].
Qed.
Lemma tree_path n Z : pathb (table c) c d n (tree_of c) = Some Z -> path KA KB J k0 xk ka q aft0 d okf (tree_of c) Z.
Proof. intros H. destruct root_kws as [_ [_ R]]. exact (proj1 (path_sound n (tree_of c) Z (or_intror eq_refl) R H)). Qed.
End Doc.

(* ---- documents ---- *)
Lemma comment_lex raw s : comments raw s -> lex_line raw = Some [kw_comment; s].
Proof.
  intros [w [b [-> [Bw [Cb [Ns Ne]]]]]]. replace (w ++ kw_comment ++ b) with (w ++ (kw_comment ++ b) ++ []) by (rewrite app_nil_r; reflexivity). rewrite lex_line_pad; [|exact Bw|intros x []].
  rewrite lex_line_comment_gen. apply strip_of_core in Cb. rewrite Cb. apply startswith_false in Ne. rewrite Ne. reflexivity.
Qed.
Lemma pair_ins {A} (KA KB : list A) J a b h k : a < b -> a <> List.length KA -> b <> List.length KA -> nth_error (KA ++ J :: KB) a = Some h -> nth_error (KA ++ J :: KB) b = Some k ->
  exists X Y, KA ++ KB = X ++ h :: Y /\ In k Y.
Proof.
  intros L Na Nb Ha Hb. destruct (le_lt_dec (List.length KA) a) as [La|La].
  - rewrite nth_error_app2 in Ha, Hb by lia. destruct (a - List.length KA) as [|m] eqn:Em; [lia|]. destruct (b - List.length KA) as [|n] eqn:En; [lia|]. cbn [nth_error] in Ha, Hb.
    destruct (nth_error_split KB m Ha) as [X [Y [E Lx]]]. exists (KA ++ X), Y. split; [rewrite E, <- app_assoc; reflexivity|]. rewrite E in Hb. rewrite nth_error_app2 in Hb by lia.
    destruct (n - List.length X) as [|r] eqn:Er; [lia|]. cbn [nth_error] in Hb. eapply nth_error_In. exact Hb.
  - rewrite nth_error_app1 in Ha by exact La. destruct (nth_error_split KA a Ha) as [X [Y [E Lx]]]. exists X, (Y ++ KB). split; [rewrite E, <- app_assoc; reflexivity|].
    destruct (le_lt_dec (List.length KA) b) as [Lb|Lb].
    + rewrite nth_error_app2 in Hb by exact Lb. destruct (b - List.length KA) as [|n] eqn:En; [lia|]. cbn [nth_error] in Hb. apply in_or_app. right. eapply nth_error_In. exact Hb.
    + rewrite nth_error_app1 in Hb by exact Lb. rewrite E in Hb. rewrite nth_error_app2 in Hb by lia. destruct (b - List.length X) as [|r] eqn:Er; [lia|]. cbn [nth_error] in Hb. apply in_or_app. left. eapply nth_error_In. exact Hb.
Qed.
(* a word that is in no message and in no given list *)
Definition fresh (ks : list str) : str := repeat 122%N (S (list_max (map (@List.length N) ks))).
Lemma fresh_not ks : ~ In (fresh ks) ks.
Proof.
  intros H. assert (L : List.length (fresh ks) <= list_max (map (@List.length N) ks)).
  { pose proof (proj1 (list_max_le (map (@List.length N) ks) _) (le_n _)) as F. rewrite Forall_forall in F. apply F. apply in_map. exact H. }
  unfold fresh in L at 1. rewrite repeat_length in L. lia.
Qed.
Lemma fresh_chars ks x : In x (fresh ks) -> x = 122%N.
Proof. unfold fresh. intros H. apply repeat_spec in H. exact H. Qed.
Lemma fresh_unknown c ks : In c plain_types -> shut c = true -> wordsb c = true -> unknown c (fresh ks).
Proof.
  intros Hc S W. unfold fresh. cbn [repeat]. split; [discriminate|]. split; [intros [r X]; discriminate|]. split; [discriminate|]. split; [discriminate|].
  intros d Wd. unfold shut in S. do 2 (apply andb_true_iff in S; destruct S as [S ?]). apply (within_closed c (rch c) S) in Wd; [|assumption]. unfold wordsb in W. rewrite forallb_forall in W. specialize (W d Wd). rewrite forallb_forall in W.
  assert (X : forall r, ~ In (122%N :: r) (words d)) by (intros r X; specialize (W _ X); discriminate). split; intros Y; apply (X (repeat 122%N (list_max (map (@List.length N) ks)))); unfold words; apply in_or_app; auto.
Qed.
Lemma fresh_heads ks : heads (fresh ks) (fresh ks).
Proof.
  apply heads_bare; [intros X; apply fresh_chars in X; discriminate| |discriminate|intros [r X]; discriminate]. apply core_of. apply strip_trimmed. split.
  - intros x r E. assert (X : In x (fresh ks)) by (rewrite E; left; reflexivity). apply fresh_chars in X. subst x. reflexivity.
  - intros x r E. assert (X : In x (fresh ks)) by (rewrite E; apply in_or_app; right; left; reflexivity). apply fresh_chars in X. subst x. reflexivity.
Qed.
Lemma heads_of_app a b : heads_of (a ++ b) = heads_of a ++ heads_of b.
Proof. unfold heads_of, keys_of. rewrite filter_map_app, map_app. reflexivity. Qed.
Lemma heads_of_blank g : Forall blank g -> heads_of g = [].
Proof. intros H. unfold heads_of. rewrite filter_map_blank by exact H. reflexivity. Qed.
Lemma heads_of_one r h rs : heads r h -> heads_of (r :: rs) = h :: heads_of rs.
Proof. intros H. apply heads_lex in H. destruct H as [vs E]. unfold heads_of. cbn [filter_map]. rewrite E. reflexivity. Qed.
Definition calmb (c : string) : bool := forallb (fun d => String.eqb d "UserDefinedType" || forallb (fun t => negb (userk t)) (keywords d)) (rch c).
Lemma plain_calm c : In c plain_types -> calmb c = true.
Proof. intros H. repeat (destruct H as [<-|H]; [vm_compute; reflexivity|]). destruct H. Qed.
Lemma assoc_split {A} n (l : list (string * A)) v : assoc n l = Some v -> exists pre post, l = pre ++ (n, v) :: post /\ ~ In n (map fst pre).
Proof.
  induction l as [|[m w] l IH]; cbn [assoc]; [discriminate|]. destruct (String.eqb m n) eqn:E; intros H.
  - apply String.eqb_eq in E. injection H as ->. subst m. exists [], l. split; [reflexivity|intros []].
  - destruct (IH H) as [pre [post [-> N]]]. exists ((m, w) :: pre), post. split; [reflexivity|]. intros [X|X]; [|exact (N X)]. cbn in X. subst m. rewrite String.eqb_refl in E. discriminate.
Qed.

(* one more line between two lines of a section *)
Lemma line_put u c id d ka k xk xs n (R : pyval -> pyval -> Prop) blanks first pre prev gap1 raw gap2 next mid rest head v :
  In c plain_types -> class_fixed c "id" = Some id -> Forall blank blanks -> heads first (lit id) ->
  section_of c d -> lone c d -> In ka (keywords d) -> ka <> kw_comment -> heads prev ka -> In k (keywords d) -> k <> kw_comment -> heads next k ->
  Forall blank gap1 -> Forall blank gap2 -> lex_line raw = Some (xk :: xs) -> In xk (keywords d) -> mem_char c_sp xk = false ->
  (xk = kw_comment \/ forall r, In r (head ++ rest) -> ~ heads r xk) -> head = pre ++ prev :: gap1 ++ gap2 ++ next :: mid ->
  said_once head -> (forall r h, In r head -> heads r h -> no_char c_sp h) -> (forall r h, In r (head ++ rest) -> heads r h -> h <> lit "id" /\ h <> lit "version") ->
  (forall r h, In r rest -> heads r h -> In h (keywords d) -> h = kw_comment) -> user_last (head ++ rest) -> in_order c (head ++ rest) ->
  Forall one_line (blanks ++ first :: pre ++ prev :: gap1 ++ raw :: gap2 ++ next :: mid ++ rest) ->
  (forall g1 g2 v, (forall l, In l (g1 ++ g2) -> xk = kw_comment \/ key_of l <> xk) -> parse_list u d None (g1 ++ g2) = Ok v ->
    exists A B, v = VObj d A /\ parse_list u d None (g1 ++ (xk :: xs) :: g2) = Ok (VObj d B) /\ differ R n A B) ->
  (forall m sub A A' B, okf d xk m -> differ R n A B -> attach m sub A = Ok A' -> exists B', attach m sub B = Ok B' /\ differ R n A' B') ->
  kvn_from_string u (text_of (blanks ++ first :: pre ++ prev :: gap1 ++ gap2 ++ next :: mid ++ rest)) = Ok v ->
  exists w, kvn_from_string u (text_of (blanks ++ first :: pre ++ prev :: gap1 ++ raw :: gap2 ++ next :: mid ++ rest)) = Ok w /\ put_at d n R v w.
Proof.
  intros Hc Ei Bb Hf Hs Hl Ia Na Hp Ik Nk Hn Bg1 Bg2 Lc Ixk Xsp Xno Eh So Th Re Rd Ul Io O Hpi Hat H.
  destruct (plain_pathed c d Hc Hs Hl) as [Sh [Wo [Co [Zp Pa]]]].
  set (front := pre ++ prev :: gap1 ++ gap2). assert (Ef : front ++ next :: mid = head) by (unfold front; rewrite Eh, <- app_assoc; cbn [app]; rewrite <- app_assoc; reflexivity).
  assert (Efr : front ++ next :: mid ++ rest = head ++ rest) by (rewrite <- Ef, <- app_assoc; reflexivity).
  assert (Ed : pre ++ prev :: gap1 ++ gap2 ++ next :: mid ++ rest = front ++ next :: mid ++ rest) by (unfold front; rewrite <- app_assoc; cbn [app]; rewrite <- app_assoc; reflexivity).
  rewrite Ed in H. set (J := fresh (heads_of (head ++ rest))).
  assert (Jn : ~ In J (heads_of (head ++ rest))) by apply fresh_not.
  assert (Ju : unknown c J) by (apply fresh_unknown; assumption).
  assert (O1 : Forall one_line (blanks ++ first :: front ++ J :: next :: mid ++ rest)).
  { apply Forall_app in O. destruct O as [O1 O]. inversion O as [|? ? O2 O3]. subst. apply Forall_app in O3. destruct O3 as [O3 O4]. inversion O4 as [|? ? O5 O6]. subst. apply Forall_app in O6. destruct O6 as [O6 O7].
    inversion O7 as [|? ? O8 O9]. subst. apply Forall_app in O9. destruct O9 as [O9 O10]. apply Forall_app. split; [exact O1|]. constructor; [exact O2|]. apply Forall_app. split.
    - unfold front. apply Forall_app. split; [exact O3|]. constructor; [exact O5|]. apply Forall_app. auto.
    - constructor; [|exact O10]. intros X. apply fresh_chars in X. discriminate. }
  assert (HJ : kvn_from_string u (text_of (blanks ++ first :: front ++ J :: next :: mid ++ rest)) = Ok v).
  { apply (C57_unknown_line u c id d J k blanks first front J next mid rest v); try assumption.
    - intros X. apply fresh_chars in X. discriminate.
    - apply fresh_heads.
    - rewrite Efr. intros r Ir X. apply Jn. apply in_split in Ir. destruct Ir as [A [B ->]]. rewrite heads_of_app, (heads_of_one r J B X). apply in_or_app. right. left. reflexivity.
    - rewrite Ef. exact So.
    - rewrite Ef. intros r h Ir X. split; [exact (Th r h Ir X)|]. apply (Re r h); [apply in_or_app; left; exact Ir|exact X].
    - rewrite Efr. exact Ul. }
  clear H Ed. revert HJ.
  pose proof (heads_lex _ _ Hf) as [vs Lf]. pose proof (heads_lex _ _ (fresh_heads (heads_of (head ++ rest)))) as [jv Lj]. fold J in Lj. pose proof (heads_lex _ _ Hn) as [kv Lk]. pose proof (heads_lex _ _ Hp) as [av La].
  unfold kvn_from_string, pre_process, text_of. rewrite !lex_lines_join by (try assumption; destruct blanks; discriminate).
  rewrite !gap_lex by exact Bb. cbn [filter_map]. rewrite Lf, !filter_map_app. cbn [filter_map]. rewrite Lj, Lk, La, !filter_map_app. cbn [filter_map]. rewrite Lc, !filter_map_app, (filter_map_blank gap1), (filter_map_blank gap2) by assumption. cbn [filter_map app]. rewrite Lk, !filter_map_app. cbn [split_first bind].
  assert (Fe : find_element (lit id) = Some c).
  { pose proof (plain_root c Hc) as H. clear - H Ei. repeat (destruct H as [<-|H]; [vm_compute in Ei; injection Ei as <-; vm_compute; reflexivity|]). destruct H. }
  assert (Ff : filter_map lex_line front = filter_map lex_line pre ++ [ka :: av]).
  { unfold front. rewrite filter_map_app. cbn [filter_map]. rewrite La, filter_map_app, (filter_map_blank gap1), (filter_map_blank gap2) by assumption. reflexivity. }
  set (LA := [lit "id"; lit id] :: (lit "version" :: vs) :: filter_map lex_line front). set (LB := (k :: kv) :: filter_map lex_line mid ++ filter_map lex_line rest).
  change (read_lines u (LA ++ (J :: jv) :: LB) = Ok v -> exists w, read_lines u ([lit "id"; lit id] :: (lit "version" :: vs) :: filter_map lex_line pre ++ (ka :: av) :: (xk :: xs) :: LB) = Ok w /\ put_at d n R v w).
  replace ([lit "id"; lit id] :: (lit "version" :: vs) :: filter_map lex_line pre ++ (ka :: av) :: (xk :: xs) :: LB) with (LA ++ (xk :: xs) :: LB) by (unfold LA; rewrite Ff; cbn [app]; rewrite <- app_assoc; reflexivity).
  unfold read_lines. assert (I1 : identify_data_type (LA ++ (J :: jv) :: LB) = Ok c) by (change (guard_opt (find_element (lit id)) AttributeError = Ok c); rewrite Fe; reflexivity).
  assert (I2 : identify_data_type (LA ++ (xk :: xs) :: LB) = Ok c) by (change (guard_opt (find_element (lit id)) AttributeError = Ok c); rewrite Fe; reflexivity).
  rewrite I1, I2. cbn [bind]. rewrite (init_object_map_ok c (plain_root c Hc)). cbn [bind].
  assert (Dk : forall m, delete_keywords c m = m).
  { pose proof (plain_sound c Hc) as S. unfold sound in S. cbv zeta in S. do 2 (apply andb_true_iff in S; destruct S as [S _]). apply andb_true_iff in S. destruct S as [_ S].
    intros m. unfold delete_keywords. destruct (deleted_keywords c); [|discriminate]. clear. induction m as [|a m IH]; [reflexivity|]. cbn. f_equal. exact IH. }
  rewrite !Dk. clear I1 I2 Dk. intros H. inv_ok H.
  set (KA := keys_of LA). set (KB := keys_of LB).
  assert (KAe : KA = lit "id" :: lit "version" :: heads_of front) by reflexivity.
  assert (KAl : KA = (lit "id" :: lit "version" :: heads_of pre) ++ [ka]).
  { rewrite KAe. unfold front. rewrite heads_of_app, (heads_of_one prev ka _ Hp), heads_of_app, (heads_of_blank gap1), (heads_of_blank gap2) by assumption. reflexivity. }
  assert (KBe : KB = heads_of (next :: mid) ++ heads_of rest).
  { unfold KB, LB. rewrite (heads_of_one next k mid Hn). unfold heads_of, keys_of. cbn [map]. rewrite map_app. reflexivity. }
  assert (Kall : KA ++ KB = lit "id" :: lit "version" :: heads_of (head ++ rest)).
  { rewrite KAe, KBe, <- heads_of_app. rewrite <- Efr. cbn [app]. do 2 f_equal. rewrite <- heads_of_app. f_equal. }
  assert (Khead : heads_of front ++ heads_of (next :: mid) = heads_of head) by (rewrite <- heads_of_app, Ef; reflexivity).
  set (q := List.length (KA ++ J :: heads_of (next :: mid))).
  assert (Kq : KA ++ J :: KB = (KA ++ J :: heads_of (next :: mid)) ++ heads_of rest) by (rewrite KBe, <- app_assoc; reflexivity).
  assert (Kn : forall a, a < q -> nth_error (KA ++ J :: KB) a = nth_error (KA ++ J :: heads_of (next :: mid)) a) by (intros i L; rewrite Kq; apply nth_app_lt; exact L).
  assert (Kj : forall i, nth_error (KA ++ J :: KB) i = Some J -> i = List.length KA).
  { intros i X. destruct (Nat.eq_dec i (List.length KA)) as [Q|Q]; [exact Q|]. exfalso. assert (Y : In J (KA ++ KB)).
    { destruct (le_lt_dec (List.length KA) i) as [L|L].
      - rewrite nth_error_app2 in X by exact L. destruct (i - List.length KA) as [|m] eqn:Em; [lia|]. cbn [nth_error] in X. apply in_or_app. right. eapply nth_error_In. exact X.
      - rewrite nth_error_app1 in X by exact L. apply in_or_app. left. eapply nth_error_In. exact X. }
    rewrite Kall in Y. destruct Ju as [_ [_ [J3 [J4 _]]]]. destruct Y as [Y|[Y|Y]]; [exact (J3 (eq_sym Y))|exact (J4 (eq_sym Y))|exact (Jn Y)]. }
  assert (KJ : nth_error (KA ++ J :: KB) (List.length KA) = Some J) by (rewrite nth_error_app2, Nat.sub_diag by lia; reflexivity).
  assert (Lp : List.length KA - 1 = List.length (lit "id" :: lit "version" :: heads_of pre)) by (rewrite KAl, app_length; cbn [List.length]; lia).
  assert (Pk : nth_error (KA ++ J :: KB) (List.length KA - 1) = Some ka).
  { rewrite nth_error_app1 by (rewrite KAl, app_length; cbn [List.length]; lia). rewrite Lp, KAl, nth_error_app2, Nat.sub_diag by lia. reflexivity. }
  assert (T1 : forall h, In h (heads_of (head ++ rest)) -> h <> lit "id" /\ h <> lit "version").
  { intros h Hh. apply heads_of_in in Hh. destruct Hh as [r [X Y]]. exact (Re r h X Y). }
  assert (T2 : forall h, In h (heads_of head) -> no_char c_sp h).
  { intros h Hh. apply heads_of_in in Hh. destruct Hh as [r [X Y]]. exact (Th r h X Y). }
  assert (Hq : forall t a, In t (keywords d) -> t <> kw_comment -> nth_error (KA ++ J :: KB) a = Some t -> a < q).
  { intros t i Ht Nt Ha. destruct (le_lt_dec q i) as [L|L]; [|exact L]. exfalso. rewrite Kq in Ha. rewrite nth_error_app2 in Ha by exact L. apply nth_error_In in Ha. apply heads_of_in in Ha. destruct Ha as [r [X Y]]. exact (Nt (Rd r t X Y Ht)). }
  assert (Jw : forall x, SpecOrder.within c x -> ~ In J (words x)).
  { intros x Wx X. destruct Ju as [_ [_ [_ [_ J5]]]]. destruct (J5 x Wx) as [J6 J7]. unfold words in X. apply in_app_or in X. destruct X; contradiction. }
  assert (Iw : forall x h, SpecOrder.within c x -> In h (words x) -> h <> lit "id" /\ h <> lit "version").
  { intros x h Wx X. unfold shut in Sh. do 2 (apply andb_true_iff in Sh; destruct Sh as [Sh ?]). apply (within_closed c (rch c) Sh) in Wx; [|assumption]. unfold wordsb in Wo. rewrite forallb_forall in Wo. specialize (Wo x Wx). rewrite forallb_forall in Wo.
    specialize (Wo h X). do 2 (apply andb_true_iff in Wo; destruct Wo as [Wo ?]). split; apply str_eqb_neq, negb_true_iff; assumption. }
  assert (Xroot : xk <> lit "id" /\ xk <> lit "version") by (apply (Iw d); [exact (proj1 Hl)|unfold words; apply in_or_app; left; exact Ixk]).
  assert (Two : forall (R : str -> str -> Prop), (forall a r b s e h k, head ++ rest = a ++ r :: b ++ s :: e -> heads r h -> heads s k -> R h k) ->
    forall a b h k0, a < b -> nth_error (KA ++ J :: KB) a = Some h -> nth_error (KA ++ J :: KB) b = Some k0 -> h <> J -> k0 <> J -> h <> lit "id" -> h <> lit "version" -> R h k0).
  { intros Rr HR a0 b0 h k0 L Ha Hb N1 N2 N3 N4. destruct (pair_ins KA KB J a0 b0 h k0 L) as [X [Y [E1 E2]]]; try assumption; [intros Q; subst a0; congruence|intros Q; subst b0; congruence|]. rewrite Kall in E1.
    destruct X as [|x1 X]; injection E1 as Q1 E1; [congruence|]. destruct X as [|x2 X]; injection E1 as Q2 E1; [congruence|]. exact (heads_of_pairs Rr (head ++ rest) HR X h Y k0 E1 E2). }
  assert (U2 : forall a0 h, first_user (KA ++ J :: KB) <= a0 -> nth_error (KA ++ J :: KB) a0 = Some h -> h <> J -> h = kw_comment \/ userk h = true).
  { intros a0 h L1 Ha Nj. destruct (first_user_at (KA ++ J :: KB)) as [h0 [X Y]].
    { assert (a0 < List.length (KA ++ J :: KB)) by (apply nth_error_Some; congruence). lia. }
    destruct (Nat.eq_dec a0 (first_user (KA ++ J :: KB))) as [E1|N1]; [subst a0; right; congruence|].
    refine (Two (fun h k => userk h = true -> k = kw_comment \/ userk k = true) _ _ a0 h0 h _ X Ha _ Nj _ _ Y).
    - intros a3 r b s0 e0 h1 k2 E2 X1 X2 X3. apply startswith_spec in X3. destruct (Ul a3 r b s0 e0 h1 k2 E2 X1 X3 X2) as [Z|Z]; [left; exact Z|right; apply startswith_spec; exact Z].
    - lia.
    - intros Q. rewrite Q in Y. destruct Ju as [_ [J2 _]]. apply J2. apply startswith_spec. exact Y.
    - intros Q. rewrite Q in Y. discriminate.
    - intros Q. rewrite Q in Y. discriminate. }
  assert (Kk : nth_error (KA ++ J :: KB) (S (List.length KA)) = Some k).
  { rewrite nth_error_app2 by lia. replace (S (List.length KA) - List.length KA) with 1 by lia. reflexivity. }
  assert (Uall : forall t, In t (keywords d) -> userk t = false).
  { pose proof (plain_calm c Hc) as S4. unfold calmb in S4. rewrite forallb_forall in S4. destruct Hs as [W [_ Nd]]. pose proof Sh as S5. unfold shut in S5. do 2 (apply andb_true_iff in S5; destruct S5 as [S5 ?]).
    apply (within_closed c (rch c) S5) in W; [|assumption]. specialize (S4 d W). apply orb_true_iff in S4. destruct S4 as [S4|S4]; [exfalso; apply Nd; apply String.eqb_eq in S4; subst d; repeat ((left; reflexivity) || right)|].
    rewrite forallb_forall in S4. intros t It. apply negb_true_iff. exact (S4 t It). }
  pose proof (Uall k Ik) as Uk.
  assert (pU : S (List.length KA) < first_user (KA ++ J :: KB)).
  { destruct (le_lt_dec (first_user (KA ++ J :: KB)) (S (List.length KA))) as [L|L]; [|exact L]. exfalso. destruct (U2 _ k L Kk) as [Q|Q]; [|contradiction|congruence]. intros Q. subst k. pose proof (Kj _ Kk). lia. }
  assert (lad : forall a b h k x y, a < b -> nth_error (KA ++ J :: KB) a = Some h -> nth_error (KA ++ J :: KB) b = Some k -> h <> kw_comment -> k <> kw_comment ->
     lone c x -> In h (words x) -> SpecOrder.within c y -> In k (words y) -> x <> y -> ~ precedes c y x).
  { intros a0 b0 h k3 x y L Ha Hb N1 N2 Lx Ix Wy Iy Nxy. destruct (Iw x h (proj1 Lx) Ix) as [I1 I2].
    refine (Two (fun h k3 => In h (words x) -> In k3 (words y) -> h <> kw_comment -> k3 <> kw_comment -> ~ precedes c y x) _ a0 b0 h k3 L Ha Hb _ _ I1 I2 Ix Iy N1 N2).
    - intros a3 r b3 s3 e3 h3 k4 E3 X1 X2 X3 X4 X5 X6. exact (Io a3 r b3 s3 e3 h3 k4 x y E3 X1 X2 X5 X6 Lx X3 Wy X4 Nxy).
    - intros Q. subst h. exact (Jw x (proj1 Lx) Ix).
    - intros Q. subst k3. exact (Jw y Wy Iy). }
  assert (Pth : path KA KB J k xk ka q (aft0 KA KB J) d (okf d xk) (tree_of c) Zp).
  { apply (tree_path c d KA KB J k ka q) with (n := 20) (xk := xk); try assumption.
    intros i t Hi Ht. destruct i as [|[|i]]; [rewrite Lp; cbn [List.length]; lia|rewrite Lp; cbn [List.length]; lia|]. exfalso.
    rewrite KAe in Hi. cbn [app nth_error] in Hi. apply nth_error_In in Hi. assert (X : t = J \/ In t (heads_of (head ++ rest))).
    { rewrite <- Efr, heads_of_app. change (next :: mid ++ rest) with ((next :: mid) ++ rest). rewrite heads_of_app, <- KBe. apply in_app_or in Hi. destruct Hi as [Hi|[Hi|Hi]]; [right; apply in_or_app; left; exact Hi|left; congruence|right; apply in_or_app; right; exact Hi]. }
    destruct Ju as [_ [_ [J3 [J4 _]]]]. destruct X as [->|X]; [destruct Ht as [Ht|Ht]; [exact (J3 Ht)|exact (J4 Ht)]|]. destruct (T1 t X) as [X1 X2]. destruct Ht as [Ht|Ht]; [exact (X1 Ht)|exact (X2 Ht)]. }
  assert (Jc : J <> kw_comment) by apply Ju.
  assert (Jin : In J (KA ++ J :: heads_of (next :: mid))) by (apply in_or_app; right; left; reflexivity).
  assert (XJ : xk <> J) by (intros Q; apply (Jw d (proj1 Hl)); rewrite <- Q; unfold words; apply in_or_app; left; exact Ixk).
  assert (Xnew : xk = kw_comment \/ ~ In xk (KA ++ KB)).
  { destruct Xno as [Q|Q]; [left; exact Q|right]. rewrite Kall. intros [X|[X|X]]; [exact (proj1 Xroot (eq_sym X))|exact (proj2 Xroot (eq_sym X))|]. apply heads_of_in in X. destruct X as [r [X Y]]. exact (Q r X Y). }
  destruct (object_put KA KB J k (keys_of (filter_map lex_line mid ++ filter_map lex_line rest)) eq_refl xk Xnew Xsp (Uall xk Ixk) XJ Jc Nk ka) with (q := q) (u := u) (y1 := LA ++ (J :: jv) :: LB) (y2 := LA ++ (xk :: xs) :: LB)
     (U := first_user (KA ++ J :: KB)) (aft := aft0 KA KB J) (sec := d) (okn := okf d xk) (LA := LA) (LB := LB) (jl := J :: jv) (xl := xk :: xs) (fn := n) (R := R) (e := tree_of c) (Z := Zp) (t := a) (v := v) as [R1 [w [R2 R3]]].
  - rewrite KAl, app_length. cbn [List.length]. lia.
  - exact Pk.
  - exact Na.
  - unfold q. rewrite app_length, (heads_of_one next k mid Hn). cbn [List.length]. lia.
  - assert (X : forall a0 b0 k1, a0 < b0 -> b0 < q -> nth_error (KA ++ J :: KB) a0 = Some k1 -> nth_error (KA ++ J :: KB) b0 = Some k1 -> k1 <> kw_comment -> False).
    { intros a0 b0 k1 L Lb Ha Hb N. assert (Nj : k1 <> J) by (intros Q; subst k1; apply Kj in Ha; apply Kj in Hb; lia).
      pose proof Ha as Ha'. pose proof Hb as Hb'. rewrite Kn in Ha, Hb by lia. destruct (pair_ins KA (heads_of (next :: mid)) J a0 b0 k1 k1 L) as [X [Y [E1 E2]]]; try assumption; [intros Q; subst a0; congruence|intros Q; subst b0; congruence|].
      rewrite KAe in E1. cbn [app] in E1. rewrite Khead in E1. assert (Q : In k1 (heads_of head) -> k1 <> lit "id" /\ k1 <> lit "version") by (intros Q; apply T1; rewrite heads_of_app; apply in_or_app; left; exact Q).
      destruct X as [|x1 X]; injection E1 as Q1 E1.
      { subst k1. rewrite <- E1 in E2. destruct E2 as [E2|E2]; [discriminate|]. exact (proj1 (Q E2) eq_refl). }
      destruct X as [|x2 X]; injection E1 as Q2 E1.
      { subst k1. rewrite <- E1 in E2. exact (proj2 (Q E2) eq_refl). }
      refine (N (heads_of_pairs (fun h k => h = k -> h = kw_comment) head _ X k1 Y k1 E1 E2 eq_refl)).
      intros a3 r b s0 e0 h1 k2 E3 X1 X2 <-. exact (So a3 r b s0 e0 h1 E3 X1 X2). }
    intros a0 b0 k1 La0 Lb0 Ha Hb N. destruct (lt_eq_lt_dec a0 b0) as [[L|L]|L]; [exfalso; exact (X a0 b0 k1 L Lb0 Ha Hb N)|exact L|exfalso; exact (X b0 a0 k1 L La0 Hb Ha N)].
  - intros a0 k1 La0 Ha. rewrite Kn in Ha by assumption. apply nth_error_In in Ha. rewrite KAe in Ha. apply in_app_or in Ha.
    assert (Y : k1 = lit "id" \/ k1 = lit "version" \/ k1 = J \/ In k1 (heads_of head)).
    { rewrite <- Khead. destruct Ha as [[Ha|[Ha|Ha]]|[Ha|Ha]]; [left; congruence|right; left; congruence| |right; right; left; congruence|]; right; right; right; apply in_or_app; auto. }
    destruct Y as [->|[->|[->|Y]]]; [reflexivity|reflexivity| |apply mem_char_false; apply T2; exact Y]. apply mem_char_false. intros X. apply fresh_chars in X. discriminate.
  - rewrite !app_length. reflexivity.
  - intros a0 h. apply first_user_le.
  - intros a0 h L Ha. apply (U2 a0 h L Ha). intros Q. subst h. apply Kj in Ha. lia.
  - intros L. apply first_user_at. exact L.
  - intros z s0 X. exact X.
  - lia.
  - intros s0 e0 Ae [A1 A2] a0 t La0 Ha0 It. destruct (str_eqb t kw_comment) eqn:Q; [apply str_eqb_eq; exact Q|]. apply str_eqb_neq in Q. exfalso. destruct Ae as [_ [_ [_ [_ [_ [Ik1 _]]]]]].
    pose proof (A2 a0 (S (List.length KA)) t k Ha0 It Q Kk Ik1 Nk). lia.
  - reflexivity.
  - reflexivity.
  - unfold KA, keys_of. rewrite map_length. reflexivity.
  - reflexivity.
  - reflexivity.
  - reflexivity.
  - intros g1 g2 v0 Hg. apply Hpi. intros l Hl0. destruct Xnew as [Q|Q]; [left; exact Q|right]. intros X. apply Q. specialize (Hg l Hl0). rewrite <- X. unfold KA, KB. apply in_app_or in Hg. apply in_or_app. destruct Hg as [Hg|Hg]; [left|right]; apply in_map; exact Hg.
  - exact Hat.
  - reflexivity.
  - exact Pth.
  - exact E.
  - exact H.
  - exists w. split; [|exact R3]. rewrite R1. exact R2.
Qed.

(* An OMM, OPM, RDM, APM or CDM that can be read, and one more comment line between two lines of a section that comes once: the message
   read has that comment among the comments of the section, and is otherwise the same.  The lines up to the last one of the section say
   no keyword twice; keywords have no spaces; the sections follow each other in the order of the standard; user defined parameters come
   last. *)
Theorem C60_comment_line : forall u c id d ka k s blanks first pre prev gap1 raw gap2 next mid rest head v,
  In c plain_types -> class_fixed c "id" = Some id -> Forall blank blanks -> heads first (lit id) ->
  section_of c d -> lone c d -> In ka (keywords d) -> ka <> kw_comment -> heads prev ka -> In k (keywords d) -> k <> kw_comment -> heads next k ->
  Forall blank gap1 -> Forall blank gap2 -> comments raw s -> Forall (fun x => xml_char x = true) s -> head = pre ++ prev :: gap1 ++ gap2 ++ next :: mid ->
  said_once head -> (forall r h, In r head -> heads r h -> no_char c_sp h) -> (forall r h, In r (head ++ rest) -> heads r h -> h <> lit "id" /\ h <> lit "version") ->
  (forall r h, In r rest -> heads r h -> In h (keywords d) -> h = kw_comment) -> user_last (head ++ rest) -> in_order c (head ++ rest) ->
  Forall one_line (blanks ++ first :: pre ++ prev :: gap1 ++ raw :: gap2 ++ next :: mid ++ rest) ->
  kvn_from_string u (text_of (blanks ++ first :: pre ++ prev :: gap1 ++ gap2 ++ next :: mid ++ rest)) = Ok v ->
  exists w, kvn_from_string u (text_of (blanks ++ first :: pre ++ prev :: gap1 ++ raw :: gap2 ++ next :: mid ++ rest)) = Ok w /\ put_comment d s v w.
Proof.
  intros u c id d ka k s blanks first pre prev gap1 raw gap2 next mid rest head v Hc Ei Bb Hf Hs Hl Ia Na Hp Ik Nk Hn Bg1 Bg2 Hr Xs Eh So Th Re Rd Ul Io O H.
  destruct (plain_pathed c d Hc Hs Hl) as [_ [_ [Co _]]]. unfold comment_ok in Co. do 2 (apply andb_true_iff in Co; destruct Co as [Co ?]).
  destruct (line_put u c id d ka k kw_comment [s] "comment" (commented s) blanks first pre prev gap1 raw gap2 next mid rest head v) as [w [W1 W2]]; try assumption.
  - apply comment_lex. exact Hr.
  - apply Hs.
  - reflexivity.
  - left. reflexivity.
  - intros g1 g2 v0 _ H2. apply (parse_insert u d s); [| | | | |exact H2].
    + destruct (find_elem kw_comment (fields_of d)) as [f|]; [|discriminate]. do 2 (apply andb_true_iff in Co; destruct Co as [Co ?]). exists f. split; [reflexivity|]. split; [assumption|]. split; [destruct (f_ty f); congruence|apply String.eqb_eq; assumption].
    + intros f If Ef0. rewrite forallb_forall in H1. specialize (H1 f If). rewrite Ef0 in H1. exact H1.
    + destruct (assoc "comment" (vars_of (new_obj d))) as [[]|] eqn:Q; try discriminate. apply assoc_split in Q. destruct Q as [pr [po [Q1 Q2]]]. eexists pr, _, po. split; [exact Q1|exact Q2].
    + unfold xml_text. apply forallb_forall. rewrite Forall_forall in Xs. exact Xs.
    + destruct Hr as [w0 [b0 [_ [_ [_ [Q _]]]]]]. exact Q.
  - intros m sub A A' B _. apply attach_comment.
  - exists w. split; [exact W1|]. apply put_commented. exact W2.
Qed.
Print Assumptions C60_comment_line.

(* ---- examples ---- *)
Lemma later_complete c x y : forall A f B g C, In x (snd (entry c f)) -> In y (snd (entry c g)) ->
  later x y (filter (fun m => negb (match snd m with [] => true | _ => false end)) (map (entry c) (A ++ f :: B ++ g :: C))) = true.
Proof.
  induction A as [|a A IH]; intros f B g C Hx Hy.
  - cbn [app map filter]. destruct (entry c f) as [b l] eqn:E. cbn [snd] in *. destruct l as [|l0 l]; [destruct Hx|]. cbn [negb later]. apply orb_true_iff. left. apply andb_true_iff. split; [apply inb_spec; exact Hx|].
    apply existsb_exists. exists (entry c g). split; [|apply inb_spec; exact Hy]. apply filter_In. split; [apply in_map, in_or_app; right; left; reflexivity|]. destruct (snd (entry c g)); [destruct Hy|reflexivity].
  - cbn [app map filter]. specialize (IH f B g C Hx Hy). destruct (negb _); [|exact IH]. destruct (entry c a) as [b l]. cbn [later]. rewrite IH. apply orb_true_r.
Qed.
Lemma prec_complete c x y : shut c = true -> In x (sections c) -> In y (sections c) -> precedes c x y -> precb (table c) x y = true.
Proof.
  intros S Sx Sy H. unfold shut in S. do 2 (apply andb_true_iff in S; destruct S as [S ?]). rewrite forallb_forall in H0. unfold precb. apply orb_true_iff.
  assert (Row : forall k, In k (rch c) -> exists l, In (k, (l, row (inner c) k)) (table c) /\ assoc k (table c) = Some (l, row (inner c) k) /\ assoc k (inner c) = Some l).
  { intros k Hk. destruct (inner_assoc c k Hk) as [l [E _]]. exists l. split; [|split; [|exact E]].
    - unfold table. cbv zeta. apply in_map_iff. exists (k, l). split; [reflexivity|apply assoc_in; exact E].
    - unfold table. cbv zeta. revert E. generalize (inner c) at 1 3. intros I. induction I as [|[a b] I IH]; [discriminate|]. cbn [map assoc fst snd]. destruct (String.eqb a k) eqn:Q; [apply String.eqb_eq in Q; subst a; intros E; injection E as ->; reflexivity|exact IH]. }
  assert (Ent : forall f e z, In e (rch c) -> f_ty f = TCls e -> SpecOrder.within e z -> In z (sections c) -> In z (snd (entry c f))).
  { intros f e z He Ht Hz Sz. destruct (inner_assoc c e He) as [l [E Hl]]. unfold entry. rewrite Ht, E. cbn [snd]. apply Hl. split; [|exact Sz]. specialize (H0 e He). apply andb_true_iff in H0. destruct H0 as [X Y]. exact (within_closed e (rch e) X Y z Hz). }
  destruct H as [[W1 W2]|[k [A [f [B [g [C [e1 [e2 [Wk [E [E1 [W1 [E2 W2]]]]]]]]]]]]]].
  - left. apply (within_closed c (rch c) S) in W1; [|assumption]. destruct (Row x W1) as [l [_ [R1 R2]]]. rewrite R1. apply inb_spec. apply assoc_in, inner_in in R2. apply R2. split; [|exact Sy].
    specialize (H0 x W1). apply andb_true_iff in H0. destruct H0 as [X Y]. exact (within_closed x (rch x) X Y y W2).
  - right. assert (R1 : In e1 (rch c)). { apply (within_closed c (rch c) S); [assumption|]. apply (SpecOrder.within_field c k f e1 Wk); [rewrite E; apply in_or_app; right; left; reflexivity|exact E1]. }
    assert (R2 : In e2 (rch c)). { apply (within_closed c (rch c) S); [assumption|]. apply (SpecOrder.within_field c k g e2 Wk); [rewrite E; apply in_or_app; right; right; apply in_or_app; right; left; reflexivity|exact E2]. }
    apply (within_closed c (rch c) S) in Wk; [|assumption]. destruct (Row k Wk) as [l [R3 _]]. apply existsb_exists. exists (k, (l, row (inner c) k)). split; [exact R3|]. cbn [snd]. unfold row. rewrite E.
    apply (later_complete c x y A f B g C); [exact (Ent f e1 x R1 E1 W1 Sx)|exact (Ent g e2 y R2 E2 W2 Sy)].
Qed.
Definition owners (ws : list (string * list str)) (r : str) : list string :=
  match head_of r with Some h => if str_eqb h kw_comment then [] else map fst (filter (fun kw => mem_str h (snd kw)) ws) | None => [] end.
Fixpoint followb (T : list (string * (list string * list (bool * list string)))) (l : list (list string)) : bool :=
  match l with [] => true | t :: r => forallb (fun x => forallb (forallb (fun y => String.eqb x y || negb (precb T y x))) r) t && followb T r end.
Definition orderb (c : string) (rs : list str) : bool :=
  let T := table c in let ws := map (fun k => (k, words k)) (rch c) in let os := map (owners ws) rs in
  shut c && forallb (forallb (fun x => inb x (sections c))) os && followb T os.
Lemma owner_in c r h x : shut c = true -> SpecOrder.within c x -> heads r h -> h <> kw_comment -> In h (words x) -> In x (owners (map (fun k => (k, words k)) (rch c)) r).
Proof.
  intros S W H N I. unfold owners. apply head_of_heads in H. rewrite H, (proj2 (str_eqb_neq h kw_comment) N). unfold shut in S. do 2 (apply andb_true_iff in S; destruct S as [S ?]). apply (within_closed c (rch c) S) in W; [|assumption].
  apply in_map_iff. exists (x, words x). split; [reflexivity|]. apply filter_In. split; [apply in_map_iff; exists x; auto|apply mem_str_spec; exact I].
Qed.
Lemma followb_spec T : forall l a t b u e, followb T l = true -> l = a ++ t :: b ++ u :: e -> forall x y, In x t -> In y u -> x <> y -> precb T y x = false.
Proof.
  induction l as [|t0 l IH]; intros a t b u e H E x y Hx Hy N; [destruct a; discriminate|]. cbn [followb] in H. apply andb_true_iff in H. destruct H as [H1 H2]. destruct a as [|a0 a]; injection E as -> E; [|exact (IH a t b u e H2 E x y Hx Hy N)].
  rewrite forallb_forall in H1. specialize (H1 x Hx). rewrite forallb_forall in H1. assert (X : In u l) by (rewrite E; apply in_or_app; right; left; reflexivity). specialize (H1 u X). rewrite forallb_forall in H1. specialize (H1 y Hy).
  apply String.eqb_neq in N. rewrite N in H1. cbn [orb] in H1. apply negb_true_iff. exact H1.
Qed.
Lemma order_check c rs : orderb c rs = true -> in_order c rs.
Proof.
  unfold orderb. cbv zeta. intros H. do 2 (apply andb_true_iff in H; destruct H as [H ?]). intros a r b s e h k x y E Hr Hk Nh Nk Lx Ix Wy Iy N P. set (ws := map (fun k => (k, words k)) (rch c)) in *.
  pose proof (owner_in c r h x H (proj1 Lx) Hr Nh Ix) as Ox. pose proof (owner_in c s k y H Wy Hk Nk Iy) as Oy. fold ws in Ox, Oy. rewrite forallb_forall in H1.
  assert (Sec : forall r x, In r rs -> In x (owners ws r) -> In x (sections c)). { intros r1 x1 I1 I2. specialize (H1 (owners ws r1) (in_map _ _ _ I1)). rewrite forallb_forall in H1. apply inb_spec. exact (H1 x1 I2). }
  assert (X : precb (table c) y x = false).
  { refine (followb_spec (table c) (map (owners ws) rs) (map (owners ws) a) (owners ws r) (map (owners ws) b) (owners ws s) (map (owners ws) e) H0 _ x y Ox Oy N). rewrite E, !map_app. cbn [map]. rewrite map_app. reflexivity. }
  rewrite (prec_complete c y x H) in X; [discriminate| | |exact P].
  - apply (Sec s); [|exact Oy]. rewrite E. apply in_or_app. right. right. apply in_or_app. right. left. reflexivity.
  - apply (Sec r); [|exact Ox]. rewrite E. apply in_or_app. right. left. reflexivity.
Qed.
Lemma plain_shut c : In c plain_types -> shut c = true.
Proof. intros H. pose proof (plain_checked c H) as S. unfold checked in S. cbv zeta in S. do 2 (apply andb_true_iff in S; destruct S as [S ?]). exact S. Qed.
Definition opm_pre : list str := map lit ["COMMENT an orbit"; "CREATION_DATE = 2003"; "ORIGINATOR = X"; ""; "OBJECT_NAME = A"; "OBJECT_ID = 1"; "CENTER_NAME = EARTH"; "REF_FRAME = ITRF"; "TIME_SYSTEM = UTC"; "EPOCH = 2003"; "COMMENT where it is"].
Definition man : list str := map lit ["MAN_EPOCH_IGNITION = 2003"; "MAN_DURATION = 1"; "MAN_DV_1 = 1"].
Example C60_example : let rest := man ++ man ++ opm_user in let prev := lit "X = 1" in let next := lit "Y = 2 [km]" in let raw := lit " COMMENT  the other axes " in let head := opm_pre ++ prev :: [[]] ++ [] ++ next :: opm_mid in
  In "Opm" plain_types /\ class_fixed "Opm" "id" = Some "CCSDS_OPM_VERS" /\ heads opm_first (lit "CCSDS_OPM_VERS") /\
  section_of "Opm" "StateVectorType" /\ lone "Opm" "StateVectorType" /\ In (lit "X") (keywords "StateVectorType") /\ heads prev (lit "X") /\ In (lit "Y") (keywords "StateVectorType") /\ heads next (lit "Y") /\
  Forall blank [@nil N] /\ comments raw (lit "the other axes") /\ Forall (fun x => xml_char x = true) (lit "the other axes") /\
  said_once head /\ (forall r h, In r head -> heads r h -> no_char c_sp h) /\ (forall r h, In r (head ++ rest) -> heads r h -> h <> lit "id" /\ h <> lit "version") /\
  (forall r h, In r rest -> heads r h -> In h (keywords "StateVectorType") -> h = kw_comment) /\ user_last (head ++ rest) /\ in_order "Opm" (head ++ rest) /\
  Forall one_line (opm_first :: opm_pre ++ prev :: [[]] ++ raw :: [] ++ next :: opm_mid ++ rest) /\
  exists v, kvn_from_string demo_env (text_of (opm_first :: opm_pre ++ prev :: [[]] ++ [] ++ next :: opm_mid ++ rest)) = Ok v.
Proof.
  cbv zeta. assert (Hs : section_of "Opm" "StateVectorType").
  { split.
    - apply (SpecOrder.within_field _ "OpmData" (mkField "state_vector" (Some "stateVector") false (TCls "StateVectorType") KElem None)); [|vm_compute; auto 10|reflexivity].
      apply (SpecOrder.within_field _ "OpmSegment" (mkField "data" None false (TCls "OpmData") KElem None)); [|vm_compute; auto 10|reflexivity].
      apply (SpecOrder.within_field _ "OpmBody" (mkField "segment" None false (TCls "OpmSegment") KElem None)); [|vm_compute; auto 10|reflexivity].
      apply (SpecOrder.within_field _ "Opm" (mkField "body" None false (TCls "OpmBody") KElem None)); [|vm_compute; auto 10|reflexivity]. apply SpecOrder.within_self.
    - split; [vm_compute; tauto|]. intros H. repeat (destruct H as [H|H]; [discriminate|]). destruct H. }
  split; [vm_compute; tauto|]. split; [reflexivity|]. split; [apply head_of_heads; vm_compute; reflexivity|]. split; [exact Hs|].
  split; [apply lone_sound; [apply plain_shut; vm_compute; tauto|vm_cast_no_check (eq_refl false)|refine (proj1 (inb_spec "StateVectorType" (sections "Opm")) _); vm_cast_no_check (eq_refl true)|exact (proj1 Hs)]|].
  split; [vm_compute; tauto|]. split; [apply head_of_heads; vm_compute; reflexivity|]. split; [vm_compute; tauto|]. split; [apply head_of_heads; vm_compute; reflexivity|]. split; [constructor; [intros x []|constructor]|].
  split. { exists [c_sp], (lit "  the other axes "). split; [reflexivity|]. split; [intros x [<-|[]]; reflexivity|]. split; [apply core_of; vm_compute; reflexivity|]. split; [discriminate|]. intros [X Y]. discriminate Y. }
  split; [apply Forall_forall; apply forallb_forall; vm_compute; reflexivity|].
  split; [apply once_check; vm_compute; reflexivity|]. split.
  { assert (X : forallb (head_is (no_charb c_sp)) (opm_pre ++ lit "X = 1" :: [[]] ++ [] ++ lit "Y = 2 [km]" :: opm_mid) = true) by (vm_compute; reflexivity).
    intros r h Hr Hh. rewrite forallb_forall in X. specialize (X r Hr). apply (head_is_spec _ _ _ X) in Hh. apply no_charb_spec. exact Hh. }
  split.
  { assert (X : forallb (head_is (fun h => negb (str_eqb h (lit "id")) && negb (str_eqb h (lit "version")))) ((opm_pre ++ lit "X = 1" :: [[]] ++ [] ++ lit "Y = 2 [km]" :: opm_mid) ++ man ++ man ++ opm_user) = true) by (vm_compute; reflexivity).
    intros r h Hr Hh. rewrite forallb_forall in X. specialize (X r Hr). apply (head_is_spec _ _ _ X) in Hh. apply andb_true_iff in Hh. destruct Hh as [Hh ?]. split; apply str_eqb_neq, negb_true_iff; assumption. }
  split.
  { assert (X : forallb (head_is (fun h => negb (mem_str h (keywords "StateVectorType")) || str_eqb h kw_comment)) (man ++ man ++ opm_user) = true) by (vm_compute; reflexivity).
    intros r h Hr Hh Hk. rewrite forallb_forall in X. specialize (X r Hr). apply (head_is_spec _ _ _ X) in Hh. apply mem_str_spec in Hk. rewrite Hk in Hh. apply str_eqb_eq. exact Hh. }
  split; [apply user_check; vm_compute; reflexivity|]. split; [apply order_check; vm_cast_no_check (eq_refl true)|].
  split; [apply Forall_forall; intros t Ht; repeat (destruct Ht as [<-|Ht]; [apply no_charb_spec; vm_compute; reflexivity|]); destruct Ht|].
  eexists. vm_compute. reflexivity.
Qed.

(* the order matters: with the spacecraft parameters before the state vector, the comment is read twice, in two sections *)
Definition comments_in (n : string) (v : pyval) : option pyval :=
  match data_field n v with Some (VObj _ vars) => match find (fun nv => String.eqb (fst nv) "comment") vars with Some (_, x) => Some x | None => None end | _ => None end.
Definition opm_short : list str := map lit ["CREATION_DATE = 2003"; "ORIGINATOR = X"; "OBJECT_NAME = A"; "OBJECT_ID = 1"; "CENTER_NAME = EARTH"; "REF_FRAME = ITRF"; "TIME_SYSTEM = UTC"].
Definition opm_vector : list str := map lit ["EPOCH = 2003"; "X = 1"; "Y = 1"; "Z = 3"; "X_DOT = 1"; "Y_DOT = 1"; "Z_DOT = 1"].
Theorem C60_order_refuted : let a := lit "MASS = 1" in let b := lit "DRAG_AREA = 2" in let raw := lit "COMMENT x" in comments raw (lit "x") /\
  exists v w, kvn_from_string demo_env (text_of (opm_first :: opm_short ++ a :: b :: opm_vector)) = Ok v /\ kvn_from_string demo_env (text_of (opm_first :: opm_short ++ a :: raw :: b :: opm_vector)) = Ok w /\
    comments_in "state_vector" v = Some (VList []) /\ comments_in "spacecraft_parameters" v = Some (VList []) /\
    comments_in "state_vector" w = Some (VList [VStr (lit "x")]) /\ comments_in "spacecraft_parameters" w = Some (VList [VStr (lit "x")]).
Proof.
  cbv zeta. split. { exists [], (lit " x"). split; [reflexivity|]. split; [intros y []|]. split; [apply core_of; vm_compute; reflexivity|]. split; [discriminate|]. intros [X Y]. discriminate Y. }
  do 2 eexists. split; [vm_compute; reflexivity|]. split; [vm_compute; reflexivity|]. repeat split; vm_compute; reflexivity.
Qed.
(* and a comment behind the last line of the last section is read as no comment at all *)
Theorem C60_last_refuted : let a := lit "MASS = 1" in let b := lit "DRAG_AREA = 2" in let raw := lit "COMMENT x" in comments raw (lit "x") /\
  exists v, kvn_from_string demo_env (text_of (opm_first :: opm_short ++ opm_vector ++ [a; b])) = Ok v /\ kvn_from_string demo_env (text_of (opm_first :: opm_short ++ opm_vector ++ [a; b; raw])) = Ok v.
Proof.
  cbv zeta. split. { exists [], (lit " x"). split; [reflexivity|]. split; [intros y []|]. split; [apply core_of; vm_compute; reflexivity|]. split; [discriminate|]. intros [X Y]. discriminate Y. }
  eexists. split; vm_compute; reflexivity.
Qed.
