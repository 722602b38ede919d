(* Sections as elements of the object map, and whole messages. *)
From Coq Require Import NArith ZArith List Bool String Arith Lia.
From Verif Require Import PyStr PyDec PyVal Schema KvnPre KvnTree KvnSeg XmlBind KvnBuild NdmXml KvnWrite
     Spec SpecKvn SpecObj StrFacts DecFacts PreFacts SegFacts BuildFacts WriteFacts ParseFacts ShiftFacts
     ReadFacts ComposeFacts.
Import ListNotations.
Local Open Scope string_scope.
Local Open Scope list_scope.
Local Arguments find_class : simpl never.
Local Arguments lit : simpl never.

(* the lines of a section *)
Definition sec_lines (v : pyval) : list line :=
  match v with VObj c vars => map line_of (entries (fields_of c) vars) | _ => [] end.

Definition strs_eqb (a b : list str) : bool :=
  if list_eq_dec (list_eq_dec N.eq_dec) a b then true else false.
(* an element whose class consists of keywords only *)
Definition leaf_elem (s : elem) : bool :=
  ordinary (e_cls s) && match e_single s with None => true | _ => false end
  && match e_subs s with [] => true | _ => false end
  && leaf_class (e_cls s) && strs_eqb (e_kws s) (map (fun f => lit (kw_of f)) (fields_of (e_cls s)))
  && negb (Nat.eqb (List.length (e_kws s)) 1) && negb (root_kws (e_kws s)).
Lemma leaf_elem_spec s : leaf_elem s = true ->
  ordinary (e_cls s) = true /\ e_single s = None /\ e_subs s = [] /\ leaf_class (e_cls s) = true /\
  e_kws s = map (fun f => lit (kw_of f)) (fields_of (e_cls s)) /\ List.length (e_kws s) <> 1 /\
  root_kws (e_kws s) = false.
Proof.
  unfold leaf_elem, strs_eqb. intros H. repeat (apply andb_true_iff in H; destruct H as [H ?]).
  destruct (e_single s); [discriminate|]. destruct (e_subs s); [|discriminate].
  destruct (list_eq_dec _ _ _); [|discriminate].
  repeat match goal with X : negb _ = true |- _ => apply negb_true_iff in X end.
  match goal with X : Nat.eqb _ _ = false |- _ => apply Nat.eqb_neq in X end. auto 10.
Qed.

Lemma key_line_of k t un : key_of (line_of (k, t, un)) = k.
Proof. destruct un; reflexivity. Qed.
Lemma field_keys kw v : match v with VList _ => False | _ => True end ->
  keys_of (map line_of (field_entries kw v)) = match v with VNone => [] | _ => [lit kw] end.
Proof. destruct v; intros H; try destruct H; cbn [field_entries map]; unfold keys_of; cbn [map]; rewrite ?key_line_of; reflexivity. Qed.

Lemma nonlist_keys fs vars : forallb kw_field_ok fs = true -> forallb (fun f => negb (f_list f)) fs = true ->
  wf_vars fs vars ->
  exists ss, keys_of (map line_of (entries fs vars)) = map (fun f => lit (kw_of f)) ss /\ incl ss fs /\
  (NoDup fs -> NoDup ss) /\ ((exists n x, In (n, x) vars /\ is_set x) -> ss <> []).
Proof.
  intros K L W. induction W as [|f [n v] fs vars [E Wf] _ IH].
  - exists []. split; [reflexivity|]. split; [intros x []|]. split; [auto|]. intros [n [x [[] _]]].
  - cbn [forallb] in K, L. apply andb_true_iff in K. destruct K as [Kf K]. apply andb_true_iff in L. destruct L as [Lf L].
    destruct (IH K L) as [ss [E1 [I1 [D1 N1]]]]. clear IH. apply negb_true_iff in Lf. cbn [fst snd] in *.
    pose proof (kw_field_spec (mkEnv (fun _ => false) (fun _ => false) (fun c => [c]) (fun _ => None) (fun _ _ => VNone) false) f Kf) as [_ [_ [_ [Ek _]]]].
    cbn [entries]. rewrite Ek, map_app, keys_of_app.
    destruct Wf as [L0|v L0 W|ts L0 G]; [| |congruence].
    + exists ss. split; [exact E1|]. split; [intros x Hx; right; apply I1; exact Hx|].
      split; [intros D; apply NoDup_cons_iff in D; apply D1; apply D|].
      intros [n' [x [[H|H] S]]]; [injection H as <- <-; destruct S|]. apply N1. exists n', x. auto.
    + exists (f :: ss). split.
      { rewrite field_keys by (destruct W as [? ? W|? ? ? ? ? ? W|]; [destruct W|..]; exact I). rewrite E1.
        destruct W as [? ? W| |]; [destruct W|..]; reflexivity. }
      split; [intros x [->|Hx]; [left; reflexivity|right; apply I1; exact Hx]|].
      split; [intros D; apply NoDup_cons_iff in D; constructor; [intros X; apply D; apply I1; exact X|apply D1; apply D]|].
      intros _. discriminate.
Qed.

Section Msg.
Variable u : env.

Lemma section_keys c vars : leaf_class c = true -> wf_vars (fields_of c) vars ->
  let T := map (fun f => lit (kw_of f)) (fields_of c) in
  exists n ks, keys_of (sec_lines (VObj c vars)) = repeat kw_comment n ++ ks /\ NoDup ks /\ incl ks T /\
    ~ In kw_comment ks /\ (n <> 0 -> In kw_comment T) /\
    ((exists m x, In (m, x) vars /\ is_set x) -> ks <> []).
Proof.
  intros L W T. unfold leaf_class in L. repeat (apply andb_true_iff in L; destruct L as [L ?]).
  match goal with X : no_dup_strings (map _ _) = true |- _ => apply no_dup_strings_spec in X; rename X into ND end.
  assert (Dk : NoDup (map (fun f => lit (kw_of f)) (fields_of c))).
  { rewrite <- (map_map kw_of lit). apply FinFun.Injective_map_NoDup; [intros a b; apply lit_inj|exact ND]. }
  unfold sec_lines, T in *. clear T. clear ND H1. revert W L H Dk. generalize (fields_of c) as fs. intros fs W L H Dk.
  assert (NC : forall ss, forallb (fun f => negb (f_list f)) ss = true -> forallb kw_field_ok ss = true ->
               ~ In kw_comment (map (fun f => lit (kw_of f)) ss)).
  { intros ss Hl Hk X. apply in_map_iff in X. destruct X as [f [E X]]. rewrite forallb_forall in Hl, Hk.
    pose proof (kw_field_spec u f (Hk f X)) as [_ [_ [_ [_ [_ [_ [_ [_ N]]]]]]]].
    specialize (Hl f X). apply negb_true_iff in Hl. destruct (N Hl) as [N1 _]. rewrite E in N1. discriminate. }
  assert (SUB : forall ss fs : list field, incl ss fs -> forallb (fun f => negb (f_list f)) fs = true -> forallb kw_field_ok fs = true ->
     ~ In kw_comment (map (fun f => lit (kw_of f)) ss)).
  { intros ss fs0 I0 A B. apply NC; rewrite forallb_forall in *; auto. }
  assert (NDs : forall ss fs : list field, incl ss fs -> NoDup ss -> NoDup (map (fun f => lit (kw_of f)) fs) -> NoDup (map (fun f => lit (kw_of f)) ss)).
  { clear. intros ss fs I0 D D2.
    assert (Inj : forall a b, In a fs -> In b fs -> lit (kw_of a) = lit (kw_of b) -> a = b).
    { intros a b Ha Hb E. apply in_split in Ha. destruct Ha as [l1 [l2 ->]]. rewrite map_app in D2. cbn in D2.
      apply NoDup_remove_2 in D2. apply in_app_or in Hb. destruct Hb as [Hb|[Hb|Hb]]; [|exact Hb|]; exfalso; apply D2; rewrite E;
        apply in_or_app; [left|right]; apply (in_map (fun f => lit (kw_of f))); exact Hb. }
    induction D as [|f ss N _ IH]; [constructor|]. cbn. constructor; [|apply IH; intros x Hx; apply I0; right; exact Hx].
    intros X. apply in_map_iff in X. destruct X as [g [E X]]. apply Inj in E; [subst; contradiction|apply I0; right; exact X|apply I0; left; reflexivity]. }
  destruct fs as [|f fs].
  { inversion W; subst. exists 0, []. split; [reflexivity|]. split; [constructor|]. split; [intros x Hx; destruct Hx|].
    split; [intros Hx; destruct Hx|]. split; [congruence|]. intros [m [x [X _]]]. destruct X. }
  cbn [comments_first] in H. inversion W as [|? [n v] ? vars0 [En Wf] Ws]; subst. cbn [fst snd] in *.
  cbn [forallb] in L. apply andb_true_iff in L. destruct L as [Lf L].
  destruct (nonlist_keys fs vars0 L H Ws) as [ss [E1 [I1 [D1 N1]]]].
  pose proof (kw_field_spec u f Lf) as [_ [_ [_ [Ek [_ [_ [_ [XL _]]]]]]]].
  cbn [entries]. rewrite Ek, map_app, keys_of_app. cbn [map] in Dk. apply NoDup_cons_iff in Dk. destruct Dk as [Df Ds].
  assert (NDf : NoDup fs) by (eapply NoDup_map_inv; exact Ds).
  destruct Wf as [L0|v L0 W0|ts L0 G].
  - exists 0, (map (fun f => lit (kw_of f)) ss). cbn [field_entries map keys_of app repeat]. split; [exact E1|].
    split; [eapply NDs; eauto|]. split; [intros x Hx; right; revert Hx; apply incl_map; exact I1|].
    split; [eapply SUB; eauto|]. split; [congruence|]. intros [m [x [[X|X] S]]]; [injection X as <- <-; destruct S|].
    destruct ss; [exfalso; apply N1; [exists m, x; auto|reflexivity]|discriminate].
  - exists 0, (map (fun f => lit (kw_of f)) (f :: ss)). cbn [repeat app]. split.
    { rewrite field_keys by (destruct W0 as [? ? W0|? ? ? ? ? ? W0|]; [destruct W0|..]; exact I). rewrite E1.
      destruct W0 as [? ? W0| |]; [destruct W0|..]; reflexivity. }
    split; [cbn [map]; constructor; [intros X; apply Df; revert X; apply incl_map; exact I1|eapply NDs; eauto]|].
    split; [apply incl_map; intros x [->|Hx]; [left; reflexivity|right; apply I1; exact Hx]|].
    split.
    { apply (SUB _ (f :: fs)); [intros x [->|Hx]; [left; reflexivity|right; apply I1; exact Hx]| |]; cbn [forallb].
      - rewrite L0. exact H.
      - rewrite Lf. exact L. }
    split; [congruence|]. intros _. discriminate.
  - destruct (XL L0) as [_ [Ec _]]. exists (List.length ts), (map (fun f => lit (kw_of f)) ss). split.
    { rewrite E1. f_equal. cbn [field_entries]. rewrite map_map. rewrite Ec. unfold keys_of. rewrite !map_map.
      clear. induction ts as [|t ts IH]; [reflexivity|]. cbn [map repeat List.length]. rewrite IH. reflexivity. }
    split; [eapply NDs; eauto|]. split; [intros x Hx; right; revert Hx; apply incl_map; exact I1|].
    split; [eapply SUB; eauto|]. split; [intros _; left; rewrite Ec; reflexivity|].
    intros [m [x [[X|X] S]]]; [injection X as <- <-; destruct S|].
    destruct ss; [exfalso; apply N1; [exists m, x; auto|reflexivity]|discriminate].
Qed.

(* the keywords of [rest] that belong to the section are used in it *)
Definition known (T own rest : list str) : Prop :=
  forall t, In t T -> t <> kw_comment -> In t rest -> In t own.

Lemma section_claims s v rest : leaf_elem s = true -> section (e_cls s) v ->
  known (e_kws s) (keys_of (sec_lines v)) rest -> claims (e_kws s) (keys_of (sec_lines v)) rest.
Proof.
  intros L [vars [-> [W Nz]]] K. destruct (leaf_elem_spec s L) as [_ [_ [_ [Lc [Ek [H1 _]]]]]].
  destruct (section_keys _ _ Lc W) as [n [ks [E [D [I [NC [Hn Hs]]]]]]]. rewrite <- Ek in *.
  exists n, ks. split; [exact E|]. split; [apply Hs; exact Nz|]. split; [exact D|]. split; [exact I|]. split; [exact NC|].
  split; [exact Hn|]. split; [intros _; exact H1|]. intros t Ht Hc Hr. pose proof (K t Ht Hc Hr) as X. rewrite E in X.
  apply in_app_or in X. destruct X as [X|X]; [|exact X]. apply repeat_spec in X. contradiction.
Qed.
Lemma section_keys_incl s v : leaf_elem s = true -> opt_section (e_cls s) v ->
  forall k, In k (keys_of (sec_lines v)) -> k = kw_comment \/ In k (e_kws s).
Proof.
  intros L [->|[vars [-> [W Nz]]]] k Hk; [destruct Hk|]. destruct (leaf_elem_spec s L) as [_ [_ [_ [Lc [Ek [H1 _]]]]]].
  destruct (section_keys _ _ Lc W) as [n [ks [E [D [I [NC [Hn Hs]]]]]]]. rewrite <- Ek in *. rewrite E in Hk.
  apply in_app_or in Hk. destruct Hk as [Hk|Hk]; [left; apply repeat_spec in Hk; exact Hk|right; apply I; exact Hk].
Qed.

(* a section reads back *)
Lemma section_reads s v rest : leaf_elem s = true -> section (e_cls s) v ->
  known (e_kws s) (keys_of (sec_lines v)) (keys_of rest) ->
  reads u s (sec_lines v ++ rest) v (List.length (sec_lines v)).
Proof.
  intros L S K. pose proof (section_claims s v _ L S K) as C. destruct S as [vars [-> [W Nz]]].
  destruct (leaf_elem_spec s L) as [O [Sg [Es [Lc [Ek [H1 R]]]]]].
  apply leaf_reads; try assumption. cbn [sec_lines]. apply parse_section; assumption.
Qed.

(* optional sections one after the other *)
Definition sec_of (s : elem) (nv : string * pyval) : Prop :=
  fst nv = e_name s /\ e_islist s = false /\ opt_section (e_cls s) (snd nv).
Definition lines_of (att : list (string * pyval)) : list line := flat_map (fun nv => sec_lines (snd nv)) att.
Definition disjointb (a b : list str) : bool :=
  forallb (fun t => str_eqb t kw_comment || negb (mem_str t b)) a.
Fixpoint disjoint_all (ss : list elem) : bool :=
  match ss with
  | [] => true
  | s :: r => forallb (fun x => disjointb (e_kws s) (e_kws x)) r && disjoint_all r
  end.
Lemma disjointb_spec a b t : disjointb a b = true -> In t a -> t <> kw_comment -> ~ In t b.
Proof.
  unfold disjointb. rewrite forallb_forall. intros H Ha Hc Hb. apply H in Ha. apply orb_true_iff in Ha.
  destruct Ha as [Ha|Ha]; [apply str_eqb_eq in Ha; contradiction|]. apply negb_true_iff in Ha.
  apply mem_str_spec in Hb. congruence.
Qed.
Lemma lines_keys ss att : Forall2 sec_of ss att -> forallb leaf_elem ss = true ->
  forall k, In k (keys_of (lines_of att)) -> k = kw_comment \/ exists s, In s ss /\ In k (e_kws s).
Proof.
  induction 1 as [|s nv ss att [_ [_ S]] _ IH]; intros L k Hk; [destruct Hk|]. cbn [forallb] in L. apply andb_true_iff in L. destruct L as [Ls L].
  cbn [lines_of flat_map] in Hk. rewrite keys_of_app in Hk. apply in_app_or in Hk. destruct Hk as [Hk|Hk].
  - destruct (section_keys_incl s _ Ls S k Hk) as [E|E]; [left; exact E|right; exists s; split; [left; reflexivity|exact E]].
  - destruct (IH L k Hk) as [E|[x [X1 X2]]]; [left; exact E|right; exists x; split; [right; exact X1|exact X2]].
Qed.
Lemma sections_subs ss att : Forall2 sec_of ss att -> forall ss' att' m pre rest,
  forallb leaf_elem ss = true -> disjoint_all ss = true ->
  (forall s t, In s ss -> In t (e_kws s) -> t <> kw_comment -> ~ In t (keys_of pre)) ->
  Forall2 (fun s nv => known (e_kws s) (keys_of (sec_lines (snd nv))) (keys_of rest)) ss att ->
  subs_at u (pre ++ lines_of att) rest ss' m att' ->
  subs_at u pre (lines_of att ++ rest) (ss ++ ss') (List.length (lines_of att) + m) (att ++ att').
Proof.
  induction 1 as [|s [n v] ss att [En [Il S]] Ss IH]; intros ss' att' m pre rest L D P K H.
  - cbn [lines_of flat_map app List.length] in *. rewrite app_nil_r in H. exact H.
  - cbn [forallb disjoint_all] in L, D. apply andb_true_iff in L. destruct L as [Ls L]. apply andb_true_iff in D. destruct D as [Ds D].
    inversion K as [|? ? ? ? K1 K2]; subst. cbn [fst snd] in *. subst n. cbn [lines_of flat_map snd] in *.
    fold (lines_of att) in *. rewrite <- app_assoc. rewrite app_length, <- Nat.add_assoc.
    assert (NT : forall t, In t (e_kws s) -> t <> kw_comment -> ~ In t (keys_of (lines_of att))).
    { intros t Ht Hc Hi. destruct (lines_keys ss att Ss L t Hi) as [E|[x [X1 X2]]]; [contradiction|].
      rewrite forallb_forall in Ds. apply (disjointb_spec _ _ _ (Ds x X1) Ht Hc X2). }
    assert (R : subs_at u (pre ++ sec_lines v) (lines_of att ++ rest) (ss ++ ss') (List.length (lines_of att) + m) (att ++ att')).
    { apply IH; try assumption.
      - intros x t Hx Ht Hc Hi. rewrite keys_of_app in Hi. apply in_app_or in Hi. destruct Hi as [Hi|Hi].
        + exact (P x t (or_intror Hx) Ht Hc Hi).
        + destruct (section_keys_incl s v Ls S t Hi) as [E|E]; [contradiction|].
          rewrite forallb_forall in Ds. exact (disjointb_spec _ _ _ (Ds x Hx) E Hc Ht).
      - rewrite <- app_assoc. exact H. }
    destruct (leaf_elem_spec s Ls) as [O [Sg [Es [Lc [Ek [H1 Rk]]]]]].
    destruct S as [->|S].
    + cbn [sec_lines app List.length Nat.add]. rewrite app_nil_r in R. apply subs_absent; try assumption.
      split; [intros _; exact H1|]. intros t Ht Hc Hi. rewrite !keys_of_app in Hi.
      apply in_app_or in Hi. destruct Hi as [Hi|Hi]; [exact (P s t (or_introl eq_refl) Ht Hc Hi)|].
      apply in_app_or in Hi. destruct Hi as [Hi|Hi]; [exact (NT t Ht Hc Hi)|]. exact (K1 t Ht Hc Hi).
    + cbn [app]. apply subs_one; [exact Il| |exact R]. apply section_reads; [exact Ls|exact S|].
      intros t Ht Hc Hi. rewrite keys_of_app in Hi. apply in_app_or in Hi.
      destruct Hi as [Hi|Hi]; [exfalso; exact (NT t Ht Hc Hi)|exact (K1 t Ht Hc Hi)].
Qed.
End Msg.
