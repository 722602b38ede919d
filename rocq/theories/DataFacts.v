(* Data blocks (comments, then sections) and segments. *)
From Coq Require Import NArith ZArith List Bool String Arith Lia.
From Verif Require Import PyStr PyDec PyVal Schema KvnPre KvnTree KvnSeg XmlBind KvnBuild NdmXml KvnWrite
     Spec SpecKvn SpecObj SpecMsg StrFacts DecFacts PreFacts SegFacts BuildFacts WriteFacts ParseFacts ShiftFacts
     ReadFacts ComposeFacts MsgFacts PropWrite CoreFacts UserFacts.
Import ListNotations.
Local Open Scope string_scope.
Local Open Scope list_scope.
Local Arguments find_class : simpl never.
Local Arguments lit : simpl never.

Lemma Forall2_weaken {A B} (P Q : A -> B -> Prop) la lb :
  (forall a b, In a la -> In b lb -> P a b -> Q a b) -> Forall2 P la lb -> Forall2 Q la lb.
Proof.
  intros H F. induction F as [|a b la lb Hab _ IH]; [constructor|]. constructor.
  - apply H; [left; reflexivity|left; reflexivity|exact Hab].
  - apply IH. intros x y Hx Hy. apply H; right; assumption.
Qed.

Definition comment_lines (cs : list str) : list line := map (fun t => [kw_comment; t]) cs.

(* ---- moving comments ---- *)
Definition comment_field : field := mkField "comment" (Some "COMMENT") true TStr KElem None.
Definition has_comments (c : string) : bool :=
  match fields_of c with
  | mkField n (Some k) true TStr KElem None :: _ => String.eqb n "comment" && String.eqb k "COMMENT"
  | _ => false
  end.
Lemma has_comments_spec c : has_comments c = true -> exists fs, fields_of c = comment_field :: fs.
Proof.
  unfold has_comments. destruct (fields_of c) as [|[n [k|] [] [] [] []] fs]; try discriminate.
  intros H. apply andb_true_iff in H. destruct H as [H1 H2]. apply String.eqb_eq in H1, H2. subst. exists fs. reflexivity.
Qed.
Lemma texts_inj a : forall l, VList l = VList (texts a) -> l = texts a.
Proof. intros l H. injection H as ->. reflexivity. Qed.

Lemma wf_comment_value v : wf_field comment_field v -> exists ts, v = VList (texts ts) /\ Forall good_text ts.
Proof. intros H. inversion H as [L|v0 L W|ts L G]; subst; cbn in L; try discriminate. exists ts. auto. Qed.

Lemma nonlist_no_comment (u : env) fs vars : forallb kw_field_ok fs = true -> forallb (fun f => negb (f_list f)) fs = true ->
  wf_vars fs vars -> ~ In kw_comment (keys_of (map line_of (entries fs vars))).
Proof.
  intros K L W X. destruct (nonlist_keys fs vars K L W) as [ss [E [I _]]]. rewrite E in X. apply in_map_iff in X.
  destruct X as [f [Ef X]]. apply I in X. rewrite forallb_forall in K, L.
  pose proof (kw_field_spec u f (K f X)) as [_ [_ [_ [_ [_ [_ [_ [_ N]]]]]]]].
  specialize (L f X). apply negb_true_iff in L. destruct (N L) as [N1 _]. rewrite Ef in N1. discriminate.
Qed.

(* a section with its comments in front *)
Lemma section_split (u : env) c v : leaf_class c = true -> has_comments c = true -> section c v ->
  exists ts rest, comments_of v = texts ts /\ Forall good_text ts /\ sec_lines v = comment_lines ts ++ rest /\
    (exists l r, rest = l :: r /\ key_of l <> kw_comment) /\
    forall ts', Forall good_text ts' -> section c (with_comments (texts ts') v) /\
                sec_lines (with_comments (texts ts') v) = comment_lines ts' ++ rest.
Proof.
  intros Lf H [vars [-> [W [n [x [Hin Hs]]]]]]. destruct (has_comments_spec c H) as [fs E].
  assert (Lc : forall ts, map line_of (field_entries "COMMENT" (VList (texts ts))) = comment_lines ts).
  { intros ts. cbn [field_entries]. unfold texts, comment_lines. rewrite !map_map. reflexivity. }
  rewrite E in W. inversion W as [|? [k v] ? vars0 [E1 Wf] Ws]; subst. cbn [fst snd f_name comment_field] in *. subst k.
  destruct (wf_comment_value v Wf) as [ts [-> G]].
  exists ts, (map line_of (entries fs vars0)). cbn [comments_of]. split; [reflexivity|]. split; [exact G|].
  split; [cbn [sec_lines]; rewrite E; cbn [entries comment_field f_kw]; rewrite map_app, Lc; reflexivity|].
  destruct Hin as [Hin|Hin]; [injection Hin as <- <-; destruct Hs|].
  split.
  { assert (NC : ~ In kw_comment (keys_of (map line_of (entries fs vars0)))).
    { unfold leaf_class in Lf. repeat (apply andb_true_iff in Lf; destruct Lf as [Lf ?]). rewrite E in *. cbn [comments_first forallb] in *.
      apply andb_true_iff in Lf. destruct Lf as [_ Lf]. apply (nonlist_no_comment u); assumption. }
    assert (Nn : map line_of (entries fs vars0) <> []).
    { clear - Ws Hin Hs. induction Ws as [|f [k v] fs vars [E1 W] _ IH]; [destruct Hin|]. cbn [entries]. rewrite map_app.
      destruct Hin as [Hin|Hin].
      - injection Hin as -> ->. destruct x; try destruct Hs; discriminate.
      - intros X. apply app_eq_nil in X. apply (IH Hin). apply X. }
    destruct (map line_of (entries fs vars0)) as [|l r]; [congruence|]. exists l, r. split; [reflexivity|].
    intros X. apply NC. left. exact X. }
  intros ts' G'. split.
  - eexists. split; [reflexivity|]. split; [|exists n, x; split; [right; exact Hin|exact Hs]].
    rewrite E. constructor; [|exact Ws]. split; [reflexivity|]. apply (wf_comments comment_field ts'); [reflexivity|exact G'].
  - cbn [with_comments sec_lines]. rewrite E. cbn [entries comment_field f_kw]. rewrite map_app, Lc. reflexivity.
Qed.

Lemma give_split (u : env) ss secs : Forall2 sec_of ss secs -> forallb leaf_elem ss = true -> forallb (fun s => has_comments (e_cls s)) ss = true ->
  some_section secs ->
  exists ts rest, first_comments secs = texts ts /\ Forall good_text ts /\ lines_of secs = comment_lines ts ++ rest /\
    (exists l r, rest = l :: r /\ key_of l <> kw_comment) /\
    forall ts', Forall good_text ts' -> Forall2 sec_of ss (give_comments (texts ts') secs) /\
                lines_of (give_comments (texts ts') secs) = comment_lines ts' ++ rest.
Proof.
  intros F Lf H S. induction F as [|s [n v] ss secs [En [Il O]] F IH]; [destruct S as [n [v [[] _]]]|].
  cbn [forallb] in H, Lf. apply andb_true_iff in H. destruct H as [Hs H]. apply andb_true_iff in Lf. destruct Lf as [Ls Lf].
  cbn [fst snd] in *. subst n. destruct O as [->|O].
  - destruct S as [n [v [[Hin|Hin] Nv]]]; [congruence|].
    destruct (IH Lf H) as [ts [rest [E1 [G [E2 [Hr A]]]]]]; [exists n, v; auto|].
    exists ts, rest. split; [exact E1|]. split; [exact G|]. split; [exact E2|]. split; [exact Hr|].
    intros ts' G'. destruct (A ts' G') as [A1 A2]. split; [constructor; [|exact A1]|exact A2].
    split; [reflexivity|]. split; [exact Il|left; reflexivity].
  - destruct (leaf_elem_spec s Ls) as [_ [_ [_ [Lc _]]]]. destruct (section_split u _ _ Lc Hs O) as [ts [rest [E1 [G [E2 [[l [r [Hr Hk]]] A]]]]]].
    assert (Ev : exists vars, v = VObj (e_cls s) vars) by (destruct O as [vars [-> _]]; eexists; reflexivity).
    destruct Ev as [vars Ev].
    exists ts, (rest ++ lines_of secs). split; [cbn [first_comments]; rewrite Ev; rewrite <- Ev; exact E1|]. split; [exact G|].
    split; [cbn [lines_of flat_map snd]; rewrite E2, <- app_assoc; reflexivity|].
    split; [rewrite Hr; do 2 eexists; split; [reflexivity|exact Hk]|].
    intros ts' G'. destruct (A ts' G') as [A1 A2]. subst v. split.
    + cbn [give_comments]. constructor; [|exact F]. split; [reflexivity|]. split; [exact Il|right; exact A1].
    + cbn [give_comments lines_of flat_map snd]. fold (lines_of secs). rewrite A2, <- app_assoc. reflexivity.
Qed.

Definition first_text (cs : list str) : option str := hd_error cs.
Lemma takes_comment cs : comment_lines cs = takes (hd_error cs) ++ comment_lines (skipn 1 cs).
Proof. destruct cs; reflexivity. Qed.
Lemma texts_app a b : texts (a ++ b) = texts a ++ texts b.
Proof. apply map_app. Qed.
Lemma texts_skip n a : skipn n (texts a) = texts (skipn n a).
Proof. unfold texts. apply skipn_map. Qed.
Lemma texts_first a : firstn 1 (texts a) = texts (firstn 1 a).
Proof. destruct a; reflexivity. Qed.

(* ---- attaching one value per field ---- *)
Lemma assoc_skip n a b : ~ In n (map fst a) -> assoc n (a ++ b : list (string * pyval)) = assoc n b.
Proof.
  induction a as [|[k v] a IH]; intros H; [reflexivity|]. cbn [app assoc]. destruct (String.eqb_spec k n) as [->|]; [exfalso; apply H; left; reflexivity|].
  apply IH. intros X. apply H. right. exact X.
Qed.
Lemma set_var_skip n v a b : ~ In n (map fst a) -> set_var n v (a ++ b) = a ++ set_var n v b.
Proof.
  induction a as [|[k w] a IH]; intros H; [reflexivity|]. cbn [app set_var map] in *. destruct (String.eqb_spec k n) as [->|]; [exfalso; apply H; left; reflexivity|].
  f_equal. apply IH. intros X. apply H. right. exact X.
Qed.
Definition defaults (fs : list field) : list (string * pyval) := map (fun f => (f_name f, field_default f)) fs.
Lemma attach_fields fs att : Forall2 (fun f nv => fst nv = f_name f /\ f_list f = false) fs att ->
  forall pre post, NoDup (map fst pre ++ map f_name fs) ->
  attach_all att (pre ++ defaults fs ++ post) = Ok (pre ++ att ++ post).
Proof.
  induction 1 as [|f [n v] fs att [E L] _ IH]; intros pre post D; [reflexivity|]. cbn [fst snd] in *. subst n.
  cbn [attach_all defaults map app].
  assert (Nf : ~ In (f_name f) (map fst pre)).
  { intros X. apply NoDup_remove_2 in D. apply D. apply in_or_app. left; exact X. }
  unfold attach. rewrite assoc_skip by exact Nf. cbn [assoc]. rewrite String.eqb_refl. unfold field_default at 1. rewrite L. cbn [bind].
  rewrite set_var_skip by exact Nf. cbn [set_var]. rewrite String.eqb_refl.
  change (pre ++ (f_name f, v) :: map (fun f => (f_name f, field_default f)) fs ++ post)
    with (pre ++ [(f_name f, v)] ++ defaults fs ++ post). rewrite app_assoc. fold (defaults fs). rewrite IH.
  - rewrite <- app_assoc. reflexivity.
  - rewrite map_app, <- app_assoc. exact D.
Qed.

(* ---- the data block ---- *)
Section Data.
Variable u : env.

Lemma emits_comment_vars cs r ls : Forall good_text cs -> emits_vars u r ls ->
  emits_vars u (("comment", VList (texts cs)) :: r) (comment_lines cs ++ ls).
Proof. intros G H. apply emits_vars_cons; [apply emits_comments; exact G|exact H]. Qed.

(* classes whose fields are a comment list and optional objects *)
Definition data_class (c : string) : bool :=
  has_comments c && forallb unfixed (fields_of c) && no_dup_strings (map f_name (fields_of c))
  && no_dup_strings (map (fun f => match f_kw f with Some k => k | None => f_name f end) (fields_of c)).
Definition data_elem (e : elem) : bool :=
  ordinary (e_cls e) && match e_single e with None => true | _ => false end && strs_eqb (e_kws e) [kw_comment]
  && match e_subs e with [] => false | _ => true end && data_class (e_cls e).
Lemma comment_field_ok : kw_field_ok comment_field = true. Proof. vm_compute. reflexivity. Qed.

Lemma data_block e cs R att vars m : data_elem e = true -> Forall good_text cs ->
  R <> [] -> (cs = [] -> first_key R <> Some kw_comment) ->
  att <> [] -> subs_at u (takes (hd_error cs)) R (e_subs e) m att ->
  attach_all att (("comment", VList (firstn 1 (texts cs))) :: defaults (tl (fields_of (e_cls e)))) = Ok vars ->
  reads u e (takes (hd_error cs) ++ R) (VObj (e_cls e) vars) (List.length (takes (hd_error cs)) + m).
Proof.
  intros H G NR Nt Na S A. unfold data_elem in H. apply andb_true_iff in H. destruct H as [H Hd].
  do 3 (apply andb_true_iff in H; destruct H as [H ?]). unfold data_class in Hd. do 3 (apply andb_true_iff in Hd; destruct Hd as [Hd ?]).
  destruct (e_single e) eqn:Es; [discriminate|]. unfold strs_eqb in *. destruct (list_eq_dec _ _ _) as [Ek|]; [|discriminate].
  destruct (has_comments_spec _ Hd) as [fs Ef].
  rewrite Ef in *. cbn [tl] in A.
  eapply (data_reads u e (hd_error cs) R comment_field fs); try eassumption.
  - destruct (e_subs e); [discriminate|]. discriminate.
  - intros E. apply Nt. destruct cs; [reflexivity|discriminate].
  - reflexivity.
  - split; [apply no_dup_strings_spec; assumption|].
    match goal with X : no_dup_strings (map (fun f => match f_kw f with _ => _ end) _) = true |- _ => apply no_dup_strings_spec in X; rename X into ND end.
    unfold xml_name. rewrite <- (map_map (fun f => match f_kw f with Some n => n | None => f_name f end) lit).
    apply FinFun.Injective_map_NoDup; [intros a b; apply lit_inj|exact ND].
  - destruct cs as [|t cs]; [exact I|]. inversion G; assumption.
  - destruct cs; exact A.
Qed.

(* comments and sections, then the rest: what is read is the object with its comments settled *)
Lemma data_sections e cs ss ss' fs1 fs2 secs rest att' m' vars :
  data_elem e = true -> e_subs e = ss ++ ss' ->
  forallb leaf_elem ss = true -> forallb (fun s => has_comments (e_cls s)) ss = true -> disjoint_all ss = true ->
  tl (fields_of (e_cls e)) = fs1 ++ fs2 -> Forall2 (fun f s => f_name f = e_name s /\ f_list f = false) fs1 ss ->
  Forall good_text cs -> Forall2 sec_of ss secs -> some_section secs ->
  let secs' := give_comments (section_comments (texts cs) secs) secs in
  Forall2 (fun s nv => known (e_kws s) (keys_of (sec_lines (snd nv))) (keys_of rest)) ss secs' ->
  (forall pre, (forall k, In k (keys_of pre) -> k = kw_comment \/ exists s, In s ss /\ In k (e_kws s)) ->
     subs_at u pre rest ss' m' att') ->
  attach_all att' (("comment", VList (data_comments (texts cs) secs)) :: secs' ++ defaults fs2) = Ok vars ->
  reads u e (comment_lines cs ++ lines_of secs ++ rest) (VObj (e_cls e) vars)
    (List.length (comment_lines cs ++ lines_of secs) + m').
Proof.
  intros H Es L Hc D Ef Fn G F S secs' K HS A.
  destruct (give_split u ss secs F L Hc S) as [ts [r0 [E1 [Gt [E2 [[l [r [Er Ek]]] X]]]]]].
  assert (Esec : secs' = give_comments (texts (skipn 1 (cs ++ ts))) secs).
  { unfold secs', section_comments. rewrite E1, <- texts_app, texts_skip. reflexivity. }
  assert (Ga : Forall good_text (cs ++ ts)) by (apply Forall_app; auto).
  assert (Gs : Forall good_text (skipn 1 (cs ++ ts))) by (destruct (cs ++ ts); [constructor|inversion Ga; assumption]).
  destruct (X _ Gs) as [X1 X2]. rewrite <- Esec in X1, X2.
  assert (El : comment_lines cs ++ lines_of secs ++ rest = takes (hd_error (cs ++ ts)) ++ lines_of secs' ++ rest).
  { rewrite E2, X2, <- !app_assoc. rewrite (app_assoc (comment_lines cs)).
    replace (comment_lines cs ++ comment_lines ts) with (comment_lines (cs ++ ts)) by apply map_app.
    rewrite (takes_comment (cs ++ ts)), <- !app_assoc. reflexivity. }
  assert (Ell : List.length (comment_lines cs ++ lines_of secs) = List.length (takes (hd_error (cs ++ ts))) + List.length (lines_of secs')).
  { apply (f_equal (@List.length line)) in El. rewrite !app_length in El. rewrite !app_length. lia. }
  rewrite El, Ell, <- Nat.add_assoc.
  apply (data_block e (cs ++ ts) _ (secs' ++ att')); try assumption.
  - rewrite X2, Er. intros Y. apply app_eq_nil in Y. destruct Y as [Y _]. apply app_eq_nil in Y. destruct Y; discriminate.
  - intros E0. rewrite X2, E0, Er. cbn. intros Y. injection Y as Y. contradiction.
  - intros Y. apply app_eq_nil in Y. destruct Y as [Y _]. rewrite Y in X2. rewrite Er in X2. symmetry in X2. apply app_eq_nil in X2. destruct X2; discriminate.
  - rewrite Es. apply sections_subs; try assumption.
    + intros s t Hs Ht Hn Hi. destruct (cs ++ ts) as [|y ys]; [destruct Hi|]. destruct Hi as [Hi|[]]. cbn in Hi. congruence.
    + apply HS. intros k Hk. rewrite keys_of_app in Hk. apply in_app_or in Hk. destruct Hk as [Hk|Hk].
      * left. destruct (cs ++ ts) as [|y ys]; [destruct Hk|]. destruct Hk as [Hk|[]]. symmetry. exact Hk.
      * exact (lines_keys u ss secs' X1 L k Hk).
  - rewrite attach_all_app, Ef. unfold defaults. rewrite map_app. fold (defaults fs1) (defaults fs2).
    change (("comment", VList (firstn 1 (texts (cs ++ ts)))) :: defaults fs1 ++ defaults fs2)
      with ([("comment", VList (firstn 1 (texts (cs ++ ts))))] ++ defaults fs1 ++ defaults fs2).
    rewrite attach_fields.
    + cbn [bind app]. rewrite texts_app, <- E1. exact A.
    + clear - Fn X1. revert X1. generalize secs' as sv. revert ss Fn. induction fs1 as [|f fs1 IH]; intros ss Fn sv X1.
      * inversion Fn; subst. inversion X1. constructor.
      * inversion Fn as [|? s ? ss0 [N1 N2] Fn']; subst. inversion X1 as [|? nv ? sv0 [M1 _] X']; subst. constructor; [|eapply IH; eassumption].
        split; [congruence|exact N2].
    + unfold data_elem in H. apply andb_true_iff in H. destruct H as [_ Hd]. unfold data_class in Hd.
      do 3 (apply andb_true_iff in Hd; destruct Hd as [Hd ?]). destruct (has_comments_spec _ Hd) as [fs Efs].
      match goal with Y : no_dup_strings (map f_name _) = true |- _ => apply no_dup_strings_spec in Y; rename Y into ND end.
      rewrite Efs in ND, Ef. cbn [tl] in Ef. subst fs. cbn [map fst app comment_field f_name] in *. rewrite map_app in ND.
      apply NoDup_cons_iff in ND. destruct ND as [N1 N2]. constructor; [intros Y; apply N1; apply in_or_app; left; exact Y|].
      clear - N2. induction (map f_name fs1) as [|a l IH]; [constructor|]. cbn in N2. apply NoDup_cons_iff in N2. destruct N2 as [N2 N3].
      constructor; [intros Y; apply N2; apply in_or_app; left; exact Y|apply IH; exact N3].
Qed.
End Data.
