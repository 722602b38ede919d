(* A section with another section in the middle of its keywords, and lists of segments. *)
From Coq Require Import NArith ZArith List Bool String Arith Lia.
From Verif Require Import PyStr PyDec PyVal Schema KvnPre KvnTree KvnSeg XmlBind KvnBuild NdmXml KvnWrite
     Spec SpecKvn SpecObj SpecMsg StrFacts DecFacts PreFacts SegFacts BuildFacts WriteFacts ParseFacts ShiftFacts
     ReadFacts ComposeFacts MsgFacts PropWrite CoreFacts UserFacts DataFacts SingleFacts ListFacts.
Import ListNotations.
Local Open Scope string_scope.
Local Open Scope list_scope.
Local Arguments find_class : simpl never.
Local Arguments lit : simpl never.

(* ---- keys with a gap ---- *)
Lemma seq_gap (f : nat -> bool) x y z : (forall i, x <= i < x + y -> f i = true) ->
  (forall i, i < x \/ x + y <= i < x + y + z -> f i = false) -> filter f (seq 0 (x + y + z)) = seq x y.
Proof.
  intros H1 H2. rewrite <- Nat.add_assoc, !seq_app, !filter_app. cbn [Nat.add].
  rewrite (filter_none f (seq 0 x)), (filter_none f (seq (x + y) z)).
  - cbn [app]. rewrite app_nil_r. assert (G : forall l, (forall i, In i l -> f i = true) -> filter f l = l).
    { clear. induction l as [|a l IH]; intros H; [reflexivity|]. cbn. rewrite H by (left; reflexivity). f_equal. apply IH. intros; apply H; right; assumption. }
    apply G. intros i Hi. apply in_seq in Hi. apply H1. lia.
  - intros i Hi. apply in_seq in Hi. apply H2. lia.
  - intros i Hi. apply in_seq in Hi. apply H2. lia.
Qed.
Lemma get_seq (pre g post : list str) : map_res (get (pre ++ g ++ post)) (seq (List.length pre) (List.length g)) = Ok g.
Proof.
  revert pre; induction g as [|a g IH]; intros pre; [reflexivity|]. cbn [List.length seq map_res].
  unfold get at 1. rewrite nth_error_app2, Nat.sub_diag by lia. cbn [app nth_error guard_opt bind].
  specialize (IH (pre ++ [a])). rewrite <- app_assoc, app_length in IH. cbn [app List.length] in IH.
  replace (List.length pre + 1) with (S (List.length pre)) in IH by lia. rewrite IH. reflexivity.
Qed.
Lemma has_dup_false l : NoDup l -> has_dup l = false.
Proof.
  induction 1 as [|a l N _ IH]; [reflexivity|]. cbn. rewrite IH, orb_false_r. apply mem_str_false. exact N.
Qed.
Lemma range_gap il x y z start keys : (forall i, In i il <-> i < x \/ x + y <= i < x + y + z) -> 0 < x -> (0 < z \/ y = 0) ->
  (forall dk, map_res (get keys) (seq x y) = Ok dk -> existsb (mem_char c_sp) dk || has_dup dk = false) ->
  (exists dk, map_res (get keys) (seq x y) = Ok dk) ->
  range_of_indices il start keys false = Ok (0, x + y + z).
Proof.
  intros H Hx Hz D [dk E]. unfold range_of_indices.
  assert (Hs : forall i, In i (sort_nat il) <-> i < x \/ x + y <= i < x + y + z) by (intros n; rewrite sort_nat_in; apply H).
  assert (N : il <> []) by (intros Ei; assert (X : In 0 il) by (apply H; lia); rewrite Ei in X; destruct X).
  assert (Mn : forall l, (forall i, In i l <-> i < x \/ x + y <= i < x + y + z) -> list_min l = 0).
  { intros l Hl. assert (B : In 0 l) by (apply Hl; lia). apply list_min_le in B. lia. }
  assert (Mx : forall l, (forall i, In i l <-> i < x \/ x + y <= i < x + y + z) -> list_max l = x + y + z - 1).
  { intros l Hl. assert (B : In (x + y + z - 1) l) by (apply Hl; lia). apply list_max_ge in B.
    assert (Nl : l <> []) by (intros Ei; assert (X : In 0 l) by (apply Hl; lia); rewrite Ei in X; destruct X).
    pose proof (list_max_in l Nl) as A. apply Hl in A. lia. }
  destruct il as [|i il]; [congruence|]. cbv zeta. rewrite (Mn _ Hs), (Mx _ Hs).
  replace (x + y + z - 1 + 1 - 0) with (x + y + z) by lia.
  rewrite (seq_gap (fun n => negb (mem_nat n (sort_nat (i :: il)))) x y z).
  - rewrite E. cbn [bind].
    assert (F : (match seq x y with [] => Ok (sort_nat (i :: il)) | _ :: _ => if existsb (mem_char c_sp) dk || has_dup dk then chop 0 (x + y + z - 1) (sort_nat (i :: il)) else Ok (sort_nat (i :: il)) end) = Ok (sort_nat (i :: il))).
    { rewrite (D dk E). destruct (seq x y); reflexivity. }
    rewrite F. cbn [bind]. destruct (sort_nat (i :: il)) as [|a r] eqn:Es; [apply sort_nil in Es; discriminate|].
    rewrite (Mn _ Hs), (Mx _ Hs). f_equal. f_equal. lia.
  - intros j Hj. apply negb_true_iff. destruct (mem_nat j (sort_nat (i :: il))) eqn:M; [|reflexivity].
    apply mem_nat_spec, Hs in M. lia.
  - intros j Hj. apply negb_false_iff, mem_nat_spec, Hs. lia.
Qed.

Lemma nodup_mid (a g b : list str) : NoDup (a ++ g ++ b) -> NoDup g.
Proof.
  induction a as [|x a IH]; cbn; intros H; [|apply NoDup_cons_iff in H; apply IH, H].
  induction g as [|y g IH]; [constructor|]. cbn in H. apply NoDup_cons_iff in H. destruct H as [H1 H2].
  constructor; [intros X; apply H1, in_or_app; auto|apply IH; exact H2].
Qed.
(* comments, keywords [a] of [T], foreign keywords [g], keywords [b] of [T] *)
Definition gapped (T : list str) (n : nat) (a g b rest : list str) : Prop :=
  a <> [] /\ (b <> [] \/ g = []) /\ NoDup (a ++ g ++ b) /\ incl (a ++ b) T /\
  ~ In kw_comment (a ++ g ++ b) /\ (forall k, In k g -> ~ In k T) /\ (forall k, In k g -> mem_char c_sp k = false) /\
  (n <> 0 -> In kw_comment T) /\ (In kw_comment T -> List.length T <> 1) /\
  forall t, In t T -> t <> kw_comment -> In t rest -> In t (a ++ b).

Lemma gapped_index T n a g b rest i : gapped T n a g b rest ->
  (In i (index_list0 T 0 (repeat kw_comment n ++ a ++ g ++ b ++ rest)) <->
   n <= i < n + List.length a \/ n + List.length a + List.length g <= i < n + List.length a + List.length g + List.length b).
Proof.
  intros [Ha [Hb [D [I [NC [Dg [_ [_ [_ F]]]]]]]]]. rewrite index_list0_in. unfold index_start. cbn [skipn].
  assert (Ek : repeat kw_comment n ++ a ++ g ++ b ++ rest = repeat kw_comment n ++ (a ++ g ++ b) ++ rest) by (rewrite <- !app_assoc; reflexivity).
  rewrite Ek. set (ks := a ++ g ++ b) in *. split.
  - intros [t [H1 [H2 H3]]]. rewrite index_from_app_not in H3 by (apply repeat_not_in; exact H2). rewrite repeat_length in H3.
    assert (Ht : In t (a ++ b)).
    { destruct (in_dec (list_eq_dec N.eq_dec) t (a ++ b)) as [Y|Nn]; [exact Y|].
      assert (Nk : ~ In t ks).
      { unfold ks. intros X. apply in_app_or in X. destruct X as [X|X]; [apply Nn, in_or_app; auto|].
        apply in_app_or in X. destruct X as [X|X]; [exact (Dg t X H1)|apply Nn, in_or_app; auto]. }
      rewrite index_from_app_not in H3 by exact Nk. apply F; [exact H1|exact H2|].
      destruct (in_dec (list_eq_dec N.eq_dec) t rest) as [Y|Nr]; [exact Y|]. rewrite index_from_none in H3 by exact Nr. discriminate. }
    apply in_app_or in Ht.
    assert (Hn : exists k, nth_error ks k = Some t /\ (k < List.length a \/ List.length a + List.length g <= k < List.length a + List.length g + List.length b)).
    { destruct Ht as [Ht|Ht]; apply In_nth_error in Ht; destruct Ht as [k Hk]; pose proof (proj1 (nth_error_Some _ _) (ltac:(rewrite Hk; discriminate) : nth_error _ k <> None)) as Lk.
      - exists k. unfold ks. rewrite nth_error_app1 by exact Lk. auto.
      - exists (List.length a + List.length g + k). unfold ks. rewrite nth_error_app2 by lia. rewrite nth_error_app2 by lia.
        replace (List.length a + List.length g + k - List.length a - List.length g) with k by lia. split; [exact Hk|lia]. }
    destruct Hn as [k [Hk Lk]]. rewrite (index_from_app_some _ _ (0 + n + k)) in H3 by (apply index_from_nodup; assumption).
    injection H3 as <-. lia.
  - intros Hi. destruct (nth_error ks (i - n)) as [t|] eqn:Et.
    2:{ exfalso. apply nth_error_None in Et. unfold ks in Et. rewrite !app_length in Et. lia. }
    assert (Ht : In t (a ++ b)).
    { unfold ks in Et. apply in_or_app. destruct Hi as [Hi|Hi].
      - rewrite nth_error_app1 in Et by lia. left. eapply nth_error_In; exact Et.
      - rewrite nth_error_app2 in Et by lia. rewrite nth_error_app2 in Et by lia. right. eapply nth_error_In; exact Et. }
    assert (Hk : In t ks) by (eapply nth_error_In; exact Et).
    assert (t <> kw_comment) by (intros ->; contradiction).
    exists t. split; [apply I; exact Ht|]. split; [assumption|].
    rewrite index_from_app_not by (apply repeat_not_in; assumption). rewrite repeat_length.
    rewrite (index_from_app_some _ _ (0 + n + (i - n))) by (apply index_from_nodup; assumption). f_equal. lia.
Qed.

Lemma gapped_range T n a g b rest : gapped T n a g b rest ->
  get_min_max T 0 (repeat kw_comment n ++ a ++ g ++ b ++ rest) None false
  = Ok ((0, n + List.length a + List.length g + List.length b), T).
Proof.
  intros G. pose proof (gapped_index T n a g b rest) as HI. pose proof G as G0.
  destruct G as [Ha [Hb [D [I [NC [Dg [Sg [Hn [HT F]]]]]]]]].
  assert (La : 0 < List.length a) by (destruct a; [congruence|cbn; lia]).
  assert (Lb : 0 < List.length b \/ List.length g = 0) by (destruct Hb as [Hb| ->]; [left; destruct b; [congruence|cbn; lia]|right; reflexivity]).
  set (keys := repeat kw_comment n ++ a ++ g ++ b ++ rest) in *.
  assert (P : exists il, process_comment_lines T 0 keys (index_list0 T 0 keys) = Ok il /\
    forall i, In i il <-> i < n + List.length a \/ n + List.length a + List.length g <= i < n + List.length a + List.length g + List.length b).
  { unfold process_comment_lines. destruct (mem_str kw_comment T) eqn:M.
    - apply mem_str_spec in M. rewrite (proj2 (Nat.eqb_neq _ _) (HT M)).
      assert (X : In n (index_list0 T 0 keys)) by (apply HI; [exact G0|lia]).
      assert (Ge : n <= list_max (index_list0 T 0 keys)) by (apply list_max_ge; exact X).
      assert (Lt : list_max (index_list0 T 0 keys) < n + List.length a + List.length g + List.length b).
      { assert (Ne : index_list0 T 0 keys <> []) by (intros Y; rewrite Y in X; destruct X).
        pose proof (list_max_in _ Ne) as Y. apply HI in Y; [lia|exact G0]. }
      destruct (index_list0 T 0 keys) as [|j il] eqn:L; [destruct X|]. rewrite <- L in *.
      eexists. split; [reflexivity|]. intros i. rewrite in_app_iff, (HI i G0), comment_indexes_in.
      assert (Nc : forall i, n <= i < n + List.length a + List.length g + List.length b -> nth_error keys i <> Some kw_comment).
      { intros k Hk. unfold keys. rewrite nth_repeat_app. rewrite (proj2 (Nat.ltb_ge k n)) by lia.
        replace (a ++ g ++ b ++ rest) with ((a ++ g ++ b) ++ rest) by (rewrite <- !app_assoc; reflexivity).
        rewrite nth_error_app1 by (rewrite !app_length; lia). intros Y. apply nth_error_In in Y. contradiction. }
      assert (Yc : forall i, i < n -> nth_error keys i = Some kw_comment).
      { intros k Hk. unfold keys. rewrite nth_repeat_app. rewrite (proj2 (Nat.ltb_lt k n)) by lia. reflexivity. }
      split.
      + intros [H|[H Y]]; [lia|]. destruct (Nat.lt_ge_cases i n) as [Z|Z]; [lia|]. exfalso. apply (Nc i); [lia|exact Y].
      + intros H. destruct (Nat.lt_ge_cases i n) as [Z|Z]; [right; split; [lia|apply Yc; exact Z]|left; lia].
    - apply mem_str_false in M. assert (n = 0) by (destruct n; [reflexivity|exfalso; apply M, Hn; discriminate]). subst n.
      eexists. split; [reflexivity|]. intros i. rewrite (HI i G0). lia. }
  destruct P as [il [E H]]. unfold get_min_max. cbn [extend_tags]. rewrite E. cbn [bind].
  assert (Q : map_res (get keys) (seq (n + List.length a) (List.length g)) = Ok g).
  { unfold keys. rewrite (app_assoc (repeat _ _)). 
    replace (n + List.length a) with (List.length (repeat kw_comment n ++ a)) by (rewrite app_length, repeat_length; reflexivity).
    apply get_seq. }
  rewrite (range_gap il (n + List.length a) (List.length g) (List.length b) 0 keys H); [reflexivity|lia|exact Lb| |eexists; exact Q].
  intros dk Y. rewrite Q in Y. injection Y as <-. apply orb_false_iff. split.
  - apply not_true_is_false. intros X. apply existsb_exists in X. destruct X as [k [K1 K2]]. rewrite (Sg k K1) in K2. discriminate.
  - apply has_dup_false. eapply nodup_mid. exact D.
Qed.

Section Rel.
Variable u : env.

(* a section before which nothing of it is *)
Lemma claims_after T p own rest : ~ In kw_comment T -> (forall t, In t T -> ~ In t p) -> claims T own rest ->
  get_min_max T 0 (p ++ own ++ rest) None false = Ok ((List.length p, List.length p + List.length own), T).
Proof.
  intros NT Np C. pose proof (claims_index T own rest) as HI. pose proof C as C0.
  destruct C as [n [ks [E [Ne [D [I [NC [Hn [HT F]]]]]]]]].
  assert (n = 0) by (destruct n; [reflexivity|exfalso; apply NT, Hn; discriminate]). subst n. cbn [repeat app] in E. subst own.
  assert (H : forall i, In i (index_list0 T 0 (p ++ ks ++ rest)) <-> List.length p <= i < List.length p + List.length ks).
  { intros i. rewrite index_list0_in. unfold index_start. cbn [skipn]. split.
    - intros [t [H1 [H2 H3]]]. rewrite index_from_app_not in H3 by (apply Np; exact H1). cbn [Nat.add] in H3.
      assert (Ht : In t ks).
      { destruct (in_dec (list_eq_dec N.eq_dec) t ks) as [Y|Nn]; [exact Y|].
        rewrite index_from_app_not in H3 by exact Nn. apply F; [exact H1|exact H2|].
        destruct (in_dec (list_eq_dec N.eq_dec) t rest) as [Y|Nr]; [exact Y|]. rewrite index_from_none in H3 by exact Nr. discriminate. }
      destruct (index_from_in t (List.length p) ks Ht) as [j Hj]. pose proof (index_from_app_some _ _ _ _ rest Hj) as X.
      rewrite X in H3. injection H3 as ->. apply index_from_bounds in Hj. lia.
    - intros Hi. destruct (nth_error ks (i - List.length p)) as [t|] eqn:Et; [|apply nth_error_None in Et; lia].
      assert (Ht : In t ks) by (eapply nth_error_In; exact Et). exists t. split; [apply I; exact Ht|].
      split; [intros ->; contradiction|]. rewrite index_from_app_not by (apply Np, I; exact Ht). cbn [Nat.add].
      rewrite (index_from_app_some _ _ (List.length p + (i - List.length p))) by (apply index_from_nodup; assumption). f_equal. lia. }
  unfold get_min_max. cbn [extend_tags]. unfold process_comment_lines. rewrite (proj2 (mem_str_false _ _) NT). cbn [bind].
  rewrite (range_fill _ _ _ 0 (p ++ ks ++ rest) false H); [reflexivity|]. destruct ks; [congruence|cbn; lia].
Qed.

Lemma subs_inside s ss p v q R m att : e_islist s = false -> leaf_elem s = true -> ~ In kw_comment (e_kws s) ->
  section (e_cls s) v -> (forall t, In t (e_kws s) -> ~ In t (keys_of p) /\ ~ In t (keys_of (q ++ R))) ->
  subs_at u (p ++ sec_lines v ++ q) R ss m att ->
  subs_at u (p ++ sec_lines v ++ q) R (s :: ss) m ((e_name s, v) :: att).
Proof.
  intros L Ls NT S N [gs [G F]]. destruct (leaf_elem_spec s Ls) as [O [Sg [Es [Lc [Ek [H1 Rk]]]]]].
  set (pre := p ++ sec_lines v ++ q) in *.
  assert (R1 : own_range u s (keys_of (pre ++ R)) (pre ++ R) (List.length pre) = Ok ((List.length pre, List.length pre), s)).
  { rewrite <- (set_kws_same s) at 2. apply own_range_ordinary; [exact O|exact Sg|]. apply misses_range. split; [intros _; exact H1|].
    rewrite keys_of_app. intros t Ht Hc X.
    assert (Y : In t (keys_of R)).
    { rewrite <- (keys_of_length pre) in X. rewrite skipn_app, skipn_all, Nat.sub_diag in X. exact X. }
    destruct (N t Ht) as [_ N2]. apply N2. rewrite keys_of_app. apply in_or_app. right; exact Y. }
  assert (Cl : claims (e_kws s) (keys_of (sec_lines v)) (keys_of (q ++ R))).
  { apply (section_claims u); [exact Ls|exact S|]. intros t Ht Hc X. exfalso. destruct (N t Ht) as [_ N2]. exact (N2 X). }
  assert (R2 : own_range u s (keys_of (pre ++ R)) (pre ++ R) 0 = Ok ((List.length p, List.length p + List.length (sec_lines v)), s)).
  { rewrite <- (set_kws_same s) at 2. apply own_range_ordinary; [exact O|exact Sg|].
    assert (E : keys_of (pre ++ R) = keys_of p ++ keys_of (sec_lines v) ++ keys_of (q ++ R)).
    { unfold pre. rewrite !keys_of_app, <- !app_assoc. reflexivity. }
    rewrite E, (claims_after _ _ _ _ NT); [rewrite !keys_of_length; reflexivity| |exact Cl]. intros t Ht. apply (N t Ht). }
  exists (set_mm s (List.length p, List.length p + List.length (sec_lines v)) :: gs). split.
  - cbn [ident_subs]. rewrite L, identify_eq, R1. cbn [bind]. rewrite Es. cbn [bind fst snd].
    rewrite Nat.eqb_refl, Es. cbn [andb]. rewrite R2. cbn [bind fst snd]. rewrite G. reflexivity.
  - constructor; [|exact F]. split; [reflexivity|]. cbn [snd].
    replace (set_mm s (List.length p, List.length p + List.length (sec_lines v)))
      with (shift_elem (List.length p) (set_mm s (0, List.length (sec_lines v)))).
    2:{ rewrite shift_set_mm, shift_subs_nil by exact Es. unfold shift_range. cbn [fst snd]. rewrite Nat.add_0_r. reflexivity. }
    replace (pre ++ R) with (p ++ sec_lines v ++ q ++ R) by (unfold pre; rewrite <- !app_assoc; reflexivity).
    apply builds_shift. pose proof (section_lines_ne u s v Ls S) as Nl. destruct S as [vars [-> [W Nz]]]. cbn [sec_lines] in *.
    apply build_leaf; try assumption.
    + unfold own_lines.
      assert (I : forall k, In k (keys_of (map line_of (entries (fields_of (e_cls s)) vars))) -> In k (e_kws s)).
      { intros k Hk. destruct (section_keys_incl u s (VObj (e_cls s) vars) Ls) with (k := k) as [->|X]; [right; exists vars; auto|exact Hk| |exact X].
        destruct Cl as [n [ks [E [_ [_ [I [NC [Hn _]]]]]]]]. cbn [sec_lines] in E. rewrite E in Hk. apply in_app_or in Hk.
        destruct Hk as [Hk|Hk]; [|contradiction]. destruct n; [destruct Hk|]. exfalso. apply NT, Hn. discriminate. }
      clear - I. induction (map line_of (entries (fields_of (e_cls s)) vars)) as [|l own IH]; [reflexivity|]. cbn [filter].
      rewrite (proj2 (mem_str_spec _ _)) by (apply I; left; reflexivity). f_equal. apply IH. intros k Hk. apply I. right. exact Hk.
    + intros X. rewrite X in Nl. cbn in Nl. lia.
    + apply parse_section; assumption.
Qed.

Lemma entries_app fs1 fs2 v1 v2 : List.length fs1 = List.length v1 -> entries (fs1 ++ fs2) (v1 ++ v2) = entries fs1 v1 ++ entries fs2 v2.
Proof.
  revert v1; induction fs1 as [|f fs1 IH]; intros [|[n v] v1] H; try discriminate; [reflexivity|].
  cbn [app entries]. rewrite IH by (cbn in H; lia). rewrite app_assoc. reflexivity.
Qed.
Lemma own_lines_all e L : (forall k, In k (keys_of L) -> In k (e_kws e)) -> own_lines e L = L.
Proof.
  unfold own_lines. induction L as [|l L IH]; intros H; [reflexivity|]. cbn [filter].
  rewrite (proj2 (mem_str_spec _ _)) by (apply H; left; reflexivity). f_equal. apply IH. intros k Hk. apply H. right; exact Hk.
Qed.
Lemma own_lines_none e L : (forall k, In k (keys_of L) -> ~ In k (e_kws e)) -> own_lines e L = [].
Proof.
  unfold own_lines. induction L as [|l L IH]; intros H; [reflexivity|]. cbn [filter].
  rewrite (proj2 (mem_str_false _ _)) by (apply H; left; reflexivity). apply IH. intros k Hk. apply H. right; exact Hk.
Qed.
Lemma own_lines_app e a b : own_lines e (a ++ b) = own_lines e a ++ own_lines e b.
Proof. apply filter_app. Qed.

(* keywords, an optional section, keywords *)
Definition kws_of (fs : list field) : list str := map (fun f => lit (kw_of f)) fs.
Definition rel_shape (e s : elem) (fs1 : list field) (f0 : field) (fs2 : list field) : Prop :=
  (ordinary (e_cls e) = true /\ e_single e = None /\ root_kws (e_kws e) = false /\ e_subs e = [s] /\ e_islist e = false) /\
  (leaf_elem s = true /\ e_islist s = false /\ mem_str kw_comment (e_kws s) = false /\
   forallb (fun k => negb (mem_char c_sp k)) (e_kws s) = true /\ disjointb (e_kws s) (e_kws e) = true) /\
  (fields_of (e_cls e) = comment_field :: fs1 ++ f0 :: fs2 /\ f_name f0 = e_name s /\ f_list f0 = false /\
   forallb unfixed (fields_of (e_cls e)) = true /\
   forallb kw_field_ok (fs1 ++ fs2) = true /\ forallb (fun f => negb (f_list f)) (fs1 ++ fs2) = true) /\
  (no_dup_strings (map f_name (fields_of (e_cls e))) = true /\
   no_dup_strings (map (fun f => match f_kw f with Some k => k | None => f_name f end) (fields_of (e_cls e))) = true /\
   e_kws e = kw_comment :: kws_of (fs1 ++ fs2) /\ Nat.eqb (List.length (e_kws e)) 1 = false).
Definition rel_lines (fs1 fs2 : list field) (before : list (string * pyval)) (rsv : pyval) (after : list (string * pyval)) : list line :=
  map line_of (entries (comment_field :: fs1) before) ++ sec_lines rsv ++ map line_of (entries fs2 after).

Lemma rel_reads e s fs1 f0 fs2 before rsv after rest : rel_shape e s fs1 f0 fs2 ->
  wf_vars (comment_field :: fs1) before -> opt_section (e_cls s) rsv -> wf_vars fs2 after ->
  (exists n x, In (n, x) before /\ is_set x) ->
  (forall t, In t (e_kws e) \/ In t (e_kws s) -> t <> kw_comment -> ~ In t (keys_of rest)) ->
  reads u e (rel_lines fs1 fs2 before rsv after ++ rest) (VObj (e_cls e) (before ++ (e_name s, rsv) :: after))
    (List.length (rel_lines fs1 fs2 before rsv after)).
Proof.
  intros [[O [Sg [Rk [Es _]]]] [[Ls [Il [Ncs [Sp Dj]]]] [[Ef [En [Lf0 [Un [Kw Nl]]]]] [Dn [Dk [Ek Ln]]]]]] Wb Or Wa Sb Nr.
  apply mem_str_false in Ncs. apply Nat.eqb_neq in Ln.
  rewrite forallb_app in Kw, Nl. apply andb_true_iff in Kw. destruct Kw as [Kw1 Kw2]. apply andb_true_iff in Nl. destruct Nl as [Nl1 Nl2].
  inversion Wb as [|? [k v] ? before' [E1 Wf] Ws]; subst. cbn [fst snd f_name comment_field] in *. subst k.
  destruct (wf_comment_value v Wf) as [ts [-> G]].
  set (la := map line_of (entries (comment_field :: fs1) (("comment", VList (texts ts)) :: before'))).
  set (lb := map line_of (entries fs2 after)).
  assert (Dkw : NoDup (kws_of (fs1 ++ fs2))).
  { apply no_dup_strings_spec in Dk. rewrite Ef in Dk. cbn [map] in Dk. apply NoDup_cons_iff in Dk. destruct Dk as [_ Dk].
    rewrite map_app in Dk. cbn [map] in Dk. apply NoDup_remove_1 in Dk. rewrite <- map_app in Dk.
    unfold kws_of. rewrite <- (map_map kw_of lit). apply FinFun.Injective_map_NoDup; [intros a b; apply lit_inj|].
    assert (X : map kw_of (fs1 ++ fs2) = map (fun f => match f_kw f with Some k => k | None => f_name f end) (fs1 ++ fs2)).
    { apply map_ext_in. intros f Hf.
      assert (Kf : kw_field_ok f = true).
      { apply in_app_or in Hf. destruct Hf as [Hf|Hf]; [rewrite forallb_forall in Kw1; apply Kw1; exact Hf|rewrite forallb_forall in Kw2; apply Kw2; exact Hf]. }
      destruct (kw_field_spec u f Kf) as [_ [_ [_ [Y _]]]]. rewrite Y. reflexivity. }
    rewrite X. exact Dk. }
  destruct (nonlist_keys fs1 before' Kw1 Nl1 Ws) as [s1 [K1 [I1 [D1 N1]]]].
  destruct (nonlist_keys fs2 after Kw2 Nl2 Wa) as [s2 [K2 [I2 [D2 N2]]]].
  assert (NDf : NoDup (fs1 ++ fs2)) by (unfold kws_of in Dkw; eapply NoDup_map_inv; exact Dkw).
  assert (NDs : NoDup (kws_of s1 ++ kws_of s2)).
  { unfold kws_of. rewrite <- map_app.
    assert (Inj : forall a b, In a (fs1 ++ fs2) -> In b (fs1 ++ fs2) -> lit (kw_of a) = lit (kw_of b) -> a = b).
    { intros a b Ha Hb E. unfold kws_of in Dkw. clear - Dkw Ha Hb E. revert Dkw Ha Hb E. generalize (fs1 ++ fs2) as fs. intros fs D Ha Hb E.
      apply in_split in Ha. destruct Ha as [l1 [l2 ->]]. rewrite map_app in D. cbn in D.
      apply NoDup_remove_2 in D. apply in_app_or in Hb. destruct Hb as [Hb|[Hb|Hb]]; [|exact Hb|]; exfalso; apply D; rewrite E;
        apply in_or_app; [left|right]; apply (in_map (fun f => lit (kw_of f))); exact Hb. }
    assert (I12 : incl (s1 ++ s2) (fs1 ++ fs2)) by (apply incl_app; [apply incl_appl|apply incl_appr]; assumption).
    assert (D12 : NoDup (s1 ++ s2)).
    { clear - NDf D1 D2 I1 I2. assert (Nf1 : NoDup fs1 /\ NoDup fs2 /\ forall f, In f fs1 -> ~ In f fs2).
      { clear - NDf. induction fs1 as [|f fs1 IH]; [split; [constructor|split; [exact NDf|intros f []]]|].
        cbn in NDf. apply NoDup_cons_iff in NDf. destruct NDf as [A B]. destruct (IH B) as [B1 [B2 B3]]. split; [constructor; [intros X; apply A, in_or_app; auto|exact B1]|].
        split; [exact B2|]. intros g [<-|Hg]; [intros X; apply A, in_or_app; auto|apply B3; exact Hg]. }
      destruct Nf1 as [A [B C]]. specialize (D1 A). specialize (D2 B). clear - D1 D2 C I1 I2.
      induction D1 as [|f s1 N _ IH]; [exact D2|]. cbn. constructor; [|apply IH; intros x Hx; apply I1; right; exact Hx].
      intros X. apply in_app_or in X. destruct X as [X|X]; [contradiction|]. apply (C f); [apply I1; left; reflexivity|apply I2; exact X]. }
    clear - Inj I12 D12. induction D12 as [|f ss N _ IH]; [constructor|]. cbn. constructor; [|apply IH; intros x Hx; apply I12; right; exact Hx].
    intros X. apply in_map_iff in X. destruct X as [g [E X]]. apply Inj in E; [subst; contradiction|apply I12; right; exact X|apply I12; left; reflexivity]. }
  assert (Ela : keys_of la = repeat kw_comment (List.length ts) ++ kws_of s1).
  { unfold la. cbn [entries comment_field f_kw field_entries]. rewrite map_app, keys_of_app, K1. f_equal. unfold texts. rewrite !map_map. unfold keys_of. rewrite map_map.
    clear. induction ts as [|t ts IH]; [reflexivity|]. cbn [map repeat List.length]. rewrite IH. reflexivity. }
  assert (Elb : keys_of lb = kws_of s2) by exact K2.
  assert (Is : incl (kws_of s1 ++ kws_of s2) (e_kws e)).
  { rewrite Ek. apply incl_tl. unfold kws_of. rewrite <- map_app. apply incl_map. apply incl_app; [apply incl_appl|apply incl_appr]; assumption. }
  assert (Nc12 : ~ In kw_comment (kws_of s1 ++ kws_of s2)).
  { unfold kws_of. rewrite <- K1, <- K2. intros X. apply in_app_or in X. destruct X as [X|X]; revert X; apply (nonlist_no_comment u); assumption. }
  assert (Ns1 : kws_of s1 <> []).
  { intros X. apply map_eq_nil in X. apply N1; [|exact X]. destruct Sb as [n [x [[Hi|Hi] Hs]]]; [injection Hi as <- <-; destruct Hs|exists n, x; auto]. }
  assert (Hlen : List.length la = List.length ts + List.length (kws_of s1)).
  { rewrite <- (keys_of_length la), Ela, app_length, repeat_length. reflexivity. }
  assert (Hlb : List.length lb = List.length (kws_of s2)) by (rewrite <- (keys_of_length lb), Elb; reflexivity).
  assert (Hks : forall k, In k (keys_of (sec_lines rsv)) -> In k (e_kws s)).
  { intros k Hk. destruct Or as [->|S]; [destruct Hk|]. destruct (section_claims u s rsv [] Ls S) as [n [ks [E [_ [_ [I [_ [Hn _]]]]]]]]; [intros t _ _ []|].
    rewrite E in Hk. apply in_app_or in Hk. destruct Hk as [Hk|Hk]; [|apply I; exact Hk]. destruct n; [destruct Hk|]. exfalso. apply Ncs, Hn. discriminate. }
  assert (Hdj : forall k, In k (e_kws s) -> ~ In k (e_kws e)).
  { intros k Hk X. apply (disjointb_spec _ _ k Dj Hk); [intros ->; contradiction|exact X]. }
  assert (Oa : own_lines e la = la).
  { apply own_lines_all. intros k Hk. rewrite Ela in Hk. apply in_app_or in Hk. destruct Hk as [Hk|Hk].
    - apply repeat_spec in Hk. subst k. rewrite Ek. left; reflexivity.
    - apply Is, in_or_app. left; exact Hk. }
  assert (Ob : own_lines e lb = lb).
  { apply own_lines_all. intros k Hk. rewrite Elb in Hk. apply Is, in_or_app. right; exact Hk. }
  assert (Os : own_lines e (sec_lines rsv) = []).
  { apply own_lines_none. intros k Hk. apply Hdj, Hks, Hk. }
  assert (P : parse_list u (e_cls e) None (la ++ lb) = Ok (VObj (e_cls e) ((("comment", VList (texts ts)) :: before') ++ (e_name s, VNone) :: after))).
  { assert (Eall : la ++ lb = map line_of (entries (fields_of (e_cls e)) ((("comment", VList (texts ts)) :: before') ++ (e_name s, VNone) :: after))).
    { rewrite Ef. change (comment_field :: fs1 ++ f0 :: fs2) with ((comment_field :: fs1) ++ f0 :: fs2). rewrite entries_app.
      - rewrite map_app. reflexivity.
      - cbn. f_equal. clear - Ws. induction Ws; [reflexivity|]. cbn. f_equal. assumption. }
    rewrite Eall. apply parse_entries.
    - split; [apply no_dup_strings_spec; assumption|]. apply no_dup_strings_spec in Dk.
      unfold xml_name. rewrite <- (map_map (fun f => match f_kw f with Some n => n | None => f_name f end) lit).
      apply FinFun.Injective_map_NoDup; [intros a b; apply lit_inj|exact Dk].
    - exact Un.
    - rewrite Ef. change (comment_field :: fs1 ++ f0 :: fs2) with ((comment_field :: fs1) ++ f0 :: fs2). apply Forall2_app.
      + apply (wf_parsed (comment_field :: fs1)); [cbn [forallb]; rewrite comment_field_ok; exact Kw1|exact Wb].
      + constructor; [|apply wf_parsed; assumption]. split; [symmetry; exact En|]. right. unfold field_default. rewrite Lf0. reflexivity. }
  assert (Nms : ~ In (e_name s) (map fst (("comment", VList (texts ts)) :: before'))).
  { apply no_dup_strings_spec in Dn. rewrite Ef in Dn. change (comment_field :: fs1 ++ f0 :: fs2) with ((comment_field :: fs1) ++ f0 :: fs2) in Dn.
    rewrite map_app in Dn. cbn [map] in Dn. apply NoDup_remove_2 in Dn. intros X. apply Dn. apply in_or_app. left. rewrite <- En in X.
    cbn [map fst] in X. destruct X as [X|X]; [left; exact X|right]. rewrite <- (wf_vars_names _ _ Ws). exact X. }
  assert (At : forall v, attach_all [(e_name s, v)] ((("comment", VList (texts ts)) :: before') ++ (e_name s, VNone) :: after)
             = Ok ((("comment", VList (texts ts)) :: before') ++ (e_name s, v) :: after)).
  { intros v. cbn [attach_all]. unfold attach. rewrite assoc_skip by exact Nms. cbn [assoc]. rewrite String.eqb_refl. cbn [bind].
    rewrite set_var_skip by exact Nms. cbn [set_var]. rewrite String.eqb_refl. reflexivity. }
  assert (Nre : forall t, In t (e_kws e) -> t <> kw_comment -> In t (keys_of rest) -> False) by (intros t Ht Hc; exact (Nr t (or_introl Ht) Hc)).
  assert (Nrs : forall t, In t (e_kws s) -> In t (keys_of rest) -> False) by (intros t Ht; apply (Nr t (or_intror Ht)); intros ->; contradiction).
  assert (Nab : forall t, In t (e_kws s) -> ~ In t (keys_of la) /\ ~ In t (keys_of lb)).
  { intros t Ht. assert (X : forall k, In k (e_kws e) -> k <> t) by (intros k Hk ->; exact (Hdj t Ht Hk)). split; intros Y.
    - rewrite Ela in Y. apply in_app_or in Y. destruct Y as [Y|Y]; [apply repeat_spec in Y; subst; contradiction|].
      apply (X t); [apply Is, in_or_app; left; exact Y|reflexivity].
    - rewrite Elb in Y. apply (X t); [apply Is, in_or_app; right; exact Y|reflexivity]. }
  unfold rel_lines. fold la lb. destruct Or as [->|S].
  - (* no section *)
    cbn [sec_lines app]. rewrite <- (Nat.add_0_r (List.length (la ++ lb))). eapply node_reads with (att := [(e_name s, VNone)]); try assumption.
    + rewrite Es. discriminate.
    + rewrite !keys_of_app, Ela, Elb, <- !app_assoc.
      assert (Gp : gapped (e_kws e) (List.length ts) (kws_of s1) [] (kws_of s2) (keys_of rest)).
      { split; [exact Ns1|]. split; [right; reflexivity|]. split; [exact NDs|]. split; [exact Is|]. split; [exact Nc12|].
        split; [intros k []|]. split; [intros k []|]. split; [intros _; rewrite Ek; left; reflexivity|]. split; [intros _; exact Ln|].
        intros t Ht Hc Hi. exfalso. exact (Nre t Ht Hc Hi). }
      pose proof (gapped_range _ _ _ _ _ _ Gp) as Gr. cbn [app List.length] in Gr. rewrite Gr, app_length, Hlen, Hlb. do 3 f_equal. lia.
    + reflexivity.
    + left; discriminate.
    + rewrite own_lines_app, Oa, Ob. exact P.
    + rewrite Es. destruct (leaf_elem_spec s Ls) as [Os1 [Os2 [Os3 [_ [_ [Os4 _]]]]]]. apply subs_absent; try assumption; [|apply subs_nil].
      split; [intros _; exact Os4|]. intros t Ht Hc Hi. rewrite !keys_of_app in Hi. apply in_app_or in Hi. destruct (Nab t Ht) as [A1 A2].
      destruct Hi as [Hi|Hi]; [|exact (Nrs t Ht Hi)]. apply in_app_or in Hi. destruct Hi as [Hi|Hi]; contradiction.
    + apply At.
  - destruct lb as [|l0 lb0] eqn:Hlb0.
    + (* nothing after it *)
      rewrite app_nil_r in *. rewrite app_length, <- app_assoc. rewrite <- (Nat.add_0_r (List.length (sec_lines rsv))). eapply node_reads with (att := [(e_name s, rsv)]); try assumption.
      * rewrite Es. discriminate.
      * rewrite !keys_of_app, Ela, <- !app_assoc.
        assert (Gp : gapped (e_kws e) (List.length ts) (kws_of s1) [] [] (keys_of (sec_lines rsv) ++ keys_of rest)).
        { split; [exact Ns1|]. split; [right; reflexivity|].
          assert (E2 : kws_of s2 = []) by (rewrite <- Elb; reflexivity). rewrite E2, app_nil_r in NDs, Is, Nc12. cbn [app]. rewrite !app_nil_r.
          split; [exact NDs|]. split; [exact Is|]. split; [exact Nc12|].
          split; [intros k []|]. split; [intros k []|]. split; [intros _; rewrite Ek; left; reflexivity|]. split; [intros _; exact Ln|].
          intros t Ht Hc Hi. exfalso. apply in_app_or in Hi. destruct Hi as [Hi|Hi]; [|exact (Nre t Ht Hc Hi)]. apply Hks in Hi. exact (Hdj t Hi Ht). }
        pose proof (gapped_range _ _ _ _ _ _ Gp) as Gr. cbn [app List.length] in Gr. rewrite Gr, Hlen. do 3 f_equal. lia.
      * reflexivity.
      * left; discriminate.
      * rewrite Oa. exact P.
      * rewrite Es. apply subs_one; [exact Il|apply section_reads; [exact Ls|exact S|]|apply subs_nil].
        intros t Ht Hc Hi. exfalso. exact (Nrs t Ht Hi).
      * apply At.
    + (* in the middle *)
      rewrite <- Hlb0 in *. rewrite <- (Nat.add_0_r (List.length (la ++ sec_lines rsv ++ lb))). eapply node_reads with (att := [(e_name s, rsv)]); try assumption.
      * rewrite Es. discriminate.
      * rewrite !keys_of_app, Ela, Elb, <- !app_assoc.
        destruct (section_claims u s rsv [] Ls S) as [n [ks [E [Nks [Dks [Iks [NCks [Hn _]]]]]]]]; [intros t _ _ []|].
        assert (n = 0) by (destruct n; [reflexivity|exfalso; apply Ncs, Hn; discriminate]). subst n. cbn [repeat app] in E.
        assert (Gp : gapped (e_kws e) (List.length ts) (kws_of s1) (keys_of (sec_lines rsv)) (kws_of s2) (keys_of rest)).
        { rewrite E. split; [exact Ns1|]. split; [left; rewrite <- Elb, Hlb0; discriminate|].
          split.
          { clear - NDs Dks Iks Hdj Is. revert NDs Is. generalize (kws_of s1) as a, (kws_of s2) as b. intros a b D I.
            induction a as [|x a IH].
            - cbn in *. induction Dks as [|y ks Ny _ IHk]; [exact D|]. cbn. constructor; [|apply IHk; intros z Hz; apply Iks; right; exact Hz].
              intros X. apply in_app_or in X. destruct X as [X|X]; [contradiction|]. apply (Hdj y); [apply Iks; left; reflexivity|apply I; exact X].
            - cbn in *. apply NoDup_cons_iff in D. destruct D as [D1 D2]. constructor; [|apply IH; [exact D2|intros z Hz; apply I; right; exact Hz]].
              intros X. apply in_app_or in X. destruct X as [X|X]; [apply D1, in_or_app; auto|]. apply in_app_or in X. destruct X as [X|X]; [|apply D1, in_or_app; auto].
              apply (Hdj x); [apply Iks; exact X|apply I; left; reflexivity]. }
          split; [exact Is|]. split.
          { intros X. apply in_app_or in X. destruct X as [X|X]; [apply Nc12, in_or_app; auto|]. apply in_app_or in X. destruct X as [X|X]; [contradiction|apply Nc12, in_or_app; auto]. }
          split; [intros k Hk; apply Hdj, Iks, Hk|]. split; [intros k Hk; rewrite forallb_forall in Sp; apply negb_true_iff, Sp, Iks, Hk|].
          split; [intros _; rewrite Ek; left; reflexivity|]. split; [intros _; exact Ln|].
          intros t Ht Hc Hi. exfalso. exact (Nre t Ht Hc Hi). }
        rewrite (gapped_range _ _ _ _ _ _ Gp). rewrite !app_length, Hlen, Hlb, keys_of_length. do 3 f_equal. lia.
      * reflexivity.
      * left; discriminate.
      * rewrite !own_lines_app, Oa, Ob, Os. exact P.
      * rewrite Es. apply subs_inside; try assumption; [|apply subs_nil]. intros t Ht. destruct (Nab t Ht) as [A1 A2]. split; [exact A1|].
        rewrite keys_of_app. intros X. apply in_app_or in X. destruct X as [X|X]; [contradiction|exact (Nrs t Ht X)].
      * apply At.
Qed.
End Rel.
