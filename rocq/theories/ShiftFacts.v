(* Identification does not depend on the lines before the starting point. *)
From Coq Require Import NArith ZArith List Bool String Arith Lia.
From Verif Require Import PyStr PyDec PyVal Schema KvnPre KvnTree KvnSeg XmlBind KvnBuild
     Spec StrFacts SegFacts BuildFacts.
Import ListNotations.
Local Open Scope string_scope.
Local Open Scope list_scope.

Definition shift_range (k : nat) (r : nat * nat) : nat * nat := (k + fst r, k + snd r).
Fixpoint shift_elem (k : nat) (e : elem) : elem :=
  Elem (e_name e) (e_cls e) (map (shift_elem k) (e_subs e)) (e_kws e) (e_islist e) (e_single e)
       (shift_range k (e_mm e)) (e_tmpl e).
Definition shift_subs (k : nat) (e : elem) : elem := set_subs e (map (shift_elem k) (e_subs e)).
Definition shift_ident (k : nat) (r : res ident) : res ident :=
  match r with Ok (m, mm, e) => Ok (k + m, shift_range k mm, shift_subs k e) | Err x => Err x end.

Lemma shift_set_mm k e mm : shift_elem k (set_mm e mm) = set_mm (shift_subs k e) (shift_range k mm).
Proof. destruct e; reflexivity. Qed.
Lemma shift_elem_eq k e : shift_elem k e = set_mm (shift_subs k e) (shift_range k (e_mm e)).
Proof. destruct e; reflexivity. Qed.
Lemma shift_subs_nil k e : e_subs e = [] -> shift_subs k e = e.
Proof. destruct e; cbn. intros ->. reflexivity. Qed.

Lemma skipn_shift {A} (p l : list A) k i : List.length p = k -> skipn (k + i) (p ++ l) = skipn i l.
Proof.
  intros <-. rewrite skipn_app, skipn_all2 by lia.
  replace (List.length p + i - List.length p) with i by lia. reflexivity.
Qed.
Lemma nth_shift {A} (p l : list A) k i : List.length p = k -> nth_error (p ++ l) (k + i) = nth_error l i.
Proof. intros <-. rewrite nth_error_app2 by lia. f_equal. lia. Qed.
Lemma get_shift {A} (p l : list A) k i : List.length p = k -> get (p ++ l) (k + i) = get l i.
Proof. intros H. unfold get. rewrite (nth_shift p l k i H). reflexivity. Qed.

Lemma index_from_shift x k i l : index_from x (k + i) l = option_map (Nat.add k) (index_from x i l).
Proof.
  revert i; induction l as [|a l IH]; intros i; [reflexivity|]. cbn [index_from].
  destruct (str_eqb a x); [reflexivity|]. rewrite <- IH. f_equal. lia.
Qed.
Lemma index_start_shift x p l k i : List.length p = k ->
  index_start x (p ++ l) (k + i) = option_map (Nat.add k) (index_start x l i).
Proof. intros H. unfold index_start. rewrite (skipn_shift p l k i H). apply index_from_shift. Qed.
Lemma index_list0_shift tags p l k i : List.length p = k ->
  index_list0 tags (k + i) (p ++ l) = map (Nat.add k) (index_list0 tags i l).
Proof.
  intros H. unfold index_list0. induction (filter _ tags) as [|t ts IH]; [reflexivity|].
  cbn [filter_map]. rewrite (index_start_shift t p l k i H). destruct (index_start t l i); cbn [option_map map]; rewrite IH; reflexivity.
Qed.
Lemma seq_shift' k a n : seq (k + a) n = map (Nat.add k) (seq a n).
Proof. revert a; induction n as [|n IH]; intros a; [reflexivity|]. cbn. rewrite <- IH. f_equal. f_equal. lia. Qed.
Lemma filter_map_comm {A B} (f : B -> bool) (g : A -> B) l : filter f (map g l) = map g (filter (fun a => f (g a)) l).
Proof. induction l as [|a l IH]; [reflexivity|]. cbn. rewrite IH. destruct (f (g a)); reflexivity. Qed.
Lemma comment_indexes_shift p l k a b : List.length p = k ->
  comment_indexes (p ++ l) (k + a) (k + b) = map (Nat.add k) (comment_indexes l a b).
Proof.
  intros H. unfold comment_indexes. rewrite app_length, H, seq_shift'.
  replace (Nat.min (k + b) (k + List.length l) - (k + a)) with (Nat.min b (List.length l) - a) by lia.
  rewrite filter_map_comm. f_equal. apply filter_ext. intros i. rewrite (nth_shift p l k i H). reflexivity.
Qed.
Lemma list_max_shift k l : l <> [] -> list_max (map (Nat.add k) l) = k + list_max l.
Proof.
  induction l as [|a l IH]; [congruence|]. intros _. cbn. destruct l as [|b l]; [cbn; lia|].
  unfold list_max in IH. rewrite IH by discriminate. cbn. lia.
Qed.
Lemma list_min_shift k l : l <> [] -> list_min (map (Nat.add k) l) = k + list_min l.
Proof.
  destruct l as [|a l]; [congruence|]. intros _. cbn.
  induction l as [|b l IH]; [reflexivity|]. cbn. rewrite IH. lia.
Qed.
Lemma insert_shift k x l : insert_nat (k + x) (map (Nat.add k) l) = map (Nat.add k) (insert_nat x l).
Proof.
  induction l as [|y l IH]; [reflexivity|]. cbn [insert_nat map].
  replace (Nat.leb (k + x) (k + y)) with (Nat.leb x y) by (apply eq_true_iff_eq; rewrite !Nat.leb_le; lia).
  destruct (Nat.leb x y); cbn; [reflexivity|]. rewrite IH. reflexivity.
Qed.
Lemma sort_shift k l : sort_nat (map (Nat.add k) l) = map (Nat.add k) (sort_nat l).
Proof. induction l as [|x l IH]; [reflexivity|]. cbn. rewrite IH. apply insert_shift. Qed.
Lemma mem_nat_shift k x l : mem_nat (k + x) (map (Nat.add k) l) = mem_nat x l.
Proof.
  unfold mem_nat. induction l as [|y l IH]; [reflexivity|]. cbn [map existsb]. rewrite IH. f_equal.
  apply eq_true_iff_eq. rewrite !Nat.eqb_eq. lia.
Qed.
Lemma map_get_shift {A} (p l : list A) k is : List.length p = k ->
  map_res (get (p ++ l)) (map (Nat.add k) is) = map_res (get l) is.
Proof. intros H. induction is as [|i is IH]; [reflexivity|]. cbn [map map_res]. rewrite (get_shift p l k i H), IH. reflexivity. Qed.
Lemma chop_shift k ideal hi l :
  chop (k + ideal) (k + hi) (map (Nat.add k) l)
  = match chop ideal hi l with Ok r => Ok (map (Nat.add k) r) | Err x => Err x end.
Proof.
  revert ideal; induction l as [|n l IH]; intros ideal; [reflexivity|]. cbn [map]. rewrite !chop_cons.
  replace (Nat.ltb (k + hi) (k + ideal)) with (Nat.ltb hi ideal) by (apply eq_true_iff_eq; rewrite !Nat.ltb_lt; lia).
  destruct (Nat.ltb hi ideal); [reflexivity|]. replace (S (k + ideal)) with (k + S ideal) by lia. rewrite IH.
  destruct (chop (S ideal) hi l); [|reflexivity]. cbn [bind].
  replace (Nat.eqb (k + n) (k + ideal)) with (Nat.eqb n ideal) by (apply eq_true_iff_eq; rewrite !Nat.eqb_eq; lia).
  destruct (Nat.eqb n ideal); reflexivity.
Qed.
Lemma map_nil_iff {A B} (f : A -> B) l : map f l <> [] <-> l <> [].
Proof. destruct l; cbn; split; congruence. Qed.
Lemma sort_nil l : sort_nat l = [] -> l = [].
Proof. destruct l as [|x l]; [reflexivity|]. cbn. destruct (sort_nat l) as [|y r]; cbn; [discriminate|]. destruct (Nat.leb x y); discriminate. Qed.

Lemma range_shift il start p keys k single : List.length p = k ->
  range_of_indices (map (Nat.add k) il) (k + start) (p ++ keys) single
  = match range_of_indices il start keys single with Ok r => Ok (shift_range k r) | Err x => Err x end.
Proof.
  intros H. unfold range_of_indices.
  assert (X : forall r : list nat,
    (match map (Nat.add k) r with [] => Ok (k + start, k + start)
     | _ => let lo := list_min (map (Nat.add k) r) in
            Ok (lo, if single then lo + 1 else list_max (map (Nat.add k) r) + 1) end)
    = match (match r with [] => Ok (start, start)
     | _ => let lo := list_min r in Ok (lo, if single then lo + 1 else list_max r + 1) end)
      with Ok r => Ok (shift_range k r) | Err x => Err x end).
  { intros [|a r]; [reflexivity|]. cbn [map]. change (k + a :: map (Nat.add k) r) with (map (Nat.add k) (a :: r)).
    cbv zeta. rewrite list_min_shift, list_max_shift by discriminate. unfold shift_range. cbn [fst snd].
    destruct single; rewrite Nat.add_assoc; reflexivity. }
  destruct il as [|i il]; [exact (X [])|]. cbn [map]. change (k + i :: map (Nat.add k) il) with (map (Nat.add k) (i :: il)).
  cbv zeta. rewrite sort_shift. set (s := sort_nat (i :: il)).
  assert (Ns : s <> []) by (unfold s; intros E; apply sort_nil in E; discriminate).
  rewrite list_min_shift, list_max_shift by exact Ns.
  replace (k + list_max s + 1 - (k + list_min s)) with (list_max s + 1 - list_min s) by lia.
  rewrite seq_shift', filter_map_comm.
  rewrite (filter_ext _ (fun n => negb (mem_nat n s))) by (intros; rewrite mem_nat_shift; reflexivity).
  destruct (filter (fun n => negb (mem_nat n s)) (seq (list_min s) (list_max s + 1 - list_min s))) as [|d ds] eqn:D.
  - cbn [map]. cbn [bind]. apply X.
  - cbn [map]. change (k + d :: map (Nat.add k) ds) with (map (Nat.add k) (d :: ds)).
    rewrite (map_get_shift p keys k _ H). destruct (map_res (get keys) (d :: ds)) as [dk|]; [|reflexivity]. cbn [bind].
    destruct (_ || _); [|cbn [bind]; apply X].
    rewrite chop_shift. destruct (chop (list_min s) (list_max s) s) as [r|]; [|reflexivity]. cbn [bind]. apply X.
Qed.

Lemma extend_tags_shift tags p keys k i pr : List.length p = k ->
  extend_tags tags (k + i) (p ++ keys) pr = extend_tags tags i keys pr.
Proof. intros H. unfold extend_tags. destruct pr; [|reflexivity]. rewrite (skipn_shift p keys k i H). reflexivity. Qed.
Lemma process_shift tags p keys k i il : List.length p = k ->
  process_comment_lines tags (k + i) (p ++ keys) (map (Nat.add k) il)
  = match process_comment_lines tags i keys il with Ok r => Ok (map (Nat.add k) r) | Err x => Err x end.
Proof.
  intros H. unfold process_comment_lines. destruct (mem_str kw_comment tags); [|reflexivity].
  destruct (Nat.eqb (List.length tags) 1).
  - rewrite (get_shift p keys k i H). destruct (get keys i) as [x|]; [|reflexivity]. cbn [bind].
    destruct (str_eqb x kw_comment); [|reflexivity]. rewrite map_app. reflexivity.
  - destruct il as [|a il]; [reflexivity|]. cbn [map]. change (k + a :: map (Nat.add k) il) with (map (Nat.add k) (a :: il)).
    rewrite list_max_shift by discriminate. replace (k + list_max (a :: il) + 1) with (k + (list_max (a :: il) + 1)) by lia.
    rewrite (comment_indexes_shift p keys k _ _ H). rewrite <- map_app. reflexivity.
Qed.
Lemma get_min_max_shift tags p keys k i pr single : List.length p = k ->
  get_min_max tags (k + i) (p ++ keys) pr single
  = match get_min_max tags i keys pr single with Ok (r, t) => Ok (shift_range k r, t) | Err x => Err x end.
Proof.
  intros H. unfold get_min_max. rewrite (extend_tags_shift _ p keys k i pr H). cbv zeta.
  rewrite (index_list0_shift _ p keys k i H), (process_shift _ p keys k i _ H).
  destruct (process_comment_lines _ i keys _) as [il|]; [|reflexivity]. cbn [bind].
  rewrite (range_shift il i p keys k single H). destruct (range_of_indices il i keys single); reflexivity.
Qed.

Section Shift.
Variable u : env.

Lemma date_range_shift p ls k i col : List.length p = k ->
  date_range u (p ++ ls) (k + i) col
  = match date_range u ls i col with Ok r => Ok (shift_range k r) | Err x => Err x end.
Proof.
  intros H. unfold date_range. rewrite (get_shift p ls k i H).
  destruct (get ls i) as [l|]; [|reflexivity]. cbn [bind]. destruct (get l col) as [s|]; [|reflexivity]. cbn [bind].
  destruct (get (split_ws s) 0) as [d|]; [|reflexivity]. cbn [bind]. destruct (is_datestr u d) as [b|]; [|reflexivity]. cbn [bind].
  unfold shift_range. cbn [fst snd]. destruct b; rewrite ?Nat.add_assoc; reflexivity.
Qed.

Lemma own_range_shift e kp keys lp lines k i : List.length kp = k -> List.length lp = k ->
  own_range u e (kp ++ keys) (lp ++ lines) (k + i)
  = match own_range u e keys lines i with Ok (mm, e1) => Ok (shift_range k mm, e1) | Err x => Err x end.
Proof.
  intros Hk Hl. unfold own_range. cbv zeta.
  destruct (_ || _).
  { rewrite (date_range_shift lp lines k i 0 Hl). destruct (date_range u lines i 0); reflexivity. }
  destruct (String.eqb _ _).
  { rewrite (date_range_shift lp lines k i 1 Hl). destruct (date_range u lines i 1); reflexivity. }
  destruct (String.eqb _ _).
  - rewrite (get_min_max_shift _ kp keys k i _ _ Hk). destruct (get_min_max _ i keys _ _) as [[[lo hi] tags]|]; [|reflexivity].
    cbn [bind]. unfold shift_range at 1. cbn [fst snd].
    replace (Nat.eqb (k + lo) (k + hi)) with (Nat.eqb lo hi) by (apply eq_true_iff_eq; rewrite !Nat.eqb_eq; lia).
    rewrite (skipn_shift lp lines k hi Hl). destruct (Nat.eqb lo hi); unfold shift_range; cbn [fst snd]; rewrite ?Nat.add_assoc; reflexivity.
  - rewrite (get_min_max_shift _ kp keys k i _ _ Hk). destruct (get_min_max _ i keys _ _) as [[mm tags]|]; reflexivity.
Qed.

(* a larger bound on the number of rounds does not change the outcome *)
Lemma identify_list_mono one n f1 : forall f2 init last, f1 <= f2 -> fueled (identify_list one n f1 init last) ->
  identify_list one n f2 init last = identify_list one n f1 init last.
Proof.
  induction f1 as [|f1 IH]; intros f2 init last Hf F; [exfalso; apply F; reflexivity|].
  destruct f2 as [|f2]; [lia|]. rewrite !identify_list_S in *.
  destruct (one init) as [[[mx [lo hi]] e]|]; [|reflexivity]. cbn [bind] in *.
  destruct (Nat.eqb mx lo && Nat.eqb lo hi); [reflexivity|]. destruct (Nat.ltb last lo); [reflexivity|].
  destruct (Nat.leb n mx); [reflexivity|]. rewrite (IH f2 mx mx); [reflexivity|lia|].
  intros E. apply F. rewrite E. reflexivity.
Qed.
Lemma identify_list_shift k one one' n f : (forall i, one' (k + i) = shift_ident k (one i)) ->
  forall init last, identify_list one' (k + n) f (k + init) (k + last)
  = match identify_list one n f init last with
    | Ok (m, es) => Ok (k + m, map (shift_elem k) es) | Err x => Err x end.
Proof.
  intros H. induction f as [|f IH]; intros init last; [reflexivity|]. rewrite !identify_list_S, H.
  destruct (one init) as [[[mx [lo hi]] e]|]; [|reflexivity]. cbn [shift_ident bind shift_range fst snd].
  unfold shift_range. cbn [fst snd].
  replace (Nat.eqb (k + mx) (k + lo)) with (Nat.eqb mx lo) by (apply eq_true_iff_eq; rewrite !Nat.eqb_eq; lia).
  replace (Nat.eqb (k + lo) (k + hi)) with (Nat.eqb lo hi) by (apply eq_true_iff_eq; rewrite !Nat.eqb_eq; lia).
  destruct (Nat.eqb mx lo && Nat.eqb lo hi); [reflexivity|].
  replace (Nat.ltb (k + last) (k + lo)) with (Nat.ltb last lo) by (apply eq_true_iff_eq; rewrite !Nat.ltb_lt; lia).
  destruct (Nat.ltb last lo); [reflexivity|]. cbv zeta.
  replace (Nat.leb (k + n) (k + mx)) with (Nat.leb n mx) by (apply eq_true_iff_eq; rewrite !Nat.leb_le; lia).
  destruct (Nat.leb n mx).
  - cbn [map]. rewrite shift_set_mm. reflexivity.
  - rewrite IH. destruct (identify_list one n f mx mx) as [[m es]|]; [|reflexivity]. cbn [bind map]. rewrite shift_set_mm. reflexivity.
Qed.

Lemma keys_of_app a b : keys_of (a ++ b) = keys_of a ++ keys_of b.
Proof. apply map_app. Qed.
Lemma keys_of_length a : List.length (keys_of a) = List.length a.
Proof. apply map_length. Qed.

Lemma ident_subs_shift pre lines lo ss :
  Forall (fun s => forall i, identify u s (keys_of (pre ++ lines)) (pre ++ lines) (List.length pre + i)
                             = shift_ident (List.length pre) (identify u s (keys_of lines) lines i)) ss ->
  forall idx, ident_subs u (keys_of (pre ++ lines)) (pre ++ lines) (List.length pre + lo) ss (List.length pre + idx)
  = match ident_subs u (keys_of lines) lines lo ss idx with
    | Ok (m, gs) => Ok (List.length pre + m, map (shift_elem (List.length pre)) gs) | Err x => Err x end.
Proof.
  set (k := List.length pre). induction 1 as [|s ss Hs _ IH]; intros idx; [reflexivity|]. cbn [ident_subs].
  destruct (e_islist s).
  - assert (M : identify_list (identify u s (keys_of (pre ++ lines)) (pre ++ lines)) (List.length (pre ++ lines))
                  (S (List.length (keys_of (pre ++ lines)))) (k + idx) (k + idx)
      = match identify_list (identify u s (keys_of lines) lines) (List.length lines) (S (List.length (keys_of lines))) idx idx with
        | Ok (m, es) => Ok (k + m, map (shift_elem k) es) | Err x => Err x end).
    { rewrite <- (identify_list_shift k _ (identify u s (keys_of (pre ++ lines)) (pre ++ lines)) (List.length lines)
                   (S (List.length (keys_of lines))) Hs idx idx).
      rewrite app_length. fold k. apply identify_list_mono.
      - rewrite !keys_of_length, app_length. lia.
      - rewrite (identify_list_shift k _ _ _ _ Hs).
        pose proof (identify_list_fueled (identify u s (keys_of lines) lines) (List.length lines)
                      (S (List.length (keys_of lines))) idx) as F.
        assert (F' : fueled (identify_list (identify u s (keys_of lines) lines) (List.length lines) (S (List.length (keys_of lines))) idx idx)).
        { apply F; [apply identify_order|apply identify_fueled; rewrite keys_of_length; lia|rewrite keys_of_length; lia]. }
        intros E. apply F'. destruct (identify_list (identify u s (keys_of lines) lines) _ _ idx idx) as [[m es]|]; [discriminate|exact E]. }
    rewrite M. destruct (identify_list (identify u s (keys_of lines) lines) _ _ idx idx) as [[m es]|]; [|reflexivity].
    cbn [bind]. rewrite IH. destruct (ident_subs u (keys_of lines) lines lo ss m) as [[m' gs]|]; [|reflexivity].
    cbn [bind]. rewrite map_app. reflexivity.
  - rewrite Hs. destruct (identify u s (keys_of lines) lines idx) as [[[m [slo shi]] s']|]; [|reflexivity].
    cbn [shift_ident bind]. unfold shift_range. cbn [fst snd].
    replace (Nat.eqb (k + slo) (k + shi)) with (Nat.eqb slo shi) by (apply eq_true_iff_eq; rewrite !Nat.eqb_eq; lia).
    replace (match e_subs (shift_subs k s') with [] => true | _ => false end)
      with (match e_subs s' with [] => true | _ => false end) by (destruct s' as [? ? [|] ? ? ? ? ?]; reflexivity).
    destruct (Nat.eqb slo shi && match e_subs s' with [] => true | _ :: _ => false end) eqn:B.
    + apply andb_true_iff in B. destruct B as [_ B].
      assert (Es : e_subs s' = []) by (destruct (e_subs s'); [reflexivity|discriminate]).
      rewrite shift_subs_nil by exact Es.
      rewrite !keys_of_app.
      rewrite (own_range_shift s' (keys_of pre) (keys_of lines) pre lines k lo (keys_of_length pre) eq_refl).
      destruct (own_range u s' (keys_of lines) lines lo) as [[mm2 s2]|] eqn:O; [|reflexivity]. cbn [bind fst snd].
      rewrite <- keys_of_app, IH.
      destruct (ident_subs u (keys_of lines) lines lo ss m) as [[m' gs]|]; [|reflexivity]. cbn [bind map].
      rewrite shift_set_mm, shift_subs_nil; [reflexivity|]. apply own_range_same in O.
      destruct O as [? [? [O _]]]. congruence.
    + cbn [bind]. rewrite IH. destruct (ident_subs u (keys_of lines) lines lo ss m) as [[m' gs]|]; [|reflexivity].
      cbn [bind map]. rewrite shift_set_mm. reflexivity.
Qed.

Lemma identify_shift pre lines e : forall i,
  identify u e (keys_of (pre ++ lines)) (pre ++ lines) (List.length pre + i)
  = shift_ident (List.length pre) (identify u e (keys_of lines) lines i).
Proof.
  induction e as [n c subs kw l s m t F] using elem_ind'. intros i. rewrite !identify_eq.
  rewrite keys_of_app.
  rewrite (own_range_shift _ (keys_of pre) (keys_of lines) pre lines _ i (keys_of_length pre) eq_refl).
  destruct (own_range u _ (keys_of lines) lines i) as [[[lo hi] e1]|] eqn:O; [|reflexivity]. cbn [bind e_subs].
  destruct subs as [|s0 subs].
  - cbn [shift_ident]. rewrite shift_subs_nil; [reflexivity|]. apply own_range_same in O. destruct O as [? [? [O _]]]. exact O.
  - rewrite <- keys_of_app. unfold shift_range at 1 2. cbn [fst snd]. rewrite (ident_subs_shift pre lines lo _ F hi).
    destruct (ident_subs u (keys_of lines) lines lo (s0 :: subs) hi) as [[mx gs]|]; [|reflexivity].
    cbn [bind shift_ident]. destruct e1; reflexivity.
Qed.
End Shift.
