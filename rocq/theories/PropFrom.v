(* Everything in a message that was read comes from the text. *)
From Coq Require Import NArith ZArith List Bool String Arith Lia.
From Verif Require Import SpecNum NumFacts PyStr PyDec PyVal Schema KvnPre KvnTree KvnSeg XmlBind KvnBuild
     KvnWrite Spec SpecKvn SpecObj SpecMsg SpecDoc SpecFrom StrFacts PreFacts SegFacts BuildFacts ShiftFacts ReadFacts GapFacts ComposeFacts MsgFacts CoreFacts DocFacts CheckFacts WriteFacts EphText CheckEph PropVers Demo.
Import ListNotations.
Local Open Scope string_scope.
Local Open Scope list_scope.
Local Arguments find_class : simpl never.
Local Arguments lit : simpl never.

(* ---- lines ---- *)
Ltac flat := repeat (rewrite <- app_assoc; cbn [app]); reflexivity.
Lemma core_split s : exists w1 w2, s = w1 ++ strip s ++ w2 /\ blank w1 /\ blank w2.
Proof. destruct (strip_core s) as [w1 [w2 [E [B1 [B2 _]]]]]. exists w1, w2. auto. Qed.
Lemma core_of s t : strip s = t -> is_core s t.
Proof. intros <-. apply strip_core. Qed.
Lemma no_eq_blank w : blank w -> no_char c_eq w.
Proof. intros B H. specialize (B _ H). vm_compute in B. discriminate. Qed.
Lemma no_char_app2 c a b : no_char c a -> no_char c b -> no_char c (a ++ b).
Proof. intros A B H. apply in_app_or in H. destruct H; [exact (A H)|exact (B H)]. Qed.
Lemma remove_brackets s : remove_char c_rbr (remove_char c_lbr s) = no_brackets s.
Proof.
  unfold remove_char, no_brackets. induction s as [|c s IH]; [reflexivity|]. cbn [filter]. destruct (N.eqb c c_lbr); cbn [negb andb filter]; [exact IH|].
  destruct (N.eqb c c_rbr); cbn [negb]; rewrite IH; reflexivity.
Qed.
Lemma find_char_split c s i : find_char c s = Some i -> exists b, s = firstn i s ++ c :: b /\ no_char c (firstn i s) /\ skipn i s = c :: b.
Proof.
  revert i. induction s as [|a s IH]; intros i; cbn [find_char]; [discriminate|]. destruct (N.eqb a c) eqn:E.
  - intros H. injection H as <-. apply N.eqb_eq in E. subst a. exists s. split; [reflexivity|]. split; [intros []|reflexivity].
  - destruct (find_char c s) as [j|]; [|discriminate]. cbn [option_map]. intros H. injection H as <-. destruct (IH j eq_refl) as [b [E1 [E2 E3]]].
    exists b. cbn [firstn skipn]. split; [cbn [app]; congruence|]. split; [|exact E3]. intros [H|H]; [apply N.eqb_neq in E; congruence|exact (E2 H)].
Qed.
Lemma some_inj {A} (a b : A) : Some a = Some b -> a = b. Proof. congruence. Qed.
Lemma lex_says raw k s l : lex_line raw = Some (k :: s :: l) -> says raw (k :: s :: l).
Proof.
  unfold lex_line. destruct (core_split raw) as [w0 [w3 [E [B0 B3]]]]. set (x := strip raw) in *.
  destruct (strip x); [discriminate|]. intros H. apply some_inj in H. rewrite E. destruct (startswith kw_comment x) eqn:S.
  - apply startswith_spec in S. destruct S as [t S]. rewrite S in *. clearbody x. unfold lex_comment in H. change (skipn 7 (kw_comment ++ t)) with t in H.
    rewrite <- app_assoc. assert (C : is_core (t ++ w3) (strip t)) by (apply core_of, strip_pad_r, B3).
    remember (if startswith [c_eq] (strip t) then strip (skipn 1 (strip t)) else strip t) as y eqn:Ey.
    cbn [map] in H. injection H as <- <- <-. change (strip kw_comment) with kw_comment. destruct (startswith [c_eq] (strip t)) eqn:Q.
    + apply startswith_spec in Q. destruct Q as [b' Q]. rewrite Q in C, Ey. change (y = strip b') in Ey. subst y. rewrite strip_strip.
      apply says_comment_eq with (b' := b'); [exact B0|exact C|apply strip_core].
    + subst y. rewrite strip_strip. apply says_comment; assumption.
  - clearbody x. unfold lex_data in H. destruct (split_once_cases c_eq x) as [[N1 N2]|[a [b [N1 [N2 N3]]]]]; [rewrite N2 in H; cbn [map] in H; discriminate H|rewrite N3 in H].
    subst x. replace (w0 ++ (a ++ c_eq :: b) ++ w3) with ((w0 ++ a) ++ c_eq :: b ++ w3) by (rewrite <- !app_assoc; reflexivity).
    assert (Na : no_char c_eq (w0 ++ a)) by (apply no_char_app2; [apply no_eq_blank; exact B0|exact N1]).
    assert (Ca : is_core (w0 ++ a) (strip a)) by (apply core_of, strip_pad_l, B0).
    assert (Cb : is_core (b ++ w3) (strip b)) by (apply core_of, strip_pad_r, B3).
    destruct (endswith [c_rbr] (rstrip b)); [|cbn [map] in H; injection H as <- <- <-; apply says_plain; assumption].
    destruct (find_char c_lbr b) as [i|] eqn:F; [|cbn [map] in H; injection H as <- <- <-; apply says_plain; assumption].
    apply find_char_split in F. destruct F as [r [F1 [F2 F3]]]. rewrite F3, remove_brackets in H. cbn [map] in H. injection H as <- <- <-.
    replace (b ++ w3) with (firstn i b ++ c_lbr :: r ++ w3) by (rewrite F1 at 2; rewrite <- app_assoc; reflexivity). apply says_unit; [exact Na|exact F2|exact Ca|apply strip_core|].
    apply core_of. unfold no_brackets. rewrite filter_app.
    assert (Bf : blank (filter (fun c => negb (N.eqb c c_lbr) && negb (N.eqb c c_rbr)) w3)) by (intros c Hc; apply filter_In in Hc; apply B3, Hc).
    rewrite strip_pad_r by exact Bf. cbn [filter]. reflexivity.
Qed.
(* the parts of a line, with what stands around them *)
Definition part (raw x : str) : Prop :=
  exists a b, raw = a ++ x ++ b /\ (a = [] \/ ends kw_comment a \/ exists a' c, a = a' ++ [c] /\ edge c) /\ (b = [] \/ x = kw_comment \/ exists c b', b = c :: b' /\ edge c).
Lemma edge_before0 w : blank w -> w = [] \/ exists a' c, w = a' ++ [c] /\ edge c.
Proof.
  intros B. destruct w as [|c w] using rev_ind; [left; reflexivity|right]. exists w, c. split; [reflexivity|]. left. apply B, in_or_app. right. left. reflexivity.
Qed.
Lemma edge_before w : blank w -> w = [] \/ ends kw_comment w \/ exists a' c, w = a' ++ [c] /\ edge c.
Proof. intros B. destruct (edge_before0 w B); auto. Qed.
Lemma edge_after w : blank w -> w = [] \/ exists c b', w = c :: b' /\ edge c.
Proof. intros B. destruct w as [|c w]; [left; reflexivity|right]. exists c, w. split; [reflexivity|]. left. apply B. left. reflexivity. Qed.
Lemma edge_before_app a w : (exists a' c, a = a' ++ [c] /\ edge c) -> blank w -> exists a' c, a ++ w = a' ++ [c] /\ edge c.
Proof.
  intros A B. destruct (edge_before0 w B) as [->|[a' [c [-> Hc]]]]; [rewrite app_nil_r; exact A|]. exists (a ++ a'), c. rewrite <- app_assoc. auto.
Qed.
Lemma edge_after_app w b : blank w -> (exists c b', b = c :: b' /\ edge c) -> exists c b', w ++ b = c :: b' /\ edge c.
Proof.
  intros B A. destruct (edge_after w B) as [->|[c [b' [-> Hc]]]]; [exact A|]. exists c, (b' ++ b). auto.
Qed.
Lemma eq_edge : edge c_eq. Proof. right. left. reflexivity. Qed.
Lemma lbr_edge : edge c_lbr. Proof. right. right. reflexivity. Qed.
Lemma says_part raw k s l : says raw (k :: s :: l) -> part raw k /\ part raw s.
Proof.
  intros H.
  inversion H as [a b k0 s0 Na Ca Cb|a b r k0 s0 un Na Nb Ca Cb Cu|w b s0 Bw Cb|w b b' s0 Bw Cb Cb']; subst.
  - destruct Ca as [w1 [w2 [E1 [B1 [B2 T]]]]]. destruct Cb as [w3 [w4 [E2 [B3 [B4 T2]]]]]. subst.
    split.
    + exists w1, (w2 ++ c_eq :: w3 ++ s ++ w4). split; [flat|]. split; [apply edge_before; exact B1|].
      right. right. apply edge_after_app; [exact B2|]. do 2 eexists. split; [reflexivity|apply eq_edge].
    + exists ((w1 ++ k ++ w2) ++ c_eq :: w3), w4. split; [flat|]. split.
      * right. right. change (c_eq :: w3) with ([c_eq] ++ w3). rewrite app_assoc. apply edge_before_app; [|exact B3]. do 2 eexists. split; [reflexivity|apply eq_edge].
      * destruct (edge_after w4 B4) as [X|X]; auto.
  - destruct Ca as [w1 [w2 [E1 [B1 [B2 T]]]]]. destruct Cb as [w3 [w4 [E2 [B3 [B4 T2]]]]]. subst.
    split.
    + exists w1, (w2 ++ c_eq :: (w3 ++ s ++ w4) ++ c_lbr :: r). split; [flat|]. split; [apply edge_before; exact B1|].
      right. right. apply edge_after_app; [exact B2|]. do 2 eexists. split; [reflexivity|apply eq_edge].
    + exists ((w1 ++ k ++ w2) ++ c_eq :: w3), (w4 ++ c_lbr :: r). split; [flat|]. split.
      * right. right. change (c_eq :: w3) with ([c_eq] ++ w3). rewrite app_assoc. apply edge_before_app; [|exact B3]. do 2 eexists. split; [reflexivity|apply eq_edge].
      * right. right. apply edge_after_app; [exact B4|]. do 2 eexists. split; [reflexivity|apply lbr_edge].
  - split; [exists w, b; split; [reflexivity|]; split; [apply edge_before; assumption|auto]|].
    destruct Cb as [w1 [w2 [E1 [B1 [B2 T]]]]]. subst. exists (w ++ kw_comment ++ w1), w2. split; [flat|]. split.
    + destruct (edge_before0 w1 B1) as [->|[a' [c [-> Hc]]]]; right; [left; exists w; rewrite app_nil_r; reflexivity|right].
      exists (w ++ kw_comment ++ a'), c. split; [rewrite <- !app_assoc; reflexivity|exact Hc].
    + destruct (edge_after w2 B2) as [X|X]; auto.
  - split; [exists w, b; split; [reflexivity|]; split; [apply edge_before; assumption|auto]|].
    destruct Cb as [w1 [w2 [E1 [B1 [B2 T]]]]]. destruct Cb' as [w3 [w4 [E2 [B3 [B4 T2]]]]]. subst.
    exists ((w ++ kw_comment ++ w1) ++ c_eq :: w3), (w4 ++ w2). split; [rewrite <- !app_assoc; cbn [app]; rewrite <- !app_assoc; reflexivity|]. split.
    + right. right. change (c_eq :: w3) with ([c_eq] ++ w3). rewrite app_assoc. apply edge_before_app; [|exact B3]. do 2 eexists. split; [reflexivity|apply eq_edge].
    + assert (B : blank (w4 ++ w2)) by (intros c Hc; apply in_app_or in Hc; destruct Hc as [Hc|Hc]; [exact (B4 c Hc)|exact (B2 c Hc)]).
      destruct (edge_after _ B) as [X|X]; auto.
Qed.
Lemma lex_key_part raw k l : lex_line raw = Some (k :: l) -> part raw k.
Proof.
  intros H. destruct l as [|s l].
  - unfold lex_line in H. destruct (core_split raw) as [w0 [w3 [E [B0 B3]]]]. set (x := strip raw) in *.
    destruct (strip x); [discriminate|]. apply some_inj in H. destruct (startswith kw_comment x); [discriminate|].
    unfold lex_data in H. destruct (split_once_cases c_eq x) as [[N1 N2]|[a [b [N1 [N2 N3]]]]].
    + rewrite N2 in H. cbn [map] in H. injection H as H. unfold x in H. rewrite strip_strip in H. fold x in H. subst k. exists w0, w3. split; [exact E|].
      split; [apply edge_before; exact B0|]. destruct (edge_after w3 B3) as [X|X]; auto.
    + exfalso. rewrite N3 in H. destruct (endswith [c_rbr] (rstrip b)); [|discriminate]. destruct (find_char c_lbr b); discriminate.
  - exact (proj1 (says_part _ _ _ _ (lex_says _ _ _ _ H))).
Qed.
Lemma obs_part raw k s l : lex_line raw = Some (k :: s :: l) -> part raw s /\ keyed raw k.
Proof. intros H. apply lex_says in H. split; [exact (proj2 (says_part _ _ _ _ H))|do 2 eexists; exact H]. Qed.
Lemma split_word_in s : forall cur w, Forall (fun c => is_ws c = false) cur -> In w (split_ws_aux cur s) ->
  exists a b, rev cur ++ s = a ++ w ++ b /\ w <> [] /\ Forall (fun c => is_ws c = false) w /\
    (a = [] \/ exists a' c, a = a' ++ [c] /\ is_ws c = true) /\ (b = [] \/ exists c b', b = c :: b' /\ is_ws c = true).
Proof.
  assert (Rv : forall cur : str, Forall (fun c => is_ws c = false) cur -> Forall (fun c => is_ws c = false) (rev cur)) by (intros; apply Forall_rev; assumption).
  induction s as [|c s IH]; intros cur w F; cbn [split_ws_aux].
  - destruct cur as [|c cur]; [intros []|]. intros [<-|[]]. exists [], []. split; [rewrite app_nil_r; reflexivity|].
    split; [intros E; apply (f_equal (@List.length N)) in E; rewrite rev_length in E; discriminate|]. split; [apply Rv; exact F|]. auto.
  - destruct (is_ws c) eqn:W.
    + assert (T : In w (split_ws_aux [] s) -> exists a b, rev cur ++ c :: s = a ++ w ++ b /\ w <> [] /\ Forall (fun c => is_ws c = false) w /\
          (a = [] \/ exists a' c, a = a' ++ [c] /\ is_ws c = true) /\ (b = [] \/ exists c b', b = c :: b' /\ is_ws c = true)).
      { intros H. destruct (IH [] w (Forall_nil _) H) as [a [b [E [N1 [Fw [Ea Eb]]]]]]. exists (rev cur ++ c :: a), b. cbn [rev app] in E. rewrite E.
        split; [rewrite <- app_assoc; reflexivity|]. split; [exact N1|]. split; [exact Fw|]. split; [|exact Eb]. right.
        destruct Ea as [->|[a' [c' [-> Hc]]]]; [exists (rev cur), c; auto|exists (rev cur ++ c :: a'), c'; split; [rewrite <- app_assoc; reflexivity|exact Hc]]. }
      destruct cur as [|c0 cur]; [exact T|]. intros [<-|H]; [|exact (T H)]. exists [], (c :: s). split; [reflexivity|].
      split; [intros E; apply (f_equal (@List.length N)) in E; rewrite rev_length in E; discriminate|]. split; [apply Rv; exact F|]. split; [auto|]. right. exists c, s. auto.
    + intros H. destruct (IH (c :: cur) w) as [a [b [E X]]]; [constructor; assumption|exact H|]. exists a, b. split; [|exact X].
      rewrite <- E. cbn [rev]. rewrite <- app_assoc. reflexivity.
Qed.
Lemma word_piece raw x w : part raw x -> In w (split_ws x) -> piece raw w.
Proof.
  intros [A [B [E [EA EB]]]] H. pose proof H as H0. apply split_word_in in H; [|constructor]. destruct H as [a [b [Ex [N1 [F [Ea Eb]]]]]]. cbn [rev app] in Ex.
  exists (A ++ a), (b ++ B). split; [rewrite E, Ex; flat|]. split; [exact N1|]. split; [exact F|]. split.
  - destruct Ea as [->|[a' [c [-> Hc]]]]; [rewrite app_nil_r; exact EA|]. right. right. exists (A ++ a'), c. split; [rewrite app_assoc; reflexivity|left; exact Hc].
  - destruct Eb as [->|[c [b' [-> Hc]]]]; [|right; right; exists c, (b' ++ B); split; [reflexivity|left; exact Hc]]. destruct EB as [->|[->|X]]; [auto| |auto].
    right. left. vm_compute in H0. destruct H0 as [<-|[]]. reflexivity.
Qed.
Lemma without_remove p s : p <> [] -> without p s (remove_sub p s).
Proof.
  intros Hp. unfold remove_sub.
  assert (X : forall s k, without p (skipn k s) (remove_sub_aux p k s)).
  { clear s. induction s as [|c s IH]; intros k; [destruct k; constructor|]. cbn [remove_sub_aux]. destruct k as [|k]; [|cbn [skipn]; apply IH].
    cbn [skipn]. destruct (startswith p (c :: s)) eqn:E; [|constructor; exact (IH 0)]. apply startswith_spec in E. destruct E as [r E].
    destruct p as [|c' p]; [congruence|]. cbn [app] in E. injection E as <- E. specialize (IH (List.length (c :: p) - 1)).
    replace (List.length (c :: p) - 1) with (List.length p) in * by (cbn; lia). rewrite E in IH at 1. rewrite skipn_app, skipn_all, Nat.sub_diag in IH. cbn [skipn app] in IH.
    rewrite E at 1. exact (without_drop (c :: p) r _ IH). }
  exact (X s 0).
Qed.
Lemma without_none p s : without p s s.
Proof. induction s; constructor; assumption. Qed.

Section Build.
Variable u : env.
Variable raws : list str.
Variable wd : option str.
Hypothesis scalar : forall c f l, x_empty u c f <> VList l.

Lemma plain_dec s : plain s \/ ~ plain s.
Proof.
  assert (D : forall c, {(c < 128)%N} + {~ (c < 128)%N}) by (intros c; destruct (c <? 128)%N eqn:E; [left; apply N.ltb_lt; exact E|right; apply N.ltb_nlt; exact E]).
  destruct (Forall_dec _ D s); auto.
Qed.
Lemma conv_reading c f t s : reading u s (conv u c f t s).
Proof.
  unfold conv. destruct s as [|a s]; [constructor; apply scalar|]. set (x := a :: s). destruct t as [| | |cl]; [constructor| | |].
  - destruct (py_int u x) eqn:E; [|constructor]. destruct (plain_dec x) as [P|P]; [|apply reading_other_int; assumption].
    destruct (proj1 (whole_is u x _ P) E) as (core & Hc & Hs). apply (reading_int u x core); assumption.
  - destruct (py_decimal u x) eqn:E; [|constructor]. destruct (plain_dec x) as [P|P]; [|apply reading_other_dec; assumption].
    destruct (proj1 (decimal_is u x _ P) E) as (core & Hc & Hs). apply (reading_dec u x core); assumption.
  - destruct (find_class cl) as [[m fs|ms]|] eqn:E; try constructor. unfold conv_enum. destruct (find _ ms) as [[m n]|] eqn:G; [|constructor].
    apply find_some in G. destruct G as [I G]. cbn [snd fst] in *. eapply reading_enum; [exact E|exact I|]. apply orb_true_iff in G.
    destruct G as [G|G]; apply str_eqb_eq in G; [left; exact G|right]. exact G.
Qed.
Definition attrs_ok (k : str) (un : option str) (attrs : list (string * str)) : Prop :=
  forall n a, assoc n attrs = Some a -> if String.eqb n "units" then un = Some a else without (lit "USER_DEFINED_") k a.
Lemma default_none f : field_default f = VNone \/ field_default f = VList [].
Proof. unfold field_default. destruct (f_list f); auto. Qed.
Lemma value_taken c k s un attrs : attrs_ok k un attrs -> taken u k s un (bind_value_obj u c attrs s).
Proof.
  intros A. unfold bind_value_obj. apply taken_object. intros n x H. apply in_map_iff in H. destruct H as [f [E H]]. injection E as <- <-.
  apply filter_In in H. exists f. split; [apply H|]. split; [reflexivity|]. destruct (f_kind f).
  - apply default_none.
  - destruct (assoc (f_name f) attrs) as [a|] eqn:E; [|destruct (default_none f) as [->| ->]; auto]. specialize (A _ _ E). right. right.
    destruct (String.eqb (f_name f) "units"); [exists a|exists a]; split; try exact A; apply conv_reading.
  - apply conv_reading.
Qed.
Lemma child_taken cls f k s un attrs : attrs_ok k un attrs -> taken u k s un (bind_child u cls f attrs s).
Proof.
  intros A. unfold bind_child. destruct (f_ty f) as [| | |c]; try (apply taken_plain, conv_reading).
  destruct (find_class c) as [[m fs|ms]|]; try (apply taken_plain, conv_reading). apply value_taken. exact A.
Qed.
(* ---- one object ---- *)
Definition all_held (c : string) (vars : list (string * pyval)) : Prop := forall n x, In (n, x) vars -> held u raws wd c n x.
Lemma held_items c n l : held u raws wd c n (VList l) -> forall x, In x l -> held u raws wd c n x.
Proof.
  intros H. inversion H as [|w0 c0 n0 l0 F|w0 c0 n0 f v I1 I2 I3 B|w0 c0 n0 f k s un x I1 I2 I3 I4 T]; subst; [exact F|inversion B as [raw v0 v Ir Hh R| |]; subst; inversion R|]. exfalso.
  inversion T as [x R|]; subst. inversion R as [| | | | | |v V]; subst. exact (V l eq_refl).
Qed.
Lemma set_held c n v vars : held u raws wd c n v -> all_held c vars -> all_held c (set_var n v vars).
Proof.
  intros H. induction vars as [|[k w] vars IH]; intros A; [exact A|]. cbn [set_var]. destruct (String.eqb k n) eqn:E.
  - apply String.eqb_eq in E. subst k. intros m x [X|X]; [injection X as <- <-; exact H|apply A; right; exact X].
  - intros m x [X|X]; [apply A; left; exact X|]. apply IH in X; [exact X|]. intros m' x' X'. apply A. right. exact X'.
Qed.
Lemma append_held c n v vars : held u raws wd c n v -> all_held c vars -> all_held c (append_var n v vars).
Proof.
  intros H. induction vars as [|[k w] vars IH]; intros A; [exact A|]. cbn [append_var]. destruct (String.eqb k n) eqn:E.
  - apply String.eqb_eq in E. subst k. intros m x [X|X]; [|apply A; right; exact X]. injection X as <- <-.
    assert (W : held u raws wd c n w) by (apply A; left; reflexivity). destruct w; try exact W. constructor. intros y Hy. apply in_app_or in Hy.
    destruct Hy as [Hy|[<-|[]]]; [exact (held_items _ _ _ W y Hy)|exact H].
  - intros m x [X|X]; [apply A; left; exact X|]. apply IH in X; [exact X|]. intros m' x' X'. apply A. right. exact X'.
Qed.
Lemma set_in n v vars m x : In (m, x) (set_var n v vars) -> In (m, x) vars \/ (m = n /\ x = v).
Proof.
  induction vars as [|[k y] vars IH]; [intros []|]. cbn [set_var]. destruct (String.eqb k n) eqn:E.
  - apply String.eqb_eq in E. subst k. intros [X|X]; [injection X as <- <-; auto|left; right; exact X].
  - intros [X|X]; [left; left; exact X|]. destruct (IH X) as [Y|Y]; [left; right; exact Y|right; exact Y].
Qed.
Lemma new_held c : all_held c (vars_of (new_obj c)).
Proof.
  intros n x H. cbn [new_obj vars_of] in H. apply in_map_iff in H. destruct H as [f [E H]]. injection E as <- <-. unfold field_default.
  destruct (f_list f); constructor. intros y [].
Qed.
Definition child_src (cls : string) (ch : child) : Prop :=
  let '(tag, attrs, text) := ch in
  exists k un, attrs_ok k un attrs /\ source raws wd cls k text un /\ (k = tag \/ tag = lit "USER_DEFINED").
Lemma children_held cls cs : (forall ch, In ch cs -> child_src cls ch) -> forall seen vars vars', all_held cls vars ->
  bind_children u cls (fields_of cls) seen cs vars = Ok vars' -> all_held cls vars'.
Proof.
  induction cs as [|[[tag attrs] text] cs IH]; intros S seen vars vars' A; cbn [bind_children]; [intros H; injection H as <-; exact A|].
  destruct (child_ok _); [|discriminate]. destruct (find_elem tag (fields_of cls)) as [f|] eqn:E; [|discriminate].
  apply find_some in E. destruct E as [I E]. assert (Et : xml_name f = tag) by (destruct (f_kind f); try discriminate; apply str_eqb_eq; exact E).
  assert (H0 : held u raws wd cls (f_name f) (bind_child u cls f attrs text)).
  { destruct (S _ (or_introl eq_refl)) as [k [un [Ha [Hs Hk]]]]. eapply held_text; [exact I|reflexivity| |exact Hs|apply child_taken; exact Ha].
    unfold kvn_name. fold (xml_name f). rewrite Et. destruct Hk as [Hk|Hk]; auto. }
  assert (S' : forall ch, In ch cs -> child_src cls ch) by (intros ch Hc; apply S; right; exact Hc).
  destruct (f_list f); [|destruct (existsb _ _); [discriminate|]]; (apply IH; [exact S'|]); [apply append_held|apply set_held]; assumption.
Qed.
Definition line_src (cls : string) (l : line) : Prop :=
  match l with
  | k :: s :: r => exists un, r = match un with Some t => [t] | None => [] end /\ source raws wd cls k s un
  | _ => True
  end.
Lemma map_res_in {A B} (f : A -> res B) l bs b : map_res f l = Ok bs -> In b bs -> exists a, In a l /\ f a = Ok b.
Proof.
  revert bs. induction l as [|a l IH]; intros bs; cbn [map_res]; [intros H; injection H as <-; intros []|]. intros H. inv_ok H. inv_ok H. injection H as <-.
  intros [<-|H]; [exists a; split; [left; reflexivity|exact E]|]. destruct (IH _ E0 H) as [x [X1 X2]]. exists x. split; [right; exact X1|exact X2].
Qed.
Lemma list_held cls prefix items v : prefix = None \/ prefix = Some (lit "USER_DEFINED") -> (forall l, In l items -> line_src cls l) ->
  parse_list u cls prefix items = Ok v -> exists vars, v = VObj cls vars /\ all_held cls vars.
Proof.
  intros P S. unfold parse_list. intros H. inv_ok H. inv_ok H. injection H as <-. eexists. split; [reflexivity|].
  eapply children_held; [|apply new_held|exact E0]. intros [[tag attrs] text] Hc. destruct (map_res_in _ _ _ _ E Hc) as [l [Hl El]]. specialize (S l Hl).
  destruct P as [->| ->]; unfold child_of_line, child_of_user_line in El; destruct l as [|k [|s r]]; try discriminate; cbn in El;
    destruct S as [un [-> S]]; [destruct un as [t|]|]; injection El as <- <- <-.
  - exists k, (Some t). split; [|auto]. intros n av. cbn [assoc]. destruct (String.eqb "units" n) eqn:Q; [|discriminate]. apply String.eqb_eq in Q. subst n. intros X. injection X as <-. reflexivity.
  - exists k, None. split; [|auto]. intros n av X. discriminate X.
  - exists k, un. split; [|auto]. intros n av. cbn [assoc]. destruct (String.eqb "parameter" n) eqn:Q; [|discriminate]. apply String.eqb_eq in Q. subst n.
    intros X. injection X as <-. cbn [String.eqb Ascii.eqb Bool.eqb]. apply (without_remove (lit "USER_DEFINED_")). discriminate.
Qed.
Definition value_class (c : string) : bool := existsb (fun f => String.eqb (f_name f) "value") (fields_of c).
Lemma single_backed cls p items v : value_class cls = true -> p <> "units" -> (forall l, In l items -> line_src cls l) ->
  parse_single u cls p items = Ok v -> backed u raws wd v.
Proof.
  intros V Np S. unfold parse_single. intros H. inv_ok H. inv_ok H. inv_ok H. apply get_ok in E, E0, E1. destruct (child_ok _); [|discriminate]. injection H as <-.
  specialize (S a (nth_error_In _ _ E)). destruct a as [|k [|s r]]; try discriminate. cbn in E0, E1. injection E0 as <-. injection E1 as <-.
  destruct S as [un [-> S]]. eapply backed_value; [exact S|exact V|]. apply value_taken. intros n av. cbn [assoc]. destruct (String.eqb p n) eqn:Q.
  - apply String.eqb_eq in Q. subst n. intros X. injection X as <-. replace (String.eqb p "units") with false by (symmetry; apply String.eqb_neq; exact Np). apply without_none.
  - destruct un as [t|]; [|discriminate]. cbn [nth_error assoc]. destruct (String.eqb "units" n) eqn:Q2; [|discriminate]. apply String.eqb_eq in Q2. subst n.
    intros X. injection X as <-. reflexivity.
Qed.

(* ---- the object map ---- *)
Definition section_field (c n : string) : Prop := exists f, In f (fields_of c) /\ f_name f = n /\ upper_name f = false.
Definition simple (e : elem) : Prop := forall x, In x (all_elems e) -> ordinary (e_cls x) = true.
Definition fits (e : elem) : Prop :=
  (forall s, In s (e_subs e) -> section_field (e_cls e) (e_name s)) /\
  (forall p, e_single e = Some p -> p <> "units" /\ value_class (e_cls e) = true /\ e_subs e = []) /\
  (e_cls e = "AttitudeStateType" -> forall s, In s (e_subs e) -> simple s).
Definition well (e : elem) : Prop := forall x, In x (all_elems e) -> fits x.
Lemma well_intro e : fits e -> (forall s, In s (e_subs e) -> well s) -> well e.
Proof.
  intros C S x Hx. rewrite all_elems_eq in Hx. destruct Hx as [<-|Hx]; [exact C|]. apply in_flat_map in Hx. destruct Hx as [s [Hs Hx]]. exact (S s Hs x Hx).
Qed.
Lemma well_fits e : well e -> fits e.
Proof. intros W. apply W. rewrite all_elems_eq. left. reflexivity. Qed.
Lemma well_sub e s : well e -> In s (e_subs e) -> well s.
Proof. intros W H x Hx. apply W. rewrite all_elems_eq. right. apply in_flat_map. exists s. split; assumption. Qed.
Definition kin (e e' : elem) : Prop := e_name e' = e_name e /\ (well e -> well e') /\ (simple e -> simple e').
Lemma kin_same e e' : e_name e' = e_name e -> e_cls e' = e_cls e -> e_single e' = e_single e ->
  (forall g, In g (e_subs e') -> exists s, In s (e_subs e) /\ kin s g) -> kin e e'.
Proof.
  intros En Ec Es H. split; [exact En|]. split.
  2: { intros S x Hx. rewrite all_elems_eq in Hx. destruct Hx as [<-|Hx]; [rewrite Ec; apply S; rewrite all_elems_eq; left; reflexivity|].
       apply in_flat_map in Hx. destruct Hx as [g [Hg Hx]]. destruct (H g Hg) as [s [Hs [_ [_ Kp]]]]. revert x Hx. apply Kp. intros y Hy. apply S.
       rewrite all_elems_eq. right. apply in_flat_map. exists s. split; assumption. }
  intros W. apply well_intro.
  - split; [|split].
    3: { intros Ha g Hg. destruct (H g Hg) as [s [Hs [_ [_ Kp]]]]. apply Kp. rewrite Ec in Ha. exact (proj2 (proj2 (well_fits e W)) Ha s Hs). }
    2: { intros p Hp. rewrite Es in Hp. destruct (proj1 (proj2 (well_fits e W)) p Hp) as [A [B C]]. rewrite Ec. split; [exact A|]. split; [exact B|].
         destruct (e_subs e') as [|g gs]; [reflexivity|]. destruct (H g (or_introl eq_refl)) as [s [Hs _]]. rewrite C in Hs. destruct Hs. }
    intros g Hg. destruct (H g Hg) as [s [Hs [Kn _]]]. rewrite Ec, Kn. apply well_fits; assumption.
  - intros g Hg. destruct (H g Hg) as [s [Hs [_ [Kw _]]]]. apply Kw. exact (well_sub e s W Hs).
Qed.
Lemma kin_refl e : kin e e. Proof. split; auto. Qed.
Lemma kin_trans a b c : kin a b -> kin b c -> kin a c.
Proof. intros [A1 [A2 A3]] [B1 [B2 B3]]. split; [congruence|auto]. Qed.
Lemma own_kin e keys lines i mm e' : own_range u e keys lines i = Ok (mm, e') -> kin e e'.
Proof.
  intros H. apply own_range_same in H. destruct H as [H1 [H2 [H3 [_ [H5 _]]]]]. apply kin_same; try assumption. intros g Hg. rewrite H3 in Hg. exists g. split; [exact Hg|apply kin_refl].
Qed.
Lemma mm_kin e m : kin e (set_mm e m).
Proof. apply kin_same; try reflexivity. intros g Hg. exists g. split; [exact Hg|apply kin_refl]. Qed.
Definition kin_ident (e : elem) (r : res ident) : Prop := match r with Ok (_, _, e') => kin e e' | Err _ => True end.
Lemma list_kin e one n f : (forall i, kin_ident e (one i)) -> forall i last mx es, identify_list one n f i last = Ok (mx, es) -> Forall (kin e) es.
Proof.
  intros K. induction f as [|f IH]; intros i last mx es; [discriminate|]. rewrite identify_list_S. pose proof (K i) as Ki.
  destruct (one i) as [[[mx' [lo hi]] e1]|x]; [|discriminate]. cbn [bind kin_ident] in *.
  assert (W : kin e (set_mm e1 (lo, hi))) by (eapply kin_trans; [exact Ki|apply mm_kin]).
  destruct (_ && _); [intros X; injection X as <- <-; constructor|]. destruct (Nat.ltb _ _); [intros X; injection X as <- <-; constructor|].
  cbv zeta. destruct (Nat.leb _ _); [intros X; injection X as <- <-; constructor; [exact W|constructor]|].
  intros H. inv_ok H. destruct a as [mx2 es2]. injection H as <- <-. constructor; [exact W|]. eapply IH; exact E.
Qed.
Lemma subs_kin keys lines lo ss : Forall (fun s => forall i, kin_ident s (identify u s keys lines i)) ss ->
  forall i mx gs, ident_subs u keys lines lo ss i = Ok (mx, gs) -> forall g, In g gs -> exists s, In s ss /\ kin s g.
Proof.
  intros F. induction F as [|s ss Hs F IH]; intros i mx gs; cbn [ident_subs]; [intros X; injection X as <- <-; intros g []|].
  destruct (e_islist s).
  - intros H. inv_ok H. destruct a as [i' es]. inv_ok H. destruct a as [i'' gs']. injection H as <- <-. intros g Hg. apply in_app_or in Hg. destruct Hg as [Hg|Hg].
    + apply (list_kin s) in E; [|exact Hs]. rewrite Forall_forall in E. exists s. split; [left; reflexivity|exact (E g Hg)].
    + destruct (IH _ _ _ E0 g Hg) as [s1 [A B]]. exists s1. split; [right; exact A|exact B].
  - intros H. inv_ok H. destruct a as [[i' smm] s']. inv_ok H. inv_ok H. destruct a0 as [i'' gs']. injection H as <- <-.
    pose proof (Hs i) as K. rewrite E in K. cbn [kin_ident] in K. intros g [<-|Hg].
    + exists s. split; [left; reflexivity|]. destruct (_ && _).
      * inv_ok E0. destruct a0 as [mm2 r]. injection E0 as <-. apply own_kin in E2. eapply kin_trans; [exact K|]. eapply kin_trans; [exact E2|apply mm_kin].
      * injection E0 as <-. eapply kin_trans; [exact K|apply mm_kin].
    + destruct (IH _ _ _ E1 g Hg) as [s1 [A B]]. exists s1. split; [right; exact A|exact B].
Qed.
Lemma identify_kin keys lines : forall e i, kin_ident e (identify u e keys lines i).
Proof.
  intros e. induction e as [n c subs k l s m t F] using elem_ind'. intros i. rewrite identify_eq.
  destruct (own_range _ _ _ _ i) as [[mm e1]|x] eqn:E; [|exact I]. pose proof (own_kin _ _ _ _ _ _ E) as K. apply own_range_same in E.
  destruct E as [H1 [H2 [H3 [_ [H5 _]]]]]. cbn [bind e_subs e_name e_cls e_single] in *. destruct subs as [|s0 subs]; [exact K|].
  destruct (ident_subs _ _ _ _ _ _) as [[mx gs]|x] eqn:G; [|exact I]. cbn [bind kin_ident]. apply kin_same; try assumption.
  intros g Hg. cbn [e_subs set_subs] in Hg |- *. exact (subs_kin keys lines _ _ F _ _ _ G g Hg).
Qed.
Lemma prepare_kin e e' d : prepare_aem_segment e d = Ok e' -> kin e e' /\ e_cls e' = e_cls e.
Proof.
  unfold prepare_aem_segment. intros H. inv_ok H. inv_ok H. destruct a0 as [att tmpl]. injection H as <-. apply get_ok in E. split; [|reflexivity].
  assert (Ha : In a (e_subs e)) by (eapply nth_error_In; exact E).
  apply kin_same; try reflexivity. intros g Hg. cbn [set_subs e_subs] in Hg. apply in_app_or in Hg. destruct Hg as [Hg|[<-|Hg]].
  - exists g. split; [|apply kin_refl]. rewrite <- (firstn_skipn 1 (e_subs e)). apply in_or_app. left. exact Hg.
  - exists a. split; [exact Ha|]. apply kin_same; try reflexivity. intros y Hy. cbn [set_subs e_subs] in Hy. apply in_map_iff in Hy. destruct Hy as [z [<- Hz]].
    exists z. split; [exact Hz|]. apply kin_same; try reflexivity. intros w Hw. cbn [set_tmpl set_subs e_subs] in Hw. apply filter_In in Hw.
    exists w. split; [apply Hw|apply kin_refl].
  - exists g. split; [|apply kin_refl]. rewrite <- (firstn_skipn 2 (e_subs e)). apply in_or_app. right. exact Hg.
Qed.
Definition fitsb (e : elem) : bool :=
  forallb (fun s => existsb (fun f => String.eqb (f_name f) (e_name s) && negb (upper_name f)) (fields_of (e_cls e))) (e_subs e) &&
  match e_single e with Some p => negb (String.eqb p "units") && value_class (e_cls e) && (match e_subs e with [] => true | _ => false end) | None => true end &&
  (negb (String.eqb (e_cls e) "AttitudeStateType") || forallb (fun s => forallb (fun x => ordinary (e_cls x)) (all_elems s)) (e_subs e)).
Lemma fitsb_spec e : fitsb e = true -> fits e.
Proof.
  unfold fitsb. intros H. apply andb_true_iff in H. destruct H as [H H9]. apply andb_true_iff in H. destruct H as [H1 H2]. split; [|split].
  3: { intros Q s Hs x Hx. rewrite Q in H9. cbn [String.eqb Ascii.eqb Bool.eqb negb orb] in H9. rewrite forallb_forall in H9. specialize (H9 s Hs).
       rewrite forallb_forall in H9. exact (H9 x Hx). }
  - intros s Hs. rewrite forallb_forall in H1. specialize (H1 s Hs). apply existsb_exists in H1. destruct H1 as [f [If Hf]]. apply andb_true_iff in Hf.
    destruct Hf as [Hf Hu]. apply String.eqb_eq in Hf. apply negb_true_iff in Hu. exists f. auto.
  - intros p Hp. rewrite Hp in H2. apply andb_true_iff in H2. destruct H2 as [H2 H4]. apply andb_true_iff in H2. destruct H2 as [H2 H3].
    apply negb_true_iff, String.eqb_neq in H2. split; [exact H2|]. split; [exact H3|]. destruct (e_subs e); [reflexivity|discriminate].
Qed.
Lemma roots_well c : In c root_classes -> well (tree_of c).
Proof.
  intros H x Hx. apply fitsb_spec. revert x Hx. apply forallb_forall.
  repeat (destruct H as [<-|H]; [vm_compute; reflexivity|]). destruct H.
Qed.

(* ---- building ---- *)
Definition given (l : line) : Prop :=
  match wd with
  | None => exists raw, In raw raws /\ lex_line raw = Some l
  | Some raw => exists k t, l = [k; t] /\ piece raw t
  end.
Definition rooted (x : elem) : Prop := root_kws (e_kws x) = true /\ ordinary (e_cls x) = true.
Definition fed (e : elem) (full : list line) : Prop :=
  forall x, In x (all_elems e) -> (wd = None \/ ordinary (e_cls x) = true) /\
    (rooted x \/ forall l, In l (slice (fst (e_mm x)) (snd (e_mm x)) full) -> given l).
Lemma fed_sub e s f : fed e f -> In s (e_subs e) -> fed s f.
Proof. intros S H x Hx. apply S. rewrite all_elems_eq. right. apply in_flat_map. exists s. split; assumption. Qed.
Lemma fed_same e s f : fed e f -> e_mm s = e_mm e -> e_kws s = e_kws e -> e_cls s = e_cls e -> (forall x, In x (e_subs s) -> fed x f) -> fed s f.
Proof.
  intros S E1 E2 E3 H x Hx. rewrite all_elems_eq in Hx. destruct Hx as [<-|Hx].
  - unfold rooted. rewrite E1, E2, E3. apply S. rewrite all_elems_eq. left. reflexivity.
  - apply in_flat_map in Hx. destruct Hx as [y [Hy Hx]]. exact (H y Hy x Hx).
Qed.
Lemma prepare_fed e e' d f : prepare_aem_segment e d = Ok e' -> fed e f -> fed e' f.
Proof.
  unfold prepare_aem_segment. intros H S. inv_ok H. inv_ok H. destruct a0 as [att tmpl]. injection H as <-. apply get_ok in E.
  assert (Ha : In a (e_subs e)) by (eapply nth_error_In; exact E).
  apply (fed_same e); try reflexivity; [exact S|]. intros x Hx. cbn [set_subs e_subs] in Hx. apply in_app_or in Hx. destruct Hx as [Hx|[<-|Hx]].
  - apply (fed_sub e); [exact S|]. rewrite <- (firstn_skipn 1 (e_subs e)). apply in_or_app. left. exact Hx.
  - pose proof (fed_sub e a f S Ha) as Sa. apply (fed_same a); try reflexivity; [exact Sa|]. intros y Hy. cbn [set_subs e_subs] in Hy. apply in_map_iff in Hy.
    destruct Hy as [z [<- Hz]]. pose proof (fed_sub a z f Sa Hz) as Sz. apply (fed_same z); try reflexivity; [exact Sz|]. intros w Hw.
    cbn [set_tmpl set_subs e_subs] in Hw. apply filter_In in Hw. apply (fed_sub z); [exact Sz|apply Hw].
  - apply (fed_sub e); [exact S|]. rewrite <- (firstn_skipn 2 (e_subs e)). apply in_or_app. right. exact Hx.
Qed.
Lemma given_src c l : given l -> line_src c l.
Proof.
  unfold given, line_src, source. destruct wd as [rw|].
  { intros [k [t [-> P]]]. exists None. auto. }
  intros [raw [I H]]. destruct l as [|k [|s r]]; try exact Logic.I. apply lex_says in H.
  assert (R : r = [] \/ exists t, r = [t]) by (inversion H; subst; eauto). destruct R as [->|[t ->]].
  - exists None. split; [reflexivity|]. exists raw. split; [exact I|left; exact H].
  - exists (Some t). split; [reflexivity|]. exists raw. split; [exact I|left; exact H].
Qed.
Lemma zip_in ks ts l : In l (zip_lines ks ts) -> exists k t, l = [k; t] /\ In t ts /\ In k ks.
Proof.
  revert ts. induction ks as [|k ks IH]; intros [|t ts]; cbn [zip_lines]; [intros []|intros []|intros []|]. intros [<-|H]; [exists k, t; cbn; auto|].
  destruct (IH _ H) as [k' [t' [A [B C]]]]. exists k', t'. cbn. auto.
Qed.
Lemma attach_held c n sub vars vars' : section_field c n -> sub = VNone \/ backed u raws wd sub -> all_held c vars ->
  attach n sub vars = Ok vars' -> all_held c vars'.
Proof.
  intros [f [I [En U]]] B A. assert (H : held u raws wd c n sub) by (destruct B as [->|B]; [constructor|eapply held_section; eassumption]). unfold attach.
  destruct (assoc n vars) as [w|]; [|discriminate]. destruct w; try (intros X; injection X as <-; apply set_held; assumption).
  destruct sub; intros X; injection X as <-; try exact A; apply append_held; assumption.
Qed.
Lemma respelled_again v : forall cls fld t, respelled u v (reparse u cls fld t v).
Proof.
  induction v as [|s|z|d|c m s|c vars F|l F] using pyval_ind'; intros cls fld t; cbn [reparse]; try apply respelled_same.
  - eapply respelled_text; [apply (without_remove (lit "Type")); discriminate|apply conv_reading].
  - unfold fixed_point. destruct d as [n c [|e|e]| |]; try apply respelled_same. cbn [Z.ltb Z.compare].
    replace (Z.to_N (10 ^ Z.pos e)) with (10 ^ N.pos e)%N; [apply respelled_number|].
    change 10%Z with (Z.of_N 10). change (Z.pos e) with (Z.of_N (N.pos e)). rewrite <- N2Z.inj_pow, N2Z.id. reflexivity.
  - apply respelled_object. induction F as [|a vars Ha F IH]; constructor; [split; [reflexivity|apply Ha]|exact IH].
  - apply respelled_list. induction F as [|a l Ha F IH]; constructor; [apply Ha|exact IH].
Qed.
Lemma state_backed raw n sub : In raw raws -> section_field "AttitudeStateType" n -> sub = VNone \/ backed u raws (Some raw) sub ->
  backed u raws None (reparse u "" "" TStr (VObj "AttitudeStateType" (set_var n sub (vars_of (new_obj "AttitudeStateType"))))).
Proof.
  intros Ir [f [I [En U]]] B. eapply (backed_attitude u raws raw); [exact Ir| |apply respelled_again].
  intros m x Hx. apply set_in in Hx. destruct Hx as [Hx|[-> ->]].
  - cbn [new_obj vars_of] in Hx. apply in_map_iff in Hx. destruct Hx as [g [X _]]. injection X as <- <-. unfold field_default. destruct (f_list g); constructor. intros y [].
  - destruct B as [->|B]; [constructor|]. eapply held_section; eassumption.
Qed.
Hypothesis states : wd = None -> forall raw doc fuel e full v, well e -> simple e -> (forall l, In l full -> exists k t, l = [k; t] /\ piece raw t) ->
  build u fuel doc e full = Ok v -> v = VNone \/ backed u raws (Some raw) v.
Lemma build_backed doc : forall fuel e full v, well e -> fed e full -> build u fuel doc e full = Ok v -> v = VNone \/ backed u raws wd v.
Proof.
  induction fuel as [|n IH]; intros e full v W F; [discriminate|]. cbn [build].
  set (local := slice (fst (e_mm e)) (snd (e_mm e)) full).
  destruct (F e) as [Wo Fe]; [rewrite all_elems_eq; left; reflexivity|]. fold local in Fe. clearbody local.
  assert (Fl : forall e' obj, e_cls e' = e_cls e -> well e' -> fed e' full -> (exists vars, obj = VObj (e_cls e) vars /\ all_held (e_cls e) vars) ->
    match obj with
    | VObj c vars => do vars' <- fold_left (fun acc s => do vs <- acc; do sub <- build u n doc s full; attach (e_name s) sub vs) (e_subs e') (Ok vars); Ok (VObj c vars')
    | _ => Err AttributeError end = Ok v -> v = VNone \/ backed u raws wd v).
  { intros e' obj Ec We Fe' [vars [-> A]] H. inv_ok H. injection H as <-. right. apply backed_object. change (all_held (e_cls e) a).
    assert (P : forall s, In s (e_subs e') -> section_field (e_cls e) (e_name s) /\ (forall sub, build u n doc s full = Ok sub -> sub = VNone \/ backed u raws wd sub)).
    { intros s Hs. split; [rewrite <- Ec; apply well_fits; assumption|]. intros sub. apply IH; [exact (well_sub _ _ We Hs)|exact (fed_sub _ _ _ Fe' Hs)]. }
    revert vars A E. induction (e_subs e') as [|s ss IHs]; intros vars A E; [cbn in E; injection E as <-; exact A|]. cbn [fold_left bind] in E.
    assert (Er : forall x, fold_left (fun acc s => do vs <- acc; do sub <- build u n doc s full; attach (e_name s) sub vs) ss (Err x) = Err x).
    { clear. intros x. induction ss as [|s ss I]; [reflexivity|exact I]. }
    destruct (build u n doc s full) as [sub|x] eqn:Eb; [|cbn [bind] in E; rewrite Er in E; discriminate]. cbn [bind] in E.
    destruct (attach (e_name s) sub vars) as [vs|x] eqn:Ea; [|rewrite Er in E; discriminate].
    destruct (P s (or_introl eq_refl)) as [Ps Pb]. eapply IHs; [intros s' Hs'; apply P; right; exact Hs'| |exact E].
    eapply attach_held; [exact Ps|exact (Pb _ Eb)|exact A|exact Ea]. }
  assert (Sp : ordinary (e_cls e) = false -> wd = None /\ forall l, In l local -> exists raw, In raw raws /\ lex_line raw = Some l).
  { intros O. destruct Wo as [Wo|Wo]; [|congruence]. split; [exact Wo|]. destruct Fe as [[_ X]|X]; [congruence|]. intros l Hl. specialize (X l Hl).
    unfold given in X. rewrite Wo in X. exact X. }
  assert (Or : forall c, In c ["AemSegment"; "AttitudeStateType"; "StateVectorAccType"; "OemCovarianceMatrixType"; "TrackingDataObservationType"; "UserDefinedType"] ->
    String.eqb (e_cls e) c = true -> e_cls e = c /\ wd = None /\ forall l, In l local -> exists raw, In raw raws /\ lex_line raw = Some l).
  { intros c Hc Q. apply String.eqb_eq in Q. split; [exact Q|]. apply Sp. rewrite Q. clear - Hc. repeat (destruct Hc as [<-|Hc]; [reflexivity|]). destruct Hc. }
  assert (Fe2 : forall l, In l local -> rooted e \/ given l) by (intros l Hl; destruct Fe as [X|X]; auto). clear Fe Sp.
  assert (Gv : wd = None -> forall l, (exists raw, In raw raws /\ lex_line raw = Some l) -> given l) by (intros Q l X; unfold given; rewrite Q; exact X).
  assert (Ps : forall items obj, (forall l, In l items -> line_src (e_cls e) l) -> parse_list u (e_cls e) None items = Ok obj ->
    exists vars, obj = VObj (e_cls e) vars /\ all_held (e_cls e) vars) by (intros items obj Hi; apply list_held; auto).
  assert (Tl : forall prefix items, prefix = None \/ prefix = Some (lit "USER_DEFINED") ->
    (root_kws (e_kws e) = true \/ forall l, In l items -> line_src (e_cls e) l) ->
    (do obj <- (if match e_kws e with [a; b] => str_eqb a (lit "id") && str_eqb b (lit "version") | _ => false end then parse_root (e_cls e) items
                else match e_single e with Some p => parse_single u (e_cls e) p items | None => parse_list u (e_cls e) prefix items end);
     match obj with
     | VObj c vars => do vars' <- fold_left (fun acc s => do vs <- acc; do sub <- build u n doc s full; attach (e_name s) sub vs) (e_subs e) (Ok vars); Ok (VObj c vars')
     | _ => Err AttributeError end) = Ok v -> v = VNone \/ backed u raws wd v).
  { intros prefix items Px It H. fold (root_kws (e_kws e)) in H. destruct (root_kws (e_kws e)) eqn:Rk.
    - inv_ok H. apply (Fl e a); [reflexivity|exact W|exact F| |exact H]. unfold parse_root in E. inv_ok E. destruct (forallb _ _); [|discriminate]. injection E as <-.
      eexists. split; [reflexivity|]. apply new_held.
    - destruct It as [It|It]; [discriminate|]. destruct (e_single e) as [p|] eqn:Eg.
      + inv_ok H. destruct (proj1 (proj2 (well_fits e W)) p Eg) as [Np [Vc Sn]]. rewrite Sn in H. pose proof (single_backed _ _ _ _ Vc Np It E) as B.
        destruct a; try discriminate. cbn in H. injection H as <-. right. exact B.
      + inv_ok H. apply (Fl e a); [reflexivity|exact W|exact F| |exact H]. exact (list_held _ _ _ _ Px It E). }
  destruct local as [|l0 local'] eqn:El; [destruct (e_subs e) as [|s0 ss] eqn:Es; [intros H; injection H as <-; left; reflexivity|]; rewrite <- Es in Tl |- *|];
    rewrite <- El in *; clear El; intros H.
  all: destruct (String.eqb (e_cls e) "AemSegment") eqn:C1;
    [destruct (Or "AemSegment") as [Q [Wn G]]; [cbn; tauto|exact C1|]; inv_ok H; inv_ok H; destruct (prepare_kin _ _ _ E) as [Kn Ec];
     apply (Fl a a0); [exact Ec|apply Kn; exact W|exact (prepare_fed _ _ _ _ E F)| |exact H]; eapply Ps; [|exact E0]; intros l Hl; apply given_src, (Gv Wn), G; exact Hl|];
  (destruct (String.eqb (e_cls e) "AttitudeStateType") eqn:C2;
    [destruct (Or "AttitudeStateType") as [Q [Wn G]]; [cbn; tauto|exact C2|]; inv_ok H; inv_ok H; inv_ok H; inv_ok H; destruct a2 as [[x1 x2] e1]; inv_ok H; inv_ok H; inv_ok H;
     (cut (v = reparse u "" "" TStr (VObj (e_cls e) a4)); [intros Ev|injection H as <-; reflexivity]); injection E5 as <-; subst v; right; rewrite Q;
     pose proof (identify_kin a (zip_lines a (split_ws a1)) e 0) as Kn; rewrite E2 in Kn; cbn [kin_ident] in Kn; pose proof (identify_cls _ _ _ _ _ _ _ _ E2) as Ec;
     apply get_ok in E0, E1, E3; destruct (G _ (nth_error_In _ _ E0)) as [raw [Ir Lr]]; destruct a0 as [|k0 r0]; [discriminate|]; cbn in E1; injection E1 as ->;
     pose proof (proj1 (proj2 Kn) W) as W1; pose proof (nth_error_In _ _ E3) as I3; pose proof (proj1 (well_fits _ W1) _ I3) as Sf; rewrite Ec, Q in Sf;
     rewrite Wn; apply (state_backed raw); [exact Ir|exact Sf|]; eapply (states Wn raw);
       [exact (well_sub _ _ W1 I3)|exact (proj2 (proj2 (well_fits _ W1)) (eq_trans Ec Q) _ I3)| |eassumption];
     intros l Hl; apply zip_in in Hl; destruct Hl as [k [t [-> [Ht _]]]]; exists k, t; split; [reflexivity|]; exact (word_piece _ _ _ (lex_key_part _ _ _ Lr) Ht)|]);
  (destruct (String.eqb (e_cls e) "StateVectorAccType") eqn:C3;
    [destruct (Or "StateVectorAccType") as [Q [Wn G]]; [cbn; tauto|exact C3|]; inv_ok H; inv_ok H; inv_ok H; apply (Fl e a1); [reflexivity|exact W|exact F| |exact H];
     eapply Ps; [|exact E1]; intros l Hl; apply zip_in in Hl; destruct Hl as [k [t [-> [Ht _]]]]; exists None; split; [reflexivity|]; unfold source; rewrite Wn;
     apply get_ok in E, E0; destruct (G _ (nth_error_In _ _ E)) as [raw [Ir Lr]]; exists raw; split; [exact Ir|right; left];
     split; [rewrite Q; reflexivity|]; split; [reflexivity|]; destruct a as [|k0 r0]; [discriminate|]; cbn in E0; injection E0 as ->;
     exact (word_piece _ _ _ (lex_key_part _ _ _ Lr) Ht)|]);
  (destruct (String.eqb (e_cls e) "OemCovarianceMatrixType") eqn:C4;
    [destruct (Or "OemCovarianceMatrixType") as [Q [Wn G]]; [cbn; tauto|exact C4|]; inv_ok H; apply (Fl e a); [reflexivity|exact W|exact F| |exact H];
     eapply Ps; [|exact E]; intros l Hl; apply in_app_or in Hl; destruct Hl as [Hl|Hl];
     [apply filter_In in Hl; apply given_src, (Gv Wn), G, Hl|];
     apply zip_in in Hl; destruct Hl as [k [t [-> [Ht _]]]]; exists None; split; [reflexivity|]; unfold source; rewrite Wn;
     apply in_flat_map in Ht; destruct Ht as [l [Hl Ht]]; apply filter_In in Hl; destruct (G l (proj1 Hl)) as [raw [Ir Lr]]; exists raw; split; [exact Ir|right; left];
     split; [rewrite Q; reflexivity|]; split; [reflexivity|]; destruct l as [|k0 r0]; [destruct Ht|];
     exact (word_piece _ _ _ (lex_key_part _ _ _ Lr) Ht)|]);
  (destruct (String.eqb (e_cls e) "TrackingDataObservationType") eqn:C5;
    [destruct (Or "TrackingDataObservationType") as [Q [Wn G]]; [cbn; tauto|exact C5|]; inv_ok H; inv_ok H; inv_ok H; inv_ok H;
     apply (Fl e a2); [reflexivity|exact W|exact F| |exact H]; eapply Ps; [|exact E2]; clear E2; intros l Hl; apply get_ok in E, E0, E1;
     destruct (G _ (nth_error_In _ _ E)) as [raw [Ir Lr]]; destruct a as [|k0 [|t0 r0]]; try discriminate; cbn in E0, E1; injection E0 as ->; injection E1 as ->;
     apply zip_in in Hl; destruct Hl as [k [t [-> [Ht Hk]]]]; exists None; split; [reflexivity|]; unfold source; rewrite Wn; exists raw; split; [exact Ir|right; right];
     split; [exact Q|]; split; [reflexivity|]; destruct (obs_part _ _ _ _ Lr) as [Pt Pk]; split; [exact (word_piece _ _ _ Pt Ht)|];
     destruct Hk as [<-|[<-|[]]]; [left; reflexivity|right; exact Pk]|]).
  all: assert (It : forall items, (forall l, In l items -> In l local) -> root_kws (e_kws e) = true \/ forall l, In l items -> line_src (e_cls e) l);
    [intros items Hi; destruct (root_kws (e_kws e)) eqn:Rk; [left; reflexivity|right]; intros l Hl; destruct (Fe2 l (Hi l Hl)) as [[X _]|X]; [congruence|apply given_src; exact X]|];
  (destruct (String.eqb (e_cls e) "UserDefinedType");
    [pose proof (It local (fun l Hl => Hl)) as Is; clear - Tl H Is; assert (Px : Some (lit "USER_DEFINED") = None \/ Some (lit "USER_DEFINED") = Some (lit "USER_DEFINED")) by auto;
     pose proof (Tl _ local Px Is) as T
    |pose proof (It (filter (fun l => mem_str (key_of l) (e_kws e)) local) (fun l Hl => proj1 (proj1 (filter_In _ _ _) Hl))) as Is; clear - Tl H Is;
     assert (Px : @None str = None \/ @None str = Some (lit "USER_DEFINED")) by auto; pose proof (Tl _ _ Px Is) as T;
     set (items := filter (fun l => mem_str (key_of l) (e_kws e)) local) in *; clearbody items]).
  1: destruct local; exact (T H).
  1: destruct items; exact (T H).
  1: destruct local; [destruct (e_subs e); [injection H as <-; left; reflexivity|]|]; exact (T H).
  1: destruct items; [destruct (e_subs e); [injection H as <-; left; reflexivity|]|]; exact (T H).
Qed.
End Build.
Lemma slice_in {A} lo hi (full : list A) x : In x (slice lo hi full) -> In x full.
Proof.
  unfold slice. intros H. rewrite <- (firstn_skipn lo full). apply in_or_app. right. rewrite <- (firstn_skipn (hi - lo) (skipn lo full)). apply in_or_app. left. exact H.
Qed.
Lemma states_backed u raws : (forall c f l, x_empty u c f <> VList l) -> forall raw doc fuel e full v, well e -> simple e ->
  (forall l, In l full -> exists k t, l = [k; t] /\ piece raw t) -> build u fuel doc e full = Ok v -> v = VNone \/ backed u raws (Some raw) v.
Proof.
  intros Sc raw doc fuel e full v W S L. apply build_backed; [exact Sc|discriminate|exact W|]. intros x Hx. split; [right; exact (S x Hx)|right].
  intros l Hl. exact (L l (slice_in _ _ _ _ Hl)).
Qed.

(* ---- documents ---- *)
Lemma slice_clear {A} (l0 l1 : A) R lo hi x : 2 <= lo \/ hi <= lo -> In x (slice lo hi (l0 :: l1 :: R)) -> In x R.
Proof.
  intros H. unfold slice. destruct H as [H|H].
  - destruct lo as [|[|lo]]; [lia|lia|]. cbn [skipn]. intros I. assert (J : In x (skipn lo R)).
    { rewrite <- (firstn_skipn (hi - S (S lo)) (skipn lo R)). apply in_or_app. left. exact I. }
    rewrite <- (firstn_skipn lo R). apply in_or_app. right. exact J.
  - replace (hi - lo) with 0 by lia. intros [].
Qed.
Lemma filter_map_in {A B} (f : A -> option B) l b : In b (filter_map f l) -> exists a, In a l /\ f a = Some b.
Proof.
  induction l as [|a l IH]; [intros []|]. cbn [filter_map]. destruct (f a) as [x|] eqn:E.
  - intros [<-|H]; [exists a; split; [left; reflexivity|exact E]|]. destruct (IH H) as [y [Y1 Y2]]. exists y. split; [right; exact Y1|exact Y2].
  - intros H. destruct (IH H) as [y [Y1 Y2]]. exists y. split; [right; exact Y1|exact Y2].
Qed.
Theorem C50_nothing_invented : forall u raws v, raws <> [] -> Forall one_line raws -> (forall c f l, x_empty u c f <> VList l) ->
  kvn_from_string u (text_of raws) = Ok v -> backed u raws None v.
Proof.
  intros u raws v Nr O Sc. unfold kvn_from_string, pre_process, text_of. rewrite lex_lines_join by assumption. intros H. inv_ok H.
  assert (L : forall l, In l (filter_map lex_line raws) -> given raws None l).
  { intros l Hl. destruct (filter_map_in _ _ _ Hl) as [raw [H1 H2]]. exists raw. auto. }
  destruct (filter_map lex_line raws) as [|[|k vs] R]; try discriminate. injection E as <-.
  unfold read_lines in H. inv_ok H. change (guard_opt (find_element k) AttributeError = Ok a) in E.
  destruct (find_element k) as [c|] eqn:Ef; [|discriminate]. cbn [guard_opt] in E. injection E as <-. apply find_element_in in Ef. rename Ef into Hc.
  destruct (deleted_root c Hc) as [D0 D1].
  assert (Ed : delete_keywords c ([lit "id"; k] :: (lit "version" :: vs) :: R) = [lit "id"; k] :: (lit "version" :: vs) :: delete_keywords c R).
  { unfold delete_keywords. cbn [filter key_of hd]. rewrite D0, D1. reflexivity. }
  rewrite Ed, (init_object_map_ok c Hc) in H. clear Ed. cbn [bind] in H.
  assert (Lr : forall l, In l (delete_keywords c R) -> given raws None l) by (intros l Hl; unfold delete_keywords in Hl; apply filter_In in Hl; apply L; right; apply Hl).
  clear L. revert Lr H. generalize (delete_keywords c R). clear R. intros R Lr H. inv_ok H.
  set (a0 := [lit "id"; k] :: (lit "version" :: vs) :: R) in *.
  destruct (root_tree c Hc) as [Ec [Es [Ek [Eb [Em [Oc [Rk [[vs0 [P N0]] Dh]]]]]]]]. pose proof (root_outer c Hc) as Ot. pose proof (roots_well c Hc) as Wl.
  set (e := tree_of c) in *.
  pose proof (identify_kin u (keys_of a0) a0 e 0) as Kn.
  assert (Cl : claims [lit "id"; lit "version"] [lit "id"; lit "version"] (keys_of R)).
  { exists 0, [lit "id"; lit "version"]. split; [reflexivity|]. split; [discriminate|].
    split; [constructor; [|constructor; [|constructor]]; cbn; [intros [Y|[]]; vm_compute in Y; discriminate|intros []]|].
    split; [apply incl_refl|]. split; [intros [Y|[Y|[]]]; vm_compute in Y; discriminate|]. split; [congruence|].
    split; [discriminate|]. auto. }
  assert (Or : own_range u e (keys_of a0) a0 0 = Ok ((0, 2), e)).
  { rewrite (own_range_ordinary u e _ _ 0 (0, 2) (e_kws e)); [rewrite set_kws_same; reflexivity|rewrite Ec; exact Oc|exact Es|].
    change (keys_of a0) with ([lit "id"; lit "version"] ++ keys_of R). rewrite Ek. exact (claims_range _ _ _ false Cl). }
  rewrite forallb_forall in Ot.
  assert (Oo : forall s, In s (e_subs e) -> ordinary (e_cls s) = true /\ ~ In (lit "id") (e_kws s) /\ ~ In (lit "version") (e_kws s)).
  { intros s Hs. specialize (Ot s Hs). unfold outer in Ot. apply andb_true_iff in Ot. destruct Ot as [Ot O3]. apply andb_true_iff in Ot. destruct Ot as [O1 O2].
    apply negb_true_iff in O2, O3. split; [exact O1|]. split; apply not_mem; assumption. }
  unfold identify_segments in E. rewrite identify_eq, Or in E. rewrite identify_eq, Or in Kn. cbn [bind fst snd] in E, Kn.
  destruct (e_subs e) as [|s0 ss] eqn:Esub; [congruence|]. rewrite <- Esub in *.
  destruct (ident_subs u (keys_of a0) a0 0 (e_subs e) 2) as [[mx gs]|x] eqn:G; [|discriminate]. cbn [bind kin_ident] in E, Kn. injection E as <-.
  assert (Gc : Forall all_clear gs).
  { eapply subs_all_clear; [| |apply le_n|exact G].
    - apply Forall_forall. intros s _ i Hi. apply identify_clear. exact Hi.
    - intros s s' i mx1 mm r [lo hi] Hs Hi Ho. destruct (Oo s Hs) as [O1 [O2 O3]]. pose proof (outer_kws _ _ _ _ _ _ _ _ O1 Hi) as Kw.
      apply identify_cls in Hi. destruct (ordinary_spec _ O1) as [_ [H2 [H3 [H4 [H5 H6]]]]]. unfold own_range in Ho.
      rewrite Hi, H2, H3, H4, H5, H6 in Ho. cbn [orb] in Ho. inv_ok Ho. destruct a as [mm2 tags]. injection Ho as -> <-. cbn [fst snd].
      rewrite Kw in E. apply early_range in E; [apply E|reflexivity|reflexivity|exact O2|exact O3]. }
  assert (Nn : v <> VNone).
  { intros ->. unfold build_object in H. revert H. generalize (depth (set_mm (set_subs e gs) (0, 2))). intros fuel. set (e' := set_mm (set_subs e gs) (0, 2)).
    cbn [build]. destruct (ordinary_spec _ Oc) as [H1 [H2 [H3 [H4 [H5 H6]]]]].
    assert (Ec' : e_cls e' = c) by exact Ec. assert (Ek' : e_kws e' = [lit "id"; lit "version"]) by exact Ek. assert (Em' : e_mm e' = (0, 2)) by reflexivity.
    rewrite Ec', Ek', Em', H1, H2, H3, H4, H5, H6. unfold root_kws in Rk. rewrite Rk. cbn [fst snd].
    change (slice 0 2 a0) with [[lit "id"; k]; lit "version" :: vs]. cbn [filter key_of hd].
    replace (mem_str (lit "id") [lit "id"; lit "version"]) with true by (vm_compute; reflexivity). intros H. inv_ok H. destruct a; try discriminate. inv_ok H. discriminate. }
  apply (build_backed u raws None Sc (fun _ => states_backed u raws Sc)) in H.
  - destruct H as [->|H]; [congruence|exact H].
  - apply (proj1 (proj2 (kin_trans _ _ _ Kn (mm_kin _ _)))). exact Wl.
  - intros x Hx. split; [left; reflexivity|]. rewrite all_elems_eq in Hx. destruct Hx as [<-|Hx]; [left; split; [cbn [e_kws set_mm set_subs]; rewrite Ek; exact Rk|cbn [e_cls set_mm set_subs]; rewrite Ec; exact Oc]|].
    right. intros l Hl. apply in_flat_map in Hx. cbn [e_subs set_mm set_subs] in Hx. destruct Hx as [g [Hg Hx]]. rewrite Forall_forall in Gc.
    apply Lr. exact (slice_clear _ _ _ _ _ _ (Gc g Hg x Hx) Hl).
Qed.
Print Assumptions C50_nothing_invented.

Definition from_raws : list str := lit "CCSDS_TDM_VERS = 1.0" :: vers_after.
Example C50_example : from_raws <> [] /\ Forall one_line from_raws /\ (forall c f l, x_empty demo_env c f <> VList l) /\
  exists v, kvn_from_string demo_env (text_of from_raws) = Ok v.
Proof.
  split; [discriminate|]. split; [apply Forall_forall; intros s Hs; repeat (destruct Hs as [<-|Hs]; [apply no_charb_spec; reflexivity|]); destruct Hs|].
  split; [intros c f l; vm_compute; discriminate|]. eexists. vm_compute. reflexivity.
Qed.
(* a header with another originator than the text gives is not accounted for by the text *)
Example C50_rejects : let raws := [lit "ORIGINATOR = X"] in
  held demo_env raws None "TdmHeader" "originator" (VStr (lit "X")) /\ ~ held demo_env raws None "TdmHeader" "originator" (VStr (lit "Y")).
Proof.
  cbv zeta. assert (Fd : forall f, In f (fields_of "TdmHeader") -> f_name f = "originator" -> f_kw f = Some "ORIGINATOR").
  { intros f H. vm_compute in H. repeat (destruct H as [<-|H]; [cbn; (discriminate || reflexivity)|]). destruct H. }
  split.
  - assert (Ef : exists f, In f (fields_of "TdmHeader") /\ f_name f = "originator").
    { destruct (find_field "originator" (fields_of "TdmHeader")) as [f|] eqn:E; [|vm_compute in E; discriminate]. apply find_some in E. destruct E as [E1 E2].
      exists f. split; [exact E1|apply String.eqb_eq; exact E2]. }
    destruct Ef as [f [E1 E2]]. apply (held_text _ _ _ _ _ f (lit "ORIGINATOR") (lit "X") None); [exact E1|exact E2|left; unfold kvn_name; rewrite (Fd f E1 E2); reflexivity| |].
    + exists (lit "ORIGINATOR = X"). split; [left; reflexivity|left]. apply (says_plain (lit "ORIGINATOR ") (lit " X")); [apply no_charb_spec; reflexivity|apply core_of; reflexivity|apply core_of; reflexivity].
    + apply taken_plain, reading_text.
  - intros H. inversion H as [| |w c n f v I1 I2 I3 B|w c n f k s un x I1 I2 I3 I4 T]; subst.
    + unfold upper_name in I3. rewrite (Fd f I1 I2) in I3. vm_compute in I3. discriminate.
    + unfold kvn_name in I3. rewrite (Fd f I1 I2) in I3. destruct I3 as [->|I3]; [|vm_compute in I3; discriminate].
      destruct I4 as [raw [[<-|[]] [S|[[S _]|[S _]]]]]; [|vm_compute in S; discriminate|discriminate].
      assert (Es : s = lit "X").
      { inversion S as [a b k0 s0 Na Ca Cb Ea|a b r k0 s0 t Na Nb Ca Cb Cu Ea|w b s0 Bw Cb Ea|w b b' s0 Bw Cb Cb' Ea]; subst.
        - pose proof (split_once_app c_eq a b Na) as X. rewrite Ea in X. vm_compute in X. injection X as <- <-. apply strip_of_core in Cb. vm_compute in Cb. symmetry. exact Cb.
        - exfalso. assert (I : In c_lbr (lit "ORIGINATOR = X")) by (rewrite <- Ea; apply in_or_app; right; right; apply in_or_app; right; left; reflexivity).
          revert I. apply no_charb_spec. reflexivity.
        }
      subst s. inversion T as [x R|]; subst. inversion R.
Qed.

(* an attitude record: its epoch is a word of its own line *)
Definition from_row : str := lit "2005-159 1 2 3 4E2".
Definition from_aem : list str :=
  map lit ["CCSDS_AEM_VERS = 1.0"; "CREATION_DATE = 2005-160"; "ORIGINATOR = X"; "META_START"; "OBJECT_NAME = A"; "OBJECT_ID = B"; "CENTER_NAME = C"; "REF_FRAME_A = E";
           "REF_FRAME_B = F"; "ATTITUDE_DIR = A2B"; "TIME_SYSTEM = UTC"; "START_TIME = 2005-159"; "STOP_TIME = 2005-160"; "ATTITUDE_TYPE = QUATERNION"; "QUATERNION_TYPE = LAST";
           "META_STOP"; "DATA_START"] ++ [from_row; lit "2005-160 4 3 2 1"; lit "DATA_STOP"].
Example C50_attitude_example : from_aem <> [] /\ Forall one_line from_aem /\ exists v q, kvn_from_string demo_env (text_of from_aem) = Ok v /\
  at_path ["body"; "segment"; "segment"; "data"; "attitude_state"; "attitude_state"; "quaternion_state"] v = Some q /\
  assoc "epoch" (vars_of q) = Some (VStr (lit "2005-159")) /\ at_path ["quaternion"; "qc"] q = Some (VDec (DFin false 400 0)).
Proof.
  split; [discriminate|]. split; [apply Forall_forall; intros s Hs; repeat (destruct Hs as [<-|Hs]; [apply no_charb_spec; reflexivity|]); destruct Hs|].
  do 2 eexists. split; [vm_compute; reflexivity|]. split; [vm_compute; reflexivity|]. split; vm_compute; reflexivity.
Qed.
Fixpoint tails (s : str) : list str := match s with [] => [[]] | _ :: t => s :: tails t end.
Lemma tails_in a b : In b (tails (a ++ b)).
Proof. induction a as [|c a IH]; [destruct b; left; reflexivity|right; exact IH]. Qed.
Example C50_attitude_rejects :
  held demo_env from_aem (Some from_row) "QuaternionEphemerisType" "epoch" (VStr (lit "2005-159")) /\
  ~ held demo_env from_aem (Some from_row) "QuaternionEphemerisType" "epoch" (VStr (lit "2005-160")).
Proof.
  assert (Fd : forall f, In f (fields_of "QuaternionEphemerisType") -> f_name f = "epoch" -> f_kw f = Some "EPOCH").
  { intros f H. vm_compute in H. repeat (destruct H as [<-|H]; [cbn; (discriminate || reflexivity)|]). destruct H. }
  split.
  - assert (Ef : exists f, In f (fields_of "QuaternionEphemerisType") /\ f_name f = "epoch").
    { destruct (find_field "epoch" (fields_of "QuaternionEphemerisType")) as [f|] eqn:E; [|vm_compute in E; discriminate]. apply find_some in E. destruct E as [E1 E2].
      exists f. split; [exact E1|apply String.eqb_eq; exact E2]. }
    destruct Ef as [f [E1 E2]]. apply (held_text _ _ _ _ _ f (lit "EPOCH") (lit "2005-159") None); [exact E1|exact E2|left; unfold kvn_name; rewrite (Fd f E1 E2); reflexivity| |].
    + split; [reflexivity|]. exists [], (lit " 1 2 3 4E2"). split; [reflexivity|]. split; [discriminate|]. split; [repeat constructor|]. split; [auto|]. right. right.
      do 2 eexists. split; [reflexivity|]. left. reflexivity.
    + apply taken_plain, reading_text.
  - intros H. inversion H as [| |w c n f v I1 I2 I3 B|w c n f k s un x I1 I2 I3 I4 T]; subst.
    + unfold upper_name in I3. rewrite (Fd f I1 I2) in I3. vm_compute in I3. discriminate.
    + destruct I4 as [-> [a [b [E [N1 _]]]]]. assert (Es : s = lit "2005-160").
      { inversion T as [x R|]; subst. inversion R; subst; [reflexivity|congruence]. }
      assert (X : existsb (startswith s) (tails from_row) = true).
      { apply existsb_exists. exists (s ++ b). rewrite E. split; [apply tails_in|]. apply startswith_spec. exists b. reflexivity. }
      rewrite Es in X. vm_compute in X. discriminate.
Qed.
