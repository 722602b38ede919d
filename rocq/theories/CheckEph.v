(* Boolean checks for ephemeris lines and messages, and oddly laid out documents, for concrete cases. *)
From Coq Require Import NArith ZArith List Bool String Arith Lia.
From Verif Require Import SpecNum NumFacts PyStr PyDec PyVal Schema KvnPre XmlBind DecFacts StrFacts PreFacts Spec SpecKvn SpecObj SpecMsg SpecDoc
     SpecEph ParseFacts CheckFacts PropCdm.
Import ListNotations.
Local Open Scope string_scope.
Local Open Scope list_scope.
Local Arguments find_class : simpl never.
Local Arguments lit : simpl never.

Lemma allb {A} (f : A -> bool) (P : A -> Prop) : (forall a, f a = true -> P a) -> forall l, forallb f l = true -> Forall P l.
Proof. intros H l F. apply Forall_forall. rewrite forallb_forall in F. intros a I. apply H, F, I. Qed.
Definition wordb (s : str) : bool := match s with [] => false | _ => true end && forallb (fun c => negb (is_ws c)) s.
Lemma wordb_spec s : wordb s = true -> word s.
Proof.
  unfold wordb. intros H. apply andb_true_iff in H. destruct H as [H1 H2]. split; [destruct s; discriminate|].
  revert H2. apply allb. intros c. apply negb_true_iff.
Qed.
Lemma columned_pad w ts s : blank w -> columned ts s -> columned ts (w ++ s).
Proof.
  intros B [w' B'|w' t ts' s' B' W C E]; [apply col_end|].
  - intros c H. apply in_app_or in H. destruct H; auto.
  - rewrite app_assoc. apply col_word; try assumption. intros c H. apply in_app_or in H. destruct H; auto.
Qed.
Lemma split_columned_aux s : (columned (split_ws_aux [] s) s) /\
  forall cur, cur <> [] -> Forall (fun c => is_ws c = false) cur -> columned (split_ws_aux cur s) (rev cur ++ s).
Proof.
  induction s as [|c s [I1 I2]].
  - split; [apply col_end; intros c []|]. intros cur Ne F. cbn [split_ws_aux]. destruct cur as [|x cur]; [congruence|].
    apply (col_word [] (rev (x :: cur)) [] []); [intros ? []| |apply col_end; intros ? []|left; reflexivity].
    split; [intros E; apply (f_equal (@List.length N)) in E; rewrite rev_length in E; discriminate|]. apply Forall_rev. exact F.
  - cbn [split_ws_aux]. destruct (is_ws c) eqn:Ec.
    + assert (B : blank [c]) by (intros x [<-|[]]; exact Ec). split; [exact (columned_pad [c] _ s B I1)|]. intros cur Ne F. destruct cur as [|x cur]; [congruence|].
      apply (col_word [] (rev (x :: cur)) _ (c :: s)); [intros ? []| |exact (columned_pad [c] _ s B I1)|right; exists c, s; auto].
      split; [intros E; apply (f_equal (@List.length N)) in E; rewrite rev_length in E; discriminate|]. apply Forall_rev. exact F.
    + split.
      * apply (I2 [c]); [discriminate|]. constructor; [exact Ec|constructor].
      * intros cur Ne F. specialize (I2 (c :: cur) ltac:(discriminate) (Forall_cons _ Ec F)). cbn [rev] in I2. rewrite <- app_assoc in I2. exact I2.
Qed.
Lemma split_columned s : columned (split_ws s) s. Proof. exact (proj1 (split_columned_aux s)). Qed.

Definition date_textb (e : str) : bool :=
  good_valueb e && wordb e && no_charb c_eq e &&
  match e with
  | a :: b :: c :: d :: m :: _ => forallb is_digit [a; b; c; d] && N.eqb m c_minus
  | _ => false
  end.
Lemma date_textb_spec e : date_textb e = true -> date_text e.
Proof.
  unfold date_textb. intros H. do 3 (apply andb_true_iff in H; destruct H as [H ?]).
  split; [apply good_valueb_spec; exact H|]. split; [apply wordb_spec; assumption|]. split; [apply no_charb_spec; assumption|].
  destruct e as [|a [|b [|c [|d [|m r]]]]]; try discriminate. match goal with X : _ && _ = true |- _ => apply andb_true_iff in X; destruct X as [X Y] end.
  apply N.eqb_eq in Y. subst m. exists a, b, c, d, r. split; [reflexivity|]. revert H0. apply allb. auto.
Qed.
Definition dec_eq_dec (a b : dec) : {a = b} + {a <> b}.
Proof. repeat decide equality. Defined.
Definition number_textb (u : env) (t : str) (d : dec) : bool :=
  match t with [] => false | _ => true end &&
  forallb (fun c => N.leb 33 c && N.leb c 126 && negb (N.eqb c 95) && negb (N.eqb c c_eq)) t &&
  match py_decimal u t with Some x => if dec_eq_dec x d then true else false | None => false end.
Lemma number_textb_spec u t d : number_textb u t d = true -> number_text t d.
Proof.
  unfold number_textb. intros H. do 2 (apply andb_true_iff in H; destruct H as [H ?]). split; [destruct t; discriminate|].
  assert (F : Forall (fun c => (33 <= c <= 126)%N /\ c <> 95%N /\ c <> c_eq) t).
  { match goal with X : forallb _ t = true |- _ => revert X end. apply allb. intros c X. do 3 (apply andb_true_iff in X; destruct X as [X ?]).
    apply N.leb_le in X. repeat match goal with Y : negb _ = true |- _ => apply negb_true_iff, N.eqb_neq in Y | Y : (_ <=? _)%N = true |- _ => apply N.leb_le in Y end. auto. }
  split; [exact F|]. assert (P : plain t) by (unfold plain; eapply Forall_impl; [|exact F]; intros c [[_ X] _]; lia).
  destruct (py_decimal u t) as [x|] eqn:Ed; [|discriminate]. destruct (dec_eq_dec x d) as [->|]; [|discriminate].
  destruct (proj1 (decimal_is u t d P) Ed) as (core & Hc & Hs).
  assert (Tt : trimmed t).
  { assert (W : forall c, In c t -> is_ws c = false).
    { intros c X. rewrite Forall_forall in F. apply F in X. destruct X as [[X1 X2] _].
      unfold is_ws. repeat (apply orb_false_iff; split); try (apply N.eqb_neq; lia);
      try (unfold in_range; apply andb_false_iff; first [left; apply N.leb_gt; lia|right; apply N.leb_gt; lia]). }
    split; intros c r ->; apply W; [left; reflexivity|apply in_or_app; right; left; reflexivity]. }
  apply strip_of_core in Hc. rewrite (strip_trimmed t Tt) in Hc. subst core.
  change (no_underscores t) with (remove_char 95 t) in Hs. rewrite remove_char_no in Hs; [exact Hs|].
  intros X. rewrite Forall_forall in F. apply F in X. destruct X as [_ [X _]]. congruence.
Qed.
Definition canonicalb (d : dec) : bool := match d with DNaN _ _ (Some p) => negb (N.eqb p 0) | _ => true end.
Definition good_stateb (r : record) : bool :=
  date_textb (fst r) && (Nat.leb 1 (List.length (snd r))) && (Nat.leb (List.length (snd r)) 9) && forallb canonicalb (snd r).
Lemma good_stateb_spec r : good_stateb r = true -> good_state r.
Proof.
  unfold good_stateb. intros H. do 3 (apply andb_true_iff in H; destruct H as [H ?]). split; [apply date_textb_spec; exact H|].
  split; [split; apply Nat.leb_le; assumption|]. match goal with X : forallb _ _ = true |- _ => revert X end. apply allb. intros d.
  destruct d as [| |? ? [[|p]|]]; cbn; try discriminate; intros _; exact I.
Qed.
Definition good_covb (r : record) : bool :=
  good_valueb (fst r) && Nat.eqb (List.length (snd r)) 21 && forallb (fun d => match d with DFin _ _ _ => true | _ => false end) (snd r).
Lemma good_covb_spec r : good_covb r = true -> good_cov r.
Proof.
  unfold good_covb. intros H. do 2 (apply andb_true_iff in H; destruct H as [H ?]). split; [apply good_valueb_spec; exact H|].
  split; [apply Nat.eqb_eq; assumption|]. match goal with X : forallb _ _ = true |- _ => revert X end. apply allb. intros []; cbn; try discriminate; intros; exact I.
Qed.
Definition oem_segment_okb (p : oem_part) : bool :=
  let '(md, cs, states, covs) := p in
  sectionb "OemMetadata" md && forallb good_textb cs && Nat.leb (List.length cs) 1 && match states with [] => false | _ => true end &&
  forallb good_stateb states && forallb good_covb covs.
Lemma oem_segment_okb_spec p : oem_segment_okb p = true -> oem_segment_ok p.
Proof.
  destruct p as [[[md cs] states] covs]. unfold oem_segment_okb. intros H. do 5 (apply andb_true_iff in H; destruct H as [H ?]).
  split; [apply sectionb_spec; exact H|]. split; [eapply allb; [apply good_textb_spec|assumption]|]. split; [apply Nat.leb_le; assumption|].
  split; [destruct states; discriminate|]. split; [eapply allb; [apply good_stateb_spec|assumption]|eapply allb; [apply good_covb_spec|assumption]].
Qed.
Lemma oem_part_of p : oem_segment_ok p -> oem_part_ok p.
Proof. destruct p as [[[md cs] states] covs]. intros [A [B [C [D _]]]]. split; auto. Qed.
Fixpoint oem_apartb (ps : list oem_part) : bool :=
  match ps with
  | [] => true
  | (md, cs, _, _) :: r =>
    (match cs with [] => true | _ => false end || forallb (fun p => let '(md', _, _, _) := p in subsetsb md' md) r) &&
    match r with
    | [] => true
    | (md', _, _, _) :: _ => match comments_of md' with [] => true | _ => false end || forallb (fun p => let '(_, _, _, c) := p in match c with [] => true | _ => false end) r
    end && oem_apartb r
  end.
Lemma oem_apartb_spec ps : oem_apartb ps = true -> oem_apart ps.
Proof.
  induction ps as [|[[[md cs] st] cv] r IH]; intros H; [exact I|]. cbn [oem_apartb] in H. do 2 (apply andb_true_iff in H; destruct H as [H ?]).
  split; [|split; [|apply IH; assumption]].
  - apply orb_true_iff in H. destruct H as [H|H]; [left; destruct cs; [reflexivity|discriminate]|]. right. intros md' cs' s' c' Hi. rewrite forallb_forall in H.
    specialize (H _ Hi). cbn beta iota in H. apply subsetsb_spec. exact H.
  - destruct r as [|[[[md' cs'] st'] cv'] r']; [exact I|]. apply orb_true_iff in H1. destruct H1 as [X|X]; [left; destruct (comments_of md'); [reflexivity|discriminate]|].
    right. intros md2 cs2 s2 c2 Hi. rewrite forallb_forall in X. specialize (X _ Hi). cbn beta iota in X. destruct c2; [reflexivity|discriminate].
Qed.

(* a state line with given columns *)
Definition state_textb (u : env) (s : str) (r : record) : bool :=
  trimmedb s && no_charb c_eq s && date_textb (fst r) &&
  match split_ws s with
  | e :: w => str_eqb e (fst r) && Nat.leb (List.length (snd r)) 9 &&
              all2b (number_textb u) (firstn (List.length (snd r)) w) (snd r) &&
              match skipn (List.length (snd r)) w with [] => true | _ => Nat.eqb (List.length (snd r)) 9 end
  | [] => false
  end.
Lemma all2b_length {A B} (f : A -> B -> bool) l m : all2b f l m = true -> List.length l = List.length m.
Proof. revert m; induction l as [|a l IH]; intros [|b m] H; try discriminate; [reflexivity|]. cbn in *. apply andb_true_iff in H. f_equal. apply IH, H. Qed.
Lemma state_textb_spec u s r : state_textb u s r = true -> state_text s r.
Proof.
  unfold state_textb. intros H. do 3 (apply andb_true_iff in H; destruct H as [H ?]).
  split; [apply trimmedb_spec; exact H|]. split; [apply no_charb_spec; assumption|]. split; [apply date_textb_spec; assumption|].
  pose proof (split_columned s) as C. destruct (split_ws s) as [|e w]; [discriminate|].
  repeat match goal with X : _ && _ = true |- _ => apply andb_true_iff in X; destruct X end.
  match goal with X : str_eqb _ _ = true |- _ => apply str_eqb_eq in X; subst e end. match goal with X : all2b _ _ _ = true |- _ => rename X into F end.
  exists (firstn (List.length (snd r)) w), (skipn (List.length (snd r)) w). rewrite firstn_skipn. split; [exact C|].
  pose proof (all2b_length _ _ _ F) as L. rewrite L.
  split; [revert F; apply all2b_spec; apply number_textb_spec|]. split; [apply Nat.leb_le; assumption|].
  destruct (skipn _ w); [left; reflexivity|right; apply Nat.eqb_eq; assumption].
Qed.
Definition row_textb (s : str) : bool := trimmedb s && match split_ws s with [] => false | _ => true end.
Definition cov_saidb (u : env) (rows : list str) (r : record) : bool :=
  good_valueb (fst r) && forallb (fun d => match d with DFin _ _ _ => true | _ => false end) (snd r) && Nat.leb (List.length (snd r)) 21 &&
  forallb row_textb rows && all2b (number_textb u) (List.concat (map split_ws rows)) (snd r).
Lemma cov_saidb_spec u rows r : cov_saidb u rows r = true -> cov_said (Say (lit "EPOCH", fst r, []) :: map Bare rows) r.
Proof.
  unfold cov_saidb. intros H. do 4 (apply andb_true_iff in H; destruct H as [H ?]). split; [apply good_valueb_spec; exact H|].
  split; [match goal with X : forallb _ (snd r) = true |- _ => revert X end; apply allb; intros []; cbn; try discriminate; intros; exact I|].
  split; [apply Nat.leb_le; assumption|]. exists (map split_ws rows), rows. split; [reflexivity|]. split.
  - match goal with X : forallb row_textb _ = true |- _ => revert X end. clear. induction rows as [|s rows IH]; intros H; [constructor|].
    cbn [forallb map] in *. apply andb_true_iff in H. destruct H as [H1 H2]. constructor; [|apply IH; exact H2].
    unfold row_textb in H1. apply andb_true_iff in H1. destruct H1 as [T N]. split; [destruct (split_ws s); discriminate|].
    split; [apply trimmedb_spec; exact T|apply split_columned].
  - match goal with X : all2b _ _ _ = true |- _ => revert X end. apply all2b_spec. apply number_textb_spec.
Qed.

(* an odd layout: blank lines, tabs and spaces around everything *)
Definition odd_line (i : item) : str :=
  match i with
  | Say (k, t, []) => [c_sp; 9%N] ++ k ++ [] ++ [c_eq] ++ [9%N] ++ t ++ [c_sp]
  | Say (k, t, un) => [] ++ k ++ [9%N] ++ [c_eq] ++ [] ++ t ++ [] ++ [c_lbr] ++ un ++ [c_rbr] ++ [9%N; c_sp]
  | Bare s => [c_sp] ++ s ++ [9%N]
  end.
Definition odd (l : list item) : list str := flat_map (fun i => [[9%N]; odd_line i; []]) l.
Lemma odd_document l : document l (odd l).
Proof.
  assert (B0 : blank []) by (intros c []). assert (B1 : blank [9%N]) by (intros c [<-|[]]; reflexivity).
  assert (B2 : blank [c_sp]) by (intros c [<-|[]]; reflexivity).
  assert (B3 : blank [c_sp; 9%N]) by (intros c [<-|[<-|[]]]; reflexivity). assert (B4 : blank [9%N; c_sp]) by (intros c [<-|[<-|[]]]; reflexivity).
  induction l as [|i l IH]; [constructor|]. cbn [odd flat_map app]. apply doc_blank; [exact B1|]. apply doc_item; [|apply doc_blank; [exact B0|exact IH]].
  destruct i as [[[k t] [|x un]]|s]; cbn [odd_line].
  - apply spelt_say. apply said_plain; assumption.
  - apply spelt_say. apply said_unit; try assumption. discriminate.
  - apply spelt_bare; assumption.
Qed.
Lemma odd_one_line l : forallb (fun i => no_charb c_nl (odd_line i)) l = true -> Forall one_line (odd l).
Proof.
  induction l as [|i l IH]; intros H; [constructor|]. cbn [forallb odd flat_map app] in *. apply andb_true_iff in H. destruct H as [H1 H2].
  constructor; [apply no_charb_spec; reflexivity|]. constructor; [apply no_charb_spec; exact H1|]. constructor; [apply no_charb_spec; reflexivity|apply IH; exact H2].
Qed.
