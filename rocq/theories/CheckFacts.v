(* Boolean checks for the well-formedness predicates, used to show that concrete objects meet them. *)
From Coq Require Import NArith ZArith List Bool String.
From Verif Require Import PyStr PyDec PyVal Schema KvnPre XmlBind DecFacts StrFacts PreFacts Spec SpecKvn SpecObj SpecMsg ParseFacts.
Import ListNotations.
Local Open Scope string_scope.
Local Open Scope list_scope.
Local Arguments find_class : simpl never.
Local Arguments lit : simpl never.

Definition good_textb (s : str) : bool :=
  match s with [] => false | _ => true end && trimmedb s && no_charb c_nl s && forallb xml_char s.
Lemma good_textb_spec s : good_textb s = true -> good_text s.
Proof.
  unfold good_textb. intros H. do 3 (apply andb_true_iff in H; destruct H as [H ?]).
  split; [destruct s; [discriminate|discriminate]|]. split; [apply trimmedb_spec; assumption|].
  split; [apply no_charb_spec; assumption|]. apply Forall_forall. apply forallb_forall. assumption.
Qed.
Definition good_valueb (s : str) : bool :=
  good_textb s && (no_charb c_lbr s || negb (N.eqb (List.last s 0%N) c_rbr)).
Lemma good_valueb_spec s : good_valueb s = true -> good_value s.
Proof.
  unfold good_valueb. intros H. apply andb_true_iff in H. destruct H as [H K]. split; [apply good_textb_spec; exact H|].
  intros [I [r E]]. apply orb_true_iff in K. destruct K as [K|K].
  - apply no_charb_spec in K. apply K. exact I.
  - subst s. rewrite last_last in K. discriminate.
Qed.

Definition not_numberb (s : str) : bool := existsb (fun c => N.ltb c 128 && negb (is_ws c) && negb (existsb (N.eqb c) number_chars)) s.
Lemma not_numberb_spec s : not_numberb s = true -> not_number s.
Proof.
  intros H. apply existsb_exists in H. destruct H as [c [Hi H]]. do 2 (apply andb_true_iff in H; destruct H as [H ?]). exists c.
  split; [exact Hi|]. split; [apply N.ltb_lt; exact H|]. split; [apply negb_true_iff; assumption|]. intros X.
  match goal with Y : negb (existsb _ _) = true |- _ => apply negb_true_iff in Y; apply not_true_iff_false in Y; apply Y end.
  apply existsb_exists. exists c. split; [exact X|apply N.eqb_refl].
Qed.
Definition strs_eqb (a b : list str) : bool := if list_eq_dec (list_eq_dec N.eq_dec) a b then true else false.
Definition wf_scalarb (t : ftype) (v : pyval) : bool :=
  match t, v with
  | TStr, VStr s => good_valueb s
  | TInt, VInt _ => true
  | TDec, VDec (DFin _ _ _) => true
  | TCls c, VEnum c' m s =>
    String.eqb c c' && match find_class c with
                       | Some (CEnum ms) => existsb (fun mv => String.eqb (fst mv) m && str_eqb (lit (snd mv)) s) ms
                       | _ => false end
  | (TInt | TDec), VStr s => good_valueb s && not_numberb s
  | TCls c, VStr s => good_valueb s && match find_class c with
                                       | Some (CEnum ms) => forallb (fun mv => negb (strs_eqb (split_ws (lit (snd mv))) (split_ws s))) ms
                                       | _ => false end
  | _, _ => false
  end.
Lemma wf_scalarb_spec t v : wf_scalarb t v = true -> wf_scalar t v.
Proof.
  destruct t; destruct v; cbn; try discriminate.
  - intros H. constructor. apply good_valueb_spec. exact H.
  - intros H. apply andb_true_iff in H. destruct H as [H1 H2]. apply wf_odd_int; [apply good_valueb_spec; exact H1|apply not_numberb_spec; exact H2].
  - constructor.
  - intros H. apply andb_true_iff in H. destruct H as [H1 H2]. apply wf_odd_dec; [apply good_valueb_spec; exact H1|apply not_numberb_spec; exact H2].
  - destruct d; try discriminate. intros _. constructor. exact I.
  - intros H. apply andb_true_iff in H. destruct H as [H1 H2].
    match goal with H : match find_class ?c with _ => _ end = true |- _ => destruct (find_class c) as [[|ms]|] eqn:E; try discriminate end.
    eapply wf_odd_enum; [exact E|apply good_valueb_spec; exact H1|]. intros m v Hi X. rewrite forallb_forall in H2. specialize (H2 _ Hi). cbn [snd] in H2.
    unfold strs_eqb in H2. destruct (list_eq_dec (list_eq_dec N.eq_dec) (split_ws (lit v)) (split_ws s)); [discriminate|contradiction].
  - intros H. apply andb_true_iff in H. destruct H as [H1 H2]. apply String.eqb_eq in H1. subst.
    match goal with H : match find_class ?c with _ => _ end = true |- _ => destruct (find_class c) as [[|ms]|] eqn:E; try discriminate end.
    apply existsb_exists in H2. destruct H2 as [[m v] [Hi H2]]. apply andb_true_iff in H2. destruct H2 as [Hm Hv].
    apply String.eqb_eq in Hm. apply str_eqb_eq in Hv. cbn [fst snd] in *. subst. eapply wf_enum; eassumption.
Qed.
Definition wf_unitb (t : ftype) (v : pyval) : bool := match v with VEnum _ _ _ => wf_scalarb t v | _ => false end.
Lemma wf_unitb_spec t v : wf_unitb t v = true -> wf_unit t v.
Proof.
  unfold wf_unitb. intros H. destruct v; try discriminate. apply wf_scalarb_spec in H. inversion H; subst. do 4 eexists.
  split; [reflexivity|]. split; [eassumption|]. split; [eassumption|reflexivity].
Qed.
Definition wf_amountb (v : pyval) : bool :=
  match v with VDec (DFin _ _ _) => true | VStr s => good_valueb s && no_charb c_lbr s && not_numberb s | _ => false end.
Lemma wf_amountb_spec v : wf_amountb v = true -> wf_amount v.
Proof.
  destruct v as [|s| |d| | |]; try discriminate; cbn.
  - intros H. do 2 (apply andb_true_iff in H; destruct H as [H ?]). apply wf_amount_odd; [apply good_valueb_spec; exact H|apply no_charb_spec; assumption|apply not_numberb_spec; assumption].
  - destruct d; try discriminate. intros _. apply wf_amount_dec. exact I.
Qed.
Definition wf_valueb (t : ftype) (v : pyval) : bool :=
  wf_scalarb t v ||
  match t, v with
  | TCls c, VObj c' [(a, x); (b, un)] =>
    String.eqb c c' && String.eqb a "value" && String.eqb b "units" && wf_amountb x &&
    match find_class c with
    | Some (CData _ [_; fu]) => match un with VNone => true | _ => wf_unitb (f_ty fu) un end
    | _ => false
    end
  | _, _ => false
  end.
Lemma wf_valueb_spec t v : wf_valueb t v = true -> wf_value t v.
Proof.
  unfold wf_valueb. intros H. apply orb_true_iff in H. destruct H as [H|H]; [apply wf_simple, wf_scalarb_spec; exact H|].
  destruct t as [| | |c]; try discriminate. destruct v as [| | | | |c' vars|]; try discriminate.
  destruct vars as [|[a x] [|[b un] [|? ?]]]; try discriminate.
  do 4 (apply andb_true_iff in H; destruct H as [H ?]). apply String.eqb_eq in H. subst c'.
  repeat match goal with X : String.eqb _ _ = true |- _ => apply String.eqb_eq in X; subst end.
  match goal with X : wf_amountb x = true |- _ => apply wf_amountb_spec in X; rename X into A end.
  destruct (find_class c) as [[m [|fv [|fu [|? ?]]]|]|] eqn:E; try discriminate.
  destruct un; try (eapply wf_number; [exact E|exact A]); (eapply wf_quantity; [exact E|exact A|]; apply wf_unitb_spec; assumption).
Qed.
Definition wf_fieldb (f : field) (v : pyval) : bool :=
  if f_list f then match v with VList l => forallb (fun x => match x with VStr s => good_textb s | _ => false end) l | _ => false end
  else match v with VNone => true | _ => wf_valueb (f_ty f) v end.
Lemma wf_fieldb_spec f v : wf_fieldb f v = true -> wf_field f v.
Proof.
  unfold wf_fieldb. destruct (f_list f) eqn:L.
  - destruct v as [| | | | | |l]; try discriminate. intros H.
    assert (X : exists ts, l = map VStr ts /\ Forall good_text ts).
    { induction l as [|x l IH]; [exists []; split; [reflexivity|constructor]|]. cbn in H. apply andb_true_iff in H. destruct H as [H1 H2].
      destruct x; try discriminate. destruct (IH H2) as [ts [-> G]]. exists (s :: ts). split; [reflexivity|]. constructor; [apply good_textb_spec; exact H1|exact G]. }
    destruct X as [ts [-> G]]. apply wf_comments; assumption.
  - destruct v; intros H; try (apply wf_absent; exact L); apply wf_present; try exact L; apply wf_valueb_spec; exact H.
Qed.
Fixpoint wf_varsb (fs : list field) (vars : list (string * pyval)) : bool :=
  match fs, vars with
  | [], [] => true
  | f :: fs, (n, v) :: vars => String.eqb n (f_name f) && wf_fieldb f v && wf_varsb fs vars
  | _, _ => false
  end.
Lemma wf_varsb_spec fs : forall vars, wf_varsb fs vars = true -> wf_vars fs vars.
Proof.
  induction fs as [|f fs IH]; intros [|[n v] vars] H; try discriminate; [constructor|].
  cbn in H. do 2 (apply andb_true_iff in H; destruct H as [H ?]). apply String.eqb_eq in H. constructor; [|apply IH; assumption].
  split; [exact H|apply wf_fieldb_spec; assumption].
Qed.
Definition sectionb (c : string) (v : pyval) : bool :=
  match v with
  | VObj c' vars => String.eqb c' c && wf_varsb (fields_of c) vars &&
                    existsb (fun nv => match snd nv with VNone | VList _ => false | _ => true end) vars
  | _ => false
  end.
Lemma sectionb_spec c v : sectionb c v = true -> section c v.
Proof.
  destruct v as [| | | | |c' vars|]; try discriminate. cbn. intros H. do 2 (apply andb_true_iff in H; destruct H as [H ?]).
  apply String.eqb_eq in H. subst c'. exists vars. split; [reflexivity|]. split; [apply wf_varsb_spec; assumption|].
  match goal with X : existsb _ _ = true |- _ => apply existsb_exists in X; destruct X as [[n x] [Hi X]] end.
  exists n, x. split; [exact Hi|]. destruct x; try discriminate; exact I.
Qed.
Definition opt_sectionb (c : string) (v : pyval) : bool := match v with VNone => true | _ => sectionb c v end.
Lemma opt_sectionb_spec c v : opt_sectionb c v = true -> opt_section c v.
Proof. destruct v; intros H; try (left; reflexivity); right; apply sectionb_spec; exact H. Qed.
Fixpoint sectionsb (shape : list (string * string)) (secs : list (string * pyval)) : bool :=
  match shape, secs with
  | [], [] => true
  | (n, c) :: shape, (n', v) :: secs => String.eqb n' n && opt_sectionb c v && sectionsb shape secs
  | _, _ => false
  end.
Lemma sectionsb_spec shape : forall secs, sectionsb shape secs = true -> sections shape secs.
Proof.
  induction shape as [|[n c] shape IH]; intros [|[n' v] secs] H; try discriminate; [constructor|].
  cbn in H. do 2 (apply andb_true_iff in H; destruct H as [H ?]). apply String.eqb_eq in H. constructor; [|apply IH; assumption].
  split; [exact H|apply opt_sectionb_spec; assumption].
Qed.
Lemma some_sectionb_spec secs : existsb (fun nv => match snd nv with VNone => false | _ => true end) secs = true -> some_section secs.
Proof. intros H. apply existsb_exists in H. destruct H as [[n v] [Hi H]]. exists n, v. split; [exact Hi|]. destruct v; discriminate. Qed.

(* user-defined parameters *)
Fixpoint prefix_inside (n : str) : bool :=
  match n with [] => false | _ :: r => startswith user_prefix n || prefix_inside r end.
Lemma prefix_inside_spec n : prefix_inside n = false -> ~ (exists a b, n = a ++ user_prefix ++ b).
Proof.
  induction n as [|c n IH]; intros H [a [b E]].
  - destruct a; [vm_compute in E|]; discriminate.
  - cbn [prefix_inside] in H. apply orb_false_iff in H. destruct H as [H1 H2]. destruct a as [|x a].
    + cbn [app] in E. assert (X : startswith user_prefix (c :: n) = true) by (rewrite E; apply startswith_spec; exists b; reflexivity).
      rewrite X in H1. discriminate.
    + injection E as _ E. apply (IH H2). exists a, b. exact E.
Qed.
Definition good_nameb (u : env) (n : str) : bool :=
  good_textb n && no_charb c_eq n && str_eqb (upper u n) n && negb (prefix_inside n).
Lemma good_nameb_spec u n : good_nameb u n = true -> good_name u n.
Proof.
  unfold good_nameb. intros H. do 3 (apply andb_true_iff in H; destruct H as [H ?]).
  split; [apply good_textb_spec; exact H|]. split; [apply no_charb_spec; assumption|]. split; [apply str_eqb_eq; assumption|].
  apply prefix_inside_spec. apply negb_true_iff. assumption.
Qed.
Fixpoint distinct (l : list str) : bool :=
  match l with [] => true | x :: r => negb (existsb (str_eqb x) r) && distinct r end.
Lemma distinct_spec l : distinct l = true -> NoDup l.
Proof.
  induction l as [|x l IH]; intros H; [constructor|]. cbn in H. apply andb_true_iff in H. destruct H as [H1 H2].
  constructor; [|apply IH; exact H2]. intros X. apply negb_true_iff in H1. rewrite <- not_true_iff_false in H1. apply H1.
  apply existsb_exists. exists x. split; [exact X|apply str_eqb_eq; reflexivity].
Qed.
Definition good_paramsb (u : env) (ps : list (str * str)) : bool :=
  match ps with [] => false | _ => true end && distinct (map fst ps) &&
  forallb (fun p => good_nameb u (fst p) && good_valueb (snd p)) ps.
Lemma good_paramsb_spec u ps : good_paramsb u ps = true -> good_params u ps.
Proof.
  unfold good_paramsb. intros H. do 2 (apply andb_true_iff in H; destruct H as [H ?]).
  split; [destruct ps; [discriminate|discriminate]|]. split; [apply distinct_spec; assumption|].
  match goal with X : forallb _ _ = true |- _ => rewrite forallb_forall in X; rename X into F end.
  apply Forall_forall. intros p Hp. specialize (F p Hp). apply andb_true_iff in F. destruct F as [F1 F2].
  split; [apply good_nameb_spec; exact F1|apply good_valueb_spec; exact F2].
Qed.
