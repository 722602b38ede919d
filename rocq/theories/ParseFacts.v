(* The lines of a section bind to the section they were written for. *)
From Coq Require Import NArith ZArith List Bool String Arith Lia FinFun.
From Verif Require Import PyStr PyDec PyVal Schema KvnPre XmlBind
     Spec SpecKvn SpecObj StrFacts DecFacts PreFacts WriteFacts KeptFacts.
Import ListNotations.
Local Open Scope string_scope.
Local Open Scope list_scope.
Local Arguments find_class : simpl never.
Local Arguments lit : simpl never.

Lemma lit_inj a : forall b, lit a = lit b -> a = b.
Proof.
  induction a as [|c a IH]; intros [|d b] H; cbn [lit] in H; try discriminate; [reflexivity|].
  injection H as H1 H2. f_equal; [|apply IH; exact H2].
  rewrite <- (Ascii.ascii_N_embedding c), H1. apply Ascii.ascii_N_embedding.
Qed.
Lemma no_dup_strings_spec l : no_dup_strings l = true -> NoDup l.
Proof.
  unfold no_dup_strings. destruct (list_eq_dec string_dec (nodup string_dec l) l) as [E|]; [|discriminate].
  intros _. rewrite <- E. apply NoDup_nodup.
Qed.

(* ---- variables ---- *)
Lemma set_var_here vars1 n d v rest : ~ In n (map fst vars1) ->
  set_var n v (vars1 ++ (n, d) :: rest) = vars1 ++ (n, v) :: rest.
Proof.
  induction vars1 as [|[k w] r IH]; intros H; cbn [app set_var].
  - rewrite String.eqb_refl. reflexivity.
  - cbn in H. rewrite (proj2 (String.eqb_neq k n)) by (intros ->; apply H; left; reflexivity).
    rewrite IH by (intros X; apply H; right; exact X). reflexivity.
Qed.
Lemma append_var_here vars1 n l v rest : ~ In n (map fst vars1) ->
  append_var n v (vars1 ++ (n, VList l) :: rest) = vars1 ++ (n, VList (l ++ [v])) :: rest.
Proof.
  induction vars1 as [|[k w] r IH]; intros H; cbn [app append_var].
  - rewrite String.eqb_refl. reflexivity.
  - cbn in H. rewrite (proj2 (String.eqb_neq k n)) by (intros ->; apply H; left; reflexivity).
    rewrite IH by (intros X; apply H; right; exact X). reflexivity.
Qed.

Section Parse.
Variable u : env.

(* ---- conversion of the text of a value ---- *)
Lemma conv_nonempty cls fld t s : s <> [] -> conv u cls fld t s =
    match t with
    | TStr => VStr s
    | TInt => match py_int u s with Some z => VInt z | None => VStr s end
    | TDec => match py_decimal u s with Some d => VDec d | None => VStr s end
    | TCls c => match find_class c with Some (CEnum ms) => conv_enum c ms s | _ => VStr s end
    end.
Proof. destruct s; [congruence|reflexivity]. Qed.
Lemma conv_scalar cls fld t v : type_ok t = true -> wf_scalar t v -> conv u cls fld t (fst (shown v)) = v.
Proof.
  intros T W. pose proof (wf_scalar_cases u t v T W) as [_ [_ [[Ne _] _]]]. rewrite conv_nonempty by exact Ne.
  destruct W as [s G|z|d D|c ms m v F Hin|s G N|s G N|c ms s F G N]; cbn [shown fst].
  - reflexivity.
  - rewrite py_int_show. reflexivity.
  - rewrite py_decimal_show by exact D. reflexivity.
  - rewrite F. cbn in T. rewrite F in T. apply (enum_ok_spec _ _ _ _ T Hin).
  - rewrite odd_int by exact N. reflexivity.
  - rewrite odd_decimal by exact N. reflexivity.
  - rewrite F. apply odd_enum; [apply G|exact N].
Qed.
Lemma conv_amount cls fld x : wf_amount x -> conv u cls fld TDec (fst (shown x)) = x.
Proof.
  intros A. apply conv_scalar; [reflexivity|]. destruct A; [apply wf_dec|apply wf_odd_dec]; assumption.
Qed.
Definition unit_attrs (un : str) : list (string * str) := match un with [] => [] | _ => [("units", un)] end.
Lemma unit_attrs_ne un : un <> [] -> unit_attrs un = [("units", un)].
Proof. destruct un; [congruence|reflexivity]. Qed.
Lemma bind_child_value cls f v : type_ok (f_ty f) = true -> wf_value (f_ty f) v ->
  bind_child u cls f (unit_attrs (snd (shown v))) (fst (shown v)) = v.
Proof.
  intros T W. unfold bind_child. remember (f_ty f) as t eqn:Et. destruct W as [t v W|c m fv fu d F D|c m fv fu d un F D W].
  - pose proof (conv_scalar cls (f_name f) t v T W) as C. destruct t as [| | |c]; try exact C.
    destruct (find_class c) as [[m fs|ms]|] eqn:F; try exact C.
    exfalso. inversion W; subst; congruence.
  - rewrite F. cbn in T. rewrite F in T. unfold value_class_ok in T.
    repeat (apply andb_true_iff in T; destruct T as [T ?]).
    repeat match goal with X : String.eqb _ _ = true |- _ => apply String.eqb_eq in X
                         | X : negb _ = true |- _ => apply negb_true_iff in X end.
    unfold bind_value_obj, fields_of, init_fields, unfixed, kind_eqb, field_default in *. rewrite F. cbn [filter].
    destruct (f_fixed fv); [discriminate|]. destruct (f_fixed fu); [discriminate|]. cbn [map].
    destruct (f_kind fv); try discriminate. destruct (f_kind fu); try discriminate.
    destruct (f_ty fv) eqn:Tv; try discriminate.
    destruct (amount_text u d D) as [_ [_ Sh]]. destruct (Sh c) as [-> _]. cbn [fst snd unit_attrs assoc].
    match goal with X : f_name fv = _, Y : f_name fu = _, Z : f_list fu = false |- _ => rewrite X, Y, Z end.
    f_equal. f_equal. f_equal. apply conv_amount. exact D.
  - rewrite F. pose proof T as T0. cbn in T. rewrite F in T. unfold value_class_ok in T.
    repeat (apply andb_true_iff in T; destruct T as [T ?]).
    repeat match goal with X : String.eqb _ _ = true |- _ => apply String.eqb_eq in X
                         | X : negb _ = true |- _ => apply negb_true_iff in X end.
    match goal with X : fty_is_enum _ = true |- _ => destruct (fty_enum_scalar _ _ X W) as [ec [ms [em [x [Eu [Fe [Hin [E [P C]]]]]]]]] end.
    assert (Ne : lit x <> []) by (apply plain_text_spec in P; apply P).
    unfold bind_value_obj, fields_of, init_fields, unfixed, kind_eqb, field_default in *. rewrite F. cbn [filter].
    destruct (f_fixed fv); [discriminate|]. destruct (f_fixed fu); [discriminate|]. cbn [map].
    destruct (f_kind fv); try discriminate. destruct (f_kind fu); try discriminate.
    destruct (f_ty fv) eqn:Tv; try discriminate.
    subst un. destruct (amount_text u d D) as [_ [_ Sh]]. destruct (Sh c) as [_ Sh2]. rewrite Sh2. cbn [fst snd]. rewrite unit_attrs_ne by exact Ne.
    match goal with X : f_name fv = _, Y : f_name fu = _ |- _ => rewrite X, Y end.
    cbn [assoc String.eqb Ascii.eqb Bool.eqb]. f_equal. f_equal.
    + f_equal. apply conv_amount. exact D.
    + f_equal. f_equal. rewrite Eu, conv_nonempty by exact Ne. rewrite Fe. exact C.
Qed.

Lemma forall_xml s : Forall (fun c => xml_char c = true) s -> xml_text s = true.
Proof. intros H. apply forallb_forall. rewrite Forall_forall in H. exact H. Qed.
Lemma child_ok_value k t v : type_ok t = true -> wf_value t v ->
  child_ok (k, unit_attrs (snd (shown v)), fst (shown v)) = true.
Proof.
  intros T W. unfold child_ok. destruct W as [t v W|c m fv fu d F D|c m fv fu d un F D W].
  - pose proof (wf_scalar_cases u t v T W) as [_ [-> [[_ [_ [_ X]]] _]]]. rewrite forall_xml by exact X. reflexivity.
  - destruct (amount_text u d D) as [[[_ [_ [_ X]]] _] [_ Sh]]. destruct (Sh c) as [-> _]. cbn [fst snd unit_attrs forallb]. rewrite forall_xml by exact X. reflexivity.
  - destruct (quantity_unit _ _ _ _ _ _ eq_refl F T W) as [ec [em [s [-> P]]]].
    apply plain_text_spec in P. destruct P as [Ne [_ [_ [_ [_ [_ X]]]]]].
    destruct (amount_text u d D) as [[[_ [_ [_ Y]]] _] [_ Sh]]. destruct (Sh c) as [_ Sh2]. rewrite Sh2. cbn [fst snd]. rewrite unit_attrs_ne by exact Ne.
    cbn [forallb snd]. rewrite !forall_xml; [reflexivity|exact X|exact Y].
Qed.

(* ---- the children ---- *)
Definition child_of_entry (e : entry) : child := let '(k, t, un) := e in (k, unit_attrs un, t).
Lemma children_of_entries es : map_res child_of_line (map line_of es) = Ok (map child_of_entry es).
Proof.
  rewrite map_res_map. apply map_res_ok. intros [[k t] un] _. unfold line_of, child_of_entry, child_of_line.
  destruct un; reflexivity.
Qed.

Definition field_xml_ok (fs : list field) : Prop :=
  NoDup (map f_name fs) /\ NoDup (map xml_name fs).
Lemma find_elem_at fs1 f fs2 : NoDup (map xml_name (fs1 ++ f :: fs2)) -> f_kind f = KElem ->
  find_elem (xml_name f) (fs1 ++ f :: fs2) = Some f.
Proof.
  intros D K. unfold find_elem. induction fs1 as [|g fs1 IH]; cbn [app find].
  - rewrite K, str_eqb_refl. reflexivity.
  - cbn [app map] in D. apply NoDup_cons_iff in D. destruct D as [N D].
    destruct (f_kind g); [|apply IH; exact D|apply IH; exact D].
    rewrite (proj2 (str_eqb_neq (xml_name g) (xml_name f))); [apply IH; exact D|].
    intros E. apply N. rewrite E, map_app. apply in_or_app. right. left. reflexivity.
Qed.

(* a variable of the object: well-formed for a keyword field, or left at its default *)
Definition parsed (f : field) (kv : string * pyval) : Prop :=
  fst kv = f_name f /\
  ((kw_field_ok f = true /\ wf_field f (snd kv)) \/ snd kv = field_default f).

Lemma bind_comments cls fs f fs1 fs2 vars1 rest ts cs seen :
  fs = fs1 ++ f :: fs2 -> NoDup (map xml_name fs) -> kw_field_ok f = true -> f_list f = true ->
  Forall good_text ts -> ~ In (f_name f) (map fst vars1) ->
  forall l, bind_children u cls fs seen (map child_of_entry (field_entries (kw_of f) (VList (map VStr ts))) ++ cs)
              (vars1 ++ (f_name f, VList l) :: rest)
  = bind_children u cls fs seen cs (vars1 ++ (f_name f, VList (l ++ map VStr ts)) :: rest).
Proof.
  intros -> D K L G N. pose proof (kw_field_spec u f K) as [Kd [_ [_ [Kw [_ [_ [_ [XL _]]]]]]]].
  destruct (XL L) as [_ [_ Ty]]. assert (Ex : xml_name f = lit (kw_of f)) by (unfold xml_name; rewrite Kw; reflexivity).
  induction G as [|t ts Gt _ IH]; intros l.
  - cbn. rewrite app_nil_r. reflexivity.
  - cbn [map field_entries] in *. cbn [child_of_entry shown fst snd unit_attrs app bind_children].
    destruct Gt as [Ne [_ [_ X]]]. unfold child_ok. cbn [forallb]. rewrite (forall_xml t X). cbn [andb].
    rewrite <- Ex, (find_elem_at fs1 f fs2 D Kd), L. unfold bind_child. rewrite Ty, conv_nonempty by exact Ne.
    rewrite append_var_here by exact N. rewrite Ex, IH, <- app_assoc. reflexivity.
Qed.

Lemma bind_fields cls fs : field_xml_ok fs -> forall fs2 fs1 vars2 vars1 seen,
  fs = fs1 ++ fs2 -> map fst vars1 = map f_name fs1 -> incl seen (map f_name fs1) ->
  Forall2 parsed fs2 vars2 ->
  bind_children u cls fs seen (map child_of_entry (entries fs2 vars2))
    (vars1 ++ map (fun f => (f_name f, field_default f)) fs2) = Ok (vars1 ++ vars2).
Proof.
  intros [Dn Dx]. induction fs2 as [|f fs2 IH]; intros fs1 vars2 vars1 seen E M I F.
  - inversion F; subst. cbn. reflexivity.
  - inversion F as [|? [k v] ? vars2' [Ek Hv] F' E1 E2]; subst. cbn [fst snd] in Ek, Hv. subst k.
    assert (Nn : ~ In (f_name f) (map f_name fs1)).
    { rewrite map_app in Dn. cbn [map] in Dn. apply NoDup_remove_2 in Dn. intros X. apply Dn. apply in_or_app. left; exact X. }
    assert (Nv : ~ In (f_name f) (map fst vars1)) by (rewrite M; exact Nn).
    cbn [entries map]. rewrite map_app.
    assert (Step : forall seen', incl seen' (f_name f :: seen) -> bind_children u cls (fs1 ++ f :: fs2) seen'
              (map child_of_entry (entries fs2 vars2')) (vars1 ++ (f_name f, v) :: map (fun f => (f_name f, field_default f)) fs2)
            = Ok (vars1 ++ (f_name f, v) :: vars2')).
    { intros seen' Hs. specialize (IH (fs1 ++ [f]) vars2' (vars1 ++ [(f_name f, v)]) seen').
      rewrite <- !app_assoc in IH. cbn [app] in IH. apply IH.
      - reflexivity.
      - rewrite !map_app, M. reflexivity.
      - rewrite map_app. cbn [map]. intros x Hx. apply Hs in Hx. destruct Hx as [<-|Hx]; [apply in_or_app; right; left; reflexivity|].
        apply in_or_app; left. apply I; exact Hx.
      - exact F'. }
    destruct Hv as [[K W]|Dv].
    + pose proof (kw_field_spec u f K) as [Kd [_ [T [Kw [_ [_ [_ [XL XN]]]]]]]].
      assert (Ex : xml_name f = lit (kw_of f)) by (unfold xml_name; rewrite Kw; reflexivity).
      change (match f_kw f with Some k => k | None => "" end) with (kw_of f).
      destruct W as [L|v L W|ts L G].
      * unfold field_default at 1. rewrite L. cbn [field_entries map app]. apply Step. apply incl_tl, incl_refl.
      * replace (field_entries (kw_of f) v) with [(lit (kw_of f), fst (shown v), snd (shown v))]
          by (destruct v; try reflexivity; exfalso; inversion W; subst; match goal with X : wf_scalar _ _ |- _ => inversion X end).
        cbn [map child_of_entry app bind_children]. rewrite (child_ok_value _ _ _ T W), <- Ex.
        rewrite (find_elem_at fs1 f fs2 Dx Kd), L.
        replace (existsb (String.eqb (f_name f)) seen) with false.
        2:{ symmetry. apply not_true_is_false. intros X. apply existsb_exists in X. destruct X as [y [Hy Ey]].
            apply String.eqb_eq in Ey. subst y. apply Nn, I, Hy. }
        rewrite (bind_child_value cls f v T W). unfold field_default at 1. rewrite L.
        rewrite set_var_here by exact Nv. apply Step. apply incl_refl.
      * unfold field_default at 1. rewrite L.
        rewrite (bind_comments cls _ f fs1 fs2 vars1 _ ts _ seen eq_refl Dx K L G Nv []). cbn [app].
        apply Step. apply incl_tl, incl_refl.
    + replace (map child_of_entry (field_entries match f_kw f with Some k => k | None => "" end v)) with (@nil child)
        by (subst v; unfold field_default; destruct (f_list f); reflexivity).
      rewrite <- Dv. apply Step. apply incl_tl, incl_refl.
Qed.

Lemma parse_entries c vars : field_xml_ok (fields_of c) ->
  forallb unfixed (fields_of c) = true -> Forall2 parsed (fields_of c) vars ->
  parse_list u c None (map line_of (entries (fields_of c) vars)) = Ok (VObj c vars).
Proof.
  intros X Un F. unfold parse_list. rewrite children_of_entries. cbn [bind].
  unfold new_obj, vars_of, init_fields.
  assert (E : filter (fun f => match f_fixed f with Some _ => false | None => true end) (fields_of c) = fields_of c).
  { clear - Un. induction (fields_of c) as [|f fs IH]; [reflexivity|]. cbn in *. unfold unfixed in Un at 1.
    destruct (f_fixed f); [discriminate|]. rewrite IH by exact Un. reflexivity. }
  rewrite E. pose proof (bind_fields c (fields_of c) X (fields_of c) [] vars [] [] eq_refl eq_refl (incl_refl _) F) as B.
  cbn [app] in B. rewrite B. reflexivity.
Qed.

Lemma leaf_xml_ok c : leaf_class c = true -> field_xml_ok (fields_of c) /\ forallb unfixed (fields_of c) = true.
Proof.
  unfold leaf_class. intros H. repeat (apply andb_true_iff in H; destruct H as [H ?]).
  assert (A : forall f, In f (fields_of c) -> kw_field_ok f = true) by (rewrite forallb_forall in H; exact H).
  split; [split|].
  - apply no_dup_strings_spec; assumption.
  - assert (Em : map xml_name (fields_of c) = map lit (map (fun f => match f_kw f with Some k => k | None => "" end) (fields_of c))).
    { rewrite map_map. apply map_ext_in. intros f Hf. apply A in Hf. apply (kw_field_spec u) in Hf.
      destruct Hf as [_ [_ [_ [Kw _]]]]. unfold xml_name. rewrite Kw. unfold kw_of. reflexivity. }
    rewrite Em. apply Injective_map_NoDup; [intros a b; apply lit_inj|]. apply no_dup_strings_spec; assumption.
  - apply forallb_forall. intros f Hf. apply A in Hf. apply (kw_field_spec u) in Hf. destruct Hf as [_ [Fx _]].
    unfold unfixed. rewrite Fx. reflexivity.
Qed.
Lemma wf_parsed fs vars : forallb kw_field_ok fs = true -> wf_vars fs vars -> Forall2 parsed fs vars.
Proof.
  intros H W. induction W as [|f kv fs vars [E Wf] _ IH]; [constructor|]. cbn in H. apply andb_true_iff in H. destruct H as [Hf Hs].
  constructor; [|apply IH; exact Hs]. split; [exact E|]. left. auto.
Qed.
Lemma parse_section c vars : leaf_class c = true -> wf_vars (fields_of c) vars ->
  parse_list u c None (map line_of (entries (fields_of c) vars)) = Ok (VObj c vars).
Proof.
  intros L W. destruct (leaf_xml_ok c L) as [X Un]. apply parse_entries; [exact X|exact Un|].
  unfold leaf_class in L. repeat (apply andb_true_iff in L; destruct L as [L ?]). apply wf_parsed; assumption.
Qed.
End Parse.
