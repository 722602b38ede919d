(* Messages with one segment: written, then read back. *)
From Coq Require Import NArith ZArith List Bool String Arith Lia.
From Verif Require Import PyStr PyDec PyVal Schema KvnPre KvnTree KvnSeg XmlBind KvnBuild NdmXml KvnWrite
     Spec SpecKvn SpecObj SpecMsg StrFacts DecFacts PreFacts SegFacts BuildFacts WriteFacts ParseFacts ShiftFacts
     ReadFacts ComposeFacts MsgFacts PropWrite CoreFacts UserFacts DataFacts.
Import ListNotations.
Local Open Scope string_scope.
Local Open Scope list_scope.
Local Arguments find_class : simpl never.
Local Arguments lit : simpl never.

(* ---- navigating an object map ---- *)
Definition no_elem : elem := Elem "" "" [] [] false None (0, 0) None.
Fixpoint at_name (path : list string) (e : elem) : elem :=
  match path with
  | [] => e
  | n :: p => match find (fun s => String.eqb (e_name s) n) (e_subs e) with Some s => at_name p s | None => no_elem end
  end.

(* a container without keywords of its own *)
Definition bare_elem (e : elem) : bool :=
  ordinary (e_cls e) && match e_single e with None => true | _ => false end
  && match e_kws e with [] => true | _ => false end && match e_subs e with [] => false | _ => true end.
Lemma bare_elem_spec e : bare_elem e = true ->
  ordinary (e_cls e) = true /\ e_single e = None /\ e_kws e = [] /\ e_subs e <> [].
Proof.
  unfold bare_elem. intros H. repeat (apply andb_true_iff in H; destruct H as [H ?]).
  destruct (e_single e); [discriminate|]. destruct (e_kws e); [|discriminate]. destruct (e_subs e); [discriminate|].
  repeat split; try assumption; discriminate.
Qed.
(* a class written without markers *)
Definition quiet_class (c : string) : bool :=
  negb (mem_string c special_output_data_classes) && negb (mem_string c special_output_header_classes).

Section Single.
Variable u : env.

Lemma emits_node key c vars ls : plain_key key -> quiet_class c = true -> mem_string "units" (map fst vars) = false ->
  emits_vars u vars ls -> emits u key (VObj c vars) ls.
Proof.
  intros [K1 K2] Q U H. unfold quiet_class in Q. apply andb_true_iff in Q. destruct Q as [Q1 Q2]. apply negb_true_iff in Q1, Q2.
  replace ls with (markers c true ++ ls ++ markers c false) by (unfold markers; rewrite Q2, app_nil_r; reflexivity).
  apply emits_obj; assumption.
Qed.

(* metadata, then the data block *)
Lemma segment_reads seg meta data md dl rest vd : bare_elem seg = true -> e_subs seg = [meta; data] ->
  leaf_elem meta = true -> e_islist meta = false -> e_islist data = false ->
  section (e_cls meta) md -> known (e_kws meta) (keys_of (sec_lines md)) (keys_of (dl ++ rest)) ->
  reads u data (dl ++ rest) vd (List.length dl) ->
  vars_of (new_obj (e_cls seg)) = [(e_name meta, VNone); (e_name data, VNone)] -> e_name meta <> e_name data ->
  reads u seg (sec_lines md ++ dl ++ rest) (VObj (e_cls seg) [(e_name meta, md); (e_name data, vd)])
    (List.length (sec_lines md ++ dl)).
Proof.
  intros B Es Lm Im Id S K R N Ne. destruct (bare_elem_spec seg B) as [O [Sg [Ek Eb]]].
  eapply bare_reads; try assumption.
  2:{ rewrite Es, app_length. apply subs_one; [exact Im|apply section_reads; eassumption|].
      rewrite <- (Nat.add_0_r (List.length dl)). apply subs_one; [exact Id|exact R|apply subs_nil]. }
  - discriminate.
  - rewrite N. cbn [attach_all]. unfold attach. cbn [assoc]. rewrite String.eqb_refl. cbn [bind set_var]. rewrite String.eqb_refl.
    cbn [assoc]. rewrite (proj2 (String.eqb_neq _ _) Ne), String.eqb_refl. cbn [bind set_var].
    rewrite (proj2 (String.eqb_neq _ _) Ne), String.eqb_refl. reflexivity.
Qed.

Lemma sections_sec_of shape ss secs : map (fun s => (e_name s, e_cls s)) ss = shape ->
  forallb (fun s => negb (e_islist s)) ss = true -> sections shape secs -> Forall2 sec_of ss secs.
Proof.
  intros <- L F. unfold sections in F. revert secs F. induction ss as [|s ss IH]; intros secs F; inversion F as [|? nv ? secs0 [E O] F']; subst; [constructor|].
  cbn [forallb] in L. apply andb_true_iff in L. destruct L as [Ls L]. constructor; [|apply IH; assumption].
  split; [exact E|]. split; [apply negb_true_iff; exact Ls|exact O].
Qed.

Definition single_ok (c : string) (hdr body seg meta data : elem) (ss : list elem) : bool :=
  sec_elem hdr && bare_elem body && negb (e_islist body) && bare_elem seg && negb (e_islist seg)
  && sec_elem meta && data_elem data && negb (e_islist data)
  && forallb sec_elem ss && forallb (fun s => has_comments (e_cls s)) ss && disjoint_all (hdr :: meta :: ss)
  && String.eqb (e_name hdr) "header" && String.eqb (e_name body) "body" && String.eqb (e_name seg) "segment"
  && String.eqb (e_name meta) "metadata" && String.eqb (e_name data) "data"
  && quiet_class (e_cls body) && quiet_class (e_cls seg) && quiet_class (e_cls data)
  && match deleted_keywords c with [] => true | _ => false end
  && negb (mem_string "units" (map e_name ss)).

Lemma single_core c hdr body seg meta data ss ss' fs1 fs2 header md cs secs more lsm att' dvars :
  In c root_classes -> single_ok c hdr body seg meta data ss = true ->
  e_subs (tree_of c) = [hdr; body] -> e_subs body = [seg] -> e_subs seg = [meta; data] -> e_subs data = ss ++ ss' ->
  vars_of (new_obj c) = [("header", VNone); ("body", VNone)] -> vars_of (new_obj (e_cls body)) = [("segment", VNone)] ->
  vars_of (new_obj (e_cls seg)) = [("metadata", VNone); ("data", VNone)] ->
  tl (fields_of (e_cls data)) = fs1 ++ fs2 -> Forall2 (fun f s => f_name f = e_name s /\ f_list f = false) fs1 ss ->
  section (e_cls hdr) header -> section (e_cls meta) md -> Forall good_text cs -> Forall2 sec_of ss secs -> some_section secs ->
  emits_vars u more lsm -> mem_string "units" (map fst more) = false ->
  (forall pre, (forall k, In k (keys_of pre) -> k = kw_comment \/ exists s, In s ss /\ In k (e_kws s)) ->
     subs_at u pre lsm ss' (List.length lsm) att') ->
  (forall s t, In s (hdr :: meta :: ss) -> In t (e_kws s) -> t <> kw_comment -> ~ In t (keys_of lsm)) ->
  attach_all att' (("comment", VList (data_comments (texts cs) secs))
                   :: give_comments (section_comments (texts cs) secs) secs ++ defaults fs2) = Ok dvars ->
  exists t, kvn_to_string u (single_message c (e_cls body) (e_cls seg) (e_cls data) header md
                               (("comment", VList (texts cs)) :: secs ++ more)) = Ok t /\
            kvn_from_string u t = Ok (single_message c (e_cls body) (e_cls seg) (e_cls data) header md dvars).
Proof.
  intros Hc Ok1 E1 E2 E3 E4 N1 N2 N3 Ef Fn Sh Sm G F Ss Em Um HS KS A.
  unfold single_ok in Ok1. do 20 (apply andb_true_iff in Ok1; let X := fresh "X" in destruct Ok1 as [Ok1 X]).
  repeat match goal with X : negb _ = true |- _ => apply negb_true_iff in X end.
  repeat match goal with X : String.eqb _ _ = true |- _ => apply String.eqb_eq in X end.
  destruct (deleted_keywords c) eqn:Ed; [|discriminate].
  destruct (sec_elem_spec hdr Ok1) as [Lh [Ih [Ch [Mh Kh]]]].
  match goal with X : sec_elem meta = true |- _ => destruct (sec_elem_spec meta X) as [Lm [Im [Cm [Mm Km]]]] end.
  match goal with X : forallb sec_elem ss = true |- _ => rename X into Xs; pose proof (sec_elems_leaf ss Xs) as Ls end.
  match goal with X : disjoint_all _ = true |- _ => rename X into Xd end.
  pose proof Xd as Xd0. cbn [disjoint_all] in Xd0. apply andb_true_iff in Xd0. destruct Xd0 as [Dh Xd0]. apply andb_true_iff in Xd0. destruct Xd0 as [Dm Ds].
  cbn [forallb] in Dh. apply andb_true_iff in Dh. destruct Dh as [Dhm Dhs]. rewrite forallb_forall in Dhs, Dm.
  set (dl := comment_lines cs ++ lines_of secs ++ lsm).
  (* reading the data block *)
  assert (Rd : reads u data (dl ++ []) (VObj (e_cls data) dvars) (List.length dl)).
  { unfold dl. rewrite app_nil_r. rewrite (app_assoc (comment_lines cs)), app_length, <- app_assoc.
    eapply data_sections; try eassumption.
    assert (W : forall sv, Forall2 sec_of ss sv ->
       Forall2 (fun s nv => known (e_kws s) (keys_of (sec_lines (snd nv))) (keys_of lsm)) ss sv).
    { intros sv Fs. apply (Forall2_weaken sec_of); [|exact Fs]. intros s nv Hs _ _ t Ht Hn Hi. exfalso. apply (KS s t); auto. right; right; exact Hs. }
    apply W. destruct (give_split u ss secs F Ls) as [ts [r0 [F1 [Gt [_ [_ Y0]]]]]]; [assumption|exact Ss|].
    unfold section_comments. rewrite F1, <- texts_app, texts_skip. apply Y0.
    assert (Ga : Forall good_text (cs ++ ts)) by (apply Forall_app; auto). destruct (cs ++ ts); [constructor|inversion Ga; assumption]. }
  assert (Kd : forall k, In k (keys_of dl) -> k = kw_comment \/ (exists s, In s ss /\ In k (e_kws s)) \/ In k (keys_of lsm)).
  { intros k Hk. unfold dl in Hk. rewrite !keys_of_app in Hk. apply in_app_or in Hk. destruct Hk as [Hk|Hk].
    - left. unfold keys_of, comment_lines in Hk. rewrite map_map in Hk. apply in_map_iff in Hk. destruct Hk as [? [Hk _]]. symmetry. exact Hk.
    - apply in_app_or in Hk. destruct Hk as [Hk|Hk]; [|right; right; exact Hk].
      destruct (lines_keys u ss secs F Ls k Hk) as [Y|Y]; [left; exact Y|right; left; exact Y]. }
  assert (Km1 : known (e_kws meta) (keys_of (sec_lines md)) (keys_of (dl ++ []))).
  { intros t Ht Hn Hi. rewrite app_nil_r in Hi. exfalso. destruct (Kd t Hi) as [Y|[[s [Y1 Y2]]|Y]]; [contradiction| |].
    - exact (disjointb_spec _ _ _ (Dm s Y1) Ht Hn Y2).
    - apply (KS meta t); auto. right; left; reflexivity. }
  pose proof (segment_reads seg meta data md dl [] _ X16 E3 Lm Im X12 Sm Km1 Rd) as Rs.
  rewrite X5, X4 in Rs. specialize (Rs N3 ltac:(discriminate)).
  set (bl := sec_lines md ++ dl) in *. rewrite app_assoc in Rs. fold bl in Rs.
  (* the body *)
  assert (Rb : reads u body (bl ++ []) (VObj (e_cls body) [("segment", VObj (e_cls seg) [("metadata", md); ("data", VObj (e_cls data) dvars)])]) (List.length bl)).
  { destruct (bare_elem_spec body X18) as [O [Sg [Ek Eb]]]. rewrite <- (Nat.add_0_r (List.length bl)). eapply bare_reads; try assumption.
    2:{ rewrite E2. apply subs_one; [assumption|exact Rs|apply subs_nil]. }
    - discriminate.
    - rewrite N2, X6. reflexivity. }
  assert (Kh1 : known (e_kws hdr) (keys_of (sec_lines header)) (keys_of (bl ++ []))).
  { intros t Ht Hn Hi. rewrite app_nil_r in Hi. exfalso. unfold bl in Hi. rewrite keys_of_app in Hi. apply in_app_or in Hi. destruct Hi as [Hi|Hi].
    - destruct (section_keys_incl u meta md Lm (or_intror Sm) t Hi) as [Y|Y]; [contradiction|].
      exact (disjointb_spec _ _ _ Dhm Ht Hn Y).
    - destruct (Kd t Hi) as [Y|[[s [Y1 Y2]]|Y]]; [contradiction| |].
      + exact (disjointb_spec _ _ _ (Dhs s Y1) Ht Hn Y2).
      + apply (KS hdr t); auto. left; reflexivity. }
  unfold single_message.
  eapply round_trip_core with (ls := sec_lines header ++ bl); try assumption; try reflexivity.
  - apply emits_vars_cons.
    + apply (emits_opt u _ _ _ Ch (Mh true) (Mh false)); [split; discriminate|right; exact Sh].
    + rewrite <- (app_nil_r bl). apply emits_vars_cons; [|apply emits_vars_nil].
      apply emits_node; [split; discriminate|assumption|reflexivity|].
      rewrite <- (app_nil_r bl). apply emits_vars_cons; [|apply emits_vars_nil].
      apply emits_node; [split; discriminate|assumption|reflexivity|].
      unfold bl. apply emits_vars_cons.
      { apply (emits_opt u _ _ _ Cm (Mm true) (Mm false)); [split; discriminate|right; exact Sm]. }
      rewrite <- (app_nil_r dl). apply emits_vars_cons; [|apply emits_vars_nil].
      apply emits_node; [split; discriminate|assumption| |].
      * cbn [map fst]. rewrite map_app. 
        assert (Nm : map fst secs = map e_name ss).
        { clear - F. induction F as [|s nv ss secs [E _] _ IH]; [reflexivity|]. cbn. rewrite E, IH. reflexivity. }
        rewrite Nm. unfold mem_string in *. cbn [existsb]. rewrite existsb_app. rewrite X, Um. reflexivity.
      * unfold dl. apply emits_comment_vars; [exact G|]. apply emits_vars_app; [|exact Em]. eapply emits_sections; eassumption.
  - unfold delete_keywords. rewrite Ed. cbn [mem_str existsb negb].
    replace (filter (fun _ : line => true) (sec_lines header ++ bl)) with (sec_lines header ++ bl ++ []).
    2:{ rewrite app_nil_r. symmetry. clear. induction (sec_lines header ++ bl) as [|a l IH]; [reflexivity|]. cbn. rewrite IH. reflexivity. }
    rewrite E1. apply subs_one; [assumption|apply section_reads; eassumption|].
    apply subs_one; [assumption|exact Rb|apply subs_nil].
  - discriminate.
  - rewrite N1, X8, X7. reflexivity.
Qed.
End Single.
