(* Format identification, dispatch, files, reader re-use. *)
From Coq Require Import NArith ZArith List Bool String Arith Lia.
From Verif Require Import PyStr PyDec PyVal Schema KvnPre KvnTree KvnSeg XmlBind KvnBuild
     NdmXml KvnWrite NdmIo Spec SpecIo StrFacts.
Import ListNotations.

Lemma begins_cons_inj a b p q s : begins (a :: p) s -> begins (b :: q) s -> a = b.
Proof. intros [r ->] [t H]. injection H; intros; congruence. Qed.

Lemma looks_like_fun core f g : looks_like core f -> looks_like core g -> f = g.
Proof.
  intros H1 H2; destruct H1, H2; try reflexivity; exfalso;
    match goal with
    | A : begins (lit ?x) core, B : begins (lit ?y) core |- _ =>
      pose proof (begins_cons_inj _ _ _ _ _ A B) as E; vm_compute in E; discriminate
    end.
Qed.

Lemma identify_format_iff src core f :
  is_core src core -> (identify_format src = Ok f <-> looks_like core f).
Proof.
  intros Hc. unfold identify_format. rewrite (strip_of_core _ _ Hc).
  destruct (startswith (lit "CCSDS_") core) eqn:E1.
  { apply startswith_spec in E1. split.
    - intros H; injection H; intros <-; apply ll_kvn; exact E1.
    - intros H. rewrite (looks_like_fun _ _ _ H (ll_kvn _ E1)). reflexivity. }
  apply startswith_false in E1.
  assert (X : forall c d r1 r2 (s : str), begins (c :: r1) s -> begins (d :: r2) s -> (c =? d)%N = true)
    by (intros; apply N.eqb_eq; eapply begins_cons_inj; eassumption).
  split.
  - destruct (startswith (lit "<") core) eqn:E2; cbn [andb].
    + apply startswith_spec in E2. destruct (endswith (lit ">") core) eqn:E3.
      * apply endswith_spec in E3. intros H; injection H; intros <-. apply ll_xml; assumption.
      * destruct (startswith (lit "[") core) eqn:E4; cbn [andb]; [|discriminate].
        apply startswith_spec in E4. pose proof (X _ _ _ _ _ E2 E4) as Y. vm_compute in Y. discriminate.
    + destruct (startswith (lit "[") core) eqn:E4; cbn [andb]; [|discriminate].
      destruct (endswith (lit "]") core) eqn:E5; [|discriminate].
      apply startswith_spec in E4. apply endswith_spec in E5.
      intros H; injection H; intros <-. apply ll_json; assumption.
  - intros H; destruct H as [H|H H'|H H'].
    + contradiction.
    + apply startswith_spec in H. apply endswith_spec in H'. rewrite H, H'. reflexivity.
    + assert (E2 : startswith (lit "<") core = false).
      { apply startswith_false. intros E2. pose proof (X _ _ _ _ _ E2 H) as Y. vm_compute in Y. discriminate. }
      apply startswith_spec in H. apply endswith_spec in H'. rewrite E2, H, H'. reflexivity.
Qed.

Lemma identify_format_err src e : identify_format src = Err e -> e = ValueError.
Proof.
  unfold identify_format. repeat match goal with |- (if ?b then _ else _) = _ -> _ => destruct b end;
  congruence.
Qed.

Lemma identify_format_none src core :
  is_core src core -> (forall f, ~ looks_like core f) -> identify_format src = Err ValueError.
Proof.
  intros Hc H. destruct (identify_format src) as [f|e] eqn:E.
  - apply (identify_format_iff _ _ f Hc) in E. destruct (H _ E).
  - rewrite (identify_format_err _ _ E). reflexivity.
Qed.

Lemma identify_format_pad w1 s w2 :
  blank w1 -> blank w2 -> identify_format (w1 ++ s ++ w2) = identify_format s.
Proof. intros H1 H2. unfold identify_format. rewrite strip_pad by assumption. reflexivity. Qed.

Section Io.
Variable u : env.
Variable et_root : str -> option str.
Variable xs_parse : str -> res pyval.
Variable xs_render : xcfg -> pyval -> res str.
Variable decode : list N -> option str.
Variable can_open : str -> bool.
Variable can_encode : str -> bool.

Lemma io_from_string_spec src core :
  is_core src core ->
  (looks_like core FKvn -> io_from_string u et_root xs_parse src = kvn_from_string u src) /\
  (looks_like core FXml -> io_from_string u et_root xs_parse src
                           = snd (xml_from_string et_root xs_parse xmlio_new src)) /\
  (looks_like core FJson -> io_from_string u et_root xs_parse src = Err NotImplementedErr) /\
  ((forall f, ~ looks_like core f) -> io_from_string u et_root xs_parse src = Err ValueError).
Proof.
  intros Hc; unfold io_from_string; repeat split; intros H;
    try (apply (identify_format_iff _ _ _ Hc) in H; rewrite H; reflexivity).
  rewrite (identify_format_none _ _ Hc H). reflexivity.
Qed.

(* files *)
Definition to_file := io_to_file u xs_render can_open can_encode.
Definition to_string := io_to_string u xs_render.

Lemma fs_set_same fs p t : fs_set fs p t p = Some t.
Proof. unfold fs_set. rewrite str_eqb_refl. reflexivity. Qed.
Lemma fs_set_other fs p t q : q <> p -> fs_set fs p t q = fs q.
Proof. intros H. unfold fs_set. destruct (str_eqb q p) eqn:E; [apply str_eqb_eq in E; contradiction|reflexivity]. Qed.

(* newlines *)
Lemma read_newlines_spec raw t : read_newlines raw = t <-> reads_as raw t.
Proof.
  split.
  - revert t. induction raw as [raw IH] using (well_founded_induction (Wf_nat.well_founded_ltof _ (@List.length N))). unfold Wf_nat.ltof in IH.
    intros t <-. destruct raw as [|c r]; [constructor|]. cbn [read_newlines]. destruct (N.eqb c c_cr) eqn:C.
    + apply N.eqb_eq in C as ->. destruct r as [|d r']; [apply ra_cr; [intros [? H]; discriminate|constructor]|].
      destruct (N.eqb d c_nl) eqn:D.
      * apply N.eqb_eq in D as ->. apply ra_crlf, IH; [cbn; lia|reflexivity].
      * apply N.eqb_neq in D. apply ra_cr; [intros [? H]; injection H as H _; exact (D H)|]. apply IH; [cbn; lia|reflexivity].
    + apply N.eqb_neq in C. apply ra_char; [exact C|]. apply IH; [cbn; lia|reflexivity].
  - induction 1 as [|c raw t C _ IH|raw t _ IH|raw t B _ IH]; [reflexivity| | |]; cbn [read_newlines].
    + apply N.eqb_neq in C. change c_cr with c_return. rewrite C, IH. reflexivity.
    + change (N.eqb c_return c_cr) with true. cbn iota. rewrite N.eqb_refl, IH. reflexivity.
    + change (N.eqb c_return c_cr) with true. cbn iota. destruct raw as [|d r']; [cbn in IH; rewrite <- IH; reflexivity|].
      destruct (N.eqb d c_nl) eqn:D; [|rewrite IH; reflexivity]. apply N.eqb_eq in D as ->. exfalso. apply B. exists r'. reflexivity.
Qed.
Lemma write_newlines_app b s t : write_newlines b (s ++ t) = write_newlines b s ++ write_newlines b t.
Proof. apply flat_map_app. Qed.
Lemma write_newlines_line b s : one_line s -> write_newlines b s = s.
Proof.
  intros H. induction s as [|c s IH]; [reflexivity|]. cbn [write_newlines flat_map].
  fold (write_newlines b s). rewrite IH by (intros I; apply H; right; exact I).
  destruct (N.eqb c c_nl) eqn:E; [apply N.eqb_eq in E as ->; exfalso; apply H; left; reflexivity|]. rewrite andb_false_r. reflexivity.
Qed.
Lemma write_newlines_join b ls : Forall one_line ls -> write_newlines b (join [c_nl] ls) = join (if b then [c_return; c_nl] else [c_nl]) ls.
Proof.
  induction 1 as [|l ls L _ IH]; [reflexivity|]. destruct ls as [|l' ls]; [cbn [join]; apply write_newlines_line, L|].
  cbn [join] in IH |- *. rewrite !write_newlines_app, IH, write_newlines_line by exact L. destruct b; reflexivity.
Qed.
Lemma on_disk_written t : on_disk u t (write_newlines (os_crlf u) t).
Proof.
  exists (split_on c_nl t). split; [apply split_on_nonempty|]. split; [apply split_on_parts|]. split; [symmetry; apply join_split|].
  rewrite <- (join_split c_nl t) at 1. apply write_newlines_join, split_on_parts.
Qed.
Lemma read_newlines_plain t : no_char c_return t -> read_newlines t = t.
Proof.
  intros H. induction t as [|c t IH]; [reflexivity|]. cbn [read_newlines].
  destruct (N.eqb c c_cr) eqn:E; [apply N.eqb_eq in E as ->; exfalso; apply H; left; reflexivity|].
  rewrite IH by (intros I; apply H; right; exact I). reflexivity.
Qed.
(* a text without CR comes back *)
Lemma newlines_back b t : no_char c_return t -> read_newlines (write_newlines b t) = t.
Proof.
  intros H. induction t as [|c t IH]; [reflexivity|]. cbn [write_newlines flat_map]. fold (write_newlines b t).
  assert (IH' : read_newlines (write_newlines b t) = t) by (apply IH; intros I; apply H; right; exact I).
  destruct (b && N.eqb c c_nl) eqn:E; cbn [app read_newlines].
  - apply andb_prop in E as [_ E]. apply N.eqb_eq in E as ->. change (N.eqb c_cr c_cr) with true. cbn iota. rewrite N.eqb_refl, IH'. reflexivity.
  - destruct (N.eqb c c_cr) eqn:F; [apply N.eqb_eq in F as ->; exfalso; apply H; left; reflexivity|]. rewrite IH'. reflexivity.
Qed.

Lemma to_file_convert_fails fs v f p cfg e :
  to_string v f cfg = Err e -> exists e', to_file fs v f p cfg = (fs, Err e').
Proof.
  unfold to_string, to_file, io_to_string, io_to_file, xml_to_file, kvn_to_file.
  destruct f.
  - destruct (snd (xml_to_string _ _ _ _)) eqn:E; cbn; [discriminate|]. intros _. eexists; reflexivity.
  - destruct p; [|intros _; eexists; reflexivity].
    destruct (kvn_to_string u v); cbn; [discriminate|]. intros _. eexists; reflexivity.
  - intros _; eexists; reflexivity.
  - discriminate.
Qed.

Lemma to_file_ok fs v f p cfg fs' :
  to_file fs v f p cfg = (fs', Ok tt) ->
  match to_string v f cfg with
  | Ok (Some t) => fs' (path_name p) = Some (write_newlines (os_crlf u) t) /\ forall q, q <> path_name p -> fs' q = fs q
  | Ok None => forall q, fs' q = fs q
  | Err _ => False
  end.
Proof.
  unfold to_string, to_file, io_to_string, io_to_file, xml_to_file, kvn_to_file, write_text.
  destruct f.
  - destruct (snd (xml_to_string _ _ _ _)) as [t|e] eqn:E; cbn; [|discriminate].
    destruct (can_open _); [|discriminate]. destruct (can_encode t); [|discriminate].
    intros H; injection H; intros <-. split; [apply fs_set_same|intros; apply fs_set_other; assumption].
  - destruct p as [n|n]; [|discriminate].
    destruct (kvn_to_string u v) as [t|e]; cbn; [|discriminate].
    destruct (can_open _); [|discriminate]. destruct (can_encode t); [|discriminate].
    intros H; injection H; intros <-. split; [apply fs_set_same|intros; apply fs_set_other; assumption].
  - discriminate.
  - intros H; injection H; intros <-. reflexivity.
Qed.

(* in every case no other file changes *)
Lemma to_file_frame fs v f p cfg q :
  q <> path_name p -> fst (to_file fs v f p cfg) q = fs q.
Proof.
  intros Hq. unfold to_file, io_to_file, xml_to_file, kvn_to_file, write_text.
  destruct f; [ | destruct p as [n|n]; [|reflexivity] | reflexivity | reflexivity ].
  - destruct (snd (xml_to_string _ _ _ _)) as [t|e]; [|reflexivity].
    destruct (can_open _); [|reflexivity]. destruct (can_encode t); cbn; apply fs_set_other; assumption.
  - destruct (kvn_to_string u v) as [t|e]; [|reflexivity].
    destruct (can_open _); [|reflexivity]. destruct (can_encode t); cbn; apply fs_set_other; assumption.
Qed.

Lemma file_round fs v f p q cfg fs' t :
  to_file fs v f p cfg = (fs', Ok tt) -> to_string v f cfg = Ok (Some t) ->
  path_name q = path_name p -> no_char c_return t ->
  io_from_path u et_root xs_parse fs' q = io_from_string u et_root xs_parse t.
Proof.
  intros H E Hq N. apply to_file_ok in H. rewrite E in H. destruct H as [H _].
  unfold io_from_path, read_text. rewrite Hq, H. cbn [guard_opt bind]. rewrite newlines_back by exact N. reflexivity.
Qed.
End Io.

(* re-used reader objects *)
Lemma kvnio_read_fresh u st src : snd (kvnio_read u st src) = kvn_from_string u src.
Proof.
  unfold kvnio_read, kvn_from_string, read_lines, identify_segments.
  destruct (pre_process src) as [lines|e]; [|reflexivity]. cbn [bind].
  cbn [ki_lines ki_keys ki_tree].
  destruct (identify_data_type lines) as [c|e]; [|reflexivity]. cbn [bind].
  destruct (init_object_map c) as [t|e]; [|reflexivity]. cbn [bind ki_lines ki_keys ki_tree].
  assert (Hk : filter (fun k => negb (mem_str k (deleted_keywords c))) (keys_of lines)
               = keys_of (delete_keywords c lines)).
  { unfold keys_of, delete_keywords. induction lines as [|l ls IH]; [reflexivity|].
    cbn. destruct (negb (mem_str (key_of l) (deleted_keywords c))); cbn; rewrite IH; reflexivity. }
  rewrite Hk. fold (delete_keywords c lines).
  destruct (identify u t (keys_of (delete_keywords c lines)) (delete_keywords c lines) 0)
    as [[[mx mm] e]|e]; reflexivity.
Qed.
