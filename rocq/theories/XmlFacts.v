(* Combined messages and the XML writer's state (C06-C09). *)
From Coq Require Import NArith ZArith List Bool String Arith Lia.
From Verif Require Import PyStr PyDec PyVal Schema KvnPre NdmXml KvnWrite NdmIo Spec SpecIo StrFacts.
Import ListNotations.
Local Open Scope string_scope.

Lemma header_var_dec k : {header_var k} + {~ header_var k}.
Proof.
  destruct (string_dec k "message_id"); [left; left; assumption|].
  destruct (string_dec k "comment"); [left; right; assumption|].
  right; intros [H|H]; contradiction.
Qed.
Lemma header_var_true k : header_var k ->
  (String.eqb k "message_id" || String.eqb k "comment" = true)%bool.
Proof. intros [->| ->]; reflexivity. Qed.
Lemma header_var_true' k : header_var k ->
  (String.eqb k "comment" || String.eqb k "message_id" = true)%bool.
Proof. intros [->| ->]; reflexivity. Qed.
Lemma header_var_false k : ~ header_var k ->
  (String.eqb k "message_id" || String.eqb k "comment" = false)%bool.
Proof.
  intros H. apply orb_false_iff; split; apply String.eqb_neq; intros ->; apply H; [left|right]; reflexivity.
Qed.
Lemma header_var_false' k : ~ header_var k ->
  (String.eqb k "comment" || String.eqb k "message_id" = false)%bool.
Proof. intros H. rewrite orb_comm. apply header_var_false; exact H. Qed.

Lemma downcast_concrete v w : concrete v w -> downcast v = Ok w.
Proof. intros [c d vs H]; destruct H; reflexivity. Qed.

Lemma raw_concrete v : raw_message v -> exists w, concrete v w.
Proof. intros [c [d [vs [-> H]]]]. exists (VObj d vs). constructor; exact H. Qed.
Lemma raw_concrete_list l : Forall raw_message l -> exists l', Forall2 concrete l l'.
Proof.
  induction 1 as [|v l Hv Hl [l' IH]]; [exists []; constructor|].
  destruct (raw_concrete v Hv) as [w Hw]. exists (w :: l'); constructor; assumption.
Qed.
Lemma concrete_vars_total vars : combined_of raw_message vars -> exists vars', concrete_vars vars vars'.
Proof.
  induction 1 as [|[k v] r Hk Hr [r' IH]]; [exists []; constructor|].
  destruct (header_var_dec k) as [H|H].
  - exists ((k, v) :: r'); constructor; assumption.
  - destruct Hk as [Hk|[l [E Hl]]]; [contradiction|]. cbn in E; subst v.
    destruct (raw_concrete_list l Hl) as [l' Hl']. exists ((k, VList l') :: r'); constructor; assumption.
Qed.

Lemma downcast_list l l' : Forall2 concrete l l' -> map_res downcast l = Ok l'.
Proof.
  induction 1 as [|v w l l' Hv Hl IH]; [reflexivity|]. cbn.
  rewrite (downcast_concrete _ _ Hv). cbn. rewrite IH. reflexivity.
Qed.
Lemma downcast_vars_spec vars vars' : concrete_vars vars vars' -> downcast_vars vars = Ok vars'.
Proof.
  induction 1 as [|k v r r' Hk Hr IH|k l l' r r' Hk Hl Hr IH]; [reflexivity| |].
  - cbn. rewrite (header_var_true' _ Hk), IH. reflexivity.
  - cbn. rewrite (header_var_false' _ Hk). cbn. rewrite (downcast_list _ _ Hl). cbn. rewrite IH. reflexivity.
Qed.

Lemma messages_total P vars : combined_of P vars -> exists l, messages vars l.
Proof.
  induction 1 as [|[k v] r Hk Hr [l IH]]; [exists []; constructor|].
  destruct (header_var_dec k) as [H|H]; [exists l; constructor; assumption|].
  destruct Hk as [Hk|[l0 [E Hl]]]; [contradiction|]. cbn in E; subst v.
  exists (l0 ++ l)%list; constructor; assumption.
Qed.
Lemma messages_fun vars l1 l2 : messages vars l1 -> messages vars l2 -> l1 = l2.
Proof.
  intros H; revert l2; induction H as [|k v r l Hk Hr IH|k l0 r l Hk Hr IH]; intros l2 H2;
    inversion H2; subst; try contradiction; auto.
  f_equal; auto.
Qed.

(* the variables with members, against the flat list of messages *)
Lemma non_zero_spec vars l : messages vars l ->
  exists nz, non_zero_elems vars = Ok nz /\
             Forall (fun kv => exists l0, snd kv = VList l0 /\ l0 <> []) nz /\
             l = flat_map (fun kv => match snd kv with VList l0 => l0 | _ => [] end) nz.
Proof.
  induction 1 as [|k v r l Hk Hr [nz [E [F L]]]|k l0 r l Hk Hr [nz [E [F L]]]].
  - exists []; repeat split; constructor.
  - exists nz. cbn. rewrite (header_var_true _ Hk). auto.
  - cbn. rewrite (header_var_false _ Hk). cbn. rewrite E. cbn.
    destruct l0 as [|x l0].
    + exists nz; cbn; auto.
    + exists ((k, VList (x :: l0)) :: nz). cbn. repeat split.
      * constructor; [exists (x :: l0); split; [reflexivity|discriminate]|exact F].
      * rewrite L. reflexivity.
Qed.

Lemma single_or_not vars l : messages vars l ->
  exists nz, non_zero_elems vars = Ok nz /\
    ((exists k m, nz = [(k, VList [m])] /\ l = [m]) \/
     (List.length l <> 1 /\ match nz with [(_, VList l0)] => List.length l0 <> 1 | _ => True end)).
Proof.
  intros H. destruct (non_zero_spec _ _ H) as [nz [E [F L]]]. exists nz; split; [exact E|].
  destruct nz as [|[k v] [|kv2 nz]].
  - right. subst l. split; [discriminate|exact I].
  - inversion F as [|? ? [l0 [Hv Hne]] _]; subst. cbn in Hv. subst v. cbn. rewrite app_nil_r.
    destruct l0 as [|m [|m2 l0]]; [congruence| |].
    + left. exists k, m; split; reflexivity.
    + right. split; discriminate.
  - right. inversion F as [|? ? [l0 [Hv Hne]] F2]; subst. inversion F2 as [|? ? [l1 [Hv1 Hne1]] F3]; subst.
    split; [|destruct v; exact I]. cbn in Hv; subst v. cbn. rewrite Hv1.
    rewrite !app_length. destruct l0; [congruence|]. destruct l1; [congruence|]. cbn. lia.
Qed.

Lemma strip_multi_spec c vars l : messages vars l ->
  (forall m, l = [m] -> strip_multi_ndm (VObj c vars) = Ok m) /\
  (List.length l <> 1 -> strip_multi_ndm (VObj c vars) = Ok (VObj c vars)).
Proof.
  intros H. destruct (single_or_not _ _ H) as [nz [E C]].
  unfold strip_multi_ndm. cbn [bind py_vars]. rewrite E. cbn [bind].
  destruct C as [[k [m [-> ->]]]|[Hl Hnz]].
  - split; [intros m' Hm; injection Hm; intros <-; reflexivity | cbn; congruence].
  - split; [intros m ->; cbn in Hl; congruence|]. intros _.
    destruct nz as [|[k v] [|kv2 nz]]; try reflexivity.
    assert (F : exists l0, v = VList l0).
    { destruct (non_zero_spec _ _ H) as [nz' [E' [F' _]]]. rewrite E in E'. injection E'; intros <-.
      inversion F' as [|? ? [l0 [Hv _]] _]; subst. exists l0; exact Hv. }
    destruct F as [l0 ->]. cbn. destruct (Nat.eqb_spec (List.length l0) 1); [contradiction|reflexivity].
Qed.

Lemma is_multi_spec c vars l : messages vars l ->
  is_multi_ndm (VObj c vars) = Ok (negb (Nat.eqb (List.length l) 1)).
Proof.
  intros H. destruct (single_or_not _ _ H) as [nz [E C]].
  unfold is_multi_ndm. cbn [bind py_vars]. rewrite E. cbn [bind].
  destruct C as [[k [m [-> ->]]]|[Hl Hnz]]; [reflexivity|].
  destruct (Nat.eqb_spec (List.length l) 1); [contradiction|].
  destruct nz as [|[k v] [|kv2 nz]]; try reflexivity.
  assert (F : exists l0, v = VList l0).
  { destruct (non_zero_spec _ _ H) as [nz' [E' [F' _]]]. rewrite E in E'. injection E'; intros <-.
    inversion F' as [|? ? [l0 [Hv _]] _]; subst. exists l0; exact Hv. }
  destruct F as [l0 ->]. cbn. destruct (Nat.eqb_spec (List.length l0) 1); [contradiction|reflexivity].
Qed.

(* root tags of single messages *)
Lemma xml_find_element_spec t : xml_find_element t <> None <-> message_tag t.
Proof.
  unfold xml_find_element, message_tag, root_classes. cbn [find].
  repeat match goal with
         | |- context [meta_name ?c] => let v := eval vm_compute in (meta_name c) in
                                        replace (meta_name c) with v by (vm_compute; reflexivity)
         end.
  cbv iota beta.
  split.
  - repeat match goal with
           | |- context [str_eqb ?a t] => let E := fresh "E" in destruct (str_eqb a t) eqn:E;
               [intros _; apply str_eqb_eq in E; subst t; clear; cbn [In]; tauto|]
           end. congruence.
  - intros H. repeat (destruct H as [<-|H]; [vm_compute; discriminate|]). destruct H.
Qed.

Section Xml.
Variable et_root : str -> option str.
Variable xs_parse : str -> res pyval.
Variable xs_render : xcfg -> pyval -> res str.

Lemma combi_spec src :
  (forall t, et_root src = Some t -> ~ message_tag t) -> xml_is_combi et_root src = true.
Proof.
  unfold xml_is_combi. intros H. destruct (et_root src) as [t|]; [|reflexivity].
  destruct (xml_find_element t) eqn:E; [|reflexivity]. exfalso. apply (H t eq_refl).
  apply xml_find_element_spec. rewrite E; discriminate.
Qed.
Lemma not_combi_spec src t :
  et_root src = Some t -> message_tag t -> xml_is_combi et_root src = false.
Proof.
  unfold xml_is_combi. intros -> H. apply xml_find_element_spec in H.
  destruct (xml_find_element t); [reflexivity|congruence].
Qed.

Lemma xml_combined st src vars :
  xs_parse src = Ok (VObj "Ndm" vars) ->
  (forall t, et_root src = Some t -> ~ message_tag t) ->
  combined_of raw_message vars ->
  exists vars' ms, concrete_vars vars vars' /\ messages vars' ms /\
    (forall m, ms = [m] -> snd (xml_from_string et_root xs_parse st src) = Ok m) /\
    (List.length ms <> 1 -> snd (xml_from_string et_root xs_parse st src) = Ok (VObj "Ndm" vars')).
Proof.
  intros Hp Ht Hc. destruct (concrete_vars_total _ Hc) as [vars' Hv].
  assert (Hm : exists ms, messages vars' ms).
  { clear -Hv. induction Hv as [|k v r r' Hk Hr [l IH]|k l0 l' r r' Hk Hl Hr [l IH]].
    - exists []; constructor.
    - exists l; constructor; assumption.
    - exists (l' ++ l)%list; constructor; assumption. }
  destruct Hm as [ms Hm]. exists vars', ms. split; [exact Hv|]. split; [exact Hm|].
  unfold xml_from_string. cbn [snd]. rewrite Hp. cbn [bind].
  change (String.eqb "Ndm" "Ndm") with true. cbn [bind].
  rewrite (downcast_vars_spec _ _ Hv). cbn [bind]. rewrite (combi_spec _ Ht).
  apply strip_multi_spec. exact Hm.
Qed.

Lemma xml_single st src t c vars :
  xs_parse src = Ok (VObj c vars) -> c <> "Ndm" ->
  et_root src = Some t -> message_tag t ->
  snd (xml_from_string et_root xs_parse st src) = Ok (VObj c vars).
Proof.
  intros Hp Hc Ht Hm. unfold xml_from_string. cbn [snd]. rewrite Hp. cbn [bind].
  apply String.eqb_neq in Hc. rewrite Hc. cbn [bind]. rewrite (not_combi_spec _ _ Ht Hm). reflexivity.
Qed.

(* the writer object: results of a sequence of calls *)
Fixpoint xml_calls (st : xmlio) (h : list (pyval * xcfg)) : list (res str) :=
  match h with
  | [] => []
  | (v, cfg) :: r => let '(st', x) := xml_to_string xs_render st v cfg in x :: xml_calls st' r
  end.

Lemma xml_calls_first_cfg cfg0 b h :
  xml_calls (mkXmlio b (Some cfg0)) h = map (fun vc => xs_render cfg0 (fst vc)) h.
Proof. induction h as [|[v cfg] h IH]; [reflexivity|]. cbn. f_equal. exact IH. Qed.
Lemma xml_calls_char v cfg h :
  xml_calls xmlio_new ((v, cfg) :: h) = map (fun vc => xs_render cfg (fst vc)) ((v, cfg) :: h).
Proof. cbn. f_equal. apply xml_calls_first_cfg. Qed.
End Xml.

(* KVN writer on combined messages *)
Lemma kvn_multi u vars ms : messages vars ms -> List.length ms <> 1 ->
  kvn_to_string u (VObj "Ndm" vars) = Err NotImplementedErr.
Proof.
  intros H Hl. unfold kvn_to_string.
  replace (meta_name "Ndm") with (Some "ndm") by (vm_compute; reflexivity). cbn [guard_opt bind].
  change (String.eqb "ndm" "ndm") with true. rewrite (is_multi_spec "Ndm" _ _ H).
  destruct (Nat.eqb_spec (List.length ms) 1); [contradiction|]. reflexivity.
Qed.
Lemma kvn_single_ndm u vars m : messages vars [m] -> assoc "id" vars = None ->
  kvn_to_string u (VObj "Ndm" vars) = Err AttributeError.
Proof.
  intros H Hid. unfold kvn_to_string.
  replace (meta_name "Ndm") with (Some "ndm") by (vm_compute; reflexivity). cbn [guard_opt bind].
  change (String.eqb "ndm" "ndm") with true. rewrite (is_multi_spec "Ndm" _ _ H). cbn [List.length Nat.eqb negb bind].
  unfold py_getattr. rewrite Hid.
  replace (find_field "id" (fields_of "Ndm")) with (@None field) by (vm_compute; reflexivity). reflexivity.
Qed.
