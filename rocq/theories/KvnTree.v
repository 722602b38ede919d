(* The object map: ndm_kvn_io.py 135-153, 466-571, 1162-1243. *)
From Coq Require Import NArith List Bool String.
From Verif Require Import PyStr PyDec PyVal Schema KvnPre.
Import ListNotations.

(* ndm_kvn_io.py 136-153 _NdmElement.  [e_mm] is min_max (set by identification; the
   python default None is never read before being set, here (0,0)).  [e_tmpl] is
   special_data["template"].  subname_list is written but never read, so it is dropped. *)
Inductive elem := Elem {
  e_name : string;
  e_cls : string;
  e_subs : list elem;
  e_kws : list str;
  e_islist : bool;
  e_single : option string;
  e_mm : nat * nat;
  e_tmpl : option (list str)
}.

Definition set_subs (e : elem) (s : list elem) : elem :=
  Elem (e_name e) (e_cls e) s (e_kws e) (e_islist e) (e_single e) (e_mm e) (e_tmpl e).
Definition set_mm (e : elem) (m : nat * nat) : elem :=
  Elem (e_name e) (e_cls e) (e_subs e) (e_kws e) (e_islist e) (e_single e) m (e_tmpl e).
Definition set_kws (e : elem) (k : list str) : elem :=
  Elem (e_name e) (e_cls e) (e_subs e) k (e_islist e) (e_single e) (e_mm e) (e_tmpl e).
Definition set_tmpl (e : elem) (t : list str) : elem :=
  Elem (e_name e) (e_cls e) (e_subs e) (e_kws e) (e_islist e) (e_single e) (e_mm e) (Some t).

(* ndm_kvn_io.py 1183-1194 _is_class *)
Definition is_class_field (f : field) : bool :=
  match f_kw f with Some n => negb (isupper (lit n)) | None => true end.

(* ndm_kvn_io.py 1222-1243 _get_ccsds_kw_list; str/Decimal/int give [] *)
Definition ccsds_kw_list (t : ftype) : list str :=
  match t with
  | TCls c => match find_class c with
              | Some (CData _ fs) =>
                filter_map (fun f => option_map lit (f_kw f)) fs
              | Some (CEnum ms) => map (fun m => lit (fst m)) ms
              | None => []
              end
  | _ => []
  end.

(* ndm_kvn_io.py 1172-1180 _is_id_or_version *)
Definition is_id_or_version (f : field) : bool :=
  String.eqb (f_name f) "id" || String.eqb (f_name f) "version".

(* ndm_kvn_io.py 484-571 _extract_object_submap.  Recursion over the class graph by fuel;
   [OutOfFuel] does not occur for any root class (checked by computation below). The python
   code reaches only dataclasses here, apart from edge types handled by the last case. *)
Fixpoint extract (fuel : nat) (tag : string) (t : ftype) (is_list : bool) : res elem :=
  match fuel with
  | O => Err OutOfFuel
  | S n =>
    let kws := filter isupper (ccsds_kw_list t) in
    match t with
    | TCls c =>
      match find_class c with
      | Some (CData _ fs) =>
        let names_classes :=
          filter is_class_field (filter (fun f => negb (is_id_or_version f)) fs) in
        if existsb (fun f => String.eqb (f_name f) "value") fs then
          let single :=
            filter (fun f => negb (String.eqb (f_name f) "value")
                             && negb (String.eqb (f_name f) "units")) names_classes in
          do s0 <- get single 0;
          let lower := flat_map (fun f => ccsds_kw_list (f_ty f)) single in
          Ok (Elem tag c [] (kws ++ lower) is_list (Some (f_name s0)) (0, 0) None)
        else
          do subs <- map_res (fun f => extract n (f_name f) (f_ty f) (f_list f)) names_classes;
          Ok (Elem tag c subs kws is_list None (0, 0) None)
      | _ => Ok (Elem tag c [] kws is_list None (0, 0) None)
      end
    | _ => Ok (Elem tag "" [] kws is_list None (0, 0) None)
    end
  end.

(* ndm_kvn_io.py 466-482 _init_object_map *)
Definition init_object_map (c : string) : res elem :=
  do e <- extract 12 (match class_fixed c "id" with Some i => i | None => EmptyString end)
          (TCls c) false;
  Ok (set_kws e (e_kws e ++ [lit "id"; lit "version"])).

(* the object maps of the eight message types, computed once *)
Definition tree_of (c : string) : elem :=
  match init_object_map c with Ok e => e | Err _ => Elem "" "" [] [] false None (0, 0) None end.

Lemma init_object_map_ok :
  forall c, In c root_classes -> init_object_map c = Ok (tree_of c).
Proof.
  intros c H. unfold tree_of.
  repeat (destruct H as [<-|H]; [vm_compute; reflexivity|]). destruct H.
Qed.

(* every element below a root equals a fresh extraction of its class (so starting a list
   element from the element itself is the same as _extract_object_submap, line 752) *)
Fixpoint all_elems (e : elem) : list elem := e :: flat_map all_elems (e_subs e).
