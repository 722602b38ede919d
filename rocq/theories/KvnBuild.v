(* Object building: ndm_kvn_io.py 183-216, 785-1045. *)
From Coq Require Import NArith List Bool String Arith.
From Verif Require Import PyStr PyDec PyVal Schema KvnPre KvnTree KvnSeg XmlBind.
Import ListNotations.

(* python zip of keywords and tokens, as [key; value] lines *)
Fixpoint zip_lines (ks ts : list str) : list line :=
  match ks, ts with
  | k :: ks', t :: ts' => [k; t] :: zip_lines ks' ts'
  | _, _ => []
  end.

(* ndm_kvn_io.py 882-890 __att_types *)
Definition att_types : list (string * string) :=
  [("QUATERNION", "quaternion_state"); ("QUATERNION/DERIVATIVE", "quaternion_derivative");
   ("QUATERNION/RATE", "quaternion_euler_rate"); ("EULER_ANGLE", "euler_angle");
   ("EULER_ANGLE/RATE", "euler_angle_rate"); ("SPIN", "spin");
   ("SPIN/NUTATION", "spin_nutation")]%string.
(* dict.get on the text of the ATTITUDE_TYPE line *)
Definition att_type_of (k : str) : option string :=
  option_map snd (find (fun p => str_eqb (lit (fst p)) k) att_types).

(* ndm_kvn_io.py 892-893 __euler_angle_id, __euler_rate_id (suffix "_ANGLE" / "_RATE") *)
Definition euler_id (suffix : string) (c : N) : res str :=
  match c with
  | 49%N => Ok (lit "X" ++ lit suffix)
  | 50%N => Ok (lit "Y" ++ lit suffix)
  | 51%N => Ok (lit "Z" ++ lit suffix)
  | _ => Err KeyError
  end.

(* ndm_kvn_io.py 962-966: value of the first line with the key at or after an index *)
Definition lookup_line (key : str) (lines : list line) (start : nat) : res str :=
  do i <- guard_opt (index_start key (keys_of lines) start) ValueError;
  do l <- get lines i;
  get l 1.

(* ndm_kvn_io.py 961-996: attitude type name and keyword template of a segment *)
Definition att_template (lines : list line) (start : nat) : res (option string * list str) :=
  do att <- lookup_line (lit "ATTITUDE_TYPE") lines start;
  do t1 <- (if startswith (lit "QUATERNION") att then
              do q <- lookup_line (lit "QUATERNION_TYPE") lines start;
              let first := str_eqb q (lit "FIRST") in
              let base := if first then [lit "QC"; lit "Q1"; lit "Q2"; lit "Q3"]
                          else [lit "Q1"; lit "Q2"; lit "Q3"; lit "QC"] in
              Ok (base ++ (if endswith (lit "DERIVATIVE") att then
                             if first then [lit "QC_DOT"; lit "Q1_DOT"; lit "Q2_DOT"; lit "Q3_DOT"]
                             else [lit "Q1_DOT"; lit "Q2_DOT"; lit "Q3_DOT"; lit "QC_DOT"]
                           else []))
            else Ok []);
  do t2 <- (if startswith (lit "EULER") att || endswith (lit "RATE") att then
              do seq <- lookup_line (lit "EULER_ROT_SEQ") lines start;
              do a <- (if startswith (lit "EULER") att
                       then map_res (euler_id "_ANGLE") seq else Ok []);
              do r <- (if endswith (lit "RATE") att
                       then map_res (euler_id "_RATE") seq else Ok []);
              Ok (a ++ r)
            else Ok []);
  Ok (att_type_of att, lit "EPOCH" :: t1 ++ t2).

(* ndm_kvn_io.py 955-1008 __prepare_aemsegment_sub_objects: the segment element with the
   attitude states' subclasses filtered and templates set *)
Definition prepare_aem_segment (e : elem) (lines : list line) : res elem :=
  do data <- get (e_subs e) 1;
  do t <- att_template lines (snd (e_mm e));
  let '(att, tmpl) := t in
  let fix_state s :=
      set_tmpl (set_subs s (filter (fun x => match att with
                                             | Some a => String.eqb (e_name x) a
                                             | None => false
                                             end) (e_subs s))) tmpl in
  let data' := set_subs data (map fix_state (e_subs data)) in
  Ok (set_subs e (firstn 1 (e_subs e) ++ data' :: skipn 2 (e_subs e))).

Section Build.
Variable u : env.

(* ndm_kvn_io.py 1031-1040 + 867 for AttitudeStateType: the built object is written as XML
   by xsdata, "Type" is removed from the text, and the result parsed again.  Text fields lose
   every "Type"; decimals go through their fixed-point text; text that becomes empty is bound
   by the oracle. *)
Definition strip_type (s : str) : str := remove_sub (lit "Type") s.
Fixpoint reparse (cls fld : string) (t : ftype) (v : pyval) : pyval :=
  match v with
  | VStr s => conv u cls fld t (strip_type s)
  | VDec d => VDec (fixed_point d)
  | VObj c vs =>
    VObj c (map (fun nv => (fst nv,
                            reparse c (fst nv)
                                    match find_field (fst nv) (fields_of c) with
                                    | Some f => f_ty f
                                    | None => TStr
                                    end (snd nv))) vs)
  | VList l => VList (map (reparse cls fld t) l)
  | _ => v
  end.

(* getattr(ndm_object, subclass.name) is a list: append a non-None subobject;
   otherwise setattr (ndm_kvn_io.py 870-878) *)
Definition attach (n : string) (sub : pyval) (vars : list (string * pyval))
  : res (list (string * pyval)) :=
  match assoc n vars with
  | None => Err AttributeError
  | Some (VList _) => match sub with VNone => Ok vars | _ => Ok (append_var n sub vars) end
  | Some _ => Ok (set_var n sub vars)
  end.

(* ndm_kvn_io.py 803-953, 1012-1045.  Recursion by fuel (the attitude path rebuilds
   the tree); exhaustion is proved impossible. [doc] is self._lines, [full] the lines the
   current subtree indexes (they differ only inside an attitude state). *)
Fixpoint build (fuel : nat) (doc : list line) (e : elem) (full : list line) {struct fuel}
  : res pyval :=
  match fuel with
  | O => Err OutOfFuel
  | S n =>
    let prefix := if String.eqb (e_cls e) "UserDefinedType"
                  then Some (lit "USER_DEFINED") else None in
    let local := slice (fst (e_mm e)) (snd (e_mm e)) full in
    let no_subs := match e_subs e with [] => true | _ => false end in
    let fill obj subs :=                      (* lines 869-880 *)
        match obj with
        | VObj c vars =>
          do vars' <- fold_left (fun acc s =>
                                   do vs <- acc;
                                   do sub <- build n doc s full;
                                   attach (e_name s) sub vs) subs (Ok vars);
          Ok (VObj c vars')
        | _ => Err AttributeError
        end in
    match local, no_subs with
    | [], true => Ok VNone                    (* lines 832-834 *)
    | _, _ =>
      if String.eqb (e_cls e) "AemSegment" then
        do e' <- prepare_aem_segment e doc;   (* 914-921 *)
        do obj <- parse_list u (e_cls e) None local;
        fill obj (e_subs e')
      else if String.eqb (e_cls e) "AttitudeStateType" then
        (* 923-925, 1012-1045; lines[0] of an empty range raises *)
        do tm <- guard_opt (e_tmpl e) KeyError;
        do l0 <- get local 0;
        do s <- get l0 0;
        let synth := zip_lines tm (split_ws s) in
        do r <- identify u e tm synth 0;
        let '(_, _, e1) := r in
        do sub <- get (e_subs e1) 0;
        do internal <- build n doc sub synth;
        do vs <- Ok (set_var (e_name sub) internal (vars_of (new_obj (e_cls e))));
        Ok (reparse "" "" TStr (VObj (e_cls e) vs))
      else if String.eqb (e_cls e) "StateVectorAccType" then
        (* 927-930 *)
        do l0 <- get local 0;
        do s <- get l0 0;
        do obj <- parse_list u (e_cls e) None (zip_lines (e_kws e) (split_ws s));
        fill obj (e_subs e)
      else if String.eqb (e_cls e) "OemCovarianceMatrixType" then
        (* 932-940 *)
        let datal := filter (fun l => negb (isalpha u (key_of l))) local in
        let kvnl := filter (fun l => isalpha u (key_of l)) local in
        let toks := flat_map (fun l => split_ws (key_of l)) datal in
        do obj <- parse_list u (e_cls e) None (kvnl ++ zip_lines (skipn 3 (e_kws e)) toks);
        fill obj (e_subs e)
      else if String.eqb (e_cls e) "TrackingDataObservationType" then
        (* 942-945 *)
        do l0 <- get local 0;
        do k <- get l0 0;
        do t <- get l0 1;
        do obj <- parse_list u (e_cls e) None (zip_lines [lit "EPOCH"; k] (split_ws t));
        fill obj (e_subs e)
      else
        (* 843-865 *)
        let local' := match prefix with
                      | Some _ => local
                      | None => filter (fun l => mem_str (key_of l) (e_kws e)) local
                      end in
        match local', no_subs with
        | [], true => Ok VNone                (* 850-852 *)
        | _, _ =>
          do obj <- (if match e_kws e with
                        | [a; b] => str_eqb a (lit "id") && str_eqb b (lit "version")
                        | _ => false
                        end then parse_root (e_cls e) local'
                     else match e_single e with
                          | Some p => parse_single u (e_cls e) p local'
                          | None => parse_list u (e_cls e) prefix local'
                          end);
          fill obj (e_subs e)
        end
    end
  end.

Fixpoint depth (e : elem) : nat := S (fold_right (fun s m => Nat.max (depth s) m) 0 (e_subs e)).

(* ndm_kvn_io.py 785-801 _build_object *)
Definition build_object (e : elem) (lines : list line) : res pyval :=
  build (S (depth e)) lines e lines.

(* ndm_kvn_io.py 199-216, after pre-processing *)
Definition read_lines (lines0 : list line) : res pyval :=
  do c <- identify_data_type lines0;
  let lines := delete_keywords c lines0 in
  do tree <- init_object_map c;
  do e <- identify_segments u tree lines;
  build_object e lines.

(* ndm_kvn_io.py 183-216 NdmKvnIo.from_string *)
Definition kvn_from_string (src : str) : res pyval :=
  do lines <- pre_process src;
  read_lines lines.
End Build.
