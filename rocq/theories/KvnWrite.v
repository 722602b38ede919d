(* The KVN writer: ndm_kvn_io.py 113-126, 218-405, 1400-1661. *)
From Coq Require Import NArith ZArith List Bool String Arith.
From Verif Require Import PyStr PyDec PyVal Schema KvnPre XmlBind NdmXml.
Import ListNotations.

(* bool(v) *)
Definition truthy (v : pyval) : bool :=
  match v with
  | VNone => false
  | VStr s => match s with [] => false | _ => true end
  | VInt z => negb (Z.eqb z 0)
  | VDec (DFin _ c _) => negb (N.eqb c 0)
  | VDec _ => true
  | VEnum _ _ _ => true
  | VObj _ _ => true
  | VList l => match l with [] => false | _ => true end
  end.

(* str(v); the text of objects and lists is not modelled *)
Definition py_str (v : pyval) : res str :=
  match v with
  | VNone => Ok (lit "None")
  | VStr s => Ok s
  | VInt z => Ok (show_Z z)
  | VDec d => Ok (show_dec d)
  | VEnum c m _ => Ok (lit c ++ lit "." ++ lit m)
  | VObj _ _ | VList _ => Err Opaque
  end.

(* getattr(v, n): instance variable, else class attribute (dataclass default) *)
Definition py_getattr (v : pyval) (n : string) : res pyval :=
  match v with
  | VObj c vars =>
    match assoc n vars with
    | Some x => Ok x
    | None => match find_field n (fields_of c) with
              | Some f => match f_fixed f with
                          | Some s => Ok (VStr (lit s))
                          | None => if f_list f then Err AttributeError else Ok VNone
                          end
              | None => Err AttributeError
              end
    end
  | VEnum _ m s => if String.eqb n "value" then Ok (VStr s)
                   else if String.eqb n "name" then Ok (VStr (lit m))
                   else Err AttributeError
  | _ => Err AttributeError
  end.
(* getattr(elem, "value", elem) *)
Definition value_or_self (v : pyval) : pyval :=
  match py_getattr v "value" with Ok x => x | Err _ => v end.

(* d[k] *)
Definition dict_get (k : string) (d : list (string * pyval)) : res pyval :=
  guard_opt (assoc k d) KeyError.

Definition mem_string (c : string) (l : list string) : bool := existsb (String.eqb c) l.

(* ndm_kvn_io.py 113-126 *)
Definition special_output_header_classes : list string :=
  ["AemData"; "AemMetadata"; "OemMetadata"; "OemCovarianceMatrixType"; "TdmMetadata";
   "TdmData"]%string.
Definition special_output_data_classes : list string :=
  ["StateVectorAccType"; "OemCovarianceMatrixType"; "TrackingDataObservationType";
   "AttitudeStateType"]%string.
(* type(v) in classes *)
Definition type_in (l : list string) (v : pyval) : bool :=
  match v with VObj c _ => mem_string c l | _ => false end.

(* ndm_kvn_io.py 1479-1512; never None for a class of special_output_header_classes *)
Definition special_header (c : string) (is_begin : bool) : str :=
  lit (if mem_string c ["AemMetadata"; "OemMetadata"; "TdmMetadata"] then
         if is_begin then "META_START" else "META_STOP"
       else if mem_string c ["AemData"; "TdmData"] then
         if is_begin then "DATA_START" else "DATA_STOP"
       else if is_begin then "COVARIANCE_START" else "COVARIANCE_STOP")%string.

(* ndm_kvn_io.py 1455-1476 _fill_out_single_line *)
Definition fill_out_single_line (l : list str) : res str :=
  match l with
  | [] => Err IndexError
  | x :: _ => if str_eqb x [c_nl] then Ok [] else Ok (join [c_sp; c_sp] l)
  end.

Section Write.
Variable u : env.

(* ndm_kvn_io.py 1400-1426 _fill_str_out_kvn (value already str()-ed; unit None or "" alike) *)
Definition fill_kvn (key value unit : str) : str :=
  match unit with
  | [] => ljust 20 (upper u key) ++ lit " = " ++ value
  | _ => ljust 20 (upper u key) ++ lit " = " ++ ljust 18 value ++ lit "[" ++ unit ++ lit "]"
  end.

(* ndm_kvn_io.py 1429-1452 _fill_str_out_multi_kvn *)
Definition fill_multi_kvn (key v1 v2 : str) : str :=
  ljust 20 (upper u key) ++ lit " = " ++ ljust 30 v1 ++ v2 ++ lit " ".

(* ndm_kvn_io.py 1642-1659: rows of 1, 2, 3, ... values; an incomplete row is dropped *)
Fixpoint cov_rows (fuel n : nat) (vals : list str) : res (list str) :=
  match fuel with
  | O => Err OutOfFuel
  | S k => if Nat.ltb (List.length vals) n then Ok []
           else do r <- fill_out_single_line (firstn n vals);
                do rs <- cov_rows k (S n) (skipn n vals);
                Ok (r :: rs)
  end.

(* ndm_kvn_io.py 1535-1540 *)
Definition state_vector_line (vars : list (string * pyval)) : res (list str) :=
  do l <- map_res (fun v => py_str (value_or_self v)) (filter truthy (map snd vars));
  do s <- fill_out_single_line l;
  Ok [s].

(* ndm_kvn_io.py 1559-1563: the last QUATERNION_TYPE line written so far *)
Definition quat_is_last (out : list str) : res bool :=
  do x <- guard_opt (find (startswith (lit "QUATERNION_TYPE")) (rev out)) StopIter;
  Ok (startswith (lit "LAST") (strip (last (split_on c_eq x) []))).

(* str(d[k]) *)
Definition str_item (d : list (string * pyval)) (k : string) : res str :=
  do v <- dict_get k d; py_str v.

(* ndm_kvn_io.py 1542-1617.  str(att_obj[0]) is the dataclass repr, which starts with the
   class name.  Simplification: a first true attribute that is not an object raises TypeError
   (vars() of it). *)
Definition attitude_line (vars : list (string * pyval)) (out : list str) : res (list str) :=
  match filter truthy (map snd vars) with
  | [] => Err TypeError                          (* returns None; list.extend(None) *)
  | VObj c avars :: _ =>
    do rots <- map_res (fun kv => py_vars (snd kv))
                       (filter (fun kv => negb (String.eqb (fst kv) "epoch")) avars);
    do toks <-
       (if startswith (lit "Quaternion") (lit c) then
          do ql <- quat_is_last out;
          do r0 <- get rots 0;
          do base <- map_res (str_item r0)
                             (if ql then ["q1"; "q2"; "q3"; "qc"] else ["qc"; "q1"; "q2"; "q3"])%string;
          if String.eqb c "QuaternionEulerRateType" then
            do r1 <- get rots 1;
            do rt <- map_res (fun k => do x <- dict_get k r1;
                                       do y <- py_getattr x "value";
                                       py_str y) ["rotation1"; "rotation2"; "rotation3"]%string;
            Ok (base ++ rt)
          else if String.eqb c "QuaternionDerivativeType" then
            do dt <- map_res (str_item r0)
                             (if ql then ["q1_dot"; "q2_dot"; "q3_dot"; "qc_dot"]
                              else ["qc_dot"; "q1_dot"; "q2_dot"; "q3_dot"])%string;
            Ok (base ++ dt)
          else Ok base
        else
          map_res (fun v => py_str (value_or_self v)) (flat_map (map snd) rots));
    do ep <- dict_get "epoch" avars;
    match ep with
    | VStr e => do s <- fill_out_single_line (e :: toks); Ok [s]
    | _ => Err TypeError                         (* str.join of a non-string *)
    end
  | _ :: _ => Err TypeError
  end.

(* ndm_kvn_io.py 1619-1630 *)
Definition tracking_line (vars : list (string * pyval)) : res (list str) :=
  do kv <- get (filter_map (fun kv => match snd kv with
                                      | VDec d => if String.eqb (fst kv) "epoch" then None
                                                  else Some (fst kv, d)
                                      | _ => None
                                      end) vars) 0;
  do ep <- dict_get "epoch" vars;
  do e <- py_str ep;
  Ok [fill_multi_kvn (lit (fst kv)) e (show_dec (snd kv))].

(* ndm_kvn_io.py 1632-1661 *)
Definition covariance_lines (key : string) (v : pyval) (vars : list (string * pyval))
  : res (list str) :=
  do cm <- py_getattr v "comment";
  do cs <- py_iter cm;
  do cl <- map_res (fun c => do s <- py_str c; Ok (fill_kvn (lit key) s [])) cs;
  do ep <- py_getattr v "epoch";
  do e <- py_str ep;
  do fr <- py_getattr v "cov_ref_frame";
  do fl <- (if truthy fr then do s <- py_str fr; Ok [fill_kvn (lit "cov_ref_frame") s []]
            else Ok []);
  do vals <- map_res py_str (filter_map (fun kv => match py_getattr (snd kv) "value" with
                                                   | Ok x => Some x
                                                   | Err _ => None
                                                   end) vars);
  do rows <- cov_rows (S (List.length vals)) 1 vals;
  Ok (cl ++ fill_kvn (lit "epoch") e [] :: fl ++ rows).

(* ndm_kvn_io.py 1515-1661 _collate_special_data_str_out *)
Definition special_data_lines (key : string) (c : string) (vars : list (string * pyval))
           (out : list str) : res (list str) :=
  if String.eqb c "StateVectorAccType" then state_vector_line vars
  else if String.eqb c "AttitudeStateType" then attitude_line vars out
  else if String.eqb c "TrackingDataObservationType" then tracking_line vars
  else covariance_lines key (VObj c vars) vars.

(* ndm_kvn_io.py 331-357: a value object (with units) *)
Definition value_obj_line (key : string) (c : string) (vars : list (string * pyval))
  : res str :=
  do key_used <-
     match filter (fun k => negb (mem_string k ["value"; "units"]%string)) (map fst vars) with
     | [] => Ok (lit key)
     | k :: _ => do x <- dict_get k vars;
                 do y <- py_getattr x "value";
                 match y with VStr s => Ok s | _ => Err AttributeError end  (* .upper() *)
     end;
  do un <- py_getattr (VObj c vars) "units";
  do v <- py_getattr (VObj c vars) "value";
  do s <- py_str v;
  if truthy un then
    do y <- py_getattr un "value";
    do us <- py_str y;
    Ok (fill_kvn key_used s (if truthy y then us else []))
  else Ok (fill_kvn key_used s []).

(* ndm_kvn_io.py 364-373 *)
Definition user_defined_line (key : string) (x : pyval) : res str :=
  do p <- py_getattr x "parameter";
  do v <- py_getattr x "value";
  match p with
  | VStr ps => do s <- (if truthy v then py_str v else Ok []);
               Ok (fill_kvn (lit key ++ lit "_" ++ ps) s [])
  | _ => Err TypeError                           (* str + non-str *)
  end.

(* ndm_kvn_io.py 285-300: loop over vars(obj) given the line writer of one variable *)
Section Vars.
Variable f : string -> pyval -> list str -> res (list str).
Fixpoint collate_vars (vars : list (string * pyval)) (out : list str) : res (list str) :=
  match vars with
  | [] => Ok out
  | (k, x) :: r => match f k x out with Ok o => collate_vars r o | Err e => Err e end
  end.
End Vars.

(* ndm_kvn_io.py 299-300: closing blank line *)
Definition close_section (key : string) (vars : list (string * pyval)) (out : list str)
  : list str :=
  if negb (String.eqb key "") && negb (mem_string "value" (map fst vars))
     && match vars with [] => false | _ => true end
  then out ++ [[]] else out.

(* ndm_kvn_io.py 302-405 _collate_str_out_subclasses with _collate_str_out (268-300) inlined
   for objects and for list items.  Simplifications: "name" in dir(v) (line 358) holds for
   enum members only, since no schema class has an attribute of that name; a list item that
   is not an object raises TypeError (vars() of it). *)
Fixpoint collate_sub (key : string) (v : pyval) (out0 : list str) {struct v} : res (list str) :=
  let hdr b := match v with
               | VObj c _ => if mem_string c special_output_header_classes
                             then [special_header c b; []] else []
               | _ => []
               end in
  let out := out0 ++ hdr true in
  do out1 <-
     match v with
     | VStr s => Ok (out ++ [fill_kvn (lit key) s []])
     | VInt z => Ok (out ++ [fill_kvn (lit key) (show_Z z) []])
     | VNone => if String.eqb key "comment" || String.eqb key "user_defined"
                then Err TypeError else Ok out
     | VEnum c m s => if String.eqb key "comment" then Err TypeError
                      else Ok (out ++ [fill_kvn (lit key) s []])
     | VDec d => if String.eqb key "comment" then Err TypeError
                 else Ok (out ++ [fill_kvn (lit key) (show_dec d) []])
     | VObj c vars =>
       if String.eqb key "comment" then Err TypeError
       else if mem_string "units" (map fst vars) then
         do l <- value_obj_line key c vars; Ok (out ++ [l])
       else if String.eqb key "user_defined" then Err TypeError
       else if mem_string c special_output_data_classes then
         do ls <- special_data_lines key c vars out; Ok (out ++ ls)
       else
         do o <- collate_vars collate_sub vars out;
         Ok (close_section key vars o)
     | VList l =>
       if String.eqb key "comment" then
         do ls <- map_res (fun x => do s <- py_str x; Ok (fill_kvn (lit key) s [])) l;
         Ok (out ++ ls)
       else if String.eqb key "user_defined" then
         do ls <- map_res (user_defined_line key) l; Ok (out ++ ls)
       else
         let lhdr b := match l with
                       | VObj c _ :: _ => if mem_string c special_output_header_classes
                                          then [[]; special_header c b; []] else []
                       | _ => []
                       end in
         do o <- (fix items (l : list pyval) (out : list str) : res (list str) :=
                    match l with
                    | [] => Ok out
                    | VObj c vars :: r =>
                      do o <- (if mem_string c special_output_data_classes then
                                 do ls <- special_data_lines key c vars out; Ok (out ++ ls)
                               else
                                 do o <- collate_vars collate_sub vars out;
                                 Ok (close_section key vars o));
                      items r o
                    | _ :: _ => Err TypeError
                    end) l (out ++ lhdr true);
         Ok (o ++ lhdr false)
     end;
  Ok (out1 ++ hdr false).

(* ndm_kvn_io.py 231-266 NdmKvnIo.to_string.  ndm_obj.Meta: only schema objects have it.
   The root is collated with key "" (line 259), so no closing blank line is added; a root that
   is itself of a special data class has no id and fails before. *)
Definition kvn_to_string (v : pyval) : res str :=
  match v with
  | VObj c vars =>
    do mn <- guard_opt (meta_name c) AttributeError;
    do multi <- (if String.eqb mn "ndm" then is_multi_ndm v else Ok false);
    if multi then Err NotImplementedErr
    else
      do id <- py_getattr v "id";
      do ver <- py_getattr v "version";
      match id with
      | VStr ids => do vs <- py_str ver;
                    do out <- collate_vars collate_sub vars [fill_kvn ids vs []];
                    Ok (join [c_nl] out)
      | _ => Err AttributeError                  (* key.upper() *)
      end
  | _ => Err AttributeError
  end.
End Write.
