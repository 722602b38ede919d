(* Segment identification: ndm_kvn_io.py 573-783, 1068-1159, 1197-1219, 1246-1341. *)
From Coq Require Import NArith List Bool String Arith.
From Verif Require Import PyStr PyDec PyVal Schema KvnPre KvnTree.
Import ListNotations.

(* list.sort() on integers *)
Fixpoint insert_nat (x : nat) (l : list nat) : list nat :=
  match l with
  | [] => [x]
  | y :: r => if Nat.leb x y then x :: l else y :: insert_nat x r
  end.
Fixpoint sort_nat (l : list nat) : list nat :=
  match l with [] => [] | x :: r => insert_nat x (sort_nat r) end.

Definition mem_nat (x : nat) (l : list nat) : bool := existsb (Nat.eqb x) l.

Definition list_max (l : list nat) : nat := fold_right Nat.max 0 l.
Definition list_min (l : list nat) : nat :=
  match l with [] => 0 | x :: r => fold_right Nat.min x r end.

Fixpoint has_dup (l : list str) : bool :=
  match l with [] => false | x :: r => mem_str x r || has_dup r end.

(* ndm_kvn_io.py 1292-1299: first index of every tag but COMMENT, from start_index on *)
Definition index_list0 (tags : list str) (start : nat) (keys : list str) : list nat :=
  filter_map (fun t => index_start t keys start)
             (filter (fun t => negb (str_eqb t kw_comment)) tags).

(* ndm_kvn_io.py 1266-1273: indices of COMMENT in keys[start:stop] *)
Definition comment_indexes (keys : list str) (start stop : nat) : list nat :=
  filter (fun i => match nth_error keys i with
                   | Some k => str_eqb k kw_comment
                   | None => false
                   end) (seq start (Nat.min stop (List.length keys) - start)).

(* ndm_kvn_io.py 1246-1274 __process_comment_lines: the extended index list *)
Definition process_comment_lines (tags : list str) (start : nat) (keys : list str)
           (il : list nat) : res (list nat) :=
  if mem_str kw_comment tags then
    if Nat.eqb (List.length tags) 1 then
      do k <- get keys start;
      Ok (if str_eqb k kw_comment then il ++ [start] else il)
    else match il with
         | [] => Ok il
         | _ => Ok (il ++ comment_indexes keys start (list_max il + 1))
         end
  else Ok il.

(* ndm_kvn_io.py 1324-1328: keep n = index_list[i] where it equals ideal_list[i];
   ideal_list is lo..hi, so ideal_list[i] = lo+i, IndexError past hi *)
Fixpoint chop (ideal hi : nat) (l : list nat) : res (list nat) :=
  match l with
  | [] => Ok []
  | n :: r => if Nat.ltb hi ideal then Err IndexError
              else do r' <- chop (S ideal) hi r;
                   Ok (if Nat.eqb n ideal then n :: r' else r')
  end.

(* ndm_kvn_io.py 1277-1289: prefix handling; the tag list itself is extended in place *)
Definition extend_tags (tags : list str) (start : nat) (keys : list str)
           (prefix : option str) : list str :=
  match prefix with
  | Some p => tags ++ filter (startswith p) (skipn start keys)
  | None => tags
  end.

(* ndm_kvn_io.py 1304-1341, on the index list *)
Definition range_of_indices (il0 : list nat) (start : nat) (keys : list str)
           (single : bool) : res (nat * nat) :=
  do il <- match il0 with
           | [] => Ok []
           | _ =>
             let il := sort_nat il0 in
             let lo := list_min il in
             let hi := list_max il in
             let diff := filter (fun n => negb (mem_nat n il)) (seq lo (hi + 1 - lo)) in
             match diff with
             | [] => Ok il
             | _ =>
               do dkeys <- map_res (get keys) diff;
               if existsb (mem_char c_sp) dkeys || has_dup dkeys
               then chop lo hi il
               else Ok il
             end
           end;
  match il with
  | [] => Ok (start, start)
  | _ => let lo := list_min il in
         Ok (lo, if single then lo + 1 else list_max il + 1)
  end.

(* ndm_kvn_io.py 1277-1341 _get_min_max_indices: range and extended tags *)
Definition get_min_max (tags0 : list str) (start : nat) (keys : list str)
           (prefix : option str) (single : bool) : res ((nat * nat) * list str) :=
  let tags := extend_tags tags0 start keys prefix in
  do il <- process_comment_lines tags start keys (index_list0 tags start keys);
  do mm <- range_of_indices il start keys single;
  Ok (mm, tags).

Section Seg.
Variable u : env.

(* ndm_kvn_io.py 1103-1108 / 1117-1122: datestr[:4].isnumeric() and datestr[4] == "-" *)
Definition is_datestr (d : str) : res bool :=
  if isnumeric u (firstn 4 d) then
    do c <- get d 4; Ok (N.eqb c c_minus)
  else Ok false.

(* ndm_kvn_io.py 1094-1124: [col] is 0 for OEM/AEM data lines and 1 for TDM lines *)
Definition date_range (lines : list line) (init col : nat) : res (nat * nat) :=
  do l <- get lines init;
  do s <- get l col;
  do d <- get (split_ws s) 0;
  do b <- is_datestr d;
  Ok (init, if b then init + 1 else init).

(* ndm_kvn_io.py 1142-1149: number of consecutive lines whose first token is a float *)
Fixpoint count_floats (ls : list line) : nat :=
  match ls with
  | [] => 0
  | l :: r => match l with
              | k :: _ => match split_ws k with
                          | t :: _ => if float_ok u t then S (count_floats r) else 0
                          | [] => 0
                          end
              | [] => 0
              end
  end.

(* ndm_kvn_io.py 90-95, 617-638 and 1068-1159: limits of the element itself.
   Returns the limits and the element with its (possibly extended) keyword list. *)
Definition own_range (e : elem) (keys : list str) (lines : list line) (init : nat)
  : res ((nat * nat) * elem) :=
  let prefix := if String.eqb (e_cls e) "UserDefinedType"
                then Some (lit "USER_DEFINED") else None in
  let single := match e_single e with Some _ => true | None => false end in
  if String.eqb (e_cls e) "StateVectorAccType" || String.eqb (e_cls e) "AttitudeStateType" then
    do mm <- date_range lines init 0; Ok (mm, e)
  else if String.eqb (e_cls e) "TrackingDataObservationType" then
    do mm <- date_range lines init 1; Ok (mm, e)
  else if String.eqb (e_cls e) "OemCovarianceMatrixType" then
    do r <- get_min_max (e_kws e) init keys prefix single;
    let '((lo, hi), tags) := r in
    let mm := if Nat.eqb lo hi then (init, init)
              else (lo, hi + count_floats (skipn hi lines)) in
    Ok (mm, set_kws e tags)
  else
    do r <- get_min_max (e_kws e) init keys prefix single;
    let '(mm, tags) := r in
    Ok (mm, set_kws e tags).

(* outcome of identifying an element: next index, own limits, the element with its
   subclass list replaced (its own min_max is set by the caller, as in the code) *)
Definition ident := (nat * (nat * nat) * elem)%type.

(* ndm_kvn_io.py 742-783 __identify_list.  [one] identifies a clean element from an index.
   Lines 751-754 start each round from a fresh extraction of the class or a deep copy;
   both equal the (never modified) [sub] itself - see KvnTree - so [one] is closed over it.
   Returns the final index and the accepted elements. *)
Fixpoint identify_list (one : nat -> res ident) (nlines fuel init last : nat)
  : res (nat * list elem) :=
  match fuel with
  | O => Err OutOfFuel
  | S n =>
    do r <- one init;
    let '(mx, (lo, hi), e) := r in
    if Nat.eqb mx lo && Nat.eqb lo hi then Ok (mx, [])
    else if Nat.ltb last lo then Ok (last, [])
    else
      let e' := set_mm e (lo, hi) in
      if Nat.leb nlines mx then Ok (mx, [e'])
      else do r' <- identify_list one nlines n mx mx;
           let '(mx', es) := r' in Ok (mx', e' :: es)
  end.

(* ndm_kvn_io.py 591-717 __identify_sub_segments with __identify_sub_sub_segments inlined.
   [go] is the loop over expected_types; it returns the final index and the generated
   subclasses.  The retry (lines 700-709) concerns an element without subclasses, for which
   __identify_sub_segments is just [own_range]. *)
Fixpoint identify (e : elem) (keys : list str) (lines : list line) (init : nat) {struct e}
  : res ident :=
  match e with
  | Elem nm cl subs kws il sg mm0 tm =>
    do r <- own_range (Elem nm cl subs kws il sg mm0 tm) keys lines init;
    let '(mm, e1) := r in
    match subs with
    | [] => Ok (snd mm, mm, e1)
    | _ :: _ =>
      do g <- (fix go (ss : list elem) (idx : nat) {struct ss} : res (nat * list elem) :=
                 match ss with
                 | [] => Ok (idx, [])
                 | s :: rest =>
                   if e_islist s then
                     do li <- identify_list (identify s keys lines) (List.length lines)
                                            (S (List.length keys)) idx idx;
                     let '(idx', es) := li in
                     do g <- go rest idx';
                     let '(idx'', gs) := g in Ok (idx'', es ++ gs)
                   else
                     do si <- identify s keys lines idx;
                     let '(idx', smm, s') := si in
                     do s'' <-
                        (if Nat.eqb (fst smm) (snd smm)
                            && match e_subs s' with [] => true | _ => false end
                         then do r2 <- own_range s' keys lines (fst mm);
                              Ok (set_mm (snd r2) (fst r2))
                         else Ok (set_mm s' smm));
                     do g <- go rest idx';
                     let '(idx'', gs) := g in Ok (idx'', s'' :: gs)
                 end) subs (snd mm);
      let '(mx, gs) := g in
      Ok (mx, mm, set_subs e1 gs)
    end
  end.

(* ndm_kvn_io.py 573-589 _identify_segments *)
Definition identify_segments (tree : elem) (lines : list line) : res elem :=
  do r <- identify tree (keys_of lines) lines 0;
  let '(_, mm, e) := r in Ok (set_mm e mm).
End Seg.
