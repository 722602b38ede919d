(* Python built-in [str], as used by the library (CPython 3 semantics).
   A string is the list of its code points. *)
From Coq Require Import NArith List Bool Arith Ascii String.
Import ListNotations.

Definition str := list N.

(* a python string literal (ASCII) *)
Fixpoint lit (s : string) : str :=
  match s with
  | EmptyString => []
  | String a r => N_of_ascii a :: lit r
  end.

Definition str_eqb (a b : str) : bool := if list_eq_dec N.eq_dec a b then true else false.

Lemma str_eqb_eq a b : str_eqb a b = true <-> a = b.
Proof. unfold str_eqb; destruct (list_eq_dec N.eq_dec a b); split; congruence. Qed.

Lemma str_eqb_neq a b : str_eqb a b = false <-> a <> b.
Proof. unfold str_eqb; destruct (list_eq_dec N.eq_dec a b); split; congruence. Qed.

Lemma str_eqb_refl a : str_eqb a a = true.
Proof. apply str_eqb_eq; reflexivity. Qed.

Definition in_range (lo hi c : N) : bool := (N.leb lo c && N.leb c hi)%bool.

(* [c.isspace()]: the exact set of Unicode code points python strips and splits on *)
Definition is_ws (c : N) : bool :=
  in_range 9 13 c || in_range 28 32 c || N.eqb c 133 || N.eqb c 160 || N.eqb c 5760
  || in_range 8192 8202 c || N.eqb c 8232 || N.eqb c 8233 || N.eqb c 8239
  || N.eqb c 8287 || N.eqb c 12288.

Definition c_nl : N := 10.
Definition c_sp : N := 32.
Definition c_eq : N := 61.
Definition c_lbr : N := 91.
Definition c_rbr : N := 93.
Definition c_minus : N := 45.

(* str.lstrip(), str.rstrip(), str.strip() without argument *)
Fixpoint lstrip (s : str) : str :=
  match s with
  | [] => []
  | c :: r => if is_ws c then lstrip r else s
  end.
(* structurally: drop the white space suffix *)
Fixpoint rstrip (s : str) : str :=
  match s with
  | [] => []
  | c :: r => match rstrip r with
              | [] => if is_ws c then [] else [c]
              | r' => c :: r'
              end
  end.
Definition strip (s : str) : str := rstrip (lstrip s).

(* str.startswith(p), str.endswith(p) *)
Fixpoint startswith (p s : str) : bool :=
  match p, s with
  | [], _ => true
  | a :: p', b :: s' => N.eqb a b && startswith p' s'
  | _, [] => false
  end.
Definition endswith (p s : str) : bool := startswith (rev p) (rev s).

(* str.split(sep) for a one-character separator: never empty *)
Fixpoint split_on (sep : N) (s : str) : list str :=
  match s with
  | [] => [[]]
  | c :: r => if N.eqb c sep then [] :: split_on sep r
              else match split_on sep r with
                   | [] => [[c]]
                   | h :: t => (c :: h) :: t
                   end
  end.

(* str.split(sep, maxsplit=1) for a one-character separator *)
Fixpoint split_once (sep : N) (s : str) : list str :=
  match s with
  | [] => [[]]
  | c :: r => if N.eqb c sep then [[]; r]
              else match split_once sep r with
                   | [] => [[c]]
                   | h :: t => (c :: h) :: t
                   end
  end.

(* str.split() without argument: maximal runs of non white space *)
Fixpoint split_ws_aux (cur : str) (s : str) : list str :=
  match s with
  | [] => match cur with [] => [] | _ => [rev cur] end
  | c :: r => if is_ws c
              then match cur with
                   | [] => split_ws_aux [] r
                   | _ => rev cur :: split_ws_aux [] r
                   end
              else split_ws_aux (c :: cur) r
  end.
Definition split_ws (s : str) : list str := split_ws_aux [] s.

(* str.find(c) for one character; None for -1 *)
Fixpoint find_char (c : N) (s : str) : option nat :=
  match s with
  | [] => None
  | a :: r => if N.eqb a c then Some 0 else option_map S (find_char c r)
  end.

(* s.replace(c, "") for one character *)
Definition remove_char (c : N) (s : str) : str := filter (fun a => negb (N.eqb a c)) s.

(* s.replace(p, "") for a non-empty pattern: left to right, non overlapping.
   [skip] counts the remaining characters of a match being removed. *)
Fixpoint remove_sub_aux (p : str) (skip : nat) (s : str) : str :=
  match s with
  | [] => []
  | c :: r => match skip with
              | S k => remove_sub_aux p k r
              | O => if startswith p s then remove_sub_aux p (List.length p - 1) r
                     else c :: remove_sub_aux p 0 r
              end
  end.
Definition remove_sub (p s : str) : str := remove_sub_aux p 0 s.

(* sep.join(l) *)
Fixpoint join (sep : str) (l : list str) : str :=
  match l with
  | [] => []
  | [x] => x
  | x :: r => x ++ sep ++ join sep r
  end.

(* format spec  :<n  (pad on the right with spaces to width n) *)
Definition ljust (n : nat) (s : str) : str := s ++ repeat c_sp (n - List.length s).

(* python list/str membership *)
Definition mem_str (x : str) (l : list str) : bool := existsb (str_eqb x) l.
Definition mem_char (c : N) (s : str) : bool := existsb (N.eqb c) s.

(* list.index(x, start); None for ValueError.  start may exceed the length. *)
Fixpoint index_from (x : str) (i : nat) (l : list str) : option nat :=
  match l with
  | [] => None
  | a :: r => if str_eqb a x then Some i else index_from x (S i) r
  end.
Definition index_start (x : str) (l : list str) (start : nat) : option nat :=
  index_from x start (skipn start l).

(* slice l[a:b] with 0 <= a, b *)
Definition slice {A} (a b : nat) (l : list A) : list A := firstn (b - a) (skipn a l).

(* ASCII parts of unicode predicates *)
Definition is_digit (c : N) : bool := in_range 48 57 c.
Definition is_lower_ascii (c : N) : bool := in_range 97 122 c.
Definition is_upper_ascii (c : N) : bool := in_range 65 90 c.
Definition upper_ascii (c : N) : N := if is_lower_ascii c then N.sub c 32 else c.
Definition lower_ascii (c : N) : N := if is_upper_ascii c then N.add c 32 else c.

(* str.isupper() for ASCII strings (only applied to schema keywords):
   at least one cased character and no lower-case one *)
Definition isupper (s : str) : bool :=
  existsb is_upper_ascii s && negb (existsb is_lower_ascii s).
