(* decimal.Decimal, int and the acceptance test of float(), on text.
   Decimals are concrete: sign, coefficient, exponent, and the specials.
   Simplification: the exponent limits of the C decimal module are not modelled. *)
From Coq Require Import NArith ZArith List Bool Decimal String.
From Coq Require DecimalN DecimalPos.
From Verif Require Import PyStr.
Import ListNotations.

Inductive dec :=
| DFin (neg : bool) (coef : N) (exp : Z)        (* (-1)^neg * coef * 10^exp *)
| DInf (neg : bool)
| DNaN (neg : bool) (signaling : bool) (payload : option N).

(* decimal digits of a natural number, most significant first ("0" for zero) *)
Fixpoint uint_chars (u : uint) : str :=
  match u with
  | Nil => []
  | D0 u => 48 :: uint_chars u | D1 u => 49 :: uint_chars u
  | D2 u => 50 :: uint_chars u | D3 u => 51 :: uint_chars u
  | D4 u => 52 :: uint_chars u | D5 u => 53 :: uint_chars u
  | D6 u => 54 :: uint_chars u | D7 u => 55 :: uint_chars u
  | D8 u => 56 :: uint_chars u | D9 u => 57 :: uint_chars u
  end%N.
Fixpoint chars_uint (s : str) : uint :=
  match s with
  | [] => Nil
  | c :: r =>
    let u := chars_uint r in
    match c with
    | 48 => D0 u | 49 => D1 u | 50 => D2 u | 51 => D3 u | 52 => D4 u
    | 53 => D5 u | 54 => D6 u | 55 => D7 u | 56 => D8 u | 57 => D9 u
    | _ => Nil
    end%N
  end.
Definition show_N (n : N) : str := uint_chars (N.to_uint n).
(* value of a string of ASCII digits *)
Definition read_N (s : str) : N := N.of_uint (chars_uint s).

(* str(int) *)
Definition show_Z (z : Z) : str :=
  match z with
  | Z0 => show_N 0
  | Zpos p => show_N (Npos p)
  | Zneg p => c_minus :: show_N (Npos p)
  end.

(* "%+d" % z *)
Definition show_Z_signed (z : Z) : str :=
  match z with
  | Zneg p => c_minus :: show_N (Npos p)
  | _ => 43%N :: show_Z z
  end.

(* str(Decimal): decimal.Decimal.__str__ (CPython Lib/_pydecimal.py), eng=False *)
Definition show_dec (d : dec) : str :=
  match d with
  | DInf n => (if n then [c_minus] else []) ++ lit "Infinity"
  | DNaN n s p =>
    (if n then [c_minus] else []) ++ (if s then lit "sNaN" else lit "NaN")
    ++ match p with None => [] | Some v => show_N v end
  | DFin n c e =>
    let digits := show_N c in
    let len := Z.of_nat (List.length digits) in
    let leftdigits := (e + len)%Z in
    let dotplace := if ((e <=? 0) && (-6 <? leftdigits))%Z%bool then leftdigits else 1%Z in
    let '(intpart, fracpart) :=
      if (dotplace <=? 0)%Z then
        ([48%N], 46%N :: repeat 48%N (Z.to_nat (- dotplace)) ++ digits)
      else if (len <=? dotplace)%Z then
        (digits ++ repeat 48%N (Z.to_nat (dotplace - len)), [])
      else
        (firstn (Z.to_nat dotplace) digits, 46%N :: skipn (Z.to_nat dotplace) digits) in
    let expo := if (leftdigits =? dotplace)%Z then []
                else 69%N :: show_Z_signed (leftdigits - dotplace) in
    (if n then [c_minus] else []) ++ intpart ++ fracpart ++ expo
  end.

(* longest prefix of ASCII digits and the rest *)
Fixpoint take_digits (s : str) : str * str :=
  match s with
  | c :: r => if is_digit c then let '(d, t) := take_digits r in (c :: d, t) else ([], s)
  | [] => ([], [])
  end.

Definition take_sign (s : str) : bool * str :=
  match s with
  | 45%N :: r => (true, r)
  | 43%N :: r => (false, r)
  | _ => (false, s)
  end.

Definition to_lower (s : str) : str := map lower_ascii s.

(* [eE][+-]?\d+ or nothing, to the end of the text *)
Definition parse_exp (s : str) : option Z :=
  match s with
  | [] => Some 0%Z
  | c :: r =>
    if N.eqb (lower_ascii c) 101 then
      let '(sg, r1) := take_sign r in
      let '(ds, r2) := take_digits r1 in
      match ds, r2 with
      | _ :: _, [] => Some (if sg then - Z.of_N (read_N ds) else Z.of_N (read_N ds))%Z
      | _, _ => None
      end
    else None
  end.

(* unsigned finite number: digits, optional fraction, optional exponent *)
Definition parse_fin (s : str) : option (N * Z) :=
  let '(ds1, r1) := take_digits s in
  let '(ds2, r2) := match r1 with 46%N :: r => take_digits r | _ => ([], r1) end in
  match ds1 ++ ds2 with
  | [] => None
  | ds => match parse_exp r2 with
          | Some e => Some (read_N ds, (e - Z.of_nat (List.length ds2))%Z)
          | None => None
          end
  end.

Definition all_digits (s : str) : bool := forallb is_digit s.

(* NaN payload: leading zeros dropped, empty means none *)
Definition parse_payload (s : str) : option (option N) :=
  if all_digits s then
    Some (match read_N s with N0 => None | n => Some n end)
  else None.

(* Decimal(text) on an ASCII-normalised text (see [py_decimal]); None = InvalidOperation *)
Definition parse_dec_ascii (s0 : str) : option dec :=
  let s := remove_char 95 (strip s0) in
  let '(sg, r) := take_sign s in
  let l := to_lower r in
  if str_eqb l (lit "inf") || str_eqb l (lit "infinity") then Some (DInf sg)
  else if startswith (lit "nan") l then option_map (DNaN sg false) (parse_payload (skipn 3 r))
  else if startswith (lit "snan") l then option_map (DNaN sg true) (parse_payload (skipn 4 r))
  else option_map (fun ce => DFin sg (fst ce) (snd ce)) (parse_fin r).

(* underscores allowed only between digits (int() and float() rule) *)
Fixpoint underscores_ok (prev_digit : bool) (s : str) : bool :=
  match s with
  | [] => true
  | c :: r => if N.eqb c 95 then
                prev_digit && match r with d :: _ => is_digit d | [] => false end
                && underscores_ok false r
              else underscores_ok (is_digit c) r
  end.

(* int(text) base 10, ASCII-normalised; None = ValueError *)
Definition parse_int_ascii (s0 : str) : option Z :=
  let s := strip s0 in
  let '(sg, r) := take_sign s in
  if underscores_ok false r then
    let d := remove_char 95 r in
    match d with
    | [] => None
    | _ => if all_digits d then
             Some (if sg then - Z.of_N (read_N d) else Z.of_N (read_N d))%Z
           else None
    end
  else None.

(* whether float(text) succeeds (else ValueError), ASCII-normalised *)
Definition float_ok_ascii (s0 : str) : bool :=
  let s := strip s0 in
  let '(_, r) := take_sign s in
  let l := to_lower r in
  if str_eqb l (lit "inf") || str_eqb l (lit "infinity") || str_eqb l (lit "nan") then true
  else underscores_ok false r
       && match parse_fin (remove_char 95 r) with Some _ => true | None => false end.

(* f"{d:f}" and back: the value read from the fixed-point text of a decimal *)
Definition fixed_point (d : dec) : dec :=
  match d with
  | DFin n c e => if (0 <? e)%Z then DFin n (c * Z.to_N (10 ^ e)) 0 else d
  | _ => d
  end.
