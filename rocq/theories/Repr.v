(** How Python writes a float: str(x), repr(x), f"{x}" and "%s" % x.  This is
    what the code relies on in abaqus_file_generator.py:66-69, tools.py:86-94 and
    its __str__ methods.  CPython: float_repr, PyOS_double_to_string with the
    format 'r' and Py_DTSF_ADD_DOT_0, format_float_short (Python/pystrtod.c), and
    _Py_dg_dtoa in mode 0 (Python/dtoa.c): the shortest digits that are read back
    as the same double, of these the nearest ones.  Also round(x, n) of a float
    (Objects/floatobject.c:double_round).  No proofs here. *)
From Coq Require Import ZArith SpecFloat List.
From Verif Require Import Py Generic.
Import ListNotations.
Open Scope Z_scope.

(** * The digits *)
(** Number of decimal digits of [n]; [fuel] is at least this number. *)
Fixpoint count_digits (fuel : nat) (n : Z) : Z :=
  match fuel with
  | O => 1
  | S f => if n <? 10 then 1 else 1 + count_digits f (n / 10)
  end.
Definition digit_number (n : Z) : Z := count_digits (Z.to_nat (Z.log2 n)) n.
(** The double [m * 2^e] as a fraction *)
Definition numer (m : positive) (e : Z) : Z := Zpos m * 2 ^ Z.max 0 e.
Definition denom (e : Z) : Z := 2 ^ Z.max 0 (- e).
(** [k] with [10^k <= a / b < 10^(k+1)] *)
Definition decimal_exponent (a b : Z) : Z :=
  if b <=? a then digit_number (a / b) - 1 else - digit_number ((b - 1) / a).
(** [a / b / 10^q] as a fraction *)
Definition scaled (a b q : Z) : Z * Z := if 0 <=? q then (a, b * 10 ^ q) else (a * 10 ^ (- q), b).
(** The two integers around it, the nearer one first, of two equally near ones
    the even one (dtoa.c: ROUND_BIASED is not defined) *)
Definition candidates (a b q : Z) : Z * Z :=
  let (n, d) := scaled a b q in
  let lo := n / d in
  let twice := 2 * (n mod d) in
  if (twice <? d) || ((twice =? d) && Z.even lo) then (lo, lo + 1) else (lo + 1, lo).
(** Whether [c * 10^q] is read as [m * 2^e] *)
Definition reads_as (m : positive) (e c q : Z) : bool :=
  match f_dec c q with
  | S754_finite false m' e' => (m' =? m)%positive && (e' =? e)
  | _ => false
  end.
(** The first number of digits, from [n] on, with which the double can be
    written: the integer of the digits and the power of ten behind it.  17 digits
    are always enough. *)
Fixpoint shortest (todo : nat) (m : positive) (e k n : Z) : Z * Z :=
  let q := k - n + 1 in
  let (c1, c2) := candidates (numer m e) (denom e) q in
  match todo with
  | O => (c1, q)
  | S r => if reads_as m e c1 q then (c1, q) else if reads_as m e c2 q then (c2, q) else shortest r m e k (n + 1)
  end.
(** _Py_dg_dtoa(x, 0): zeros at the end are left out, of which there is at most
    one (9.999... written with one digit). *)
Definition shortest_digits (m : positive) (e : Z) : Z * Z :=
  let (c, q) := shortest 16 m e (decimal_exponent (numer m e) (denom e)) 1 in
  if c =? 10 then (1, q + 1) else (c, q).

(** * The text *)
Definition digit_text (d : nat) : ascii := ascii_of_nat (48 + d).
Fixpoint digit_list (fuel : nat) (n : Z) (acc : list nat) : list nat :=
  match fuel with
  | O => acc
  | S f => if n <? 10 then Z.to_nat n :: acc else digit_list f (n / 10) (Z.to_nat (n mod 10) :: acc)
  end.
Definition zeros (n : Z) : list nat := repeat 0%nat (Z.to_nat n).
Definition text_of (ds : list nat) : str := map digit_text ds.
(** "%+.02d" *)
Definition exponent_text (x : Z) : str :=
  (if x <? 0 then S_ "-" else S_ "+") ++
  (let ds := digit_list 4 (Z.abs x) [] in text_of (match ds with [d] => [0%nat; d] | _ => ds end)).
(** pystrtod.c:format_float_short: the digits [ds] with the decimal point in
    front of the digit number [decpt] *)
Definition format_short (ds : list nat) (decpt : Z) : str :=
  if (decpt <=? -4) || (16 <? decpt) then
    match ds with
    | [] => []
    | d :: r => digit_text d :: (match r with [] => [] | _ => "."%char :: text_of r end) ++ S_ "e" ++ exponent_text (decpt - 1)
    end
  else if decpt <=? 0 then S_ "0." ++ text_of (zeros (- decpt) ++ ds)
  else if decpt <? Z.of_nat (length ds) then text_of (firstn (Z.to_nat decpt) ds) ++ "."%char :: text_of (skipn (Z.to_nat decpt) ds)
  else text_of (ds ++ zeros (decpt - Z.of_nat (length ds))) ++ S_ ".0".
Definition py_repr (x : spec_float) : str :=
  match x with
  | S754_zero s => (if s then S_ "-" else []) ++ S_ "0.0"
  | S754_infinity s => (if s then S_ "-" else []) ++ S_ "inf"
  | S754_nan => S_ "nan"
  | S754_finite s m e =>
    let (c, q) := shortest_digits m e in
    let ds := digit_list 18 c [] in
    (if s then S_ "-" else []) ++ format_short ds (q + Z.of_nat (length ds))
  end.

(** * round(x, n) for n > 0 *)
(** floatobject.c:double_round: the exact value rounded to [n] decimals, of two
    equally near ones the even one (_Py_dg_dtoa in mode 3), read again
    (_Py_dg_strtod).  Left out: x is returned unchanged if it has no more decimals
    (ndigits > NDIGITS_MAX), which gives the same number. *)
Definition py_round (n : positive) (x : spec_float) : spec_float :=
  match x with
  | S754_finite s m e =>
    let c := fst (candidates (numer m e) (denom e) (- Zpos n)) in
    match f_dec c (- Zpos n) with
    | S754_zero _ => S754_zero s
    | y => if s then SFopp y else y
    end
  | _ => x
  end.
