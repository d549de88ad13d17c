(** float(str): Python's float literal grammar, on 8-bit strings.
    CPython: PyFloat_FromString strips white space, removes single underscores
    between digits, accepts [+-] (inf|infinity|nan | digits[.digits][e[+-]digits]),
    case-insensitively.  The value is kept as an exact decimal m * 10^e; the
    rounding to binary64 is not modelled. *)
From Verif Require Import Py.
Open Scope nat_scope.

(** A parsed float: a decimal [m * 10^e] or a non-finite value. *)
Inductive pyfloat : Type :=
| Dec (m e : Z)
| NonFinite.

Definition digit_val (c : ascii) : option Z :=
  let n := nat_of_ascii c in
  if (48 <=? n) && (n <=? 57) then Some (Z.of_nat (n - 48)) else None.

Definition is_digit (c : ascii) : bool :=
  match digit_val c with Some _ => true | None => false end.

(** Longest run of digits, single underscores allowed between two digits:
    accumulated value, number of digits read, and what is left. *)
Fixpoint digits (acc : Z) (n : nat) (s : str) : Z * nat * str :=
  match s with
  | c :: s' =>
    match digit_val c with
    | Some d => digits (acc * 10 + d)%Z (S n) s'
    | None =>
      if aeqb c "_"%char && (0 <? n) then
        match s' with
        | c' :: s'' =>
          match digit_val c' with
          | Some d => digits (acc * 10 + d)%Z (S n) s''
          | None => (acc, n, s)
          end
        | [] => (acc, n, s)
        end
      else (acc, n, s)
    end
  | [] => (acc, n, s)
  end.

Definition lower (c : ascii) : ascii :=
  let n := nat_of_ascii c in
  if (65 <=? n) && (n <=? 90) then ascii_of_nat (n + 32) else c.

Definition sign_of (s : str) : Z * str :=
  match s with
  | c :: s' => if aeqb c "-"%char then ((-1)%Z, s')
               else if aeqb c "+"%char then (1%Z, s') else (1%Z, s)
  | [] => (1%Z, s)
  end.

(** Optional exponent part: nothing, or e/E, optional sign, at least one digit,
    then the end of the string. *)
Definition exponent (s : str) : option Z :=
  match s with
  | [] => Some 0%Z
  | c :: s' =>
    if aeqb (lower c) "e"%char then
      let '(sg, s1) := sign_of s' in
      let '(v, n, s2) := digits 0 0 s1 in
      if (0 <? n) then match s2 with [] => Some (sg * v)%Z | _ => None end else None
    else None
  end.

Definition unsigned (s : str) : option pyfloat :=
  let low := map lower s in
  if str_eqb low (S_ "inf") || str_eqb low (S_ "infinity") || str_eqb low (S_ "nan") then Some NonFinite
  else
    let '(ip, ni, s1) := digits 0 0 s in
    match s1 with
    | c :: s2 =>
      if aeqb c "."%char then
        let '(fp, nf, s3) := digits ip 0 s2 in
        if (0 <? ni + nf) then
          match exponent s3 with
          | Some e => Some (Dec fp (e - Z.of_nat nf))
          | None => None
          end
        else None
      else if (0 <? ni) then
        match exponent s1 with Some e => Some (Dec ip e) | None => None end
      else None
    | [] => if (0 <? ni) then Some (Dec ip 0) else None
    end.

(** float(s); [None] is ValueError. *)
Definition py_float (s : str) : option pyfloat :=
  let '(sg, s1) := sign_of (strip s) in
  match unsigned s1 with
  | Some (Dec m e) => Some (Dec (sg * m) e)
  | r => r
  end.
