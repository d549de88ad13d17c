(** Vocabulary of C117: decimal numbers, what a text means, and rounding to
    decimals. *)
From Coq Require Import Reals ZArith SpecFloat List.
From Verif Require Import Py PyFloat Generic SpecIEEE.
Open Scope R_scope.

(** [r] can be written with at most [n] digits and a power of ten. *)
Definition few_digits (n : Z) (r : R) : Prop := exists d p : Z, (Z.abs d < 10 ^ n)%Z /\ r = IZR d * powerRZ 10 p.
(** float(text) *)
Definition read_float (t : str) : option spec_float := match py_float t with Some (Dec m e) => Some (k_dec Fk m e) | _ => None end.
(** the number that stands there, before it becomes a double *)
Definition text_means (t : str) (r : R) : Prop := exists m e, py_float t = Some (Dec m e) /\ r = IZR m * powerRZ 10 e.
(** [r] is [a] rounded to [n] decimals, halves to the even side. *)
Definition to_decimals (n : Z) (a r : R) : Prop := exists z, r = IZR z * powerRZ 10 (- n) /\
  Rabs (a - r) <= powerRZ 10 (- n) / 2 /\ (Rabs (a - r) = powerRZ 10 (- n) / 2 -> Z.even z = true).
(** * The form of the text *)
Definition digits_only (t : str) : Prop := t <> nil /\ forall c, In c t -> In c (S_ "0123456789").
Definition begins_with_0 (t : str) : Prop := exists t', t = "0"%char :: t'.
Definition ends_with_0 (t : str) : Prop := exists t', (t = t' ++ "0"%char :: nil)%list.
(** 12.5, 0.001, 3.0 *)
Definition plain_form (t : str) : Prop := exists a b, (t = a ++ "."%char :: b)%list /\ digits_only a /\ digits_only b /\
  (a = S_ "0" \/ ~ begins_with_0 a) /\ (b = S_ "0" \/ ~ ends_with_0 b).
(** 1e-05, 1.25e+16 *)
Definition power_form (t : str) : Prop := exists d b s e, (t = d :: b ++ "e"%char :: s :: e)%list /\ In d (S_ "123456789") /\
  (b = nil \/ exists f, b = "."%char :: f /\ digits_only f /\ ~ ends_with_0 f) /\
  (s = "+"%char \/ s = "-"%char) /\ digits_only e /\ (2 <= length e)%nat /\ ((2 < length e)%nat -> ~ begins_with_0 e).
