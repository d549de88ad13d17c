(** Vocabulary of C112: the numbers that the doubles of the standard library
    (Coq.Floats.SpecFloat) stand for. *)
From Coq Require Import Reals ZArith SpecFloat.
From Verif Require Import SpecRounding Rounding.
Open Scope R_scope.

(** the value of a double; infinities and NaN have none *)
Definition fval (x : spec_float) : R :=
  match x with
  | S754_finite s m e => (if s then - IZR (Zpos m) else IZR (Zpos m)) * powerRZ 2 e
  | _ => 0
  end.
Definition finite (x : spec_float) : Prop :=
  match x with S754_infinity _ | S754_nan => False | _ => True end.
(** a finite double in its canonical form *)
Definition proper (x : spec_float) : Prop := finite x /\ valid_binary 53 1024 x = true.
(** [x] is a double and stands for [r] *)
Definition stands (x : spec_float) (r : R) : Prop := proper x /\ fval x = r.
(** the largest doubles are below this *)
Definition too_large : R := powerRZ 2 1024.
(** [x] is the double that IEEE 754 prescribes for the number [v]: the nearest
    one, or an infinity of its sign if that would be too large *)
Definition rounds (x : spec_float) (v : R) : Prop :=
  (Rabs (binary64 v) < too_large -> stands x (binary64 v)) /\
  (too_large <= binary64 v -> x = S754_infinity false) /\
  (binary64 v <= - too_large -> x = S754_infinity true).
