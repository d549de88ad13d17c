(** The reader on the numbers of CPython.  Every float in the code is an IEEE
    double and every operation is rounded to the nearest one, of two equally
    near ones to the even one.  Overflow, infinities and the sign of zero are
    left out: the exponent has no upper end. *)
From Coq Require Import Reals.
From Verif Require Import Py Vec StateGen Texts.
Open Scope R_scope.

(** The exponent of [x]: 2^k <= |x| < 2^(k+1). *)
Definition exponent (x : R) : Z := Int_part (ln (Rabs x) / ln 2).
(** The distance of the doubles around [x]. *)
Definition ulp (x : R) : R := powerRZ 2 (Z.max (-1074) (exponent x - 52)).
Definition binary64 (x : R) : R := IZR (round_half_even (x / ulp x)) * ulp x.

(** The operations of state_generator.py with rounded results: float(text)
    (state_generator.py:158), + and / *)
Definition Fops (rnd : R -> R) : numops :=
  {| num := R; n_of_dec := fun m e => rnd (r_of_dec m e); n_add := fun x y => rnd (x + y);
     n_div := fun x p => rnd (x / IZR (Zpos p)) |}.
(** The same setup; its numbers are floats already. *)
Definition float_setup (rnd : R -> R) (su : setup_values Rops) : setup_values (Fops rnd) :=
  Build_setup_values (Fops rnd) (s_p_vel Rops su) (s_p_acc Rops su) (s_jerk Rops su)
    (s_vX Rops su) (s_vY Rops su) (s_vZ Rops su) (s_vE Rops su)
    (s_X Rops su) (s_Y Rops su) (s_Z Rops su) (s_E Rops su) (s_layer_cue Rops su).
