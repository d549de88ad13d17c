(** Vocabulary of the corner formulas: angles and circles, in coordinates. *)
From Coq Require Import Reals.
From Verif Require Import Py Vec Junction SpecJunction.
Open Scope R_scope.

(** The angle between the two moves at their corner: 0 for a reversal, PI/2 for
    a right angle, PI straight on. *)
Definition length3 (v : vec4) : R := sqrt (vx v * vx v + vy v * vy v + vz v * vz v).
Definition opening (a b : vec4) : R :=
  acos (- ((vx a * vx b + vy a * vy b + vz a * vz b) / (length3 a * length3 b))).
(** A circle of radius [r] that touches both sides of the angle [theta] passes
    the corner at the distance [delta]: its centre is r / sin(theta/2) away. *)
Definition rounds (theta delta r : R) : Prop := (r + delta) * sin (theta / 2) = r.
(** The largest number with a property. *)
Definition largest (P : R -> Prop) (v : R) : Prop := P v /\ forall w, P w -> w <= v.
(** From [B] the program does not travel on: all positions are the same, or the
    next other position differs in the filament only. *)
Definition no_exit (B : kstate) (rest : list kstate) : Prop :=
  Forall (fun s => k_pos s = k_pos B) rest \/ exists N, next_stop B rest N /\ length3 (travel B N) = 0.
(** One axis changes its velocity from [a] to [b] in a corner: by at most [j], or
    from at most [j] in one direction to at most [j] in the other. *)
Definition axis_ok (j a b : R) : Prop := Rabs (b - a) <= j \/ (a * b <= 0 /\ Rabs a <= j /\ Rabs b <= j).
