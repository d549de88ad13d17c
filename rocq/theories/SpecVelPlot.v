(** Vocabulary of the velocity plot. *)
From Coq Require Import Reals ZArith.
From Verif Require Import Py Vec Segment Junction Planner SpecKin SpecJunction SpecQuery PlotVel.
Open Scope R_scope.

(** The axes by name. *)
Inductive names_axis : str -> (vec4 -> R) -> Prop :=
| na_x : names_axis (S_ "x") vx | na_y : names_axis (S_ "y") vy
| na_z : names_axis (S_ "z") vz | na_e : names_axis (S_ "e") ve.
Definition an_axis (ax : str) : Prop := exists f, names_axis ax f.
(** The times asked for: 0 and the ends of all segments, or so many evenly
    spaced times, the first at 0, the end of the print left out. *)
Inductive times_asked (bl : list block) (T : R) : steps_arg -> list R -> Prop :=
| ta_segments : times_asked bl T (StepName (S_ "constrained")) (0 :: map t_end (unpack_blocklist bl))
| ta_steps n : times_asked bl T (StepCount (Z.of_nat n)) (map (fun i => INR i * T / INR n) (seq 0 n)).
(** Block [b] ends at time [t]. *)
Definition block_end (b : block) (t : R) : Prop := exists pre l, b_segs b = pre ++ [l] /\ t = t_end l.
(** The velocity with which the firmware allows the nozzle to leave the step
    from [A] to [B]: the corner speed along the move, nothing after a pause. *)
Definition leaving_velocity (fw : firmware) (i : item) (v : vec4) : Prop :=
  let '(A, B, rest) := i in
  (k_pause B <> None /\ v = vzero) \/
  (k_pause B = None /\ exists d, direction A B d /\ v = vscale (corner_speed fw A B rest) d).
(** Its speed. *)
Definition leaving_speed (fw : firmware) (i : item) (y : R) : Prop :=
  let '(A, B, rest) := i in
  (k_pause B <> None /\ y = 0) \/ (k_pause B = None /\ y = corner_speed fw A B rest).
