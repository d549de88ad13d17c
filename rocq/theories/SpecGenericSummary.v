(** Vocabulary of C121: the extent and the greatest velocity computed with doubles. *)
From Coq Require Import Reals SpecFloat List.
From Verif Require Import Py Vec Segment Junction Planner Generic SpecGeneric SpecIEEE SpecBridge SpecGenericQuery.
Open Scope R_scope.

(** [m] is the least, or the greatest, of the numbers that satisfy [P]. *)
Definition least (P : R -> Prop) (m : R) : Prop := P m /\ forall y, P y -> m <= y.
Definition greatest (P : R -> Prop) (m : R) : Prop := P m /\ forall y, P y -> y <= m.
(** [x] is [m] in a unit of length [k], to four roundings. *)
Definition in_unit (k : R) (x : spec_float) (m : R) : Prop := proper x /\ Rabs (fval x - m / k) <= 4 * uu * Rabs (m / k) + tiny.
(** A begin or an end of a block that extrudes, seen along an axis *)
Definition corner (bl : list (gblock Fk)) (axis : vec4 -> R) (c : R) : Prop :=
  exists b, In b bl /\ gb_extr Fk b = true /\ (c = axis (num_vec (gk_pos Fk (gb_A Fk b))) \/ c = axis (num_vec (gk_pos Fk (gb_B Fk b)))).
(** How fast an axis is at a begin or an end of a segment of the block *)
Definition speed_along (b : gblock Fk) (axis : vec4 -> R) (v : R) : Prop :=
  exists s, In s (gb_segs Fk b) /\ (v = Rabs (axis (num_vec (gvel_begin Fk s))) \/ v = Rabs (axis (num_vec (gvel_end Fk s)))).
(** The greatest speeds of the axes of an extruding block, taken together *)
Definition block_speed (bl : list (gblock Fk)) (v : R) : Prop :=
  exists b x y z, In b bl /\ gb_extr Fk b = true /\ greatest (speed_along b vx) x /\ greatest (speed_along b vy) y /\ greatest (speed_along b vz) z /\ v = norm3 (V4 x y z 0).
(** Positions and velocities are finite and at most 2^100; blocks have segments. *)
Definition plain_vec (v : gvec Fk) : Prop := proper_vec v /\ moderate_vec (num_vec v).
Definition plain_block (b : gblock Fk) : Prop :=
  plain_vec (gk_pos Fk (gb_A Fk b)) /\ plain_vec (gk_pos Fk (gb_B Fk b)) /\ gb_segs Fk b <> nil /\
  Forall (fun s => plain_vec (gvel_begin Fk s) /\ plain_vec (gvel_end Fk s)) (gb_segs Fk b).
