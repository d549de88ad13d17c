(** Vocabulary of C119: the layer metrics computed with doubles beside the exact
    ones of the same trajectory. *)
From Coq Require Import Reals SpecFloat List.
From Verif Require Import Py Vec Segment Junction Planner Tools Generic SpecGeneric SpecIEEE SpecBridge SpecGenericQuery GenericMetrics.
Open Scope R_scope.

(** The trajectory that the doubles describe *)
Definition num_state (s : gkstate Fk) : kstate :=
  KState (num_vec (gk_pos Fk s)) (fval (gk_speed Fk s)) (fval (gk_acc Fk s)) (fval (gk_jerk Fk s)) (option_map fval (gk_pause Fk s)) (gk_layer Fk s).
Definition num_block (b : gblock Fk) : block :=
  Block (num_state (gb_A Fk b)) (num_state (gb_B Fk b)) (option_map num_vec (gb_dir Fk b)) (map num_seg (gb_segs Fk b)) (gb_type Fk b) (gb_extr Fk b) (num_vec (gb_JD Fk b)).
(** A time at the very start, or not within the first 10^-27 s *)
Definition clock (t : spec_float) : Prop := proper t /\ (fval t = 0 \/ / 10 ^ 27 <= fval t <= 2 ^ 100).
Definition not_early (t : spec_float) : Prop := fval t = 0 \/ / 10 ^ 27 <= fval t.
Definition place (v : gvec Fk) : Prop := proper_vec v /\ moderate_vec (num_vec v).
(** A block in some layer, with segments, whose numbers are finite and at most 2^100 *)
Definition measurable (b : gblock Fk) : Prop :=
  gk_layer Fk (gb_B Fk b) <> None /\ gb_segs Fk b <> nil /\ Forall (fun s => clock (gt_begin Fk s) /\ clock (gt_end Fk s)) (gb_segs Fk b) /\
  place (gk_pos Fk (gb_A Fk b)) /\ place (gk_pos Fk (gb_B Fk b)).
(** A row of [n] blocks or fewer: the duration to a rounding, the travel to two
    roundings for each block and seven for the lengths of the moves, the speed
    to a rounding of the quotient of the two numbers in the row. *)
Definition row_near (n : nat) (r : glayer_row Fk) (x : layer_row) : Prop :=
  grow_layer Fk r = row_layer x /\
  proper (grow_duration Fk r) /\ Rabs (fval (grow_duration Fk r) - row_duration x) <= uu * Rabs (row_duration x) /\
  proper (grow_travel Fk r) /\ Rabs (fval (grow_travel Fk r) - row_travel x) <= (2 * INR n + 7) * uu * row_travel x + INR n * tiny /\
  match grow_speed Fk r, row_speed x with
  | None, None => True
  | Some v, Some _ => proper v /\ let q := fval (grow_travel Fk r) / fval (grow_duration Fk r) in Rabs (fval v - q) <= uu * Rabs q + tiny
  | _, _ => False
  end.
(** When a block begins and ends *)
Definition begin_of (b : gblock Fk) : R := match gb_segs Fk b with nil => 0 | cons s _ => fval (gt_begin Fk s) end.
Definition end_of (b : gblock Fk) : R := match rev (gb_segs Fk b) with nil => 0 | cons s _ => fval (gt_end Fk s) end.
(** The last block is in a layer that an earlier block is in, or is left behind by one. *)
Definition last_in_old_layer (pre : list (gblock Fk)) (b : gblock Fk) : Prop :=
  forall n, gk_layer Fk (gb_B Fk b) = Some n -> (0 < n)%nat -> exists a m, In a pre /\ gk_layer Fk (gb_B Fk a) = Some m /\ (n <= m)%nat.
