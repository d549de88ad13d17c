(** Vocabulary of C115: the answers to queries computed with doubles beside the
    uniformly accelerated motion that the doubles of the segments describe. *)
From Coq Require Import Reals SpecFloat List.
From Verif Require Import Py Vec Segment Junction Planner Rounding Generic SpecGeneric SpecKin SpecQuery SpecIEEE SpecBridge GenericQuery.
Open Scope R_scope.

Definition num_vec (v : gvec Fk) : vec4 := V4 (fval (gx Fk v)) (fval (gy Fk v)) (fval (gz Fk v)) (fval (ge Fk v)).
Definition num_seg (s : gsegment Fk) : segment :=
  Seg (fval (gt_begin Fk s)) (fval (gt_end Fk s)) (num_vec (gpos_begin Fk s)) (num_vec (gpos_end Fk s)) (num_vec (gvel_begin Fk s)) (num_vec (gvel_end Fk s)).

(** One axis of a velocity and a position that moved for [dt] from [p0] with a
    velocity from [v0] to [v1]: right to a few roundings. *)
Definition axis_right (p v pf vf v0 v1 dt : R) : Prop :=
  Rabs (vf - v) <= 10 * uu * (Rabs v0 + Rabs v1) + tiny /\
  Rabs (pf - p) <= uu * Rabs p + 16 * uu * (Rabs v0 + Rabs v1) * dt + tiny.
(** [vf], [pf] are, on all four axes, what the segment does at the time [t]. *)
Definition answer_right (s : segment) (t : R) (vf pf : vec4) : Prop :=
  exists v p, moves_through s t v p /\
    axis_right (vx p) (vx v) (vx pf) (vx vf) (vx (vel_begin s)) (vx (vel_end s)) (t - t_begin s) /\
    axis_right (vy p) (vy v) (vy pf) (vy vf) (vy (vel_begin s)) (vy (vel_end s)) (t - t_begin s) /\
    axis_right (vz p) (vz v) (vz pf) (vz vf) (vz (vel_begin s)) (vz (vel_end s)) (t - t_begin s) /\
    axis_right (ve p) (ve v) (ve pf) (ve vf) (ve (vel_begin s)) (ve (vel_end s)) (t - t_begin s).
(** Lasting no time, or at least 10^-50 s *)
Definition lasting (s : segment) : Prop := t_end s <= t_begin s \/ t_begin s + / 10 ^ 50 <= t_end s.
(** Lasting no time, or not over within the first 10^-27 s of the print *)
Definition late (s : segment) : Prop := t_end s <= t_begin s \/ / 10 ^ 27 <= t_end s.
(** All numbers of the segment are at most 2^100. *)
Definition moderate_vec (v : vec4) : Prop := Forall (fun x => Rabs x <= 2 ^ 100) (vx v :: vy v :: vz v :: ve v :: nil).
Definition moderate_seg (s : segment) : Prop :=
  Rabs (t_begin s) <= 2 ^ 100 /\ Rabs (t_end s) <= 2 ^ 100 /\
  moderate_vec (pos_begin s) /\ moderate_vec (vel_begin s) /\ moderate_vec (vel_end s).
(** No segment ends before the one in front of it. *)
Definition ends_in_order (path : list segment) : Prop := joined (fun s n => t_end s <= t_end n) path.
(** A vector in millimetres and, to a few roundings, the same vector in the
    unit system [u]. *)
Definition near_unit (u : str) (mm v : vec4) : Prop := exists k, unit_length u k /\
  let near a b := Rabs (b - a / k) <= 4 * uu * Rabs (a / k) + tiny in
  near (vx mm) (vx v) /\ near (vy mm) (vy v) /\ near (vz mm) (vz v) /\ near (ve mm) (ve v).
(** The answer in the unit system [u], in doubles *)
Definition answers_in (u : str) (s : segment) (t : R) (v p : gvec Fk) : Prop :=
  proper_vec v /\ proper_vec p /\ exists v' p', answer_right s t v' p' /\ near_unit u v' (num_vec v) /\ near_unit u p' (num_vec p).
