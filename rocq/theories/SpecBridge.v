(** Plans computed with the doubles of the standard library beside plans
    computed with rounded real numbers: the doubles are finite and stand for
    the numbers, and everything else is the same. *)
From Coq Require Import Reals SpecFloat List.
From Verif Require Import Py Vec StateGen Junction Planner Rounding Generic SpecStop SpecIEEE.
Open Scope R_scope.
Notation D64 := (Bk binary64).

Definition same_vec (a : gvec Fk) (b : gvec D64) : Prop :=
  stands (gx Fk a) (gx D64 b) /\ stands (gy Fk a) (gy D64 b) /\ stands (gz Fk a) (gz D64 b) /\ stands (ge Fk a) (ge D64 b).
Definition same_opt {A B} (R : A -> B -> Prop) (a : option A) (b : option B) : Prop :=
  match a, b with Some x, Some y => R x y | None, None => True | _, _ => False end.
Definition same_state (a : gkstate Fk) (b : gkstate D64) : Prop :=
  same_vec (gk_pos Fk a) (gk_pos D64 b) /\ stands (gk_speed Fk a) (gk_speed D64 b) /\ stands (gk_acc Fk a) (gk_acc D64 b) /\
  stands (gk_jerk Fk a) (gk_jerk D64 b) /\ same_opt stands (gk_pause Fk a) (gk_pause D64 b) /\ gk_layer Fk a = gk_layer D64 b.
Definition same_seg (a : gsegment Fk) (b : gsegment D64) : Prop :=
  stands (gt_begin Fk a) (gt_begin D64 b) /\ stands (gt_end Fk a) (gt_end D64 b) /\
  same_vec (gpos_begin Fk a) (gpos_begin D64 b) /\ same_vec (gpos_end Fk a) (gpos_end D64 b) /\
  same_vec (gvel_begin Fk a) (gvel_begin D64 b) /\ same_vec (gvel_end Fk a) (gvel_end D64 b).
Definition same_block (a : gblock Fk) (b : gblock D64) : Prop :=
  same_state (gb_A Fk a) (gb_A D64 b) /\ same_state (gb_B Fk a) (gb_B D64 b) /\ same_opt same_vec (gb_dir Fk a) (gb_dir D64 b) /\
  Forall2 same_seg (gb_segs Fk a) (gb_segs D64 b) /\ gb_type Fk a = gb_type D64 b /\ gb_extr Fk a = gb_extr D64 b /\
  same_vec (gb_JD Fk a) (gb_JD D64 b).

(** * Programs whose numbers stay far from the ends of the doubles *)
(** An ordinary line (SpecStop.v) with a jerk of zero or of 0.001 to 1000 mm/s,
    waiting for at most a million seconds *)
Definition tame (s : gkstate D64) : Prop :=
  ordinary_state s /\ (gk_jerk D64 s = 0 \/ 1 / 1000 <= gk_jerk D64 s <= 1000) /\
  match gk_pause D64 s with Some p => 0 <= p <= 1000000 | None => True end.
Fixpoint tame_steps (A : gkstate D64) (states : list (gkstate D64)) : Prop :=
  match states with
  | nil => True
  | cons B rest => ordinary_step A B /\ tame_steps B rest
  end.
Definition tame_program (states : list (gkstate D64)) : Prop :=
  Forall tame states /\ match states with nil => True | cons s0 rest => tame_steps s0 rest end.
(** The same result: the same blocks and the same warning, or the same exception *)
Definition same_result (a : res (list (gblock Fk) * bool)) (b : res (list (gblock D64) * bool)) : Prop :=
  match a, b with
  | Ok (bl, w), Ok (bl', w') => Forall2 same_block bl bl' /\ w = w'
  | Err e, Err e' => e = e'
  | _, _ => False
  end.

(** * The numbers that doubles stand for *)
Definition value_vec (v : gvec Fk) : gvec D64 := GV D64 (fval (gx Fk v)) (fval (gy Fk v)) (fval (gz Fk v)) (fval (ge Fk v)).
Definition value_state (s : gkstate Fk) : gkstate D64 :=
  GKState D64 (value_vec (gk_pos Fk s)) (fval (gk_speed Fk s)) (fval (gk_acc Fk s)) (fval (gk_jerk Fk s))
    (option_map fval (gk_pause Fk s)) (gk_layer Fk s).
(** no number is infinite or NaN *)
Definition proper_vec (v : gvec Fk) : Prop := proper (gx Fk v) /\ proper (gy Fk v) /\ proper (gz Fk v) /\ proper (ge Fk v).
Definition proper_state (s : gkstate Fk) : Prop :=
  proper_vec (gk_pos Fk s) /\ proper (gk_speed Fk s) /\ proper (gk_acc Fk s) /\ proper (gk_jerk Fk s) /\
  match gk_pause Fk s with Some p => proper p | None => True end.
Definition proper_seg (s : gsegment Fk) : Prop :=
  proper (gt_begin Fk s) /\ proper (gt_end Fk s) /\ proper_vec (gpos_begin Fk s) /\ proper_vec (gpos_end Fk s) /\
  proper_vec (gvel_begin Fk s) /\ proper_vec (gvel_end Fk s).
(** The last segment ends at [t]; a program that does nothing takes no time. *)
Definition double_over_at (bl : list (gblock Fk)) (t : R) : Prop :=
  match concat (map (gb_segs Fk) bl) with
  | nil => t = 0
  | _ => exists pre s, concat (map (gb_segs Fk) bl) = pre ++ cons s nil /\ proper (gt_end Fk s) /\ t = fval (gt_end Fk s)
  end.
