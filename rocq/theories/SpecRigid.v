(** Vocabulary of the properties about moving and turning a part. *)
From Coq Require Import Reals.
From Verif Require Import Py Vec Segment Junction Planner.
Open Scope R_scope.

(** A linear map of space that keeps lengths and angles and leaves the filament
    alone: rotations and reflections. *)
Definition isometry (T : vec4 -> vec4) : Prop :=
  (forall a b, T (vadd a b) = vadd (T a) (T b)) /\ (forall k a, T (vscale k a) = vscale k (T a)) /\
  (forall a b, vx (T a) * vx (T b) + vy (T a) * vy (T b) + vz (T a) * vz (T b) = vx a * vx b + vy a * vy b + vz a * vz b) /\
  (forall a, ve (T a) = ve a).
(** A turn by the angle [w] around the z axis. *)
Definition turn (w : R) (a : vec4) : vec4 :=
  V4 (cos w * vx a - sin w * vy a) (sin w * vx a + cos w * vy a) (vz a) (ve a).

(** Turned by [T] and moved by [c]: a position, a state, a segment, a block. *)
Definition placed (T : vec4 -> vec4) (c p : vec4) : vec4 := vadd (T p) c.
Definition placed_state (T : vec4 -> vec4) (c : vec4) (k : kstate) : kstate :=
  KState (placed T c (k_pos k)) (k_speed k) (k_acc k) (k_jerk k) (k_pause k) (k_layer k).
Definition placed_seg (T : vec4 -> vec4) (c : vec4) (s : segment) : segment :=
  Seg (t_begin s) (t_end s) (placed T c (pos_begin s)) (placed T c (pos_end s)) (T (vel_begin s)) (T (vel_end s)).
Definition placed_block (T : vec4 -> vec4) (c : vec4) (b : block) : block :=
  Block (placed_state T c (b_A b)) (placed_state T c (b_B b)) (option_map T (b_dir b)) (map (placed_seg T c) (b_segs b))
        (b_type b) (b_extr b) (T (b_JD b)).
