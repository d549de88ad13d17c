(** Vocabulary of the properties of the tools. *)
From Coq Require Import Reals.
From Verif Require Import Py Vec Segment Junction Planner Query SpecKin SpecQuery.
Open Scope R_scope.

(** At time [t] the block has come [x] far from where it began. *)
Definition reached (b : block) (t x : R) : Prop :=
  exists s v p, In s (b_segs b) /\ moves_through s t v p /\
    starts (fun f => norm3 (vsub p (pos_begin f)) = x) (b_segs b).
(** How far segments go. *)
Definition seg_travel (s : segment) : R := norm3 (vsub (pos_end s) (pos_begin s)).
Definition travelled (segs : list segment) : R := Rsum seg_travel segs.
(** The block moves in space. *)
Definition travels (b : block) : Prop := 0 < norm3 (vsub (k_pos (b_B b)) (k_pos (b_A b))).
(** The segment loses speed. *)
Definition braking (s : segment) : Prop := norm3 (vel_end s) < norm3 (vel_begin s).
(** The distance [x] of the block [b] falls into the segment [s]. *)
Definition falls_into (b : block) (s : segment) (x : R) : Prop :=
  exists pre post, b_segs b = pre ++ s :: post /\ travelled pre < x <= travelled (pre ++ [s]).

(** * Abaqus event series *)
From Verif Require Import Abaqus.
(** The event lies at [p] (given in millimetres), in the unit system [u]. *)
Definition event_at (u : str) (e : event) (p : vec4) : Prop :=
  exists k, unit_length u k /\ k * ev_x e = vx p /\ k * ev_y e = vy p /\ k * ev_z e = vz p.
(** Straight line between two values, at the fraction [r]. *)
Definition between (a b r : R) : R := a + r * (b - a).
(** [s] feeds more material than [tolerance]. *)
Definition feeds_more (tolerance : R) (s : segment) : Prop := tolerance < ve (pos_end s) - ve (pos_begin s).

(** * Layers *)
(** Time and travel distance of a block. *)
Definition block_duration (b : block) : R := Rsum (fun s => t_end s - t_begin s) (b_segs b).
Definition block_travel (b : block) : R := norm3 (vsub (k_pos (b_B b)) (k_pos (b_A b))).
(** The block belongs to layer [n]. *)
Definition in_layer (n : nat) (b : block) : bool :=
  match k_layer (b_B b) with Some m => Nat.eqb m n | None => false end.
(** Every block has a layer and layers do not decrease. *)
Definition layered (bl : list block) : Prop :=
  Forall (fun b => exists n, k_layer (b_B b) = Some n) bl /\
  joined (fun a b => forall m n, k_layer (b_B a) = Some m -> k_layer (b_B b) = Some n -> (m <= n)%nat) bl.
(** The last block is the first one of its layer. *)
Definition last_opens_layer (bl : list block) : Prop :=
  exists pre b n, bl = pre ++ [b] /\ k_layer (b_B b) = Some n /\ (0 < n)%nat /\
    forall a m, In a pre -> k_layer (b_B a) = Some m -> (m < n)%nat.

(** * Control volume *)
From Verif Require Import Tools.
Definition in_box (c : cube) (p : vec3) : Prop :=
  Rabs (c0 p - c0 (origin c)) <= c0 (side_len c) / 2 /\
  Rabs (c1 p - c1 (origin c)) <= c1 (side_len c) / 2 /\
  Rabs (c2 p - c2 (origin c)) <= c2 (side_len c) / 2.
(** The faces: outward normal and plane. *)
Inductive face (c : cube) : vec3 -> (vec3 -> Prop) -> Prop :=
| f_x1 : face c (V3 1 0 0) (fun p => c0 p - c0 (origin c) = c0 (side_len c) / 2)
| f_x0 : face c (V3 (-1) 0 0) (fun p => c0 (origin c) - c0 p = c0 (side_len c) / 2)
| f_y1 : face c (V3 0 1 0) (fun p => c1 p - c1 (origin c) = c1 (side_len c) / 2)
| f_y0 : face c (V3 0 (-1) 0) (fun p => c1 (origin c) - c1 p = c1 (side_len c) / 2)
| f_z1 : face c (V3 0 0 1) (fun p => c2 p - c2 (origin c) = c2 (side_len c) / 2)
| f_z0 : face c (V3 0 0 (-1)) (fun p => c2 (origin c) - c2 p = c2 (side_len c) / 2).
(** The point at the fraction [r] of the way from [a] to [b]. *)
Definition on_way (a b : vec3) (r : R) : vec3 := add3 a (scale3 r (sub3 b a)).
(** The move from [a] to [b] meets the face with normal [n] in the point [p] of the volume. *)
Definition meets (c : cube) (a b n p : vec3) : Prop :=
  exists plane r, face c n plane /\ 0 <= r <= 1 /\ p = on_way a b r /\ plane p /\ in_box c p.
(** Ends of a block in space. *)
Definition from_of (b : block) : vec3 := vec3_of (k_pos (b_A b)).
Definition to_of (b : block) : vec3 := vec3_of (k_pos (b_B b)).
(** The block [b] crosses the face with normal [n] in [p], changing the
    coordinate along the normal by more than 1e-6, and does not stay inside. *)
Definition crosses (c : cube) (b : block) (n p : vec3) : Prop :=
  meets c (from_of b) (to_of b) n p /\ 1 / 1000000 < Rabs (dot3 n (sub3 (to_of b) (from_of b))) /\
  ~ (in_box c (from_of b) /\ in_box c (to_of b)).
(** The block changes no coordinate by a small amount (up to 1e-6, but not 0). *)
Definition coarse (b : block) : Prop :=
  let d := sub3 (to_of b) (from_of b) in
  Forall (fun x => x = 0 \/ 1 / 1000000 < Rabs x) [c0 d; c1 d; c2 d].
