(** Vocabulary of the query properties: being on the trajectory at a time. *)
From Verif Require Import Py Vec Segment Junction Planner SpecKin.
Open Scope R_scope.

(** Uniformly accelerated motion from the begin to the end of [s]: velocity
    [v] and position [p] at time [t]. *)
Definition moves_through (s : segment) (t : R) (v p : vec4) : Prop :=
  let u := (t - t_begin s) / (t_end s - t_begin s) in
  t_begin s <= t <= t_end s /\
  v = vadd (vel_begin s) (vscale u (vsub (vel_end s) (vel_begin s))) /\
  p = vadd (pos_begin s) (vscale (t - t_begin s) (vadd (vel_begin s) (vscale (u / 2) (vsub (vel_end s) (vel_begin s))))).
Definition on_path (path : list segment) (t : R) (v p : vec4) : Prop :=
  exists s, In s path /\ moves_through s t v p.

(** Segments that follow each other without gap and cover the area under
    their velocity. *)
Definition contiguous_path (path : list segment) : Prop :=
  joined (fun s n => t_end s = t_begin n /\ pos_end s = pos_begin n) path /\
  Forall (fun s => t_begin s <= t_end s /\
                   pos_end s = vadd (pos_begin s) (vscale ((t_end s - t_begin s) / 2) (vadd (vel_begin s) (vel_end s)))) path.

(** The print ends at time [T]. *)
Definition print_time (bl : list block) (T : R) : Prop :=
  exists pre l, unpack_blocklist bl = pre ++ [l] /\ T = t_end l.
(** [t] is not the time at which one segment ends and another begins. *)
Definition not_a_joint (path : list segment) (t : R) : Prop :=
  forall s, In s path -> t <> t_begin s /\ t <> t_end s.

(** One of the queries [hist] was for a time within the print, and none of
    those after it for a time after the end [T]. *)
Definition remembers (T : R) (hist : list (R * option str)) : Prop :=
  exists h1 q h2, hist = h1 ++ q :: h2 /\ 0 <= fst q < T /\ Forall (fun r => fst r <= T) h2.

(** The documented unit systems: millimetres per unit. *)
Inductive unit_length : str -> R -> Prop :=
| u_SI : unit_length (S_ "SI") 1000
| u_SImm : unit_length (S_ "SImm") 1
| u_inch : unit_length (S_ "inch") (254 / 10).
(** A vector in millimetres and the same vector in another unit. *)
Definition in_unit (u : str) (mm v : vec4) : Prop := exists k, unit_length u k /\ vscale k v = mm.

(** Ascending order. *)
Definition ascending (l : list R) : Prop := joined Rle l.

(** Material is fed along the block. *)
Definition feeds (b : block) : Prop := ve (k_pos (b_A b)) < ve (k_pos (b_B b)).
(** At time [t] the printer moves with [v] at [p] in a block that feeds. *)
Definition feeding_at (bl : list block) (t : R) (v p : vec4) : Prop :=
  exists b s, In b bl /\ feeds b /\ In s (b_segs b) /\ moves_through s t v p.
(** Position of the last state. *)
Definition final_position (s0 : kstate) (states : list kstate) : vec4 := k_pos (last states s0).
(** End points of the moves that feed. *)
Definition feed_end_point (bl : list block) (p : vec4) : Prop :=
  exists b, In b bl /\ feeds b /\ (p = k_pos (b_A b) \/ p = k_pos (b_B b)).
