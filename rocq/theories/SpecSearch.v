(** Vocabulary of the properties about the summary and the search for a segment. *)
From Verif Require Import Py Vec Segment Junction Planner SpecKin SpecQuery.
Open Scope R_scope.

(** Segments in the order of time; there may be gaps between them. *)
Definition in_order (path : list segment) : Prop :=
  joined (fun s n => t_end s <= t_begin n) path /\ Forall (fun s => t_begin s <= t_end s) path.
Definition begins (path : list segment) (t : R) : Prop := exists s rest, path = s :: rest /\ t_begin s = t.
Definition ends (path : list segment) (t : R) : Prop := exists pre s, path = pre ++ [s] /\ t_end s = t.
(** [t] is in the gap behind the segment number [i], which ends at [p]. *)
Definition in_gap (path : list segment) (i : nat) (t : R) (p : vec4) : Prop :=
  exists s n, nth_error path i = Some s /\ nth_error path (S i) = Some n /\ t_end s <= t < t_begin n /\ p = pos_end s.
(** Moving on a segment, or standing still in a gap. *)
Definition moves_or_waits (path : list segment) (t : R) (v p : vec4) : Prop :=
  on_path path t v p \/ exists i, in_gap path i t p /\ v = vzero.
