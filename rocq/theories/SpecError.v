(** Vocabulary: the speed error of a segment. *)
From Coq Require Import Reals.
From Verif Require Import Py Vec Segment SpecQuery.
Open Scope R_scope.

(** [e] is the integral over the travelled distance of the relative difference
    between the target speed [v] and the speed of the nozzle. *)
Definition integrated_error (s : segment) (v e : R) : Prop :=
  exists F : R -> R,
    (forall t w p, moves_through s t w p -> derivable_pt_lim F t ((v - norm3 w) / v * norm3 w)) /\
    F (t_end s) - F (t_begin s) = e.
