(** Vocabulary of C111: what a search in any path finds, gaps or not. *)
From Coq Require Import Reals List.
From Verif Require Import Py Vec Segment.
Import ListNotations.
Open Scope R_scope.

(** The first segment from an index on that is running at a time; the end of a
    segment belongs to it only if [closed]. *)
Definition running (closed : bool) (t : R) (s : segment) : Prop :=
  t_begin s <= t /\ (t < t_end s \/ closed = true /\ t = t_end s).
Definition first_from (closed : bool) (path : list segment) (t : R) (i j : nat) (s : segment) : Prop :=
  (i <= j)%nat /\ nth_error path j = Some s /\ running closed t s /\
  forall k r, (i <= k < j)%nat -> nth_error path k = Some r -> ~ running closed t r.
Definition none_from (closed : bool) (path : list segment) (t : R) (i : nat) : Prop :=
  forall k r, (i <= k)%nat -> nth_error path k = Some r -> ~ running closed t r.
