(** Vocabulary of the print time: drives along the program that keep the limits,
    given by distance and speed as functions of the time. *)
From Coq Require Import Reals.
From Verif Require Import Py Vec Segment Junction SpecKin SpecJunction.
Open Scope R_scope.

(** In the time [T] a way of length [L] is driven, [g t] of it until the time
    [t], with the speed [s t], from speed [u0] to speed [u1]; the speed stays
    below [vmax] and changes by at most [a] per second. *)
Record drive (a vmax L u0 u1 T : R) (g s : R -> R) : Prop := {
  dr_time : 0 <= T;
  dr_from : g 0 = 0;
  dr_to : g T = L;
  dr_begin : s 0 = u0;
  dr_end : s T = u1;
  dr_moves : forall t, 0 <= t <= T -> derivable_pt_lim g t (s t);
  dr_speed : forall t, 0 <= t <= T -> 0 <= s t <= vmax;
  dr_acc : forall t t', 0 <= t <= T -> 0 <= t' <= T -> Rabs (s t' - s t) <= a * Rabs (t' - t) }.

(** The moves and dwells of a program are driven one after the other in the
    time [T], starting with speed [w]: no corner is passed faster than the
    firmware allows, and dwells and moves of the filament alone begin and end
    at rest. *)
Inductive driven (fw : firmware) : R -> list item -> R -> Prop :=
| dn_nil w : driven fw w [] 0
| dn_dwell A B rest p items T :
    k_pause B = Some p -> driven fw 0 items T -> driven fw 0 ((A, B, rest) :: items) (p + T)
| dn_move A B rest w w' T1 g s items T :
    k_pause B = None -> drive (k_acc B) (k_speed B) (move_length A B) w w' T1 g s ->
    w' <= corner_speed fw A B rest ->
    (vx (k_pos B) = vx (k_pos A) -> vy (k_pos B) = vy (k_pos A) -> vz (k_pos B) = vz (k_pos A) -> w = 0 /\ w' = 0) ->
    driven fw w' items T -> driven fw w ((A, B, rest) :: items) (T1 + T).

(** The time of a move from rest to rest, or of a dwell. *)
Definition stop_time (A B : kstate) : R :=
  match k_pause B with
  | Some p => p
  | None => let L := move_length A B in let v := k_speed B in let a := k_acc B in
            if Rlt_dec (v * v / a) L then v / a + L / v else 2 * sqrt (L / a)
  end.
(** The same, and the least time, of a step of the program. *)
Definition item_stop (i : item) : R := let '(A, B, _) := i in stop_time A B.
Definition item_least (i : item) : R := let '(A, B, _) := i in least_time A B.
