(** Programs that a machine which stops after every line is sure to get through
    with doubles. *)
From Coq Require Import Reals.
From Verif Require Import Py Vec StateGen Junction Planner SpecTime Generic SpecGeneric SpecDrift.
Open Scope R_scope.

Section Stop.
Variable rnd : R -> R.
Notation k := (Bk rnd).
(** From 0.01 to 1000 mm/s, from 1 to 100000 mm/s^2, within ten metres *)
Definition ordinary_state (s : gkstate k) : Prop :=
  1 / 100 <= gk_speed k s <= 1000 /\ 1 <= gk_acc k s <= 100000 /\ 0 <= gk_jerk k s /\
  Rabs (gx k (gk_pos k s)) <= 10000 /\ Rabs (gy k (gk_pos k s)) <= 10000 /\
  Rabs (gz k (gk_pos k s)) <= 10000 /\ Rabs (ge k (gk_pos k s)) <= 10000.
Definition extruded (A B : gkstate k) : R := Rabs (ge k (gk_pos k B) - ge k (gk_pos k A)).
(** A line waits where it is, or changes nothing, or turns the extruder by at
    least a micrometre, or moves the head by at least that and by no less than
    the extruder. *)
Definition ordinary_step (A B : gkstate k) : Prop :=
  match gk_pause k B with
  | Some p => 0 <= p /\ gk_pos k B = gk_pos k A
  | None =>
    gk_pos k B = gk_pos k A \/
    near 0 (gk_pos k B) (gk_pos k A) /\ 1 / 1000 <= extruded A B \/
    1 / 1000 <= length3 A B /\ extruded A B <= length3 A B
  end.
(** [moving]: a line before has moved something. *)
Fixpoint ordinary_steps (moving : Prop) (A : gkstate k) (states : list (gkstate k)) : Prop :=
  match states with
  | [] => True
  | B :: rest =>
    ordinary_step A B /\ (gk_pause k B <> None -> moving) /\
    ordinary_steps (moving \/ gk_pos k B <> gk_pos k A) B rest
  end.
Definition ordinary_program (s0 : gkstate k) (rest : list (gkstate k)) : Prop :=
  Forall ordinary_state (s0 :: rest) /\ gk_pause k s0 = None /\ ordinary_steps False s0 rest.
(** No line takes longer: the way at full speed, speeding up, slowing down, and
    the pause. *)
Definition line_time (A B : gkstate k) : R :=
  (length3 A B + extruded A B) / gk_speed k B + 2 * (gk_speed k B / gk_acc k B) +
  match gk_pause k B with Some p => p | None => 0 end.
Fixpoint program_time (A : gkstate k) (states : list (gkstate k)) : R :=
  match states with
  | [] => 0
  | B :: rest => line_time A B + program_time B rest
  end.
(** The same line for the planner over the real numbers *)
Definition exact_state (s : gkstate k) : kstate :=
  KState (V4 (gx k (gk_pos k s)) (gy k (gk_pos k s)) (gz k (gk_pos k s)) (ge k (gk_pos k s)))
    (gk_speed k s) (gk_acc k s) (gk_jerk k s) (gk_pause k s) (gk_layer k s).
(** The sum of the times from rest to rest (SpecTime.v) *)
Fixpoint stop_times (A : gkstate k) (states : list (gkstate k)) : R :=
  match states with
  | [] => 0
  | B :: rest => stop_time (exact_state A) (exact_state B) + stop_times B rest
  end.
(** The last segment ends at [t]; a program that does nothing takes no time. *)
Definition over_at (bl : list (gblock k)) (t : R) : Prop :=
  match concat (map (gb_segs k) bl) with
  | [] => t = 0
  | _ => exists pre s, concat (map (gb_segs k) bl) = pre ++ [s] /\ t = gt_end k s
  end.
End Stop.
Arguments exact_state {rnd}. Arguments stop_times {rnd}. Arguments over_at {rnd}.
Arguments ordinary_state {rnd}. Arguments extruded {rnd}. Arguments ordinary_step {rnd}.
Arguments ordinary_steps {rnd}. Arguments ordinary_program {rnd}. Arguments line_time {rnd}. Arguments program_time {rnd}.
