(** Programs as text that a machine which stops after every line is sure to get
    through with doubles, and how long it takes.  The numbers are those of the
    text (SpecSlicer.v). *)
From Coq Require Import Reals.
From Verif Require Import Py StateGen SpecMachine SpecRead SpecSlicer Vec Segment Junction Planner SpecKin SpecTime Generic Rounding SpecRounding.
Open Scope R_scope.

(** The head is driven in absolute coordinates that are never renamed.  The
    extruder may be driven in absolute or relative coordinates, but not in
    absolute ones after relative ones; its position may be renamed.  A line that
    moves nothing mentions no extruder position. *)
Definition tidy_code (h : head) (c : gcode) : Prop :=
  match c with
  | Positions b => b = true
  | Extrusion b => b = true -> h_abs h AE = true
  | Rename l => arg "X" l = None /\ arg "Y" l = None /\ arg "Z" l = None
  | Move _ l => spot (obey c h) = spot h -> arg "E" l = None
  | _ => True
  end.
Fixpoint tidy (h : head) (cs : list gcode) : Prop :=
  match cs with
  | [] => True
  | c :: cs' => tidy_code h c /\ tidy (obey c h) cs'
  end.
(** The distance between two positions, and what the extruder turns between them *)
Definition gap (A B : kstate) : R := norm3 (vsub (k_pos B) (k_pos A)).
Definition turn (A B : kstate) : R := Rabs (ve (k_pos B) - ve (k_pos A)).
(** From 0.02 to 900 mm/s, from 2 to 90000 mm/s^2, within nine metres *)
Definition tame_state (s : kstate) : Prop :=
  2 / 100 <= k_speed s <= 900 /\ 2 <= k_acc s <= 90000 /\ 0 <= k_jerk s /\
  Rabs (vx (k_pos s)) <= 9000 /\ Rabs (vy (k_pos s)) <= 9000 /\ Rabs (vz (k_pos s)) <= 9000 /\ Rabs (ve (k_pos s)) <= 9000.
(** A line waits or changes nothing, or turns the extruder by at least two
    micrometres, or moves the head by at least that and by more than the
    extruder. *)
Definition tame_step (A B : kstate) : Prop :=
  k_pos B = k_pos A \/
  k_pause B = None /\
    (gap A B = 0 /\ 2 / 1000 <= turn A B \/ 2 / 1000 <= gap A B /\ turn A B <= 99 / 100 * gap A B).
Fixpoint tame_steps (A : kstate) (states : list kstate) : Prop :=
  match states with
  | [] => True
  | B :: rest => tame_step A B /\ tame_steps B rest
  end.
Definition tame_program (s0 : kstate) (states : list kstate) : Prop :=
  Forall tame_state (s0 :: states) /\ moves_first s0 states /\ tame_steps s0 states.
(** The sum of the times from rest to rest *)
Fixpoint stop_sum (A : kstate) (states : list kstate) : R :=
  match states with
  | [] => 0
  | B :: rest => stop_time A B + stop_sum B rest
  end.
(** No line takes longer. *)
Fixpoint most_sum (A : kstate) (states : list kstate) : R :=
  match states with
  | [] => 0
  | B :: rest =>
    (gap A B + turn A B) / k_speed B + 2 * (k_speed B / k_acc B) +
    match k_pause B with Some p => p | None => 0 end + most_sum B rest
  end.
(** The head at the start of a machine, and a machine whose numbers are doubles *)
Definition start_head (rnd : R -> R) (su : setup_values (knum (Bk rnd))) : head :=
  fresh_head (fun a => match a with AX => s_X _ su | AY => s_Y _ su | AZ => s_Z _ su | AE => s_E _ su end) (s_p_vel _ su) (s_p_acc _ su) (s_jerk _ su).
Definition doubles (su : setup_values (knum (Bk binary64))) : Prop :=
  Forall double [s_X _ su; s_Y _ su; s_Z _ su; s_E _ su; s_p_vel _ su; s_p_acc _ su; s_jerk _ su].
(** The same machine, with exact numbers *)
Definition same_numbers (su : setup_values (knum (Bk binary64))) (su' : setup_values Rops) : Prop :=
  s_X _ su = s_X _ su' /\ s_Y _ su = s_Y _ su' /\ s_Z _ su = s_Z _ su' /\ s_E _ su = s_E _ su' /\
  s_p_vel _ su = s_p_vel _ su' /\ s_p_acc _ su = s_p_acc _ su' /\ s_jerk _ su = s_jerk _ su'.
