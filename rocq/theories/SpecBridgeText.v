(** Programs read with the doubles of the standard library beside programs read
    with rounded real numbers. *)
From Coq Require Import Reals SpecFloat List.
From Verif Require Import Py PyFloat Parser StateGen SpecMachine SpecSlicer Junction Rounding Generic SpecIEEE SpecBridge.
Open Scope R_scope.
Notation NF := (knum Fk).
Notation ND := (knum D64).

(** The double stands for the number, or both are the same text. *)
Definition same_value (v : sval NF) (v' : sval ND) : Prop :=
  match v, v' with SNum x, SNum r => stands x r | SStr t, SStr t' => t = t' | _, _ => False end.
Definition same_settings (p : p_settings NF) (p' : p_settings ND) : Prop :=
  same_value (p_acc p) (p_acc p') /\ same_value (jerk p) (jerk p') /\ same_value (speed p) (speed p') /\
  same_value (vX p) (vX p') /\ same_value (vY p) (vY p') /\ same_value (vZ p) (vZ p') /\ same_value (vE p) (vE p') /\
  units p = units p'.
Definition same_reading (s : state NF) (s' : state ND) : Prop :=
  (stands (px (state_position s)) (px (state_position s')) /\ stands (py (state_position s)) (py (state_position s')) /\
   stands (pz (state_position s)) (pz (state_position s')) /\ stands (pe (state_position s)) (pe (state_position s'))) /\
  same_settings (state_p_settings s) (state_p_settings s') /\
  line_number s = line_number s' /\ comment s = comment s' /\ layer s = layer s' /\ same_opt same_value (pause s) (pause s').
(** The same states, or the same exception *)
Definition same_states (a : res (list (state NF))) (b : res (list (state ND))) : Prop :=
  match a, b with Ok l, Ok l' => Forall2 same_reading l l' | Err e, Err e' => e = e' | _, _ => False end.

(** No number of a command that is obeyed is above a million. *)
Definition obeyed_commands : list str := map S_ ("G0" :: "G1" :: "G4" :: "G92" :: "M203" :: "M204" :: "M205" :: nil)%string.
Definition modest_line (l : line_dict) : Prop :=
  forall cmd key m e, In cmd obeyed_commands -> word cmd key l = Some (LNum (Dec m e)) -> Rabs (r_of_dec m e) <= 1000000.
Definition modest (lines : list str) : Prop :=
  forall ls, read_gcode_to_dict_list lines = Ok ls -> Forall modest_line ls.
(** The numbers of the machine are doubles, and it starts within a kilometre. *)
Definition proper_setup (su : setup_values NF) : Prop :=
  Forall proper (s_p_vel _ su :: s_p_acc _ su :: s_jerk _ su :: s_vX _ su :: s_vY _ su :: s_vZ _ su :: s_vE _ su :: nil) /\
  Forall (fun x => proper x /\ Rabs (fval x) <= 1000000) (s_X _ su :: s_Y _ su :: s_Z _ su :: s_E _ su :: nil).
(** the same machine, with the numbers its doubles stand for *)
Definition value_setup (su : setup_values NF) : setup_values ND :=
  Build_setup_values ND (fval (s_p_vel _ su)) (fval (s_p_acc _ su)) (fval (s_jerk _ su))
    (fval (s_vX _ su)) (fval (s_vY _ su)) (fval (s_vZ _ su)) (fval (s_vE _ su))
    (fval (s_X _ su)) (fval (s_Y _ su)) (fval (s_Z _ su)) (fval (s_E _ su)) (s_layer_cue _ su).
(** what the planner is asked for *)
Definition asked (k : kops) (lines : list str) (su : setup_values (knum k)) : res (list (gkstate k)) :=
  sts <- generate_states (knum k) lines su ;; gto_kstates k sts.

(** * Slicer programs *)
Definition small_numbers (c : gcode) : Prop := forall k x, arg k (args_of c) = Some x -> Rabs x <= 1000000.
(** a jerk of zero or of 0.002 to 900 mm/s, and waits of at most 900000 s *)
Definition handy_state (s : kstate) : Prop :=
  (k_jerk s = 0 \/ 2 / 1000 <= k_jerk s <= 900) /\ match k_pause s with Some p => p <= 900000 | None => True end.
