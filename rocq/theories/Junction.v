(** Model of the junction handling classes (pyGCodeDecode/junction_handling.py). *)
From Verif Require Import Py Vec.
Open Scope R_scope.

(** The part of state.state the planner reads (state.py:60-74), with numeric
    settings.  The axis speed limits vX..vE are stored but never read by the
    planner, and the unit neither. *)
Record kstate := KState {
  k_pos : vec4;
  k_speed : R; k_acc : R; k_jerk : R;
  k_pause : option R;
  k_layer : option nat }.

(** junction_handling.py:14-38 connect_state for two states that exist. *)
Definition connect_state (A B : kstate) : vec4 :=
  let d := vsub (k_pos B) (k_pos A) in
  let dist := norm3 d in
  let dir :=
    if Rltb 0 (Rabs dist) then vdiv d dist
    else if Rltb 0 (Rabs (ve d)) then vdiv d (Rabs (ve d))
    else vzero in
  vscale (k_speed B) dir.
Definition connect_state_opt (A : option kstate) (B : kstate) : vec4 :=
  match A with None => vzero | Some A => connect_state A B end.

(** junction_handling.py:40-54 calc_vel_next: the first following state at a
    different 4D position, or the last state of the program, or B itself. *)
Fixpoint find_next_state (B : kstate) (rest : list kstate) : kstate :=
  match rest with
  | [] => B
  | [s] => s
  | s :: rest' => if Rltb 0 (t_distance (k_pos B) (k_pos s) true) then s else find_next_state B rest'
  end.

(** junction_handling.py:60-70: target velocity, next velocity.  [jt_distance]
    is self.t_distance after both calls of connect_state: the travel distance
    of the following move. *)
Record junction := Junction { target_vel : vec4; vel_next : vec4; jt_distance : R }.
Definition mk_junction (A : option kstate) (B : kstate) (rest : list kstate) : junction :=
  let nx := find_next_state B rest in
  Junction (connect_state_opt A B) (connect_state B nx) (norm3 (vsub (k_pos nx) (k_pos B))).

Definition dot3 (a b : vec4) : R := vx a * vx b + vy a * vy b + vz a * vz b.

(** junction_handling.py:102-134 calc_JD *)
Definition calc_JD (v0 v1 : vec4) (acc jerk speed : R) : R :=
  if Reqb jerk 0 then 0
  else
    let JD_delta := 4 / 10 * jerk * jerk / acc in
    if Reqb (norm3 v0) 0 || Reqb (norm3 v1) 0 then 0
    else
      let c := - dot3 v0 v1 / (norm3 v0 * norm3 v1) in
      let s := if Rltb c 1 then sqrt ((1 - c) / 2) else 0 in
      if Rltb s (sin (162 * PI / 360)) then
        if Rltb (sin (18 * PI / 360)) s then
          let radius := JD_delta * s / (1 - s) in
          let v := sqrt (acc * radius) in
          if Rltb v speed then v else speed
        else 0
      else speed.

(** junction_handling.py:177-190 marlin classic jerk *)
Definition calc_jerk (v0 v1 : vec4) (jerk : R) : R :=
  let j := jerk * 2 in
  let scale := if Rltb 0 j then norm3 (vsub v0 v1) / j else 0 in
  if Rleb 1 scale then norm3 (vdiv v0 scale) else norm3 v0.

(** junction_handling.py:227-266 klipper *)
Definition klipper_delta (acc jerk : R) : R := jerk * jerk * (sqrt 2 - 1) / acc.
Definition calc_klipper (v0 v1 : vec4) (dist acc jerk speed : R) : R :=
  if Reqb (norm3 v0) 0 || Reqb (norm3 v1) 0 then 0
  else
    let d0 := vdiv v0 (norm3 v0) in
    let d1 := vdiv v1 (norm3 v1) in
    let c := Rmax (- dot3 d0 d1) (- (999999 / 1000000)) in
    if Rltb (999999 / 1000000) c then 0
    else
      let s := sqrt (5 / 10 * (1 - c)) in
      let jR := klipper_delta acc jerk * s / (1 - s) in
      let tn := s / sqrt (5 / 10 * (1 + c)) in
      let cen := 5 / 10 * dist * tn * acc in
      sqrt (Rmin (Rmin (acc * jR) cen) (speed * speed)).

(** junction_handling.py:295-327 MKA: one axis of the loop.  State: v_max_junc,
    v_factor, lim_flag. *)
Definition mka_jerk (v_entry v_exit : R) : R :=
  if Rltb v_entry v_exit then
    if Rltb 0 v_entry || Rltb v_exit 0 then v_exit - v_entry else Rmax v_exit (- v_entry)
  else
    if Rltb v_entry 0 || Rltb 0 v_exit then v_entry - v_exit else Rmax (- v_exit) v_entry.
Definition mka_axis (jerk fac : R) (st : R * R * bool) (ax : R * R) : R * R * bool :=
  let '(vmax, vfac, lim) := st in
  let '(v_entry, v_exit) := ax in
  let v_exit := v_exit * fac in
  let v_entry := if lim then v_entry * vfac else v_entry in
  let v_exit := if lim then v_exit * vfac else v_exit in
  let j := mka_jerk v_entry v_exit in
  let '(vfac, lim) := if Rltb jerk j then (vfac * (jerk / j), true) else (vfac, lim) in
  (if lim then vmax * vfac else vmax, vfac, lim).
Definition calc_mka (v0 v1 : vec4) (jerk : R) : R :=
  let vmax := Rmin (norm3 v0) (norm3 v1) in
  let fac := if Rltb 0 vmax then vmax / norm3 v0 else 0 in
  fst (fst (fold_left (mka_axis jerk fac)
                      [(vx v0, vx v1); (vy v0, vy v1); (vz v0, vz v1); (ve v0, ve v1)]
                      (vmax, 1, false))).

(** planner_block.py:299-308: firmware selection; any other name is the base class. *)
Inductive firmware := MarlinJD | Klipper | MarlinJerk | MKA | FullStop.

(** get_junction_vel of the selected class.  Division by a zero acceleration
    leaves the model (the planner rejects it, see Planner.v). *)
Definition junction_vel (fw : firmware) (j : junction) (B : kstate) : R :=
  match fw with
  | MarlinJD => calc_JD (target_vel j) (vel_next j) (k_acc B) (k_jerk B) (k_speed B)
  | Klipper => calc_klipper (target_vel j) (vel_next j) (jt_distance j) (k_acc B) (k_jerk B) (k_speed B)
  | MarlinJerk => calc_jerk (target_vel j) (vel_next j) (k_jerk B)
  | MKA => calc_mka (target_vel j) (vel_next j) (k_jerk B)
  | FullStop => 0
  end.
