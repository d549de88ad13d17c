(** Model of utils.segment (pyGCodeDecode/utils.py:307-482, 548-560). *)
From Verif Require Import Py Vec.
Open Scope R_scope.

(** utils.py:324-350 *)
Record segment := Seg {
  t_begin : R; t_end : R;
  pos_begin : vec4; pos_end : vec4;
  vel_begin : vec4; vel_end : vec4 }.

(** utils.py:425-427: where constant acceleration leads to. *)
Definition predicted_end (s : segment) : vec4 :=
  vadd (pos_begin s)
       (vdiv (vscale (t_end s - t_begin s) (vadd (vel_begin s) (vel_end s))) 2).

(** utils.py:414-435: position and time consistency. *)
Definition self_check (s : segment) : res unit :=
  if Rltb (1 / 1000000) (norm3 (vsub (pos_end s) (predicted_end s))) then Err ValueError
  else if Rltb (t_end s) (t_begin s) then Err ValueError
  else Ok tt.

(** utils.py:437-444: the additional check against a target speed. *)
Definition exceeds (v speed : R) : bool := Rltb speed v && negb (isclose v speed).
Definition self_check_settings (speed : R) (s : segment) : res unit :=
  _ <- self_check s ;;
  if exceeds (norm3 (vel_begin s)) speed then Err ValueError
  else if exceeds (norm3 (vel_end s)) speed then Err ValueError
  else Ok tt.

(** utils.py:324-350: the constructor runs the self check. *)
Definition mk_segment (t0 t1 : R) (p0 p1 v0 v1 : vec4) : res segment :=
  let s := Seg t0 t1 p0 p1 v0 v1 in
  _ <- self_check s ;; Ok s.

(** utils.py:548-560 create_initial with a position *)
Definition create_initial (p : vec4) : segment := Seg 0 0 p p vzero vzero.

(** utils.py:360-367 *)
Definition move_segment_time (dt : R) (s : segment) : segment :=
  Seg (t_begin s + dt) (t_end s + dt) (pos_begin s) (pos_end s) (vel_begin s) (vel_end s).

(** utils.py:378-386 the interpolation, without the range check *)
Definition vel_at (s : segment) (t : R) : vec4 :=
  let dv := vsub (vel_end s) (vel_begin s) in
  let dt := t_end s - t_begin s in
  let slope := if Rltb 0 dt then vdiv dv dt else vzero in
  vadd (vel_begin s) (vscale (t - t_begin s) slope).
(** utils.py:400-404 *)
Definition pos_at (s : segment) (t : R) : vec4 :=
  vadd (pos_begin s) (vdiv (vscale (t - t_begin s) (vadd (vel_begin s) (vel_at s t))) 2).

Definition out_of_range (s : segment) (t : R) : bool := Rltb t (t_begin s) || Rltb (t_end s) t.
(** utils.py:369-386 *)
Definition get_velocity (s : segment) (t : R) : res vec4 :=
  if out_of_range s t then Err ValueError else Ok (vel_at s t).
(** utils.py:388-404 *)
Definition get_position (s : segment) (t : R) : res vec4 :=
  if out_of_range s t then Err ValueError else Ok (pos_at s t).

(** utils.py:406-412 *)
Definition get_segm_len (s : segment) : R := norm3 (vsub (pos_end s) (pos_begin s)).
Definition get_segm_duration (s : segment) : R := t_end s - t_begin s.
(** utils.py:454-482.  Divisions by a zero duration or a zero speed are numpy
    inf/nan in the code and [Unmodelled] here.  The case a < 0 (variable [t]
    unbound in the code) cannot occur since a norm is not negative. *)
Definition interpolate_time_to_space (s : segment) (scalar_begin scalar_end x : R) : res R :=
  if Reqb (t_end s - t_begin s) 0 then Err Unmodelled
  else
    let a := norm3 (vsub (vel_end s) (vel_begin s)) / (t_end s - t_begin s) in
    let v0 := norm3 (vel_begin s) in
    t <- (if Rltb 0 a then
            let v_sq := 2 * a * x + v0 * v0 in
            if Rleb v_sq 0 then Err ValueError
            else Ok ((sqrt v_sq - v0) / a)
          else if Reqb a 0 then
            if Reqb v0 0 then Err Unmodelled else Ok (x / v0)
          else Err Unmodelled) ;;
    Ok ((scalar_end - scalar_begin) / (t_end s - t_begin s) * t + scalar_begin).
