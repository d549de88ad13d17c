(** Real-number basics and model of utils.vector_4D, velocity and position
    (pyGCodeDecode/utils.py:15-304).  Floats are idealised as real numbers. *)
From Coq Require Export Reals.
From Verif Require Import Py.
Open Scope R_scope.

(** Comparisons used in the code's conditions. *)
Definition Rltb (x y : R) : bool := if Rlt_dec x y then true else false.
Definition Rleb (x y : R) : bool := if Rle_dec x y then true else false.
Definition Reqb (x y : R) : bool := if Req_EM_T x y then true else false.

(** np.isclose(a, b) with its defaults rtol = 1e-5, atol = 1e-8 *)
Definition isclose (a b : R) : bool :=
  Rleb (Rabs (a - b)) (1 / 100000000 + 1 / 100000 * Rabs b).

(** utils.py:27-47 *)
Record vec4 := V4 { vx : R; vy : R; vz : R; ve : R }.

Definition vzero : vec4 := V4 0 0 0 0.
(** utils.py:53-77 __add__, also with arrays *)
Definition vadd (a b : vec4) : vec4 := V4 (vx a + vx b) (vy a + vy b) (vz a + vz b) (ve a + ve b).
(** utils.py:79-103 __sub__ *)
Definition vsub (a b : vec4) : vec4 := V4 (vx a - vx b) (vy a - vy b) (vz a - vz b) (ve a - ve b).
(** utils.py:105-121 __mul__ by a scalar; also array * scalar *)
Definition vscale (k : R) (a : vec4) : vec4 := V4 (vx a * k) (vy a * k) (vz a * k) (ve a * k).
(** utils.py:123-139 __truediv__ by a scalar; also array / scalar *)
Definition vdiv (a : vec4) (k : R) : vec4 := V4 (vx a / k) (vy a / k) (vz a / k) (ve a / k).
(** utils.py:141-166 __eq__ (None counts as false) *)
Definition veqb (a b : vec4) : bool :=
  isclose (vx a) (vx b) && isclose (vy a) (vy b) && isclose (vz a) (vz b) && isclose (ve a) (ve b).

(** utils.py:182-191 get_norm(withExtrusion=False) and (withExtrusion=True) *)
Definition norm3 (a : vec4) : R := sqrt (vx a * vx a + vy a * vy a + vz a * vz a).
Definition norm4 (a : vec4) : R := sqrt (vx a * vx a + vy a * vy a + vz a * vz a + ve a * ve a).

(** utils.py:201-216 velocity.get_norm_dir(withExtrusion=True) *)
Definition get_norm_dir (v : vec4) : option vec4 :=
  if Rltb 0 (norm3 v) then Some (vdiv v (norm3 v))
  else if Rltb 0 (norm4 v) then Some (vdiv v (norm4 v))
  else None.

(** utils.py:235-241 velocity.not_zero *)
Definition not_zero (v : vec4) : bool := Rltb 0 (norm4 v).

(** utils.py:259-271 position.is_travel *)
Definition is_travel (self other : vec4) : bool :=
  Rltb 0 (Rabs (vx other - vx self) + Rabs (vy other - vy self) + Rabs (vz other - vz self)).

(** utils.py:273-288 position.is_extruding *)
Definition pos_is_extruding (self other : vec4) (ignore_retract : bool) : bool :=
  Rltb 0 (if ignore_retract then ve other - ve self else Rabs (ve other - ve self)).

(** utils.py:290-304 position.get_t_distance *)
Definition t_distance (self other : vec4) (withExtrusion : bool) : R :=
  if withExtrusion then norm4 (vsub self other) else norm3 (vsub self other).
