(** Model of the operators and methods of vector_4D, velocity and position as
    a caller sees them, with all their kinds of arguments (utils.py:15-304),
    and of the parts of segment that read attributes nobody sets
    (utils.py:484-560).  No proofs here. *)
From Coq Require Import Reals.
From Verif Require Import Py Vec Segment.
Open Scope R_scope.

(** utils.py:15, 194, 252: the classes; velocity and position inherit from
    vector_4D. *)
Inductive cls := CVec | CVel | CPos.
Definition cls_eqb (c d : cls) : bool :=
  match c, d with CVec, CVec | CVel, CVel | CPos, CPos => true | _, _ => false end.
(** isinstance(x, d) for an [x] of class [c] *)
Definition subclass (c d : cls) : bool := cls_eqb c d || cls_eqb d CVec.

(** Numbers as arguments: float, numpy.float64, int, or another type of number
    (numpy.float32, numpy.int64, bool, Fraction). *)
Inductive number := NFloat (x : R) | NFloat64 (x : R) | NInt (z : Z) | NOther (x : R).
(** Arguments: an object of one of the classes, a list, tuple or
    one-dimensional array of numbers, a number, anything else. *)
Inductive operand := OVec (c : cls) (v : vec4) | OSeq (l : list R) | ONum (n : number) | OOther.

(** utils.py:27-47 __init__.  A single argument is unpacked with tuple(), which
    fails for what is not iterable; four arguments are stored as they are, and
    objects without numbers in them leave the model. *)
Definition value_of (n : number) : R :=
  match n with NFloat x | NFloat64 x | NOther x => x | NInt z => IZR z end.
Definition vec_init (args : list operand) : res vec4 :=
  match args with
  | [OSeq [x; y; z; e]] => Ok (V4 x y z e)
  | [OSeq _] => Err ValueError
  | [OVec _ _] | [ONum _] => Err TypeError
  | [OOther] => Err Unmodelled
  | [ONum x; ONum y; ONum z; ONum e] => Ok (V4 (value_of x) (value_of y) (value_of z) (value_of e))
  | [_; _; _; _] => Err Unmodelled
  | _ => Err ValueError
  end.

(** utils.py:53-77 [self + other]; the result has the class of [self]. *)
Definition vec_add (c : cls) (a : vec4) (other : operand) : res (cls * vec4) :=
  match other with
  | OVec d b => if subclass d c then Ok (c, vadd a b) else Err ValueError
  | OSeq [x; y; z; e] => Ok (c, vadd a (V4 x y z e))
  | _ => Err ValueError
  end.
(** utils.py:79-103 *)
Definition vec_sub (c : cls) (a : vec4) (other : operand) : res (cls * vec4) :=
  match other with
  | OVec d b => if subclass d c then Ok (c, vsub a b) else Err ValueError
  | OSeq [x; y; z; e] => Ok (c, vsub a (V4 x y z e))
  | _ => Err ValueError
  end.
(** utils.py:105-121 *)
Definition vec_mul (c : cls) (a : vec4) (other : operand) : res (cls * vec4) :=
  match other with
  | ONum (NFloat k) | ONum (NFloat64 k) => Ok (c, vscale k a)
  | ONum (NInt z) => Ok (c, vscale (IZR z) a)
  | _ => Err TypeError
  end.
(** utils.py:123-139.  Division by zero (an exception or inf, depending on the
    types of the coordinates) leaves the model. *)
Definition vec_div (c : cls) (a : vec4) (other : operand) : res (cls * vec4) :=
  match other with
  | ONum (NFloat k) | ONum (NFloat64 k) => if Reqb k 0 then Err Unmodelled else Ok (c, vdiv a k)
  | _ => Err TypeError
  end.

(** utils.py:141-166: the method answers True or, running off its end, None. *)
Inductive answer := ATrue | AFalse | ANone.
Definition eq_method (c : cls) (a : vec4) (other : operand) : answer :=
  match other with
  | OVec d b => if subclass d c then if veqb a b then ATrue else ANone else ANone
  | OSeq [x; y; z; e] => if veqb a (V4 x y z e) then ATrue else ANone
  | _ => ANone
  end.
(** [self == other]: Python asks [other] first if its class is a proper
    subclass of that of [self]. *)
Definition py_eq (c : cls) (a : vec4) (other : operand) : answer :=
  match other with
  | OVec d b => if subclass d c && negb (cls_eqb d c) then eq_method d b (OVec c a) else eq_method c a other
  | _ => eq_method c a other
  end.
(** bool(x) *)
Definition truth (x : answer) : bool := match x with ATrue => true | _ => false end.
(** [self != other]: object.__ne__ negates the answer of __eq__. *)
Definition py_ne (c : cls) (a : vec4) (other : operand) : answer :=
  if truth (py_eq c a other) then AFalse else ATrue.

(** utils.py:168-180 *)
Definition get_vec (a : vec4) (withExtrusion : bool) : list R :=
  if withExtrusion then [vx a; vy a; vz a; ve a] else [vx a; vy a; vz a].
(** utils.py:182-191 *)
Definition get_norm (a : vec4) (withExtrusion : bool) : R := if withExtrusion then norm4 a else norm3 a.
(** utils.py:201-216 velocity.get_norm_dir; list / numpy.float64 divides each entry *)
Definition norm_dir (a : vec4) (withExtrusion : bool) : option (list R) :=
  let abs_val := get_norm a false in
  if Rltb 0 abs_val then Some (map (fun x => x / abs_val) (get_vec a withExtrusion))
  else if withExtrusion && Rltb 0 (get_norm a withExtrusion)
       then Some (map (fun x => x / get_norm a withExtrusion) (get_vec a withExtrusion))
  else None.
(** utils.py:243-249 velocity.is_extruding *)
Definition vel_is_extruding (a : vec4) : bool := Rltb 0 (ve a).

(** utils.py:259-304 with any argument: lists, tuples and arrays have no
    attribute x and no method get_vec. *)
Definition travel_to (a : vec4) (other : operand) : res bool :=
  match other with OVec _ b => Ok (is_travel a b) | _ => Err AttributeError end.
Definition extruding_to (a : vec4) (other : operand) (ignore_retract : bool) : res bool :=
  match other with OVec _ b => Ok (pos_is_extruding a b ignore_retract) | _ => Err AttributeError end.
Definition distance_to (a : vec4) (other : option operand) (withExtrusion : bool) : res R :=
  match other with
  | None => Ok (t_distance a vzero withExtrusion)
  | Some (OVec _ b) => Ok (t_distance a b withExtrusion)
  | Some _ => Err AttributeError
  end.

(** * Attributes nobody sets *)
(** [x.name] for an object with the attributes [d] *)
Definition attr (name : str) (d : dict R) : res R :=
  match dget name d with Some x => Ok x | None => Err AttributeError end.
(** utils.py:27-47 *)
Definition vec_attrs (a : vec4) : dict R := [(S_ "x", vx a); (S_ "y", vy a); (S_ "z", vz a); (S_ "e", ve a)].
(** utils.py:228-231: one line; [n] is the attribute of the axis, [g] the one
    the condition looks at. *)
Definition overspeed_axis (settings self : dict R) (n g : str) (scale : R) : res R :=
  x <- attr g self ;;
  if Rltb 0 x then
    lim <- attr n settings ;; v <- attr n self ;;
    if Reqb v 0 then Err ZeroDivisionError
    else if Rltb (lim / v) scale then Ok (lim / v) else Ok scale
  else Ok scale.
(** utils.py:218-233; [settings] are the attributes of the p_settings object *)
Definition avoid_overspeed (settings : dict R) (a : vec4) : res vec4 :=
  let self := vec_attrs a in
  k <- overspeed_axis settings self (S_ "Vx") (S_ "Vx") 1 ;;
  k <- overspeed_axis settings self (S_ "Vy") (S_ "Vy") k ;;
  k <- overspeed_axis settings self (S_ "Vz") (S_ "Vz") k ;;
  k <- overspeed_axis settings self (S_ "Ve") (S_ "Vz") k ;;
  Ok (vscale k a).

(** utils.py:492-498.  np.sqrt of a negative number (nan) leaves the model. *)
Definition error_integral (s : segment) (a v_begin v_target x_end : R) : res R :=
  let sqr := if isclose (norm3 (vel_end s)) 0 then 0 else 2 * a * x_end + v_begin * v_begin in
  if Rltb sqr 0 then Err Unmodelled
  else Ok ((v_begin * v_begin * v_begin + 3 * a * v_target * x_end - (2 * a * x_end + v_begin * v_begin) * sqrt sqr)
           / (3 * a * v_target)).
(** utils.py:484-529 calc_results.  [result] is the attribute of that name, if
    the object has one: the constructor (utils.py:324-350) sets none. *)
Definition results := dict (list R).
Definition calc_results (result : option results) (s : segment) (v_target : R) : res results :=
  let v_begin := norm3 (vel_begin s) in
  let v_end := norm3 (vel_end s) in
  let delta_t := get_segm_duration s in
  let delta_v := v_end - v_begin in
  avg_error <- (if negb (isclose v_target 0) && negb (isclose delta_t 0) && negb (isclose delta_v 0)
                then error_integral s (delta_v / delta_t) v_begin v_target (get_segm_len s) else Ok 0) ;;
  match result with
  | None => Err AttributeError
  | Some d =>
    let rel v := if Rltb 0 v_target then (v_target - v) / v_target else 0 in
    Ok (dset (S_ "vel") [v_begin; v_end]
         (dset (S_ "rel_vel_err") [rel v_begin; rel v_end]
           (dset (S_ "segm_error") [avg_error] d)))
  end.
(** utils.py:531-546; None: the function runs off its end. *)
Definition get_result (result : option results) (key : str) : res (option (list R)) :=
  match result with
  | None => Err AttributeError
  | Some d =>
    match dget key d with
    | None => Err ValueError
    | Some [x; y] => Ok (Some [x; y])
    | Some [x] => Ok (Some [x; x])
    | Some _ => Ok None
    end
  end.
(** The attribute [result] of a segment made by the constructor. *)
Definition fresh_result : option results := None.

(** utils.py:548-560: without a position it calls position(x=0, y=0, z=0, e=0),
    but the constructor takes no keyword arguments. *)
Definition segment_create_initial (p : option vec4) : res segment :=
  match p with
  | None => Err TypeError
  | Some p => mk_segment 0 0 p p vzero vzero
  end.
