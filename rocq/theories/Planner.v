(** Model of planner_block (pyGCodeDecode/planner_block.py) and of
    generate_planner_blocks, unpack_blocklist, trajectory_self_correct
    (pyGCodeDecode/gcode_interpreter.py:63-82, 150-162, 569-580). *)
From Verif Require Import Py Vec Segment Junction.
Open Scope R_scope.

Inductive btype := Trapezoid | Triangle | Single.

(** planner_block.py:289-321.  prev_block and next_block are the neighbours in
    the block list and are not stored. *)
Record block := Block {
  b_A : kstate; b_B : kstate;
  b_dir : option vec4;
  b_segs : list segment;
  b_type : option btype;
  b_extr : bool;
  b_JD : vec4 }.

(** segments[-1], segments[0] *)
Definition last_seg (l : list segment) : res segment :=
  match rev l with [] => Err IndexError | s :: _ => Ok s end.
Definition first_seg (l : list segment) : res segment :=
  match l with [] => Err IndexError | s :: _ => Ok s end.

(** planner_block.py:42, 55, 67, 84, 97, 114, 131: a segment that moves nothing is dropped. *)
Definition keep_seg (s : segment) : list segment :=
  if is_travel (pos_end s) (pos_begin s) || pos_is_extruding (pos_end s) (pos_begin s) false
  then [s] else [].

(** Exceptions raised inside the try block: planner_block.py:200-202. *)
Definition try_runtime {A} (x : res A) : res A :=
  match x with Err ValueError => Err RuntimeError | _ => x end.

(** planner_block.py:31-70 *)
Definition trapezoid (dir : vec4) (pv : segment) (acc distance v_begin v_target v_end : R)
           (extrusion_only : bool) : res (list segment * btype) :=
  let travel_ramp_up := (v_target - v_begin) * (v_begin + v_target) / (2 * acc) in
  let travel_ramp_down := (v_end - v_target) * (v_end + v_target) / (2 * - acc) in
  let vel_const := vscale v_target dir in
  let t0 := t_end pv in
  let t1 := t0 + (v_target - v_begin) / acc in
  let p0 := pos_end pv in
  let p1 := vadd p0 (vscale travel_ramp_up dir) in
  sA <- mk_segment t0 t1 p0 p1 (vscale v_begin dir) vel_const ;;
  let travel_const := distance - travel_ramp_down - travel_ramp_up in
  let v_const := if extrusion_only then norm4 vel_const else norm3 vel_const in
  let t2 := t1 + travel_const / v_const in
  let p2 := vadd p1 (vscale travel_const dir) in
  sB <- mk_segment t1 t2 p1 p2 vel_const vel_const ;;
  let t3 := t2 + (v_target - v_end) / acc in
  let p3 := vadd p2 (vscale travel_ramp_down dir) in
  sC <- mk_segment t2 t3 p2 p3 vel_const (vscale v_end dir) ;;
  Ok (keep_seg sA ++ keep_seg sB ++ keep_seg sC, Trapezoid).

(** planner_block.py:72-100 *)
Definition triang (dir : vec4) (pv : segment) (acc v_begin v_peak v_end : R)
  : res (list segment * btype) :=
  let t0 := t_end pv in
  let t1 := t0 + (v_peak - v_begin) / acc in
  let p0 := pos_end pv in
  let travel_ramp_up := (v_peak - v_begin) * (v_begin + v_peak) / (2 * acc) in
  let p1 := vadd p0 (vscale travel_ramp_up dir) in
  sA <- mk_segment t0 t1 p0 p1 (vscale v_begin dir) (vscale v_peak dir) ;;
  let t3 := t1 + (v_peak - v_end) / acc in
  let travel_ramp_down := (v_peak - v_end) * (v_end + v_peak) / (2 * acc) in
  let p2 := vadd p1 (vscale travel_ramp_down dir) in
  sC <- mk_segment t1 t3 p1 p2 (vscale v_peak dir) (vscale v_end dir) ;;
  Ok (keep_seg sA ++ keep_seg sC, Triangle).

(** planner_block.py:102-117 *)
Definition singl_up (dir : vec4) (pv : segment) (acc v_begin v_end_sing : R)
  : res (list segment * btype) :=
  let t0 := t_end pv in
  let t1 := t0 + (v_end_sing - v_begin) / acc in
  let p0 := pos_end pv in
  let travel_ramp_up := (v_end_sing - v_begin) * (v_begin + v_end_sing) / (2 * acc) in
  let p1 := vadd p0 (vscale travel_ramp_up dir) in
  sA <- mk_segment t0 t1 p0 p1 (vscale v_begin dir) (vscale v_end_sing dir) ;;
  Ok (keep_seg sA, Single).

(** planner_block.py:119-134 *)
Definition singl_dwn (dir : vec4) (pv : segment) (acc v_begin_sing v_end : R)
  : res (list segment * btype) :=
  let t0 := t_end pv in
  let t1 := t0 + (v_begin_sing - v_end) / acc in
  let p0 := pos_end pv in
  let travel_ramp_up := (v_begin_sing - v_end) * (v_begin_sing + v_end) / (2 * acc) in
  let p1 := vadd p0 (vscale travel_ramp_up dir) in
  sC <- mk_segment t0 t1 p0 p1 (vscale v_begin_sing dir) (vscale v_end dir) ;;
  Ok (keep_seg sC, Single).

(** planner_block.py:138-144: distance and the extrusion_only flag *)
Definition move_distance (A B : kstate) : R * bool :=
  let d := t_distance (k_pos B) (k_pos A) false in
  if Reqb d 0 then (t_distance (k_pos B) (k_pos A) true, true) else (d, false).

(** planner_block.py:23-202 move_maker2 for a block with two states and a
    direction; [pv] is previous_segment.  acc <= 0 leaves the model. *)
Definition move_maker2 (A B : kstate) (dir : vec4) (pv : segment) (v_end : R)
  : res (list segment * btype) :=
  let '(distance, extrusion_only) := move_distance A B in
  let acc := k_acc B in
  let v_target := k_speed B in
  let v_begin := norm3 (vel_end pv) in
  let v_begin := if Rltb v_begin v_target then v_begin else v_target in
  if Rleb acc 0 then Err Unmodelled
  else
    let travel_ramp_up := (v_target - v_begin) * (v_begin + v_target) / (2 * acc) in
    let travel_ramp_down := (v_end - v_target) * (v_end + v_target) / (2 * - acc) in
    let v_peak_tri := sqrt (acc * distance + v_begin * v_begin / 2 + v_end * v_end / 2) in
    let v_end_sing_sqr :=
      if Rltb v_end v_begin then v_begin * v_begin - 2 * acc * distance
      else v_begin * v_begin + 2 * acc * distance in
    let v_end_sing := if Rleb 0 v_end_sing_sqr then sqrt v_end_sing_sqr else 0 in
    let v_begin_sing := sqrt (2 * acc * distance + v_end * v_end) in
    try_runtime
      (if Rltb (travel_ramp_up + travel_ramp_down) distance
          && (Rltb 0 travel_ramp_up || isclose travel_ramp_up 0)
          && (Rltb 0 travel_ramp_down || isclose travel_ramp_down 0)
       then trapezoid dir pv acc distance v_begin v_target v_end extrusion_only
       else if Rltb v_end v_peak_tri && Rltb v_begin v_peak_tri
               && (Rltb v_peak_tri v_target || isclose v_peak_tri v_target)
       then triang dir pv acc v_begin v_peak_tri v_end
       else if Rltb v_begin v_end_sing && (Rltb v_end_sing v_target || isclose v_end_sing v_target)
       then singl_up dir pv acc v_begin v_end_sing
       else if Rltb v_end_sing v_begin
       then singl_dwn dir pv acc v_begin_sing v_end
       else Err NameError).

(** planner_block.py:147-151: previous_segment *)
Definition previous_segment (A : kstate) (prev : option block) : res segment :=
  match prev with
  | Some p => last_seg (b_segs p)
  | None => Ok (create_initial (k_pos A))
  end.

(** planner_block.py:281-339 __init__; [rest] are the states after [B] and
    [prev] is the previous block.  [None]: neither a move nor a pause, so
    without segments. *)
Definition planner_block (fw : firmware) (A : option kstate) (B : kstate) (rest : list kstate)
           (prev : option block) : res (option block) :=
  if Rleb (k_acc B) 0 then Err Unmodelled
  else
    let j := mk_junction A B rest in
    let v_JD := junction_vel fw j B in
    let dir := get_norm_dir (target_vel j) in
    b <- match A, dir with
         | Some a, Some d =>
           if not_zero (target_vel j) then
             pv <- previous_segment a prev ;;
             '(segs, ty) <- move_maker2 a B d pv v_JD ;;
             Ok (Some (Block a B dir segs (Some ty)
                             (pos_is_extruding (k_pos a) (k_pos B) true) (vscale v_JD d)))
           else Ok None
         | _, _ => Ok None
         end ;;
    match k_pause B with
    | None => Ok b
    | Some p =>
      match prev with
      | None => Err AttributeError                 (* None has no attribute segments *)
      | Some pb =>
        pv <- last_seg (b_segs pb) ;;
        s <- mk_segment (t_end pv) (t_end pv + p) (pos_end pv) (pos_end pv) vzero vzero ;;
        match b, A with
        | Some b, _ => Ok (Some (Block (b_A b) (b_B b) (b_dir b) [s] (b_type b) (b_extr b) vzero))
        | None, Some a => Ok (Some (Block a B None [s] None false vzero))
        | None, None => Err Unmodelled       (* only the first state lacks a predecessor *)
        end
      end
    end.

(** gcode_interpreter.py:77-80: a block without segments is thrown away. *)
Definition add_block (ob : option block) (done : list block) : list block :=
  match ob with
  | Some b => match b_segs b with [] => done | _ => b :: done end
  | None => done
  end.
(** gcode_interpreter.py:63-82; [A] the state before, [done] the blocks so far, last first. *)
Fixpoint gen_blocks (fw : firmware) (A : option kstate) (states : list kstate) (done : list block)
  : res (list block) :=
  match states with
  | [] => Ok (rev done)
  | s :: rest =>
    ob <- planner_block fw A s rest (hd_error done) ;;
    gen_blocks fw (Some s) rest (add_block ob done)
  end.
Definition generate_planner_blocks (fw : firmware) (states : list kstate) : res (list block) :=
  gen_blocks fw None states [].

Definition set_segs (b : block) (segs : list segment) (ty : option btype) : block :=
  Block (b_A b) (b_B b) (b_dir b) segs ty (b_extr b) (b_JD b).

(** planner_block.py:248-256 *)
Definition timeshift (dt : R) (b : block) : block :=
  set_segs b (map (move_segment_time dt) (b_segs b)) (b_type b).

(** planner_block.py:239-244: whether a violation is printed *)
Definition adherence_warning (b : block) : bool :=
  existsb (fun s => match self_check_settings (k_speed (b_B b)) s with Ok _ => false | Err _ => true end)
          (b_segs b).

(** planner_block.py:230-237 *)
Definition check_continuity (s n : segment) : res unit :=
  if veqb (pos_end s) (pos_begin n) then Ok tt
  else if Rltb (1 / 1000000000000) (norm3 (vsub (vsub (pos_end s) (pos_begin n)) vzero)) then Err NameError
  else Ok tt.

(** planner_block.py:206-216 *)
Definition flag_correct (s n : segment) : bool :=
  let e := norm3 (vel_end s) in
  let b := norm3 (vel_begin n) in
  negb (Reqb e b) && Rltb (1 / 1000000000000) (Rabs (e - b)).

(** planner_block.py:221: move_maker2 on an existing block *)
Definition remake (prevs : list block) (b : block) (v_end : R) : res block :=
  match b_dir b with
  | None => Err TypeError                       (* None * float *)
  | Some d =>
    pv <- previous_segment (b_A b) (hd_error prevs) ;;
    '(segs, ty) <- move_maker2 (b_A b) (b_B b) d pv v_end ;;
    Ok (set_segs b segs (Some ty))
  end.

(** planner_block.py:204-246 self_correction of block [b] with next block [n];
    [prevs] are the blocks before, nearest first.  Returns the blocks as
    changed, and whether a limit violation was printed. *)
Fixpoint self_correction (prevs : list block) (b n : block)
  : res (list block * block * block * bool) :=
  s <- last_seg (b_segs b) ;;
  m <- first_seg (b_segs n) ;;
  '(prevs1, b1, w1) <-
    (if flag_correct s m then
       b1 <- remake prevs b (norm3 (vel_begin m)) ;;
       match b_type b1 with
       | Some Single =>
         match prevs with
         | [] => Err AttributeError             (* None.self_correction() *)
         | p :: ps =>
           '(ps', p', b2, w) <- self_correction ps p b1 ;;
           Ok (p' :: ps', b2, w)
         end
       | _ => Ok (prevs, b1, false)
       end
     else Ok (prevs, b, false)) ;;
  s1 <- last_seg (b_segs b1) ;;
  let n1 := timeshift (t_end s1 - t_begin m) n in
  m1 <- first_seg (b_segs n1) ;;
  _ <- check_continuity s1 m1 ;;
  Ok (prevs1, b1, n1, w1 || adherence_warning b1).

(** gcode_interpreter.py:569-580: the loop; [prevs] are the blocks done,
    nearest first, [rest] the blocks after [b]. *)
Fixpoint correct_from (prevs : list block) (b : block) (rest : list block) : res (list block * bool) :=
  match rest with
  | [] => Ok (rev (b :: prevs), adherence_warning b)
  | n :: rest' =>
    '(prevs', b', n', w) <- self_correction prevs b n ;;
    '(bl, w') <- correct_from (b' :: prevs') n' rest' ;;
    Ok (bl, w || w')
  end.
Definition trajectory_self_correct (bl : list block) : res (list block * bool) :=
  match bl with
  | [] => Ok ([], false)
  | b :: rest => correct_from [] b rest
  end.

(** gcode_interpreter.py:237-238 and 695-698: plan, then correct.  The flag
    tells whether a limit violation was printed. *)
Definition simulate (fw : firmware) (states : list kstate) : res (list block * bool) :=
  bl <- generate_planner_blocks fw states ;;
  trajectory_self_correct bl.

(** gcode_interpreter.py:150-162 *)
Definition unpack_blocklist (bl : list block) : list segment := flat_map b_segs bl.
