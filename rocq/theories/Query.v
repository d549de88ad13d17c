(** Model of the queries of simulation (pyGCodeDecode/gcode_interpreter.py:85-147,
    488-521, 582-629, 700-796, planner_block.py:258-279). *)
From Verif Require Import Py Vec Segment Junction Planner.
Open Scope R_scope.

(** What find_current_segment returns: [At s i] is the pair (s, i), [NoMovement]
    the pair (None, None), [Nothing] the None of a function that runs off its end. *)
Inductive found := At (s : segment) (i : nat) | NoMovement | Nothing.

(** gcode_interpreter.py:140-142: search from the start, half-open intervals. *)
Fixpoint scan_fresh (path : list segment) (t : R) (i : nat) : found :=
  match path with
  | [] => Nothing
  | s :: path' => if Rleb (t_begin s) t && Rltb t (t_end s) then At s i else scan_fresh path' t (S i)
  end.
(** gcode_interpreter.py:144-146: search from an index on, closed intervals. *)
Fixpoint scan_from (path : list segment) (t : R) (i : nat) : found :=
  match path with
  | [] => Nothing
  | s :: path' => if Rleb (t_begin s) t && Rleb t (t_end s) then At s i else scan_from path' t (S i)
  end.

(** gcode_interpreter.py:100 and 138: whether the search starts anew. *)
Definition search_anew (path : list segment) (t : R) (last_index : option nat) : bool :=
  match last_index with
  | None => true
  | Some i => match nth_error path i with None => true | Some s => Rltb t (t_begin s) end
  end.

(** gcode_interpreter.py:132-147 find_current_segment(keep_position=False).  The
    order of the two tests for the last index, [len(path) - 1 < last_index] and
    [path[last_index].t_begin > t], is that of [nth_error]. *)
Definition find_current_segment (path : list segment) (t : R) (last_index : option nat) : res found :=
  l <- last_seg path ;;
  if Rltb (t_end l) t then Ok NoMovement
  else if search_anew path t last_index then Ok (scan_fresh path t 0)
  else
    let i := match last_index with Some i => i | None => 0%nat end in
    match scan_from (skipn i path) t i with
    | At s j => Ok (At s j)
    | _ => Err ValueError
    end.

(** gcode_interpreter.py:107-114 and 123-130: standing still in a gap. *)
Definition gap_segment (s n : segment) : res segment :=
  mk_segment (t_end s) (t_begin n) (pos_end s) (pos_end s) vzero vzero.

(** gcode_interpreter.py:102-115 *)
Fixpoint keep_fresh (path rest : list segment) (t : R) (i : nat) : res found :=
  match rest with
  | [] => Ok Nothing
  | s :: rest' =>
    if Rleb (t_begin s) t && Rltb t (t_end s) then Ok (At s i)
    else if Rleb (t_end s) t then
      match nth_error path (S i) with
      | None => Err IndexError
      | Some n => if Rltb t (t_begin n) then g <- gap_segment s n ;; Ok (At g i)
                  else keep_fresh path rest' t (S i)
      end
    else keep_fresh path rest' t (S i)
  end.
(** gcode_interpreter.py:118-131; [i0] is last_index, [i] the running index. *)
Fixpoint keep_from (path rest : list segment) (t : R) (i0 i : nat) : res found :=
  match rest with
  | [] => Ok Nothing
  | s :: rest' =>
    if Rleb (t_begin s) t && Rleb t (t_end s) then Ok (At s i)
    else if Rleb (t_end s) t then
      match nth_error path (S i0) with
      | None => Err IndexError
      | Some n => if Rltb t (t_begin n) then g <- gap_segment s n ;; Ok (At g i0)
                  else keep_from path rest' t i0 (S i)
      end
    else keep_from path rest' t i0 (S i)
  end.
(** gcode_interpreter.py:98-131 find_current_segment(keep_position=True) *)
Definition find_keep_position (path : list segment) (t : R) (last_index : option nat) : res found :=
  if search_anew path t last_index then keep_fresh path path t 0
  else
    let i := match last_index with Some i => i | None => 0%nat end in
    keep_from path (skipn i path) t i i.

(** gcode_interpreter.py:198 available_unit_systems *)
Definition output_units : dict R := [(S_ "SI", 1 / 1000); (S_ "SImm", 1); (S_ "inch", 1 / (254 / 10))].
(** [d[k]] *)
Definition dindex {V} (k : str) (d : dict V) : res V :=
  match dget k d with Some v => Ok v | None => Err KeyError end.

(** The attributes of a simulation the queries use. *)
Record sim := Sim { blocklist : list block; output_unit_system : str; last_index : option nat }.

(** gcode_interpreter.py:782-796 *)
Definition get_scaling_factor (s : sim) (unit : option str) : res R :=
  dindex (match unit with Some u => u | None => output_unit_system s end) output_units.

(** gcode_interpreter.py:582-605.  Returns the velocity and the position, and
    last_index afterwards (it is stored before anything else can fail). *)
Definition get_values (s : sim) (t : R) (unit : option str) : res (vec4 * vec4) * option nat :=
  match find_current_segment (unpack_blocklist (blocklist s)) t (last_index s) with
  | Err e => (Err e, last_index s)
  | Ok Nothing => (Err TypeError, last_index s)     (* cannot unpack None *)
  | Ok NoMovement => (Err AttributeError, None)     (* None has no get_velocity *)
  | Ok (At g i) =>
    (v <- get_velocity g t ;; p <- get_position g t ;;
     k <- get_scaling_factor s unit ;; Ok (vscale k v, vscale k p), Some i)
  end.

(** gcode_interpreter.py:607-629.  A height of 0 gives inf in the code. *)
Definition get_width (s : sim) (t extrusion_h filament_dia : R) : res R * option nat :=
  let '(r, i) := get_values s t None in
  (vp <- r ;;
   let feed_rate := norm3 (fst vp) in
   let flow_rate := ve (fst vp) in
   let filament_cross_sec := PI * (filament_dia * filament_dia) / 4 in
   if Rltb 0 feed_rate then
     if Reqb extrusion_h 0 then Err Unmodelled
     else Ok (flow_rate * filament_cross_sec / (extrusion_h * feed_rate))
   else Ok 0, i).

(** A simulation after a query. *)
Definition set_index (s : sim) (i : option nat) : sim := Sim (blocklist s) (output_unit_system s) i.
(** The simulation after a history of queries (time and unit). *)
Definition after_queries (s : sim) (hist : list (R * option str)) : sim :=
  fold_left (fun s q => set_index s (snd (get_values s (fst q) (snd q)))) hist s.

(** gcode_interpreter.py:488-521: the values plot_vel gathers, in order.
    [times] are its time steps. *)
Fixpoint plot_values (path : list segment) (index_saved : option nat) (times : list R)
  : res (list (vec4 * vec4)) :=
  match times with
  | [] => Ok []
  | t :: times' =>
    f <- find_keep_position path t index_saved ;;
    match f with
    | At g i =>
      v <- get_velocity g t ;; p <- get_position g t ;;
      rest <- plot_values path (Some i) times' ;; Ok ((v, p) :: rest)
    | _ => Err TypeError                          (* cannot unpack None *)
    end
  end.
(** gcode_interpreter.py:499-501: the segment times, and the values there. *)
Definition constrained_times (bl : list block) : list R := 0 :: map t_end (unpack_blocklist bl).
Definition plot_vel_constrained (bl : list block) : res (list (vec4 * vec4)) :=
  plot_values (unpack_blocklist bl) (Some 0%nat) (constrained_times bl).
(** gcode_interpreter.py:492-497: np.linspace(0, t_end, n, endpoint=False) *)
Definition linspace (stop : R) (n : nat) : list R := map (fun i => INR i * (stop / INR n)) (seq 0 n).
Definition plot_vel_steps (bl : list block) (n : nat) : res (list (vec4 * vec4)) :=
  match rev bl with
  | [] => Err IndexError
  | b :: _ => l <- last_seg (b_segs b) ;; plot_values (unpack_blocklist bl) (Some 0%nat) (linspace (t_end l) n)
  end.

(** np.amax and np.amin over a list of numbers; ValueError if empty. *)
Definition amax (l : list R) : res R :=
  match l with [] => Err ValueError | x :: l' => Ok (fold_left Rmax l' x) end.
Definition amin (l : list R) : res R :=
  match l with [] => Err ValueError | x :: l' => Ok (fold_left Rmin l' x) end.

(** gcode_interpreter.py:700-726: ((x, y, z) min, (x, y, z) max) *)
Definition extruding_points (bl : list block) : list vec4 :=
  map (fun b => k_pos (b_A b)) (filter b_extr bl) ++ map (fun b => k_pos (b_B b)) (filter b_extr bl).
Definition extrusion_extent (s : sim) (unit : option str) : res ((R * R * R) * (R * R * R)) :=
  let pts := extruding_points (blocklist s) in
  x1 <- amax (map vx pts) ;; y1 <- amax (map vy pts) ;; z1 <- amax (map vz pts) ;;
  x0 <- amin (map vx pts) ;; y0 <- amin (map vy pts) ;; z0 <- amin (map vz pts) ;;
  k <- get_scaling_factor s unit ;;
  Ok ((k * x0, k * y0, k * z0), (k * x1, k * y1, k * z1)).

(** planner_block.py:258-279, for an extruding block: the largest absolute
    velocity of each axis (the extruder axis is not used by the caller). *)
Definition axis_speeds (f : vec4 -> R) (segs : list segment) : list R :=
  flat_map (fun s => [Rabs (f (vel_begin s)); Rabs (f (vel_end s))]) segs.
Definition extrusion_block_max_vel (b : block) : res (R * R * R) :=
  x <- amax (axis_speeds vx (b_segs b)) ;;
  y <- amax (axis_speeds vy (b_segs b)) ;;
  z <- amax (axis_speeds vz (b_segs b)) ;;
  Ok (x, y, z).
Fixpoint block_maxima (bl : list block) : res (list R) :=
  match bl with
  | [] => Ok []
  | b :: bl' =>
    '(x, y, z) <- extrusion_block_max_vel b ;;
    rest <- block_maxima bl' ;;
    Ok (sqrt (x * x + y * y + z * z) :: rest)
  end.
(** gcode_interpreter.py:728-745 *)
Definition extrusion_max_vel (s : sim) (unit : option str) : res R :=
  ms <- block_maxima (filter b_extr (blocklist s)) ;;
  m <- amax ms ;;
  k <- get_scaling_factor s unit ;;
  Ok (k * m).

(** gcode_interpreter.py:747-772: the numbers of the summary: end time, extent,
    largest velocity. *)
Definition save_summary (s : sim) : res (R * ((R * R * R) * (R * R * R)) * R) :=
  match rev (blocklist s) with
  | [] => Err IndexError
  | b :: _ =>
    l <- last_seg (b_segs b) ;;
    ext <- extrusion_extent s None ;;
    m <- extrusion_max_vel s None ;;
    Ok (t_end l, ext, m)
  end.
