(** Model of update_progress (gcode_interpreter.py:22-60) and of the data drawn
    by simulation.plot_2d_position (242-355) and simulation.plot_3d (357-420).
    The plotting libraries, files, the display and the progress bar shown
    meanwhile are not modelled. *)
From Verif Require Import Py Vec Segment Junction Planner Query.
Open Scope R_scope.

(** * update_progress *)
(** What is passed as progress: a float, an int (bool is one as well), the type
    int itself, or anything else. *)
Inductive progress := PFloat (x : R) | PInt (z : Z) | PIntType | POther.
(** round(x, ndigits=0): to the nearest integer, halves to even. *)
Definition py_round (x : R) : Z :=
  let n := (up x - 1)%Z in
  let d := x - IZR n in
  if Rltb d (1 / 2) then n
  else if Rltb (1 / 2) d then (n + 1)%Z
  else if Z.even n then n else (n + 1)%Z.
(** What is written to the console: the bar, the percentage and the status; the
    surrounding text and the formatting of the number are left out. *)
Record shown := Shown { bar : str; percent : R; status : str }.
(** gcode_interpreter.py:44-50 *)
Definition clamp (progress : R) (status : str) : R * str :=
  let '(p, s) := if Rltb progress 0 then (0, S_ "Halt...") else (progress, status) in
  if Rleb 1 p then (1, S_ "Done...") else (p, s).
(** gcode_interpreter.py:25-60; [last] is last_progress_update.  Returns what is
    written, if anything, and the new last_progress_update. *)
Definition update_progress (p : progress) (last : R) : res (option shown * R) :=
  '(x, st) <- match p with
              | PIntType => Err TypeError
              | PFloat x => Ok (clamp x [])
              | PInt _ | POther => Ok (clamp 0 (S_ "error: progress var must be float"))
              end ;;
  let percent := IZR (py_round (x * 100 * 10)) / 10 in
  if negb (Reqb last percent) || negb (str_eqb st []) then
    let block := py_round (10 * x) in
    Ok (Some (Shown (repeat "#"%char (Z.to_nat block) ++ repeat "-"%char (Z.to_nat (10 - block))) percent st), percent)
  else Ok (None, last).

(** * plot_3d *)
(** utils.py:446-452 segment.is_extruding *)
Definition seg_is_extruding (s : segment) : bool := Rltb (ve (pos_begin s)) (ve (pos_end s)).
(** One entry of the arrays x, y, z, e, vel. *)
Record vertex := Vertex { v_pos : vec4; v_vel : R }.
Definition vertex_begin (s : segment) : vertex := Vertex (pos_begin s) (norm3 (vel_begin s)).
Definition vertex_end (s : segment) : vertex := Vertex (pos_end s) (norm3 (vel_end s)).
(** gcode_interpreter.py:390-411: the arrays after the first part of the loop body *)
Definition plot_3d_append (extrusion_only : bool) (arr : list vertex) (s : segment) : list vertex :=
  if negb extrusion_only || seg_is_extruding s
  then (match arr with [] => [vertex_begin s] | _ => arr end) ++ [vertex_end s]
  else arr.
(** gcode_interpreter.py:387-424: the lines handed to the mesh, in order *)
Fixpoint plot_3d_loop (extrusion_only : bool) (segs : list segment) (arr : list vertex) : list (list vertex) :=
  match segs with
  | [] => []
  | s :: segs' =>
    let arr := plot_3d_append extrusion_only arr s in
    let nonempty := match arr with [] => false | _ => true end in
    let is_last := match segs' with [] => true | _ => false end in
    if (extrusion_only && (nonempty && negb (seg_is_extruding s))) || (nonempty && is_last)
    then arr :: plot_3d_loop extrusion_only segs' []
    else plot_3d_loop extrusion_only segs' arr
  end.
Definition plot_3d_lines (extrusion_only : bool) (bl : list block) : list (list vertex) :=
  plot_3d_loop extrusion_only (unpack_blocklist bl) [].

(** * plot_2d_position *)
(** np.ceil for x >= 0, as a count *)
Definition ceil_nat (x : R) : nat := Z.to_nat (- (up (- x) - 1)).
(** np.linspace(0, 1, n, endpoint=True) *)
Definition unit_steps (n : nat) : list R :=
  match n with
  | 0%nat => []
  | 1%nat => [0]
  | _ => map (fun i => INR i / INR (n - 1)) (seq 0 n)
  end.
(** A drawn point: x, y and the colour variable. *)
Record point := Point { p_x : R; p_y : R; p_c : R }.
(** np.interp(s, [0, 1], [a, b]) for 0 <= s <= 1, on all three columns *)
Definition interp (a b : point) (s : R) : point :=
  Point (p_x a + s * (p_x b - p_x a)) (p_y a + s * (p_y b - p_y a)) (p_c a + s * (p_c b - p_c a)).
(** gcode_interpreter.py:263-268: the number of points for the line from [a] to [b] *)
Definition interp_count (spacing : R) (a b : point) : nat :=
  let len := sqrt ((p_x b - p_x a) * (p_x b - p_x a) + (p_y b - p_y a) * (p_y b - p_y a)) in
  if Rltb 0 (Rabs (p_c b - p_c a)) then (ceil_nat (len / spacing) + 1)%nat else 1%nat.
(** gcode_interpreter.py:272-284 *)
Fixpoint interp_loop (spacing : R) (old : point) (pts : list point) : list point :=
  match pts with
  | [] => []
  | p :: pts' => map (interp old p) (unit_steps (interp_count spacing old p)) ++ interp_loop spacing p pts'
  end.
(** gcode_interpreter.py:262-286; a resolution <= 0 is not modelled *)
Definition interp_2D (spacing : R) (pts : list point) : res (list point) :=
  if Rltb 0 spacing then Ok (match pts with [] => [] | p :: pts' => interp_loop spacing p pts' end) else Err Unmodelled.
(** gcode_interpreter.py:289-301, 326-333: the vertices of the trajectory *)
Definition plot_vertices (segs : list segment) : res (list point) :=
  match segs with
  | [] => Err IndexError
  | f :: _ => Ok (Point (vx (pos_begin f)) (vy (pos_begin f)) (norm3 (vel_begin f)) ::
                  map (fun s => Point (vx (pos_end s)) (vy (pos_end s)) (norm3 (vel_end s))) segs)
  end.
(** gcode_interpreter.py:287-334: the points joined by lines; the colour of a
    point is drawn only with [coloured] (colvar == "Velocity"). *)
Definition plot_2d_points (coloured : bool) (spacing : R) (bl : list block) : res (list point) :=
  pts <- plot_vertices (unpack_blocklist bl) ;;
  if coloured then interp_2D spacing pts else Ok pts.
