(** Model of simulation.plot_vel (pyGCodeDecode/gcode_interpreter.py:457-567):
    what is handed to matplotlib.  Colours, line widths and the title are left
    out; saving and showing the picture is not modelled. *)
From Coq Require Import ZArith.
From Verif Require Import Py Vec Segment Junction Planner Query.
Open Scope R_scope.

(** gcode_interpreter.py:463: the argument time_steps *)
Inductive steps_arg := StepCount (n : Z) | StepName (s : str).
(** gcode_interpreter.py:486 *)
Definition axis_dict : list (str * nat) := [(S_ "x", 0%nat); (S_ "y", 1%nat); (S_ "z", 2%nat); (S_ "e", 3%nat)].
Definition axis_index (ax : str) : res nat := match dget ax axis_dict with Some k => Ok k | None => Err KeyError end.
(** get_vec(withExtrusion=True)[k] *)
Definition component (k : nat) (v : vec4) : R :=
  match k with 0%nat => vx v | 1%nat => vy v | 2%nat => vz v | _ => ve v end.
(** gcode_interpreter.py:490-504.  np.linspace refuses negative numbers. *)
Definition plot_times (bl : list block) (steps : steps_arg) : res (list R) :=
  match steps with
  | StepCount n =>
    match rev bl with
    | [] => Err IndexError
    | b :: _ => l <- last_seg (b_segs b) ;; if (n <? 0)%Z then Err ValueError else Ok (linspace (t_end l) (Z.to_nat n))
    end
  | StepName s => if str_eqb s (S_ "constrained") then Ok (constrained_times bl) else Err ValueError
  end.
(** gcode_interpreter.py:516-518: the values of one time are appended axis by
    axis; [vals] are four lists. *)
Fixpoint append_axes (axis : list str) (v : vec4) (vals : list (list R)) : res (list (list R)) :=
  match axis with
  | [] => Ok vals
  | ax :: axis' =>
    k <- axis_index ax ;;
    append_axes axis' v (firstn k vals ++ (nth k vals [] ++ [component k v]) :: skipn (S k) vals)
  end.
(** gcode_interpreter.py:506-521: the lists pos, vel and abs *)
Fixpoint gather (path : list segment) (axis : list str) (index_saved : option nat) (times : list R)
         (pos vel : list (list R)) (abs : list R) : res (list (list R) * list (list R) * list R) :=
  match times with
  | [] => Ok (pos, vel, abs)
  | t :: times' =>
    f <- find_keep_position path t index_saved ;;
    match f with
    | At g i =>
      v <- get_velocity g t ;; p <- get_position g t ;;
      pos <- append_axes axis p pos ;;
      vel <- append_axes axis v vel ;;
      gather path axis (Some i) times' pos vel (abs ++ [norm3 v])
    | _ => Err TypeError                          (* cannot unpack None *)
    end
  end.

(** What is drawn: vertical lines and crosses in the velocity plot. *)
Inductive mark :=
| BlockLine (t : R)                               (* black, axvline *)
| SegmentLine (t : R)                             (* green, axvline *)
| Cross (t y : R)                                 (* red x *)
| AxisCross (t y : R).                            (* black x *)
(** gcode_interpreter.py:541-548 *)
Fixpoint axis_crosses (axis : list str) (t : R) (JD : vec4) : res (list mark) :=
  match axis with
  | [] => Ok []
  | ax :: axis' => k <- axis_index ax ;; rest <- axis_crosses axis' t JD ;; Ok (AxisCross t (component k JD) :: rest)
  end.
(** gcode_interpreter.py:527-548 *)
Fixpoint block_marks (show_planner_blocks show_segments show_jv : bool) (axis : list str) (bl : list block) : res (list mark) :=
  match bl with
  | [] => Ok []
  | b :: bl' =>
    l <- last_seg (b_segs b) ;;
    crosses <- (if show_jv then cs <- axis_crosses axis (t_end l) (b_JD b) ;; Ok (Cross (t_end l) (norm3 (b_JD b)) :: cs) else Ok []) ;;
    rest <- block_marks show_planner_blocks show_segments show_jv axis bl' ;;
    Ok ((if show_planner_blocks then [BlockLine (t_end l)] else []) ++
        (if show_segments then map (fun s => SegmentLine (t_end s)) (b_segs b) else []) ++ crosses ++ rest)
  end.
(** gcode_interpreter.py:551-555: one solid curve (velocity) and one dashed one
    (position) for each axis.  matplotlib refuses lists of different lengths. *)
Record curve := Curve { cu_label : str; cu_vel : list R; cu_pos : list R }.
Fixpoint curves (axis : list str) (times : list R) (pos vel : list (list R)) : res (list curve) :=
  match axis with
  | [] => Ok []
  | ax :: axis' =>
    k <- axis_index ax ;;
    if (length (nth k vel []) =? length times)%nat then
      if (length (nth k pos []) =? length times)%nat then
        rest <- curves axis' times pos vel ;; Ok (Curve ax (nth k vel []) (nth k pos []) :: rest)
      else Err ValueError
    else Err ValueError
  end.
(** gcode_interpreter.py:457-567 *)
Record vel_plot := VelPlot { vp_times : list R; vp_marks : list mark; vp_curves : list curve; vp_abs : list R }.
Definition plot_vel (bl : list block) (axis : list str) (show_planner_blocks show_segments show_jv : bool) (steps : steps_arg) : res vel_plot :=
  times <- plot_times bl steps ;;
  g <- gather (unpack_blocklist bl) axis (Some 0%nat) times [[]; []; []; []] [[]; []; []; []] [] ;;
  let '(pos, vel, abs) := g in
  marks <- block_marks show_planner_blocks show_segments show_jv axis bl ;;
  cs <- curves axis times pos vel ;;
  Ok (VelPlot times marks cs abs).
