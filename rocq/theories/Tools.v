(** Model of pyGCodeDecode/tools.py and of planner_block.get_block_travel and
    planner_block.inverse_time_at_pos (planner_block.py:378-408).  Writing the
    csv and yaml files is in Texts.v; here are the returned values. *)
From Verif Require Import Py Vec Segment Junction Planner Query.
Open Scope R_scope.

(** planner_block.py:378-380 *)
Definition get_block_travel (b : block) : R := t_distance (k_pos (b_A b)) (k_pos (b_B b)) false.

(** planner_block.py:393-408 *)
Fixpoint inverse_time_loop (segs : list segment) (cum_dist dist_local : R) : res R :=
  match segs with
  | [] => Err ValueError
  | s :: segs' =>
    let cum_dist := cum_dist + get_segm_len s in
    if Rleb dist_local cum_dist
    then interpolate_time_to_space s (t_begin s) (t_end s) (get_segm_len s - (cum_dist - dist_local))
    else inverse_time_loop segs' cum_dist dist_local
  end.
Definition inverse_time_at_pos (b : block) (dist_local : R) : res R := inverse_time_loop (b_segs b) 0 dist_local.

(** * save_layer_metrics, tools.py:14-97 *)
(** One row: layer, duration, travel distance, average speed (None: "NaN"). *)
Record layer_row := Row { row_layer : nat; row_duration : R; row_travel : R; row_speed : option R }.
(** tools.py:64 *)
Definition average_speed (travel duration : R) : option R :=
  if Reqb duration 0 then None else Some (travel / duration).
(** tools.py:49-78.  A block without a layer: None > 0 is a TypeError. *)
Fixpoint layer_loop (bl : list block) (current_layer : nat) (last_layer_time travel : R) : res (list layer_row) :=
  match bl with
  | [] => Ok []
  | b :: bl' =>
    match k_layer (b_B b) with
    | None => Err TypeError
    | Some next_layer =>
      if (current_layer <? next_layer)%nat then
        f <- first_seg (b_segs b) ;;
        let duration := t_begin f - last_layer_time in
        rows <- layer_loop bl' next_layer (t_begin f) (0 + get_block_travel b) ;;
        Ok (Row current_layer duration travel (average_speed travel duration) :: rows)
      else
        match bl' with
        | [] =>
          l <- last_seg (b_segs b) ;;
          let duration := t_end l - last_layer_time in
          Ok [Row current_layer duration travel (average_speed travel duration)]
        | _ => layer_loop bl' current_layer last_layer_time (travel + get_block_travel b)
        end
    end
  end.
(** tools.py:30-33, 97; [has_cue]: the setup of the simulation has a layer cue. *)
Definition save_layer_metrics (has_cue : bool) (bl : list block) : res (option (list layer_row)) :=
  if has_cue then rows <- layer_loop bl 0 0 0 ;; Ok (Some rows) else Ok None.

(** * write_submodel_times, tools.py:100-273 *)
Record vec3 := V3 { c0 : R; c1 : R; c2 : R }.
Definition vec3_of (p : vec4) : vec3 := V3 (vx p) (vy p) (vz p).
Definition dot3 (a b : vec3) : R := c0 a * c0 b + c1 a * c1 b + c2 a * c2 b.
Definition sub3 (a b : vec3) : vec3 := V3 (c0 a - c0 b) (c1 a - c1 b) (c2 a - c2 b).
Definition add3 (a b : vec3) : vec3 := V3 (c0 a + c0 b) (c1 a + c1 b) (c2 a + c2 b).
Definition scale3 (k : R) (a : vec3) : vec3 := V3 (c0 a * k) (c1 a * k) (c2 a * k).
(** np.linalg.norm *)
Definition len3 (a : vec3) : R := sqrt (dot3 a a).

(** tools.py:119-125: center and side lengths *)
Record cube := Cube { origin : vec3; side_len : vec3 }.
(** tools.py:127-141 *)
Definition get_plane_lim (c : cube) : list (R * R) :=
  [(c0 (origin c) + c0 (side_len c) / 2, c0 (origin c) - c0 (side_len c) / 2);
   (c1 (origin c) + c1 (side_len c) / 2, c1 (origin c) - c1 (side_len c) / 2);
   (c2 (origin c) + c2 (side_len c) / 2, c2 (origin c) - c2 (side_len c) / 2)].
(** tools.py:143-154 *)
Definition get_plane_normals : list vec3 := [V3 1 0 0; V3 (-1) 0 0; V3 0 1 0; V3 0 (-1) 0; V3 0 0 1; V3 0 0 (-1)].
(** tools.py:156-167 *)
Definition get_plane_orig (c : cube) : list vec3 :=
  [V3 (c0 (origin c) + c0 (side_len c) / 2) 0 0; V3 (c0 (origin c) - c0 (side_len c) / 2) 0 0;
   V3 0 (c1 (origin c) + c1 (side_len c) / 2) 0; V3 0 (c1 (origin c) - c1 (side_len c) / 2) 0;
   V3 0 0 (c2 (origin c) + c2 (side_len c) / 2); V3 0 0 (c2 (origin c) - c2 (side_len c) / 2)].
(** tools.py:169-177 *)
Fixpoint zip_eval (lim : list (R * R)) (p : list R) : list (bool * bool) :=
  match lim, p with
  | l :: lim', x :: p' => (Rleb x (fst l), Rleb (snd l) x) :: zip_eval lim' p'
  | _, _ => []
  end.
Definition point_eval (p : vec3) (lim : list (R * R)) : list (bool * bool) := zip_eval lim [c0 p; c1 p; c2 p].
(** tools.py:179-180 *)
Definition point_inside (ev : list (bool * bool)) : bool := forallb (fun e => fst e && snd e) ev.
(** tools.py:182-195 *)
Fixpoint intersect_loop (e0 e1 : list (bool * bool)) (possible : bool) : bool :=
  match e0, e1 with
  | a :: e0', b :: e1' =>
    if negb (Bool.eqb (fst a) (fst b) && Bool.eqb (snd a) (snd b)) then intersect_loop e0' e1' true
    else if fst a && snd a then intersect_loop e0' e1' possible
    else false
  | _, _ => possible
  end.
Definition intersect_possible (e0 e1 : list (bool * bool)) : bool := intersect_loop e0 e1 false.
(** tools.py:197-228 with epsilon = 1e-6: point, distance from [p0], entering *)
Definition isect_line_plane (p0 p1 p_co p_no : vec3) : option (vec3 * R * bool) :=
  let u := sub3 p1 p0 in
  let dot := dot3 p_no u in
  if Rltb (1 / 1000000) (Rabs dot) then
    let w := sub3 p0 p_co in
    let fac := - dot3 p_no w / dot in
    let u := scale3 fac u in
    if Rleb 0 fac && Rleb fac 1 then Some (add3 p0 u, len3 u, Rltb dot 0) else None
  else None.
(** tools.py:244-253: the faces of one block *)
Fixpoint face_loop (b : block) (lim : list (R * R)) (origs normals : list vec3) : res (list (R * bool)) :=
  match origs, normals with
  | o :: origs', n :: normals' =>
    match isect_line_plane (vec3_of (k_pos (b_A b))) (vec3_of (k_pos (b_B b))) o n with
    | Some (isec, s_len, sgn) =>
      if point_inside (point_eval isec lim) then
        t <- inverse_time_at_pos b s_len ;;
        rest <- face_loop b lim origs' normals' ;;
        Ok ((t, sgn) :: rest)
      else face_loop b lim origs' normals'
    | None => face_loop b lim origs' normals'
    end
  | _, _ => Ok []
  end.
(** tools.py:239-253 *)
Fixpoint timetable_loop (c : cube) (bl : list block) : res (list (R * bool)) :=
  match bl with
  | [] => Ok []
  | b :: bl' =>
    let lim := get_plane_lim c in
    now <- (if intersect_possible (point_eval (vec3_of (k_pos (b_A b))) lim) (point_eval (vec3_of (k_pos (b_B b))) lim)
            then face_loop b lim (get_plane_orig c) get_plane_normals else Ok []) ;;
    rest <- timetable_loop c bl' ;;
    Ok (now ++ rest)
  end.
(** tools.py:256: sorted by time.  The order of equal times is not visible in
    the result, where entries and exits are separated. *)
Fixpoint insert_time (x : R * bool) (l : list (R * bool)) : list (R * bool) :=
  match l with
  | [] => [x]
  | y :: l' => if Rleb (fst x) (fst y) then x :: l else y :: insert_time x l'
  end.
Definition sort_times (l : list (R * bool)) : list (R * bool) := fold_right insert_time [] l.
(** tools.py:261-267 *)
Record submodel := Submodel { time_process : R; n_filaments : nat; time_in : list R; time_out : list R }.
(** tools.py:230-273.  An empty table has no columns: IndexError. *)
Definition write_submodel_times (bl : list block) (c : cube) : res submodel :=
  table <- timetable_loop c bl ;;
  match table with
  | [] => Err IndexError
  | _ =>
    let table := sort_times table in
    let t_in := map fst (filter snd table) in
    let t_out := map fst (filter (fun x => negb (snd x)) table) in
    match rev bl with
    | [] => Err IndexError
    | b :: _ => l <- last_seg (b_segs b) ;; Ok (Submodel (t_end l) (length t_in) t_in t_out)
    end
  end.
