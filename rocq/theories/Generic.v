(** The planner once more, over any numbers: with the real numbers it is the
    model of Vec.v, Segment.v, Junction.v, Planner.v and Interp.v
    (C105_exact_numbers), with IEEE doubles it is what CPython computes.  Each
    definition bears the name of the one it repeats, with a [g] in front, and
    models the same lines.  No proofs here. *)
From Coq Require Import Reals SpecFloat.
From Verif Require Import Py Vec StateGen Junction Planner.

(** Numbers: decimal literals, operations, comparisons, and the two sines that
    junction_handling.py:119-121 compares with. *)
Record kops := {
  K : Type;
  k_dec : Z -> Z -> K;
  k_add : K -> K -> K; k_sub : K -> K -> K; k_mul : K -> K -> K; k_div : K -> K -> K;
  k_sqrt : K -> K; k_abs : K -> K; k_opp : K -> K;
  k_ltb : K -> K -> bool; k_leb : K -> K -> bool; k_eqb : K -> K -> bool;
  k_sin_max : K; k_sin_min : K }.

Section Planner.
Variable k : kops.
Notation F := (K k).
Notation "x + y" := (k_add k x y). Notation "x - y" := (k_sub k x y).
Notation "x * y" := (k_mul k x y). Notation "x / y" := (k_div k x y).
Notation "- x" := (k_opp k x).
Notation ltb := (k_ltb k). Notation leb := (k_leb k). Notation eqb := (k_eqb k).
Notation dec := (k_dec k). Notation sqrt := (k_sqrt k). Notation abs := (k_abs k).
Definition k0 : F := dec 0 0.
Definition k1 : F := dec 1 0.
Definition k2 : F := dec 2 0.
(** max(a, b), min(a, b) of Python *)
Definition kmax (a b : F) : F := if ltb a b then b else a.
Definition kmin (a b : F) : F := if ltb b a then b else a.

(** * Vec.v: utils.py:15-304 *)
Definition gisclose (a b : F) : bool := leb (abs (a - b)) (dec 1 (-8) + dec 1 (-5) * abs b).
Record gvec := GV { gx : F; gy : F; gz : F; ge : F }.
Definition gzero : gvec := GV k0 k0 k0 k0.
Definition gvadd (a b : gvec) : gvec := GV (gx a + gx b) (gy a + gy b) (gz a + gz b) (ge a + ge b).
Definition gvsub (a b : gvec) : gvec := GV (gx a - gx b) (gy a - gy b) (gz a - gz b) (ge a - ge b).
Definition gvscale (c : F) (a : gvec) : gvec := GV (gx a * c) (gy a * c) (gz a * c) (ge a * c).
Definition gvdiv (a : gvec) (c : F) : gvec := GV (gx a / c) (gy a / c) (gz a / c) (ge a / c).
Definition gveqb (a b : gvec) : bool :=
  gisclose (gx a) (gx b) && gisclose (gy a) (gy b) && gisclose (gz a) (gz b) && gisclose (ge a) (ge b).
(** np.linalg.norm: the squares are summed up from the left.  (A machine may
    fuse products and sums; along one axis that makes no difference.) *)
Definition gnorm3 (a : gvec) : F := sqrt (gx a * gx a + gy a * gy a + gz a * gz a).
Definition gnorm4 (a : gvec) : F := sqrt (gx a * gx a + gy a * gy a + gz a * gz a + ge a * ge a).
Definition gget_norm_dir (v : gvec) : option gvec :=
  if ltb k0 (gnorm3 v) then Some (gvdiv v (gnorm3 v))
  else if ltb k0 (gnorm4 v) then Some (gvdiv v (gnorm4 v))
  else None.
Definition gnot_zero (v : gvec) : bool := ltb k0 (gnorm4 v).
Definition gis_travel (self other : gvec) : bool :=
  ltb k0 (abs (gx other - gx self) + abs (gy other - gy self) + abs (gz other - gz self)).
Definition gpos_is_extruding (self other : gvec) (ignore_retract : bool) : bool :=
  ltb k0 (if ignore_retract then ge other - ge self else abs (ge other - ge self)).
Definition gt_distance (self other : gvec) (withExtrusion : bool) : F :=
  if withExtrusion then gnorm4 (gvsub self other) else gnorm3 (gvsub self other).

(** * Segment.v: utils.py:324-367, 414-444, 548-560 *)
Record gsegment := GSeg {
  gt_begin : F; gt_end : F; gpos_begin : gvec; gpos_end : gvec; gvel_begin : gvec; gvel_end : gvec }.
Definition gpredicted_end (s : gsegment) : gvec :=
  gvadd (gpos_begin s) (gvdiv (gvscale (gt_end s - gt_begin s) (gvadd (gvel_begin s) (gvel_end s))) k2).
Definition gself_check (s : gsegment) : res unit :=
  if ltb (dec 1 (-6)) (gnorm3 (gvsub (gpos_end s) (gpredicted_end s))) then Err ValueError
  else if ltb (gt_end s) (gt_begin s) then Err ValueError
  else Ok tt.
Definition gexceeds (v speed : F) : bool := ltb speed v && negb (gisclose v speed).
Definition gself_check_settings (speed : F) (s : gsegment) : res unit :=
  _ <- gself_check s ;;
  if gexceeds (gnorm3 (gvel_begin s)) speed then Err ValueError
  else if gexceeds (gnorm3 (gvel_end s)) speed then Err ValueError
  else Ok tt.
Definition gmk_segment (t0 t1 : F) (p0 p1 v0 v1 : gvec) : res gsegment :=
  let s := GSeg t0 t1 p0 p1 v0 v1 in
  _ <- gself_check s ;; Ok s.
Definition gcreate_initial (p : gvec) : gsegment := GSeg k0 k0 p p gzero gzero.
Definition gmove_segment_time (dt : F) (s : gsegment) : gsegment :=
  GSeg (gt_begin s + dt) (gt_end s + dt) (gpos_begin s) (gpos_end s) (gvel_begin s) (gvel_end s).

(** * Junction.v: junction_handling.py *)
Record gkstate := GKState {
  gk_pos : gvec; gk_speed : F; gk_acc : F; gk_jerk : F; gk_pause : option F; gk_layer : option nat }.
Definition gconnect_state (A B : gkstate) : gvec :=
  let d := gvsub (gk_pos B) (gk_pos A) in
  let dist := gnorm3 d in
  let dir :=
    if ltb k0 (abs dist) then gvdiv d dist
    else if ltb k0 (abs (ge d)) then gvdiv d (abs (ge d))
    else gzero in
  gvscale (gk_speed B) dir.
Definition gconnect_state_opt (A : option gkstate) (B : gkstate) : gvec :=
  match A with None => gzero | Some A => gconnect_state A B end.
Fixpoint gfind_next_state (B : gkstate) (rest : list gkstate) : gkstate :=
  match rest with
  | [] => B
  | [s] => s
  | s :: rest' => if ltb k0 (gt_distance (gk_pos B) (gk_pos s) true) then s else gfind_next_state B rest'
  end.
Record gjunction := GJunction { gtarget_vel : gvec; gvel_next : gvec; gjt_distance : F }.
Definition gmk_junction (A : option gkstate) (B : gkstate) (rest : list gkstate) : gjunction :=
  let nx := gfind_next_state B rest in
  GJunction (gconnect_state_opt A B) (gconnect_state B nx) (gnorm3 (gvsub (gk_pos nx) (gk_pos B))).
Definition gdot3 (a b : gvec) : F := gx a * gx b + gy a * gy b + gz a * gz b.
Definition gcalc_JD (v0 v1 : gvec) (acc jerk speed : F) : F :=
  if eqb jerk k0 then k0
  else
    let JD_delta := dec 4 (-1) * jerk * jerk / acc in
    if eqb (gnorm3 v0) k0 || eqb (gnorm3 v1) k0 then k0
    else
      let c := - gdot3 v0 v1 / (gnorm3 v0 * gnorm3 v1) in
      let s := if ltb c k1 then sqrt ((k1 - c) / k2) else k0 in
      if ltb s (k_sin_max k) then
        if ltb (k_sin_min k) s then
          let radius := JD_delta * s / (k1 - s) in
          let v := sqrt (acc * radius) in
          if ltb v speed then v else speed
        else k0
      else speed.
Definition gcalc_jerk (v0 v1 : gvec) (jerk : F) : F :=
  let j := jerk * k2 in
  let scale := if ltb k0 j then gnorm3 (gvsub v0 v1) / j else k0 in
  if leb k1 scale then gnorm3 (gvdiv v0 scale) else gnorm3 v0.
Definition gklipper_delta (acc jerk : F) : F := jerk * jerk * (sqrt k2 - k1) / acc.
Definition gcalc_klipper (v0 v1 : gvec) (dist acc jerk speed : F) : F :=
  if eqb (gnorm3 v0) k0 || eqb (gnorm3 v1) k0 then k0
  else
    let d0 := gvdiv v0 (gnorm3 v0) in
    let d1 := gvdiv v1 (gnorm3 v1) in
    let c := kmax (- gdot3 d0 d1) (- dec 999999 (-6)) in
    if ltb (dec 999999 (-6)) c then k0
    else
      let s := sqrt (dec 5 (-1) * (k1 - c)) in
      let jR := gklipper_delta acc jerk * s / (k1 - s) in
      let tn := s / sqrt (dec 5 (-1) * (k1 + c)) in
      let cen := dec 5 (-1) * dist * tn * acc in
      sqrt (kmin (kmin (acc * jR) cen) (speed * speed)).
Definition gmka_jerk (v_entry v_exit : F) : F :=
  if ltb v_entry v_exit then
    if ltb k0 v_entry || ltb v_exit k0 then v_exit - v_entry else kmax v_exit (- v_entry)
  else
    if ltb v_entry k0 || ltb k0 v_exit then v_entry - v_exit else kmax (- v_exit) v_entry.
Definition gmka_axis (jerk fac : F) (st : F * F * bool) (ax : F * F) : F * F * bool :=
  let '(vmax, vfac, lim) := st in
  let '(v_entry, v_exit) := ax in
  let v_exit := v_exit * fac in
  let v_entry := if lim : bool then v_entry * vfac else v_entry in
  let v_exit := if lim then v_exit * vfac else v_exit in
  let j := gmka_jerk v_entry v_exit in
  let '(vfac, lim) := if ltb jerk j then (vfac * (jerk / j), true) else (vfac, lim) in
  (if lim then vmax * vfac else vmax, vfac, lim).
Definition gcalc_mka (v0 v1 : gvec) (jerk : F) : F :=
  let vmax := kmin (gnorm3 v0) (gnorm3 v1) in
  let fac := if ltb k0 vmax then vmax / gnorm3 v0 else k0 in
  fst (fst (fold_left (gmka_axis jerk fac)
                      [(gx v0, gx v1); (gy v0, gy v1); (gz v0, gz v1); (ge v0, ge v1)]
                      (vmax, k1, false))).
Definition gjunction_vel (fw : firmware) (j : gjunction) (B : gkstate) : F :=
  match fw with
  | MarlinJD => gcalc_JD (gtarget_vel j) (gvel_next j) (gk_acc B) (gk_jerk B) (gk_speed B)
  | Klipper => gcalc_klipper (gtarget_vel j) (gvel_next j) (gjt_distance j) (gk_acc B) (gk_jerk B) (gk_speed B)
  | MarlinJerk => gcalc_jerk (gtarget_vel j) (gvel_next j) (gk_jerk B)
  | MKA => gcalc_mka (gtarget_vel j) (gvel_next j) (gk_jerk B)
  | FullStop => k0
  end.

(** * Planner.v: planner_block.py, gcode_interpreter.py:63-82, 150-162, 569-580 *)
Record gblock := GBlock {
  gb_A : gkstate; gb_B : gkstate; gb_dir : option gvec; gb_segs : list gsegment;
  gb_type : option btype; gb_extr : bool; gb_JD : gvec }.
Definition glast_seg (l : list gsegment) : res gsegment :=
  match rev l with [] => Err IndexError | s :: _ => Ok s end.
Definition gfirst_seg (l : list gsegment) : res gsegment :=
  match l with [] => Err IndexError | s :: _ => Ok s end.
Definition gkeep_seg (s : gsegment) : list gsegment :=
  if gis_travel (gpos_end s) (gpos_begin s) || gpos_is_extruding (gpos_end s) (gpos_begin s) false
  then [s] else [].
Definition gtrapezoid (dir : gvec) (pv : gsegment) (acc distance v_begin v_target v_end : F)
           (extrusion_only : bool) : res (list gsegment * btype) :=
  let travel_ramp_up := (v_target - v_begin) * (v_begin + v_target) / (k2 * acc) in
  let travel_ramp_down := (v_end - v_target) * (v_end + v_target) / (k2 * - acc) in
  let vel_const := gvscale v_target dir in
  let t0 := gt_end pv in
  let t1 := t0 + (v_target - v_begin) / acc in
  let p0 := gpos_end pv in
  let p1 := gvadd p0 (gvscale travel_ramp_up dir) in
  sA <- gmk_segment t0 t1 p0 p1 (gvscale v_begin dir) vel_const ;;
  let travel_const := distance - travel_ramp_down - travel_ramp_up in
  let v_const := if extrusion_only then gnorm4 vel_const else gnorm3 vel_const in
  let t2 := t1 + travel_const / v_const in
  let p2 := gvadd p1 (gvscale travel_const dir) in
  sB <- gmk_segment t1 t2 p1 p2 vel_const vel_const ;;
  let t3 := t2 + (v_target - v_end) / acc in
  let p3 := gvadd p2 (gvscale travel_ramp_down dir) in
  sC <- gmk_segment t2 t3 p2 p3 vel_const (gvscale v_end dir) ;;
  Ok (gkeep_seg sA ++ gkeep_seg sB ++ gkeep_seg sC, Trapezoid).
Definition gtriang (dir : gvec) (pv : gsegment) (acc v_begin v_peak v_end : F)
  : res (list gsegment * btype) :=
  let t0 := gt_end pv in
  let t1 := t0 + (v_peak - v_begin) / acc in
  let p0 := gpos_end pv in
  let travel_ramp_up := (v_peak - v_begin) * (v_begin + v_peak) / (k2 * acc) in
  let p1 := gvadd p0 (gvscale travel_ramp_up dir) in
  sA <- gmk_segment t0 t1 p0 p1 (gvscale v_begin dir) (gvscale v_peak dir) ;;
  let t3 := t1 + (v_peak - v_end) / acc in
  let travel_ramp_down := (v_peak - v_end) * (v_end + v_peak) / (k2 * acc) in
  let p2 := gvadd p1 (gvscale travel_ramp_down dir) in
  sC <- gmk_segment t1 t3 p1 p2 (gvscale v_peak dir) (gvscale v_end dir) ;;
  Ok (gkeep_seg sA ++ gkeep_seg sC, Triangle).
Definition gsingl_up (dir : gvec) (pv : gsegment) (acc v_begin v_end_sing : F)
  : res (list gsegment * btype) :=
  let t0 := gt_end pv in
  let t1 := t0 + (v_end_sing - v_begin) / acc in
  let p0 := gpos_end pv in
  let travel_ramp_up := (v_end_sing - v_begin) * (v_begin + v_end_sing) / (k2 * acc) in
  let p1 := gvadd p0 (gvscale travel_ramp_up dir) in
  sA <- gmk_segment t0 t1 p0 p1 (gvscale v_begin dir) (gvscale v_end_sing dir) ;;
  Ok (gkeep_seg sA, Single).
Definition gsingl_dwn (dir : gvec) (pv : gsegment) (acc v_begin_sing v_end : F)
  : res (list gsegment * btype) :=
  let t0 := gt_end pv in
  let t1 := t0 + (v_begin_sing - v_end) / acc in
  let p0 := gpos_end pv in
  let travel_ramp_up := (v_begin_sing - v_end) * (v_begin_sing + v_end) / (k2 * acc) in
  let p1 := gvadd p0 (gvscale travel_ramp_up dir) in
  sC <- gmk_segment t0 t1 p0 p1 (gvscale v_begin_sing dir) (gvscale v_end dir) ;;
  Ok (gkeep_seg sC, Single).
Definition gmove_distance (A B : gkstate) : F * bool :=
  let d := gt_distance (gk_pos B) (gk_pos A) false in
  if eqb d k0 then (gt_distance (gk_pos B) (gk_pos A) true, true) else (d, false).
Definition gmove_maker2 (A B : gkstate) (dir : gvec) (pv : gsegment) (v_end : F)
  : res (list gsegment * btype) :=
  let '(distance, extrusion_only) := gmove_distance A B in
  let acc := gk_acc B in
  let v_target := gk_speed B in
  let v_begin := gnorm3 (gvel_end pv) in
  let v_begin := if ltb v_begin v_target then v_begin else v_target in
  if leb acc k0 then Err Unmodelled
  else
    let travel_ramp_up := (v_target - v_begin) * (v_begin + v_target) / (k2 * acc) in
    let travel_ramp_down := (v_end - v_target) * (v_end + v_target) / (k2 * - acc) in
    let v_peak_tri := sqrt (acc * distance + v_begin * v_begin / k2 + v_end * v_end / k2) in
    let v_end_sing_sqr :=
      if ltb v_end v_begin then v_begin * v_begin - k2 * acc * distance
      else v_begin * v_begin + k2 * acc * distance in
    let v_end_sing := if leb k0 v_end_sing_sqr then sqrt v_end_sing_sqr else k0 in
    let v_begin_sing := sqrt (k2 * acc * distance + v_end * v_end) in
    try_runtime
      (if ltb (travel_ramp_up + travel_ramp_down) distance
          && (ltb k0 travel_ramp_up || gisclose travel_ramp_up k0)
          && (ltb k0 travel_ramp_down || gisclose travel_ramp_down k0)
       then gtrapezoid dir pv acc distance v_begin v_target v_end extrusion_only
       else if ltb v_end v_peak_tri && ltb v_begin v_peak_tri
               && (ltb v_peak_tri v_target || gisclose v_peak_tri v_target)
       then gtriang dir pv acc v_begin v_peak_tri v_end
       else if ltb v_begin v_end_sing && (ltb v_end_sing v_target || gisclose v_end_sing v_target)
       then gsingl_up dir pv acc v_begin v_end_sing
       else if ltb v_end_sing v_begin
       then gsingl_dwn dir pv acc v_begin_sing v_end
       else Err NameError).
Definition gprevious_segment (A : gkstate) (prev : option gblock) : res gsegment :=
  match prev with
  | Some p => glast_seg (gb_segs p)
  | None => Ok (gcreate_initial (gk_pos A))
  end.
Definition gplanner_block (fw : firmware) (A : option gkstate) (B : gkstate) (rest : list gkstate)
           (prev : option gblock) : res (option gblock) :=
  if leb (gk_acc B) k0 then Err Unmodelled
  else
    let j := gmk_junction A B rest in
    let v_JD := gjunction_vel fw j B in
    let dir := gget_norm_dir (gtarget_vel j) in
    b <- match A, dir with
         | Some a, Some d =>
           if gnot_zero (gtarget_vel j) then
             pv <- gprevious_segment a prev ;;
             '(segs, ty) <- gmove_maker2 a B d pv v_JD ;;
             Ok (Some (GBlock a B dir segs (Some ty)
                              (gpos_is_extruding (gk_pos a) (gk_pos B) true) (gvscale v_JD d)))
           else Ok None
         | _, _ => Ok None
         end ;;
    match gk_pause B with
    | None => Ok b
    | Some p =>
      match prev with
      | None => Err AttributeError
      | Some pb =>
        pv <- glast_seg (gb_segs pb) ;;
        s <- gmk_segment (gt_end pv) (gt_end pv + p) (gpos_end pv) (gpos_end pv) gzero gzero ;;
        match b, A with
        | Some b, _ => Ok (Some (GBlock (gb_A b) (gb_B b) (gb_dir b) [s] (gb_type b) (gb_extr b) gzero))
        | None, Some a => Ok (Some (GBlock a B None [s] None false gzero))
        | None, None => Err Unmodelled
        end
      end
    end.
Definition gadd_block (ob : option gblock) (done : list gblock) : list gblock :=
  match ob with
  | Some b => match gb_segs b with [] => done | _ => b :: done end
  | None => done
  end.
Fixpoint ggen_blocks (fw : firmware) (A : option gkstate) (states : list gkstate) (done : list gblock)
  : res (list gblock) :=
  match states with
  | [] => Ok (rev done)
  | s :: rest =>
    ob <- gplanner_block fw A s rest (hd_error done) ;;
    ggen_blocks fw (Some s) rest (gadd_block ob done)
  end.
Definition ggenerate_planner_blocks (fw : firmware) (states : list gkstate) : res (list gblock) :=
  ggen_blocks fw None states [].
Definition gset_segs (b : gblock) (segs : list gsegment) (ty : option btype) : gblock :=
  GBlock (gb_A b) (gb_B b) (gb_dir b) segs ty (gb_extr b) (gb_JD b).
Definition gtimeshift (dt : F) (b : gblock) : gblock :=
  gset_segs b (map (gmove_segment_time dt) (gb_segs b)) (gb_type b).
Definition gadherence_warning (b : gblock) : bool :=
  existsb (fun s => match gself_check_settings (gk_speed (gb_B b)) s with Ok _ => false | Err _ => true end)
          (gb_segs b).
Definition gcheck_continuity (s n : gsegment) : res unit :=
  if gveqb (gpos_end s) (gpos_begin n) then Ok tt
  else if ltb (dec 1 (-12)) (gnorm3 (gvsub (gvsub (gpos_end s) (gpos_begin n)) gzero)) then Err NameError
  else Ok tt.
Definition gflag_correct (s n : gsegment) : bool :=
  let e := gnorm3 (gvel_end s) in
  let b := gnorm3 (gvel_begin n) in
  negb (eqb e b) && ltb (dec 1 (-12)) (abs (e - b)).
Definition gremake (prevs : list gblock) (b : gblock) (v_end : F) : res gblock :=
  match gb_dir b with
  | None => Err TypeError
  | Some d =>
    pv <- gprevious_segment (gb_A b) (hd_error prevs) ;;
    '(segs, ty) <- gmove_maker2 (gb_A b) (gb_B b) d pv v_end ;;
    Ok (gset_segs b segs (Some ty))
  end.
Fixpoint gself_correction (prevs : list gblock) (b n : gblock)
  : res (list gblock * gblock * gblock * bool) :=
  s <- glast_seg (gb_segs b) ;;
  m <- gfirst_seg (gb_segs n) ;;
  '(prevs1, b1, w1) <-
    (if gflag_correct s m then
       b1 <- gremake prevs b (gnorm3 (gvel_begin m)) ;;
       match gb_type b1 with
       | Some Single =>
         match prevs with
         | [] => Err AttributeError
         | p :: ps =>
           '(ps', p', b2, w) <- gself_correction ps p b1 ;;
           Ok (p' :: ps', b2, w)
         end
       | _ => Ok (prevs, b1, false)
       end
     else Ok (prevs, b, false)) ;;
  s1 <- glast_seg (gb_segs b1) ;;
  let n1 := gtimeshift (gt_end s1 - gt_begin m) n in
  m1 <- gfirst_seg (gb_segs n1) ;;
  _ <- gcheck_continuity s1 m1 ;;
  Ok (prevs1, b1, n1, w1 || gadherence_warning b1).
Fixpoint gcorrect_from (prevs : list gblock) (b : gblock) (rest : list gblock) : res (list gblock * bool) :=
  match rest with
  | [] => Ok (rev (b :: prevs), gadherence_warning b)
  | n :: rest' =>
    '(prevs', b', n', w) <- gself_correction prevs b n ;;
    '(bl, w') <- gcorrect_from (b' :: prevs') n' rest' ;;
    Ok (bl, w || w')
  end.
Definition gtrajectory_self_correct (bl : list gblock) : res (list gblock * bool) :=
  match bl with
  | [] => Ok ([], false)
  | b :: rest => gcorrect_from [] b rest
  end.
Definition gsimulate (fw : firmware) (states : list gkstate) : res (list gblock * bool) :=
  bl <- ggenerate_planner_blocks fw states ;;
  gtrajectory_self_correct bl.

(** * Interp.v: from the text to the blocks *)
Definition knum : numops :=
  {| num := F; n_of_dec := k_dec k; n_add := k_add k; n_div := fun x p => k_div k x (dec (Zpos p) 0) |}.
Definition gnum_of (v : sval knum) : res F := match v with SNum x => Ok x | SStr _ => Err Unmodelled end.
Definition gto_kstate (s : state knum) : res gkstate :=
  let p := state_position s in
  v <- gnum_of (speed (state_p_settings s)) ;;
  a <- gnum_of (p_acc (state_p_settings s)) ;;
  j <- gnum_of (jerk (state_p_settings s)) ;;
  w <- match pause s with None => Ok None | Some w => w <- gnum_of w ;; Ok (Some w) end ;;
  Ok (GKState (GV (px p) (py p) (pz p) (pe p)) v a j w (layer s)).
Fixpoint gto_kstates (l : list (state knum)) : res (list gkstate) :=
  match l with
  | [] => Ok []
  | s :: l' => k <- gto_kstate s ;; r <- gto_kstates l' ;; Ok (k :: r)
  end.
(** gcode_interpreter.py:236-238 *)
Definition grun (fw : firmware) (lines : list str) (su : setup_values knum) : res (list gblock * bool) :=
  sts <- generate_states knum lines su ;; ks <- gto_kstates sts ;; gsimulate fw ks.
End Planner.

(** * The real numbers *)
Definition Rk : kops :=
  {| K := R; k_dec := r_of_dec; k_add := Rplus; k_sub := Rminus; k_mul := Rmult; k_div := Rdiv;
     k_sqrt := sqrt; k_abs := Rabs; k_opp := Ropp; k_ltb := Rltb; k_leb := Rleb; k_eqb := Reqb;
     k_sin_max := sin (162 * PI / 360); k_sin_min := sin (18 * PI / 360) |}.

(** * Rounded operations: [rnd] maps a number to the nearest double (Rounding.v) *)
Definition Bk (rnd : R -> R) : kops :=
  {| K := R; k_dec := fun m e => rnd (r_of_dec m e); k_add := fun x y => rnd (Rplus x y);
     k_sub := fun x y => rnd (Rminus x y); k_mul := fun x y => rnd (Rmult x y); k_div := fun x y => rnd (Rdiv x y);
     k_sqrt := fun x => rnd (R_sqrt.sqrt x); k_abs := Rabs; k_opp := Ropp; k_ltb := Rltb; k_leb := Rleb; k_eqb := Reqb;
     k_sin_max := rnd (sin (162 * PI / 360)); k_sin_min := rnd (sin (18 * PI / 360)) |}.

(** * IEEE doubles, as the standard library specifies them (Coq.Floats.SpecFloat) *)
(** float(text): the double nearest to m * 10^e.  A quotient of integers of any
    size is rounded once. *)
Definition f_int (m : Z) : spec_float := binary_normalize 53 1024 m 0 false.
Definition f_dec (m e : Z) : spec_float :=
  match e with
  | Z0 => f_int m
  | Zpos p => f_int (m * Z.pow_pos 10 p)
  | Zneg p =>
    match m with
    | Z0 => S754_zero false
    | Zpos q => SFdiv 53 1024 (S754_finite false q 0) (S754_finite false (Pos.pow 10 p) 0)
    | Zneg q => SFdiv 53 1024 (S754_finite true q 0) (S754_finite false (Pos.pow 10 p) 0)
    end
  end.
Definition Fk : kops :=
  {| K := spec_float; k_dec := f_dec; k_add := SFadd 53 1024; k_sub := SFsub 53 1024; k_mul := SFmul 53 1024;
     k_div := SFdiv 53 1024; k_sqrt := SFsqrt 53 1024; k_abs := SFabs; k_opp := SFopp;
     k_ltb := SFltb; k_leb := SFleb; k_eqb := SFeqb;
     k_sin_max := S754_finite false 8896305685324892 (-53);     (* 0.9876883405951378 *)
     k_sin_min := S754_finite false 5636145587704693 (-55) |}.  (* 0.15643446504023087 *)
