(** The extent, the greatest velocity and the summary of Query.v once more, over
    any numbers, as in Generic.v.  np.amax and np.amin are folds with one
    comparison, which is what they are for numbers that are no nan.  No proofs here. *)
From Coq Require Import List.
From Verif Require Import Py Vec Segment Junction Planner Query Generic GenericQuery.
Import ListNotations.

Section Summary.
Variable k : kops.
Notation F := (K k).

Definition gmax (x y : F) : F := if k_ltb k x y then y else x.
Definition gmin (x y : F) : F := if k_ltb k y x then y else x.
(** np.amax and np.amin; ValueError if empty *)
Definition gamax (l : list F) : res F := match l with [] => Err ValueError | x :: l' => Ok (fold_left gmax l' x) end.
Definition gamin (l : list F) : res F := match l with [] => Err ValueError | x :: l' => Ok (fold_left gmin l' x) end.
(** gcode_interpreter.py:700-726: ((x, y, z) min, (x, y, z) max) *)
Definition gextruding_points (bl : list (gblock k)) : list (gvec k) :=
  map (fun b => gk_pos k (gb_A k b)) (filter (gb_extr k) bl) ++ map (fun b => gk_pos k (gb_B k b)) (filter (gb_extr k) bl).
Definition gextrusion_extent (s : gsim k) (unit : option str) : res ((F * F * F) * (F * F * F)) :=
  let pts := gextruding_points (gblocklist k s) in
  x1 <- gamax (map (gx k) pts) ;; y1 <- gamax (map (gy k) pts) ;; z1 <- gamax (map (gz k) pts) ;;
  x0 <- gamin (map (gx k) pts) ;; y0 <- gamin (map (gy k) pts) ;; z0 <- gamin (map (gz k) pts) ;;
  c <- gget_scaling_factor k s unit ;;
  Ok ((k_mul k c x0, k_mul k c y0, k_mul k c z0), (k_mul k c x1, k_mul k c y1, k_mul k c z1)).
(** planner_block.py:258-279, for an extruding block *)
Definition gaxis_speeds (f : gvec k -> F) (segs : list (gsegment k)) : list F :=
  flat_map (fun s => [k_abs k (f (gvel_begin k s)); k_abs k (f (gvel_end k s))]) segs.
Definition gextrusion_block_max_vel (b : gblock k) : res (F * F * F) :=
  x <- gamax (gaxis_speeds (gx k) (gb_segs k b)) ;;
  y <- gamax (gaxis_speeds (gy k) (gb_segs k b)) ;;
  z <- gamax (gaxis_speeds (gz k) (gb_segs k b)) ;;
  Ok (x, y, z).
Fixpoint gblock_maxima (bl : list (gblock k)) : res (list F) :=
  match bl with
  | [] => Ok []
  | b :: bl' =>
    '(x, y, z) <- gextrusion_block_max_vel b ;;
    rest <- gblock_maxima bl' ;;
    Ok (gnorm3 k (GV k x y z (k0 k)) :: rest)
  end.
(** gcode_interpreter.py:728-745 *)
Definition gextrusion_max_vel (s : gsim k) (unit : option str) : res F :=
  ms <- gblock_maxima (filter (gb_extr k) (gblocklist k s)) ;;
  m <- gamax ms ;;
  c <- gget_scaling_factor k s unit ;;
  Ok (k_mul k c m).
(** gcode_interpreter.py:747-772: end time, extent, greatest velocity *)
Definition gsave_summary (s : gsim k) : res (F * ((F * F * F) * (F * F * F)) * F) :=
  match rev (gblocklist k s) with
  | [] => Err IndexError
  | b :: _ =>
    l <- glast_seg k (gb_segs k b) ;;
    ext <- gextrusion_extent s None ;;
    m <- gextrusion_max_vel s None ;;
    Ok (gt_end k l, ext, m)
  end.
End Summary.
