(** The queries of Segment.v and Query.v once more, over any numbers, as in
    Generic.v: with the real numbers they are those of Query.v
    (C115_exact_numbers), with IEEE doubles what CPython computes.  Each
    definition bears the name of the one it repeats, with a [g] in front, and
    models the same lines.  No proofs here. *)
From Coq Require Import Reals SpecFloat.
From Verif Require Import Py Vec Junction Planner Generic.

Section Queries.
Variable k : kops.
Notation F := (K k).
Notation "x + y" := (k_add k x y). Notation "x - y" := (k_sub k x y).
Notation "x * y" := (k_mul k x y). Notation "x / y" := (k_div k x y).
Notation ltb := (k_ltb k). Notation leb := (k_leb k).
Notation dec := (k_dec k).

(** * Segment.v: utils.py:369-404 *)
(** utils.py:378-386.  The product with the time is that of the vector, from the right. *)
Definition gvel_at (s : gsegment k) (t : F) : gvec k :=
  let dv := gvsub k (gvel_end k s) (gvel_begin k s) in
  let dt := gt_end k s - gt_begin k s in
  let slope := if ltb (k0 k) dt then gvdiv k dv dt else gzero k in
  gvadd k (gvel_begin k s) (gvscale k (t - gt_begin k s) slope).
(** utils.py:400-404 *)
Definition gpos_at (s : gsegment k) (t : F) : gvec k :=
  gvadd k (gpos_begin k s) (gvdiv k (gvscale k (t - gt_begin k s) (gvadd k (gvel_begin k s) (gvel_at s t))) (k2 k)).
(** utils.py:378, 398 *)
Definition gout_of_range (s : gsegment k) (t : F) : bool := ltb t (gt_begin k s) || ltb (gt_end k s) t.
(** utils.py:369-386 *)
Definition gget_velocity (s : gsegment k) (t : F) : res (gvec k) :=
  if gout_of_range s t then Err ValueError else Ok (gvel_at s t).
(** utils.py:388-404 *)
Definition gget_position (s : gsegment k) (t : F) : res (gvec k) :=
  if gout_of_range s t then Err ValueError else Ok (gpos_at s t).

(** * Query.v: gcode_interpreter.py:132-162, 198, 582-605, 782-796 *)
Inductive gfound := GAt (s : gsegment k) (i : nat) | GNoMovement | GNothing.
(** gcode_interpreter.py:140-142 *)
Fixpoint gscan_fresh (path : list (gsegment k)) (t : F) (i : nat) : gfound :=
  match path with
  | [] => GNothing
  | s :: path' => if leb (gt_begin k s) t && ltb t (gt_end k s) then GAt s i else gscan_fresh path' t (S i)
  end.
(** gcode_interpreter.py:144-146 *)
Fixpoint gscan_from (path : list (gsegment k)) (t : F) (i : nat) : gfound :=
  match path with
  | [] => GNothing
  | s :: path' => if leb (gt_begin k s) t && leb t (gt_end k s) then GAt s i else gscan_from path' t (S i)
  end.
(** gcode_interpreter.py:138 *)
Definition gsearch_anew (path : list (gsegment k)) (t : F) (last_index : option nat) : bool :=
  match last_index with
  | None => true
  | Some i => match nth_error path i with None => true | Some s => ltb t (gt_begin k s) end
  end.
(** gcode_interpreter.py:132-147 *)
Definition gfind_current_segment (path : list (gsegment k)) (t : F) (last_index : option nat) : res gfound :=
  l <- glast_seg k path ;;
  if ltb (gt_end k l) t then Ok GNoMovement
  else if gsearch_anew path t last_index then Ok (gscan_fresh path t 0)
  else
    let i := match last_index with Some i => i | None => 0%nat end in
    match gscan_from (skipn i path) t i with
    | GAt s j => Ok (GAt s j)
    | _ => Err ValueError
    end.
(** gcode_interpreter.py:150-162 *)
Definition gunpack_blocklist (bl : list (gblock k)) : list (gsegment k) := concat (map (gb_segs k) bl).
(** gcode_interpreter.py:198 *)
Definition goutput_units : dict F := [(S_ "SI", dec 1 (-3)); (S_ "SImm", dec 1 0); (S_ "inch", dec 1 0 / dec 254 (-1))].
(** The attributes of a simulation the queries use *)
Record gsim := GSim { gblocklist : list (gblock k); goutput_unit_system : str; glast_index : option nat }.
(** gcode_interpreter.py:782-796 *)
Definition gget_scaling_factor (s : gsim) (unit : option str) : res F :=
  match dget (match unit with Some u => u | None => goutput_unit_system s end) goutput_units with
  | Some c => Ok c
  | None => Err KeyError
  end.
(** gcode_interpreter.py:582-605: the values, and last_index afterwards *)
Definition gget_values (s : gsim) (t : F) (unit : option str) : res (gvec k * gvec k) * option nat :=
  match gfind_current_segment (gunpack_blocklist (gblocklist s)) t (glast_index s) with
  | Err e => (Err e, glast_index s)
  | Ok GNothing => (Err TypeError, glast_index s)
  | Ok GNoMovement => (Err AttributeError, None)
  | Ok (GAt g i) =>
    (v <- gget_velocity g t ;; p <- gget_position g t ;;
     c <- gget_scaling_factor s unit ;; Ok (gvscale k c v, gvscale k c p), Some i)
  end.
End Queries.
