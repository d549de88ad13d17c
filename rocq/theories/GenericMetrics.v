(** The layer metrics of Tools.v once more, over any numbers, as in Generic.v,
    and the csv file written with doubles, with the numbers in it as Python
    writes them (Repr.v).  No proofs here. *)
From Coq Require Import Reals SpecFloat.
From Verif Require Import Py PyFloat Vec Generic Texts Repr.

Section Metrics.
Variable k : kops.
Notation F := (K k).

(** planner_block.py:378-380 *)
Definition gget_block_travel (b : gblock k) : F := gt_distance k (gk_pos k (gb_A k b)) (gk_pos k (gb_B k b)) false.
(** tools.py:66-69: layer, duration, travel distance, average speed (None: "NaN") *)
Record glayer_row := GRow { grow_layer : nat; grow_duration : F; grow_travel : F; grow_speed : option F }.
(** tools.py:64 *)
Definition gaverage_speed (travel duration : F) : option F :=
  if k_eqb k duration (k0 k) then None else Some (k_div k travel duration).
(** tools.py:49-78.  A block without a layer: None > 0 is a TypeError. *)
Fixpoint glayer_loop (bl : list (gblock k)) (current_layer : nat) (last_layer_time travel : F) : res (list glayer_row) :=
  match bl with
  | [] => Ok []
  | b :: bl' =>
    match gk_layer k (gb_B k b) with
    | None => Err TypeError
    | Some next_layer =>
      if (current_layer <? next_layer)%nat then
        f <- gfirst_seg k (gb_segs k b) ;;
        let duration := k_sub k (gt_begin k f) last_layer_time in
        rows <- glayer_loop bl' next_layer (gt_begin k f) (k_add k (k0 k) (gget_block_travel b)) ;;
        Ok (GRow current_layer duration travel (gaverage_speed travel duration) :: rows)
      else
        match bl' with
        | [] =>
          l <- glast_seg k (gb_segs k b) ;;
          let duration := k_sub k (gt_end k l) last_layer_time in
          Ok [GRow current_layer duration travel (gaverage_speed travel duration)]
        | _ => glayer_loop bl' current_layer last_layer_time (k_add k travel (gget_block_travel b))
        end
    end
  end.
(** tools.py:30-33, 97 *)
Definition gsave_layer_metrics (has_cue : bool) (bl : list (gblock k)) : res (option (list glayer_row)) :=
  if has_cue then rows <- glayer_loop bl 0 (k0 k) (k0 k) ;; Ok (Some rows) else Ok None.
End Metrics.

(** A zero can be the int 0 (tools.py:45-47: no travel yet, or the time at
    which the first segment begins), which is written without a point.  The
    model does not tell it from the float; [ints] does, by the row and the column. *)
Definition number_text (ints : nat -> nat -> bool) (i j : nat) (x : spec_float) : str :=
  match x with
  | S754_zero false => if ints i j then S_ "0" else py_repr x
  | _ => py_repr x
  end.
(** tools.py:86-94: one row of np.savetxt with fmt="%s" *)
Definition float_row (ints : nat -> nat -> bool) (delimiter : str) (i : nat) (r : glayer_row Fk) : str :=
  join (delimiter ++ S_ " ")
    [int_text (grow_layer Fk r); number_text ints i 1 (grow_duration Fk r); number_text ints i 2 (grow_travel Fk r);
     match grow_speed Fk r with Some v => py_repr v | None => S_ "NaN" end] ++ newline.
Fixpoint float_rows (ints : nat -> nat -> bool) (delimiter : str) (i : nat) (rows : list (glayer_row Fk)) : str :=
  match rows with
  | [] => []
  | r :: rows' => float_row ints delimiter i r ++ float_rows ints delimiter (S i) rows'
  end.
(** tools.py:80-95, with the restriction on the delimiter of Texts.v *)
Definition float_csv_file (ints : nat -> nat -> bool) (delimiter : str) (rows : list (glayer_row Fk)) : res str :=
  if existsb (aeqb "%"%char) delimiter then Err Unmodelled
  else Ok (csv_header delimiter ++ newline ++ float_rows ints delimiter 0 rows).
(** tools.py:14-97: the file, if one is written, and the returned lists *)
Definition float_layer_metrics (ints : nat -> nat -> bool) (has_cue with_file : bool) (delimiter : str) (bl : list (gblock Fk))
  : res (option (option str * list (glayer_row Fk))) :=
  rows <- gsave_layer_metrics Fk has_cue bl ;;
  match rows with
  | None => Ok None
  | Some rows => if with_file then text <- float_csv_file ints delimiter rows ;; Ok (Some (Some text, rows)) else Ok (Some (None, rows))
  end.
