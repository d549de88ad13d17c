(** The Abaqus event series of Abaqus.v once more, over any numbers, as in
    Generic.v, and the file written with doubles: with the numbers in it as
    Python writes them (Repr.v).  No proofs here. *)
From Coq Require Import Reals SpecFloat.
From Verif Require Import Py PyFloat Vec Generic GenericQuery Texts Repr.

Section Events.
Variable k : kops.
Notation F := (K k).

(** abaqus_file_generator.py:70: one event of the series *)
Record gevent := GEvent { gev_t : F; gev_x : F; gev_y : F; gev_z : F; gev_flag : nat }.
(** abaqus_file_generator.py:49-54 *)
Fixpoint gextrusion_flags (tolerance : F) (es : list F) : list nat :=
  match es with
  | [] => []
  | e :: es' =>
    match es' with
    | [] => [0%nat]
    | e' :: _ => (if k_ltb k tolerance (k_sub k e' e) then 1%nat else 0%nat) :: gextrusion_flags tolerance es'
    end
  end.
(** abaqus_file_generator.py:66-70 *)
Definition gmake_event (scaling : F) (t : F) (pf : gvec k * nat) : gevent :=
  GEvent t (k_mul k scaling (gx k (fst pf))) (k_mul k scaling (gy k (fst pf))) (k_mul k scaling (gz k (fst pf))) (snd pf).
Fixpoint gmake_events (scaling : F) (times : list F) (pos : list (gvec k * nat)) : list gevent :=
  match times, pos with
  | t :: times', p :: pos' => gmake_event scaling t p :: gmake_events scaling times' pos'
  | _, _ => []
  end.
(** abaqus_file_generator.py:24-73 *)
Definition ggenerate_abaqus_event_series (s : gsim k) (tolerance : F) (unit : option str) : res (list gevent) :=
  let unpacked := gunpack_blocklist k (gblocklist k s) in
  match unpacked with
  | [] => Err IndexError
  | first :: _ =>
    let pos := gpos_begin k first :: map (gpos_end k) unpacked in
    let time := k0 k :: map (gt_end k) unpacked in
    let flags := gextrusion_flags tolerance (map (ge k) pos) in
    scaling <- gget_scaling_factor k s unit ;;
    Ok (gmake_events scaling time (combine pos flags))
  end.
End Events.

(** * round of numpy.float64 *)
(** numpy.rint: the nearest whole number, of two equally near ones the even one.
    A double with an exponent that is not negative is one. *)
Definition rint (x : spec_float) : spec_float :=
  match x with
  | S754_finite s m e =>
    if (0 <=? e)%Z then x
    else match f_dec (fst (candidates (numer m e) (denom e) 0)) 0 with
         | S754_zero _ => S754_zero s
         | y => if s then SFopp y else y
         end
  | _ => x
  end.
(** numpy's round(x, 8) of a scalar: multiplied by 1e8, rounded, divided by 1e8 *)
Definition np_round8 (x : spec_float) : spec_float :=
  k_div Fk (rint (k_mul Fk x (k_dec Fk 1 8))) (k_dec Fk 1 8).
(** round(x, 8).  A coordinate can be a float or a numpy.float64 (lengths come
    from numpy.linalg.norm); the model does not tell them apart, [np] does, by
    the line and the column. *)
Definition round_8 (np : nat -> nat -> bool) (i j : nat) (x : spec_float) : spec_float :=
  if np i j then np_round8 x else py_round 8 x.
(** abaqus_file_generator.py:66-68.  The time of the first line is the int 0;
    floats and numpy.float64 are written alike in f-strings. *)
Definition float_line (np : nat -> nat -> bool) (i : nat) (e : gevent Fk) : str :=
  join (S_ ",") [match i with O => S_ "0" | _ => py_repr (gev_t Fk e) end;
                 py_repr (round_8 np i 1 (gev_x Fk e)); py_repr (round_8 np i 2 (gev_y Fk e)); py_repr (round_8 np i 3 (gev_z Fk e));
                 int_text (gev_flag Fk e)] ++ newline.
(** abaqus_file_generator.py:64-69 *)
Fixpoint float_lines (np : nat -> nat -> bool) (i : nat) (evs : list (gevent Fk)) : str :=
  match evs with
  | [] => []
  | e :: evs' => float_line np i e ++ float_lines np (S i) evs'
  end.
(** abaqus_file_generator.py:24-73: the text of the file and the returned series *)
Definition float_abaqus_file (np : nat -> nat -> bool) (s : gsim Fk) (tolerance : spec_float) (unit : option str) : res (str * list (gevent Fk)) :=
  evs <- ggenerate_abaqus_event_series Fk s tolerance unit ;; Ok (float_lines np 0 evs, evs).
