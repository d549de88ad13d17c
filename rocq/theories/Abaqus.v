(** Model of pyGCodeDecode/abaqus_file_generator.py.  The file written besides
    the returned series (with rounded positions) is in Texts.v. *)
From Verif Require Import Py Vec Segment Junction Planner Query.
Open Scope R_scope.

(** abaqus_file_generator.py:69: one event of the series. *)
Record event := Event { ev_t : R; ev_x : R; ev_y : R; ev_z : R; ev_flag : nat }.

(** abaqus_file_generator.py:49-54: 1 if material is fed up to the next point. *)
Fixpoint extrusion_flags (tolerance : R) (es : list R) : list nat :=
  match es with
  | [] => []
  | e :: es' =>
    match es' with
    | [] => [0%nat]
    | e' :: _ => (if Rltb tolerance (e' - e) then 1%nat else 0%nat) :: extrusion_flags tolerance es'
    end
  end.
(** abaqus_file_generator.py:64-69: zip(time, pos) *)
Definition make_event (scaling : R) (t : R) (pf : vec4 * nat) : event :=
  Event t (scaling * vx (fst pf)) (scaling * vy (fst pf)) (scaling * vz (fst pf)) (snd pf).
Fixpoint make_events (scaling : R) (times : list R) (pos : list (vec4 * nat)) : list event :=
  match times, pos with
  | t :: times', p :: pos' => make_event scaling t p :: make_events scaling times' pos'
  | _, _ => []
  end.
(** abaqus_file_generator.py:24-73 *)
Definition generate_abaqus_event_series (s : sim) (tolerance : R) (unit : option str) : res (list event) :=
  let unpacked := unpack_blocklist (blocklist s) in
  first <- first_seg unpacked ;;
  let pos := pos_begin first :: map pos_end unpacked in
  let time := 0 :: map t_end unpacked in
  let flags := extrusion_flags tolerance (map ve pos) in
  scaling <- get_scaling_factor s unit ;;
  Ok (make_events scaling time (combine pos flags)).
