(** Model of the texts the code makes: the Abaqus event file
    (abaqus_file_generator.py:62-71), the layer metrics file (tools.py:80-95),
    the dictionaries that are dumped as yaml (tools.py:261-267,
    gcode_interpreter.py:762-772), custom_print (helpers.py) and the __str__
    methods.  No proofs here. *)
From Coq Require Import Reals DecimalString.
From Verif Require Import Py Vec Segment Junction Planner Query Abaqus Tools StateGen.
Open Scope R_scope.

(** How Python writes a number (str(x), f"{x}" and "%s" % x agree).  The model
    does not tell ints from floats, which are written differently, so a writer
    is also told the place of the number: line or object, and column. *)
Definition writer := nat -> nat -> R -> str.
(** str(n) of an int that is not negative *)
Definition int_text (n : nat) : str := S_ (NilEmpty.string_of_uint (Nat.to_uint n)).
Definition newline : str := ["010"%char].
(** sep.join(l) *)
Fixpoint join (sep : str) (l : list str) : str :=
  match l with
  | [] => []
  | x :: l' => match l' with [] => x | _ => x ++ sep ++ join sep l' end
  end.

(** * Abaqus file *)
(** round(x, 8): the nearest multiple of 1e-8, of two equally near ones the even one *)
Definition round_half_even (x : R) : Z :=
  let n := Int_part x in
  if Rltb (x - IZR n) (1 / 2) then n
  else if Rltb (1 / 2) (x - IZR n) then (n + 1)%Z
  else if Z.even n then n else (n + 1)%Z.
Definition round8 (x : R) : R := IZR (round_half_even (100000000 * x)) / 100000000.
(** abaqus_file_generator.py:66-68; the flag is the int 0 or 1 *)
Definition event_line (w : writer) (i : nat) (e : event) : str :=
  join (S_ ",") [w i 0%nat (ev_t e); w i 1%nat (round8 (ev_x e)); w i 2%nat (round8 (ev_y e)); w i 3%nat (round8 (ev_z e));
                 int_text (ev_flag e)] ++ newline.
(** abaqus_file_generator.py:64-69 *)
Fixpoint event_lines (w : writer) (i : nat) (evs : list event) : str :=
  match evs with
  | [] => []
  | e :: evs' => event_line w i e ++ event_lines w (S i) evs'
  end.
(** abaqus_file_generator.py:24-73: the text of the file and the returned series *)
Definition write_abaqus_file (w : writer) (s : sim) (tolerance : R) (unit : option str) : res (str * list event) :=
  evs <- generate_abaqus_event_series s tolerance unit ;; Ok (event_lines w 0 evs, evs).

(** * Layer metrics file *)
(** tools.py:85 *)
Definition csv_header (delimiter : str) : str :=
  S_ "layer" ++ delimiter ++ S_ " layer time in s" ++ delimiter ++ S_ " travel distance in mm" ++ delimiter ++
  S_ " avg speed in mm/s".
(** tools.py:86-94: one row of np.savetxt with fmt="%s" *)
Definition csv_row (w : writer) (delimiter : str) (i : nat) (r : layer_row) : str :=
  join (delimiter ++ S_ " ")
    [int_text (row_layer r); w i 1%nat (row_duration r); w i 2%nat (row_travel r);
     match row_speed r with Some v => w i 3%nat v | None => S_ "NaN" end] ++ newline.
Fixpoint csv_rows (w : writer) (delimiter : str) (i : nat) (rows : list layer_row) : str :=
  match rows with
  | [] => []
  | r :: rows' => csv_row w delimiter i r ++ csv_rows w delimiter (S i) rows'
  end.
(** tools.py:80-95.  A percent sign in the delimiter would be read by the
    formatting of np.savetxt and leaves the model.  The locale (tools.py:35-38)
    has no influence on "%s"; that it has to exist is not modelled. *)
Definition csv_file (w : writer) (delimiter : str) (rows : list layer_row) : res str :=
  if existsb (aeqb "%"%char) delimiter then Err Unmodelled
  else Ok (csv_header delimiter ++ newline ++ csv_rows w delimiter 0 rows).
(** tools.py:14-97: the file, if one is written, and the returned lists *)
Definition write_layer_metrics (w : writer) (has_cue with_file : bool) (delimiter : str) (bl : list block)
  : res (option (option str * list layer_row)) :=
  rows <- save_layer_metrics has_cue bl ;;
  match rows with
  | None => Ok None
  | Some rows => if with_file then text <- csv_file w delimiter rows ;; Ok (Some (Some text, rows)) else Ok (Some (None, rows))
  end.

(** * Dictionaries *)
(** Values: what the caller passed, a number, an int, a list of numbers, a text. *)
Inductive entry (A : Type) := Passed (a : A) | Number (x : R) | Count (n : nat) | Times (l : list R) | Text (t : str).
Arguments Passed {A} a. Arguments Number {A} x. Arguments Count {A} n. Arguments Times {A} l. Arguments Text {A} t.
(** tools.py:261-267 *)
Definition submodel_dict {A} (kwargs : dict A) (m : submodel) : dict (entry A) :=
  dset (S_ "time_out") (Times (time_out m))
    (dset (S_ "time_in") (Times (time_in m))
      (dset (S_ "n_filaments") (Count (n_filaments m))
        (dset (S_ "time_process") (Number (time_process m))
          (map (fun kv => (fst kv, Passed (snd kv))) kwargs)))).
(** tools.py:100-273: the returned dictionary *)
Definition submodel_result {A} (kwargs : dict A) (bl : list block) (c : cube) : res (dict (entry A)) :=
  m <- write_submodel_times bl c ;; Ok (submodel_dict kwargs m).
(** gcode_interpreter.py:759-772 *)
Definition summary_dict (filename : str) (s : sim) : res (dict (entry Empty_set)) :=
  '(t, ((x0, y0, z0), (x1, y1, z1)), v) <- save_summary s ;;
  Ok [(S_ "filename", Text filename); (S_ "t_end", Number t);
      (S_ "x_min", Number x0); (S_ "y_min", Number y0); (S_ "z_min", Number z0);
      (S_ "x_max", Number x1); (S_ "y_max", Number y1); (S_ "z_max", Number z1);
      (S_ "max_extrusion_travel_velocity", Number v)].

(** * helpers.py:13-23 *)
(** Arguments of print: a text (its code points), or an object of another class. *)
Inductive printable := Chars (l : list nat) | Object.
(** helpers.py:17-19: encode("ascii", "ignore").decode() *)
Definition sanitize (a : printable) : res printable :=
  match a with
  | Chars l => Ok (Chars (filter (fun c => c <? 128)%nat l))
  | Object => Err AttributeError
  end.
Fixpoint sanitize_all (args : list printable) : res (list printable) :=
  match args with
  | [] => Ok []
  | a :: args' => x <- sanitize a ;; xs <- sanitize_all args' ;; Ok (x :: xs)
  end.
(** helpers.py:13-23: what is handed to print; [abaqus] is FLAG_USING_ABAQUS *)
Definition custom_print (abaqus : bool) (args : list printable) : res (list printable) :=
  if abaqus then sanitize_all args else Ok args.

(** * __str__ *)
(** "{:c^n}".format(t) *)
Definition centered (c : ascii) (n : nat) (t : str) : str :=
  repeat c (Nat.div2 (n - length t)) ++ t ++ repeat c (n - length t - Nat.div2 (n - length t)).
(** planner_block.py:359-372 *)
Definition block_str (b : block) : str :=
  match length (b_segs b) with
  | 3%nat => centered "-"%char 40 (S_ "Trapezoid Planner Block")
  | 2%nat => centered "-"%char 40 (S_ "Triangular Planner Block")
  | 1%nat => centered "-"%char 40 (S_ "Singular Planner Block")
  | _ => centered "#"%char 40 (S_ "Invalid Planner Block")
  end.
(** utils.py:49-51; [i] tells the writer which vector it is *)
Definition vec_str (w : writer) (i : nat) (a : vec4) : str :=
  S_ "[" ++ join (S_ ", ") [w i 0%nat (vx a); w i 1%nat (vy a); w i 2%nat (vz a); w i 3%nat (ve a)] ++ S_ "]".
(** utils.py:197-199, 255-257 *)
Definition velocity_str (w : writer) (i : nat) (a : vec4) : str := S_ "velocity: " ++ vec_str w i a.
Definition position_str (w : writer) (i : nat) (a : vec4) : str := S_ "position: " ++ vec_str w i a.
(** utils.py:352-358: the self check may raise; otherwise it returns None
    (utils.py:414-444 has no return statement). *)
Definition segment_str (w : writer) (s : segment) : res str :=
  _ <- self_check s ;;
  Ok (newline ++ S_ "Segment from: " ++ newline ++ position_str w 0 (pos_begin s) ++ S_ " to " ++ newline ++
      position_str w 1 (pos_end s) ++ S_ " Self check: None." ++ newline).

(** state.py:34-58, 137-146.  The numbers of states are those of the reader;
    [w] is told which of the 12 numbers of the state it writes. *)
Definition sval_str {N} (w : nat -> num N -> str) (j : nat) (v : sval N) : str :=
  match v with SNum x => w j x | SStr t => t end.
Definition none_or {A} (f : A -> str) (x : option A) : str := match x with Some a => f a | None => S_ "None" end.
Definition settings_str {N} (w : nat -> num N -> str) (p : p_settings N) : str :=
  S_ "jerk: " ++ sval_str w 4 (jerk p) ++ S_ ", p_acc: " ++ sval_str w 5 (p_acc p) ++
  S_ ", max_ax_vel: [" ++ sval_str w 6 (vX p) ++ S_ ", " ++ sval_str w 7 (vY p) ++ S_ ", " ++ sval_str w 8 (vZ p) ++ S_ ", " ++
  sval_str w 9 (vE p) ++ S_ "]" ++ S_ ", p_vel: " ++ sval_str w 10 (speed p) ++ S_ ", units: " ++ units p.
Definition pos4_str {N} (w : nat -> num N -> str) (p : pos4 N) : str :=
  S_ "position: [" ++ join (S_ ", ") [w 0%nat (px p); w 1%nat (py p); w 2%nat (pz p); w 3%nat (pe p)] ++ S_ "]".
Definition state_str {N} (w : nat -> num N -> str) (s : state N) : str :=
  S_ "<state: line: " ++ none_or int_text (line_number s) ++
  match layer s with Some n => S_ ", layer: " ++ int_text n | None => [] end ++
  S_ ", " ++ pos4_str w (state_position s) ++ S_ ", settings: " ++ settings_str w (state_p_settings s) ++
  S_ ", comment: " ++ none_or (fun t => t) (comment s) ++ S_ ", pause: " ++ none_or (sval_str w 11) (pause s) ++ S_ ">" ++ newline.
