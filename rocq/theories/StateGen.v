(** Model of state.state and state_generator.dict_list_traveler
    (pyGCodeDecode/state.py, pyGCodeDecode/state_generator.py:81-104, 198-378, 412-426),
    polymorphic in the numbers. *)
From Coq Require Import QArith Reals.
From Verif Require Import Py PyFloat Parser.
Open Scope nat_scope.

(** The operations the reader performs on numbers.  [n_of_dec m e] is the value
    of the decimal m * 10^e, [n_div x z] is x / z for a literal z. *)
Record numops := {
  num : Type;
  n_of_dec : Z -> Z -> num;
  n_add : num -> num -> num;
  n_div : num -> positive -> num;
}.

(** Exact rationals: the instance that runs. *)
Definition q_of_dec (m e : Z) : Q :=
  match e with
  | Z0 => inject_Z m
  | Zpos p => inject_Z (m * Z.pow_pos 10 p)
  | Zneg p => Qmake m (Pos.pow 10 p)
  end.
Definition Qops : numops :=
  {| num := Q; n_of_dec := q_of_dec; n_add := Qplus; n_div := fun x p => (x * (1 # p))%Q |}.

(** Reals: the instance the kinematic model uses. *)
Definition r_of_dec (m e : Z) : R :=
  match e with
  | Z0 => IZR m
  | Zpos p => IZR (m * Z.pow_pos 10 p)
  | Zneg p => (IZR m / IZR (Zpos (Pos.pow 10 p)))%R
  end.
Definition Rops : numops :=
  {| num := R; n_of_dec := r_of_dec; n_add := Rplus; n_div := fun x p => (x / IZR (Zpos p))%R |}.

Inductive axis := AX | AY | AZ | AE.

Section Reader.
Variable N : numops.

(** A value stored for a setting: the code stores whatever the line held, also
    a string that did not parse as a number. *)
Inductive sval : Type :=
| SNum (x : num N)
| SStr (s : str).

(** utils.py:27-47: a position (x, y, z, e). *)
Record pos4 := { px : num N; py : num N; pz : num N; pe : num N }.

(** state.py:9-32 p_settings.  [units] is "SImm" or "inch". *)
Record p_settings := {
  p_acc : sval; jerk : sval; vX : sval; vY : sval; vZ : sval; vE : sval;
  speed : sval; units : str }.

(** state.py:60-74.  prev_state and next_state are the neighbours in the list
    of states (state_generator.py:373-375) and are not stored. *)
Record state := {
  state_position : pos4;
  state_p_settings : p_settings;
  line_number : option nat;
  comment : option str;
  layer : option nat;
  pause : option sval }.

(** state_generator.py:212-239 virtual_machine.  The entries that are never read
    (nozzle_diam, filament_diam, t_vel, initial_position) are left out. *)
Record vm := {
  absolute_position : bool;
  absolute_extrusion : bool;
  vm_units : str;
  vm_p_vel : sval; vm_p_acc : sval; vm_jerk : sval;
  vm_vX : sval; vm_vY : sval; vm_vZ : sval; vm_vE : sval;
  cX : num N; cY : num N; cZ : num N; cE : num N;          (* "X" .. "E" *)
  oX : num N; oY : num N; oZ : num N; oE : num N }.        (* "_X" .. "_E" *)

(** What the reader takes from initial_machine_setup (gcode_interpreter.py:226,
    after check_initial_setup, so the positioning modes and the unit always
    have their defaults; a setup key that is absent gets the default of
    state_generator.py:81-104, see [default_setup]). *)
Record setup_values := {
  s_p_vel : num N; s_p_acc : num N; s_jerk : num N;
  s_vX : num N; s_vY : num N; s_vZ : num N; s_vE : num N;
  s_X : num N; s_Y : num N; s_Z : num N; s_E : num N;
  s_layer_cue : option str }.

Definition nint (z : Z) : num N := n_of_dec N z 0.

(** state_generator.py:81-104 default_virtual_machine *)
Definition default_setup : setup_values :=
  {| s_p_vel := nint 35; s_p_acc := nint 200; s_jerk := nint 10;
     s_vX := nint 180; s_vY := nint 180; s_vZ := nint 30; s_vE := nint 33;
     s_X := nint 0; s_Y := nint 0; s_Z := nint 0; s_E := nint 0;
     s_layer_cue := None |}.

(** state_generator.py:212-239: the machine before the first line. *)
Definition init_vm (su : setup_values) : vm :=
  {| absolute_position := true; absolute_extrusion := true; vm_units := S_ "SImm";
     vm_p_vel := SNum (s_p_vel su); vm_p_acc := SNum (s_p_acc su); vm_jerk := SNum (s_jerk su);
     vm_vX := SNum (s_vX su); vm_vY := SNum (s_vY su); vm_vZ := SNum (s_vZ su); vm_vE := SNum (s_vE su);
     cX := s_X su; cY := s_Y su; cZ := s_Z su; cE := s_E su;
     oX := nint 0; oY := nint 0; oZ := nint 0; oE := nint 0 |}.

Definition axis_key (a : axis) : str :=
  match a with AX => S_ "X" | AY => S_ "Y" | AZ => S_ "Z" | AE => S_ "E" end.
Definition get_c (a : axis) (m : vm) : num N :=
  match a with AX => cX m | AY => cY m | AZ => cZ m | AE => cE m end.
Definition get_o (a : axis) (m : vm) : num N :=
  match a with AX => oX m | AY => oY m | AZ => oZ m | AE => oE m end.
Definition get_v (a : axis) (m : vm) : sval :=
  match a with AX => vm_vX m | AY => vm_vY m | AZ => vm_vZ m | AE => vm_vE m end.

Definition set_c (a : axis) (x : num N) (m : vm) : vm :=
  {| absolute_position := absolute_position m; absolute_extrusion := absolute_extrusion m;
     vm_units := vm_units m; vm_p_vel := vm_p_vel m; vm_p_acc := vm_p_acc m; vm_jerk := vm_jerk m;
     vm_vX := vm_vX m; vm_vY := vm_vY m; vm_vZ := vm_vZ m; vm_vE := vm_vE m;
     cX := match a with AX => x | _ => cX m end; cY := match a with AY => x | _ => cY m end;
     cZ := match a with AZ => x | _ => cZ m end; cE := match a with AE => x | _ => cE m end;
     oX := oX m; oY := oY m; oZ := oZ m; oE := oE m |}.
Definition set_o (a : axis) (x : num N) (m : vm) : vm :=
  {| absolute_position := absolute_position m; absolute_extrusion := absolute_extrusion m;
     vm_units := vm_units m; vm_p_vel := vm_p_vel m; vm_p_acc := vm_p_acc m; vm_jerk := vm_jerk m;
     vm_vX := vm_vX m; vm_vY := vm_vY m; vm_vZ := vm_vZ m; vm_vE := vm_vE m;
     cX := cX m; cY := cY m; cZ := cZ m; cE := cE m;
     oX := match a with AX => x | _ => oX m end; oY := match a with AY => x | _ => oY m end;
     oZ := match a with AZ => x | _ => oZ m end; oE := match a with AE => x | _ => oE m end |}.
Definition set_v (a : axis) (x : sval) (m : vm) : vm :=
  {| absolute_position := absolute_position m; absolute_extrusion := absolute_extrusion m;
     vm_units := vm_units m; vm_p_vel := vm_p_vel m; vm_p_acc := vm_p_acc m; vm_jerk := vm_jerk m;
     vm_vX := match a with AX => x | _ => vm_vX m end; vm_vY := match a with AY => x | _ => vm_vY m end;
     vm_vZ := match a with AZ => x | _ => vm_vZ m end; vm_vE := match a with AE => x | _ => vm_vE m end;
     cX := cX m; cY := cY m; cZ := cZ m; cE := cE m;
     oX := oX m; oY := oY m; oZ := oZ m; oE := oE m |}.
Definition set_modes (ap ae : bool) (u : str) (m : vm) : vm :=
  {| absolute_position := ap; absolute_extrusion := ae;
     vm_units := u; vm_p_vel := vm_p_vel m; vm_p_acc := vm_p_acc m; vm_jerk := vm_jerk m;
     vm_vX := vm_vX m; vm_vY := vm_vY m; vm_vZ := vm_vZ m; vm_vE := vm_vE m;
     cX := cX m; cY := cY m; cZ := cZ m; cE := cE m;
     oX := oX m; oY := oY m; oZ := oZ m; oE := oE m |}.
Definition set_dyn (pv pa je : sval) (m : vm) : vm :=
  {| absolute_position := absolute_position m; absolute_extrusion := absolute_extrusion m;
     vm_units := vm_units m; vm_p_vel := pv; vm_p_acc := pa; vm_jerk := je;
     vm_vX := vm_vX m; vm_vY := vm_vY m; vm_vZ := vm_vZ m; vm_vE := vm_vE m;
     cX := cX m; cY := cY m; cZ := cZ m; cE := cE m;
     oX := oX m; oY := oY m; oZ := oZ m; oE := oE m |}.

(** A parsed value used in arithmetic: a string raises TypeError (str + number,
    str / number); a non-finite float leaves the model.  For absolute moves the
    code stores the string and raises when it builds the position at the end of
    the same line (state_generator.py:339-344); the model raises at once (it
    differs only on a line where a G1 overwrites the string a G0 stored). *)
Definition need_num (l : leaf) : res (num N) :=
  match l with
  | LNum (Dec m e) => Ok (n_of_dec N m e)
  | LNum NonFinite => Err Unmodelled
  | LStr _ => Err TypeError
  end.
(** A parsed value that is only stored. *)
Definition as_sval (l : leaf) : res sval :=
  match l with
  | LNum (Dec m e) => Ok (SNum (n_of_dec N m e))
  | LNum NonFinite => Err Unmodelled
  | LStr s => Ok (SStr s)
  end.

(** line_dict[command] for a command with a nested dictionary. *)
Definition sub_dict (cmd : str) (d : dict arg) : option (dict leaf) :=
  match dget cmd d with Some (ADict s) => Some s | _ => None end.

(** state_generator.py:269-284 *)
Definition do_modes (d : dict arg) (m : vm) : vm :=
  let ap := absolute_position m in
  let ap := if dmem (S_ "G90") d then true else ap in
  let ap := if dmem (S_ "G91") d then false else ap in
  let ae := absolute_extrusion m in
  let ae := if dmem (S_ "M82") d then true else ae in
  let ae := if dmem (S_ "M83") d then false else ae in
  let u := vm_units m in
  let u := if dmem (S_ "G20") d then S_ "inch" else u in
  let u := if dmem (S_ "G21") d then S_ "SImm" else u in
  set_modes ap ae u m.

(** state_generator.py:292-304: one axis of a G0/G1. *)
Definition do_axis (absolute : bool) (a : axis) (s : dict leaf) (m : vm) : res vm :=
  match dget (axis_key a) s with
  | None => Ok m
  | Some l =>
    x <- need_num l ;;
    Ok (set_c a (if absolute then x else n_add N (get_c a m) x) m)
  end.

(** state_generator.py:289-306: one of the movement commands. *)
Definition do_move (cmd : str) (d : dict arg) (m : vm) : res vm :=
  match sub_dict cmd d with
  | None => Ok m
  | Some s =>
    m <- do_axis (absolute_position m) AX s m ;;
    m <- do_axis (absolute_position m) AY s m ;;
    m <- do_axis (absolute_position m) AZ s m ;;
    m <- do_axis (absolute_extrusion m) AE s m ;;
    match dget (S_ "F") s with
    | None => Ok m
    | Some l => f <- need_num l ;; Ok (set_dyn (SNum (n_div N f 60)) (vm_p_acc m) (vm_jerk m) m)
    end
  end.

Definition axis_of_key (k : str) : option axis :=
  if str_eqb k (S_ "E") then Some AE
  else if str_eqb k (S_ "X") then Some AX
  else if str_eqb k (S_ "Y") then Some AY
  else if str_eqb k (S_ "Z") then Some AZ else None.

(** state_generator.py:310-315: the loop over the keys of a G92, in their order. *)
Fixpoint do_g92 (s : dict leaf) (m : vm) : res vm :=
  match s with
  | [] => Ok m
  | (k, l) :: s' =>
    match axis_of_key k with
    | None => do_g92 s' m
    | Some a =>
      x <- need_num l ;;
      let m1 := set_o a (n_add N (n_add N (get_c a m) x) (get_o a m)) m in
      do_g92 s' (set_c a x m1)
    end
  end.

(** state_generator.py:322-325: the loop over the keys of an M203. *)
Fixpoint do_m203 (s : dict leaf) (m : vm) : res vm :=
  match s with
  | [] => Ok m
  | (k, l) :: s' =>
    match axis_of_key k with
    | None => do_m203 s' m
    | Some a => x <- as_sval l ;; do_m203 s' (set_v a x m)
    end
  end.

Definition do_sub (cmd : str) (d : dict arg) (f : dict leaf -> vm -> res vm) (m : vm) : res vm :=
  match sub_dict cmd d with None => Ok m | Some s => f s m end.

(** state_generator.py:318-319 *)
Definition do_m204 (s : dict leaf) (m : vm) : res vm :=
  match dget (S_ "P") s with
  | None => Ok m
  | Some l => x <- as_sval l ;; Ok (set_dyn (vm_p_vel m) x (vm_jerk m) m)
  end.
(** state_generator.py:328-329 *)
Definition do_m205 (s : dict leaf) (m : vm) : res vm :=
  match dget (S_ "X") s with
  | None => Ok m
  | Some l => x <- as_sval l ;; Ok (set_dyn (vm_p_vel m) (vm_p_acc m) x m)
  end.
(** state_generator.py:332-337 *)
Definition do_dwell (d : dict arg) : res (option sval) :=
  match sub_dict (S_ "G4") d with
  | None => Ok None
  | Some s =>
    p <- match dget (S_ "P") s with
         | None => Ok None
         | Some l => x <- need_num l ;; Ok (Some (SNum (n_div N x 1000)))
         end ;;
    match dget (S_ "S") s with
    | None => Ok p
    | Some l => x <- as_sval l ;; Ok (Some x)
    end
  end.

(** state_generator.py:269-337: what one line does to the machine. *)
Definition step_vm (d : dict arg) (m : vm) : res (vm * option sval) :=
  let m := do_modes d m in
  m <- do_move (S_ "G0") d m ;;
  m <- do_move (S_ "G1") d m ;;
  m <- do_sub (S_ "G92") d do_g92 m ;;
  m <- do_sub (S_ "M204") d do_m204 m ;;
  m <- do_sub (S_ "M203") d do_m203 m ;;
  m <- do_sub (S_ "M205") d do_m205 m ;;
  p <- do_dwell d ;;
  Ok (m, p).

(** state_generator.py:242-247 and 339-344 *)
Definition vm_position (m : vm) : pos4 :=
  {| px := n_add N (cX m) (oX m); py := n_add N (cY m) (oY m);
     pz := n_add N (cZ m) (oZ m); pe := n_add N (cE m) (oE m) |}.
(** state_generator.py:249-257 and 346-355 *)
Definition vm_settings (m : vm) (u : str) : p_settings :=
  {| p_acc := vm_p_acc m; jerk := vm_jerk m; vX := vm_vX m; vY := vm_vY m; vZ := vm_vZ m;
     vE := vm_vE m; speed := vm_p_vel m; units := u |}.

(** state_generator.py:359: the comment of the line, stripped. *)
Definition line_comment (d : dict arg) : option str :=
  match dget (S_ ";") d with
  | Some (ALeaf (LStr s)) => Some (strip s)
  | _ => None
  end.

(** state_generator.py:362-365: the layer counter after the line. *)
Definition next_layer (cue : option str) (c : option str) (n : nat) : nat :=
  match cue, c with
  | Some cu, Some co => if str_eqb cu co then S n else n
  | _, _ => n
  end.

(** state_generator.py:242-264: the initial state. *)
Definition initial_state (su : setup_values) : state :=
  {| state_position := vm_position (init_vm su);
     state_p_settings := vm_settings (init_vm su) (S_ "SImm");
     line_number := None;
     comment := Some (S_ "Initial state created by pyGCD.");
     layer := None; pause := None |}.

(** state_generator.py:339-370: the state of one line. *)
Definition line_state (cue : option str) (l : line_dict) (m : vm) (p : option sval) (n : nat) : state :=
  {| state_position := vm_position m;
     state_p_settings := vm_settings m (vm_units m);
     line_number := Some (ld_number l);
     comment := line_comment (ld l);
     layer := match cue with None => None | Some _ => Some n end;
     pause := p |}.

(** state_generator.py:267-377: the loop over the lines; [n] is layer_counter. *)
Fixpoint travel (cue : option str) (ls : list line_dict) (m : vm) (n : nat) : res (list state) :=
  match ls with
  | [] => Ok []
  | l :: ls' =>
    '(m', p) <- step_vm (ld l) m ;;
    let n' := next_layer cue (line_comment (ld l)) n in
    rest <- travel cue ls' m' n' ;;
    Ok (line_state cue l m' p n' :: rest)
  end.

(** state_generator.py:198-378 dict_list_traveler *)
Definition dict_list_traveler (ls : list line_dict) (su : setup_values) : res (list state) :=
  rest <- travel (s_layer_cue su) ls (init_vm su) 0 ;;
  Ok (initial_state su :: rest).

(** state_generator.py:412-426 generate_states; the file is the list of its lines. *)
Definition generate_states (lines : list str) (su : setup_values) : res (list state) :=
  ls <- read_gcode_to_dict_list lines ;; dict_list_traveler ls su.

End Reader.

Arguments SNum {N} x.
Arguments SStr {N} s.
Arguments state_position {N}.
Arguments state_p_settings {N}.
Arguments line_number {N}.
Arguments comment {N}.
Arguments layer {N}.
Arguments pause {N}.
Arguments speed {N}. Arguments p_acc {N}. Arguments jerk {N}. Arguments units {N}.
Arguments vX {N}. Arguments vY {N}. Arguments vZ {N}. Arguments vE {N}.
Arguments px {N}. Arguments py {N}. Arguments pz {N}. Arguments pe {N}.
