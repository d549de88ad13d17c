(** Model of gcode_interpreter.setup (pyGCodeDecode/gcode_interpreter.py:799-936)
    and of simulation.check_initial_setup (631-672).  No proofs here. *)
From Coq Require Import Reals.
From Verif Require Import Py Vec Query.
Open Scope R_scope.

(** Values of setup dictionaries: numbers, strings and null.  Other YAML values
    (lists, booleans, dates) are not modelled. *)
Inductive pval := PNum (x : R) | PStr (s : str) | PNone.

(** gcode_interpreter.py:816-830: the attributes.  [printers] is setup_dict, the
    YAML document: a mapping from printer names to mappings.  The inner
    mappings are objects; the reference to one of them is the name under which
    [printers] holds it (YAML aliases between printers are not modelled).
    filename and firmware are not read again. *)
Record setup := MkSetup {
  printers : dict (dict pval);
  printer_select : option str;
  layer_cue : option str;
  initial_position : dict pval }.

Definition set_printers (d : dict (dict pval)) (s : setup) : setup :=
  MkSetup d (printer_select s) (layer_cue s) (initial_position s).
Definition set_select (p : option str) (s : setup) : setup :=
  MkSetup (printers s) p (layer_cue s) (initial_position s).
Definition set_position (d : dict pval) (s : setup) : setup :=
  MkSetup (printers s) (printer_select s) (layer_cue s) d.

(** gcode_interpreter.py:816 available_unit_systems, and 817: the input unit
    system is always "SImm". *)
Definition input_units : dict R := [(S_ "SI", 1000); (S_ "SImm", 1); (S_ "inch", 254 / 10)].
(** gcode_interpreter.py:922-936 *)
Definition setup_scaling_factor (unit : option str) : res R :=
  dindex (match unit with Some u => u | None => S_ "SImm" end) input_units.

(** gcode_interpreter.py:850-859.  Methods return the new object also when they
    raise. *)
Definition select_printer (name : str) (s : setup) : res unit * setup :=
  if dmem name (printers s) then (Ok tt, set_select (Some name) s) else (Err ValueError, s).

(** Arguments of set_initial_position: a dictionary, a tuple, anything else. *)
Inductive ipos := IDict (d : dict pval) | ITuple (l : list pval) | IOther.
(** [scaling * v] for a float scaling: str and None raise TypeError *)
Definition scaled (k : R) (v : pval) : res pval :=
  match v with PNum x => Ok (PNum (k * x)) | _ => Err TypeError end.
(** gcode_interpreter.py:880-881: the loop over the keys; entries written before
    an exception stay. *)
Fixpoint position_loop (k : R) (d : dict pval) (pos : dict pval) : res unit * dict pval :=
  match d with
  | [] => (Ok tt, pos)
  | (key, v) :: d' =>
    match scaled k v with
    | Ok w => position_loop k d' (dset key w pos)
    | Err e => (Err e, pos)
    end
  end.
Definition axis_names : list str := [S_ "X"; S_ "Y"; S_ "Z"; S_ "E"].
(** gcode_interpreter.py:861-889 *)
Definition set_initial_position (ip : ipos) (units : option str) (s : setup) : res unit * setup :=
  match setup_scaling_factor units with
  | Err e => (Err e, s)
  | Ok k =>
    match ip with
    | IDict d =>
      if forallb (fun key => dmem key d) axis_names then
        let '(r, pos) := position_loop k d (initial_position s) in (r, set_position pos s)
      else (Err ValueError, s)
    | ITuple [x; y; z; e] =>
      match (x <- scaled k x ;; y <- scaled k y ;; z <- scaled k z ;; e <- scaled k e ;;
             Ok [(S_ "X", x); (S_ "Y", y); (S_ "Z", z); (S_ "E", e)]) with
      | Ok pos => (Ok tt, set_position pos s)
      | Err e => (Err e, s)
      end
    | _ => (Err ValueError, s)
    end
  end.

(** gcode_interpreter.py:891-906.  A selected printer is always in [printers]. *)
Definition set_property (d : dict pval) (s : setup) : res unit * setup :=
  match printer_select s with
  | None => (Err ValueError, s)
  | Some p =>
    match dget p (printers s) with
    | None => (Err KeyError, s)
    | Some m => (Ok tt, set_printers (dset p (dupdate d m) (printers s)) s)
    end
  end.

(** gcode_interpreter.py:908-920.  The result is the reference to the updated
    inner mapping: the printer's name.  setup_dict[None] raises KeyError. *)
Definition get_dict (s : setup) : res str * setup :=
  match printer_select s with
  | None => (Err KeyError, s)
  | Some p =>
    match dget p (printers s) with
    | None => (Err KeyError, s)
    | Some m =>
      let m := dupdate (initial_position s) m in
      let m := match layer_cue s with Some c => dset (S_ "layer_cue") (PStr c) m | None => m end in
      let m := dset (S_ "printer_name") (PStr p) m in
      (Ok p, set_printers (dset p m (printers s)) s)
    end
  end.
(** The mapping a reference leads to. *)
Definition deref (ref : str) (s : setup) : dict pval :=
  match dget ref (printers s) with Some m => m | None => [] end.

(** gcode_interpreter.py:802-834, 836-848: [presets] is the parsed file. *)
Definition new_setup (presets : dict (dict pval)) (printer cue : option str) : res setup :=
  let s := MkSetup presets printer cue
             [(S_ "X", PNum 0); (S_ "Y", PNum 0); (S_ "Z", PNum 0); (S_ "E", PNum 0)] in
  match printer with
  | None => Ok s
  | Some p =>
    match select_printer p s with
    | (Err e, _) => Err e
    | (Ok _, s) =>
      match get_dict s with
      | (Err e, _) => Err e
      | (Ok ref, s) => _ <- dindex (S_ "firmware") (deref ref s) ;; Ok s
      end
    end
  end.

(** gcode_interpreter.py:637-656 *)
Definition req_keys : list str :=
  [S_ "p_vel"; S_ "p_acc"; S_ "jerk"; S_ "vX"; S_ "vY"; S_ "vZ"; S_ "vE"; S_ "X"; S_ "Y"; S_ "Z"; S_ "E";
   S_ "printer_name"; S_ "firmware"].
Definition optional_keys : list str := [S_ "layer_cue"; S_ "nozzle_diam"; S_ "filament_diam"].
Definition valid_keys : list str := req_keys ++ optional_keys.
(** gcode_interpreter.py:631-672; the error says which key. *)
Definition check_initial_setup (d : dict pval) : res unit :=
  if forallb (fun k => existsb (str_eqb k) valid_keys) (dkeys d) then
    if forallb (fun k => dmem k d) req_keys then Ok tt else Err ValueError
  else Err ValueError.
