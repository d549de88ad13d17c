(** Model of simulation.__init__ and refresh
    (pyGCodeDecode/gcode_interpreter.py:168-240, 674-698).  No proofs here. *)
From Coq Require Import Reals.
From Verif Require Import Py Parser StateGen Vec Segment Junction Planner Query Setup.
Open Scope R_scope.

(** planner_block.py:299-308: the firmware names; everything else is the base
    class. *)
Definition firmware_of (v : pval) : firmware :=
  match v with
  | PStr s =>
    if str_eqb s (S_ "marlin_jd") then MarlinJD
    else if str_eqb s (S_ "klipper") then Klipper
    else if str_eqb s (S_ "marlin_jerk") then MarlinJerk
    else if str_eqb s (S_ "MKA") then MKA
    else FullStop
  | _ => FullStop
  end.

(** A number of the setup.  Settings that are not numbers leave the model. *)
Definition num_of (k : str) (d : dict pval) : res R :=
  v <- dindex k d ;; match v with PNum x => Ok x | _ => Err Unmodelled end.
(** state_generator.py:224-239, for a setup that passed check_initial_setup. *)
Definition setup_values_of (d : dict pval) : res (setup_values Rops) :=
  pv <- num_of (S_ "p_vel") d ;; pa <- num_of (S_ "p_acc") d ;; je <- num_of (S_ "jerk") d ;;
  vx <- num_of (S_ "vX") d ;; vy <- num_of (S_ "vY") d ;; vz <- num_of (S_ "vZ") d ;; ve <- num_of (S_ "vE") d ;;
  x <- num_of (S_ "X") d ;; y <- num_of (S_ "Y") d ;; z <- num_of (S_ "Z") d ;; e <- num_of (S_ "E") d ;;
  cue <- match dget (S_ "layer_cue") d with
         | None => Ok None
         | Some (PStr c) => Ok (Some c)
         | Some _ => Err Unmodelled
         end ;;
  Ok (Build_setup_values Rops pv pa je vx vy vz ve x y z e cue).

(** The part of a state the planner reads; settings that are strings leave the
    model. *)
Definition real_of (v : sval Rops) : res R := match v with SNum x => Ok x | SStr _ => Err Unmodelled end.
Definition to_kstate (s : state Rops) : res kstate :=
  let p := state_position s in
  v <- real_of (speed (state_p_settings s)) ;;
  a <- real_of (p_acc (state_p_settings s)) ;;
  j <- real_of (jerk (state_p_settings s)) ;;
  w <- match pause s with None => Ok None | Some w => w <- real_of w ;; Ok (Some w) end ;;
  Ok (KState (V4 (px p) (py p) (pz p) (pe p)) v a j w (layer s)).
Fixpoint to_kstates (l : list (state Rops)) : res (list kstate) :=
  match l with
  | [] => Ok []
  | s :: l' => k <- to_kstate s ;; r <- to_kstates l' ;; Ok (k :: r)
  end.

(** The attributes of a simulation: [sim_setup] is the reference returned by
    get_dict. *)
Record simulation := MkSimulation {
  sim_setup : str;
  sim_firmware : pval;
  sim_states : list (state Rops);
  sim_query : sim }.

(** gcode_interpreter.py:674-684: print_summary reads the last segment *)
Definition print_summary (bl : list block) : res unit :=
  match rev bl with [] => Err IndexError | b :: _ => _ <- last_seg (b_segs b) ;; Ok tt end.

(** gcode_interpreter.py:237-238, 695-698: states to blocks *)
Definition plan (fw : pval) (sts : list (state Rops)) : res (list block) :=
  ks <- to_kstates sts ;; '(bl, _) <- simulate (firmware_of fw) ks ;; Ok bl.

(** gcode_interpreter.py:225-240, once there is a setup. *)
Definition run_setup (lines : list str) (unit : str) (s : setup) : res (simulation * setup) :=
  match get_dict s with
  | (Err e, _) => Err e
  | (Ok ref, s) =>
    let d := deref ref s in
    _ <- check_initial_setup d ;;
    fw <- dindex (S_ "firmware") d ;;
    su <- setup_values_of d ;;
    sts <- generate_states Rops lines su ;;
    bl <- plan fw sts ;;
    _ <- print_summary bl ;;
    Ok (MkSimulation ref fw sts (Sim bl unit None), s)
  end.

(** gcode_interpreter.py:171-240.  [lines] is the G-code file, [defaults] the
    parsed default presets.  Returns the simulation and the setup object it was
    made from. *)
Definition new_simulation (defaults : dict (dict pval)) (lines : list str) (machine_name : option str)
           (su : option setup) (unit : str) : res (simulation * setup) :=
  if dmem unit output_units then
    match su with
    | Some s =>
      match machine_name with
      | None => run_setup lines unit s
      | Some n =>
        match get_dict s with
        | (Err e, _) => Err e
        | (Ok ref, s) =>
          v <- dindex (S_ "printer_name") (deref ref s) ;;
          match v with
          | PStr p => if str_eqb p n then run_setup lines unit s else Err ValueError
          | _ => Err ValueError
          end
        end
      end
    | None =>
      match machine_name with
      | None => Err ValueError
      | Some n => s <- new_setup defaults (Some n) None ;; run_setup lines unit s
      end
    end
  else Err ValueError.

(** gcode_interpreter.py:686-698 with new_state_list None: the firmware is read
    through the reference, from the setup as it is now. *)
Definition refresh (m : simulation) (s : setup) : res simulation :=
  fw <- dindex (S_ "firmware") (deref (sim_setup m) s) ;;
  bl <- plan fw (sim_states m) ;;
  Ok (MkSimulation (sim_setup m) (sim_firmware m) (sim_states m)
                   (Sim bl (output_unit_system (sim_query m)) (last_index (sim_query m)))).
