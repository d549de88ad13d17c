(** Model of the plot command (pyGCodeDecode/cli.py:23-133).  Parsing the
    command line, the printed messages, the yaml and csv formats and errors of
    the operating system are not modelled. *)
From Coq Require Import Reals.
From Verif Require Import Py PyFloat Parser StateGen Vec Segment Junction Planner Query Setup Interp Tools Abaqus Plot.
Open Scope R_scope.

(** The arguments, cli.py:168-213 *)
Record plot_args := PlotArgs {
  arg_gcode : option str; arg_presets : option str; arg_printer : option str;
  arg_out_dir : option str; arg_layer_cue : option str }.
(** What the command finds: files, their contents, the answers of the user
    until the input ends, pathlib's stem, and whether there is a display. *)
Record world := World {
  is_file : str -> bool;
  cwd_gcodes : list str;
  gcode_lines : str -> list str;
  presets_in : str -> dict (dict pval);
  default_presets : dict (dict pval);
  answers : list str;
  stem : str -> str;
  display : bool }.          (* gcode_interpreter.py:423-426 *)
(** What the command does. *)
Inductive folder := Given (p : str) | InCwd (name : str).
Inductive effect :=
| Ask
| MakeDir (d : folder)
| SaveSummary (d : folder) (name : str) (content : R * ((R * R * R) * (R * R * R)) * R)
| SaveLayers (d : folder) (name : str) (rows : list layer_row)
| SaveEvents (d : folder) (name : str) (events : list event)
| SaveMesh (d : folder) (name : str) (lines : list (list vertex))
| SavePicture (d : folder) (name : str) (lines : list (list vertex))
| ShowPlot (lines : list (list vertex)).
(** How it ends: exit(), an exception, end of the input, or regularly. *)
Inductive outcome := Exited | Raised (e : pyexc) | NoInput | Finished.

(** cli.py:26-51; None is exit() *)
Definition find_gcode_file (w : world) (specified : option str) : option str :=
  match specified with
  | Some p => if is_file w p then Some p else None
  | None => match cwd_gcodes w with [f] => Some f | _ => None end
  end.
(** cli.py:53-66; None is exit() *)
Definition get_presets (w : world) (specified : option str) : option (dict (dict pval)) :=
  match specified with
  | None => Some (default_presets w)
  | Some p => if is_file w p then Some (presets_in w p) else None
  end.
(** cli.py:71-84: asks until the answer is one of these; None at the end of the
    input.  Also counts the questions. *)
Definition says (l : list str) (a : str) : bool := existsb (str_eqb (map lower a)) l.
Fixpoint ask (l : list str) : list effect * option bool :=
  match l with
  | [] => ([Ask], None)
  | a :: l' =>
    if says [S_ "n"; S_ "no"] a then ([Ask], Some false)
    else if says [S_ "y"; S_ "yes"] a then ([Ask], Some true)
    else let '(es, r) := ask l' in (Ask :: es, r)
  end.
(** cli.py:68-86: the output folder, if any; None at the end of the input *)
Definition get_out_dir (w : world) (out_dir : option str) (g : str) : list effect * option (option folder) :=
  match out_dir with
  | Some d => ([], Some (Some (Given d)))
  | None =>
    let '(es, r) := ask (answers w) in
    (es, option_map (fun yes : bool => if yes then Some (InCwd (S_ "output_" ++ stem w g)) else None) r)
  end.
(** cli.py:92-97 *)
Definition printer_of (a : plot_args) : str :=
  match arg_printer a with Some n => n | None => S_ "anisoprint_a4" end.
(** cli.py:99-110 *)
Definition simulate_file (w : world) (a : plot_args) (g : str) (presets : dict (dict pval)) : res (simulation * setup) :=
  s <- new_setup presets (Some (printer_of a)) (arg_layer_cue a) ;;
  new_simulation (default_presets w) (gcode_lines w g) None (Some s) (S_ "SImm").
(** gcode_interpreter.py:442-453 with both paths, and with none; the plotting
    library's own failures (a mesh without lines) are not modelled. *)
Definition save_plot (w : world) (d : folder) (picture mesh : str) (lines : list (list vertex)) : list effect :=
  SaveMesh d mesh lines :: (if display w then [SavePicture d picture lines] else []).
Definition show_plot (w : world) (lines : list (list vertex)) : list effect :=
  if display w then [ShowPlot lines] else [].
(** cli.py:112-128 *)
Definition save_outputs (w : world) (g : str) (d : folder) (m : simulation) (s : setup) : list effect * option pyexc :=
  let name suffix := stem w g ++ suffix in
  let bl := blocklist (sim_query m) in
  match save_summary (sim_query m) with
  | Err e => ([MakeDir d], Some e)
  | Ok content =>
    let es := [MakeDir d; SaveSummary d (name (S_ "_summary.yaml")) content] in
    match save_layer_metrics (dmem (S_ "layer_cue") (deref (sim_setup m) s)) bl with
    | Err e => (es, Some e)
    | Ok rows =>
      (es ++ match rows with Some r => [SaveLayers d (name (S_ "_layer_metrics.csv")) r] | None => [] end
          ++ save_plot w d (name (S_ ".png")) (name (S_ ".vtk")) (plot_3d_lines true bl), None)
    end
  end.
(** cli.py:88-133 *)
Definition plot_command (w : world) (a : plot_args) : list effect * outcome :=
  match find_gcode_file w (arg_gcode a) with
  | None => ([], Exited)
  | Some g =>
    let '(es, o) := get_out_dir w (arg_out_dir a) g in
    match o with
    | None => (es, NoInput)
    | Some out_dir =>
      match get_presets w (arg_presets a) with
      | None => (es, Exited)
      | Some presets =>
        match simulate_file w a g presets with
        | Err e => (es, Raised e)
        | Ok (m, s) =>
          let '(es', e) := match out_dir with Some d => save_outputs w g d m s | None => ([], None) end in
          match e with
          | Some e => (es ++ es', Raised e)
          | None => (es ++ es' ++ show_plot w (plot_3d_lines true (blocklist (sim_query m))), Finished)
          end
        end
      end
    end
  end.
