(** Model of the examples (pyGCodeDecode/examples/brace.py, benchy.py).  The
    printed messages, the yaml, csv and inp formats, the locale and errors of
    the operating system are not modelled. *)
From Coq Require Import Reals.
From Verif Require Import Py PyFloat Parser StateGen Vec Segment Junction Planner Query Setup Interp Tools Abaqus Plot Cli.
Open Scope R_scope.

(** The files of the package: brace.py:18, benchy.py:15, 36, 50. *)
Definition brace_gcode : str := S_ "examples/data/brace.gcode".
Definition benchy_gcode : str := S_ "examples/data/benchy.gcode".
Definition benchy_presets : str := S_ "examples/data/printer_presets.yaml".
(** brace.py:8-24 *)
Definition brace_example (w : world) : list effect * outcome :=
  match new_simulation (default_presets w) (gcode_lines w brace_gcode) (Some (S_ "anisoprint_a4")) None (S_ "SImm") with
  | Err e => ([], Raised e)
  | Ok (m, _) => (show_plot w (plot_3d_lines true (blocklist (sim_query m))), Finished)
  end.

(** benchy.py:34-53 *)
Definition benchy_simulation (w : world) : res (simulation * setup) :=
  s <- new_setup (presets_in w benchy_presets) (Some (S_ "prusa_mini")) (Some (S_ "LAYER_CHANGE")) ;;
  let '(r, s) := set_initial_position (IDict [(S_ "X", PNum 0); (S_ "Y", PNum 0); (S_ "Z", PNum 0); (S_ "E", PNum 0)]) (Some (S_ "SImm")) s in
  _ <- r ;;
  new_simulation (default_presets w) (gcode_lines w benchy_gcode) None (Some s) (S_ "SImm").
(** benchy.py:16 *)
Definition benchy_dir : folder := InCwd (S_ "output_benchy_example").
(** benchy.py:55-83; save_summary makes the folder (gcode_interpreter.py:775). *)
Definition benchy_example (w : world) : list effect * outcome :=
  match benchy_simulation w with
  | Err e => ([], Raised e)
  | Ok (m, s) =>
    let q := sim_query m in
    match save_summary q with
    | Err e => ([], Raised e)
    | Ok content =>
      let es := [MakeDir benchy_dir; SaveSummary benchy_dir (S_ "benchy_summary.yaml") content] in
      match save_layer_metrics (dmem (S_ "layer_cue") (deref (sim_setup m) s)) (blocklist q) with
      | Err e => (es, Raised e)
      | Ok rows =>
        let es := es ++ match rows with Some r => [SaveLayers benchy_dir (S_ "benchy_layer_metrics.csv") r] | None => [] end in
        match generate_abaqus_event_series q (1 / 1000000000000) (Some (S_ "SImm")) with
        | Err e => (es, Raised e)
        | Ok events =>
          let lines := plot_3d_lines true (blocklist q) in
          (es ++ [SaveEvents benchy_dir (S_ "benchy_prusa_mini_event_series.csv") events] ++
           save_plot w benchy_dir (S_ "benchy.png") (S_ "benchy.vtk") lines ++ show_plot w lines, Finished)
        end
      end
    end
  end.
