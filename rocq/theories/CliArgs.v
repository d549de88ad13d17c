(** Model of the command line of pygcd (pyGCodeDecode/cli.py:15-20, 136-222):
    the arguments argparse makes of the words, and what is then called.  Words
    that begin with "-" and are no option name in full (abbreviations, values
    joined to the option, "--", negative numbers) leave the model. *)
From Coq Require Import Reals.
From Verif Require Import Py Vec Segment Junction Planner Query Setup Interp Tools Plot Cli Examples.

(** cli.py:168-213: the options of plot *)
Inductive opt := OGcode | OPresets | OPrinter | OOutDir | OLayerCue.
(** A word: an option, -h, -v, or a value. *)
Inductive word := WOpt (o : opt) | WHelp | WVersion | WValue (s : str).
Definition option_names : list (str * word) :=
  [(S_ "-g", WOpt OGcode); (S_ "--gcode", WOpt OGcode); (S_ "-p", WOpt OPresets); (S_ "--presets", WOpt OPresets);
   (S_ "-pn", WOpt OPrinter); (S_ "--printer_name", WOpt OPrinter); (S_ "-o", WOpt OOutDir); (S_ "--out_dir", WOpt OOutDir);
   (S_ "-lc", WOpt OLayerCue); (S_ "--layer_cue", WOpt OLayerCue);
   (S_ "-h", WHelp); (S_ "--help", WHelp); (S_ "-v", WVersion); (S_ "--version", WVersion)].
(** argparse: a word that begins with "-" is an option, except "-" alone. *)
Definition is_value (s : str) : bool :=
  match s with c :: _ :: _ => negb (aeqb c "-"%char) | _ => true end.
Definition read_word (s : str) : option word := if is_value s then Some (WValue s) else dget s option_names.
Fixpoint read_words (l : list str) : option (list word) :=
  match l with
  | [] => Some []
  | s :: l' => match read_word s, read_words l' with Some w, Some ws => Some (w :: ws) | _, _ => None end
  end.

(** What parse_args makes of the words. *)
Inductive parsed := ParsedPlot (a : plot_args) | ParsedExample (name : str) | ParsedNothing | Help | Version | Usage | Unknown.

Definition set_arg (o : opt) (v : option str) (a : plot_args) : plot_args :=
  match o with
  | OGcode => PlotArgs v (arg_presets a) (arg_printer a) (arg_out_dir a) (arg_layer_cue a)
  | OPresets => PlotArgs (arg_gcode a) v (arg_printer a) (arg_out_dir a) (arg_layer_cue a)
  | OPrinter => PlotArgs (arg_gcode a) (arg_presets a) v (arg_out_dir a) (arg_layer_cue a)
  | OOutDir => PlotArgs (arg_gcode a) (arg_presets a) (arg_printer a) v (arg_layer_cue a)
  | OLayerCue => PlotArgs (arg_gcode a) (arg_presets a) (arg_printer a) (arg_out_dir a) v
  end.
Definition no_args : plot_args := PlotArgs None None None None None.
(** cli.py:164-213: options are stored from left to right.  --gcode takes at
    most one value (nargs "?"), the others exactly one; -h prints the help at
    once, and words that belong to no option are an error at the end. *)
Fixpoint parse_plot (ws : list word) (a : plot_args) (extras : bool) : parsed :=
  match ws with
  | [] => if extras then Usage else ParsedPlot a
  | WHelp :: _ => Help
  | WVersion :: _ => Unknown                         (* not an option of plot *)
  | WValue _ :: ws' => parse_plot ws' a true
  | WOpt o :: ws' =>
    match ws' with
    | WValue v :: ws'' => parse_plot ws'' (set_arg o (Some v) a) extras
    | _ => match o with OGcode => parse_plot ws' (set_arg o None a) extras | _ => Usage end
    end
  end.
(** cli.py:155-162 *)
Definition examples : list str := [S_ "brace"; S_ "benchy"].
Fixpoint parse_rest (ws : list word) (extras : bool) (name : str) : parsed :=
  match ws with
  | [] => if extras then Usage else ParsedExample name
  | WHelp :: _ => Help
  | WValue _ :: ws' => parse_rest ws' true name
  | _ => Unknown                                     (* not an option of run_example *)
  end.
Definition parse_example (ws : list word) : parsed :=
  match ws with
  | [] => Usage
  | WHelp :: _ => Help
  | WValue n :: ws' => if existsb (str_eqb n) examples then parse_rest ws' false n else Usage
  | _ => Unknown
  end.
(** cli.py:138-216: [argv] are the words after the program's name. *)
Definition parse_args (argv : list str) : parsed :=
  match argv with
  | [] => ParsedNothing
  | s :: rest =>
    match read_word s with
    | Some WHelp => Help
    | Some WVersion => Version
    | Some (WValue c) =>
      if str_eqb c (S_ "plot") then match read_words rest with Some ws => parse_plot ws no_args false | None => Unknown end
      else if str_eqb c (S_ "run_example") then match read_words rest with Some ws => parse_example ws | None => Unknown end
      else Usage
    | _ => Unknown
    end
  end.

(** What the program does: the plot command, an example, or a message only. *)
Inductive action := RanPlot (es : list effect) (o : outcome) | RanBrace (es : list effect) (o : outcome) | RanBenchy (es : list effect) (o : outcome) | PrintedHelp | PrintedVersion | UsageError | NotModelled | DidNothing.
(** cli.py:15-20 *)
Definition run_example (w : world) (name : str) : action :=
  if str_eqb name (S_ "brace") then RanBrace (fst (brace_example w)) (snd (brace_example w))
  else if str_eqb name (S_ "benchy") then RanBenchy (fst (benchy_example w)) (snd (benchy_example w)) else DidNothing.
(** cli.py:136-222 *)
Definition main (w : world) (argv : list str) : action :=
  match parse_args argv with
  | ParsedPlot a => RanPlot (fst (plot_command w a)) (snd (plot_command w a))
  | ParsedExample n => run_example w n
  | ParsedNothing => PrintedHelp
  | Help => PrintedHelp
  | Version => PrintedVersion
  | Usage => UsageError
  | Unknown => NotModelled
  end.
