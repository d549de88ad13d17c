(** Vocabulary of the properties of the command line. *)
From Verif Require Import Py Setup Interp Cli Examples CliArgs.

(** The two names of every option, as the help lists them. *)
Inductive spelled : opt -> str -> Prop :=
| sp_g : spelled OGcode (S_ "-g") | sp_gcode : spelled OGcode (S_ "--gcode")
| sp_p : spelled OPresets (S_ "-p") | sp_presets : spelled OPresets (S_ "--presets")
| sp_pn : spelled OPrinter (S_ "-pn") | sp_printer : spelled OPrinter (S_ "--printer_name")
| sp_o : spelled OOutDir (S_ "-o") | sp_out : spelled OOutDir (S_ "--out_dir")
| sp_lc : spelled OLayerCue (S_ "-lc") | sp_cue : spelled OLayerCue (S_ "--layer_cue").
(** A word that cannot be taken for an option. *)
Definition plain (s : str) : Prop := forall r, s = "-"%char :: r -> r = [].
(** The words of a list of options with their values; the G-code file may be
    left out. *)
Inductive written : list (opt * option str) -> list str -> Prop :=
| wr_nil : written [] []
| wr_value o n v l ws : spelled o n -> plain v -> written l ws -> written ((o, Some v) :: l) (n :: v :: ws)
| wr_none n l ws : spelled OGcode n -> written l ws -> written ((OGcode, None) :: l) (n :: ws).
(** The value given last for an option, none if it is not given. *)
Inductive given_last (o : opt) : list (opt * option str) -> option str -> Prop :=
| gl_never l : (forall v, ~ In (o, v) l) -> given_last o l None
| gl_last l1 v l2 : (forall v', ~ In (o, v') l2) -> given_last o (l1 ++ (o, v) :: l2) v.
(** The arguments say what the options say. *)
Definition as_given (l : list (opt * option str)) (a : plot_args) : Prop :=
  given_last OGcode l (arg_gcode a) /\ given_last OPresets l (arg_presets a) /\ given_last OPrinter l (arg_printer a) /\
  given_last OOutDir l (arg_out_dir a) /\ given_last OLayerCue l (arg_layer_cue a).
(** The last option has its value. *)
Definition complete (l : list (opt * option str)) : Prop := forall l', l <> l' ++ [(OGcode, None)].
(** The words that ask for the help, and the words the program can read. *)
Inductive asks_help : str -> Prop := ah_h : asks_help (S_ "-h") | ah_help : asks_help (S_ "--help").
Definition readable (s : str) : Prop := plain s \/ (exists o, spelled o s) \/ asks_help s.
