(** Vocabulary of the properties of plots, progress bar and plot command. *)
From Coq Require Import Reals.
From Verif Require Import Py PyFloat Vec Segment Junction Planner Query SpecKin SpecQuery Setup Interp Tools Plot Cli.
Open Scope R_scope.

(** * 3D plot *)
Definition extrudes (s : segment) : Prop := ve (pos_begin s) < ve (pos_end s).
(** The maximal runs of segments with [P] in a path: [gap]s of segments without
    [P], then a run, which ends with the path or before a segment without [P]. *)
Inductive runs (P : segment -> Prop) : list segment -> list (list segment) -> Prop :=
| runs_none gap : Forall (fun s => ~ P s) gap -> runs P gap []
| runs_last gap run : Forall (fun s => ~ P s) gap -> Forall P run -> run <> [] -> runs P (gap ++ run) [run]
| runs_more gap run s rest rs : Forall (fun s => ~ P s) gap -> Forall P run -> run <> [] -> ~ P s -> runs P (s :: rest) rs ->
    runs P (gap ++ run ++ s :: rest) (run :: rs).
(** The line along a run: where it begins, then where its segments end, with the speeds there. *)
Definition along (run : list segment) (line : list vertex) : Prop :=
  exists f rest, run = f :: rest /\
    line = Vertex (pos_begin f) (norm3 (vel_begin f)) :: map (fun s => Vertex (pos_end s) (norm3 (vel_end s))) run.
(** [p] and [q] are joined by one of the lines. *)
Definition joins (lines : list (list vertex)) (p q : vec4) : Prop :=
  exists before a b after, In (before ++ a :: b :: after) lines /\ v_pos a = p /\ v_pos b = q.

(** * 2D plot *)
(** The point at the fraction [r] of the segment, seen from above. *)
Definition above (s : segment) (r : R) (p : point) : Prop :=
  p_x p = vx (pos_begin s) + r * (vx (pos_end s) - vx (pos_begin s)) /\
  p_y p = vy (pos_begin s) + r * (vy (pos_end s) - vy (pos_begin s)).
(** [pts] are points of the segment in the order of the motion, from its begin. *)
Definition drawn_from (s : segment) (pts : list point) : Prop :=
  exists rs, rs <> [] /\ Forall2 (above s) rs pts /\ starts (fun r => r = 0) rs /\ ascending rs /\ Forall (fun r => 0 <= r <= 1) rs.
(** The segment is seen from above as a line. *)
Definition seen (s : segment) : Prop := vx (pos_begin s) <> vx (pos_end s) \/ vy (pos_begin s) <> vy (pos_end s).
(** The speed with which the path [pre] enters [s]. *)
Definition speed_before (pre : list segment) (s : segment) : R :=
  match rev pre with [] => norm3 (vel_begin s) | l :: _ => norm3 (vel_end l) end.
(** The distance of two points of the picture is at most [d]. *)
Definition near (d : R) (p q : point) : Prop := Rsqr (p_x q - p_x p) + Rsqr (p_y q - p_y p) <= d * d.

(** * Progress bar *)
(** Progress limited to 0..1. *)
Definition limited (x : R) : R := Rmax 0 (Rmin 1 x).
(** A bar of ten cells, [k] of them filled. *)
Definition ten_cells (k : nat) (s : str) : Prop := (k <= 10)%nat /\ s = repeat "#"%char k ++ repeat "-"%char (10 - k).
Inductive status_of (x : R) : str -> Prop :=
| st_halt : x < 0 -> status_of x (S_ "Halt...")
| st_run : 0 <= x < 1 -> status_of x []
| st_done : 1 <= x -> status_of x (S_ "Done...").

(** * Plot command *)
(** The G-code file is beyond doubt. *)
Inductive chosen (w : world) (a : plot_args) : str -> Prop :=
| c_given g : arg_gcode a = Some g -> is_file w g = true -> chosen w a g
| c_only g : arg_gcode a = None -> cwd_gcodes w = [g] -> chosen w a g.
(** The presets and the printer that are asked for, the built-in ones otherwise. *)
Inductive presets_used (w : world) (a : plot_args) : dict (dict pval) -> Prop :=
| pu_default : arg_presets a = None -> presets_used w a (default_presets w)
| pu_file p : arg_presets a = Some p -> is_file w p = true -> presets_used w a (presets_in w p).
Inductive printer_used (a : plot_args) : str -> Prop :=
| pr_default : arg_printer a = None -> printer_used a (S_ "anisoprint_a4")
| pr_given n : arg_printer a = Some n -> printer_used a n.
(** [m] is the simulation of the lines of the file [g] for this printer, with the
    layer cue that is asked for; [s] is the setup left behind. *)
Definition simulates (w : world) (a : plot_args) (g : str) (m : simulation) (s : setup) : Prop :=
  exists presets printer s0, presets_used w a presets /\ printer_used a printer /\
    new_setup presets (Some printer) (arg_layer_cue a) = Ok s0 /\
    new_simulation (default_presets w) (gcode_lines w g) None (Some s0) (S_ "SImm") = Ok (m, s).
(** The user has to answer, and answers yes or no, in lower or upper case. *)
Definition is_yes (s : str) : Prop := map lower s = S_ "y" \/ map lower s = S_ "yes".
Definition is_no (s : str) : Prop := map lower s = S_ "n" \/ map lower s = S_ "no".
Definition first_answer (w : world) (n : nat) (s : str) : Prop :=
  exists before after, answers w = before ++ s :: after /\ n = length before /\ Forall (fun x => ~ is_yes x /\ ~ is_no x) before /\ (is_yes s \/ is_no s).
(** Where the command may write. *)
Inductive may_write (w : world) (a : plot_args) : folder -> Prop :=
| mw_given d : arg_out_dir a = Some d -> may_write w a (Given d)
| mw_asked g n s : arg_out_dir a = None -> chosen w a g -> first_answer w n s -> is_yes s ->
    may_write w a (InCwd (S_ "output_" ++ stem w g)).
(** The folder an effect writes to. *)
Inductive writes : effect -> folder -> Prop :=
| w_dir d : writes (MakeDir d) d
| w_summary d n c : writes (SaveSummary d n c) d
| w_layers d n r : writes (SaveLayers d n r) d
| w_events d n l : writes (SaveEvents d n l) d
| w_mesh d n l : writes (SaveMesh d n l) d
| w_picture d n l : writes (SavePicture d n l) d.
(** The effect shows results of the simulation [m] whose setup is [s]. *)
Inductive belongs (m : simulation) (s : setup) : effect -> Prop :=
| b_ask : belongs m s Ask
| b_dir d : belongs m s (MakeDir d)
| b_summary d n c : save_summary (sim_query m) = Ok c -> belongs m s (SaveSummary d n c)
| b_layers d n r cue : save_layer_metrics cue (blocklist (sim_query m)) = Ok (Some r) -> belongs m s (SaveLayers d n r)
| b_mesh d n rs lines : runs extrudes (unpack_blocklist (blocklist (sim_query m))) rs -> Forall2 along rs lines -> belongs m s (SaveMesh d n lines)
| b_picture d n rs lines : runs extrudes (unpack_blocklist (blocklist (sim_query m))) rs -> Forall2 along rs lines -> belongs m s (SavePicture d n lines)
| b_show rs lines : runs extrudes (unpack_blocklist (blocklist (sim_query m))) rs -> Forall2 along rs lines -> belongs m s (ShowPlot lines).
