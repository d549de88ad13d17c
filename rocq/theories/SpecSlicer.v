(** The G-code a slicer writes, as commands with numbers, and a print head that
    obeys it.  Nothing here refers to how the program works. *)
From Coq Require Import Reals.
From Verif Require Import Py StateGen SpecMachine SpecRead Vec Segment Junction Planner.
Open Scope R_scope.
Local Open Scope string_scope.

Definition arguments := list (ascii * literal).
(** One line; [Skipped] are the commands the README lists as not supported. *)
Inductive gcode :=
| Move (rapid : bool) (args : arguments)           (* G0, G1 *)
| Wait (args : arguments)                          (* G4 *)
| Positions (absolute : bool)                      (* G90, G91 *)
| Extrusion (absolute : bool)                      (* M82, M83 *)
| Millimetres                                      (* G21 *)
| Rename (args : arguments)                        (* G92 *)
| SetAcc (args : arguments)                        (* M204 *)
| SetJerk (args : arguments)                       (* M205 *)
| SetLimits (args : arguments)                     (* M203 *)
| Skipped (name : string) (args : arguments)
| Nothing.                                         (* no known command *)
Definition keyword (c : gcode) : option string :=
  match c with
  | Move true _ => Some "G0" | Move false _ => Some "G1" | Wait _ => Some "G4"
  | Positions true => Some "G90" | Positions false => Some "G91"
  | Extrusion true => Some "M82" | Extrusion false => Some "M83"
  | Millimetres => Some "G21" | Rename _ => Some "G92"
  | SetAcc _ => Some "M204" | SetJerk _ => Some "M205" | SetLimits _ => Some "M203"
  | Skipped n _ => Some n | Nothing => None
  end.
Definition args_of (c : gcode) : arguments :=
  match c with
  | Move _ l | Wait l | Rename l | SetAcc l | SetJerk l | SetLimits l | Skipped _ l => l
  | _ => []
  end.

(** The text of a line: anything without G, M and ";", the command, its
    arguments with blanks anywhere, and perhaps a comment that mentions no command
    (see C01). *)
Inductive spells : str -> gcode -> Prop :=
| w_args pre k ls w c : keyword c = Some k -> In (k, Some ls) documented -> args_wf (letters ls) (args_of c) ->
    plain pre -> unblank w = body (args_of c) -> spells (pre ++ S_ k ++ w)%list c
| w_bare pre k w c : keyword c = Some k -> In (k, None) documented -> k <> ";" -> plain pre -> unblank w = [] ->
    spells (pre ++ S_ k ++ w)%list c
| w_other t : (forall k o, In (k, o) documented -> ~ occurs (S_ k) t) -> spells t Nothing
| w_comment t c u : spells t c -> ~ In ";"%char t -> (forall k o, In (k, o) documented -> k <> ";" -> ~ occurs (S_ k) u) ->
    spells (t ++ ";"%char :: u)%list c.

(** The head: physical position, physical position of coordinate 0, modes, and
    the settings for the next moves. *)
Record head := Head {
  h_pos : axis -> R; h_zero : axis -> R; h_abs : axis -> bool;
  h_feed : R; h_acc : R; h_jerk : R }.
Definition arg (k : string) (l : arguments) : option R := option_map lit_num (lookup_arg (S_ k) l).
Definition letter (a : axis) : string := match a with AX => "X" | AY => "Y" | AZ => "Z" | AE => "E" end.
Definition otherwise (o : option R) (old : R) : R := match o with Some x => x | None => old end.
Definition obey (c : gcode) (h : head) : head :=
  match c with
  | Move _ l =>
    Head (fun a => match arg (letter a) l with
                   | None => h_pos h a
                   | Some x => if h_abs h a then h_zero h a + x else h_pos h a + x
                   end)
         (h_zero h) (h_abs h) (match arg "F" l with Some f => f / 60 | None => h_feed h end) (h_acc h) (h_jerk h)
  | Positions b => Head (h_pos h) (h_zero h) (fun a => match a with AE => h_abs h AE | _ => b end) (h_feed h) (h_acc h) (h_jerk h)
  | Extrusion b => Head (h_pos h) (h_zero h) (fun a => match a with AE => b | _ => h_abs h a end) (h_feed h) (h_acc h) (h_jerk h)
  | Rename l =>
    Head (h_pos h) (fun a => match arg (letter a) l with None => h_zero h a | Some x => h_pos h a - x end)
         (h_abs h) (h_feed h) (h_acc h) (h_jerk h)
  | SetAcc l => Head (h_pos h) (h_zero h) (h_abs h) (h_feed h) (otherwise (arg "P" l) (h_acc h)) (h_jerk h)
  | SetJerk l => Head (h_pos h) (h_zero h) (h_abs h) (h_feed h) (h_acc h) (otherwise (arg "X" l) (h_jerk h))
  | _ => h
  end.
(** Seconds to wait: S in seconds, else P in milliseconds. *)
Definition rest_of (c : gcode) : option R :=
  match c with
  | Wait l => match arg "S" l with Some x => Some x | None => option_map (fun x => x / 1000) (arg "P" l) end
  | _ => None
  end.

(** Numbers in their ranges; a G92 may only set coordinates to 0 (see C14). *)
Definition sensible (c : gcode) : Prop :=
  match c with
  | Move _ l => forall f, arg "F" l = Some f -> 0 < f
  | Wait l => forall k x, arg k l = Some x -> 0 <= x
  | Rename l => forall k x, arg k l = Some x -> x = 0
  | SetAcc l => forall x, arg "P" l = Some x -> 0 < x
  | SetJerk l => forall x, arg "X" l = Some x -> 0 <= x
  | Skipped n _ => In n ["G2"; "G3"; "G10"; "G11"; "G28"; "G29"]
  | _ => True
  end.
Definition obeyed (cs : list gcode) (h : head) : head := fold_left (fun h c => obey c h) cs h.
(** Some line moves the head, and none before it waits. *)
Definition starts_moving (h : head) (cs : list gcode) : Prop :=
  exists before c after a, cs = (before ++ c :: after)%list /\ Forall (fun d => rest_of d = None) before /\
    h_pos (obey c (obeyed before h)) a <> h_pos (obeyed before h) a.

Definition spot (h : head) : vec4 := V4 (h_pos h AX) (h_pos h AY) (h_pos h AZ) (h_pos h AE).
(** Where the head is after each line, and how long it waits there. *)
Fixpoint stops (h : head) (cs : list gcode) : list (vec4 * R) :=
  match cs with
  | [] => []
  | c :: cs' => (spot (obey c h), otherwise (rest_of c) 0) :: stops (obey c h) cs'
  end.
(** What each line asks of the planner. *)
Definition request (h : head) (w : option R) : kstate := KState (spot h) (h_feed h) (h_acc h) (h_jerk h) w None.
Fixpoint requests (h : head) (cs : list gcode) : list kstate :=
  match cs with
  | [] => []
  | c :: cs' => request (obey c h) (rest_of c) :: requests (obey c h) cs'
  end.
(** The head before the first line. *)
Definition fresh_head (pos : axis -> R) (feed acc jerk : R) : head :=
  Head pos (fun _ => 0) (fun _ => true) feed acc jerk.

(** * The printed program *)
From Verif Require Import SpecKin SpecQuery SpecText SpecTrace SpecFirmware Query Setup Interp.
(** The simulation prints the program: an unbroken path that begins at the head
    at time 0, is after every line where the line leads and rests there as long
    as it says, ends where the program ends, is at every time on the straight
    line of one of the lines and no faster than its feed rate, and is as fast as
    the firmware allows at the corners. *)
Definition printed (f : firmware) (h : head) (cs : list gcode) (m : simulation) : Prop :=
  let path := unpack_blocklist (blocklist (sim_query m)) in
  path <> [] /\ contiguous_path path /\
  starts (fun g => t_begin g = 0 /\ pos_begin g = spot h) path /\
  ends (fun g => pos_end g = spot (obeyed cs h)) path /\
  visits path 0 (stops h cs) /\
  (forall t v p, on_path path t v p -> exists i r, at_stage (request h None :: requests h cs) i r v p) /\
  fastest f (request h None) (requests h cs) (blocklist (sim_query m)).
(** Some line raises the extruder position. *)
Definition extrudes_somewhere (h : head) (cs : list gcode) : Prop :=
  exists before c after, cs = (before ++ c :: after)%list /\
    h_pos (obeyed before h) AE < h_pos (obey c (obeyed before h)) AE.
(** No line moves the head or waits. *)
Definition still (h : head) (cs : list gcode) : Prop := forall before c after, cs = (before ++ c :: after)%list ->
  rest_of c = None /\ forall b, h_pos (obey c (obeyed before h)) b = h_pos (obeyed before h) b.

(** The printers that come with the package: feed rate, acceleration, jerk and
    corner rule (data/default_printer_presets.yaml). *)
Inductive shipped : string -> R -> R -> R -> firmware -> Prop :=
| sh_anisoprint : shipped "anisoprint_a4" 35 1000 10 MKA
| sh_prusa : shipped "prusa_mini" 35 1250 8 MarlinJerk
| sh_klipper : shipped "prusa_mini_klipper" 35 2500 8 Klipper
| sh_debug : shipped "debugging" 85 100 8 FullStop.

(** * Result files *)
From Verif Require Import Tools Abaqus SpecTools.
(** A summary in millimetres: the time at which the print ends, at [last], the
    smallest box around all positions at which material is fed, and the largest
    speed at which material is fed. *)
Definition summarised (bl : list block) (last : vec4) (content : R * ((R * R * R) * (R * R * R)) * R) : Prop :=
  let '(T, ((x0, y0, z0), (x1, y1, z1)), m) := content in
  (forall t v p, on_path (unpack_blocklist bl) t v p -> t <= T) /\
  (exists v, on_path (unpack_blocklist bl) T v last) /\
  (forall t v p, feeding_at bl t v p -> x0 <= vx p <= x1 /\ y0 <= vy p <= y1 /\ z0 <= vz p <= z1 /\ norm3 v <= m) /\
  (exists p, feed_end_point bl p /\ vx p = x0) /\ (exists p, feed_end_point bl p /\ vx p = x1) /\
  (exists p, feed_end_point bl p /\ vy p = y0) /\ (exists p, feed_end_point bl p /\ vy p = y1) /\
  (exists p, feed_end_point bl p /\ vz p = z0) /\ (exists p, feed_end_point bl p /\ vz p = z1) /\
  (exists t v p, feeding_at bl t v p /\ norm3 v = m).
(** A layer table: unless the last block opens a layer (see C50), one row for
    each layer, in order, with the time its blocks take, together the print time. *)
Definition layer_table (bl : list block) (rows : list layer_row) : Prop :=
  exists T, print_time bl T /\
    (~ last_opens_layer bl ->
     Rsum row_duration rows = T /\ joined (fun a b => (row_layer a < row_layer b)%nat) rows /\
     (forall b n, In b bl -> k_layer (b_B b) = Some n -> In n (map row_layer rows)) /\
     (forall r, In r rows -> row_duration r = Rsum block_duration (filter (in_layer (row_layer r)) bl))).
(** An event series: events at the begin and the end of every segment, in
    millimetres, with the flag 1 if the segment after it feeds more than [tol]. *)
Definition event_series (tol : R) (path : list segment) (evs : list event) : Prop :=
  length evs = S (length path) /\ ascending (map ev_t evs) /\
  (forall i g, nth_error path i = Some g ->
     exists a b, nth_error evs i = Some a /\ nth_error evs (S i) = Some b /\ ev_t a = t_begin g /\ ev_t b = t_end g /\
       event_at (S_ "SImm") a (pos_begin g) /\ event_at (S_ "SImm") b (pos_end g) /\
       (ev_flag a = 1%nat <-> feeds_more tol g) /\ (ev_flag a = 0%nat <-> ~ feeds_more tol g)) /\
  exists l, nth_error evs (length path) = Some l /\ ev_flag l = 0%nat.
