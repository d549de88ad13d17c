(** Vocabulary of the properties that lead from the text of a program to its
    trajectory. *)
From Coq Require Import Reals.
From Verif Require Import Py Parser StateGen SpecMachine Vec Segment Junction Planner SpecKin SpecQuery.
Open Scope R_scope.

(** The path stays at [p] for the time [w] and goes on to the next stop, no
    earlier than [t], in the order of the list. *)
Inductive visits (path : list segment) : R -> list (vec4 * R) -> Prop :=
| v_nil t : visits path t []
| v_cons t t' p w stops : t <= t' ->
    (forall u, t' <= u <= t' + w -> exists v, on_path path u v p) ->
    visits path (t' + w) stops -> visits path t ((p, w) :: stops).

(** What the planner is asked for in a state of the abstract machine, with the
    pause of the line. *)
Definition commands (g : gmachine) (w : option R) (k : kstate) : Prop :=
  vx (k_pos k) = g_pos g AX /\ vy (k_pos k) = g_pos g AY /\ vz (k_pos k) = g_pos g AZ /\ ve (k_pos k) = g_pos g AE /\
  g_feed g = SNum (N := Rops) (k_speed k) /\ g_acc g = SNum (N := Rops) (k_acc k) /\
  g_jerk g = SNum (N := Rops) (k_jerk k) /\ k_pause k = w.
(** The pause a line asks for, in seconds. *)
Definition pause_of (l : line_dict) (w : option R) : Prop :=
  dwell_means (N := Rops) l (match w with None => None | Some x => Some (SNum (N := Rops) x) end).
(** The commands of a whole run. *)
Inductive command_list : list line_dict -> list gmachine -> list kstate -> Prop :=
| cl_nil : command_list [] [] []
| cl_cons l ls g gs k ks : pause_of l (k_pause k) -> commands g (k_pause k) k ->
    command_list ls gs ks -> command_list (l :: ls) (g :: gs) (k :: ks).
(** The stops of a run: the machine's positions, with the pauses. *)
Definition at_machine (g : gmachine) (p : vec4) : Prop :=
  vx p = g_pos g AX /\ vy p = g_pos g AY /\ vz p = g_pos g AZ /\ ve p = g_pos g AE.
Inductive stop_list : list line_dict -> list gmachine -> list (vec4 * R) -> Prop :=
| sl_nil : stop_list [] [] []
| sl_cons l ls g gs p w stops : at_machine g p -> (pause_of l (Some w) \/ (pause_of l None /\ w = 0)) ->
    stop_list ls gs stops -> stop_list (l :: ls) (g :: gs) ((p, w) :: stops).
