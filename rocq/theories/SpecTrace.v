(** Vocabulary of the properties that tie the trajectory to the lines of the
    program. *)
From Coq Require Import Reals.
From Verif Require Import Py Parser StateGen SpecMachine Vec Segment Junction Planner SpecKin SpecQuery SpecText.
Open Scope R_scope.

(** * Along the commanded path *)
(** The nozzle at [p] with velocity [v] has done the fraction [r] of the way
    from [A] to [B]: it is on the straight line between them and moves towards
    [B], no faster than [vmax] (with the filament alone: feeds no faster). *)
Definition on_leg (A B : vec4) (vmax r : R) (v p : vec4) : Prop :=
  0 <= r <= 1 /\ p = vadd A (vscale r (vsub B A)) /\
  (exists c, 0 <= c /\ v = vscale c (vsub B A)) /\
  norm3 v <= vmax /\ (norm3 (vsub B A) = 0 -> Rabs (ve v) <= vmax).
(** The same for the [i]-th step of a list of states; it stands still during a pause. *)
Definition at_stage (ks : list kstate) (i : nat) (r : R) (v p : vec4) : Prop :=
  exists A B, nth_error ks i = Some A /\ nth_error ks (S i) = Some B /\
    on_leg (k_pos A) (k_pos B) (k_speed B) r v p /\ (k_pause B <> None -> v = vzero).
(** Step and fraction of the step, in the order of the program. *)
Definition not_after (i : nat) (r : R) (i' : nat) (r' : R) : Prop := (i < i')%nat \/ (i = i' /\ r <= r').

(** The same for the abstract machine: line [i] of the program leads from the
    [i]-th to the next machine. *)
Definition at_line (ls : list line_dict) (gs : list gmachine) (i : nat) (r : R) (v p : vec4) : Prop :=
  exists l g g' A B f, nth_error ls i = Some l /\ nth_error gs i = Some g /\ nth_error gs (S i) = Some g' /\
    at_machine g A /\ at_machine g' B /\ g_feed g' = SNum (N := Rops) f /\
    on_leg A B f r v p /\ (~ pause_of l None -> v = vzero).

(** * Blocks and lines *)
(** The layer after the lines [ls]. *)
Definition layer_after (cue : option str) (ls : list line_dict) (n : option nat) : Prop :=
  match cue with None => n = None | Some c => exists k, n = Some k /\ cue_count c ls k end.
(** One block for each line that moves an axis or carries a pause: from the
    position of the machine before the line to the one after it, with the
    settings of the machine, the pause and the layer of the line.
    [done] are the lines before. *)
Inductive line_blocks (cue : option str) : list line_dict -> gmachine -> list line_dict -> list gmachine -> list block -> Prop :=
| lb_nil done g : line_blocks cue done g [] [] []
| lb_none done g l ls g' gs bl :
    (forall a, g_pos g' a = g_pos g a) -> pause_of l None ->
    line_blocks cue (done ++ [l]) g' ls gs bl -> line_blocks cue done g (l :: ls) (g' :: gs) bl
| lb_block done g l ls g' gs b bl :
    (exists a, g_pos g' a <> g_pos g a) \/ ~ pause_of l None ->
    at_machine g (k_pos (b_A b)) -> commands g' (k_pause (b_B b)) (b_B b) -> pause_of l (k_pause (b_B b)) ->
    layer_after cue (done ++ [l]) (k_layer (b_B b)) ->
    line_blocks cue (done ++ [l]) g' ls gs bl -> line_blocks cue done g (l :: ls) (g' :: gs) (b :: bl).
