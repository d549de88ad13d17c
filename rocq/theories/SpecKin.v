(** Specification vocabulary for trajectories: what a motion with bounded
    speed and constant acceleration pieces along one direction is. *)
From Verif Require Import Py Vec Segment Junction.
Open Scope R_scope.

(** [s] runs along [d] from speed v0 to speed v1 with acceleration a, 0 or -a,
    never faster than vmax, and covers the area under the speed profile, which
    is not empty. *)
Definition ramp (d : vec4) (a vmax : R) (s : segment) (v0 v1 : R) : Prop :=
  let dt := t_end s - t_begin s in
  0 < dt /\
  vel_begin s = vscale v0 d /\ vel_end s = vscale v1 d /\
  pos_end s = vadd (pos_begin s) (vscale ((v0 + v1) / 2 * dt) d) /\
  0 <= v0 <= vmax /\ 0 <= v1 <= vmax /\
  (v1 - v0 = a * dt \/ v1 = v0 \/ v0 - v1 = a * dt) /\ 0 < v0 + v1.

(** [motion d a vmax t p v segs t' p' v']: the segments lead without a gap in
    time, position or speed from (t, p, v) to (t', p', v'). *)
Inductive motion (d : vec4) (a vmax : R) : R -> vec4 -> R -> list segment -> R -> vec4 -> R -> Prop :=
| motion_nil t p v : motion d a vmax t p v [] t p v
| motion_cons t p v s v1 segs t' p' v' :
    t_begin s = t -> pos_begin s = p -> ramp d a vmax s v v1 ->
    motion d a vmax (t_end s) (pos_end s) v1 segs t' p' v' ->
    motion d a vmax t p v (s :: segs) t' p' v'.

(** What a state list asks of the machine: every line that changes the
    position or carries a pause, with the state before and the states after. *)
Definition item := (kstate * kstate * list kstate)%type.
Inductive plan_items : kstate -> list kstate -> list item -> Prop :=
| pi_nil A : plan_items A [] []
| pi_skip A B rest l :
    k_pos B = k_pos A -> k_pause B = None ->
    plan_items B rest l -> plan_items A (B :: rest) l
| pi_item A B rest l :
    k_pos B <> k_pos A \/ k_pause B <> None ->
    plan_items B rest l -> plan_items A (B :: rest) ((A, B, rest) :: l).

(** Speeds [w0] before and [w1] after the step from [A] to [B] that the
    machine limits allow: a move may change the squared speed by at most
    2 a d; before and after anything else the machine stands still. *)
Definition profile_step (A B : kstate) (w0 w1 : R) : Prop :=
  0 <= w0 /\ 0 <= w1 /\
  ((w0 = 0 /\ w1 = 0) \/
   (k_pause B = None /\
    0 < norm3 (vsub (k_pos B) (k_pos A)) /\
    w0 <= k_speed B /\ w1 <= k_speed B /\
    Rabs (w1 * w1 - w0 * w0) <= 2 * k_acc B * norm3 (vsub (k_pos B) (k_pos A)))).

(** A speed profile along the program, one end speed per item, starting with
    speed [w0], that respects the limits and the corner speeds. *)
Inductive feasible (fw : firmware) : R -> list item -> list R -> Prop :=
| feasible_nil w : feasible fw w [] []
| feasible_cons w A B rest w' items wl :
    profile_step A B w w' ->
    w' <= junction_vel fw (mk_junction (Some A) B rest) B ->
    feasible fw w' items wl ->
    feasible fw w ((A, B, rest) :: items) (w' :: wl).

(** Settings the planner is meant for. *)
Definition valid_state (s : kstate) : Prop :=
  0 < k_speed s /\ 0 < k_acc s /\ 0 <= k_jerk s /\
  (forall p, k_pause s = Some p -> 0 <= p).

(** No pause before the first move. *)
Fixpoint moves_first (A : kstate) (states : list kstate) : Prop :=
  match states with
  | [] => True
  | s :: rest => k_pause s = None /\ (k_pos s <> k_pos A \/ moves_first s rest)
  end.

(** A complete valid program: first state and the states after it. *)
Definition valid_program (s0 : kstate) (states : list kstate) : Prop :=
  Forall valid_state (s0 :: states) /\ k_pause s0 = None /\ moves_first s0 states.

(** No line moves and pauses at once (such a line loses its move). *)
Fixpoint no_moving_pause (A : kstate) (states : list kstate) : Prop :=
  match states with
  | [] => True
  | s :: rest => (k_pause s = None \/ k_pos s = k_pos A) /\ no_moving_pause s rest
  end.

(** [P] holds for each element of a list and its successor. *)
Fixpoint joined {X : Type} (P : X -> X -> Prop) (l : list X) : Prop :=
  match l with
  | [] => True
  | x :: l' => match l' with [] => True | y :: _ => P x y end /\ joined P l'
  end.

(** First and last element satisfy a predicate, if there are any. *)
Definition starts {X : Type} (P : X -> Prop) (l : list X) : Prop :=
  match l with [] => True | x :: _ => P x end.
Definition ends {X : Type} (P : X -> Prop) (l : list X) : Prop := starts P (rev l).

(** Sum of a quantity over a list. *)
Definition Rsum {X : Type} (f : X -> R) (l : list X) : R := fold_right (fun x acc => f x + acc) 0 l.

(** A segment that takes time and covers the area under its velocity. *)
Definition consistent (s : segment) : Prop :=
  t_begin s < t_end s /\
  pos_end s = vadd (pos_begin s) (vscale ((t_end s - t_begin s) / 2) (vadd (vel_begin s) (vel_end s))).

(** Derivative in each of the four axes. *)
Definition derivative4 (f : R -> vec4) (t : R) (v : vec4) : Prop :=
  derivable_pt_lim (fun u => vx (f u)) t (vx v) /\ derivable_pt_lim (fun u => vy (f u)) t (vy v) /\
  derivable_pt_lim (fun u => vz (f u)) t (vz v) /\ derivable_pt_lim (fun u => ve (f u)) t (ve v).

(** [s] runs along the unit direction [d], with acceleration +a, 0 or -a,
    and is never faster than [vmax]. *)
Definition within_limits (d : vec4) (a vmax : R) (s : segment) : Prop :=
  exists a', (a' = a \/ a' = 0 \/ a' = - a) /\
  forall t, t_begin s <= t <= t_end s ->
  exists v, get_velocity s t = Ok v /\
            v = vadd (vel_begin s) (vscale (a' * (t - t_begin s)) d) /\
            (exists k, 0 <= k <= vmax /\ v = vscale k d) /\ norm3 v <= vmax.

(** Length of a move: travel distance, or the filament length if nothing but
    the extruder moves. *)
Definition move_length (A B : kstate) : R :=
  let d := vsub (k_pos B) (k_pos A) in
  if Req_EM_T (norm3 d) 0 then Rabs (ve d) else norm3 d.
(** The least time a block can take. *)
Definition least_time (A B : kstate) : R :=
  match k_pause B with Some p => p | None => move_length A B / k_speed B end.
(** [d] is the direction of the move: so many times its length leads from the
    one position to the other. *)
Definition direction (A B : kstate) (d : vec4) : Prop :=
  0 < move_length A B /\ vscale (move_length A B) d = vsub (k_pos B) (k_pos A).
