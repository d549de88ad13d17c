(** Vocabulary of the corner properties: three consecutive positions of a
    program and the angle between the two moves. *)
From Verif Require Import Py Vec Junction.
Open Scope R_scope.

(** [N] is the next state after [B] at another position. *)
Inductive next_stop (B : kstate) : list kstate -> kstate -> Prop :=
| ns_here N rest : k_pos N <> k_pos B -> next_stop B (N :: rest) N
| ns_skip s rest N : k_pos s = k_pos B -> next_stop B rest N -> next_stop B (s :: rest) N.

Definition travel (A B : kstate) : vec4 := vsub (k_pos B) (k_pos A).
(** Cosine of the angle between two directions: 1 straight on, 0 a right
    angle, -1 a reversal. *)
Definition cosang (a b : vec4) : R := dot3 a b / (norm3 a * norm3 b).

(** A corner: the moves A -> B and B -> N both travel. *)
Record corner (A B : kstate) (rest : list kstate) (N : kstate) : Prop := {
  co_next : next_stop B rest N;
  co_in : 0 < norm3 (travel A B);
  co_out : 0 < norm3 (travel B N);
  co_vB : 0 < k_speed B;
  co_vN : 0 < k_speed N }.

(** The speed at which the planner lets the corner be passed. *)
Definition corner_speed (fw : firmware) (A B : kstate) (rest : list kstate) : R :=
  junction_vel fw (mk_junction (Some A) B rest) B.

(** Unit direction of a move and its nominal velocity. *)
Definition unit3 (a : vec4) : vec4 := vdiv a (norm3 a).
Definition nominal (A B : kstate) : vec4 := vscale (k_speed B) (unit3 (travel A B)).
