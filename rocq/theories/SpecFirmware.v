(** Vocabulary of the firmware properties: which name selects which corner
    rule, and what a plan that uses a corner rule is. *)
From Verif Require Import Py Vec Segment Junction Planner Setup SpecKin SpecJunction.
Open Scope R_scope.

(** The documented firmware names.  Everything else, a number or another name,
    means a full stop at every corner. *)
Inductive firmware_named : pval -> firmware -> Prop :=
| fn_jd : firmware_named (PStr (S_ "marlin_jd")) MarlinJD
| fn_jerk : firmware_named (PStr (S_ "marlin_jerk")) MarlinJerk
| fn_klipper : firmware_named (PStr (S_ "klipper")) Klipper
| fn_mka : firmware_named (PStr (S_ "MKA")) MKA
| fn_other v :
    v <> PStr (S_ "marlin_jd") -> v <> PStr (S_ "marlin_jerk") -> v <> PStr (S_ "klipper") -> v <> PStr (S_ "MKA") ->
    firmware_named v FullStop.

(** The blocks of a program keep the corner speeds of the firmware and are at
    least as fast at every corner as every other profile that keeps them. *)
Definition fastest (fw : firmware) (s0 : kstate) (states : list kstate) (bl : list block) : Prop :=
  exists items, plan_items s0 states items /\
    Forall2 (fun b i => let '(A, B, rest) := i in ends (fun s => norm3 (vel_end s) <= corner_speed fw A B rest) (b_segs b)) bl items /\
    (forall wl, feasible fw 0 items wl -> Forall2 (fun b w => ends (fun s => w <= norm3 (vel_end s)) (b_segs b)) bl wl).

(** Two programs agree up to a dwell [d] (which does not move) and up to the
    first line [N] after it that moves an axis. *)
Record agree_past_dwell (l1 l2 : list kstate) (pre : list kstate) (A d : kstate) (mid : list kstate) (N : kstate)
       (post1 post2 : list kstate) : Prop := {
  ap_1 : l1 = pre ++ A :: d :: mid ++ N :: post1;
  ap_2 : l2 = pre ++ A :: d :: mid ++ N :: post2;
  ap_still : k_pos d = k_pos A;
  ap_pause : k_pause d <> None;
  ap_mid : Forall (fun s => k_pos s = k_pos d) mid;
  ap_moves : k_pos N <> k_pos d }.
