(** C107: with the presets of the package two ordinary moves are simulated.  They
    are not: with doubles the speed between two moves straight on can come out
    above the speed of the move, and then a segment ends before it begins. *)
From Coq Require Import Reals Lra Lia.
From Verif Require Import Py Vec Segment StateGen Junction Planner Interp Texts Generic SpecGeneric SpecKin RealFacts
  PropertiesPlan PropertiesFloat.
Open Scope R_scope.

(** The numbers of anisoprint_a4 in default_printer_presets.yaml:3-16 *)
Definition a4 (k : kops) : setup_values (knum k) :=
  Build_setup_values (knum k) (k_dec k 35 0) (k_dec k 1000 0) (k_dec k 10 0)
    (k_dec k 180 0) (k_dec k 180 0) (k_dec k 30 0) (k_dec k 33 0)
    (k_dec k 0 0) (k_dec k 0 0) (k_dec k 0 0) (k_dec k 0 0) None.
Definition straight_a4 : list str := map S_ ["G1 X1 Y2 F3000"; "G1 X2 Y4"]%string.
Definition straight_mini : list str := map S_ ["G1 X2 Y4 F6000"; "G1 X4 Y8"]%string.

Ltac valid_states :=
  repeat (apply Forall_cons || apply Forall_nil); unfold valid_state; cbn [k_speed k_acc k_jerk k_pause]; unfold r_of_dec; cbn;
  (split; [lra|split; [lra|split; [lra|discriminate]]]).
Lemma a4_states : exists k0 ks, (sts <- generate_states Rops straight_a4 (a4 Rk) ;; to_kstates sts) = Ok (k0 :: ks) /\ valid_program k0 ks.
Proof.
  eexists _, _. split; [cbv -[r_of_dec Rplus Rdiv]; reflexivity|]. split; [valid_states|split; [reflexivity|]].
  cbn [moves_first k_pause k_pos]. split; [reflexivity|]. left. intros E. apply (f_equal vx) in E. cbn [vx] in E. unfold r_of_dec in E. cbn in E. lra.
Qed.
Lemma mini_states : exists k0 ks, (sts <- generate_states Rops straight_mini (mini Rk) ;; to_kstates sts) = Ok (k0 :: ks) /\ valid_program k0 ks.
Proof.
  eexists _, _. split; [cbv -[r_of_dec Rplus Rdiv]; reflexivity|]. split; [valid_states|split; [reflexivity|]].
  cbn [moves_first k_pause k_pos]. split; [reflexivity|]. left. intros E. apply (f_equal vx) in E. cbn [vx] in E. unfold r_of_dec in E. cbn in E. lra.
Qed.
(** Exact numbers simulate such a program with every firmware. *)
Lemma exact_numbers fw lines su k0 ks :
  (sts <- generate_states Rops lines su ;; to_kstates sts) = Ok (k0 :: ks) -> valid_program k0 ks -> exists bl, grun Rk fw lines su = Ok (bl, false).
Proof.
  intros E V. destruct (C26_simulation_succeeds fw k0 ks V) as [bl S]. pose proof (C105_exact_numbers fw lines su) as H.
  destruct (generate_states Rops lines su) as [sts|e]; [|discriminate]. cbn [bind] in E, H. rewrite E in H. cbn [bind] in H. rewrite S in H.
  destruct (grun Rk fw lines su) as [(bl', w)|e]; [|discriminate]. cbn in H. injection H as _ ->. exists bl'. reflexivity.
Qed.
Lemma fails {A} (r : res (list A * bool)) e : outcome r = Err e -> r = Err e.
Proof. destruct r as [x|e']; [discriminate|]. cbn. congruence. Qed.

(** anisoprint_a4 with its firmware MKA, prusa_mini with its firmware
    marlin_jerk: two moves straight on in whole millimetres *)
Theorem C107_refuted :
  (exists lines bl, grun Rk MKA lines (a4 Rk) = Ok (bl, false) /\ grun Fk MKA lines (a4 Fk) = Err RuntimeError) /\
  (exists lines bl, grun Rk MarlinJerk lines (mini Rk) = Ok (bl, false) /\ grun Fk MarlinJerk lines (mini Fk) = Err RuntimeError).
Proof.
  split.
  - destruct a4_states as (k0 & ks & E & V). destruct (exact_numbers MKA _ _ k0 ks E V) as [bl H].
    exists straight_a4, bl. split; [exact H|]. apply fails. vm_compute. reflexivity.
  - destruct mini_states as (k0 & ks & E & V). destruct (exact_numbers MarlinJerk _ _ k0 ks E V) as [bl H].
    exists straight_mini, bl. split; [exact H|]. apply fails. vm_compute. reflexivity.
Qed.
(** The other three firmwares simulate the same lines. *)
Example C107_others :
  Forall (fun fw => outcome (grun Fk fw straight_a4 (a4 Fk)) = Ok (2%nat, false) /\ outcome (grun Fk fw straight_mini (mini Fk)) = Ok (2%nat, false))
    [MarlinJD; Klipper; FullStop].
Proof. repeat (apply Forall_cons || apply Forall_nil); vm_compute; split; reflexivity. Qed.

Print Assumptions C107_refuted.
