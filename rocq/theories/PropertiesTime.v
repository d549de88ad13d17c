(** Properties C90, C91: the print time.  Vocabulary: SpecTime.v, SpecKin.v,
    SpecJunction.v, SpecQuery.v, SpecFirmware.v, SpecSetup.v, SpecText.v. *)
From Coq Require Import Lra Lia.
From Verif Require Import Py PyFloat Parser StateGen SpecMachine Vec Segment Junction Planner Query Setup Interp
  RealFacts SpecKin SpecJunction SpecQuery SpecSetup SpecText SpecFirmware SpecTime StrFacts MoveProofs JunctionProofs PlannerProofs TrajProofs PlanFacts
  QueryProofs QueryFacts QueryRefute SetupProofs InterpProofs FirmwareProofs DriveProofs PropertiesRead PropertiesQuery PropertiesCorner PropertiesSetup.
Open Scope R_scope.
Local Arguments S_ : simpl never.

(** * C90: no drive within the limits is faster *)
Theorem C90_fastest_print fw s0 states bl wn items T T' :
  valid_program s0 states -> simulate fw (s0 :: states) = Ok (bl, wn) -> plan_items s0 states items ->
  print_time bl T -> driven fw 0 items T' -> T <= T'.
Proof. intros Hv Hs Hi HT Hd. exact (whole_fastest _ _ _ _ _ _ Hv Hs Hi _ _ HT Hd). Qed.

(** * C91: bounds of the print time *)
Theorem C91_between fw s0 states bl wn items T :
  valid_program s0 states -> simulate fw (s0 :: states) = Ok (bl, wn) -> plan_items s0 states items ->
  print_time bl T -> Rsum item_least items <= T <= Rsum item_stop items.
Proof.
  intros Hv Hs Hi HT. split; [exact (whole_least _ _ _ _ _ _ _ Hv Hs Hi HT) | exact (whole_most _ _ _ _ _ _ _ Hv Hs Hi HT)].
Qed.
(** Without look-ahead every move goes from rest to rest. *)
Theorem C91_full_stop s0 states bl wn items T :
  valid_program s0 states -> simulate FullStop (s0 :: states) = Ok (bl, wn) -> plan_items s0 states items ->
  print_time bl T -> T = Rsum item_stop items.
Proof. intros Hv Hs Hi HT. exact (whole_full_stop _ _ _ _ _ _ Hv Hs Hi HT). Qed.
(** With look-ahead the print never takes longer than without. *)
Theorem C91_look_ahead_pays fw s0 states bl wn bl0 wn0 T T0 :
  valid_program s0 states -> simulate fw (s0 :: states) = Ok (bl, wn) -> simulate FullStop (s0 :: states) = Ok (bl0, wn0) ->
  print_time bl T -> print_time bl0 T0 -> T <= T0.
Proof.
  intros Hv Hs Hs0 HT HT0. destruct (plan_items_total states s0) as (items & Hi).
  rewrite (whole_full_stop _ _ _ _ _ _ Hv Hs0 Hi HT0). exact (whole_most _ _ _ _ _ _ _ Hv Hs Hi HT).
Qed.

(** * The same for a text *)
Section Text.
Variables (presets : dict (dict pval)) (printer cue : option str) (s : setup) (ops : list sop) (rs : list (res unit)) (a : aset).
Hypothesis Hn : new_setup presets printer cue = Ok s.
Hypothesis Hst : a_steps presets ops (a_start presets printer) rs a.
Variables (p : str) (su : setup_values Rops) (fw : pval).
Hypothesis Hsel : a_sel a = Some p.
Hypothesis Hsu : machine_settings cue a p su.
Hypothesis Hfw : complete_printer a p fw.
Variables (lines : list str) (ls : list line_dict) (sts : list (state Rops)).
Hypothesis Hread : read_gcode_to_dict_list lines = Ok ls.
Hypothesis Hsts : generate_states Rops lines su = Ok sts.
Hypothesis Hz : Forall g92_zero ls.
Variables (g0 : gmachine) (gs : list gmachine) (k0 : kstate) (ks : list kstate).
Hypothesis Hg0 : g_start su g0.
Hypothesis Hrun : g_run g0 ls gs.
Hypothesis Hk0 : commands g0 None k0.
Hypothesis Hks : command_list ls gs ks.
Hypothesis Hv : valid_program k0 ks.
Hypothesis Hmove : exists k, In k ks /\ k_pos k <> k_pos k0.

Theorem C91_text defaults unit k f items : unit_length unit k -> firmware_named fw f -> plan_items k0 ks items ->
  exists m s' T, new_simulation defaults lines None (Some (snd (do_ops ops s))) unit = Ok (m, s') /\
    print_time (blocklist (sim_query m)) T /\
    Rsum item_least items <= T <= Rsum item_stop items /\ (f = FullStop -> T = Rsum item_stop items) /\
    (forall T', driven f 0 items T' -> T <= T').
Proof.
  intros Hu Hf Hi. destruct (steps_refine _ _ _ _ _ _ _ (new_setup_refines _ _ _ _ Hn) Hst) as (s1 & E & Hr). rewrite E.
  destruct (run_setup_ok _ _ _ _ _ _ _ Hr Hsel Hsu Hfw _ _ _ _ _ _ _ Hread Hsts Hz Hg0 Hrun Hk0 Hks Hv Hmove unit)
    as (m & s' & bl & H1 & H2 & _ & _ & _ & _ & (k0' & ks' & S0 & Ss & _ & Hsim) & Hne & _).
  destruct (print_time_exists _ Hne) as (T & HT).
  exists m, s', T. split; [unfold new_simulation; rewrite (known_output_unit _ _ Hu); exact H1|]. rewrite H2.
  split; [exact HT|]. rewrite (named_ok _ _ Hf) in Hsim. pose proof (valid_program_same _ _ _ _ S0 Ss Hv) as Hv'.
  destruct (items_same _ _ _ _ _ S0 Ss Hi) as (items' & Hi' & Hsame). destruct (stop_same _ _ Hsame) as [-> ->].
  split; [exact (C91_between _ _ _ _ _ _ _ Hv' Hsim Hi' HT)|]. split.
  - intros ->. exact (C91_full_stop _ _ _ _ _ _ Hv' Hsim Hi' HT).
  - intros T' Hd. exact (C90_fastest_print _ _ _ _ _ _ _ _ Hv' Hsim Hi' HT (driven_same _ _ _ _ _ Hsame Hd)).
Qed.
End Text.

(** Two moves of 10 mm, straight on, at 20 mm/s with 500 mm/s^2: driving
    through takes 1.04 s, and the print takes no longer; with a stop after each
    move it is 1.08 s. *)
Definition two_start : kstate := KState (V4 0 0 0 0) 20 500 8 None None.
Definition two_mid : kstate := KState (V4 10 0 0 0) 20 500 8 None None.
Definition two_end : kstate := KState (V4 20 0 0 0) 20 500 8 None None.
Lemma two_valid : valid_program two_start [two_mid; two_end].
Proof.
  split; [|split].
  - repeat (apply Forall_cons; [split; [simpl; lra|]; split; [simpl; lra|]; split; [simpl; lra|]; intros p Hp; discriminate Hp|]). apply Forall_nil.
  - reflexivity.
  - simpl. split; [reflexivity|]. left. intros E. apply (f_equal vx) in E. simpl in E. lra.
Qed.
Lemma two_items : plan_items two_start [two_mid; two_end] [(two_start, two_mid, [two_end]); (two_mid, two_end, [])].
Proof. apply pi_item; [left; intros E; apply (f_equal vx) in E; simpl in E; lra|]. apply pi_item; [left; intros E; apply (f_equal vx) in E; simpl in E; lra|]. constructor. Qed.
Lemma two_length A B : vx (k_pos B) - vx (k_pos A) = 10 -> vy (k_pos B) - vy (k_pos A) = 0 -> vz (k_pos B) - vz (k_pos A) = 0 -> move_length A B = 10.
Proof.
  intros H1 H2 H3. unfold move_length. assert (E : norm3 (vsub (k_pos B) (k_pos A)) = 10) by (apply norm3_unique; simpl; rewrite ?H1, ?H2, ?H3; lra).
  rewrite E. destruct (Req_EM_T 10 0); [lra|reflexivity].
Qed.
Lemma two_driven : driven MarlinJD 0 [(two_start, two_mid, [two_end]); (two_mid, two_end, [])] (13 / 25 + (13 / 25 + 0)).
Proof.
  assert (L1 : move_length two_start two_mid = 10) by (apply two_length; simpl; ring).
  assert (L2 : move_length two_mid two_end = 10) by (apply two_length; simpl; ring).
  assert (S1 : swift 500 20 10 0 20 (13 / 25)).
  { exists 20, (48 / 5). repeat split; try lra; try field. }
  assert (S2 : swift 500 20 10 20 0 (13 / 25)).
  { exists 20, (48 / 5). repeat split; try lra; try field. }
  destruct (swift_drive 500 20 10 0 20 (13 / 25) ltac:(lra) ltac:(lra) ltac:(lra) S1) as (g1 & s1 & D1).
  destruct (swift_drive 500 20 10 20 0 (13 / 25) ltac:(lra) ltac:(lra) ltac:(lra) S2) as (g2 & s2 & D2).
  eapply dn_move; [reflexivity|rewrite L1; exact D1| |simpl; intros; lra|].
  - assert (Hc : corner two_start two_mid [two_end] two_end).
    { assert (N1 : norm3 (travel two_start two_mid) = 10) by (apply norm3_unique; simpl; lra).
      assert (N2 : norm3 (travel two_mid two_end) = 10) by (apply norm3_unique; simpl; lra).
      constructor; [|rewrite N1; lra|rewrite N2; lra|simpl; lra|simpl; lra]. apply ns_here. intros E. apply (f_equal vx) in E. simpl in E. lra. }
    rewrite (C38_straight_partial _ _ _ _ 1 Hc); [simpl; lra|simpl; lra|lra|simpl; lra..].
  - eapply dn_move; [reflexivity|rewrite L2; exact D2| |simpl; intros; lra|constructor].
    apply junction_vel_bounds; simpl; lra.
Qed.
Example C90_case : exists bl T, simulate MarlinJD (two_start :: [two_mid; two_end]) = Ok (bl, false) /\ print_time bl T /\ 1 <= T <= 26 / 25.
Proof.
  destruct (simulation_succeeds MarlinJD _ _ two_valid) as (bl & Hs).
  assert (Hne : unpack_blocklist bl <> []).
  { refine (proj2 (print_summary_ok _ _ _ _ _ two_valid Hs _)). exists two_mid. split; [left; reflexivity|]. intros E. apply (f_equal vx) in E. simpl in E. lra. }
  destruct (print_time_exists _ Hne) as (T & HT). exists bl, T. split; [exact Hs|]. split; [exact HT|].
  pose proof (C90_fastest_print _ _ _ _ _ _ _ _ two_valid Hs two_items HT two_driven).
  pose proof (C91_between _ _ _ _ _ _ _ two_valid Hs two_items HT) as [H1 _].
  unfold Rsum in H1. cbn [fold_right item_least] in H1. unfold least_time in H1. cbn [k_pause two_mid two_end] in H1.
  assert (L1 : move_length two_start two_mid = 10) by (apply two_length; simpl; ring).
  assert (L2 : move_length two_mid two_end = 10) by (apply two_length; simpl; ring).
  fold two_mid two_end in H1. rewrite L1, L2 in H1. simpl in H1. lra.
Qed.
Example C91_case : exists bl T, simulate FullStop (two_start :: [two_mid; two_end]) = Ok (bl, false) /\ print_time bl T /\ T = 27 / 25.
Proof.
  destruct (simulation_succeeds FullStop _ _ two_valid) as (bl & Hs).
  assert (Hne : unpack_blocklist bl <> []).
  { refine (proj2 (print_summary_ok _ _ _ _ _ two_valid Hs _)). exists two_mid. split; [left; reflexivity|]. intros E. apply (f_equal vx) in E. simpl in E. lra. }
  destruct (print_time_exists _ Hne) as (T & HT). exists bl, T. split; [exact Hs|]. split; [exact HT|].
  rewrite (C91_full_stop _ _ _ _ _ _ two_valid Hs two_items HT). unfold Rsum. cbn [fold_right item_stop]. unfold stop_time. cbn [k_pause two_mid two_end].
  fold two_mid two_end. assert (L1 : move_length two_start two_mid = 10) by (apply two_length; simpl; ring).
  assert (L2 : move_length two_mid two_end = 10) by (apply two_length; simpl; ring). rewrite L1, L2. cbv zeta. simpl.
  destruct (Rlt_dec (20 * 20 / 500) 10); lra.
Qed.

Print Assumptions C90_fastest_print.
Print Assumptions C91_between.
Print Assumptions C91_full_stop.
Print Assumptions C91_look_ahead_pays.
Print Assumptions C91_text.
