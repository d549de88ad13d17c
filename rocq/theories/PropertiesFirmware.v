(** Properties C86, C87: what the firmware setting selects, and how far later
    lines reach back.  Vocabulary: SpecFirmware.v, SpecJunction.v, SpecKin.v,
    SpecSetup.v, SpecText.v, SpecQuery.v. *)
From Coq Require Import Lra Lia.
From Verif Require Import Py PyFloat Parser StateGen SpecMachine Vec Segment Junction Planner Query Setup Interp
  RealFacts SpecKin SpecJunction SpecQuery SpecSetup SpecText SpecFirmware StrFacts JunctionProofs PlannerProofs TrajProofs PlanFacts
  QueryProofs QueryFacts QueryRefute SetupProofs InterpProofs FirmwareProofs PropertiesRead PropertiesQuery PropertiesSetup.
Open Scope R_scope.
Local Arguments S_ : simpl never.

(** * C86 *)
(** Every value of the setting names exactly one corner rule. *)
Theorem C86_one_rule v : exists fw, firmware_named v fw /\ forall fw', firmware_named v fw' -> fw' = fw.
Proof.
  destruct (named_total v) as (fw & H). exists fw. split; [exact H|]. intros fw' H'.
  rewrite <- (named_ok _ _ H), <- (named_ok _ _ H'). reflexivity.
Qed.

Section Text.
Variables (presets : dict (dict pval)) (printer cue : option str) (s : setup) (ops : list sop) (rs : list (res unit)) (a : aset).
Hypothesis Hn : new_setup presets printer cue = Ok s.
Hypothesis Hst : a_steps presets ops (a_start presets printer) rs a.
Variables (p : str) (su : setup_values Rops) (fw : pval).
Hypothesis Hsel : a_sel a = Some p.
Hypothesis Hsu : machine_settings cue a p su.
Hypothesis Hfw : complete_printer a p fw.
Variables (lines : list str) (ls : list line_dict) (sts : list (state Rops)).
Hypothesis Hread : read_gcode_to_dict_list lines = Ok ls.
Hypothesis Hsts : generate_states Rops lines su = Ok sts.
Hypothesis Hz : Forall g92_zero ls.
Variables (g0 : gmachine) (gs : list gmachine) (k0 : kstate) (ks : list kstate).
Hypothesis Hg0 : g_start su g0.
Hypothesis Hrun : g_run g0 ls gs.
Hypothesis Hk0 : commands g0 None k0.
Hypothesis Hks : command_list ls gs ks.
Hypothesis Hv : valid_program k0 ks.
Hypothesis Hmove : exists k, In k ks /\ k_pos k <> k_pos k0.

(** The simulation of a text keeps the corner speeds of the firmware named in
    the setup and is as fast as they allow. *)
Theorem C86_setting_selects_rule defaults unit k f : unit_length unit k -> firmware_named fw f ->
  exists m s', new_simulation defaults lines None (Some (snd (do_ops ops s))) unit = Ok (m, s') /\
    fastest f k0 ks (blocklist (sim_query m)).
Proof.
  intros Hu Hf. destruct (steps_refine _ _ _ _ _ _ _ (new_setup_refines _ _ _ _ Hn) Hst) as (s1 & E & Hr). rewrite E.
  destruct (run_setup_ok _ _ _ _ _ _ _ Hr Hsel Hsu Hfw _ _ _ _ _ _ _ Hread Hsts Hz Hg0 Hrun Hk0 Hks Hv Hmove unit)
    as (m & s' & bl & H1 & H2 & _ & _ & _ & _ & (k0' & ks' & S0 & Ss & _ & Hsim) & _).
  exists m, s'. split; [unfold new_simulation; rewrite (known_output_unit _ _ Hu); exact H1|].
  rewrite H2. rewrite (named_ok _ _ Hf) in Hsim.
  exact (fastest_same _ _ _ _ _ _ S0 Ss (fastest_sim _ _ _ _ _ (valid_program_same _ _ _ _ S0 Ss Hv) Hsim)).
Qed.
(** After the setting was changed, a refresh plans with the firmware it names
    now, and nothing else changes. *)
Theorem C86_refresh_selects_rule defaults unit k ops2 rs2 a2 v f : unit_length unit k ->
  a_steps presets ops2 a rs2 a2 -> a_prop a2 p (S_ "firmware") = Some v -> firmware_named v f ->
  exists m s' m', new_simulation defaults lines None (Some (snd (do_ops ops s))) unit = Ok (m, s') /\
    refresh m (snd (do_ops ops2 s')) = Ok m' /\ fastest f k0 ks (blocklist (sim_query m')) /\ sim_states m' = sim_states m.
Proof.
  intros Hu Hst2 Hv2 Hf. destruct (steps_refine _ _ _ _ _ _ _ (new_setup_refines _ _ _ _ Hn) Hst) as (s1 & E & Hr). rewrite E.
  destruct (run_setup_ok _ _ _ _ _ _ _ Hr Hsel Hsu Hfw _ _ _ _ _ _ _ Hread Hsts Hz Hg0 Hrun Hk0 Hks Hv Hmove unit)
    as (m & s' & bl & H1 & H2 & H3 & H4 & Hr' & _ & (k0' & ks' & S0 & Ss & Ek & Hsim) & _).
  destruct (steps_refine _ _ _ _ _ _ _ Hr' Hst2) as (s2 & E2 & Hr2). rewrite <- H4 in Ek.
  pose proof (valid_program_same _ _ _ _ S0 Ss Hv) as Hv'.
  destruct (simulation_succeeds f _ _ Hv') as (bl' & Hsim').
  exists m, s', (MkSimulation (sim_setup m) (sim_firmware m) (sim_states m) (Sim bl' (output_unit_system (sim_query m)) (last_index (sim_query m)))).
  split; [unfold new_simulation; rewrite (known_output_unit _ _ Hu); exact H1|]. rewrite E2. split; [|split; [|reflexivity]].
  - unfold refresh, snd. rewrite H3. unfold deref. pose proof (rf_selected _ _ _ _ Hr _ Hsel) as Hin. apply (rf_known _ _ _ _ Hr2) in Hin.
    destruct (dget_some _ _ Hin) as (d & Hd). rewrite Hd. unfold dindex.
    rewrite (rf_prop _ _ _ _ Hr2 p d _ Hd) by (apply unreserved; [right; simpl; tauto|discriminate]). rewrite Hv2. cbn [bind].
    unfold plan. rewrite Ek. cbn [bind]. rewrite (named_ok _ _ Hf), Hsim'. reflexivity.
  - exact (fastest_same _ _ _ _ _ _ S0 Ss (fastest_sim _ _ _ _ _ Hv' Hsim')).
Qed.

(** * C87 for texts *)
(** With a firmware that stops at every corner the print of the first lines is
    the beginning of the print of all lines. *)
Theorem C87_full_stop_text defaults unit k lines1 lines2 m1 t1 : unit_length unit k -> firmware_named fw FullStop ->
  lines = lines1 ++ lines2 ->
  new_simulation defaults lines1 None (Some (snd (do_ops ops s))) unit = Ok (m1, t1) ->
  exists m s' more, new_simulation defaults lines None (Some (snd (do_ops ops s))) unit = Ok (m, s') /\
    blocklist (sim_query m) = blocklist (sim_query m1) ++ more.
Proof.
  intros Hu Hf Hl H1. destruct (steps_refine _ _ _ _ _ _ _ (new_setup_refines _ _ _ _ Hn) Hst) as (s1 & E & Hr). rewrite E in *.
  destruct (run_setup_ok _ _ _ _ _ _ _ Hr Hsel Hsu Hfw _ _ _ _ _ _ _ Hread Hsts Hz Hg0 Hrun Hk0 Hks Hv Hmove unit)
    as (m & s' & bl & R1 & H2 & H3 & H4 & Hr' & _ & (k0' & ks' & S0 & Ss & Ek & Hsim) & _).
  pose proof (valid_program_same _ _ _ _ S0 Ss Hv) as Hv'.
  unfold new_simulation, snd in H1. rewrite (known_output_unit _ _ Hu) in H1. unfold run_setup in H1.
  destruct (get_refines _ _ _ _ _ Hr Hsel) as (s2 & Eg & _ & Hpres). rewrite Eg in H1.
  destruct (check_initial_setup _) as [[]|]; cbn [bind] in H1; [|discriminate].
  destruct (complete_acceptable _ _ _ _ _ _ Hpres Hsu Hfw) as [_ Hff]. rewrite Hff in H1. cbn [bind] in H1.
  rewrite (setup_values_ok _ _ _ _ _ Hpres Hsu) in H1. cbn [bind] in H1.
  destruct (generate_states Rops lines1 su) as [sts1|] eqn:E1; cbn [bind] in H1; [|discriminate].
  destruct (plan fw sts1) as [bl1|] eqn:Ep; cbn [bind] in H1; [|discriminate].
  destruct (print_summary bl1); cbn [bind] in H1; [|discriminate]. injection H1 as <- _. cbn [sim_query blocklist].
  exists m, s'. cut (exists more, bl = bl1 ++ more).
  { intros (more & Hm). exists more. split; [unfold new_simulation; rewrite (known_output_unit _ _ Hu); exact R1|]. rewrite H2. exact Hm. }
  pose proof Hsts as Hsts'. rewrite Hl in Hsts'. apply C19_causality in Hsts'. rewrite E1 in Hsts'.
  assert (E1' : sts1 = firstn (S (length lines1)) sts) by congruence.
  unfold plan in Ep. destruct (to_kstates sts1) as [kk|] eqn:Ek1; cbn [bind] in Ep; [|discriminate].
  assert (Hpre : forall n l kl, to_kstates l = Ok kl -> to_kstates (firstn n l) = Ok (firstn n kl)).
  { induction n as [|n IH]; intros l kl H; [reflexivity|]. destruct l as [|x l]; cbn [to_kstates firstn] in *; [injection H as <-; reflexivity|].
    destruct (to_kstate x) as [kx|]; cbn [bind] in *; [|discriminate]. destruct (to_kstates l) as [r|] eqn:Er; cbn [bind] in *; [|discriminate].
    injection H as <-. rewrite (IH _ _ Er). reflexivity. }
  rewrite E1', (Hpre _ _ _ Ek) in Ek1. injection Ek1 as <-. cbn [firstn] in Ep. rewrite (named_ok _ _ Hf) in *.
  destruct (simulate FullStop (k0' :: firstn (length lines1) ks')) as [[bl2 w2]|] eqn:Es; cbn [bind] in Ep; [|discriminate]. injection Ep as ->.
  rewrite <- (firstn_skipn (length lines1) ks') in Hv', Hsim. exact (full_stop_prefix _ _ _ _ _ _ _ Hv' Es Hsim).
Qed.
End Text.

(** The example printer (marlin_jerk) and its program; then it becomes a klipper. *)
Example C86_case : exists m s' m',
  new_simulation ex_presets ex_lines None (Some ex_setup) (S_ "SImm") = Ok (m, s') /\ fastest MarlinJerk corner_start corner_program (blocklist (sim_query m)) /\
  refresh m (snd (do_ops [OProperty [(S_ "firmware", PStr (S_ "klipper"))]] s')) = Ok m' /\ fastest Klipper corner_start corner_program (blocklist (sim_query m')).
Proof.
  destruct ex_states as (sts & Hsts & Hk).
  destruct (C86_setting_selects_rule _ _ _ _ _ _ _ ex_new (ass_nil _ _) _ _ _ eq_refl ex_settings ex_complete _ _ _ ex_parsed Hsts ex_zero
              _ _ _ _ (proj1 ex_run) (proj2 ex_run) (proj1 ex_commands) (proj2 ex_commands) corner_valid ex_moves
              ex_presets _ _ _ u_SImm fn_jerk) as (m & s' & H1 & H2).
  destruct (C86_refresh_selects_rule _ _ _ _ _ _ _ ex_new (ass_nil _ _) _ _ _ eq_refl ex_settings ex_complete _ _ _ ex_parsed Hsts ex_zero
              _ _ _ _ (proj1 ex_run) (proj2 ex_run) (proj1 ex_commands) (proj2 ex_commands) corner_valid ex_moves
              ex_presets (S_ "SImm") 1 [OProperty [(S_ "firmware", PStr (S_ "klipper"))]] [Ok tt] _ (PStr (S_ "klipper")) Klipper u_SImm
              (ass_cons _ _ _ _ _ _ _ _ (as_property ex_presets _ (a_start ex_presets (Some (S_ "anycubic"))) (S_ "anycubic") _ eq_refl (fun q k => eq_refl)) (ass_nil _ _)) eq_refl fn_klipper)
    as (m1 & s1 & m' & H3 & H4 & H5 & _).
  cbn [do_ops snd] in H1, H3. rewrite H1 in H3. injection H3 as <- <-. exists m, s', m'. auto.
Qed.

(** * C87 *)
(** Lines after a dwell and the move that follows it never change the blocks
    up to the end of the dwell: [items] are the moves and dwells so far. *)
Theorem C87_dwell_cuts_lookahead fw s0 ks1 ks2 pre A d mid N post1 post2 bl1 w1 bl2 w2 items :
  valid_program s0 ks1 -> agree_past_dwell (s0 :: ks1) (s0 :: ks2) pre A d mid N post1 post2 ->
  simulate fw (s0 :: ks1) = Ok (bl1, w1) -> simulate fw (s0 :: ks2) = Ok (bl2, w2) ->
  plan_items s0 (tl (pre ++ [A; d])) items ->
  exists bl r1 r2, bl1 = bl ++ r1 /\ bl2 = bl ++ r2 /\ length bl = length items.
Proof. exact (agree_cut fw s0 ks1 ks2 pre A d mid N post1 post2 bl1 w1 bl2 w2 items). Qed.
(** A firmware that stops at every corner needs no look-ahead at all. *)
Theorem C87_full_stop s0 ks more bl w bl' w' : valid_program s0 (ks ++ more) ->
  simulate FullStop (s0 :: ks) = Ok (bl, w) -> simulate FullStop (s0 :: ks ++ more) = Ok (bl', w') ->
  exists t, bl' = bl ++ t.
Proof. exact (full_stop_prefix s0 ks more bl w bl' w'). Qed.

Lemma cpath_prefix l r : contiguous_path (l ++ r) -> contiguous_path l.
Proof.
  intros [H1 H2]. split; [|apply Forall_app in H2; tauto]. clear H2. induction l as [|x l IH]; [exact I|].
  destruct H1 as [H1 H2]. split; [|exact (IH H2)]. destruct l; [exact I|exact H1].
Qed.
(** Two simulations with common first blocks report the same positions during
    them, after any queries. *)
Theorem C87_same_positions fw s0 ks1 ks2 bl r1 r2 w1 w2 u hist1 hist2 T unit k t :
  valid_program s0 ks1 -> valid_program s0 ks2 ->
  simulate fw (s0 :: ks1) = Ok (bl ++ r1, w1) -> simulate fw (s0 :: ks2) = Ok (bl ++ r2, w2) ->
  print_time bl T -> 0 <= t < T -> unit_length (match unit with Some x => x | None => u end) k ->
  exists v1 v2 p, fst (get_values (after_queries (Sim (bl ++ r1) u None) hist1) t unit) = Ok (v1, p) /\
                  fst (get_values (after_queries (Sim (bl ++ r2) u None) hist2) t unit) = Ok (v2, p).
Proof.
  intros V1 V2 S1 S2 HT Ht Hu.
  pose proof (sim_cpath _ _ _ _ _ V1 S1) as C1. pose proof (sim_cpath _ _ _ _ _ V2 S2) as C2.
  assert (EU : forall r, unpack_blocklist (bl ++ r) = unpack_blocklist bl ++ unpack_blocklist r) by (intros r; apply flat_map_app).
  destruct (print_time_last _ _ HT) as (l & Hl & ->).
  assert (C0 : contiguous_path (unpack_blocklist bl)) by (rewrite EU in C1; exact (cpath_prefix _ _ C1)).
  assert (B0 : starts (fun s => t_begin s <= t) (unpack_blocklist bl)).
  { pose proof (sim_begins _ _ _ _ _ V1 S1 t ltac:(lra)) as B. rewrite EU in B. destruct (unpack_blocklist bl); [discriminate Hl|]. exact B. }
  destruct (find_ok _ l t None C0 Hl B0 ltac:(lra)) as (g & i & _ & Hg & Hr).
  assert (K : forall r, contiguous_path (unpack_blocklist (bl ++ r)) -> forall hist, exists v,
            fst (get_values (after_queries (Sim (bl ++ r) u None) hist) t unit) = Ok (v, vscale (/ k) (pos_at g t))).
  { intros r C hist. destruct (after_queries_blocks hist (Sim (bl ++ r) u None)) as [Eb Eu].
    assert (Hne : unpack_blocklist (bl ++ r) <> []) by (rewrite EU; destruct (unpack_blocklist bl); [discriminate Hl|discriminate]).
    assert (HL : exists l', last_seg (unpack_blocklist (bl ++ r)) = Ok l').
    { unfold last_seg. destruct (rev (unpack_blocklist (bl ++ r))) eqn:E; [|eauto]. exfalso. apply Hne. rewrite <- (rev_involutive (unpack_blocklist (bl ++ r))), E. reflexivity. }
    destruct HL as (l' & Hl').
    assert (Hle : t_end l <= t_end l').
    { apply (cpath_last_end _ _ C Hl'). rewrite EU. apply in_or_app. left. apply last_seg_in. exact Hl. }
    destruct (get_values_ok (after_queries (Sim (bl ++ r) u None) hist) t unit k l') as (g' & i' & G & Hg' & Hr').
    - rewrite Eb. exact C.
    - rewrite Eb. exact Hl'.
    - rewrite Eb. cbn [blocklist]. rewrite EU. destruct (unpack_blocklist bl); [discriminate Hl|]. exact B0.
    - lra.
    - unfold unit_of. rewrite Eu. exact Hu.
    - rewrite G. cbn [fst]. exists (vscale (/ k) (vel_at g' t)). do 3 f_equal. rewrite Eb in Hg'. cbn [blocklist] in Hg'.
      apply (same_position _ C i' i); try assumption. rewrite EU, nth_error_app1; [exact Hg|]. apply nth_error_Some. congruence. }
  destruct (K r1 C1 hist1) as (v1 & G1). destruct (K r2 C2 hist2) as (v2 & G2). exists v1, v2, (vscale (/ k) (pos_at g t)). auto.
Qed.

(** Along X, a dwell, along Y; then back to the start, or up and back. *)
Definition ex_st (x y z : R) (w : option R) : kstate := KState (V4 x y z 0) 20 500 8 w None.
Definition ex_first : list kstate := [ex_st 10 0 0 None; ex_st 10 0 0 (Some 2); ex_st 10 0 0 None; ex_st 10 10 0 None].
Example C87_case : agree_past_dwell (ex_st 0 0 0 None :: ex_first ++ [ex_st 0 0 0 None])
    (ex_st 0 0 0 None :: ex_first ++ [ex_st 10 10 5 None; ex_st 5 5 5 None])
    [ex_st 0 0 0 None] (ex_st 10 0 0 None) (ex_st 10 0 0 (Some 2)) [ex_st 10 0 0 None] (ex_st 10 10 0 None)
    [ex_st 0 0 0 None] [ex_st 10 10 5 None; ex_st 5 5 5 None] /\
  valid_program (ex_st 0 0 0 None) (ex_first ++ [ex_st 0 0 0 None]) /\
  valid_program (ex_st 0 0 0 None) (ex_first ++ [ex_st 10 10 5 None; ex_st 5 5 5 None]) /\
  exists items, plan_items (ex_st 0 0 0 None) (tl ([ex_st 0 0 0 None] ++ [ex_st 10 0 0 None; ex_st 10 0 0 (Some 2)])) items /\ length items = 2%nat.
Proof.
  assert (V : forall x y z w, (forall q, w = Some q -> 0 <= q) -> valid_state (ex_st x y z w)).
  { intros x y z w Hw. repeat split; simpl; try lra. exact Hw. }
  assert (VN : forall x y z, valid_state (ex_st x y z None)) by (intros; apply V; discriminate).
  assert (VS : forall x y z, valid_state (ex_st x y z (Some 2))) by (intros; apply V; intros q E; injection E as <-; lra).
  assert (D1 : k_pos (ex_st 10 0 0 None) <> k_pos (ex_st 0 0 0 None)) by (intros E; apply (f_equal vx) in E; simpl in E; lra).
  split; [|split; [|split]].
  - constructor; try reflexivity; try discriminate; [repeat constructor|]. intros E. apply (f_equal vy) in E. simpl in E. lra.
  - split; [unfold ex_first; cbn [app]; repeat (apply Forall_cons; [auto|]); apply Forall_nil|]. split; [reflexivity|]. simpl. split; [reflexivity|]. left. exact D1.
  - split; [unfold ex_first; cbn [app]; repeat (apply Forall_cons; [auto|]); apply Forall_nil|]. split; [reflexivity|]. simpl. split; [reflexivity|]. left. exact D1.
  - eexists. split. { apply pi_item; [left; exact D1|]. apply pi_item; [right; discriminate|]. constructor. } reflexivity.
Qed.

Print Assumptions C86_one_rule.
Print Assumptions C86_setting_selects_rule.
Print Assumptions C86_refresh_selects_rule.
Print Assumptions C87_full_stop_text.
Print Assumptions C87_dwell_cuts_lookahead.
Print Assumptions C87_full_stop.
Print Assumptions C87_same_positions.
