(** Properties C80, C81: the blocks, the layers and the path of a program given
    as text.  Vocabulary: SpecTrace.v, SpecText.v, SpecMachine.v, SpecKin.v,
    SpecQuery.v, SpecTools.v. *)
From Coq Require Import Lra Lia.
From Verif Require Import Py PyFloat Parser StateGen SpecMachine Vec Segment Junction Planner Query Setup Interp Tools
  RealFacts SpecKin SpecQuery SpecSetup SpecText SpecTools SpecTrace StrFacts PlannerProofs TrajProofs PlanFacts QueryProofs SetupProofs InterpProofs
  LayerProofs TraceProofs TraceText PropertiesRead PropertiesQuery PropertiesSetup PropertiesTools.
Open Scope R_scope.
Local Arguments S_ : simpl never.

(** * C81 for lists of states *)
(** At every time the nozzle is on the straight line of one of the steps and
    moves towards its end no faster than commanded; it never turns back. *)
Theorem C81_follows_path fw s0 states bl wn : valid_program s0 states -> no_moving_pause s0 states ->
  simulate fw (s0 :: states) = Ok (bl, wn) ->
  (forall t v p, on_path (unpack_blocklist bl) t v p -> exists i r, at_stage (s0 :: states) i r v p) /\
  (forall t v p t' v' p', on_path (unpack_blocklist bl) t v p -> on_path (unpack_blocklist bl) t' v' p' -> t < t' ->
     exists i r i' r', at_stage (s0 :: states) i r v p /\ at_stage (s0 :: states) i' r' v' p' /\ not_after i r i' r').
Proof. exact (sim_progress fw s0 states bl wn). Qed.

Section Text.
Variables (presets : dict (dict pval)) (printer cue : option str) (s : setup) (ops : list sop) (rs : list (res unit)) (a : aset).
Hypothesis Hn : new_setup presets printer cue = Ok s.
Hypothesis Hst : a_steps presets ops (a_start presets printer) rs a.
Variables (p : str) (su : setup_values Rops) (fw : pval).
Hypothesis Hsel : a_sel a = Some p.
Hypothesis Hsu : machine_settings cue a p su.
Hypothesis Hfw : complete_printer a p fw.
Variables (lines : list str) (ls : list line_dict) (sts : list (state Rops)).
Hypothesis Hread : read_gcode_to_dict_list lines = Ok ls.
Hypothesis Hsts : generate_states Rops lines su = Ok sts.
Hypothesis Hz : Forall g92_zero ls.
Variables (g0 : gmachine) (gs : list gmachine) (k0 : kstate) (ks : list kstate).
Hypothesis Hg0 : g_start su g0.
Hypothesis Hrun : g_run g0 ls gs.
Hypothesis Hk0 : commands g0 None k0.
Hypothesis Hks : command_list ls gs ks.
Hypothesis Hv : valid_program k0 ks.
Hypothesis Hmove : exists k, In k ks /\ k_pos k <> k_pos k0.

Lemma text_sim defaults unit k : unit_length unit k -> exists m s' bl k0' ks',
  new_simulation defaults lines None (Some (snd (do_ops ops s))) unit = Ok (m, s') /\ sim_query m = Sim bl unit None /\
  same_command k0 k0' /\ Forall2 same_command ks ks' /\ valid_program k0' ks' /\ to_kstates sts = Ok (k0' :: ks') /\
  simulate (firmware_of fw) (k0' :: ks') = Ok (bl, false) /\ unpack_blocklist bl <> [] /\
  line_blocks (s_layer_cue Rops su) [] g0 ls gs bl.
Proof.
  intros Hu. destruct (steps_refine _ _ _ _ _ _ _ (new_setup_refines _ _ _ _ Hn) Hst) as (s1 & E & Hr). rewrite E.
  destruct (run_setup_ok _ _ _ _ _ _ _ Hr Hsel Hsu Hfw _ _ _ _ _ _ _ Hread Hsts Hz Hg0 Hrun Hk0 Hks Hv Hmove unit)
    as (m & s' & bl & H1 & H2 & _ & _ & _ & _ & (k0' & ks' & S0 & Ss & Hk & Hsim) & Hne & _ & _).
  pose proof (valid_program_same _ _ _ _ S0 Ss Hv) as Hv'.
  exists m, s', bl, k0', ks'. split; [unfold new_simulation; rewrite (known_output_unit _ _ Hu); exact H1|].
  split; [exact H2|]. split; [exact S0|]. split; [exact Ss|]. split; [exact Hv'|]. split; [exact Hk|]. split; [exact Hsim|]. split; [exact Hne|].
  destruct (sim_blocks _ _ _ _ _ Hv' Hsim) as (items & Hi & Hm).
  apply (line_blocks_ok _ _ _ _ Hks ks' [] g0 k0' items bl Ss); [|exact Hi|exact Hm|].
  - exact (at_machine_pos _ _ _ (commands_same _ _ _ _ S0 Hk0)).
  - intros i k1 Hi1. destruct (to_kstates_layer _ _ (S i) k1 Hk Hi1) as (st & Est & ->). cbn [app].
    unfold generate_states in Hsts. rewrite Hread in Hsts. cbn [bind] in Hsts.
    destruct (s_layer_cue Rops su) as [c|] eqn:Ec.
    + destruct (C16_layers Rops ls su sts c i st Hsts Ec Est) as (n & En & Hc). exists n. auto.
    + simpl. apply (C16_no_cue Rops ls su sts st Hsts Ec). exact (nth_error_In _ _ Est).
Qed.

(** * C80 *)
(** The blocks of the simulation are, in order, one for each line that moves an
    axis or dwells, with the positions, the settings, the pause and the layer
    of that line. *)
Theorem C80_blocks_of_lines defaults unit k : unit_length unit k ->
  exists m s', new_simulation defaults lines None (Some (snd (do_ops ops s))) unit = Ok (m, s') /\
    line_blocks (s_layer_cue Rops su) [] g0 ls gs (blocklist (sim_query m)).
Proof.
  intros Hu. destruct (text_sim defaults unit k Hu) as (m & s' & bl & k0' & ks' & H1 & H2 & _ & _ & _ & _ & _ & _ & H3).
  exists m, s'. split; [exact H1|]. rewrite H2. exact H3.
Qed.
(** With a layer cue the layer metrics can always be computed; if the last block
    does not open a layer, every layer number that occurs has one row, with the
    time its blocks take, and together they take the print time. *)
Theorem C80_layer_metrics defaults unit k c : unit_length unit k -> s_layer_cue Rops su = Some c ->
  exists m s' rows T, new_simulation defaults lines None (Some (snd (do_ops ops s))) unit = Ok (m, s') /\
    let bl := blocklist (sim_query m) in
    save_layer_metrics true bl = Ok (Some rows) /\ print_time bl T /\
    (~ last_opens_layer bl ->
     Rsum row_duration rows = T /\ joined (fun a b => (row_layer a < row_layer b)%nat) rows /\
     (forall b n, In b bl -> k_layer (b_B b) = Some n -> In n (map row_layer rows)) /\
     (forall r, In r rows -> row_duration r = Rsum block_duration (filter (in_layer (row_layer r)) bl))).
Proof.
  intros Hu Hc. destruct (text_sim defaults unit k Hu) as (m & s' & bl & k0' & ks' & H1 & H2 & _ & _ & Hv' & _ & Hsim & Hne & H3).
  rewrite Hc in H3. pose proof (line_blocks_layered _ _ _ _ _ _ H3) as Hl.
  destruct (sim_timed _ _ _ _ _ Hv' Hsim) as (T & Ht & HT). assert (Hb : bl <> []) by (intros ->; apply Hne; reflexivity).
  specialize (HT Hb). destruct (layer_loop_ok bl 0 0 0 0 T Ht Hl Hb ltac:(intros; lia)) as (rows & E & _).
  assert (Es : save_layer_metrics true bl = Ok (Some rows)) by (unfold save_layer_metrics; rewrite E; reflexivity).
  exists m, s', rows, T. rewrite H2. cbn [blocklist]. split; [exact H1|]. split; [exact Es|]. split; [exact HT|].
  intros Hno. destruct (C50_layer_durations_partial _ _ _ _ _ _ Hv' Hsim Hl HT Hno) as (rows' & E' & R1 & _ & R3 & R4 & R5).
  rewrite Es in E'. injection E' as <-. auto.
Qed.

(** * C81 *)
(** What get_values answers, in any unit and after any other queries, lies on
    the straight line of one of the lines of the program, with a velocity
    towards its end and no faster than its feed rate. *)
Theorem C81_query_follows_line defaults unit k hist t u q : unit_length unit k -> no_moving_pause k0 ks ->
  unit_length (match u with Some w => w | None => unit end) q ->
  exists m s' T, new_simulation defaults lines None (Some (snd (do_ops ops s))) unit = Ok (m, s') /\
    print_time (blocklist (sim_query m)) T /\
    (0 <= t < T -> exists v x i r, fst (get_values (after_queries (sim_query m) hist) t u) = Ok (v, x) /\
       at_line ls (g0 :: gs) i r (vscale q v) (vscale q x)).
Proof.
  intros Hu Hnm Hq. destruct (text_sim defaults unit k Hu) as (m & s' & bl & k0' & ks' & H1 & H2 & S0 & Ss & Hv' & _ & Hsim & Hne & _).
  destruct (print_time_exists _ Hne) as (T & HT). exists m, s', T. rewrite H2. cbn [blocklist]. split; [exact H1|]. split; [exact HT|].
  intros Ht. destruct (C40_values_on_trajectory _ _ _ _ _ Hv' Hsim unit hist T t u q HT Ht Hq) as (v & x & vm & xm & G & Hon & <- & <-).
  destruct (proj1 (sim_progress _ _ _ _ _ Hv' (no_moving_pause_same _ _ _ _ S0 Ss Hnm) Hsim) _ _ _ Hon) as (i & r & Hat).
  exists v, x, i, r. split; [exact G|]. exact (stage_line _ _ _ _ _ _ _ _ _ _ _ Hk0 Hks S0 Ss Hat).
Qed.
(** The answers for two times are in the order of the program. *)
Theorem C81_queries_in_order defaults unit k hist hist' t t' u u' q q' : unit_length unit k -> no_moving_pause k0 ks ->
  unit_length (match u with Some w => w | None => unit end) q -> unit_length (match u' with Some w => w | None => unit end) q' ->
  exists m s' T, new_simulation defaults lines None (Some (snd (do_ops ops s))) unit = Ok (m, s') /\
    print_time (blocklist (sim_query m)) T /\
    (0 <= t -> t < t' -> t' < T -> exists v x v' x' i r i' r',
       fst (get_values (after_queries (sim_query m) hist) t u) = Ok (v, x) /\
       fst (get_values (after_queries (sim_query m) hist') t' u') = Ok (v', x') /\
       at_line ls (g0 :: gs) i r (vscale q v) (vscale q x) /\ at_line ls (g0 :: gs) i' r' (vscale q' v') (vscale q' x') /\ not_after i r i' r').
Proof.
  intros Hu Hnm Hq Hq'. destruct (text_sim defaults unit k Hu) as (m & s' & bl & k0' & ks' & H1 & H2 & S0 & Ss & Hv' & _ & Hsim & Hne & _).
  destruct (print_time_exists _ Hne) as (T & HT). exists m, s', T. rewrite H2. cbn [blocklist]. split; [exact H1|]. split; [exact HT|].
  intros H0 Hlt HtT.
  destruct (C40_values_on_trajectory _ _ _ _ _ Hv' Hsim unit hist T t u q HT ltac:(lra) Hq) as (v & x & vm & xm & G & Hon & <- & <-).
  destruct (C40_values_on_trajectory _ _ _ _ _ Hv' Hsim unit hist' T t' u' q' HT ltac:(lra) Hq') as (v' & x' & vm' & xm' & G' & Hon' & <- & <-).
  destruct (proj2 (sim_progress _ _ _ _ _ Hv' (no_moving_pause_same _ _ _ _ S0 Ss Hnm) Hsim) _ _ _ _ _ _ Hon Hon' Hlt) as (i & r & i' & r' & Hat & Hat' & Ho).
  exists v, x, v', x', i, r, i', r'. split; [exact G|]. split; [exact G'|].
  split; [exact (stage_line _ _ _ _ _ _ _ _ _ _ _ Hk0 Hks S0 Ss Hat)|]. split; [exact (stage_line _ _ _ _ _ _ _ _ _ _ _ Hk0 Hks S0 Ss Hat')|]. exact Ho.
Qed.
End Text.

(** * A case *)
(** Two layers, a dwell and a line that does nothing. *)
Definition la_lines : list str := [S_ "G1 X10 ;LAYER"; S_ "G4 S1"; S_ "G1 Y10 ; LAYER"; S_ "G21"; S_ "G1 X0"].
Definition la_ls : list line_dict :=
  [{| ld := [(S_ "G1", ADict [(S_ "X", LNum (Dec 10 0))]); (S_ ";", ALeaf (LStr (S_ "LAYER")))]; ld_number := 1 |};
   {| ld := [(S_ "G4", ADict [(S_ "S", LNum (Dec 1 0))])]; ld_number := 2 |};
   {| ld := [(S_ "G1", ADict [(S_ "Y", LNum (Dec 10 0))]); (S_ ";", ALeaf (LStr (S_ " LAYER")))]; ld_number := 3 |};
   {| ld := [(S_ "G21", ALeaf (LStr []))]; ld_number := 4 |};
   {| ld := [(S_ "G1", ADict [(S_ "X", LNum (Dec 0 0))])]; ld_number := 5 |}].
Lemma la_parsed : read_gcode_to_dict_list la_lines = Ok la_ls.
Proof. vm_compute. reflexivity. Qed.
Definition la_setup : setup :=
  match new_setup ex_presets (Some (S_ "anycubic")) (Some (S_ "LAYER")) with Ok s => s | Err _ => MkSetup [] None None [] end.
Lemma la_new : new_setup ex_presets (Some (S_ "anycubic")) (Some (S_ "LAYER")) = Ok la_setup.
Proof. destruct (new_setup_succeeds ex_presets (S_ "anycubic") (Some (S_ "LAYER")) _ _ eq_refl eq_refl) as (s & E). unfold la_setup. rewrite E. reflexivity. Qed.
Definition la_su : setup_values Rops := Build_setup_values Rops 10 100 20 180 180 30 33 0 0 0 0 (Some (S_ "LAYER")).
Lemma la_settings : machine_settings (Some (S_ "LAYER")) ex_start (S_ "anycubic") la_su.
Proof. repeat split. Qed.
Lemma la_states : exists sts, generate_states Rops la_lines la_su = Ok sts.
Proof. unfold generate_states. rewrite la_parsed. cbn [bind]. eexists. lazy -[Rplus Rmult Rdiv Rinv IZR]. reflexivity. Qed.
Definition la_state (x y : R) (w : option R) : kstate := KState (V4 x y 0 0) 10 100 20 w None.
Definition la_ks : list kstate := [la_state 10 0 None; la_state 10 0 (Some 1); la_state 10 10 None; la_state 10 10 None; la_state 0 10 None].
Definition la_gs : list gmachine := [ex_machine 10 0; ex_machine 10 0; ex_machine 10 10; ex_machine 10 10; ex_machine 0 10].
Lemma la_zero : Forall g92_zero la_ls.
Proof. repeat constructor; intros a lf H; destruct a; discriminate H. Qed.
Ltac la_line g v M :=
  split; [intros a; destruct a; reflexivity|]; split; [reflexivity|]; split;
    [exists (g_pos g); split; intros a; destruct a; cbn; try reflexivity; (exists v; split; [exact M|lra])
    |split; [intros a; destruct a; reflexivity|]; repeat split; intros a; destruct a; reflexivity].
Lemma la_run : g_start la_su (ex_machine 0 0) /\ g_run (ex_machine 0 0) la_ls la_gs.
Proof.
  split; [repeat split|].
  assert (M : means (N := Rops) (LNum (Dec 10 0)) 10) by (exists 10%Z, 0%Z; split; reflexivity).
  assert (M0 : means (N := Rops) (LNum (Dec 0 0)) 0) by (exists 0%Z, 0%Z; split; [reflexivity|simpl; lra]).
  apply g_cons; [la_line (ex_machine 0 0) 10 M|]. apply g_cons; [la_line (ex_machine 10 0) 10 M|].
  apply g_cons; [la_line (ex_machine 10 0) 10 M|]. apply g_cons; [la_line (ex_machine 10 10) 10 M|].
  apply g_cons; [la_line (ex_machine 10 10) 0 M0|]. apply g_nil.
Qed.
Lemma la_commands : commands (ex_machine 0 0) None (la_state 0 0 None) /\ command_list la_ls la_gs la_ks.
Proof.
  split; [repeat split|]. unfold la_ls, la_gs, la_ks.
  constructor; [reflexivity|repeat split|]. constructor; [|repeat split|].
  { cbn. exists (SNum (N := Rops) 1). split; [left; exists 1%Z, 0%Z; split; reflexivity|reflexivity]. }
  constructor; [reflexivity|repeat split|]. constructor; [reflexivity|repeat split|]. constructor; [reflexivity|repeat split|]. constructor.
Qed.
Lemma la_valid : valid_program (la_state 0 0 None) la_ks.
Proof.
  split; [|split; [reflexivity|]].
  - repeat first [apply Forall_nil | apply Forall_cons]; (split; [simpl; lra|split; [simpl; lra|split; [simpl; lra|intros w Hw; simpl in Hw; inversion Hw; lra]]]).
  - split; [reflexivity|]. left. intros E. apply (f_equal vx) in E. simpl in E. lra.
Qed.
Lemma la_moves : exists k, In k la_ks /\ k_pos k <> k_pos (la_state 0 0 None).
Proof. eexists. split; [left; reflexivity|]. intros E. apply (f_equal vx) in E. simpl in E. lra. Qed.
Lemma la_moving : no_moving_pause (la_state 0 0 None) la_ks.
Proof. simpl. auto 10. Qed.

(** The comments of the case. *)
Lemma la_no_comment l : dget (S_ ";") (ld l) = None -> ~ has_cue (S_ "LAYER") l.
Proof. intros H (t & Ht & _). congruence. Qed.
Lemma la_stripped pre : Forall (fun c => is_space c = true) pre -> stripped (pre ++ S_ "LAYER") (S_ "LAYER").
Proof.
  intros H. split; [exists pre, []; rewrite !app_nil_r; auto|]. split; intros x r E.
  - apply (f_equal (fun l => hd "L"%char l)) in E. vm_compute in E. subst x. reflexivity.
  - apply (f_equal (fun l => last l "L"%char)) in E. rewrite last_last in E. vm_compute in E. subst x. reflexivity.
Qed.
Lemma la_cue1 : has_cue (S_ "LAYER") (nth 0 la_ls {| ld := []; ld_number := 0 |}).
Proof. exists (S_ "LAYER"). split; [reflexivity|]. exact (la_stripped [] (Forall_nil _)). Qed.
Lemma la_cue3 : has_cue (S_ "LAYER") (nth 2 la_ls {| ld := []; ld_number := 0 |}).
Proof. exists (S_ " LAYER"). split; [reflexivity|]. apply (la_stripped [" "%char]). constructor; [reflexivity|constructor]. Qed.
Lemma la_nocue2 : ~ has_cue (S_ "LAYER") (nth 1 la_ls {| ld := []; ld_number := 0 |}).
Proof. apply la_no_comment. reflexivity. Qed.
Lemma la_nocue4 : ~ has_cue (S_ "LAYER") (nth 3 la_ls {| ld := []; ld_number := 0 |}).
Proof. apply la_no_comment. reflexivity. Qed.
Lemma la_nocue5 : ~ has_cue (S_ "LAYER") (nth 4 la_ls {| ld := []; ld_number := 0 |}).
Proof. apply la_no_comment. reflexivity. Qed.

(** The program has four blocks, in layers 1, 1, 2 and 2; the layers take
    together the print time. *)
Example C80_case defaults : exists m s' rows T,
  new_simulation defaults la_lines None (Some la_setup) (S_ "SI") = Ok (m, s') /\
  map (fun b => k_layer (b_B b)) (blocklist (sim_query m)) = [Some 1; Some 1; Some 2; Some 2]%nat /\
  save_layer_metrics true (blocklist (sim_query m)) = Ok (Some rows) /\ print_time (blocklist (sim_query m)) T /\ Rsum row_duration rows = T.
Proof.
  destruct la_states as (sts & Hsts).
  destruct (C80_blocks_of_lines _ _ _ _ _ _ _ la_new (ass_nil _ _) _ _ _ eq_refl la_settings ex_complete _ _ _ la_parsed Hsts la_zero
              _ _ _ _ (proj1 la_run) (proj2 la_run) (proj1 la_commands) (proj2 la_commands) la_valid la_moves
              defaults _ _ u_SI) as (m & s' & H1 & H2).
  destruct (C80_layer_metrics _ _ _ _ _ _ _ la_new (ass_nil _ _) _ _ _ eq_refl la_settings ex_complete _ _ _ la_parsed Hsts la_zero
              _ _ _ _ (proj1 la_run) (proj2 la_run) (proj1 la_commands) (proj2 la_commands) la_valid la_moves
              defaults _ _ (S_ "LAYER") u_SI eq_refl) as (m2 & s2 & rows & T & H1' & H3 & H4 & H5).
  rewrite H1 in H1'. injection H1' as <- <-. exists m, s', rows, T. split; [exact H1|].
  assert (E : map (fun b => k_layer (b_B b)) (blocklist (sim_query m)) = [Some 1; Some 1; Some 2; Some 2]%nat).
  { assert (Nx : forall (g g' : gmachine), g_pos g AX <> g_pos g' AX \/ g_pos g AY <> g_pos g' AY -> ~ forall a, g_pos g a = g_pos g' a).
    { intros g g' [H|H] F; apply H, F. }
    assert (C1 : cue_count (S_ "LAYER") (firstn 1 la_ls) 1) by (apply (cc_cue _ []); [constructor|exact la_cue1]).
    assert (C2 : cue_count (S_ "LAYER") (firstn 2 la_ls) 1) by (apply (cc_other _ (firstn 1 la_ls)); [exact C1|exact la_nocue2]).
    assert (C3 : cue_count (S_ "LAYER") (firstn 3 la_ls) 2) by (apply (cc_cue _ (firstn 2 la_ls)); [exact C2|exact la_cue3]).
    assert (C4 : cue_count (S_ "LAYER") (firstn 4 la_ls) 2) by (apply (cc_other _ (firstn 3 la_ls)); [exact C3|exact la_nocue4]).
    assert (C5 : cue_count (S_ "LAYER") (firstn 5 la_ls) 2) by (apply (cc_other _ (firstn 4 la_ls)); [exact C4|exact la_nocue5]).
    unfold la_gs, la_ls in H2. set (bl := blocklist (sim_query m)) in *. clearbody bl. clear -H2 Nx C1 C2 C3 C4 C5.
    assert (P : ~ pause_of (nth 1 la_ls {| ld := []; ld_number := 0 |}) None) by (intros (x & _ & F); discriminate F).
    inversion H2 as [|? ? ? ? ? ? ? F|? ? ? ? ? ? b1 bl1 _ _ _ _ L1 H3]; subst; [exfalso; revert F; apply Nx; simpl; lra|].
    inversion H3 as [|? ? ? ? ? ? ? _ F|? ? ? ? ? ? b2 bl2 _ _ _ _ L2 H4]; subst; [contradiction|].
    inversion H4 as [|? ? ? ? ? ? ? F|? ? ? ? ? ? b3 bl3 _ _ _ _ L3 H5]; subst; [exfalso; revert F; apply Nx; simpl; lra|].
    inversion H5 as [|? ? ? ? ? ? ? _ _ H6|? ? ? ? ? ? b4 bl4 [[x F]|F]]; subst; [|exfalso; apply F; destruct x; reflexivity|exfalso; apply F; reflexivity].
    inversion H6 as [|? ? ? ? ? ? ? F|? ? ? ? ? ? b5 bl5 _ _ _ _ L5 H7]; subst; [exfalso; revert F; apply Nx; simpl; lra|].
    inversion H7; subst. simpl map. destruct L1 as (n1 & -> & K1). destruct L2 as (n2 & -> & K2). destruct L3 as (n3 & -> & K3). destruct L5 as (n5 & -> & K5).
    rewrite (cue_count_fun _ _ _ _ K1 C1), (cue_count_fun _ _ _ _ K2 C2), (cue_count_fun _ _ _ _ K3 C3), (cue_count_fun _ _ _ _ K5 C5). reflexivity. }
  split; [exact E|]. split; [exact H3|]. split; [exact H4|]. apply H5. intros (pre & b & n & Eb & En & _ & Hall).
  rewrite Eb, map_app in E. cbn [map] in E. rewrite En in E. change [Some 1; Some 1; Some 2; Some 2]%nat with ([Some 1; Some 1; Some 2] ++ [Some 2])%nat in E.
  apply app_inj_tail in E as [E En2]. injection En2 as ->. destruct pre as [|a1 [|a2 [|a3 [|]]]]; try discriminate E.
  simpl in E. injection E as _ _ E3. specialize (Hall a3 2%nat ltac:(simpl; tauto) E3). lia.
Qed.
(** Asked at any two times of the print, it follows the square. *)
Example C81_case defaults hist : exists m s' T,
  new_simulation defaults la_lines None (Some la_setup) (S_ "SI") = Ok (m, s') /\ print_time (blocklist (sim_query m)) T /\
  forall t, 0 <= t < T -> exists v x i r, fst (get_values (after_queries (sim_query m) hist) t None) = Ok (v, x) /\
    at_line la_ls (ex_machine 0 0 :: la_gs) i r (vscale 1000 v) (vscale 1000 x).
Proof.
  destruct la_states as (sts & Hsts).
  pose proof (fun t => C81_query_follows_line _ _ _ _ _ _ _ la_new (ass_nil _ _) _ _ _ eq_refl la_settings ex_complete _ _ _ la_parsed Hsts la_zero
              _ _ _ _ (proj1 la_run) (proj2 la_run) (proj1 la_commands) (proj2 la_commands) la_valid la_moves
              defaults (S_ "SI") 1000 hist t None 1000 u_SI la_moving u_SI) as H.
  destruct (H 0) as (m & s' & T & H1 & HT & _). exists m, s', T. split; [exact H1|]. split; [exact HT|].
  intros t Ht. destruct (H t) as (m2 & s2 & T2 & H1' & HT' & G). cbn [do_ops snd] in H1, H1'. rewrite H1 in H1'. injection H1' as <- <-.
  apply G. apply print_time_last in HT as (l & E & ->). apply print_time_last in HT' as (l' & E' & ->). assert (l' = l) by congruence. subst l'. exact Ht.
Qed.

Print Assumptions C81_follows_path.
Print Assumptions C80_blocks_of_lines.
Print Assumptions C80_layer_metrics.
Print Assumptions C81_query_follows_line.
Print Assumptions C81_queries_in_order.
