(** From the text a slicer writes to the simulation. *)
From Coq Require Import Lra Lia.
From Verif Require Import Py PyFloat Parser StateGen SpecMachine SpecRead Vec Segment Junction Planner Query Setup Interp Tools Abaqus Plot Cli Presets Examples
  RealFacts SpecKin SpecQuery SpecSetup SpecText SpecTools SpecTrace SpecFirmware SpecPlot SpecSlicer
  StrFacts ReadFacts ReadReals PlannerProofs TrajProofs PlanFacts QueryFacts QueryProofs SetupProofs InterpProofs LayerProofs FirmwareProofs TraceProofs TraceText SlicerProofs
  PropertiesRead PropertiesQuery PropertiesSetup PropertiesTools PropertiesTrace PropertiesSearch PropertiesPlot.
Open Scope R_scope.
Local Arguments S_ : simpl never.

Section Setup.
Variables (presets : dict (dict pval)) (printer cue : option str) (s : setup) (ops : list sop) (rs : list (res unit)) (a : aset).
Hypothesis Hn : new_setup presets printer cue = Ok s.
Hypothesis Hst : a_steps presets ops (a_start presets printer) rs a.
Variables (p : str) (su : setup_values Rops) (fw : pval).
Hypothesis Hsel : a_sel a = Some p.
Hypothesis Hsu : machine_settings cue a p su.
Hypothesis Hfw : complete_printer a p fw.
Variables (lines : list str) (cs : list gcode).
Hypothesis Hspell : Forall2 spells lines cs.
Hypothesis Hsens : Forall sensible cs.
Hypothesis Hfeed : 0 < s_p_vel Rops su.
Hypothesis Hacc : 0 < s_p_acc Rops su.
Hypothesis Hjerk : 0 <= s_jerk Rops su.
Let h : head := fresh_head (a_pos a) (s_p_vel Rops su) (s_p_acc Rops su) (s_jerk Rops su).

Definition text_of (ls : list line_dict) (sts : list (state Rops)) (g0 : gmachine) (gs : list gmachine) : Prop :=
  read_gcode_to_dict_list lines = Ok ls /\ generate_states Rops lines su = Ok sts /\ Forall g92_zero ls /\
  g_start su g0 /\ g_run g0 ls gs /\ commands g0 None (request h None) /\ command_list ls gs (requests h cs).
Lemma slicer_text : exists ls sts g0 gs, text_of ls sts g0 gs.
Proof.
  destruct (program_lines lines cs Hspell 0) as (ls & El & Hl).
  assert (Hp : Forall proper_line ls) by exact (read_lines_proper _ _ _ El).
  pose proof (start_exists su) as Hg0.
  destruct Hsu as (_ & _ & _ & _ & _ & _ & _ & X & Y & Z & E & _).
  assert (Hh : head_is h (g_of (init_vm Rops su))).
  { destruct Hg0 as (G1 & G2 & G3 & G4 & G5 & G6 & G7 & G8 & _). split; [|split; [exact G6|split; [exact G7|exact G8]]].
    intros b. destruct (G5 b) as [O A]. split; [|split; [exact O|exact A]]. unfold h. cbn [h_pos fresh_head]. destruct b; congruence. }
  destruct (program_run (s_layer_cue Rops su) cs Hsens ls (init_vm Rops su) h 0%nat Hl Hp Hh) as (Hz & sts & gs & Et & Hr & Hc).
  exists ls, (initial_state Rops su :: sts), (g_of (init_vm Rops su)), gs.
  split; [exact El|]. split; [unfold generate_states, read_gcode_to_dict_list; rewrite El; cbn [bind]; unfold dict_list_traveler; rewrite Et; reflexivity|].
  split; [exact Hz|]. split; [exact Hg0|]. split; [exact Hr|]. split; [|exact Hc].
  destruct Hh as (A & B & C & D). unfold commands. cbn [k_pos request spot vx vy vz ve k_speed k_acc k_jerk k_pause].
  repeat split; try assumption; symmetry; apply A.
Qed.

Lemma last_request cs0 : forall h0 w, k_pos (last (requests h0 cs0) (request h0 w)) = spot (obeyed cs0 h0).
Proof.
  induction cs0 as [|c cs0 IH]; intros h0 w; [reflexivity|]. cbn [requests]. change (obeyed (c :: cs0) h0) with (obeyed cs0 (obey c h0)).
  rewrite <- (IH (obey c h0) (rest_of c)). destruct (requests (obey c h0) cs0) as [|k l]; [reflexivity|]. cbn [last].
  destruct l as [|k' l]; [reflexivity|]. f_equal. revert k'. induction l as [|x l IHl]; intros k'; [reflexivity|]. cbn [last]. apply IHl.
Qed.
Lemma last_same ks ks' : Forall2 same_command ks ks' -> forall k0 k0', same_command k0 k0' -> same_command (last ks k0) (last ks' k0').
Proof.
  induction 1 as [|k k' ks ks' H1 H2 IH]; intros k0 k0' H0; [exact H0|].
  destruct H2 as [|k2 k2' ks ks' H3 H4]; [exact H1|]. cbn [last]. apply (IH k0 k0' H0).
Qed.
Lemma stage_same k0 ks k0' ks' i r v q : same_command k0 k0' -> Forall2 same_command ks ks' -> at_stage (k0' :: ks') i r v q -> at_stage (k0 :: ks) i r v q.
Proof.
  intros S0 Ss (A & B & HA & HB & Hleg & Hp). pose proof (Forall2_cons _ _ S0 Ss) as S1.
  destruct (same_nth _ _ _ _ S1 HA) as (A' & HA' & SA). destruct (same_nth _ _ _ _ S1 HB) as (B' & HB' & SB).
  exists A', B'. destruct SA as (PA & _). destruct SB as (PB & VB & _ & _ & WB). rewrite PA, PB, VB, WB. auto.
Qed.
(** A line that feeds has a block that feeds, and conversely. *)
Lemma feeding_block c0 : forall cs0 h0 w done g ls gs bl, at_machine g (k_pos (request h0 w)) -> command_list ls gs (requests h0 cs0) ->
  line_blocks c0 done g ls gs bl -> extrudes_somewhere h0 cs0 -> exists b, In b bl /\ feeds b.
Proof.
  induction cs0 as [|c cs0 IH]; intros h0 w done g ls gs bl Hg Hc Hb (before & d & after & Ed & He).
  - destruct before; discriminate Ed.
  - cbn [requests] in Hc. inversion Hc as [|l ls' g' gs' ? ? Hw Hcm Hc']; subst.
    assert (Hg' : at_machine g' (k_pos (request (obey c h0) (rest_of c)))) by (destruct Hcm as (X & Y & Z & E & _); repeat split; assumption).
    destruct before as [|x before]; cbn [app] in Ed; injection Ed as <- Ed.
    + cbn [obeyed fold_left] in He. destruct Hg as (_ & _ & _ & Ge). destruct Hg' as (_ & _ & _ & Ge'). cbn in Ge, Ge'.
      inversion Hb as [|? ? ? ? ? ? ? Heq Hno Hb'|? ? ? ? ? ? b bl' Hor HA HB Hp Hly Hb']; subst.
      * exfalso. specialize (Heq AE). lra.
      * exists b. split; [left; reflexivity|]. unfold feeds. destruct HA as (_ & _ & _ & EA). destruct HB as (_ & _ & _ & EB & _). lra.
    + assert (Hx : extrudes_somewhere (obey c h0) cs0) by (exists before, d, after; split; [exact Ed|exact He]).
      inversion Hb as [|? ? ? ? ? ? ? Heq Hno Hb'|? ? ? ? ? ? b bl' Hor HA HB Hp Hly Hb']; subst.
      * exact (IH _ _ _ _ _ _ _ Hg' Hc' Hb' Hx).
      * destruct (IH _ _ _ _ _ _ _ Hg' Hc' Hb' Hx) as (b' & Hin & Hf). exists b'. split; [right; exact Hin|exact Hf].
Qed.
Lemma feeding_line c0 : forall cs0 h0 w done g ls gs bl, at_machine g (k_pos (request h0 w)) -> command_list ls gs (requests h0 cs0) ->
  line_blocks c0 done g ls gs bl -> (exists b, In b bl /\ feeds b) -> extrudes_somewhere h0 cs0.
Proof.
  induction cs0 as [|c cs0 IH]; intros h0 w done g ls gs bl Hg Hc Hb (b0 & Hin & Hf).
  - inversion Hc; subst. inversion Hb; subst. destruct Hin.
  - cbn [requests] in Hc. inversion Hc as [|l ls' g' gs' ? ? Hw Hcm Hc']; subst.
    assert (Hg' : at_machine g' (k_pos (request (obey c h0) (rest_of c)))) by (destruct Hcm as (X & Y & Z & E & _); repeat split; assumption).
    assert (Hmore : extrudes_somewhere (obey c h0) cs0 -> extrudes_somewhere h0 (c :: cs0)).
    { intros (before & d & after & -> & He). exists (c :: before), d, after. split; [reflexivity|exact He]. }
    inversion Hb as [|? ? ? ? ? ? ? Heq Hno Hb'|? ? ? ? ? ? b bl' Hor HA HB Hp Hly Hb']; subst.
    + apply Hmore. apply (IH _ _ _ _ _ _ _ Hg' Hc' Hb'). exists b0. auto.
    + destruct Hin as [->|Hin]; [|apply Hmore; apply (IH _ _ _ _ _ _ _ Hg' Hc' Hb'); exists b0; auto].
      exists [], c, cs0. split; [reflexivity|]. cbn [obeyed fold_left]. destruct Hg as (_ & _ & _ & Ge). destruct Hg' as (_ & _ & _ & Ge'). cbn in Ge, Ge'.
      unfold feeds in Hf. destruct HA as (_ & _ & _ & EA). destruct HB as (_ & _ & _ & EB & _). lra.
Qed.

(** Everything about the simulation of the program. *)
Record made (unit : str) (m : simulation) (s' : setup) (k0' : kstate) (ks' : list kstate) : Prop := {
  md_run : run_setup lines unit (snd (do_ops ops s)) = Ok (m, s');
  md_query : sim_query m = Sim (blocklist (sim_query m)) unit None;
  md_setup : sim_setup m = p;
  md_refines : refines presets cue s' a;
  md_dict : exists s1, get_dict s1 = (Ok p, s') /\ refines presets cue s1 a;
  md_valid : valid_program k0' ks';
  md_still : no_moving_pause k0' ks';
  md_sim : simulate (firmware_of fw) (k0' :: ks') = Ok (blocklist (sim_query m), false);
  md_ne : unpack_blocklist (blocklist (sim_query m)) <> [];
  md_start : k_pos k0' = spot h;
  md_final : final_position k0' ks' = spot (obeyed cs h);
  md_layers : forall c, s_layer_cue Rops su = Some c -> layered (blocklist (sim_query m));
  md_feeds : extrudes_somewhere h cs <-> exists b, In b (blocklist (sim_query m)) /\ feeds b;
  md_printed : forall f, firmware_named fw f -> printed f h cs m }.
Lemma slicer_sim unit k : unit_length unit k -> starts_moving h cs -> exists m s' k0' ks', made unit m s' k0' ks'.
Proof.
  intros Hu Hmv. destruct slicer_text as (ls & sts & g0 & gs & Hread & Hsts & Hz & Hg0 & Hrun & Hk0 & Hks).
  destruct (moving_valid h cs (conj Hfeed (conj Hacc Hjerk)) Hsens Hmv) as (Hv & Hm & Hnm).
  destruct (text_sim _ _ _ _ _ _ _ Hn Hst _ _ _ Hsel Hsu Hfw _ _ _ Hread Hsts Hz _ _ _ _ Hg0 Hrun Hk0 Hks Hv Hm presets unit k Hu)
    as (m & s' & bl & k0' & ks' & H1 & H2 & S0 & Ss & Hv' & _ & Hsim & Hne & Hlb).
  destruct (steps_refine _ _ _ _ _ _ _ (new_setup_refines _ _ _ _ Hn) Hst) as (s1 & E & Hr).
  destruct (run_setup_ok _ _ _ _ _ _ _ Hr Hsel Hsu Hfw _ _ _ _ _ _ _ Hread Hsts Hz Hg0 Hrun Hk0 Hks Hv Hm unit)
    as (m2 & s2 & bl2 & R1 & R2 & R3 & _ & R5 & R6 & _ & _ & Hvis & Hstart).
  unfold new_simulation in H1. rewrite (known_output_unit _ _ Hu), E in H1. cbn [snd] in H1. rewrite R1 in H1. injection H1 as -> ->.
  rewrite R2 in H2. injection H2 as ->. specialize (Hvis Hnm). rewrite requests_stops in Hvis.
  pose proof (no_moving_pause_same _ _ _ _ S0 Ss Hnm) as Hnm'.
  assert (Hfin : final_position k0' ks' = spot (obeyed cs h)).
  { unfold final_position. destruct (last_same _ _ Ss _ _ S0) as (Ep & _). rewrite <- Ep. apply last_request. }
  assert (Hf : extrudes_somewhere h cs <-> exists b, In b bl /\ feeds b).
  { assert (Hg : at_machine g0 (k_pos (request h None))) by (destruct Hk0 as (X & Y & Z & Ee & _); repeat split; assumption).
    split; [exact (feeding_block _ _ _ _ _ _ _ _ _ Hg Hks Hlb)|exact (feeding_line _ _ _ _ _ _ _ _ _ Hg Hks Hlb)]. }
  exists m, s', k0', ks'. split; try rewrite E; try rewrite R2; try assumption.
  - reflexivity.
  - exists s1. auto.
  - destruct S0 as (P0 & _). rewrite <- P0. reflexivity.
  - intros c Ec. rewrite Ec in Hlb. exact (line_blocks_layered _ _ _ _ _ _ Hlb).
  - intros f Hfn. unfold printed. rewrite R2. cbn [blocklist]. split; [exact Hne|]. split; [exact (sim_cpath _ _ _ _ _ Hv' Hsim)|].
    split; [exact Hstart|]. split.
    { unfold ends, starts. destruct (rev (unpack_blocklist bl)) as [|x r] eqn:Er; [exact I|].
      assert (Hl : last_seg (unpack_blocklist bl) = Ok x) by (unfold last_seg; rewrite Er; reflexivity).
      rewrite (sim_final _ _ _ _ _ Hv' Hsim x Hnm' Hl). exact Hfin. }
    split; [exact Hvis|]. split.
    { intros t v q Hon. destruct (proj1 (sim_progress _ _ _ _ _ Hv' Hnm' Hsim) _ _ _ Hon) as (i & r & Hat).
      exists i, r. exact (stage_same _ _ _ _ _ _ _ _ S0 Ss Hat). }
    rewrite (named_ok _ _ Hfn) in Hsim. exact (fastest_same _ _ _ _ _ _ S0 Ss (fastest_sim _ _ _ _ _ Hv' Hsim)).
Qed.
(** Nothing moves and nothing waits. *)
Lemma still_cons c cs0 h0 : still h0 (c :: cs0) -> rest_of c = None /\ spot (obey c h0) = spot h0 /\ still (obey c h0) cs0.
Proof.
  intros H. destruct (H [] c cs0 eq_refl) as [R P]. split; [exact R|]. split.
  - unfold spot. cbn [obeyed fold_left] in P. rewrite !P. reflexivity.
  - intros before d after ->. exact (H (c :: before) d after eq_refl).
Qed.
Lemma still_first cs0 : forall h0 w, still h0 cs0 -> moves_first (request h0 w) (requests h0 cs0).
Proof.
  induction cs0 as [|c cs0 IH]; intros h0 w H; [exact I|]. apply still_cons in H as (R & _ & H). cbn [requests moves_first].
  split; [exact R|]. right. apply IH. exact H.
Qed.
Lemma still_items cs0 : forall h0 w ks' k0' items, still h0 cs0 -> same_command (request h0 w) k0' -> Forall2 same_command (requests h0 cs0) ks' ->
  plan_items k0' ks' items -> items = [].
Proof.
  induction cs0 as [|c cs0 IH]; intros h0 w ks' k0' items H S0 Ss Hi; cbn [requests] in Ss.
  - inversion Ss; subst. inversion Hi; subst. reflexivity.
  - inversion Ss as [|? k' ? ks1 S1 S2]; subst. apply still_cons in H as (R & P & H).
    inversion Hi as [|? ? ? ? D1 D2 D3|? ? ? ? D1 D3]; subst.
    + exact (IH _ _ _ _ _ H S1 S2 D3).
    + exfalso. destruct S0 as (P0 & _). destruct S1 as (P1 & _ & _ & _ & W1). cbn in P0, P1, W1. destruct D1 as [D|D]; apply D; congruence.
Qed.
Lemma slicer_still unit : still h cs -> run_setup lines unit (snd (do_ops ops s)) = Err IndexError.
Proof.
  intros Hno. destruct slicer_text as (ls & sts & g0 & gs & Hread & Hsts & Hz & Hg0 & Hrun & Hk0 & Hks).
  destruct (steps_refine _ _ _ _ _ _ _ (new_setup_refines _ _ _ _ Hn) Hst) as (s1 & E & Hr). rewrite E. cbn [snd].
  destruct (get_refines _ _ _ _ _ Hr Hsel) as (s' & Eg & Hr' & Hpres).
  destruct (complete_acceptable _ _ _ _ _ _ Hpres Hsu Hfw) as [Ha Hf].
  destruct (states_commands _ _ _ _ _ _ _ _ Hread Hsts Hz Hg0 Hrun Hk0 Hks) as (k0' & ks' & Ek & S0 & Ss).
  assert (Hv : valid_program (request h None) (requests h cs)).
  { split; [|split; [reflexivity|exact (still_first _ _ _ Hno)]]. constructor; [|apply requests_valid; [exact Hsens|exact (conj Hfeed (conj Hacc Hjerk))]].
    unfold valid_state. cbn. split; [assumption|split; [assumption|split; [assumption|intros q Q; discriminate Q]]]. }
  pose proof (valid_program_same _ _ _ _ S0 Ss Hv) as Hv'.
  destruct (simulation_succeeds (firmware_of fw) _ _ Hv') as (bl & Hsim).
  destruct (sim_blocks _ _ _ _ _ Hv' Hsim) as (items & Hi & Hmap).
  rewrite (still_items _ _ _ _ _ _ Hno S0 Ss Hi) in Hmap. destruct bl; [|discriminate Hmap].
  unfold run_setup. rewrite Eg. cbn [bind]. rewrite (proj2 (check_ok _) Ha). cbn [bind]. rewrite Hf. cbn [bind].
  rewrite (setup_values_ok _ _ _ _ _ Hpres Hsu). cbn [bind]. rewrite Hsts. cbn [bind]. unfold plan. rewrite Ek. cbn [bind].
  rewrite Hsim. reflexivity.
Qed.
End Setup.
