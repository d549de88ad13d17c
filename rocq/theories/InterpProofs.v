(** From the text of a program to its trajectory. *)
From Coq Require Import Lra.
From Verif Require Import Py Parser StateGen SpecMachine Vec Segment Junction Planner Query Setup Interp
  RealFacts SpecKin SpecQuery SpecSetup SpecText MoveProofs JunctionProofs CorrectProofs SegProofs PlannerProofs
  TrajProofs PlanFacts QueryProofs QueryFacts StrFacts ReadFacts ReadReals SetupProofs.
Open Scope R_scope.
Local Arguments S_ : simpl never.

(** * The trajectory visits the states in order *)
Definition stop_of (k : kstate) : vec4 * R := (k_pos k, match k_pause k with Some w => w | None => 0 end).

Lemma motion_time d a vm t p v segs t' p' v' : motion d a vm t p v segs t' p' v' -> t <= t'.
Proof.
  induction 1 as [|t p v s v1 segs t' p' v' Ht Hp Hr Hm IH]; [lra|]. destruct Hr as (Hr & _). lra.
Qed.
Lemma fchain_visits fw path : forall states A items t p e w bl wl,
  fchain t p e w bl wl -> plan_items A states items -> Forall2 (item_block fw) bl items ->
  no_moving_pause A states -> p = k_pos A ->
  (forall s, In s (unpack_blocklist bl) -> In s path) -> (exists v, on_path path t v p) ->
  visits path t (map stop_of states).
Proof.
  induction states as [|B rest IH]; intros A items t p e w bl wl Hf Hi Hib Hn Hp Hpath Hon; [constructor|].
  destruct Hn as [Hn0 Hn]. simpl map.
  inversion Hi as [|? ? ? ? E' Ep' H1|? ? ? l Hor H1]; subst.
  - unfold stop_of at 1. rewrite Ep', E'. apply v_cons with (t' := t); [lra| |].
    + intros u Hu. replace u with t by lra. exact Hon.
    + rewrite Rplus_0_r. apply (IH B items t (k_pos A) e w bl wl); try assumption. congruence.
  - inversion Hib as [|b' i' bl' items' Hb1 Hib']; subst. destruct Hb1 as (HA & HB & _).
    inversion Hf as [|? ? ? ? ? t' p' s e' w' ? wl' Hwf Hs Htol Hfe Hw Hw2 Hf']; subst.
    assert (Hsub : forall s, In s (b_segs b') -> In s path).
    { intros s0 Hs0. apply Hpath. unfold unpack_blocklist. simpl. apply in_or_app. left. exact Hs0. }
    assert (Hsub' : forall s, In s (unpack_blocklist bl') -> In s path).
    { intros s0 Hs0. apply Hpath. unfold unpack_blocklist. simpl. apply in_or_app. right. exact Hs0. }
    assert (Hon' : exists v, on_path path t' v p').
    { destruct (wf_last _ _ _ _ _ _ _ Hwf) as (l0 & Hl & Hlt & Hlp & _).
      assert (Hc : covers l0).
      { pose proof (fchain_covers _ _ _ _ _ _ Hf) as Hall. rewrite Forall_forall in Hall.
        apply Hall. unfold unpack_blocklist. simpl. apply in_or_app. left. apply last_seg_in. exact Hl. }
      exists (vel_at l0 (t_end l0)). exists l0. split; [apply Hsub, last_seg_in, Hl|].
      rewrite <- Hlt, <- Hlp, <- (pos_at_end l0 Hc). apply at_moves. destruct Hc as [Hc _]. lra. }
    inversion Hwf as [t0 p0 t1 v0 v1 d eo dist Hpz Hd Hdir Hmd Hpos Hsc Ha Hsp Hne Hm Hen Hcap | t0 p0 dt Hpz Hdt Hsp Hsegs]; subst.
    + assert (Ep : k_pos (b_B b') = vadd (k_pos (b_A b')) (vscale dist d)) by (rewrite Hsc; vec).
      unfold stop_of at 1. rewrite Hpz. apply v_cons with (t' := t').
      * exact (motion_time _ _ _ _ _ _ _ _ _ _ Hm).
      * intros u Hu. replace u with t' by lra. rewrite Ep. exact Hon'.
      * rewrite Rplus_0_r. eapply IH; try eassumption. symmetry. exact Ep.
    + assert (Ep : k_pos (b_B b') = k_pos (b_A b')) by (destruct Hn0 as [Hn0|Hn0]; [congruence|exact Hn0]).
      unfold stop_of at 1. rewrite Hpz, Ep. apply v_cons with (t' := t); [lra| |].
      * intros u Hu. eexists. eexists. split; [apply Hsub; rewrite Hsegs; left; reflexivity|].
        pose proof (at_moves (Seg t (t + dt) (k_pos (b_A b')) (k_pos (b_A b')) vzero vzero) u ltac:(simpl; lra)) as Hm.
        destruct Hm as (H1' & H2' & H3'). split; [exact H1'|]. split; [exact H2'|]. apply vec4_ext; simpl; ring.
      * eapply IH; try eassumption. symmetry. exact Ep.
Qed.

Lemma sim_visits fw s0 states bl wn : valid_program s0 states -> simulate fw (s0 :: states) = Ok (bl, wn) ->
  no_moving_pause s0 states -> unpack_blocklist bl <> [] -> visits (unpack_blocklist bl) 0 (map stop_of states).
Proof.
  intros Hv Hs Hn Hne. destruct (simulate_inv _ _ _ _ _ Hv Hs) as (_ & items & Hi & Hib & Hf).
  assert (Hvs : Forall valid_state states) by (destruct Hv as [Hv' _]; inversion Hv'; assumption).
  specialize (Hf _ (feasible_zero fw _ _ _ Hvs Hi)).
  apply (fchain_visits fw _ _ _ _ _ _ _ _ _ _ Hf Hi Hib Hn eq_refl); [auto|].
  pose proof (sim_starts _ _ _ _ _ Hv Hs) as Hst. pose proof (sim_cpath _ _ _ _ _ Hv Hs) as Hp.
  destruct (unpack_blocklist bl) as [|x path]; [contradiction|]. destruct Hst as [H0 H1].
  exists (vel_at x (t_begin x)), x. split; [left; reflexivity|]. rewrite <- H0, <- H1, <- pos_at_begin.
  apply at_moves. destruct (cpath_cons _ _ Hp) as [[Hc _] _]. lra.
Qed.

(** * States and commands *)
Definition same_command (k k' : kstate) : Prop :=
  k_pos k = k_pos k' /\ k_speed k = k_speed k' /\ k_acc k = k_acc k' /\ k_jerk k = k_jerk k' /\ k_pause k = k_pause k'.
Lemma valid_state_same k k' : same_command k k' -> valid_state k -> valid_state k'.
Proof. intros (H1 & H2 & H3 & H4 & H5). unfold valid_state. rewrite H2, H3, H4, H5. auto. Qed.
Lemma moves_first_same : forall ks ks' A A', same_command A A' -> Forall2 same_command ks ks' -> moves_first A ks -> moves_first A' ks'.
Proof.
  induction ks as [|k ks IH]; intros ks' A A' HA H; inversion H as [|? k' ? ks1 Hk Hks]; subst; [auto|].
  simpl. pose proof Hk as (P1 & _ & _ & _ & P5). destruct HA as (Q1 & _). rewrite <- P1, <- P5, <- Q1.
  intros [M1 [M2|M2]]; [auto|]. split; [exact M1|]. right. exact (IH _ _ _ Hk Hks M2).
Qed.
Lemma no_moving_pause_same : forall ks ks' A A', same_command A A' -> Forall2 same_command ks ks' -> no_moving_pause A ks -> no_moving_pause A' ks'.
Proof.
  induction ks as [|k ks IH]; intros ks' A A' HA H; inversion H as [|? k' ? ks1 Hk Hks]; subst; [auto|].
  simpl. pose proof Hk as (P1 & _ & _ & _ & P5). destruct HA as (Q1 & _). rewrite <- P1, <- P5, <- Q1.
  intros [M1 M2]. split; [exact M1|]. exact (IH _ _ _ Hk Hks M2).
Qed.
Lemma valid_program_same k0 ks k0' ks' : same_command k0 k0' -> Forall2 same_command ks ks' ->
  valid_program k0 ks -> valid_program k0' ks'.
Proof.
  intros H0 H (V1 & V2 & V3). split; [|split].
  - inversion V1 as [|? ? V0 Vs]; subst. constructor; [exact (valid_state_same _ _ H0 V0)|].
    clear -H Vs. induction H as [|k k' ks ks' Hk Hks IH]; [constructor|]. inversion Vs; subst.
    constructor; [eapply valid_state_same; eassumption|auto].
  - destruct H0 as (_ & _ & _ & _ & <-). exact V2.
  - exact (moves_first_same _ _ _ _ H0 H V3).
Qed.
Lemma stops_same ks ks' : Forall2 same_command ks ks' -> map stop_of ks = map stop_of ks'.
Proof.
  induction 1 as [|k k' ks ks' (H1 & _ & _ & _ & H5) _ IH]; [reflexivity|]. simpl. rewrite IH. unfold stop_of.
  rewrite H1, H5. reflexivity.
Qed.

Lemma dwell_fun l p q : dwell_means (N := Rops) l p -> dwell_means (N := Rops) l q -> p = q.
Proof.
  unfold dwell_means. destruct (word (S_ "G4") (S_ "S") l) as [lf|].
  - intros (x & Hx & ->) (y & Hy & ->). rewrite (stored_fun _ _ _ Hx Hy). reflexivity.
  - destruct (word (S_ "G4") (S_ "P") l) as [lf|]; [|congruence].
    intros (x & Hx & ->) (y & Hy & ->). rewrite (meansR_fun _ _ _ Hx Hy). reflexivity.
Qed.
Lemma travel_dwell cue : forall ls m n sts, Forall proper_line ls -> travel Rops cue ls m n = Ok sts ->
  Forall2 (fun l s => dwell_means (N := Rops) l (pause s)) ls sts.
Proof.
  induction ls as [|l ls IH]; intros m n sts Hp H; cbn [travel] in H; [injection H as <-; constructor|].
  inversion Hp as [|? ? Hp1 Hp2]; subst.
  destruct (step_vm Rops (ld l) m) as [[m1 p1]|] eqn:E1; cbn [bind] in H; [|discriminate].
  destruct (travel Rops cue ls m1 _) as [rest|] eqn:E; cbn [bind] in H; [|discriminate]. injection H as <-.
  constructor; [|eapply IH; eassumption]. exact (ReadProofs.le_dwell _ _ _ _ _ (ReadProofs.step_effect Rops l m m1 _ Hp1 E1)).
Qed.

Lemma to_kstate_ok s g k : shows s g -> commands g (k_pause k) k ->
  pause s = match k_pause k with None => None | Some x => Some (SNum (N := Rops) x) end ->
  exists k', to_kstate s = Ok k' /\ same_command k k'.
Proof.
  intros (Hp & Hv & Ha & Hj & _) (X & Y & Z & E & Fv & Fa & Fj & _) Hw.
  unfold to_kstate. rewrite Hv, Ha, Hj, Fv, Fa, Fj, Hw. cbn [real_of bind].
  assert (Epos : V4 (px (state_position s)) (py (state_position s)) (pz (state_position s)) (pe (state_position s)) = k_pos k).
  { pose proof (Hp AX) as HX. pose proof (Hp AY) as HY. pose proof (Hp AZ) as HZ. pose proof (Hp AE) as HE. simpl in HX, HY, HZ, HE.
    apply vec4_ext; simpl; congruence. }
  rewrite Epos. destruct (k_pause k) as [w|] eqn:Ew; cbn [real_of bind];
    (eexists; split; [reflexivity|]; repeat split; simpl; congruence).
Qed.
Lemma to_kstates_ok : forall ls gs ks sts, command_list ls gs ks -> Forall2 shows sts gs ->
  Forall2 (fun l s => dwell_means (N := Rops) l (pause s)) ls sts ->
  exists ks', to_kstates sts = Ok ks' /\ Forall2 same_command ks ks'.
Proof.
  intros ls gs ks sts H. revert sts. induction H as [|l ls g gs k ks Hw Hc Hl IH]; intros sts Hs Hd;
    inversion Hs as [|s ? sts' ? Hs1 Hs2]; subst; [exists []; split; [reflexivity|constructor]|].
  inversion Hd as [|? ? ? ? Hd1 Hd2]; subst. destruct (IH _ Hs2 Hd2) as (ks' & E & F).
  destruct (to_kstate_ok s g k Hs1 Hc (dwell_fun _ _ _ Hd1 Hw)) as (k' & E' & F').
  exists (k' :: ks'). split; [|constructor; assumption]. cbn [to_kstates]. rewrite E', E. reflexivity.
Qed.
Lemma stop_list_ok ls gs ks : command_list ls gs ks -> stop_list ls gs (map stop_of ks).
Proof.
  induction 1 as [|l ls g gs k ks Hw Hc Hl IH]; [constructor|]. simpl. unfold stop_of at 1. constructor; [| |exact IH].
  - destruct Hc as (X & Y & Z & E & _). repeat split; assumption.
  - destruct (k_pause k); [left; exact Hw|right; split; [exact Hw|reflexivity]].
Qed.

(** * The setup values *)
Lemma unreserved cue k : ~ must_have k \/ In k [S_ "p_vel"; S_ "p_acc"; S_ "jerk"; S_ "vX"; S_ "vY"; S_ "vZ"; S_ "vE"; S_ "firmware"] ->
  k <> S_ "layer_cue" -> ~ reserved cue k.
Proof.
  intros H Hc [E|[(a & E)|(_ & E)]]; [| |contradiction]; destruct H as [H|H].
  - apply H. subst k. unfold must_have. simpl. tauto.
  - subst k. simpl in H. repeat (destruct H as [H|H]; [discriminate H|]). contradiction.
  - apply H. subst k. unfold must_have. destruct a; simpl; tauto.
  - subst k. destruct a; simpl in H; repeat (destruct H as [H|H]; [discriminate H|]); contradiction.
Qed.
Lemma setup_values_ok cue a p d su : presents cue a p d -> machine_settings cue a p su -> setup_values_of d = Ok su.
Proof.
  intros (P1 & P2 & P3 & P4) (M1 & M2 & M3 & M4 & M5 & M6 & M7 & X & Y & Z & E & C).
  assert (U : forall k x, In k [S_ "p_vel"; S_ "p_acc"; S_ "jerk"; S_ "vX"; S_ "vY"; S_ "vZ"; S_ "vE"; S_ "firmware"] ->
              a_prop a p k = Some (PNum x) -> num_of k d = Ok x).
  { intros k x Hk Hx. unfold num_of, dindex. rewrite P4, Hx; [reflexivity|]. apply unreserved; [right; exact Hk|].
    intros Ek. subst k. simpl in Hk. repeat (destruct Hk as [Hk|Hk]; [discriminate Hk|]). contradiction. }
  assert (A : forall x, num_of (name x) d = Ok (a_pos a x)).
  { intros x. unfold num_of, dindex. rewrite P3. reflexivity. }
  unfold setup_values_of.
  rewrite (U (S_ "p_vel") _ ltac:(simpl; tauto) M1), (U (S_ "p_acc") _ ltac:(simpl; tauto) M2), (U (S_ "jerk") _ ltac:(simpl; tauto) M3),
    (U (S_ "vX") _ ltac:(simpl; tauto) M4), (U (S_ "vY") _ ltac:(simpl; tauto) M5), (U (S_ "vZ") _ ltac:(simpl; tauto) M6), (U (S_ "vE") _ ltac:(simpl; tauto) M7).
  change (S_ "X") with (name AX). change (S_ "Y") with (name AY). change (S_ "Z") with (name AZ). change (S_ "E") with (name AE).
  rewrite !A. cbn [bind].
  assert (Ecue : (match dget (S_ "layer_cue") d with None => Ok None | Some (PStr c) => Ok (Some c) | Some _ => Err Unmodelled end)
                 = Ok (s_layer_cue Rops su)).
  { destruct cue as [c|].
    - rewrite (P2 c eq_refl), C. reflexivity.
    - rewrite P4.
      + rewrite C. destruct (s_layer_cue Rops su); reflexivity.
      + intros [F|[(x & F)|(F & _)]]; [discriminate F|destruct x; discriminate F|apply F; reflexivity]. }
  rewrite Ecue. cbn [bind]. rewrite X, Y, Z, E. destruct su; reflexivity.
Qed.
Lemma complete_acceptable cue a p d su fw : presents cue a p d -> machine_settings cue a p su -> complete_printer a p fw ->
  acceptable d /\ dindex (S_ "firmware") d = Ok fw.
Proof.
  intros (P1 & P2 & P3 & P4) (M1 & M2 & M3 & M4 & M5 & M6 & M7 & _) (F & K).
  assert (Hnr : forall k, In k [S_ "p_vel"; S_ "p_acc"; S_ "jerk"; S_ "vX"; S_ "vY"; S_ "vZ"; S_ "vE"; S_ "firmware"] -> ~ reserved cue k).
  { intros k Hk. apply unreserved; [right; exact Hk|]. intros Ek. subst k. simpl in Hk.
    repeat (destruct Hk as [Hk|Hk]; [discriminate Hk|]). contradiction. }
  assert (U : forall k v, In k [S_ "p_vel"; S_ "p_acc"; S_ "jerk"; S_ "vX"; S_ "vY"; S_ "vZ"; S_ "vE"; S_ "firmware"] ->
              a_prop a p k = Some v -> dget k d = Some v).
  { intros k v Hk Hv. rewrite P4; [exact Hv|]. apply Hnr, Hk. }
  split; [split|].
  - intros k Hk. unfold must_have in Hk. simpl in Hk.
    assert (Hg : exists v, dget k d = Some v).
    { repeat (destruct Hk as [Hk|Hk]); try contradiction; subst k;
        first [eexists; exact P1 | eexists; apply (P3 AX) | eexists; apply (P3 AY) | eexists; apply (P3 AZ) | eexists; apply (P3 AE)
              | eexists; apply U; [simpl; tauto|eassumption] ]. }
    destruct Hg as (v & Hg). eapply dget_in. exact Hg.
  - intros k Hk. destruct (dget_some _ _ Hk) as (v & Hv).
    destruct (str_eqb_spec k (S_ "printer_name")) as [->|N1]; [left; unfold must_have; simpl; tauto|].
    destruct (str_eqb_spec k (S_ "layer_cue")) as [->|N2]; [right; unfold may_have; simpl; tauto|].
    destruct (str_eqb_spec k (S_ "X")) as [->|N3]; [left; unfold must_have; simpl; tauto|].
    destruct (str_eqb_spec k (S_ "Y")) as [->|N4]; [left; unfold must_have; simpl; tauto|].
    destruct (str_eqb_spec k (S_ "Z")) as [->|N5]; [left; unfold must_have; simpl; tauto|].
    destruct (str_eqb_spec k (S_ "E")) as [->|N6]; [left; unfold must_have; simpl; tauto|].
    apply (K k v). rewrite <- P4; [exact Hv|]. intros [E|[(x & E)|(_ & E)]]; [contradiction|destruct x; contradiction|contradiction].
  - unfold dindex. rewrite (U _ fw); [reflexivity|simpl; tauto|exact F].
Qed.

(** * The constructor *)
Lemma some_item : forall ks A items, plan_items A ks items -> (exists k, In k ks /\ k_pos k <> k_pos A) -> items <> [].
Proof.
  induction ks as [|B ks IH]; intros A items Hi (k & Hk & Hn); [destruct Hk|].
  inversion Hi as [|? ? ? ? E' Ep' H1|? ? ? l Hor H1]; subst; [|discriminate].
  apply (IH B items H1). destruct Hk as [->|Hk]; [contradiction|]. exists k. split; [exact Hk|]. congruence.
Qed.
Lemma print_summary_ok fw s0 states bl wn : valid_program s0 states -> simulate fw (s0 :: states) = Ok (bl, wn) ->
  (exists k, In k states /\ k_pos k <> k_pos s0) -> print_summary bl = Ok tt /\ unpack_blocklist bl <> [].
Proof.
  intros Hv Hs Hm. destruct (simulate_inv _ _ _ _ _ Hv Hs) as (_ & items & Hi & Hib & _).
  pose proof (some_item _ _ _ Hi Hm) as Hne. destruct (simulate_fchain _ _ _ _ _ Hv Hs) as (wl & Hf).
  destruct (rev bl) as [|b r] eqn:Er.
  { apply (f_equal (@rev block)) in Er. rewrite rev_involutive in Er. subst bl. inversion Hib; subst. contradiction. }
  assert (Hb : In b bl) by (apply in_rev; rewrite Er; left; reflexivity).
  destruct (fchain_in _ _ _ _ _ _ Hf b Hb) as (? & ? & ? & ? & ? & ? & Hwf).
  destruct (wf_last _ _ _ _ _ _ _ Hwf) as (l0 & Hl & _). split.
  - unfold print_summary. rewrite Er, Hl. reflexivity.
  - intros E. apply last_seg_in in Hl. assert (Hin : In l0 (unpack_blocklist bl)) by (apply in_flat_map; exists b; auto).
    rewrite E in Hin. destruct Hin.
Qed.

Section Construct.
Variables (presets : dict (dict pval)) (cue : option str) (s : setup) (a : aset) (p : str) (su : setup_values Rops) (fw : pval).
Hypothesis Hr : refines presets cue s a.
Hypothesis Hsel : a_sel a = Some p.
Hypothesis Hsu : machine_settings cue a p su.
Hypothesis Hfw : complete_printer a p fw.

Variables (lines : list str) (ls : list line_dict) (sts : list (state Rops)) (g0 : gmachine) (gs : list gmachine)
          (k0 : kstate) (ks : list kstate).
Hypothesis Hread : read_gcode_to_dict_list lines = Ok ls.
Hypothesis Hsts : generate_states Rops lines su = Ok sts.
Hypothesis Hz : Forall g92_zero ls.
Hypothesis Hg0 : g_start su g0.
Hypothesis Hrun : g_run g0 ls gs.
Hypothesis Hk0 : commands g0 None k0.
Hypothesis Hks : command_list ls gs ks.
Hypothesis Hv : valid_program k0 ks.
Hypothesis Hmove : exists k, In k ks /\ k_pos k <> k_pos k0.

Lemma states_commands : exists k0' ks', to_kstates sts = Ok (k0' :: ks') /\ same_command k0 k0' /\ Forall2 same_command ks ks'.
Proof.
  assert (Hp : Forall proper_line ls) by (eapply read_lines_proper; exact Hread).
  unfold generate_states in Hsts. rewrite Hread in Hsts. cbn [bind] in Hsts.
  apply traveler_split in Hsts as (rest & -> & Ht).
  pose proof (travel_dwell _ _ _ _ _ Hp Ht) as Hd.
  pose proof (travel_refines _ _ _ _ _ _ _ Hp Hz Ht (start_eq su g0 Hg0) Hrun) as Hsh.
  destruct (to_kstates_ok _ _ _ _ Hks Hsh Hd) as (ks' & E & F).
  assert (Hk0' : commands g0 (k_pause k0) k0).
  { destruct Hk0 as (X & Y & Z & E1 & Fv & Fa & Fj & Fp). repeat split; assumption. }
  assert (Hp0 : pause (initial_state Rops su) = match k_pause k0 with None => None | Some x => Some (SNum (N := Rops) x) end).
  { destruct Hk0 as (_ & _ & _ & _ & _ & _ & _ & ->). reflexivity. }
  assert (Hs0 : shows (initial_state Rops su) g0).
  { apply (shows_eq _ (g_of (init_vm Rops su))); [apply shows_of; split; reflexivity|apply start_eq; exact Hg0]. }
  destruct (to_kstate_ok _ _ _ Hs0 Hk0' Hp0) as (k' & E' & F').
  exists k', ks'. split; [|auto]. cbn [to_kstates]. rewrite E', E. reflexivity.
Qed.

Lemma run_setup_ok unit : exists m s' bl, run_setup lines unit s = Ok (m, s') /\
  sim_query m = Sim bl unit None /\ sim_setup m = p /\ sim_states m = sts /\ refines presets cue s' a /\
  get_dict s = (Ok p, s') /\
  (exists k0' ks', same_command k0 k0' /\ Forall2 same_command ks ks' /\ to_kstates sts = Ok (k0' :: ks') /\
                   simulate (firmware_of fw) (k0' :: ks') = Ok (bl, false)) /\
  unpack_blocklist bl <> [] /\
  (no_moving_pause k0 ks -> visits (unpack_blocklist bl) 0 (map stop_of ks)) /\
  starts (fun g => t_begin g = 0 /\ pos_begin g = k_pos k0) (unpack_blocklist bl).
Proof.
  destruct (get_refines _ _ _ _ _ Hr Hsel) as (s' & Eg & Hr' & Hpres).
  destruct (complete_acceptable _ _ _ _ _ _ Hpres Hsu Hfw) as [Hacc Hf].
  destruct states_commands as (k0' & ks' & Ek & S0 & Ss).
  pose proof (valid_program_same _ _ _ _ S0 Ss Hv) as Hv'.
  destruct (simulation_succeeds (firmware_of fw) _ _ Hv') as (bl & Hsim).
  assert (Hmove' : exists k, In k ks' /\ k_pos k <> k_pos k0').
  { destruct Hmove as (k & Hk & Hn). destruct (Forall2_in_l _ _ _ _ Ss Hk) as (k' & Hk' & (P & _)).
    exists k'. split; [exact Hk'|]. destruct S0 as (P0 & _). congruence. }
  destruct (print_summary_ok _ _ _ _ _ Hv' Hsim Hmove') as [Hsum Hne].
  do 3 eexists. split; [|split; [|split; [|split; [|split; [|split; [|split; [|split; [|split]]]]]]]].
  - unfold run_setup. rewrite Eg. cbn [bind]. rewrite (proj2 (check_ok _) Hacc). cbn [bind]. rewrite Hf. cbn [bind].
    rewrite (setup_values_ok _ _ _ _ _ Hpres Hsu). cbn [bind]. rewrite Hsts. cbn [bind]. unfold plan. rewrite Ek. cbn [bind].
    rewrite Hsim. cbn [bind]. rewrite Hsum. cbn [bind]. reflexivity.
  - reflexivity.
  - reflexivity.
  - reflexivity.
  - exact Hr'.
  - exact Eg.
  - exists k0', ks'. auto.
  - exact Hne.
  - intros Hn. rewrite (stops_same _ _ Ss). exact (sim_visits _ _ _ _ _ Hv' Hsim (no_moving_pause_same _ _ _ _ S0 Ss Hn) Hne).
  - pose proof (sim_starts _ _ _ _ _ Hv' Hsim) as Hst. destruct S0 as (P0 & _). rewrite P0. exact Hst.
Qed.
End Construct.

(** * The other checks of the constructor *)
Lemma unknown_output_unit u : (forall k, ~ unit_length u k) -> dmem u output_units = false.
Proof.
  intros H. unfold dmem, output_units. rewrite !dget_cons.
  destruct (str_eqb_spec u (S_ "SI")) as [E|_]; [subst; exfalso; eapply H; constructor|].
  destruct (str_eqb_spec u (S_ "SImm")) as [E|_]; [subst; exfalso; eapply H; constructor|].
  destruct (str_eqb_spec u (S_ "inch")) as [E|_]; [subst; exfalso; eapply H; constructor|]. reflexivity.
Qed.
Lemma known_output_unit u k : unit_length u k -> dmem u output_units = true.
Proof. intros H; destruct H; reflexivity. Qed.

Lemma named_same defaults lines presets cue s a p unit : refines presets cue s a -> a_sel a = Some p ->
  new_simulation defaults lines (Some p) (Some s) unit = new_simulation defaults lines None (Some s) unit.
Proof.
  intros Hr Hsel. unfold new_simulation. destruct (dmem unit output_units); [|reflexivity].
  destruct (get_refines _ _ _ _ _ Hr Hsel) as (s' & Eg & Hr' & (Hn & _)). rewrite Eg. unfold dindex. rewrite Hn.
  cbn [bind]. rewrite str_eqb_refl. unfold run_setup. rewrite Eg, (get_dict_twice _ _ _ Eg). reflexivity.
Qed.
Lemma named_other defaults lines presets cue s a p n unit : refines presets cue s a -> a_sel a = Some p -> n <> p ->
  new_simulation defaults lines (Some n) (Some s) unit = Err ValueError.
Proof.
  intros Hr Hsel Hne. unfold new_simulation. destruct (dmem unit output_units); [|reflexivity].
  destruct (get_refines _ _ _ _ _ Hr Hsel) as (s' & Eg & Hr' & (Hn & _)). rewrite Eg. unfold dindex. rewrite Hn.
  cbn [bind]. rewrite str_eqb_false by congruence. reflexivity.
Qed.
Lemma unacceptable_rejected defaults lines mn presets cue s a p unit : refines presets cue s a -> a_sel a = Some p ->
  (forall s' , get_dict s = (Ok p, s') -> ~ acceptable (deref p s')) ->
  new_simulation defaults lines mn (Some s) unit = Err ValueError.
Proof.
  intros Hr Hsel Hacc. destruct (get_refines _ _ _ _ _ Hr Hsel) as (s' & Eg & Hr' & (Hn & _)).
  assert (E : run_setup lines unit s = Err ValueError).
  { unfold run_setup. rewrite Eg. rewrite (proj2 (check_err _) (Hacc _ Eg)). reflexivity. }
  assert (E' : new_simulation defaults lines None (Some s) unit = Err ValueError).
  { unfold new_simulation. destruct (dmem unit output_units); [exact E|reflexivity]. }
  destruct mn as [n|]; [|exact E']. destruct (list_eq_dec ascii_dec n p) as [->|Hne].
  - rewrite (named_same _ _ _ _ _ _ _ _ Hr Hsel). exact E'.
  - exact (named_other _ _ _ _ _ _ _ _ _ Hr Hsel Hne).
Qed.

(** * What a constructed simulation is *)
Lemma run_setup_inv presets cue s a lines unit m s' : refines presets cue s a -> run_setup lines unit s = Ok (m, s') ->
  exists p fw bl, a_sel a = Some p /\ sim_setup m = p /\ refines presets cue s' a /\ a_prop a p (S_ "firmware") = Some fw /\
    plan fw (sim_states m) = Ok bl /\ sim_query m = Sim bl unit None.
Proof.
  intros Hr H. unfold run_setup in H. destruct (a_sel a) as [p|] eqn:Hsel.
  2:{ unfold get_dict in H. rewrite (rf_sel _ _ _ _ Hr), Hsel in H. discriminate. }
  destruct (get_refines _ _ _ _ _ Hr Hsel) as (s1 & Eg & Hr' & Hpres). rewrite Eg in H.
  destruct (check_initial_setup _) as [[]|]; cbn [bind] in H; [|discriminate].
  destruct (dindex (S_ "firmware") (deref p s1)) as [fw|] eqn:Ef; cbn [bind] in H; [|discriminate].
  destruct (setup_values_of _) as [su|]; cbn [bind] in H; [|discriminate].
  destruct (generate_states Rops lines su) as [sts|]; cbn [bind] in H; [|discriminate].
  destruct (plan fw sts) as [bl|] eqn:Ep; cbn [bind] in H; [|discriminate].
  destruct (print_summary bl) as [[]|]; cbn [bind] in H; [|discriminate]. injection H as <- <-.
  exists p, fw, bl. cbn [sim_setup sim_states sim_query]. split; [reflexivity|]. split; [reflexivity|]. split; [exact Hr'|].
  split; [|split; [exact Ep|reflexivity]]. destruct Hpres as (_ & _ & _ & P4). unfold dindex in Ef.
  rewrite P4 in Ef; [destruct (a_prop a p (S_ "firmware")); [congruence|discriminate]|].
  apply unreserved; [right; simpl; tauto|discriminate].
Qed.
Lemma new_simulation_inv defaults presets cue s a lines mn unit m s' : refines presets cue s a ->
  new_simulation defaults lines mn (Some s) unit = Ok (m, s') ->
  exists p fw bl, a_sel a = Some p /\ sim_setup m = p /\ refines presets cue s' a /\ a_prop a p (S_ "firmware") = Some fw /\
    plan fw (sim_states m) = Ok bl /\ sim_query m = Sim bl unit None.
Proof.
  intros Hr H. unfold new_simulation in H. destruct (dmem unit output_units); [|discriminate].
  destruct mn as [n|]; [|exact (run_setup_inv _ _ _ _ _ _ _ _ Hr H)].
  destruct (get_dict s) as [[r|] s1] eqn:Eg; [|discriminate].
  assert (Hsel : exists p, a_sel a = Some p).
  { destruct (a_sel a) as [p|] eqn:E; [eauto|]. unfold get_dict in Eg. rewrite (rf_sel _ _ _ _ Hr), E in Eg. discriminate. }
  destruct Hsel as (p & Hsel). destruct (get_refines _ _ _ _ _ Hr Hsel) as (s2 & Eg2 & Hr2 & _). rewrite Eg in Eg2. injection Eg2 as -> ->.
  destruct (dindex _ _) as [v|]; cbn [bind] in H; [|discriminate]. destruct v as [| q |]; try discriminate H.
  destruct (str_eqb q n); [|discriminate]. exact (run_setup_inv _ _ _ _ _ _ _ _ Hr2 H).
Qed.
Lemma refresh_same presets cue s a p fw m bl unit li : refines presets cue s a -> sim_setup m = p -> In p (dkeys presets) ->
  a_prop a p (S_ "firmware") = Some fw -> plan fw (sim_states m) = Ok bl -> sim_query m = Sim bl unit li ->
  refresh m s = Ok m.
Proof.
  intros Hr Hm Hin Hf Hp Hq. unfold refresh. rewrite Hm. unfold deref.
  apply (rf_known _ _ _ _ Hr) in Hin. destruct (dget_some _ _ Hin) as (d & Hd). rewrite Hd. unfold dindex.
  rewrite (rf_prop _ _ _ _ Hr p d _ Hd), Hf.
  - cbn [bind]. rewrite Hp. cbn [bind]. rewrite Hq. cbn [output_unit_system last_index].
    destruct m as [a0 b0 c0 q0]. cbn [sim_setup sim_firmware sim_states sim_query] in *. subst. reflexivity.
  - apply unreserved; [right; simpl; tauto|discriminate].
Qed.
