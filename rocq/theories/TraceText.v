(** The blocks of a program given as text. *)
From Coq Require Import Lra Lia.
From Verif Require Import Py Parser StateGen SpecMachine Vec Segment Junction Planner Query Setup Interp RealFacts SpecKin SpecQuery SpecSetup SpecText
  SpecTools SpecTrace StrFacts MoveProofs JunctionProofs CorrectProofs SegProofs PlannerProofs TrajProofs PlanFacts QueryProofs InterpProofs.
Open Scope R_scope.

Lemma to_kstate_layer s k : to_kstate s = Ok k -> k_layer k = layer s.
Proof.
  unfold to_kstate. destruct (real_of (speed _)); [|discriminate]. cbn [bind]. destruct (real_of (p_acc _)); [|discriminate]. cbn [bind].
  destruct (real_of (jerk _)); [|discriminate]. cbn [bind]. destruct (pause s) as [w|]; [destruct (real_of w); [|discriminate]|];
    cbn [bind]; intros E; injection E as <-; reflexivity.
Qed.
Lemma to_kstates_layer : forall sts ks i k, to_kstates sts = Ok ks -> nth_error ks i = Some k ->
  exists s, nth_error sts i = Some s /\ k_layer k = layer s.
Proof.
  induction sts as [|s sts IH]; intros ks i k H Hi; cbn [to_kstates] in H.
  - injection H as <-. destruct i; discriminate.
  - destruct (to_kstate s) as [k'|] eqn:E; [|discriminate]. cbn [bind] in H. destruct (to_kstates sts) as [r|] eqn:Er; [|discriminate].
    cbn [bind] in H. injection H as <-. destruct i as [|i]; cbn [nth_error] in *.
    + injection Hi as <-. exists s. split; [reflexivity|]. exact (to_kstate_layer _ _ E).
    + exact (IH _ _ _ eq_refl Hi).
Qed.

Lemma commands_same g w k k' : same_command k k' -> commands g w k -> commands g w k'.
Proof. intros (H1 & H2 & H3 & H4 & H5). unfold commands. rewrite H1, H2, H3, H4, H5. auto. Qed.
Lemma at_machine_pos g w k : commands g w k -> at_machine g (k_pos k).
Proof. intros (X & Y & Z & E & _). repeat split; assumption. Qed.
Lemma at_machine_eq g g' p p' : at_machine g p -> at_machine g' p' -> (p = p' <-> forall a, g_pos g a = g_pos g' a).
Proof.
  intros (X & Y & Z & E) (X' & Y' & Z' & E'). split.
  - intros -> a. destruct a; congruence.
  - intros H. apply vec4_ext; congruence.
Qed.
Lemma pause_of_fun l w w' : pause_of l w -> pause_of l w' -> w = w'.
Proof.
  intros H H'. pose proof (dwell_fun _ _ _ H H') as E. destruct w, w'; try discriminate E; [|reflexivity]. injection E as ->. reflexivity.
Qed.

Lemma line_blocks_ok cue : forall ls gs ks, command_list ls gs ks -> forall ks' done g A items bl,
  Forall2 same_command ks ks' -> at_machine g (k_pos A) -> plan_items A ks' items ->
  map (fun b => (b_A b, b_B b, b_extr b)) bl =
  map (fun i => let '(A, B, _) := i in (A, B, pos_is_extruding (k_pos A) (k_pos B) true)) items ->
  (forall i k, nth_error ks' i = Some k -> layer_after cue (done ++ firstn (S i) ls) (k_layer k)) ->
  line_blocks cue done g ls gs bl.
Proof.
  intros ls gs ks H. induction H as [|l ls g' gs k ks Hw Hc Hl IH]; intros ks' done g A items bl Hs HA Hi Hm Hlay;
    inversion Hs as [|? k' ? ks1 Hk Hks]; subst.
  - inversion Hi; subst. destruct bl; [constructor|discriminate].
  - assert (Hc' : commands g' (k_pause k') k').
    { pose proof Hk as (_ & _ & _ & _ & E). rewrite <- E. exact (commands_same _ _ _ _ Hk Hc). }
    assert (Hw' : pause_of l (k_pause k')) by (pose proof Hk as (_ & _ & _ & _ & <-); exact Hw).
    pose proof (at_machine_pos _ _ _ Hc') as Hg'.
    assert (Hlay' : forall i k0, nth_error ks1 i = Some k0 -> layer_after cue ((done ++ [l]) ++ firstn (S i) ls) (k_layer k0)).
    { intros i k0 Hi0. rewrite <- app_assoc. exact (Hlay (S i) k0 Hi0). }
    inversion Hi as [|? ? ? ? E1 E2 Hi1|? ? ? items1 Hor Hi1]; subst.
    + apply lb_none; [|rewrite <- E2; exact Hw'|].
      * apply (at_machine_eq g' g _ _ Hg' HA). exact E1.
      * apply (IH ks1 (done ++ [l]) g' k' items bl); assumption.
    + destruct bl as [|b bl]; [discriminate|]. cbn [map] in Hm. inversion Hm as [[Eb EB Ee Hm']].
      apply lb_block; rewrite ?EB, ?Eb; try assumption.
      * destruct Hor as [Hd|Hd].
        -- left. destruct (Req_dec (g_pos g' AX) (g_pos g AX)) as [X|X]; [|exists AX; exact X].
           destruct (Req_dec (g_pos g' AY) (g_pos g AY)) as [Y|Y]; [|exists AY; exact Y].
           destruct (Req_dec (g_pos g' AZ) (g_pos g AZ)) as [Z|Z]; [|exists AZ; exact Z].
           destruct (Req_dec (g_pos g' AE) (g_pos g AE)) as [E|E]; [|exists AE; exact E].
           exfalso. apply Hd. apply (at_machine_eq g' g _ _ Hg' HA). intros a. destruct a; assumption.
        -- right. intros Hn. apply Hd. exact (pause_of_fun _ _ _ Hw' Hn).
      * exact (Hlay 0%nat k' eq_refl).
      * apply (IH ks1 (done ++ [l]) g' k' items1 bl); assumption.
Qed.

(** Layers do not decrease. *)
Lemma cue_count_fun cue : forall ls a b, cue_count cue ls a -> cue_count cue ls b -> a = b.
Proof.
  intros ls. induction ls as [|x ls IH] using rev_ind; intros a b Ha Hb.
  - inversion Ha as [|? ? ? _ _ E|? ? ? _ _ E]; try (destruct ls; discriminate E).
    inversion Hb as [|? ? ? _ _ E'|? ? ? _ _ E']; try (destruct ls; discriminate E'). reflexivity.
  - inversion Ha as [E|l1 x1 a1 A1 A2 E|l1 x1 a1 A1 A2 E]; [destruct ls; discriminate E| |];
    apply app_inj_tail in E as [-> ->];
    (inversion Hb as [E|l2 x2 b1 B1 B2 E|l2 x2 b1 B1 B2 E]; [destruct ls; discriminate E| |]);
    apply app_inj_tail in E as [-> ->]; try contradiction; rewrite (IH _ _ A1 B1); reflexivity.
Qed.
Lemma cue_count_app cue : forall more ls a b, cue_count cue ls a -> cue_count cue (ls ++ more) b -> (a <= b)%nat.
Proof.
  induction more as [|x more IH] using rev_ind; intros ls a b Ha Hb.
  - rewrite app_nil_r in Hb. rewrite (cue_count_fun _ _ _ _ Ha Hb). lia.
  - rewrite app_assoc in Hb. inversion Hb as [E|l2 x2 b1 B1 B2 E|l2 x2 b1 B1 B2 E]; [destruct (ls ++ more); discriminate E| |];
      apply app_inj_tail in E as [-> ->]; specialize (IH _ _ _ Ha B1); lia.
Qed.
Lemma line_blocks_above c done g ls gs bl : line_blocks (Some c) done g ls gs bl -> forall a n b,
  cue_count c done a -> In b bl -> k_layer (b_B b) = Some n -> (a <= n)%nat.
Proof.
  assert (R : forall cue done g ls gs bl, line_blocks cue done g ls gs bl -> cue = Some c -> forall a n b,
    (exists pre more, done = pre ++ more /\ cue_count c pre a) -> In b bl -> k_layer (b_B b) = Some n -> (a <= n)%nat).
  { clear. intros cue done g ls gs bl H. induction H as [done g|done g l ls g' gs bl H1 H2 H3 IH|done g l ls g' gs b0 bl H1 H2 H3 H4 H5 H6 IH];
      intros Ec a n b (pre & more & Ed & Hc) Hb Hn.
    - destruct Hb.
    - apply (IH Ec a n b); [|assumption|assumption]. exists pre, (more ++ [l]). rewrite Ed, app_assoc. auto.
    - destruct Hb as [<-|Hb].
      + rewrite Ec in H5. simpl in H5. destruct H5 as (k & Ek & Hk). assert (k = n) by congruence. subst k.
        subst done. rewrite <- app_assoc in Hk. exact (cue_count_app _ _ _ _ _ Hc Hk).
      + apply (IH Ec a n b); [|assumption|assumption]. exists pre, (more ++ [l]). rewrite Ed, app_assoc. auto. }
  intros H a n b Ha. apply (R _ _ _ _ _ _ H eq_refl). exists done, []. rewrite app_nil_r. auto.
Qed.
Lemma line_blocks_layered c done g ls gs bl : line_blocks (Some c) done g ls gs bl -> layered bl.
Proof.
  assert (R : forall cue done g ls gs bl, line_blocks cue done g ls gs bl -> cue = Some c -> layered bl).
  { clear. intros cue done g ls gs bl H. induction H as [done g|done g l ls g' gs bl H1 H2 H3 IH|done g l ls g' gs b0 bl H1 H2 H3 H4 H5 H6 IH]; intros Ec.
    - split; [constructor|exact I].
    - auto.
    - destruct (IH Ec) as [L1 L2]. rewrite Ec in H5, H6. simpl in H5. destruct H5 as (k & Ek & Hk). split; [constructor; [eauto|exact L1]|].
      destruct bl as [|b1 bl]; [simpl; auto|]. split; [|exact L2]. intros m n Hm Hn. rewrite Ek in Hm. injection Hm as <-.
      exact (line_blocks_above _ _ _ _ _ _ H6 _ _ b1 Hk (or_introl eq_refl) Hn). }
  intros H. exact (R _ _ _ _ _ _ H eq_refl).
Qed.

(** From states to lines. *)
Lemma command_list_nth : forall ls gs ks, command_list ls gs ks -> forall i k, nth_error ks i = Some k ->
  exists l g, nth_error ls i = Some l /\ nth_error gs i = Some g /\ pause_of l (k_pause k) /\ commands g (k_pause k) k.
Proof.
  intros ls gs ks H. induction H as [|l ls g gs k ks Hw Hc Hl IH]; intros i k1 Hi; destruct i as [|i]; try discriminate Hi.
  - injection Hi as <-. exists l, g. auto.
  - exact (IH i k1 Hi).
Qed.
Lemma same_nth ks ks' i k' : Forall2 same_command ks ks' -> nth_error ks' i = Some k' -> exists k, nth_error ks i = Some k /\ same_command k k'.
Proof.
  intros H. revert i. induction H as [|k k2 ks ks' H1 H2 IH]; intros i Hi; destruct i as [|i]; try discriminate Hi.
  - injection Hi as <-. exists k. auto.
  - exact (IH i Hi).
Qed.
Lemma stage_line ls gs ks g0 k0 k0' ks' i r v p : commands g0 None k0 -> command_list ls gs ks -> same_command k0 k0' -> Forall2 same_command ks ks' ->
  at_stage (k0' :: ks') i r v p -> at_line ls (g0 :: gs) i r v p.
Proof.
  intros H0 Hc S0 Ss (A & B & HA & HB & HL & Hp). cbn [nth_error] in HB.
  destruct (same_nth _ _ _ _ Ss HB) as (B1 & HB1 & SB). destruct (command_list_nth _ _ _ Hc _ _ HB1) as (l & g' & El & Eg & Hw & Hcm).
  pose proof (commands_same _ _ _ _ SB Hcm) as Hcm'.
  assert (HAg : exists g, nth_error (g0 :: gs) i = Some g /\ at_machine g (k_pos A)).
  { destruct i as [|i]; cbn [nth_error] in *.
    - injection HA as <-. exists g0. split; [reflexivity|]. exact (at_machine_pos _ _ _ (commands_same _ _ _ _ S0 H0)).
    - destruct (same_nth _ _ _ _ Ss HA) as (A1 & HA1 & SA). destruct (command_list_nth _ _ _ Hc _ _ HA1) as (l1 & g1 & _ & Eg1 & _ & Hc1).
      exists g1. split; [exact Eg1|]. exact (at_machine_pos _ _ _ (commands_same _ _ _ _ SA Hc1)). }
  destruct HAg as (g & Eg0 & Hg). exists l, g, g', (k_pos A), (k_pos B), (k_speed B).
  split; [exact El|]. split; [exact Eg0|]. split; [exact Eg|]. split; [exact Hg|]. split; [exact (at_machine_pos _ _ _ Hcm')|].
  split; [destruct Hcm' as (_ & _ & _ & _ & E & _); exact E|]. split; [exact HL|].
  intros Hn. apply Hp. intros E. apply Hn. destruct SB as (_ & _ & _ & _ & E5). rewrite <- E, <- E5. exact Hw.
Qed.
