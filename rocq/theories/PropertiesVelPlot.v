(** Properties C64 and C96: what plot_vel draws.  Vocabulary: SpecVelPlot.v,
    SpecQuery.v, SpecKin.v. *)
From Coq Require Import Reals ZArith Lra Lia.
From Verif Require Import Py StrFacts Vec Segment Junction Planner Query RealFacts SpecKin SpecJunction SpecQuery PlotVel SpecVelPlot
     JunctionProofs CorrectProofs SegProofs PlannerProofs TrajProofs PlanFacts QueryProofs QueryFacts VelPlotProofs PropertiesPlan PropertiesQuery
     MoveProofs PlanRefute InterpProofs SpecCorner PropertiesCorner PropertiesRules.
Open Scope R_scope.

Section Sim.
Variables (fw : firmware) (s0 : kstate) (states : list kstate) (bl : list block) (wn : bool).
Hypothesis Hv : valid_program s0 states.
Hypothesis Hs : simulate fw (s0 :: states) = Ok (bl, wn).

Lemma last_block T : print_time bl T -> exists b r l, rev bl = b :: r /\ last_seg (b_segs b) = Ok l /\ t_end l = T.
Proof.
  intros HT. destruct (print_time_last _ _ HT) as (l & Hl & ->).
  destruct (rev bl) as [|b r] eqn:Er.
  { apply (f_equal (@rev block)) in Er. rewrite rev_involutive in Er. subst bl. discriminate Hl. }
  assert (Ebl : bl = rev r ++ [b]) by (apply (f_equal (@rev block)) in Er; rewrite rev_involutive in Er; exact Er).
  assert (Hne : b_segs b <> []) by (apply (sim_nonempty fw s0 states bl wn Hv Hs); rewrite Ebl; apply in_or_app; right; left; reflexivity).
  exists b, r, l. split; [reflexivity|]. split; [|reflexivity]. rewrite Ebl, unpack_snoc, last_seg_app in Hl by exact Hne. exact Hl.
Qed.
Lemma values_asked T steps times : print_time bl T -> times_asked bl T steps times ->
  exists vals, plot_times bl steps = Ok times /\ plot_values (unpack_blocklist bl) (Some 0%nat) times = Ok vals /\
    Forall2 (fun t vp => on_path (unpack_blocklist bl) t (fst vp) (snd vp)) times vals.
Proof.
  intros HT Ht. destruct Ht as [|n].
  - destruct (C64_plot_at_segment_ends fw s0 states bl wn Hv Hs T HT) as (vals & E & F). exists vals. split; [reflexivity|]. split; [exact E | exact F].
  - destruct (last_block T HT) as (b & r & l & Er & El & Et).
    assert (E : plot_times bl (StepCount (Z.of_nat n)) = Ok (linspace T n)).
    { unfold plot_times. rewrite Er, El. cbn [bind]. rewrite (proj2 (Z.ltb_ge _ _) (Nat2Z.is_nonneg n)), Nat2Z.id, Et. reflexivity. }
    destruct n as [|n]; [exists []; split; [exact E|]; split; [reflexivity|constructor]|].
    assert (L : linspace T (S n) = map (fun i => INR i * T / INR (S n)) (seq 0 (S n))).
    { unfold linspace. apply map_ext. intros i. field. apply not_0_INR. discriminate. }
    destruct (C64_plot_at_time_steps fw s0 states bl wn Hv Hs T (S n) HT ltac:(lia)) as (vals & P & F). exists vals.
    rewrite <- L in *. split; [exact E|]. split; [|exact F]. unfold plot_vel_steps in P. rewrite Er, El in P. cbn [bind] in P. rewrite Et in P. exact P.
Qed.

(** C64: for every choice of axes and times the plot draws, for each axis asked
    for, the velocity and the position of the print at these times, and the
    travel speed. *)
Theorem C64_curves T axis sb ss sj steps times : print_time bl T -> times_asked bl T steps times ->
  Forall an_axis axis -> NoDup axis ->
  exists p vals, plot_vel bl axis sb ss sj steps = Ok p /\ vp_times p = times /\
    Forall2 (fun t vp => on_path (unpack_blocklist bl) t (fst vp) (snd vp)) times vals /\
    Forall2 (fun ax c => cu_label c = ax /\ exists f, names_axis ax f /\
               cu_vel c = map (fun vp => f (fst vp)) vals /\ cu_pos c = map (fun vp => f (snd vp)) vals) axis (vp_curves p) /\
    vp_abs p = map (fun vp => norm3 (fst vp)) vals.
Proof.
  intros HT Ht Ha Hd. destruct (values_asked T steps times HT Ht) as (vals & Et & Ev & Hf).
  destruct (gather_ok axis _ Ha times (Some 0%nat) vals [[]; []; []; []] [[]; []; []; []] [] Ev eq_refl eq_refl) as (pos & vel & Eg & P & V).
  destruct (marks_ok sb ss sj axis Ha bl (sim_nonempty fw s0 states bl wn Hv Hs)) as (ms & Em & _).
  destruct (curves_ok axis times pos vel vals Hd Ha (plot_values_length _ _ _ _ Ev)) with (axis := axis) as (cs & Ec & Fc).
  - intros k. rewrite P. destruct k as [|[|[|[|k]]]]; try reflexivity. destruct k; reflexivity.
  - intros k. rewrite V. destruct k as [|[|[|[|k]]]]; try reflexivity. destruct k; reflexivity.
  - auto.
  - exists (VelPlot times ms cs (map (fun vp => norm3 (fst vp)) vals)), vals. unfold plot_vel. rewrite Et. cbn [bind]. rewrite Eg. cbn [bind app].
    rewrite Em. cbn [bind]. rewrite Ec. cbn [bind]. repeat split; try assumption; reflexivity.
Qed.
(** Anything else than the four axes is a KeyError, an axis asked for twice and
    times that are neither a number nor "constrained" are ValueErrors. *)
Theorem C64_errors T axis sb ss sj steps times : print_time bl T ->
  (times_asked bl T steps times -> ~ Forall an_axis axis -> plot_vel bl axis sb ss sj steps = Err KeyError) /\
  (times_asked bl T steps times -> Forall an_axis axis -> ~ NoDup axis -> times <> [] -> plot_vel bl axis sb ss sj steps = Err ValueError) /\
  (forall n, (n < 0)%Z -> plot_vel bl axis sb ss sj (StepCount n) = Err ValueError) /\
  (forall s, s <> S_ "constrained" -> plot_vel bl axis sb ss sj (StepName s) = Err ValueError).
Proof.
  intros HT. split; [|split; [|split]].
  - intros Ht Ha. destruct (values_asked T steps times HT Ht) as (vals & Et & Ev & Hf). unfold plot_vel. rewrite Et. cbn [bind].
    destruct times as [|t times]; [|rewrite (gather_err axis _ Ha _ _ _ _ _ _ _ Ev); reflexivity].
    cbn [gather bind]. destruct (last_block T HT) as (b & r & l & Er & El & _).
    assert (M : block_marks sb ss sj axis bl = Err KeyError \/ exists ms, block_marks sb ss sj axis bl = Ok ms).
    { destruct sj; [left|right; exact (marks_unknown sb ss axis bl Ha (sim_nonempty fw s0 states bl wn Hv Hs))].
      destruct bl as [|b0 bl0]; [discriminate Er|]. pose proof (sim_nonempty _ _ _ _ _ Hv Hs b0 (or_introl eq_refl)) as Hne.
      cbn [block_marks]. unfold last_seg at 1. destruct (rev (b_segs b0)) as [|x q] eqn:Eq.
      { destruct Hne. apply (f_equal (@rev segment)) in Eq. rewrite rev_involutive in Eq. exact Eq. }
      cbn [bind]. rewrite axis_crosses_err by exact Ha. reflexivity. }
    destruct M as [->|(ms & ->)]; [reflexivity|]. cbn [bind]. rewrite curves_unknown; [reflexivity | exact Ha |].
    intros k ax _ _. destruct k as [|[|[|[|k]]]]; try (split; reflexivity). destruct k; split; reflexivity.
  - intros Ht Ha Hd Hne. destruct (values_asked T steps times HT Ht) as (vals & Et & Ev & Hf).
    destruct (gather_ok axis _ Ha times (Some 0%nat) vals [[]; []; []; []] [[]; []; []; []] [] Ev eq_refl eq_refl) as (pos & vel & Eg & P & V).
    destruct (marks_ok sb ss sj axis Ha bl (sim_nonempty fw s0 states bl wn Hv Hs)) as (ms & Em & _).
    unfold plot_vel. rewrite Et. cbn [bind]. rewrite Eg. cbn [bind]. rewrite Em. cbn [bind]. rewrite curves_repeated; [reflexivity | exact Ha |].
    destruct (asked_twice axis Ha Hd) as (k & ax & Hin & Hk & H2). exists ax, k. split; [exact Hin|]. split; [exact Hk|].
    rewrite V. replace (nth k [[]; []; []; []] []) with (@nil R) by (destruct k as [|[|[|[|k]]]]; try reflexivity; destruct k; reflexivity).
    cbn [app]. rewrite column_length, map_length, (plot_values_length _ _ _ _ Ev). destruct times as [|t times]; [destruct Hne; reflexivity|]. cbn [length]. destruct (asked axis k) as [|[|n]]; [lia|lia|]. rewrite Nat.mul_succ_r. lia.
  - intros n Hn. destruct (last_block T HT) as (b & r & l & Er & El & _). unfold plot_vel, plot_times. rewrite Er, El. cbn [bind].
    rewrite (proj2 (Z.ltb_lt _ _) Hn). reflexivity.
  - intros s Hn. unfold plot_vel, plot_times. destruct (str_eqb s (S_ "constrained")) eqn:E; [apply str_eqb_true in E; contradiction | reflexivity].
Qed.

(** * C96: lines and crosses *)
(** Vertical lines stand at the ends of all blocks and segments, as asked, and
    with show_jv at the end of every block a cross at the speed with which the
    firmware allows to leave it, and one for every axis at its part of the
    velocity.  Nothing else is marked. *)
Theorem C96_marks axis sb ss sj steps p items : plan_items s0 states items -> plot_vel bl axis sb ss sj steps = Ok p ->
  (forall t, In (BlockLine t) (vp_marks p) <-> sb = true /\ exists b, In b bl /\ block_end b t) /\
  (forall t, In (SegmentLine t) (vp_marks p) <-> ss = true /\ exists s, In s (unpack_blocklist bl) /\ t = t_end s) /\
  (forall t y, In (Cross t y) (vp_marks p) <->
     sj = true /\ exists b i, In (b, i) (combine bl items) /\ block_end b t /\ leaving_speed fw i y) /\
  (forall t y, In (AxisCross t y) (vp_marks p) <->
     sj = true /\ exists b i v ax f, In (b, i) (combine bl items) /\ block_end b t /\ leaving_velocity fw i v /\
                  In ax axis /\ names_axis ax f /\ y = f v).
Proof.
  intros Hi Hp.
  assert (Ha : Forall an_axis axis).
  { unfold plot_vel in Hp. destruct (plot_times bl steps) as [times|]; [|discriminate]. cbn [bind] in Hp.
    destruct (gather _ _ _ _ _ _ _) as [[[pos vel] abs]|]; [|discriminate]. cbn [bind] in Hp.
    destruct (block_marks sb ss sj axis bl) as [ms|]; [|discriminate]. cbn [bind] in Hp.
    destruct (curves axis times pos vel) as [cs|] eqn:E; [|discriminate]. clear Hp. revert cs E.
    induction axis as [|ax axis' IH]; intros cs E; [constructor|]. cbn [curves] in E.
    destruct (axis_index ax) as [k|] eqn:Ek; [|discriminate]. cbn [bind] in E.
    destruct (_ =? _)%nat; [|discriminate]. destruct (_ =? _)%nat; [|discriminate].
    destruct (curves axis' times pos vel) as [cs'|]; [|discriminate]. constructor; [exact (axis_index_known _ _ Ek) | exact (IH _ eq_refl)]. }
  destruct (marks_ok sb ss sj axis Ha bl (sim_nonempty fw s0 states bl wn Hv Hs)) as (ms & Em & I).
  assert (E : vp_marks p = ms).
  { unfold plot_vel in Hp. destruct (plot_times bl steps) as [times|]; [|discriminate]. cbn [bind] in Hp.
    destruct (gather _ _ _ _ _ _ _) as [[[pos vel] abs]|]; [|discriminate]. cbn [bind] in Hp. rewrite Em in Hp. cbn [bind] in Hp.
    destruct (curves axis times pos vel) as [cs|]; [|discriminate]. injection Hp as <-. reflexivity. }
  rewrite E. clear E Hp.
  pose proof (sim_leaving fw s0 states bl wn items Hv Hs Hi) as L.
  assert (L1 : forall b, In b bl -> exists i, In (b, i) (combine bl items)).
  { clear - L. induction L as [|b i bl items H L IH]; intros b' Hb; [destruct Hb|]. destruct Hb as [<-|Hb]; [exists i; left; reflexivity|].
    destruct (IH _ Hb) as (j & Hj). exists j. right. exact Hj. }
  assert (L2 : forall b i, In (b, i) (combine bl items) -> leaving_velocity fw i (b_JD b) /\ leaving_speed fw i (norm3 (b_JD b))).
  { clear - L. induction L as [|b i bl items H L IH]; intros b' i' Hb; [destruct Hb|]. destruct Hb as [Hb|Hb]; [injection Hb as <- <-; tauto | exact (IH _ _ Hb)]. }
  split; [|split; [|split]].
  - intros t. rewrite I. split.
    + intros (b & t' & Hb & Ht & [[-> E]|[[_ (s & _ & E)]|[[_ E]|[_ (ax & f & _ & _ & E)]]]]); try discriminate E.
      injection E as ->. split; [reflexivity|]. exists b. auto.
    + intros (-> & b & Hb & Ht). exists b, t. auto.
  - intros t. rewrite I. split.
    + intros (b & t' & Hb & Ht & [[_ E]|[[-> (s & Hin & E)]|[[_ E]|[_ (ax & f & _ & _ & E)]]]]); try discriminate E.
      injection E as ->. split; [reflexivity|]. exists s. split; [|reflexivity]. unfold unpack_blocklist. apply in_flat_map. exists b. auto.
    + intros (-> & s & Hin & ->). unfold unpack_blocklist in Hin. apply in_flat_map in Hin. destruct Hin as (b & Hb & Hin).
      assert (T : exists t, block_end b t).
      { destruct (exists_last (sim_nonempty fw s0 states bl wn Hv Hs b Hb)) as (pre & l & El). exists (t_end l), pre, l. auto. }
      destruct T as (t & Ht). exists b, t. split; [exact Hb|]. split; [exact Ht|]. right. left. split; [reflexivity|]. exists s. auto.
  - intros t y. rewrite I. split.
    + intros (b & t' & Hb & Ht & [[_ E]|[[_ (s & _ & E)]|[[-> E]|[_ (ax & f & _ & _ & E)]]]]); try discriminate E.
      injection E as -> ->. split; [reflexivity|]. destruct (L1 b Hb) as (i & Hbi). exists b, i. split; [exact Hbi|]. split; [exact Ht|]. exact (proj2 (L2 _ _ Hbi)).
    + intros (-> & b & i & Hbi & Ht & Hy). exists b, t. split; [exact (in_combine_l _ _ _ _ Hbi)|]. split; [exact Ht|]. right. right. left.
      split; [reflexivity|]. f_equal. destruct (L2 _ _ Hbi) as [_ Hy']. destruct i as [[A B] rest].
      destruct Hy as [[N1 ->]|[N1 ->]], Hy' as [[N2 ->]|[N2 ->]]; congruence || reflexivity.
  - intros t y. rewrite I. split.
    + intros (b & t' & Hb & Ht & [[_ E]|[[_ (s & _ & E)]|[[_ E]|[-> (ax & f & Hax & Hf & E)]]]]); try discriminate E.
      injection E as -> ->. split; [reflexivity|]. destruct (L1 b Hb) as (i & Hbi). exists b, i, (b_JD b), ax, f.
      split; [exact Hbi|]. split; [exact Ht|]. split; [exact (proj1 (L2 _ _ Hbi))|]. auto.
    + intros (-> & b & i & v & ax & f & Hbi & Ht & Hv' & Hax & Hf & ->). exists b, t. split; [exact (in_combine_l _ _ _ _ Hbi)|]. split; [exact Ht|].
      right. right. right. split; [reflexivity|]. exists ax, f. split; [exact Hax|]. split; [exact Hf|].
      rewrite (leaving_fun _ _ _ _ Hv' (proj1 (L2 _ _ Hbi))). reflexivity.
Qed.
(** The print never leaves a block faster than its cross. *)
Theorem C96_not_below b i items y : plan_items s0 states items -> In (b, i) (combine bl items) -> leaving_speed fw i y ->
  b_A b = fst (fst i) /\ b_B b = snd (fst i) /\ ends (fun s => norm3 (vel_end s) <= y) (b_segs b).
Proof.
  intros Hi Hbi Hy. pose proof (sim_leaving fw s0 states bl wn items Hv Hs Hi) as L.
  assert (L2 : forall b i, In (b, i) (combine bl items) -> b_A b = fst (fst i) /\ b_B b = snd (fst i) /\ leaving_speed fw i (norm3 (b_JD b))).
  { clear - L. induction L as [|b i bl items H L IH]; intros b' i' Hb; [destruct Hb|]. destruct Hb as [Hb|Hb]; [injection Hb as <- <-; tauto | exact (IH _ _ Hb)]. }
  destruct (L2 _ _ Hbi) as (E1 & E2 & Hy'). split; [exact E1|]. split; [exact E2|].
  replace y with (norm3 (b_JD b)).
  - destruct (simulate_fchain _ _ _ _ _ Hv Hs) as (wl & Hf).
    destruct (fchain_in _ _ _ _ _ _ Hf b (in_combine_l _ _ _ _ Hbi)) as (? & ? & ? & ? & ? & ? & Hwf).
    destruct (wf_cap _ _ _ _ _ _ _ Hwf) as (l & k & d & Hl & _ & Hk & Hn). apply (ends_of_last _ _ Hl). lra.
  - destruct i as [[A B] rest]. destruct Hy as [[N1 ->]|[N1 ->]], Hy' as [[N2 ->]|[N2 ->]]; congruence || reflexivity.
Qed.
End Sim.

(** The print can be slower than the cross: a corner straight on, after which
    only 0.05 mm are left to stop, is marked at 10 mm/s and passed with hardly
    more than 1 mm/s. *)
Definition run_start : kstate := xstate 0 10 10 1 None.
Definition run_mid : kstate := xstate 10 10 10 1 None.
Definition run_end : kstate := xstate (201 / 20) 10 10 1 None.
Lemma run_valid : valid_program run_start [run_mid; run_end].
Proof.
  split; [|split].
  - repeat (apply Forall_cons; [split; [simpl; lra|]; split; [simpl; lra|]; split; [simpl; lra|]; intros p Hp; discriminate Hp|]). apply Forall_nil.
  - reflexivity.
  - simpl. split; [reflexivity|]. left. intros E. apply (f_equal vx) in E. simpl in E. lra.
Qed.
Lemma run_items : plan_items run_start [run_mid; run_end] [(run_start, run_mid, [run_end]); (run_mid, run_end, [])].
Proof. apply pi_item; [left; intros E; apply (f_equal vx) in E; simpl in E; lra|]. apply pi_item; [left; intros E; apply (f_equal vx) in E; simpl in E; lra|]. constructor. Qed.
Lemma swift_back a vt L v0 v1 T : 0 < a -> 0 <= v0 -> swift a vt L v0 v1 T -> v0 * v0 <= v1 * v1 + 2 * a * L.
Proof.
  intros Ha Hv (vp & c & H0 & _ & Hc & Hp & _ & _ & -> & _).
  replace (2 * a * ((vp * vp - v0 * v0) / (2 * a) + c + (vp * vp - v1 * v1) / (2 * a)))
    with (vp * vp - v0 * v0 + 2 * a * c + (vp * vp - v1 * v1)) by (field; lra).
  assert (0 <= a * c) by (apply Rmult_le_pos; lra). nra.
Qed.
Theorem C96_can_be_above : exists s0 states bl items b i y,
  valid_program s0 states /\ simulate MarlinJD (s0 :: states) = Ok (bl, false) /\ plan_items s0 states items /\
  In (b, i) (combine bl items) /\ leaving_speed MarlinJD i y /\ ends (fun s => norm3 (vel_end s) < y) (b_segs b).
Proof.
  destruct (simulation_succeeds MarlinJD _ _ run_valid) as (bl & Hs).
  pose proof (sim_leaving _ _ _ _ _ _ run_valid Hs run_items) as L.
  inversion L as [|b1 i1 bl' its (_ & _ & _ & _) L' E1 E2]; subst. inversion L' as [|b2 i2 bl'' its' (A2 & B2 & _ & Y2) L'' E1 E2]; subst.
  inversion L''; subst. cbn [fst snd] in A2, B2.
  exists run_start, [run_mid; run_end], [b1; b2], [(run_start, run_mid, [run_end]); (run_mid, run_end, [])], b1, (run_start, run_mid, [run_end]), 10.
  split; [exact run_valid|]. split; [exact Hs|]. split; [exact run_items|]. split; [left; reflexivity|].
  assert (Hc : corner run_start run_mid [run_end] run_end).
  { assert (N1 : norm3 (travel run_start run_mid) = 10) by (apply norm3_unique; simpl; lra).
    assert (N2 : norm3 (travel run_mid run_end) = 1 / 20) by (apply norm3_unique; simpl; lra).
    constructor; [|rewrite N1; lra|rewrite N2; lra|simpl; lra|simpl; lra]. apply ns_here. intros E. apply (f_equal vx) in E. simpl in E. lra. }
  split.
  { right. split; [reflexivity|]. rewrite (C38_straight_partial _ _ _ _ (1 / 200) Hc); [reflexivity|simpl; lra|lra|simpl; lra..]. }
  assert (Hz : corner_speed MarlinJD run_mid run_end [] = 0).
  { apply (C88_stops MarlinJD run_mid run_end []); [simpl; lra|simpl; lra|intros s []|left; constructor|discriminate]. }
  destruct (simulate_fchain _ _ _ _ _ run_valid Hs) as (wl & Hf).
  inversion Hf as [|? ? ? ? ? t1 p1 s1 e1 w1 ? wl1 W1 Q1 R1 F1 X1 Z1 Hf1]; subst.
  inversion Hf1 as [|? ? ? ? ? t2 p2 s2 e2 w2 ? wl2 W2 Q2 R2 F2 X2 Z2 Hf2]; subst.
  destruct (wf_last _ _ _ _ _ _ _ W1) as (l & Hl & _ & _ & El). apply (ends_of_last _ _ Hl). rewrite El.
  assert (HY : norm3 (b_JD b2) = 0) by (destruct Y2 as [[N _]|[_ ->]]; [destruct N; reflexivity | exact Hz]).
  assert (S2 : s2 <= 1).
  { inversion W2 as [t p t' v0 v1 d eo dist Hp Hd Hdir Hmd Hpos Hsc Ha Hsp Hne Hm Hen Hcap G1 G2 G3 G4 G5 G6 | t p dt Hp Hdt Hsp Hsegs G1 G2 G3 G4 G5 G6]; [|lra].
    destruct (motion_speed_range _ _ _ _ _ _ _ _ _ _ Hm Hne) as [K1 K2]. rewrite (move_distance_length _ _ _ _ Hmd) in *.
    pose proof (swift_back _ _ _ _ _ _ Ha (proj1 K1) Hen) as K. rewrite A2, B2 in K.
    assert (ML : move_length run_mid run_end = 1 / 20).
    { unfold move_length. assert (E : norm3 (vsub (k_pos run_end) (k_pos run_mid)) = 1 / 20) by (apply norm3_unique; simpl; lra).
      rewrite E. destruct (Req_EM_T (1 / 20) 0); [lra|reflexivity]. }
    rewrite ML in K. cbn [k_acc run_end xstate] in K. assert (v1 = 0) by lra. subst v1. destruct eo; [lra|]. nra. }
  unfold tol in *. lra.
Qed.
(** The plot of that print, all marks drawn, and a wrong axis. *)
Example C96_case : exists bl T p, simulate MarlinJD (run_start :: [run_mid; run_end]) = Ok (bl, false) /\ print_time bl T /\
  plot_vel bl [S_ "x"; S_ "e"] true true true (StepCount 5) = Ok p /\ length (vp_curves p) = 2%nat /\
  (exists t, In (Cross t 10) (vp_marks p)) /\ plot_vel bl [S_ "X"] true true true (StepCount 5) = Err KeyError.
Proof.
  destruct (simulation_succeeds MarlinJD _ _ run_valid) as (bl & Hs).
  assert (Hne : unpack_blocklist bl <> []).
  { refine (proj2 (print_summary_ok _ _ _ _ _ run_valid Hs _)). exists run_mid. split; [left; reflexivity|]. intros E. apply (f_equal vx) in E. simpl in E. lra. }
  destruct (print_time_exists _ Hne) as (T & HT).
  assert (Ha : Forall an_axis [S_ "x"; S_ "e"]) by (repeat constructor; eexists; constructor).
  assert (Hd : NoDup [S_ "x"; S_ "e"]) by (repeat constructor; [intros [E|[]]; discriminate E | intros []]).
  destruct (C64_curves _ _ _ _ _ run_valid Hs T [S_ "x"; S_ "e"] true true true (StepCount 5) _ HT (ta_steps bl T 5) Ha Hd) as (p & vals & Hp & _ & _ & Hc & _).
  exists bl, T, p. split; [exact Hs|]. split; [exact HT|]. split; [exact Hp|].
  split; [inversion Hc as [|? ? ? ? _ Hc1 E1 E2]; subst; inversion Hc1 as [|? ? ? ? _ Hc2 E3 E4]; subst; inversion Hc2; reflexivity|]. split.
  - destruct (C96_marks _ _ _ _ _ run_valid Hs _ _ _ _ _ _ _ run_items Hp) as (_ & _ & H & _).
    pose proof (sim_leaving _ _ _ _ _ _ run_valid Hs run_items) as L.
    inversion L as [|b1 i1 bl' its (_ & _ & _ & _) L' E1 E2]; subst.
    destruct (exists_last (sim_nonempty _ _ _ _ _ run_valid Hs b1 (or_introl eq_refl))) as (pre & l & El).
    exists (t_end l). apply H. split; [reflexivity|]. exists b1, (run_start, run_mid, [run_end]). split; [left; reflexivity|].
    split; [exists pre, l; auto|]. right. split; [reflexivity|].
    assert (Hc' : corner run_start run_mid [run_end] run_end).
    { assert (N1 : norm3 (travel run_start run_mid) = 10) by (apply norm3_unique; simpl; lra).
      assert (N2 : norm3 (travel run_mid run_end) = 1 / 20) by (apply norm3_unique; simpl; lra).
      constructor; [|rewrite N1; lra|rewrite N2; lra|simpl; lra|simpl; lra]. apply ns_here. intros E. apply (f_equal vx) in E. simpl in E. lra. }
    rewrite (C38_straight_partial _ _ _ _ (1 / 200) Hc'); [reflexivity|simpl; lra|lra|simpl; lra..].
  - apply (proj1 (C64_errors _ _ _ _ _ run_valid Hs T [S_ "X"] true true true (StepCount 5) _ HT) (ta_steps bl T 5)).
    intros H. inversion H as [|? ? (f & Hf) _]; subst. inversion Hf.
Qed.

Print Assumptions C64_curves.
Print Assumptions C64_errors.
Print Assumptions C96_marks.
Print Assumptions C96_not_below.
Print Assumptions C96_can_be_above.
