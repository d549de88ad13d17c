(** Properties C36-C39 and C63: the corner speeds of the firmwares.
    Vocabulary: SpecJunction.v. *)
From Coq Require Import Lra.
From Verif Require Import Py Vec Segment Junction RealFacts SpecJunction JunctionProofs CornerProofs.
Open Scope R_scope.

(** A concrete right angle: along X, a line that does not move, then along Y. *)
Definition ex_A : kstate := KState (V4 0 0 0 0) 20 500 8 None None.
Definition ex_B : kstate := KState (V4 10 0 0 1) 20 500 8 None None.
Definition ex_N : kstate := KState (V4 10 5 0 2) 20 500 8 None None.
Example ex_corner : corner ex_A ex_B [ex_B; ex_N] ex_N.
Proof.
  assert (N1 : norm3 (travel ex_A ex_B) = 10) by (apply norm3_unique; simpl; lra).
  assert (N2 : norm3 (travel ex_B ex_N) = 5) by (apply norm3_unique; simpl; lra).
  constructor; try (simpl; lra).
  apply ns_skip; [reflexivity|]. apply ns_here. intros E. apply (f_equal vy) in E. simpl in E. lra.
Qed.

(** * C36 *)
Theorem C36_right_angle A B rest N : corner A B rest N -> 0 < k_acc B -> 0 <= k_jerk B ->
  dot3 (travel A B) (travel B N) = 0 ->
  corner_speed Klipper A B rest = Rmin (Rmin (k_jerk B) (sqrt (norm3 (travel B N) * k_acc B / 2))) (k_speed B).
Proof.
  intros H Ha Hj H0. rewrite (corner_klipper A B rest N H).
  replace (cosang (travel A B) (travel B N)) with 0 by (unfold cosang; rewrite H0; unfold Rdiv; ring).
  apply klipper_right_angle; [exact Ha|exact Hj|apply H].
Qed.
Theorem C36_reversal A B rest N k : corner A B rest N -> 0 < k ->
  vx (travel B N) = - k * vx (travel A B) -> vy (travel B N) = - k * vy (travel A B) -> vz (travel B N) = - k * vz (travel A B) ->
  corner_speed Klipper A B rest = 0.
Proof.
  intros H Hk Hx Hy Hz. rewrite (corner_klipper A B rest N H).
  destruct (cosang_parallel (travel A B) (travel B N) (- k)) as [-> _]; try assumption; [lra|apply H|].
  replace (- k / Rabs (- k)) with (-1) by (rewrite Rabs_left by lra; field; lra). apply klipper_reversal.
Qed.
(** It does not decrease with square corner velocity, speed, length of the next
    move, or when the corner gets flatter. *)
Theorem C36_monotone A B rest N A' B' rest' N' : corner A B rest N -> corner A' B' rest' N' ->
  0 < k_acc B -> k_acc B = k_acc B' -> 0 <= k_jerk B <= k_jerk B' -> k_speed B <= k_speed B' ->
  norm3 (travel B N) <= norm3 (travel B' N') ->
  cosang (travel A B) (travel B N) <= cosang (travel A' B') (travel B' N') ->
  corner_speed Klipper A B rest <= corner_speed Klipper A' B' rest'.
Proof.
  intros H H' Ha Ea Hj Hs Hd Hc. rewrite (corner_klipper A B rest N H), (corner_klipper A' B' rest' N' H'), <- Ea.
  pose proof (cosang_bounds _ _ (co_in _ _ _ _ H) (co_out _ _ _ _ H)) as C1.
  pose proof (cosang_bounds _ _ (co_in _ _ _ _ H') (co_out _ _ _ _ H')) as C2.
  pose proof (co_vB _ _ _ _ H). pose proof (norm3_nonneg (travel B N)).
  apply klipper_mono; lra.
Qed.
Example C36_case : corner_speed Klipper ex_A ex_B [ex_B; ex_N] = 8.
Proof.
  rewrite (C36_right_angle _ _ _ _ ex_corner); [|simpl; lra|simpl; lra|simpl; unfold dot3; simpl; lra].
  replace (norm3 (travel ex_B ex_N)) with 5 by (symmetry; apply norm3_unique; simpl; lra). cbn [k_jerk k_acc k_speed ex_B].
  assert (20 <= sqrt (5 * 500 / 2)) by (apply le_sqrt_sq; lra).
  rewrite (Rmin_left 8) by lra. apply Rmin_left. lra.
Qed.

(** * C37 *)
(** For a positive jerk setting the jump is at most twice the setting, four
    times if the two moves have different speeds, and the speed grows with it. *)
Theorem C37_jump_partial A B rest N : corner A B rest N -> 0 < k_jerk B -> k_speed B = k_speed N ->
  let v := corner_speed MarlinJerk A B rest in
  norm3 (vsub (vscale v (unit3 (travel A B))) (vscale v (unit3 (travel B N)))) <= 2 * k_jerk B.
Proof. intros H Hj Hs. apply jerk_jump; [exact H|exact Hj|left; split; [reflexivity|exact Hs]]. Qed.
Theorem C37_jump_any_speeds_partial A B rest N : corner A B rest N -> 0 < k_jerk B ->
  let v := corner_speed MarlinJerk A B rest in
  norm3 (vsub (vscale v (unit3 (travel A B))) (vscale v (unit3 (travel B N)))) <= 4 * k_jerk B.
Proof. intros H Hj. apply jerk_jump; [exact H|exact Hj|right; reflexivity]. Qed.
Definition with_jerk (j : R) (s : kstate) : kstate := KState (k_pos s) (k_speed s) (k_acc s) j (k_pause s) (k_layer s).
Theorem C37_monotone_partial A B rest N j j' : corner A B rest N -> 0 < j <= j' ->
  corner_speed MarlinJerk A (with_jerk j B) rest <= corner_speed MarlinJerk A (with_jerk j' B) rest.
Proof.
  intros H Hj. unfold corner_speed, junction_vel, mk_junction. cbn [target_vel vel_next connect_state_opt with_jerk k_jerk].
  assert (F : forall j, find_next_state (with_jerk j B) rest = N).
  { intros x. apply next_stop_find. pose proof (co_next _ _ _ _ H) as Q. clear -Q. induction Q; [apply ns_here|apply ns_skip]; assumption. }
  rewrite !F. apply calc_jerk_mono. exact Hj.
Qed.
(** With jerk 0 both claims fail: the corner is passed at full speed. *)
Theorem C37_zero_jerk_refuted : exists A B rest N, corner A B rest N /\ k_speed B = k_speed N /\ k_jerk B = 0 /\
  (let v := corner_speed MarlinJerk A B rest in
   2 * k_jerk B < norm3 (vsub (vscale v (unit3 (travel A B))) (vscale v (unit3 (travel B N))))) /\
  corner_speed MarlinJerk A (with_jerk 1 B) rest < corner_speed MarlinJerk A B rest.
Proof.
  set (B := with_jerk 0 ex_B). exists ex_A, B, [ex_N], ex_N.
  assert (N1 : norm3 (travel ex_A B) = 10) by (apply norm3_unique; simpl; lra).
  assert (N2 : norm3 (travel B ex_N) = 5) by (apply norm3_unique; simpl; lra).
  assert (Hc : next_stop B [ex_N] ex_N) by (apply ns_here; intros E; apply (f_equal vy) in E; simpl in E; lra).
  assert (Hc1 : next_stop (with_jerk 1 B) [ex_N] ex_N) by (apply ns_here; intros E; apply (f_equal vy) in E; simpl in E; lra).
  assert (V0 : connect_state ex_A B = V4 20 0 0 2).
  { rewrite connect_nominal by lra. unfold nominal, unit3. rewrite N1. apply vec4_ext; simpl; field. }
  assert (V1 : connect_state B ex_N = V4 0 20 0 4).
  { rewrite connect_nominal by lra. unfold nominal, unit3. rewrite N2. apply vec4_ext; simpl; field. }
  assert (V2 : norm3 (V4 20 0 0 2) = 20) by (apply norm3_unique; simpl; lra).
  assert (V3 : norm3 (vsub (V4 20 0 0 2) (V4 0 20 0 4)) > 20) by (apply lt_sqrt_sq; simpl; lra).
  assert (C0 : corner_speed MarlinJerk ex_A B [ex_N] = 20).
  { unfold corner_speed, junction_vel, mk_junction. cbn [target_vel vel_next connect_state_opt].
    rewrite (next_stop_find _ _ _ Hc), V0, V1. unfold calc_jerk. cbn [k_jerk B with_jerk].
    rewrite Rltb_false by lra. rewrite Rleb_false by lra. exact V2. }
  split; [constructor; [exact Hc|lra|lra|simpl; lra|simpl; lra]|]. split; [reflexivity|]. split; [reflexivity|]. split.
  - cbv zeta. rewrite C0. cbn [k_jerk B with_jerk]. rewrite Rmult_0_r. rewrite vscale_vsub, norm3_scale_pos by lra.
    apply Rmult_lt_0_compat; [lra|]. unfold unit3. rewrite N1, N2. apply lt_sqrt_sq; [lra|]. simpl. lra.
  - rewrite C0. unfold corner_speed, junction_vel, mk_junction. cbn [target_vel vel_next connect_state_opt].
    rewrite (next_stop_find _ _ _ Hc1).
    change (connect_state ex_A (with_jerk 1 B)) with (connect_state ex_A B).
    change (connect_state (with_jerk 1 B) ex_N) with (connect_state B ex_N). rewrite V0, V1. unfold calc_jerk.
    cbn [k_jerk with_jerk]. rewrite Rltb_true by lra. set (d := norm3 (vsub _ _)) in *.
    rewrite Rleb_true by (unfold Rdiv; lra). rewrite vdiv_norm3 by lra. rewrite V2.
    apply Rmult_lt_reg_r with (d / (1 * 2)); [lra|]. unfold Rdiv at 1. rewrite Rmult_assoc, Rinv_l by lra. lra.
Qed.

(** * C38 *)
Theorem C38_straight_partial A B rest N k : corner A B rest N -> k_jerk B <> 0 -> 0 < k ->
  vx (travel B N) = k * vx (travel A B) -> vy (travel B N) = k * vy (travel A B) -> vz (travel B N) = k * vz (travel A B) ->
  corner_speed MarlinJD A B rest = k_speed B.
Proof.
  intros H Hj Hk Hx Hy Hz. rewrite (corner_jd A B rest N H).
  destruct (cosang_parallel (travel A B) (travel B N) k) as [-> _]; try assumption; [lra|apply H|].
  replace (k / Rabs k) with 1 by (rewrite Rabs_right by lra; field; lra). apply jd_straight. exact Hj.
Qed.
Theorem C38_reversal A B rest N k : corner A B rest N -> 0 < k ->
  vx (travel B N) = - k * vx (travel A B) -> vy (travel B N) = - k * vy (travel A B) -> vz (travel B N) = - k * vz (travel A B) ->
  corner_speed MarlinJD A B rest = 0.
Proof.
  intros H Hk Hx Hy Hz. rewrite (corner_jd A B rest N H).
  destruct (cosang_parallel (travel A B) (travel B N) (- k)) as [-> _]; try assumption; [lra|apply H|].
  replace (- k / Rabs (- k)) with (-1) by (rewrite Rabs_left by lra; field; lra). apply jd_reversal.
Qed.
Theorem C38_monotone A B rest N A' B' rest' N' : corner A B rest N -> corner A' B' rest' N' ->
  0 < k_acc B -> k_acc B = k_acc B' -> 0 <= k_jerk B <= k_jerk B' -> k_speed B <= k_speed B' ->
  cosang (travel A B) (travel B N) <= cosang (travel A' B') (travel B' N') ->
  corner_speed MarlinJD A B rest <= corner_speed MarlinJD A' B' rest'.
Proof.
  intros H H' Ha Ea Hj Hs Hc. rewrite (corner_jd A B rest N H), (corner_jd A' B' rest' N' H'), <- Ea.
  pose proof (cosang_bounds _ _ (co_in _ _ _ _ H) (co_out _ _ _ _ H)) as C1.
  pose proof (cosang_bounds _ _ (co_in _ _ _ _ H') (co_out _ _ _ _ H')) as C2.
  pose proof (co_vB _ _ _ _ H). apply jd_mono; lra.
Qed.
(** With jerk 0 also a straight continuation is a full stop. *)
Theorem C38_zero_jerk_refuted : exists A B rest N, corner A B rest N /\ travel B N = travel A B /\ k_jerk B = 0 /\
  0 < k_speed B /\ corner_speed MarlinJD A B rest = 0.
Proof.
  set (B := with_jerk 0 ex_B). set (N := KState (V4 20 0 0 2) 20 500 8 None None). exists ex_A, B, [N], N.
  assert (N1 : norm3 (travel ex_A B) = 10) by (apply norm3_unique; simpl; lra).
  assert (N2 : norm3 (travel B N) = 10) by (apply norm3_unique; simpl; lra).
  assert (Hc : corner ex_A B [N] N).
  { constructor; try (simpl; lra). apply ns_here. intros E. apply (f_equal vx) in E. simpl in E. lra. }
  split; [exact Hc|]. split; [apply vec4_ext; simpl; lra|]. split; [reflexivity|]. split; [simpl; lra|].
  rewrite (corner_jd _ _ _ _ Hc). unfold JD_of. cbn [k_jerk B with_jerk]. rewrite Reqb_refl. reflexivity.
Qed.

(** * C39 *)
Theorem C39_not_faster_than_either A B rest N : corner A B rest N -> 0 <= k_jerk B ->
  0 <= corner_speed MKA A B rest <= Rmin (k_speed B) (k_speed N).
Proof.
  intros [Hn Hi Ho HB HN] Hj. unfold corner_speed, junction_vel, mk_junction. cbn [target_vel vel_next connect_state_opt].
  rewrite (next_stop_find _ _ _ Hn), !connect_nominal by assumption.
  pose proof (calc_mka_bounds (nominal A B) (nominal B N) (k_jerk B) Hj) as Q. rewrite !nominal_norm in Q by assumption. exact Q.
Qed.
(** If no axis changes by more than jerk and the next move is not slower. *)
Theorem C39_no_slowdown_partial A B rest N : corner A B rest N -> k_speed B <= k_speed N ->
  Rabs (vx (nominal B N) - vx (nominal A B)) <= k_jerk B -> Rabs (vy (nominal B N) - vy (nominal A B)) <= k_jerk B ->
  Rabs (vz (nominal B N) - vz (nominal A B)) <= k_jerk B -> Rabs (ve (nominal B N) - ve (nominal A B)) <= k_jerk B ->
  corner_speed MKA A B rest = Rmin (k_speed B) (k_speed N).
Proof.
  intros [Hn Hi Ho HB HN] Hs Hx Hy Hz He. unfold corner_speed, junction_vel, mk_junction. cbn [target_vel vel_next connect_state_opt].
  rewrite (next_stop_find _ _ _ Hn), !connect_nominal by assumption.
  rewrite (mka_full _ _ _); rewrite ?nominal_norm; assumption || reflexivity.
Qed.
Theorem C39_zero_jerk A B rest N : corner A B rest N -> k_jerk B = 0 -> nominal A B <> nominal B N ->
  corner_speed MKA A B rest = 0.
Proof.
  intros [Hn Hi Ho HB HN] Hj Hd. unfold corner_speed, junction_vel, mk_junction. cbn [target_vel vel_next connect_state_opt].
  rewrite (next_stop_find _ _ _ Hn), !connect_nominal by assumption. rewrite Hj. apply mka_no_jerk. exact Hd.
Qed.
(** If the next move is slower the claim fails: straight on, from 100 to 95
    mm/s with jerk 6, the corner is passed below 95 mm/s. *)
Theorem C39_slower_next_refuted : exists A B rest N, corner A B rest N /\
  Rabs (vx (nominal B N) - vx (nominal A B)) <= k_jerk B /\ Rabs (vy (nominal B N) - vy (nominal A B)) <= k_jerk B /\
  Rabs (vz (nominal B N) - vz (nominal A B)) <= k_jerk B /\ Rabs (ve (nominal B N) - ve (nominal A B)) <= k_jerk B /\
  corner_speed MKA A B rest < Rmin (k_speed B) (k_speed N).
Proof.
  set (A := KState (V4 0 0 0 0) 100 500 6 None None). set (B := KState (V4 10 0 0 0) 100 500 6 None None).
  set (N := KState (V4 20 0 0 0) 95 500 6 None None). exists A, B, [N], N.
  assert (N1 : norm3 (travel A B) = 10) by (apply norm3_unique; simpl; lra).
  assert (N2 : norm3 (travel B N) = 10) by (apply norm3_unique; simpl; lra).
  assert (Hc : corner A B [N] N).
  { constructor; try (simpl; lra). apply ns_here. intros E. apply (f_equal vx) in E. simpl in E. lra. }
  assert (V0 : nominal A B = V4 100 0 0 0) by (unfold nominal, unit3; rewrite N1; apply vec4_ext; simpl; field).
  assert (V1 : nominal B N = V4 95 0 0 0) by (unfold nominal, unit3; rewrite N2; apply vec4_ext; simpl; field).
  split; [exact Hc|]. rewrite V0, V1. cbn [vx vy vz ve k_jerk B].
  replace (0 - 0) with 0 by ring. rewrite Rabs_R0. rewrite Rabs_left by lra.
  split; [lra|]. split; [lra|]. split; [lra|]. split; [lra|].
  unfold corner_speed, junction_vel, mk_junction. cbn [target_vel vel_next connect_state_opt].
  rewrite (next_stop_find _ _ _ (co_next _ _ _ _ Hc)), !connect_nominal by lra. rewrite V0, V1.
  unfold calc_mka. replace (norm3 (V4 100 0 0 0)) with 100 by (symmetry; apply norm3_unique; simpl; lra).
  replace (norm3 (V4 95 0 0 0)) with 95 by (symmetry; apply norm3_unique; simpl; lra).
  cbn [k_speed k_jerk B N]. rewrite !Rmin_right by lra. rewrite Rltb_true by lra. cbn [fold_left vx vy vz ve].
  unfold mka_axis at 4.
  assert (J1 : mka_jerk 100 (95 * (95 / 100)) = 975 / 100).
  { unfold mka_jerk. rewrite Rltb_false by lra. rewrite Rltb_false by lra. rewrite Rltb_true by lra. cbn [orb]. field. }
  rewrite J1. rewrite Rltb_true by lra. set (q := 1 * (6 / (975 / 100))).
  assert (J3 : mka_jerk (0 * q) (0 * (95 / 100) * q) = 0).
  { unfold mka_jerk. replace (0 * q) with 0 by ring. replace (0 * (95 / 100) * q) with 0 by ring.
    rewrite !Rltb_false by lra. cbn [orb]. rewrite Rmax_right by lra. reflexivity. }
  unfold mka_axis. rewrite !J3. rewrite !Rltb_false by lra. cbn [fst]. unfold q. lra.
Qed.
Example C39_case : exists A B rest N, corner A B rest N /\ k_jerk B = 0 /\ nominal A B <> nominal B N.
Proof.
  set (B := with_jerk 0 ex_B). exists ex_A, B, [ex_N], ex_N.
  assert (N1 : norm3 (travel ex_A B) = 10) by (apply norm3_unique; simpl; lra).
  assert (N2 : norm3 (travel B ex_N) = 5) by (apply norm3_unique; simpl; lra).
  split; [constructor; try (simpl; lra); apply ns_here; intros E; apply (f_equal vy) in E; simpl in E; lra|].
  split; [reflexivity|]. unfold nominal, unit3. rewrite N1, N2. intros E. apply (f_equal vx) in E. simpl in E. lra.
Qed.

(** * C63 *)
(** An axis-parallel right angle at one speed v > jerk: jerk is the largest
    corner speed at which no axis jumps by more than jerk, but the code
    multiplies its factor in again for every following axis. *)
Definition along_x_then_y (v jerk : R) (A B N : kstate) : Prop :=
  (exists l, 0 < l /\ travel A B = V4 l 0 0 0) /\ (exists l, 0 < l /\ travel B N = V4 0 l 0 0) /\
  k_speed B = v /\ k_speed N = v /\ k_jerk B = jerk.
Theorem C63_mka_right_angle_partial v jerk A B rest N : corner A B rest N -> along_x_then_y v jerk A B N -> 0 < jerk < v ->
  corner_speed MKA A B rest = jerk * (jerk / v) * (jerk / v) * (jerk / v).
Proof.
  intros [Hn Hi Ho HB HN] ((l1 & L1 & T1) & (l2 & L2 & T2) & <- & EN & EJ) Hj.
  unfold corner_speed, junction_vel, mk_junction. cbn [target_vel vel_next connect_state_opt].
  rewrite (next_stop_find _ _ _ Hn), !connect_nominal by assumption.
  assert (N1 : norm3 (V4 l1 0 0 0) = l1) by (apply norm3_unique; simpl; lra).
  assert (N2 : norm3 (V4 0 l2 0 0) = l2) by (apply norm3_unique; simpl; lra).
  unfold nominal, unit3. rewrite T1, T2, N1, N2, EN, EJ.
  replace (vscale (k_speed B) (vdiv (V4 l1 0 0 0) l1)) with (V4 (k_speed B) 0 0 0) by (apply vec4_ext; simpl; field; lra).
  replace (vscale (k_speed B) (vdiv (V4 0 l2 0 0) l2)) with (V4 0 (k_speed B) 0 0) by (apply vec4_ext; simpl; field; lra).
  apply mka_right_angle. exact Hj.
Qed.
Theorem C63_mka_right_angle_refuted : exists A B rest N, corner A B rest N /\ along_x_then_y 100 10 A B N /\
  corner_speed MKA A B rest = 1 / 100.
Proof.
  set (A := KState (V4 0 0 0 0) 100 500 10 None None). set (B := KState (V4 10 0 0 0) 100 500 10 None None).
  set (N := KState (V4 10 5 0 0) 100 500 10 None None). exists A, B, [N], N.
  assert (N1 : norm3 (travel A B) = 10) by (apply norm3_unique; simpl; lra).
  assert (N2 : norm3 (travel B N) = 5) by (apply norm3_unique; simpl; lra).
  assert (Hc : corner A B [N] N).
  { constructor; try (simpl; lra). apply ns_here. intros E. apply (f_equal vy) in E. simpl in E. lra. }
  assert (Hx : along_x_then_y 100 10 A B N).
  { split; [exists 10; split; [lra|apply vec4_ext; simpl; lra]|]. split; [exists 5; split; [lra|apply vec4_ext; simpl; lra]|]. repeat split. }
  split; [exact Hc|]. split; [exact Hx|]. rewrite (C63_mka_right_angle_partial 100 10 A B [N] N Hc Hx) by lra. field.
Qed.

Print Assumptions C36_right_angle.
Print Assumptions C36_reversal.
Print Assumptions C36_monotone.
Print Assumptions C37_jump_partial.
Print Assumptions C37_jump_any_speeds_partial.
Print Assumptions C37_monotone_partial.
Print Assumptions C37_zero_jerk_refuted.
Print Assumptions C38_straight_partial.
Print Assumptions C38_reversal.
Print Assumptions C38_monotone.
Print Assumptions C38_zero_jerk_refuted.
Print Assumptions C39_not_faster_than_either.
Print Assumptions C39_no_slowdown_partial.
Print Assumptions C39_zero_jerk.
Print Assumptions C39_slower_next_refuted.
Print Assumptions C63_mka_right_angle_partial.
Print Assumptions C63_mka_right_angle_refuted.
