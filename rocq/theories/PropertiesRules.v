(** Properties C88 and C89: the corner speeds as formulas of the geometry.
    Vocabulary: SpecCorner.v, SpecJunction.v. *)
From Coq Require Import Reals Lra.
From Verif Require Import Py Vec Junction SpecJunction SpecCorner RealFacts JunctionProofs CornerProofs CornerFormulas PropertiesCorner.
Open Scope R_scope.

(** * C88 *)
(** Klipper: the largest speed for which neither the circle that rounds the
    corner as far off as a right angle at square corner velocity nor the circle
    that touches the next move in its middle asks for too much acceleration.
    Corners sharper than cos = 0.999999 are full stops, and flatter ones than
    cos = -0.999999 count as that flat. *)
Theorem C88_klipper A B rest N : corner A B rest N -> 0 < k_acc B -> 0 <= k_jerk B ->
  (999999 / 1000000 < cos (opening (travel A B) (travel B N)) -> corner_speed Klipper A B rest = 0) /\
  (cos (opening (travel A B) (travel B N)) <= 999999 / 1000000 ->
   forall theta delta r, 0 <= theta <= PI -> cos theta = Rmax (cos (opening (travel A B) (travel B N))) (- (999999 / 1000000)) ->
   rounds (PI / 2) delta (k_jerk B * k_jerk B / k_acc B) -> rounds theta delta r ->
   largest (fun v => 0 <= v <= k_speed B /\ v * v <= k_acc B * r /\
                     v * v <= k_acc B * (length3 (travel B N) / 2 * tan (theta / 2)))
           (corner_speed Klipper A B rest)).
Proof.
  intros H Ha Hj. pose proof H as [_ Hi Ho HB _]. rewrite (corner_klipper A B rest N H), (opening_cos _ _ Hi Ho).
  pose proof (cosang_bounds _ _ Hi Ho) as C. split.
  - intros G. apply klipper_back. exact G.
  - intros G theta delta r Ht Ec Hd Hr. apply (klipper_formula _ theta _ _ _ _ delta); try assumption; try lra. apply norm3_nonneg.
Qed.
(** Junction deviation: corners up to 18 degrees are full stops, from 162
    degrees they are no obstacle, and between the speed is the largest one that
    the circle rounding the corner by 0.4 jerk^2 / acceleration allows. *)
Theorem C88_junction_deviation A B rest N : corner A B rest N -> 0 < k_acc B -> k_jerk B <> 0 ->
  let theta := opening (travel A B) (travel B N) in
  (theta <= 18 * PI / 180 -> corner_speed MarlinJD A B rest = 0) /\
  (162 * PI / 180 <= theta -> corner_speed MarlinJD A B rest = k_speed B) /\
  (18 * PI / 180 < theta < 162 * PI / 180 -> forall r, rounds theta (4 / 10 * (k_jerk B * k_jerk B / k_acc B)) r ->
     largest (fun v => 0 <= v <= k_speed B /\ v * v <= k_acc B * r) (corner_speed MarlinJD A B rest)).
Proof.
  intros H Ha Hj. pose proof H as [_ Hi Ho HB _]. rewrite (corner_jd A B rest N H).
  pose proof (cosang_bounds _ _ Hi Ho) as C. apply jd_formula; try assumption. lra.
Qed.
(** Classic jerk: the largest speed for which the two velocities, slowed down
    together, differ by at most twice the setting. *)
Theorem C88_jerk A B rest N : corner A B rest N -> 0 < k_jerk B ->
  largest (fun v => 0 <= v <= k_speed B /\
                    length3 (vsub (vscale (v / k_speed B) (nominal A B)) (vscale (v / k_speed B) (nominal B N))) <= 2 * k_jerk B)
          (corner_speed MarlinJerk A B rest).
Proof.
  intros [Hn Hi Ho HB HN] Hj. unfold corner_speed, junction_vel, mk_junction. cbn [target_vel vel_next connect_state_opt].
  rewrite (next_stop_find _ _ _ Hn), !connect_nominal by assumption.
  apply jerk_formula; try assumption. apply nominal_norm; assumption.
Qed.
(** No firmware drives out of a move without travel, and where the program does
    not travel on all stop but classic jerk, which drives out with up to twice
    the setting. *)
Theorem C88_stops fw A B rest : 0 < k_speed B -> 0 <= k_jerk B -> (forall s, In s rest -> 0 < k_speed s) ->
  (length3 (travel A B) = 0 -> corner_speed fw A B rest = 0) /\
  (no_exit B rest -> fw <> MarlinJerk -> corner_speed fw A B rest = 0) /\
  (no_exit B rest -> 0 < length3 (travel A B) -> 0 < k_jerk B -> corner_speed MarlinJerk A B rest = Rmin (k_speed B) (2 * k_jerk B)).
Proof.
  intros Hs Hj Hr. split; [|split].
  - intros H. pose proof (junction_vel_bounds fw A B rest Hs Hj) as Q. rewrite (still_norm A B Hs H) in Q. unfold corner_speed. lra.
  - intros Hx Hf. pose proof (exit_still B rest Hs Hx Hr) as E. unfold corner_speed, junction_vel, mk_junction.
    cbn [target_vel vel_next jt_distance connect_state_opt]. destruct fw.
    + apply calc_JD_still. right. exact E.
    + apply calc_klipper_still. right. exact E.
    + contradiction.
    + pose proof (calc_mka_bounds (connect_state A B) (connect_state B (find_next_state B rest)) (k_jerk B) Hj) as Q. rewrite E in Q.
      pose proof (Rmin_r (norm3 (connect_state A B)) 0). lra.
    + reflexivity.
  - intros Hx Ht Hj0. pose proof (exit_still B rest Hs Hx Hr) as E. unfold corner_speed, junction_vel, mk_junction.
    cbn [target_vel vel_next jt_distance connect_state_opt]. change (0 < norm3 (travel A B)) in Ht.
    pose proof (nominal_norm A B Ht Hs) as En. rewrite (connect_nominal A B Ht).
    set (v1 := connect_state B (find_next_state B rest)) in *. clearbody v1.
    assert (Z : vx v1 = 0 /\ vy v1 = 0 /\ vz v1 = 0) by (pose proof (norm3_sq v1) as Q; rewrite E in Q; repeat split; nra).
    assert (Ed : norm3 (vsub (nominal A B) v1) = k_speed B).
    { rewrite <- En. destruct Z as (X & Y & Z). unfold norm3. cbn [vx vy vz vsub]. rewrite X, Y, Z, !Rminus_0_r. reflexivity. }
    unfold calc_jerk. rewrite (Rltb_true 0 (k_jerk B * 2)) by lra. rewrite Ed. cbv zeta.
    destruct (Rleb_spec 1 (k_speed B / (k_jerk B * 2))) as [H|H].
    + assert (Hle : k_jerk B * 2 <= k_speed B) by (apply (Rmult_le_compat_r (k_jerk B * 2)) in H; [|lra]; unfold Rdiv in H; rewrite Rmult_assoc, Rinv_l in H; lra).
      rewrite vdiv_norm3 by (apply Rmult_lt_0_compat; [lra | apply Rinv_0_lt_compat; lra]). rewrite En, Rmin_right by lra. field. lra.
    + rewrite En. rewrite Rmin_left; [reflexivity|]. apply Rnot_le_lt in H. apply (Rmult_lt_compat_r (k_jerk B * 2)) in H; [|lra].
      unfold Rdiv in H. rewrite Rmult_assoc, Rinv_l in H; lra.
Qed.
(** The right angle of the examples opens by PI/2, and there is a circle. *)
Example C88_case : opening (travel ex_A ex_B) (travel ex_B ex_N) = PI / 2 /\
  (exists delta, rounds (PI / 2) delta (k_jerk ex_B * k_jerk ex_B / k_acc ex_B)) /\ 18 * PI / 180 < PI / 2 < 162 * PI / 180 /\
  largest (fun v => 0 <= v <= 20 /\ v * v <= 500 * (64 / 500) /\ v * v <= 500 * (5 / 2 * tan (PI / 2 / 2))) (corner_speed Klipper ex_A ex_B [ex_B; ex_N]).
Proof.
  assert (E : opening (travel ex_A ex_B) (travel ex_B ex_N) = PI / 2).
  { unfold opening. replace (- _) with 0; [apply acos_0|]. simpl. unfold Rdiv. ring. }
  split; [exact E|].
  assert (D : exists delta, rounds (PI / 2) delta (k_jerk ex_B * k_jerk ex_B / k_acc ex_B)).
  { unfold rounds. replace (PI / 2 / 2) with (PI / 4) by field. rewrite sin_PI4. set (q := k_jerk ex_B * k_jerk ex_B / k_acc ex_B).
    exists (q * sqrt 2 - q). pose proof sqrt2_bounds. field. lra. }
  split; [exact D|]. pose proof PI_RGT_0 as HP. split; [lra|]. destruct D as (delta & D).
  destruct (C88_klipper _ _ _ _ ex_corner ltac:(simpl; lra) ltac:(simpl; lra)) as [_ K]. rewrite E, cos_PI2 in K.
  specialize (K ltac:(lra) (PI / 2) delta _ ltac:(lra) ltac:(rewrite cos_PI2, Rmax_left by lra; reflexivity) D D).
  replace (length3 (travel ex_B ex_N)) with 5 in K by (symmetry; apply norm3_unique; simpl; lra).
  replace (k_jerk ex_B * k_jerk ex_B / k_acc ex_B) with (64 / 500) in K by (simpl; field). exact K.
Qed.

(** * C89: MKA keeps the jumps of the axes *)
Theorem C89_axes_partial A B rest N : corner A B rest N -> 0 <= k_jerk B -> k_speed B = k_speed N ->
  let v := corner_speed MKA A B rest in
  let before := vscale v (unit3 (travel A B)) in let after := vscale v (unit3 (travel B N)) in
  axis_ok (k_jerk B) (vx before) (vx after) /\ axis_ok (k_jerk B) (vy before) (vy after) /\
  axis_ok (k_jerk B) (vz before) (vz after) /\ axis_ok (k_jerk B) (ve before) (ve after).
Proof.
  intros [Hn Hi Ho HB HN] Hj Es. unfold corner_speed, junction_vel, mk_junction. cbn [target_vel vel_next connect_state_opt].
  rewrite (next_stop_find _ _ _ Hn), !connect_nominal by assumption.
  pose proof (mka_jumps (nominal A B) (nominal B N) (k_jerk B) (k_speed B) Hj HB (nominal_norm _ _ Hi HB)) as Q.
  rewrite (nominal_norm _ _ Ho HN) in Q. specialize (Q (eq_sym Es)). cbv zeta in *. set (v := calc_mka _ _ _) in *. clearbody v.
  assert (X : forall (f : vec4 -> R), (forall k a, f (vscale k a) = f a * k) ->
    f (nominal A B) * (v / k_speed B) = f (vscale v (unit3 (travel A B))) /\ f (nominal B N) * (v / k_speed B) = f (vscale v (unit3 (travel B N)))).
  { intros f Hf. unfold nominal. rewrite !Hf, <- Es. split; field; lra. }
  destruct (X vx (fun k a => eq_refl)) as [<- <-]. destruct (X vy (fun k a => eq_refl)) as [<- <-].
  destruct (X vz (fun k a => eq_refl)) as [<- <-]. destruct (X ve (fun k a => eq_refl)) as [<- <-]. exact Q.
Qed.
(** With different speeds C89 is false: from 10 to 20 mm/s straight on, with less
    filament per millimetre in the second move, the jump of the extruder is
    twice the setting. *)
Theorem C89_different_speeds_refuted : exists A B rest N, corner A B rest N /\ 0 < k_jerk B /\
  let v := corner_speed MKA A B rest in
  ~ axis_ok (k_jerk B) (ve (vscale v (unit3 (travel A B)))) (ve (vscale v (unit3 (travel B N)))).
Proof.
  set (A := KState (V4 0 0 0 0) 10 500 10 None None). set (B := KState (V4 10 0 0 40) 10 500 10 None None).
  set (N := KState (V4 20 0 0 60) 20 500 10 None None). exists A, B, [N], N.
  assert (N1 : norm3 (travel A B) = 10) by (apply norm3_unique; simpl; lra).
  assert (N2 : norm3 (travel B N) = 10) by (apply norm3_unique; simpl; lra).
  assert (Hc : corner A B [N] N).
  { constructor; try (simpl; lra). apply ns_here. intros E. apply (f_equal vx) in E. simpl in E. lra. }
  assert (V0 : nominal A B = V4 10 0 0 40) by (unfold nominal, unit3; rewrite N1; apply vec4_ext; simpl; field).
  assert (V1 : nominal B N = V4 20 0 0 40) by (unfold nominal, unit3; rewrite N2; apply vec4_ext; simpl; field).
  split; [exact Hc|]. split; [simpl; lra|].
  assert (Ev : corner_speed MKA A B [N] = 10).
  { rewrite (C39_no_slowdown_partial A B [N] N Hc); [simpl; apply Rmin_left; lra | simpl; lra | | | | ];
      rewrite V0, V1; cbn [vx vy vz ve k_jerk B]; unfold Rabs; destruct (Rcase_abs _); lra. }
  cbv zeta. rewrite Ev. unfold unit3. rewrite N1, N2. cbn [ve vscale vdiv travel vsub k_pos A B N k_jerk].
  replace ((40 - 0) / 10 * 10) with 40 by field. replace ((60 - 40) / 10 * 10) with 20 by field.
  intros [H|(H & _)]; [|lra]. rewrite Rabs_left in H by lra. lra.
Qed.
Example C89_case : corner ex_A ex_B [ex_B; ex_N] ex_N /\ 0 <= k_jerk ex_B /\ k_speed ex_B = k_speed ex_N.
Proof. split; [exact ex_corner|]. simpl. split; [lra | reflexivity]. Qed.

Print Assumptions C88_klipper.
Print Assumptions C88_junction_deviation.
Print Assumptions C88_jerk.
Print Assumptions C88_stops.
Print Assumptions C89_axes_partial.
Print Assumptions C89_different_speeds_refuted.
