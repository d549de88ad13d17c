(** Facts about the corner speeds of the firmwares (C36-C39, C63). *)
From Coq Require Import Lra Psatz.
From Verif Require Import Py Vec Segment Junction RealFacts SpecJunction JunctionProofs.
Open Scope R_scope.

Lemma next_stop_find B rest N : next_stop B rest N -> find_next_state B rest = N.
Proof.
  induction 1 as [N rest H|s rest N H Hn IH].
  - cbn [find_next_state]. destruct rest; [reflexivity|].
    unfold t_distance. rewrite Rltb_true; [reflexivity|].
    destruct (Rle_lt_or_eq_dec _ _ (norm4_nonneg (vsub (k_pos B) (k_pos N)))) as [?|E]; [assumption|].
    exfalso. apply H. symmetry in E. apply norm4_zero_inv in E. apply vec4_ext.
    + apply (f_equal vx) in E. simpl in E. lra.
    + apply (f_equal vy) in E. simpl in E. lra.
    + apply (f_equal vz) in E. simpl in E. lra.
    + apply (f_equal ve) in E. simpl in E. lra.
  - cbn [find_next_state]. destruct rest as [|s' rest]; [inversion Hn|].
    unfold t_distance. rewrite H. replace (norm4 (vsub (k_pos B) (k_pos B))) with 0.
    + rewrite Rltb_false by lra. exact IH.
    + symmetry. apply norm4_unique; [lra|]. simpl. ring.
Qed.

Lemma connect_nominal A B : 0 < norm3 (travel A B) -> connect_state A B = nominal A B.
Proof.
  intros H. unfold connect_state, nominal, unit3. fold (travel A B).
  rewrite Rltb_true by (rewrite Rabs_right; lra). reflexivity.
Qed.
Lemma nominal_norm A B : 0 < norm3 (travel A B) -> 0 < k_speed B -> norm3 (nominal A B) = k_speed B.
Proof.
  intros H Hs. unfold nominal, unit3. rewrite norm3_scale_pos by lra. rewrite vdiv_norm3 by exact H. field. lra.
Qed.
Lemma dot_nominal A B N : 0 < norm3 (travel A B) -> 0 < norm3 (travel B N) ->
  dot3 (nominal A B) (nominal B N) = k_speed B * k_speed N * cosang (travel A B) (travel B N).
Proof.
  intros H1 H2. unfold dot3, nominal, unit3, cosang, dot3. cbn [vx vy vz vscale vdiv]. field. lra.
Qed.
Lemma dot_unit a b : 0 < norm3 a -> 0 < norm3 b -> dot3 (unit3 a) (unit3 b) = cosang a b.
Proof. intros H1 H2. unfold dot3, unit3, cosang, dot3. cbn [vx vy vz vdiv]. field. lra. Qed.
Lemma norm_unit a : 0 < norm3 a -> norm3 (unit3 a) = 1.
Proof. intros H. unfold unit3. rewrite vdiv_norm3 by exact H. field. lra. Qed.

Lemma cauchy_schwarz a b : dot3 a b * dot3 a b <= (norm3 a * norm3 a) * (norm3 b * norm3 b).
Proof.
  rewrite !norm3_sq. unfold dot3.
  pose proof (Rle_0_sqr (vx a * vy b - vy a * vx b)) as H1.
  pose proof (Rle_0_sqr (vx a * vz b - vz a * vx b)) as H2.
  pose proof (Rle_0_sqr (vy a * vz b - vz a * vy b)) as H3. unfold Rsqr in *. nra.
Qed.
Lemma cosang_bounds a b : 0 < norm3 a -> 0 < norm3 b -> -1 <= cosang a b <= 1.
Proof.
  intros Ha Hb. rewrite <- dot_unit by assumption.
  pose proof (cauchy_schwarz (unit3 a) (unit3 b)) as H. rewrite !norm_unit in H by assumption.
  set (d := dot3 _ _) in *. clearbody d. nra.
Qed.
Lemma cosang_parallel a b k : k <> 0 -> 0 < norm3 a -> vx b = k * vx a -> vy b = k * vy a -> vz b = k * vz a ->
  cosang a b = k / Rabs k /\ norm3 b = Rabs k * norm3 a.
Proof.
  intros Hk Ha Hx Hy Hz.
  assert (Hn : norm3 b = Rabs k * norm3 a).
  { apply norm3_unique; [apply Rmult_le_pos; [apply Rabs_pos|lra]|]. rewrite Hx, Hy, Hz.
    replace (Rabs k * norm3 a * (Rabs k * norm3 a)) with ((Rabs k * Rabs k) * (norm3 a * norm3 a)) by ring.
    rewrite norm3_sq, <- Rabs_mult, Rabs_right by nra. ring. }
  split; [|exact Hn]. unfold cosang. rewrite Hn. unfold dot3. rewrite Hx, Hy, Hz.
  replace (vx a * (k * vx a) + vy a * (k * vy a) + vz a * (k * vz a)) with (k * (norm3 a * norm3 a)) by (rewrite norm3_sq; ring).
  field. repeat split; first [lra | apply Rabs_no_R0, Hk].
Qed.

(** * The corner speed as a function of the cosine *)
Definition JD_of (c acc jerk speed : R) : R :=
  if Reqb jerk 0 then 0
  else
    let s := if Rltb c 1 then sqrt ((1 - c) / 2) else 0 in
    if Rltb s (sin (162 * PI / 360)) then
      if Rltb (sin (18 * PI / 360)) s then
        let v := sqrt (acc * (4 / 10 * jerk * jerk / acc * s / (1 - s))) in
        if Rltb v speed then v else speed
      else 0
    else speed.
Definition klipper_of (c0 dist acc jerk speed : R) : R :=
  let c := Rmax c0 (- (999999 / 1000000)) in
  if Rltb (999999 / 1000000) c then 0
  else
    let s := sqrt (5 / 10 * (1 - c)) in
    let jR := klipper_delta acc jerk * s / (1 - s) in
    let tn := s / sqrt (5 / 10 * (1 + c)) in
    sqrt (Rmin (Rmin (acc * jR) (5 / 10 * dist * tn * acc)) (speed * speed)).

Lemma corner_jd A B rest N : corner A B rest N ->
  corner_speed MarlinJD A B rest = JD_of (- cosang (travel A B) (travel B N)) (k_acc B) (k_jerk B) (k_speed B).
Proof.
  intros [Hn Hi Ho HB HN]. unfold corner_speed, junction_vel, mk_junction. cbn [target_vel vel_next connect_state_opt].
  rewrite (next_stop_find _ _ _ Hn), !connect_nominal by assumption. unfold calc_JD, JD_of.
  rewrite !nominal_norm, dot_nominal by assumption.
  destruct (Reqb (k_jerk B) 0); [reflexivity|].
  replace (Reqb (k_speed B) 0) with false by (symmetry; apply Reqb_neq; lra).
  replace (Reqb (k_speed N) 0) with false by (symmetry; apply Reqb_neq; lra). cbn [orb].
  replace (- (k_speed B * k_speed N * cosang (travel A B) (travel B N)) / (k_speed B * k_speed N))
    with (- cosang (travel A B) (travel B N)) by (field; lra).
  reflexivity.
Qed.
Lemma corner_klipper A B rest N : corner A B rest N ->
  corner_speed Klipper A B rest =
  klipper_of (- cosang (travel A B) (travel B N)) (norm3 (travel B N)) (k_acc B) (k_jerk B) (k_speed B).
Proof.
  intros [Hn Hi Ho HB HN]. unfold corner_speed, junction_vel, mk_junction. cbn [target_vel vel_next jt_distance connect_state_opt].
  rewrite (next_stop_find _ _ _ Hn), !connect_nominal by assumption. fold (travel B N). unfold calc_klipper, klipper_of.
  rewrite !nominal_norm by assumption.
  replace (Reqb (k_speed B) 0) with false by (symmetry; apply Reqb_neq; lra).
  replace (Reqb (k_speed N) 0) with false by (symmetry; apply Reqb_neq; lra). cbn [orb].
  replace (dot3 (vdiv (nominal A B) (k_speed B)) (vdiv (nominal B N) (k_speed N))) with (cosang (travel A B) (travel B N)).
  - reflexivity.
  - transitivity (dot3 (nominal A B) (nominal B N) / (k_speed B * k_speed N)).
    + rewrite dot_nominal by assumption. field. lra.
    + unfold dot3. cbn [vx vy vz vdiv]. field. lra.
Qed.

(** * Klipper *)
Lemma half_sqrt : sqrt (5 / 10 * (1 - 0)) = / sqrt 2.
Proof.
  replace (5 / 10 * (1 - 0)) with (/ 2) by field. rewrite sqrt_inv; reflexivity.
Qed.
Lemma sqrt2_bounds : 1 < sqrt 2 < 2.
Proof. split; [apply lt_sqrt_sq; lra|apply sqrt_lt_sq; lra]. Qed.
Lemma Rmin_sqrt a b : sqrt (Rmin a b) = Rmin (sqrt a) (sqrt b).
Proof.
  unfold Rmin at 1. destruct (Rle_dec a b) as [H|H].
  - rewrite Rmin_left; [reflexivity|]. apply sqrt_le_1_alt. exact H.
  - rewrite Rmin_right; [reflexivity|]. apply sqrt_le_1_alt. lra.
Qed.
Lemma klipper_right_angle dist acc jerk speed : 0 < acc -> 0 <= jerk -> 0 < speed ->
  klipper_of (- 0) dist acc jerk speed = Rmin (Rmin jerk (sqrt (dist * acc / 2))) speed.
Proof.
  intros Ha Hj Hs. unfold klipper_of. rewrite Ropp_0. rewrite Rmax_left by lra. rewrite Rltb_false by lra.
  rewrite half_sqrt. replace (5 / 10 * (1 + 0)) with (/ 2) by field. rewrite sqrt_inv.
  pose proof sqrt2_bounds as S2. pose proof (sqrt_sqrt 2 ltac:(lra)) as SS.
  rewrite !Rmin_sqrt, (sqrt_sq speed) by lra. f_equal. f_equal.
  - replace (acc * (klipper_delta acc jerk * / sqrt 2 / (1 - / sqrt 2))) with (jerk * jerk); [apply sqrt_sq; exact Hj|].
    unfold klipper_delta. field. repeat split; lra.
  - f_equal. field. lra.
Qed.
Lemma klipper_reversal dist acc jerk speed : klipper_of (- - 1) dist acc jerk speed = 0.
Proof. unfold klipper_of. rewrite Rmax_left by lra. rewrite Rltb_true by lra. reflexivity. Qed.

Lemma ratio_mono s s' : 0 <= s <= s' -> s' < 1 -> s / (1 - s) <= s' / (1 - s').
Proof.
  intros H H'. apply Rmult_le_reg_r with ((1 - s) * (1 - s')); [nra|].
  replace (s / (1 - s) * ((1 - s) * (1 - s'))) with (s * (1 - s')) by (field; lra).
  replace (s' / (1 - s') * ((1 - s) * (1 - s'))) with (s' * (1 - s)) by (field; lra). nra.
Qed.
Lemma quot_mono a b a' b' : 0 <= a <= a' -> 0 < b' <= b -> a / b <= a' / b'.
Proof.
  intros H H'. apply Rmult_le_reg_r with (b * b'); [nra|].
  replace (a / b * (b * b')) with (a * b') by (field; lra).
  replace (a' / b' * (b * b')) with (a' * b) by (field; lra). nra.
Qed.
Lemma mul_mono a b a' b' : 0 <= a <= a' -> 0 <= b <= b' -> a * b <= a' * b'.
Proof. intros; nra. Qed.

Lemma klipper_mono c c' dist dist' acc jerk jerk' speed speed' :
  -1 <= c' <= c -> c <= 1 -> 0 <= dist <= dist' -> 0 < acc -> 0 <= jerk <= jerk' -> 0 <= speed <= speed' ->
  klipper_of c dist acc jerk speed <= klipper_of c' dist' acc jerk' speed'.
Proof.
  intros Hc Hc1 Hd Ha Hj Hs. unfold klipper_of.
  set (k := Rmax c _). set (k' := Rmax c' _).
  assert (Hk : k' <= k) by (unfold k, k'; apply Rle_max_compat_r; lra).
  assert (Hk1 : - (999999 / 1000000) <= k') by (unfold k'; apply Rmax_r).
  clearbody k k'. destruct (Rltb_spec (999999 / 1000000) k) as [H|H].
  { destruct (Rltb (999999 / 1000000) k'); [lra|apply sqrt_pos]. }
  rewrite Rltb_false by lra. apply Rnot_lt_le in H.
  set (s := sqrt (5 / 10 * (1 - k))). set (s' := sqrt (5 / 10 * (1 - k'))).
  set (u := sqrt (5 / 10 * (1 + k))). set (u' := sqrt (5 / 10 * (1 + k'))).
  assert (Hss : 0 <= s <= s') by (split; [apply sqrt_pos|apply sqrt_le_1_alt; lra]).
  assert (Hs1 : s' < 1) by (apply sqrt_lt_sq; lra).
  assert (Huu : 0 < u' <= u) by (split; [apply sqrt_lt_R0; lra|apply sqrt_le_1_alt; lra]).
  clearbody s s' u u'.
  pose proof (ratio_mono s s' Hss Hs1) as Hr. pose proof (quot_mono s u s' u' Hss Huu) as Hq.
  assert (Hr0 : 0 <= s / (1 - s)) by (apply Rmult_le_pos; [lra|left; apply Rinv_0_lt_compat; lra]).
  assert (Hq0 : 0 <= s / u) by (apply Rmult_le_pos; [lra|left; apply Rinv_0_lt_compat; lra]).
  apply sqrt_le_1_alt. unfold klipper_delta.
  replace (acc * (jerk * jerk * (sqrt 2 - 1) / acc * s / (1 - s))) with (jerk * jerk * (sqrt 2 - 1) * (s / (1 - s))) by (field; lra).
  replace (acc * (jerk' * jerk' * (sqrt 2 - 1) / acc * s' / (1 - s'))) with (jerk' * jerk' * (sqrt 2 - 1) * (s' / (1 - s'))) by (field; lra).
  pose proof sqrt2_bounds as S2.
  assert (H1 : jerk * jerk * (sqrt 2 - 1) * (s / (1 - s)) <= jerk' * jerk' * (sqrt 2 - 1) * (s' / (1 - s'))).
  { apply mul_mono; [|lra]. split; [apply Rmult_le_pos; nra|]. apply Rmult_le_compat_r; [lra|]. apply mul_mono; lra. }
  assert (H2 : 5 / 10 * dist * (s / u) * acc <= 5 / 10 * dist' * (s' / u') * acc).
  { apply Rmult_le_compat_r; [lra|]. apply mul_mono; lra. }
  assert (H3 : speed * speed <= speed' * speed') by (apply mul_mono; lra).
  repeat apply Rmin_glb; eapply Rle_trans; try eassumption.
  - eapply Rle_trans; [apply Rmin_l|apply Rmin_l].
  - eapply Rle_trans; [apply Rmin_l|apply Rmin_r].
  - apply Rmin_r.
Qed.

(** * Junction deviation *)
Lemma sin81 : 0 < sin (162 * PI / 360) < 1.
Proof.
  pose proof PI_RGT_0 as P. split; [apply sin_gt_0; lra|].
  rewrite <- sin_PI2. apply sin_increasing_1; lra.
Qed.
Lemma sin9 : 0 < sin (18 * PI / 360).
Proof. pose proof PI_RGT_0 as P. apply sin_gt_0; lra. Qed.
Lemma jd_straight acc jerk speed : jerk <> 0 -> JD_of (- 1) acc jerk speed = speed.
Proof.
  intros Hj. unfold JD_of. rewrite (proj2 (Reqb_neq _ _) Hj). cbv zeta. rewrite (Rltb_true (- 1) 1) by lra.
  replace ((1 - - 1) / 2) with 1 by field. rewrite sqrt_1. rewrite Rltb_false; [reflexivity|]. pose proof sin81. lra.
Qed.
Lemma jd_reversal acc jerk speed : JD_of (- - 1) acc jerk speed = 0.
Proof.
  unfold JD_of. destruct (Reqb jerk 0); [reflexivity|]. rewrite (Rltb_false (- - 1) 1) by lra. cbv zeta.
  rewrite Rltb_true by apply sin81. rewrite Rltb_false; [reflexivity|]. pose proof sin9. lra.
Qed.
Lemma jd_mono c c' acc jerk jerk' speed speed' :
  -1 <= c' <= c -> c <= 1 -> 0 < acc -> 0 <= jerk <= jerk' -> 0 <= speed <= speed' ->
  JD_of c acc jerk speed <= JD_of c' acc jerk' speed'.
Proof.
  intros Hc Hc1 Ha Hj Hs. unfold JD_of.
  assert (Hpos : forall s jerk speed, 0 <= speed ->
    0 <= (if Rltb s (sin (162 * PI / 360)) then if Rltb (sin (18 * PI / 360)) s then
        let v := sqrt (acc * (4 / 10 * jerk * jerk / acc * s / (1 - s))) in if Rltb v speed then v else speed else 0 else speed)).
  { intros s j v Hv. destruct (Rltb s _); [|exact Hv]. destruct (Rltb _ s); [|lra]. cbv zeta.
    destruct (Rltb _ v); [apply sqrt_pos|exact Hv]. }
  destruct (Reqb_spec jerk 0) as [->|Hj0].
  { destruct (Reqb jerk' 0); [lra|]. apply Hpos. lra. }
  rewrite (proj2 (Reqb_neq jerk' 0)) by lra. cbv zeta.
  set (s := if Rltb c 1 then _ else 0). set (s' := if Rltb c' 1 then _ else 0).
  assert (Hss : 0 <= s <= s').
  { unfold s, s'. split; [destruct (Rltb c 1); [apply sqrt_pos|lra]|].
    destruct (Rltb_spec c 1) as [H|H].
    - rewrite Rltb_true by lra. apply sqrt_le_1_alt. lra.
    - destruct (Rltb c' 1); [apply sqrt_pos|lra]. }
  clearbody s s'. pose proof sin81 as S81.
  destruct (Rltb_spec s (sin (162 * PI / 360))) as [H|H].
  - destruct (Rltb_spec (sin (18 * PI / 360)) s) as [H2|H2]; [|apply Hpos; lra].
    destruct (Rltb_spec s' (sin (162 * PI / 360))) as [H3|H3].
    + rewrite (Rltb_true _ s') by lra.
      assert (Hr : s / (1 - s) <= s' / (1 - s')) by (apply ratio_mono; lra).
      assert (Hr0 : 0 <= s / (1 - s)) by (apply Rmult_le_pos; [lra|left; apply Rinv_0_lt_compat; lra]).
      assert (Hv : sqrt (acc * (4 / 10 * jerk * jerk / acc * s / (1 - s))) <= sqrt (acc * (4 / 10 * jerk' * jerk' / acc * s' / (1 - s')))).
      { apply sqrt_le_1_alt.
        replace (acc * (4 / 10 * jerk * jerk / acc * s / (1 - s))) with (4 / 10 * (jerk * jerk) * (s / (1 - s))) by (field; lra).
        replace (acc * (4 / 10 * jerk' * jerk' / acc * s' / (1 - s'))) with (4 / 10 * (jerk' * jerk') * (s' / (1 - s'))) by (field; lra).
        apply mul_mono; [nra|lra]. }
      match type of Hv with ?a <= ?b => set (v := a) in *; set (v' := b) in * end. clearbody v v'.
      destruct (Rltb_spec v speed); destruct (Rltb_spec v' speed'); lra.
    + set (v := sqrt _). clearbody v. destruct (Rltb_spec v speed); lra.
  - rewrite Rltb_false by lra. lra.
Qed.

(** * Marlin classic jerk *)
Lemma calc_jerk_mono v0 v1 j j' : 0 < j <= j' -> calc_jerk v0 v1 j <= calc_jerk v0 v1 j'.
Proof.
  intros H. unfold calc_jerk. rewrite !Rltb_true by lra.
  set (d := norm3 (vsub v0 v1)). pose proof (norm3_nonneg (vsub v0 v1)) as Hd. fold d in Hd. clearbody d.
  pose proof (norm3_nonneg v0) as H0.
  assert (Hq : forall j, 0 < j -> 1 <= d / (j * 2) <-> j * 2 <= d).
  { intros x Hx. split; intros Hle.
    - apply (Rmult_le_compat_r (x * 2)) in Hle; [|lra]. unfold Rdiv in Hle. rewrite Rmult_assoc, Rinv_l in Hle; lra.
    - apply Rmult_le_reg_r with (x * 2); [lra|]. unfold Rdiv. rewrite Rmult_assoc, Rinv_l; lra. }
  assert (Hv : forall j, 0 < j -> j * 2 <= d -> norm3 (vdiv v0 (d / (j * 2))) = norm3 v0 * (j * 2) / d).
  { intros x Hx Hle. rewrite vdiv_norm3.
    - field. lra.
    - apply Rmult_lt_0_compat; [lra|]. apply Rinv_0_lt_compat. lra. }
  destruct (Rleb_spec 1 (d / (j * 2))) as [A|A]; destruct (Rleb_spec 1 (d / (j' * 2))) as [B|B].
  - rewrite Hq in A, B by lra. rewrite !Hv by lra. apply Rmult_le_compat_r; [left; apply Rinv_0_lt_compat; lra|]. nra.
  - rewrite Hq in A by lra. rewrite Hv by lra. apply Rmult_le_reg_r with d; [lra|].
    replace (norm3 v0 * (j * 2) / d * d) with (norm3 v0 * (j * 2)) by (field; lra). nra.
  - exfalso. rewrite Hq in A, B by lra. lra.
  - lra.
Qed.

Lemma unit_diff_sq A B N : 0 < norm3 (travel A B) -> 0 < norm3 (travel B N) ->
  norm3 (vsub (unit3 (travel A B)) (unit3 (travel B N))) * norm3 (vsub (unit3 (travel A B)) (unit3 (travel B N)))
  = 2 - 2 * cosang (travel A B) (travel B N).
Proof.
  intros H1 H2. rewrite norm3_sq. rewrite <- dot_unit by assumption.
  pose proof (norm_unit _ H1) as U1. pose proof (norm_unit _ H2) as U2.
  pose proof (norm3_sq (unit3 (travel A B))) as E1. pose proof (norm3_sq (unit3 (travel B N))) as E2.
  rewrite U1 in E1. rewrite U2 in E2. unfold dot3. cbn [vx vy vz vsub] in *. nra.
Qed.
Lemma nominal_diff_sq A B N : 0 < norm3 (travel A B) -> 0 < norm3 (travel B N) ->
  norm3 (vsub (nominal A B) (nominal B N)) * norm3 (vsub (nominal A B) (nominal B N))
  = k_speed B * k_speed B + k_speed N * k_speed N - 2 * k_speed B * k_speed N * cosang (travel A B) (travel B N).
Proof.
  intros H1 H2. rewrite norm3_sq. rewrite <- dot_unit by assumption.
  pose proof (norm_unit _ H1) as U1. pose proof (norm_unit _ H2) as U2.
  pose proof (norm3_sq (unit3 (travel A B))) as E1. pose proof (norm3_sq (unit3 (travel B N))) as E2.
  rewrite U1 in E1. rewrite U2 in E2. unfold dot3, nominal. set (a := unit3 (travel A B)) in *. set (b := unit3 (travel B N)) in *. clearbody a b.
  cbn [vx vy vz vsub vscale] in *.
  transitivity (k_speed B * k_speed B * (vx a * vx a + vy a * vy a + vz a * vz a) + k_speed N * k_speed N * (vx b * vx b + vy b * vy b + vz b * vz b)
     - 2 * k_speed B * k_speed N * (vx a * vx b + vy a * vy b + vz a * vz b)); [ring|]. rewrite <- E1, <- E2. ring.
Qed.
Lemma vscale_vsub k a b : vsub (vscale k a) (vscale k b) = vscale k (vsub a b).
Proof. vec. Qed.

(** The jump of the velocity vector at the corner is at most twice (four times
    for different speeds) the jerk setting. *)
Lemma jerk_jump A B rest N f : corner A B rest N -> 0 < k_jerk B ->
  (f = 2 /\ k_speed B = k_speed N \/ f = 4) ->
  let v := corner_speed MarlinJerk A B rest in
  norm3 (vsub (vscale v (unit3 (travel A B))) (vscale v (unit3 (travel B N)))) <= f * k_jerk B.
Proof.
  intros [Hn Hi Ho HB HN] Hj Hf. cbv zeta. rewrite vscale_vsub.
  pose proof (unit_diff_sq A B N Hi Ho) as Eu. pose proof (nominal_diff_sq A B N Hi Ho) as En.
  pose proof (cosang_bounds _ _ Hi Ho) as Hc. set (c := cosang _ _) in *.
  unfold corner_speed, junction_vel, mk_junction. cbn [target_vel vel_next connect_state_opt].
  rewrite (next_stop_find _ _ _ Hn), !connect_nominal by assumption.
  unfold calc_jerk. rewrite Rltb_true by lra. pose proof (nominal_norm A B Hi HB) as Nn.
  pose proof (norm3_nonneg (vsub (unit3 (travel A B)) (unit3 (travel B N)))) as Hu.
  pose proof (norm3_nonneg (vsub (nominal A B) (nominal B N))) as Hd.
  set (u := vsub (unit3 (travel A B)) (unit3 (travel B N))) in *. clearbody u.
  set (w := vsub (nominal A B) (nominal B N)) in *. clearbody w.
  set (d := norm3 w) in *. clearbody d.
  assert (Key : k_speed B * norm3 u <= (f / 2) * d).
  { apply sq_le; [nra|destruct Hf as [[-> _]| ->]; lra|].
    replace (k_speed B * norm3 u * (k_speed B * norm3 u)) with (k_speed B * k_speed B * (norm3 u * norm3 u)) by ring.
    replace (f / 2 * d * (f / 2 * d)) with (f / 2 * (f / 2) * (d * d)) by ring. rewrite Eu, En.
    destruct Hf as [[-> E]| ->].
    - rewrite <- E. nra.
    - assert (Q : 0 <= k_speed B * k_speed B * (1 + c) + 2 * (k_speed N * k_speed N) - 4 * (k_speed B * k_speed N) * c).
      { destruct (Rle_dec c 0) as [Hc0|Hc0].
        - assert (0 <= (k_speed B * k_speed N) * - c) by (apply Rmult_le_pos; nra). nra.
        - pose proof (Rle_0_sqr (k_speed B * c - k_speed N)) as Q1. unfold Rsqr in Q1.
          assert (k_speed B * k_speed B * (1 + c - 2 * c * c) >= 0).
          { apply Rle_ge. apply Rmult_le_pos; [nra|]. replace (1 + c - 2 * c * c) with ((1 - c) * (1 + 2 * c)) by ring. apply Rmult_le_pos; lra. }
          nra. }
      lra. }
  destruct (Rleb_spec 1 (d / (k_jerk B * 2))) as [A1|A1].
  - assert (Hdj : k_jerk B * 2 <= d).
    { apply (Rmult_le_compat_r (k_jerk B * 2)) in A1; [|lra]. unfold Rdiv in A1. rewrite Rmult_assoc, Rinv_l in A1; lra. }
    rewrite vdiv_norm3 by lra. rewrite Nn, norm3_scale_pos.
    + replace (k_speed B / (d / (k_jerk B * 2)) * norm3 u) with (k_speed B * norm3 u * (k_jerk B * 2) / d) by (field; lra).
      apply Rmult_le_reg_r with d; [lra|].
      replace (k_speed B * norm3 u * (k_jerk B * 2) / d * d) with (k_speed B * norm3 u * (k_jerk B * 2)) by (field; lra). nra.
    + apply Rmult_le_pos; [lra|]. left. apply Rinv_0_lt_compat. lra.
  - rewrite Nn, norm3_scale_pos by lra. apply Rnot_le_lt in A1.
    assert (Hdj : d < k_jerk B * 2).
    { apply (Rmult_lt_compat_r (k_jerk B * 2)) in A1; [|lra]. unfold Rdiv in A1. rewrite Rmult_assoc, Rinv_l in A1; lra. }
    destruct Hf as [[-> _]| ->]; lra.
Qed.

(** * MKA *)
Lemma mka_jerk_le a b : mka_jerk a b <= Rabs (b - a).
Proof.
  unfold mka_jerk. destruct (Rltb_spec a b).
  - rewrite Rabs_right by lra. destruct (Rltb_spec 0 a), (Rltb_spec b 0); cbn [orb]; try lra. apply Rmax_lub; lra.
  - rewrite Rabs_left1 by lra. destruct (Rltb_spec a 0), (Rltb_spec 0 b); cbn [orb]; try lra. apply Rmax_lub; lra.
Qed.
Lemma mka_jerk_pos a b : a <> b -> 0 < mka_jerk a b.
Proof.
  intros H. unfold mka_jerk. destruct (Rltb_spec a b).
  - destruct (Rltb_spec 0 a), (Rltb_spec b 0); cbn [orb]; try lra.
    destruct (Req_EM_T b 0) as [->|]; [eapply Rlt_le_trans; [|apply Rmax_r]; lra|eapply Rlt_le_trans; [|apply Rmax_l]; lra].
  - destruct (Rltb_spec a 0), (Rltb_spec 0 b); cbn [orb]; try lra.
    destruct (Req_EM_T b 0) as [->|]; [eapply Rlt_le_trans; [|apply Rmax_r]; lra|eapply Rlt_le_trans; [|apply Rmax_l]; lra].
Qed.

Lemma mka_axis_small jerk fac vmax a b : mka_jerk a (b * fac) <= jerk ->
  mka_axis jerk fac (vmax, 1, false) (a, b) = (vmax, 1, false).
Proof. intros H. unfold mka_axis. rewrite Rltb_false by exact H. reflexivity. Qed.

Lemma mka_full v0 v1 jerk : 0 < norm3 v0 -> norm3 v0 <= norm3 v1 ->
  Rabs (vx v1 - vx v0) <= jerk -> Rabs (vy v1 - vy v0) <= jerk -> Rabs (vz v1 - vz v0) <= jerk -> Rabs (ve v1 - ve v0) <= jerk ->
  calc_mka v0 v1 jerk = Rmin (norm3 v0) (norm3 v1).
Proof.
  intros H0 H1 Hx Hy Hz He. unfold calc_mka. rewrite Rmin_left by exact H1. rewrite Rltb_true by exact H0.
  replace (norm3 v0 / norm3 v0) with 1 by (field; lra). cbn [fold_left].
  rewrite !mka_axis_small; [reflexivity| | | |]; rewrite Rmult_1_r; eapply Rle_trans; try apply mka_jerk_le; assumption.
Qed.

(** Once a limited axis has brought the speed to 0 it stays 0. *)
Lemma mka_axis_zero fac vfac lim ax : fst (fst (mka_axis 0 fac (0, vfac, lim) ax)) = 0.
Proof.
  destruct ax as [a b]. unfold mka_axis.
  match goal with |- context [Rltb 0 ?j] => destruct (Rltb 0 j) end; cbn [fst]; [ring|destruct lim; ring].
Qed.
Lemma mka_fold_zero fac : forall l vfac lim, fst (fst (fold_left (mka_axis 0 fac) l (0, vfac, lim))) = 0.
Proof.
  induction l as [|ax l IH]; intros vfac lim; [reflexivity|]. cbn [fold_left].
  pose proof (mka_axis_zero fac vfac lim ax) as Z. destruct (mka_axis 0 fac (0, vfac, lim) ax) as [[v f] b]. cbn [fst] in Z. subst v. apply IH.
Qed.
Lemma mka_fold_stop fac : forall l vmax, (exists a b, In (a, b) l /\ b * fac <> a) ->
  fst (fst (fold_left (mka_axis 0 fac) l (vmax, 1, false))) = 0.
Proof.
  induction l as [|[a b] l IH]; intros vmax (a' & b' & Hi & Hd); [destruct Hi|]. cbn [fold_left].
  destruct (Req_EM_T (b * fac) a) as [E|E].
  - destruct Hi as [Hi|Hi]; [injection Hi as -> ->; contradiction|].
    rewrite mka_axis_small.
    + apply IH. exists a', b'. split; assumption.
    + rewrite E. eapply Rle_trans; [apply mka_jerk_le|]. replace (a - a) with 0 by ring. rewrite Rabs_R0. lra.
  - pose proof (mka_jerk_pos a (b * fac) (fun Q => E (eq_sym Q))) as P.
    unfold mka_axis at 2. rewrite Rltb_true by exact P.
    replace (vmax * (1 * (0 / mka_jerk a (b * fac)))) with 0 by (field; lra). apply mka_fold_zero.
Qed.
Lemma mka_no_jerk v0 v1 : v0 <> v1 -> calc_mka v0 v1 0 = 0.
Proof.
  intros H. pose proof (calc_mka_bounds v0 v1 0 ltac:(lra)) as Bd.
  pose proof (norm3_nonneg v0) as P0. pose proof (norm3_nonneg v1) as P1.
  destruct (Rle_lt_or_eq_dec _ _ P0) as [Q0|Q0]; [|assert (Rmin (norm3 v0) (norm3 v1) <= 0) by (rewrite <- Q0; apply Rmin_l); lra].
  destruct (Rle_lt_or_eq_dec _ _ P1) as [Q1|Q1]; [|assert (Rmin (norm3 v0) (norm3 v1) <= 0) by (rewrite <- Q1; apply Rmin_r); lra].
  clear Bd. unfold calc_mka. rewrite Rltb_true by (apply Rmin_glb_lt; assumption).
  apply mka_fold_stop. set (fac := Rmin (norm3 v0) (norm3 v1) / norm3 v0).
  destruct (Req_EM_T (vx v1 * fac) (vx v0)) as [Ex|Ex]; [|exists (vx v0), (vx v1); split; [left; reflexivity|exact Ex]].
  destruct (Req_EM_T (vy v1 * fac) (vy v0)) as [Ey|Ey]; [|exists (vy v0), (vy v1); split; [right; left; reflexivity|exact Ey]].
  destruct (Req_EM_T (vz v1 * fac) (vz v0)) as [Ez|Ez]; [|exists (vz v0), (vz v1); split; [right; right; left; reflexivity|exact Ez]].
  exists (ve v0), (ve v1). split; [right; right; right; left; reflexivity|]. intros Ee.
  assert (Hf : 0 < fac <= 1).
  { unfold fac. split; [apply Rmult_lt_0_compat; [apply Rmin_glb_lt; assumption|apply Rinv_0_lt_compat; assumption]|].
    apply Rmult_le_reg_r with (norm3 v0); [lra|]. unfold Rdiv. rewrite Rmult_assoc, Rinv_l by lra. rewrite Rmult_1_r, Rmult_1_l. apply Rmin_l. }
  assert (En : norm3 v0 = fac * norm3 v1).
  { apply norm3_unique; [nra|]. rewrite <- Ex, <- Ey, <- Ez.
    replace (fac * norm3 v1 * (fac * norm3 v1)) with (fac * fac * (norm3 v1 * norm3 v1)) by ring. rewrite norm3_sq. ring. }
  assert (F1 : fac = 1).
  { unfold fac in *. destruct (Rle_dec (norm3 v0) (norm3 v1)) as [L|L].
    - rewrite Rmin_left by exact L. field. lra.
    - rewrite Rmin_right in * by lra. exfalso. nra. }
  apply H. apply vec4_ext; [rewrite <- Ex|rewrite <- Ey|rewrite <- Ez|rewrite <- Ee]; rewrite F1; ring.
Qed.

(** A right angle between moves along X and along Y at the same speed v > jerk. *)
Lemma mka_right_angle v jerk : 0 < jerk < v ->
  calc_mka (V4 v 0 0 0) (V4 0 v 0 0) jerk = jerk * (jerk / v) * (jerk / v) * (jerk / v).
Proof.
  intros H. unfold calc_mka.
  replace (norm3 (V4 v 0 0 0)) with v by (symmetry; apply norm3_unique; simpl; lra).
  replace (norm3 (V4 0 v 0 0)) with v by (symmetry; apply norm3_unique; simpl; lra).
  rewrite Rmin_left by lra. rewrite Rltb_true by lra. replace (v / v) with 1 by (field; lra).
  cbn [fold_left vx vy vz ve]. unfold mka_axis at 4.
  assert (J1 : mka_jerk v (0 * 1) = v).
  { unfold mka_jerk. rewrite Rltb_false by lra. rewrite Rltb_false by lra. rewrite Rltb_false by lra. cbn [orb]. apply Rmax_right. lra. }
  rewrite J1. rewrite Rltb_true by lra. set (q := 1 * (jerk / v)).
  assert (Hq : q * v = jerk) by (unfold q; field; lra).
  assert (J2 : mka_jerk (0 * q) (v * 1 * q) = jerk).
  { unfold mka_jerk. rewrite Rltb_true by lra. rewrite Rltb_false by lra. rewrite Rltb_false by lra. cbn [orb].
    rewrite Rmax_left; lra. }
  unfold mka_axis at 3. rewrite J2. rewrite Rltb_false by lra.
  assert (J3 : mka_jerk (0 * q) (0 * 1 * q) = 0).
  { unfold mka_jerk. replace (0 * q) with 0 by ring. replace (0 * 1 * q) with 0 by ring.
    rewrite !Rltb_false by lra. cbn [orb]. rewrite Rmax_right by lra. reflexivity. }
  unfold mka_axis. rewrite !J3. rewrite !Rltb_false by lra. cbn [fst]. unfold q. field. lra.
Qed.
