(** Proofs of the corner formulas. *)
From Coq Require Import Reals Lra.
From Verif Require Import Py Vec Junction SpecJunction SpecCorner RealFacts JunctionProofs CornerProofs.
Open Scope R_scope.

Lemma sin_half c : -1 <= c <= 1 -> sin (acos c / 2) = sqrt ((1 - c) / 2).
Proof.
  intros H. pose proof (acos_bound c) as [H0 H1]. pose proof PI_RGT_0.
  assert (Hs : 0 <= sin (acos c / 2)) by (apply sin_ge_0; lra).
  rewrite <- (sqrt_Rsqr _ Hs). f_equal. unfold Rsqr.
  pose proof (cos_2a_sin (acos c / 2)) as E. replace (2 * (acos c / 2)) with (acos c) in E by field.
  rewrite cos_acos in E by exact H. lra.
Qed.
Lemma cos_half c : -1 <= c <= 1 -> cos (acos c / 2) = sqrt ((1 + c) / 2).
Proof.
  intros H. pose proof (acos_bound c) as [H0 H1]. pose proof PI_RGT_0.
  assert (Hs : 0 <= cos (acos c / 2)) by (apply cos_ge_0; lra).
  rewrite <- (sqrt_Rsqr _ Hs). f_equal. unfold Rsqr.
  pose proof (cos_2a_cos (acos c / 2)) as E. replace (2 * (acos c / 2)) with (acos c) in E by field.
  rewrite cos_acos in E by exact H. lra.
Qed.
Lemma opening_cos a b : 0 < norm3 a -> 0 < norm3 b -> cos (opening a b) = - cosang a b.
Proof.
  intros Ha Hb. change (opening a b) with (acos (- cosang a b)). apply cos_acos.
  pose proof (cosang_bounds a b Ha Hb). lra.
Qed.
(** The radius for a deviation. *)
Lemma rounds_radius theta delta r : 0 <= sin (theta / 2) < 1 -> rounds theta delta r <-> r = delta * sin (theta / 2) / (1 - sin (theta / 2)).
Proof.
  intros H. unfold rounds. set (s := sin (theta / 2)) in *. split; intros E.
  - apply Rmult_eq_reg_r with (1 - s); [|lra]. unfold Rdiv. rewrite Rmult_assoc, Rinv_l by lra. lra.
  - rewrite E. field. lra.
Qed.
Lemma largest_sqrt x s : 0 <= s -> 0 <= x -> largest (fun v => 0 <= v <= s /\ v * v <= x) (if Rltb (sqrt x) s then sqrt x else s).
Proof.
  intros Hs Hx. pose proof (sqrt_pos x) as Hq. pose proof (sqrt_sqrt x Hx) as Hqq. destruct (Rltb_spec (sqrt x) s) as [H|H].
  - split; [split; lra|]. intros w [[W0 W1] W2]. apply Rsqr_incr_0_var; [unfold Rsqr; lra | exact Hq].
  - split; [|intros w [[W0 W1] _]; exact W1]. split; [lra|]. assert (s * s <= sqrt x * sqrt x) by (apply Rmult_le_compat; lra). lra.
Qed.
Lemma largest_min x y s : 0 <= s -> 0 <= x -> 0 <= y ->
  largest (fun v => 0 <= v <= s /\ v * v <= x /\ v * v <= y) (sqrt (Rmin (Rmin x y) (s * s))).
Proof.
  intros Hs Hx Hy. set (m := Rmin (Rmin x y) (s * s)).
  assert (Hm : 0 <= m) by (unfold m; repeat apply Rmin_glb; try assumption; nra).
  pose proof (sqrt_sqrt m Hm) as E. pose proof (sqrt_pos m) as P.
  assert (M1 : m <= x) by (unfold m; eapply Rle_trans; [apply Rmin_l|apply Rmin_l]).
  assert (M2 : m <= y) by (unfold m; eapply Rle_trans; [apply Rmin_l|apply Rmin_r]).
  assert (M3 : m <= s * s) by apply Rmin_r.
  split.
  - split; [split; [exact P|]|split; lra]. apply Rsqr_incr_0_var; [unfold Rsqr; lra | exact Hs].
  - intros w ((W0 & W1) & W2 & W3). apply Rsqr_incr_0_var; [|exact P]. unfold Rsqr. rewrite E.
    unfold m. repeat apply Rmin_glb; try assumption. apply Rmult_le_compat; lra.
Qed.
Lemma klipper_formula c theta dist acc jerk speed delta r : 0 < acc -> 0 <= jerk -> 0 < speed -> 0 <= dist -> -1 <= c <= 999999 / 1000000 ->
  0 <= theta <= PI -> cos theta = Rmax c (- (999999 / 1000000)) ->
  rounds (PI / 2) delta (jerk * jerk / acc) -> rounds theta delta r ->
  largest (fun v => 0 <= v <= speed /\ v * v <= acc * r /\ v * v <= acc * (dist / 2 * tan (theta / 2))) (klipper_of c dist acc jerk speed).
Proof.
  intros Ha Hj Hs Hd Hc Ht Ec Hdl Hr. unfold klipper_of. set (c' := Rmax c (- (999999 / 1000000))) in *. cbv zeta.
  assert (Hc' : - (999999 / 1000000) <= c' <= 999999 / 1000000) by (unfold c'; split; [apply Rmax_r | apply Rmax_lub; lra]).
  rewrite Rltb_false by lra.
  assert (Et : theta = acos c') by (rewrite <- Ec; symmetry; apply acos_cos; exact Ht).
  assert (Es : sin (theta / 2) = sqrt (5 / 10 * (1 - c'))) by (rewrite Et, sin_half by lra; f_equal; field).
  assert (Eo : cos (theta / 2) = sqrt (5 / 10 * (1 + c'))) by (rewrite Et, cos_half by lra; f_equal; field).
  assert (S0 : 0 < sqrt (5 / 10 * (1 - c'))) by (apply sqrt_lt_R0; lra).
  assert (S1 : sqrt (5 / 10 * (1 - c')) < 1) by (apply sqrt_lt_sq; lra).
  assert (O0 : 0 < sqrt (5 / 10 * (1 + c'))) by (apply sqrt_lt_R0; lra).
  rewrite <- Es in *. rewrite <- Eo in *.
  assert (Ed : delta = klipper_delta acc jerk).
  { unfold rounds in Hdl. replace (PI / 2 / 2) with (PI / 4) in Hdl by field. rewrite sin_PI4 in Hdl. unfold klipper_delta.
    pose proof sqrt2_bounds as Q. pose proof (sqrt_sqrt 2 ltac:(lra)) as QQ.
    apply (f_equal (fun x => x * sqrt 2)) in Hdl.
    replace ((jerk * jerk / acc + delta) * (1 / sqrt 2) * sqrt 2) with (jerk * jerk / acc + delta) in Hdl by (field; lra).
    replace (jerk * jerk * (sqrt 2 - 1) / acc) with (jerk * jerk / acc * sqrt 2 - jerk * jerk / acc) by (field; lra). lra. }
  apply rounds_radius in Hr; [|lra]. rewrite Ed in Hr. rewrite <- Hr.
  replace (5 / 10 * dist * (sin (theta / 2) / cos (theta / 2)) * acc) with (acc * (dist / 2 * tan (theta / 2))) by (unfold tan; field; lra).
  apply largest_min; [lra| |].
  - apply Rmult_le_pos; [lra|]. rewrite Hr. unfold klipper_delta. pose proof sqrt2_bounds.
    repeat apply Rmult_le_pos; try lra; left; apply Rinv_0_lt_compat; lra.
  - unfold tan. repeat apply Rmult_le_pos; try lra; left; apply Rinv_0_lt_compat; lra.
Qed.
Lemma klipper_back c dist acc jerk speed : 999999 / 1000000 < c -> klipper_of c dist acc jerk speed = 0.
Proof. intros H. unfold klipper_of. rewrite Rltb_true; [reflexivity|]. eapply Rlt_le_trans; [exact H | apply Rmax_l]. Qed.

Lemma jd_formula c acc jerk speed : 0 < acc -> jerk <> 0 -> 0 < speed -> -1 <= c <= 1 ->
  let theta := acos c in
  (theta <= 18 * PI / 180 -> JD_of c acc jerk speed = 0) /\
  (162 * PI / 180 <= theta -> JD_of c acc jerk speed = speed) /\
  (18 * PI / 180 < theta < 162 * PI / 180 -> forall r, rounds theta (4 / 10 * (jerk * jerk / acc)) r ->
     largest (fun v => 0 <= v <= speed /\ v * v <= acc * r) (JD_of c acc jerk speed)).
Proof.
  intros Ha Hj Hs Hc theta. pose proof PI_RGT_0 as HP. pose proof (acos_bound c) as Hb. fold theta in Hb.
  assert (Es : (if Rltb c 1 then sqrt ((1 - c) / 2) else 0) = sin (theta / 2)).
  { unfold theta. rewrite sin_half by exact Hc. destruct (Rltb_spec c 1) as [H|H]; [reflexivity|].
    replace ((1 - c) / 2) with 0 by lra. symmetry. apply sqrt_0. }
  unfold JD_of. rewrite (proj2 (Reqb_neq jerk 0) Hj), Es. cbv zeta.
  replace (162 * PI / 360) with (162 * PI / 180 / 2) by field. replace (18 * PI / 360) with (18 * PI / 180 / 2) by field.
  split; [|split].
  - intros H. rewrite (Rltb_true (sin (theta / 2))) by (apply sin_increasing_1; lra).
    rewrite Rltb_false; [reflexivity|]. apply sin_incr_1; lra.
  - intros H. rewrite Rltb_false; [reflexivity|]. apply sin_incr_1; lra.
  - intros [H1 H2] r Hr. rewrite (Rltb_true (sin (theta / 2))) by (apply sin_increasing_1; lra).
    rewrite Rltb_true by (apply sin_increasing_1; lra).
    assert (S0 : 0 <= sin (theta / 2)) by (apply sin_ge_0; lra).
    assert (S1 : sin (theta / 2) < 1) by (rewrite <- sin_PI2; apply sin_increasing_1; lra).
    apply rounds_radius in Hr; [|lra].
    replace (4 / 10 * jerk * jerk / acc * sin (theta / 2) / (1 - sin (theta / 2))) with r by (rewrite Hr; field; lra).
    apply largest_sqrt; [lra|]. apply Rmult_le_pos; [lra|]. rewrite Hr.
    assert (J : 0 <= jerk * jerk / acc) by (apply Rmult_le_pos; [nra | left; apply Rinv_0_lt_compat; lra]).
    apply Rmult_le_pos; [nra | left; apply Rinv_0_lt_compat; lra].
Qed.

(** * Marlin classic jerk *)
Lemma jerk_formula v0 v1 jerk speed : 0 < jerk -> 0 < speed -> norm3 v0 = speed ->
  largest (fun v => 0 <= v <= speed /\ norm3 (vsub (vscale (v / speed) v0) (vscale (v / speed) v1)) <= 2 * jerk) (calc_jerk v0 v1 jerk).
Proof.
  intros Hj Hs H0. unfold calc_jerk. rewrite (Rltb_true 0 (jerk * 2)) by lra. cbv zeta.
  set (d := norm3 (vsub v0 v1)).
  assert (Ed : forall v, 0 <= v -> norm3 (vsub (vscale (v / speed) v0) (vscale (v / speed) v1)) = v / speed * d).
  { intros v Hv. rewrite vscale_vsub. unfold d. rewrite norm3_scale, Rabs_right; [ring|]. apply Rle_ge, Rmult_le_pos; [exact Hv | left; apply Rinv_0_lt_compat; exact Hs]. }
  pose proof (norm3_nonneg (vsub v0 v1)) as Hd. fold d in Hd.
  destruct (Rleb_spec 1 (d / (jerk * 2))) as [H|H].
  - assert (Hle : jerk * 2 <= d) by (apply (Rmult_le_compat_r (jerk * 2)) in H; [|lra]; unfold Rdiv in H; rewrite Rmult_assoc, Rinv_l in H; lra).
    assert (Ev : norm3 (vdiv v0 (d / (jerk * 2))) = speed * (jerk * 2) / d).
    { rewrite vdiv_norm3; [rewrite H0; field; lra|]. apply Rmult_lt_0_compat; [lra | apply Rinv_0_lt_compat; lra]. }
    rewrite Ev. assert (Hv0 : 0 <= speed * (jerk * 2) / d) by (apply Rmult_le_pos; [nra | left; apply Rinv_0_lt_compat; lra]).
    split.
    + split; [split; [exact Hv0|]|].
      * apply Rmult_le_reg_r with d; [lra|]. unfold Rdiv. rewrite Rmult_assoc, Rinv_l by lra. nra.
      * rewrite Ed by exact Hv0. right. field. lra.
    + intros w [[W0 W1] W2]. rewrite Ed in W2 by exact W0. apply Rmult_le_reg_r with d; [lra|].
      replace (speed * (jerk * 2) / d * d) with (speed * (2 * jerk)) by (field; lra).
      replace (w * d) with (speed * (w / speed * d)) by (field; lra). apply Rmult_le_compat_l; lra.
  - rewrite H0. split; [|intros w [[_ W] _]; exact W]. split; [lra|]. rewrite Ed by lra.
    replace (speed / speed * d) with d by (field; lra).
    apply Rnot_le_lt in H. apply (Rmult_lt_compat_r (jerk * 2)) in H; [|lra]. unfold Rdiv in H. rewrite Rmult_assoc, Rinv_l in H; lra.
Qed.

(** * Where nothing travels *)
Lemma find_stays B : forall rest, Forall (fun s => k_pos s = k_pos B) rest -> k_pos (find_next_state B rest) = k_pos B.
Proof.
  induction rest as [|s rest IH]; intros H; [reflexivity|]. inversion H as [|? ? E F]; subst. cbn [find_next_state].
  destruct rest as [|s' rest]; [exact E|]. destruct (Rltb _ _); [exact E | exact (IH F)].
Qed.
Lemma exit_still B rest : 0 < k_speed B -> no_exit B rest -> (forall s, In s rest -> 0 < k_speed s) ->
  norm3 (connect_state B (find_next_state B rest)) = 0.
Proof.
  intros Hs [H|(N & Hn & HN)] Hr.
  - rewrite connect_same by (symmetry; exact (find_stays B rest H)). apply norm3_vzero.
  - rewrite (next_stop_find _ _ _ Hn). apply still_norm; [|exact HN]. apply Hr. clear -Hn. induction Hn; [left; reflexivity | right; assumption].
Qed.

(** * MKA *)
Lemma mka_scale k a b : 0 <= k -> mka_jerk (a * k) (b * k) = k * mka_jerk a b.
Proof.
  intros Hk. destruct (Req_dec k 0) as [->|Hk0].
  { rewrite !Rmult_0_r, Rmult_0_l. unfold mka_jerk. rewrite !(Rltb_false 0 0) by lra. cbn [orb].
    rewrite Ropp_0. apply Rmax_left. lra. }
  assert (Hp : 0 < k) by lra.
  assert (L : forall x y, Rltb (x * k) (y * k) = Rltb x y).
  { intros x y. destruct (Rltb_spec x y) as [H|H]; [apply Rltb_true, Rmult_lt_compat_r; lra | apply Rltb_false, Rmult_le_compat_r; lra]. }
  assert (Z1 : forall x, Rltb 0 (x * k) = Rltb 0 x) by (intros x; rewrite <- (L 0 x), Rmult_0_l; reflexivity).
  assert (Z2 : forall x, Rltb (x * k) 0 = Rltb x 0) by (intros x; rewrite <- (L x 0), Rmult_0_l; reflexivity).
  assert (M : forall x y, Rmax (k * x) (k * y) = k * Rmax x y) by (intros x y; rewrite RmaxRmult by lra; reflexivity).
  unfold mka_jerk. rewrite L, !Z1, !Z2.
  destruct (Rltb a b); [destruct (Rltb 0 a || Rltb b 0) | destruct (Rltb a 0 || Rltb 0 b)]; try ring; rewrite <- M; f_equal; ring.
Qed.
Lemma mka_axis_ok j k a b : 0 <= k -> k * mka_jerk a b <= j -> axis_ok j (a * k) (b * k).
Proof.
  intros Hk. rewrite <- mka_scale by exact Hk. generalize (a * k) (b * k). clear. intros a b. unfold mka_jerk, axis_ok.
  destruct (Rltb_spec a b) as [H|H].
  - destruct (Rltb_spec 0 a) as [H1|H1]; [|destruct (Rltb_spec b 0) as [H2|H2]]; cbn [orb]; intros L.
    + left. rewrite Rabs_right; lra.
    + left. rewrite Rabs_right; lra.
    + right. pose proof (Rmax_l b (- a)). pose proof (Rmax_r b (- a)). split; [nra|]. rewrite (Rabs_left1 a), (Rabs_right b) by lra. lra.
  - destruct (Rltb_spec a 0) as [H1|H1]; [|destruct (Rltb_spec 0 b) as [H2|H2]]; cbn [orb]; intros L.
    + left. rewrite Rabs_left1; lra.
    + left. rewrite Rabs_left1; lra.
    + right. pose proof (Rmax_l (- b) a). pose proof (Rmax_r (- b) a). split; [nra|]. rewrite (Rabs_left1 b), (Rabs_right a) by lra. lra.
Qed.
(** What the loop over the axes keeps: the factor is small enough for all axes
    seen so far, and the speed has been multiplied with it. *)
Definition mka_inv (jerk v : R) (seen : list (R * R)) (st : R * R * bool) : Prop :=
  let '(vmax, vfac, lim) := st in
  0 <= vfac <= 1 /\ (lim = false -> vfac = 1) /\ 0 <= vmax <= v * vfac /\
  Forall (fun ax => vfac * mka_jerk (fst ax) (snd ax) <= jerk) seen.
Lemma mka_jerk_nonneg a b : 0 <= mka_jerk a b.
Proof. destruct (Req_dec a b) as [->|H]; [|left; apply mka_jerk_pos; exact H].
  unfold mka_jerk. rewrite Rltb_false by lra. destruct (Rltb_spec b 0) as [H|H]; destruct (Rltb_spec 0 b) as [H1|H1]; cbn [orb]; try lra.
  apply Rle_trans with b; [lra | apply Rmax_r].
Qed.
Lemma mka_keeps jerk v seen st ax : 0 <= jerk -> 0 <= v -> mka_inv jerk v seen st -> mka_inv jerk v (ax :: seen) (mka_axis jerk 1 st ax).
Proof.
  intros Hj Hv. destruct st as [[vmax vfac] lim], ax as [a b]. unfold mka_inv, mka_axis. intros (F & L & V & S). rewrite Rmult_1_r.
  assert (E : mka_jerk (if lim then a * vfac else a) (if lim then b * vfac else b) = vfac * mka_jerk a b).
  { destruct lim; [apply mka_scale; lra|]. rewrite (L eq_refl). ring. }
  rewrite E. pose proof (mka_jerk_nonneg a b) as P. set (m := mka_jerk a b) in *.
  destruct (Rltb_spec jerk (vfac * m)) as [H|H].
  - assert (Q : 0 <= jerk / (vfac * m) <= 1).
    { split; [apply Rmult_le_pos; [lra | left; apply Rinv_0_lt_compat; lra]|].
      apply Rmult_le_reg_r with (vfac * m); [lra|]. unfold Rdiv. rewrite Rmult_assoc, Rinv_l; lra. }
    set (q := jerk / (vfac * m)) in *. assert (Fq : 0 <= vfac * q <= vfac) by nra.
    assert (Vv : vmax <= v) by (apply Rle_trans with (v * vfac); [lra|]; rewrite <- (Rmult_1_r v) at 2; apply Rmult_le_compat_l; lra).
    split; [lra|]. split; [discriminate|]. split; [split; [apply Rmult_le_pos; lra | apply Rmult_le_compat_r; lra]|]. constructor.
    + cbn [fst snd]. fold m. unfold q. right. field. nra.
    + eapply Forall_impl; [|exact S]. intros [x y] Hxy. cbn [fst snd] in *. pose proof (mka_jerk_nonneg x y). nra.
  - split; [exact F|]. split; [exact L|]. split; [|constructor; [apply Rnot_lt_le; exact H | exact S]].
    assert (Vv : vmax <= v) by (apply Rle_trans with (v * vfac); [lra|]; rewrite <- (Rmult_1_r v) at 2; apply Rmult_le_compat_l; lra).
    destruct lim; [|exact V]. split; [apply Rmult_le_pos; lra | apply Rmult_le_compat_r; lra].
Qed.
Lemma mka_fold jerk v : 0 <= jerk -> 0 <= v -> forall axes seen st, mka_inv jerk v seen st ->
  mka_inv jerk v (rev axes ++ seen) (fold_left (mka_axis jerk 1) axes st).
Proof.
  intros Hj Hv axes. induction axes as [|ax axes IH]; intros seen st H; [exact H|]. cbn [fold_left rev]. rewrite <- app_assoc.
  apply IH. apply mka_keeps; assumption.
Qed.
Lemma mka_jumps v0 v1 jerk speed : 0 <= jerk -> 0 < speed -> norm3 v0 = speed -> norm3 v1 = speed ->
  let k := calc_mka v0 v1 jerk / speed in
  axis_ok jerk (vx v0 * k) (vx v1 * k) /\ axis_ok jerk (vy v0 * k) (vy v1 * k) /\
  axis_ok jerk (vz v0 * k) (vz v1 * k) /\ axis_ok jerk (ve v0 * k) (ve v1 * k).
Proof.
  intros Hj Hs H0 H1. cbv zeta. unfold calc_mka. rewrite H0, H1, Rmin_left by lra. rewrite (Rltb_true 0 speed) by exact Hs.
  replace (speed / speed) with 1 by (field; lra).
  set (axes := [(vx v0, vx v1); (vy v0, vy v1); (vz v0, vz v1); (ve v0, ve v1)]).
  assert (I : mka_inv jerk speed [] (speed, 1, false)) by (unfold mka_inv; split; [lra|]; split; [reflexivity|]; split; [lra | constructor]).
  apply (mka_fold jerk speed Hj (Rlt_le _ _ Hs) axes) in I. destruct (fold_left _ axes _) as [[vmax vfac] lim]. cbn [fst].
  destruct I as (F & _ & V & S). rewrite app_nil_r in S.
  set (k := vmax / speed). assert (K : 0 <= k <= vfac).
  { unfold k. split; [apply Rmult_le_pos; [lra | left; apply Rinv_0_lt_compat; exact Hs]|].
    apply Rmult_le_reg_r with speed; [exact Hs|]. unfold Rdiv. rewrite Rmult_assoc, Rinv_l by lra. lra. }
  assert (G : forall a b, In (a, b) axes -> axis_ok jerk (a * k) (b * k)).
  { intros a b Hin. apply mka_axis_ok; [lra|]. rewrite Forall_forall in S. specialize (S (a, b)). cbn [fst snd] in S.
    pose proof (mka_jerk_nonneg a b). apply Rle_trans with (vfac * mka_jerk a b); [apply Rmult_le_compat_r; lra|].
    apply S. apply in_rev. rewrite rev_involutive. exact Hin. }
  repeat split; apply G; unfold axes; cbn; tauto.
Qed.
