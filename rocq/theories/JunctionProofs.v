(** Bounds on the junction velocities of all firmwares; direction of a move. *)
From Coq Require Import Lra Psatz.
From Verif Require Import Py Vec Segment Junction Planner RealFacts MoveProofs.
Open Scope R_scope.

Lemma vdiv_norm3 v k : 0 < k -> norm3 (vdiv v k) = norm3 v / k.
Proof.
  intros H. rewrite vdiv_scale by lra. rewrite norm3_scale_pos.
  - field. lra.
  - apply Rlt_le, Rinv_0_lt_compat; assumption.
Qed.
Lemma vdiv_norm4 v k : 0 < k -> norm4 (vdiv v k) = norm4 v / k.
Proof.
  intros H. rewrite vdiv_scale by lra. rewrite norm4_scale_pos.
  - field. lra.
  - apply Rlt_le, Rinv_0_lt_compat; assumption.
Qed.

Lemma norm4_ext d : norm3 d = 0 -> norm4 d = Rabs (ve d).
Proof.
  intros H. apply norm3_zero_inv in H. destruct H as (Hx & Hy & Hz).
  apply norm4_unique; [apply Rabs_pos|]. rewrite Hx, Hy, Hz.
  unfold Rabs; destruct (Rcase_abs (ve d)); ring.
Qed.

(** The direction of a move and the target velocity. *)
Lemma connect_same A B : k_pos A = k_pos B -> connect_state A B = vzero.
Proof.
  intros H. unfold connect_state. rewrite H, vsub_self, norm3_vzero. simpl.
  rewrite Rabs_R0. rewrite (Rltb_false 0 0) by lra. vec.
Qed.

Lemma connect_moves A B : k_pos B <> k_pos A -> 0 < k_speed B ->
  exists d eo dist,
    move_distance A B = (dist, eo) /\ 0 < dist /\ is_dir d eo /\
    vscale dist d = vsub (k_pos B) (k_pos A) /\
    connect_state A B = vscale (k_speed B) d /\
    get_norm_dir (connect_state A B) = Some d /\
    not_zero (connect_state A B) = true.
Proof.
  intros Hne Hs.
  set (D := vsub (k_pos B) (k_pos A)).
  assert (HD : norm4 D <> 0).
  { intros H. apply norm4_zero_inv in H. apply Hne.
    apply (f_equal (vadd (k_pos A))) in H.
    rewrite vadd_vzero_r in H. rewrite <- H. unfold D. vec. }
  pose proof (norm4_nonneg D) as HD0. pose proof (norm3_nonneg D) as HD3.
  destruct (Req_EM_T (norm3 D) 0) as [H3|H3].
  - (* extrusion only *)
    assert (He : Rabs (ve D) > 0) by (rewrite <- norm4_ext by assumption; lra).
    exists (vdiv D (Rabs (ve D))), true, (norm4 D).
    assert (Hd3 : norm3 (vdiv D (Rabs (ve D))) = 0).
    { rewrite vdiv_norm3 by lra. rewrite H3. unfold Rdiv. ring. }
    assert (Hd4 : norm4 (vdiv D (Rabs (ve D))) = 1).
    { rewrite vdiv_norm4 by lra. rewrite norm4_ext by assumption. field. lra. }
    assert (Hc : connect_state A B = vscale (k_speed B) (vdiv D (Rabs (ve D)))).
    { unfold connect_state. fold D. rewrite H3, Rabs_R0.
      rewrite (Rltb_false 0 0) by lra. rewrite (Rltb_true 0 (Rabs (ve D))) by lra. reflexivity. }
    split; [|split; [|split; [|split; [|split; [exact Hc|split]]]]].
    + unfold move_distance, t_distance. fold D. rewrite H3, Reqb_refl. reflexivity.
    + lra.
    + split; assumption.
    + rewrite norm4_ext by assumption. apply vec4_ext; cbn [vx vy vz ve vscale vdiv]; field; lra.
    + rewrite Hc. unfold get_norm_dir. rewrite norm3_scale_pos, Hd3, Rmult_0_r by lra.
      rewrite (Rltb_false 0 0) by lra.
      rewrite norm4_scale_pos, Hd4 by lra. rewrite Rltb_true by lra.
      f_equal. apply vec4_ext; cbn [vx vy vz ve vscale vdiv]; field; split; lra.
    + rewrite Hc. unfold not_zero. rewrite norm4_scale_pos, Hd4 by lra. apply Rltb_true; lra.
  - exists (vdiv D (norm3 D)), false, (norm3 D).
    assert (Hd3 : norm3 (vdiv D (norm3 D)) = 1).
    { rewrite vdiv_norm3 by lra. field. lra. }
    assert (Hc : connect_state A B = vscale (k_speed B) (vdiv D (norm3 D))).
    { unfold connect_state. fold D. rewrite Rabs_right by lra.
      rewrite (Rltb_true 0 (norm3 D)) by lra. reflexivity. }
    split; [|split; [|split; [|split; [|split; [exact Hc|split]]]]].
    + unfold move_distance, t_distance. fold D.
      replace (Reqb (norm3 D) 0) with false by (symmetry; apply Reqb_neq; assumption). reflexivity.
    + lra.
    + exact Hd3.
    + fold D. apply vec4_ext; cbn [vx vy vz ve vscale vdiv]; field; lra.
    + rewrite Hc. unfold get_norm_dir. rewrite norm3_scale_pos, Hd3 by lra.
      rewrite Rltb_true by lra. f_equal. apply vec4_ext; cbn [vx vy vz ve vscale vdiv]; field; split; lra.
    + rewrite Hc. unfold not_zero. apply Rltb_true. rewrite norm4_scale_pos by lra.
      pose proof (norm3_le_norm4 (vdiv D (norm3 D))). rewrite Hd3 in H.
      apply Rmult_lt_0_compat; lra.
Qed.

(** Speed of the target velocity: the target speed, or zero in space. *)
Lemma connect_norm3 A B : 0 < k_speed B ->
  norm3 (connect_state A B) = 0 \/ norm3 (connect_state A B) = k_speed B.
Proof.
  intros Hs. destruct (Req_EM_T (norm4 (vsub (k_pos B) (k_pos A))) 0) as [H|H].
  - apply norm4_zero_inv in H. left. unfold connect_state. rewrite H, norm3_vzero. simpl.
    rewrite Rabs_R0. rewrite (Rltb_false 0 0) by lra.
    apply norm3_zero; simpl; ring.
  - destruct (connect_moves A B) as (d & eo & dist & _ & _ & Hd & _ & Hc & _ & _).
    + intros E. apply H. rewrite E, vsub_self. apply norm4_vzero.
    + assumption.
    + rewrite Hc, norm3_scale_pos by lra. destruct eo; simpl in Hd.
      * destruct Hd as [-> _]. left; ring.
      * rewrite Hd. right; ring.
Qed.

(** MKA *)
Lemma mka_axis_bounds jerk fac vmax vfac lim ax :
  0 <= jerk -> 0 <= vmax -> 0 <= vfac <= 1 ->
  let '(vmax', vfac', lim') := mka_axis jerk fac (vmax, vfac, lim) ax in
  0 <= vmax' <= vmax /\ 0 <= vfac' <= 1.
Proof.
  intros Hj Hm Hf. unfold mka_axis. destruct ax as [v0 v1].
  set (j := mka_jerk _ _).
  destruct (Rltb_spec jerk j) as [Hlt|Hge].
  - assert (0 <= jerk / j <= 1).
    { split; [apply Rdiv_nonneg; lra|]. apply Rmult_le_reg_r with j; [lra|].
      unfold Rdiv. rewrite Rmult_assoc, Rinv_l by lra. lra. }
    set (q := jerk / j) in *. assert (0 <= vfac * q <= 1) by (split; nra). split; [split; nra | assumption].
  - destruct lim; (split; [|assumption]); split; nra.
Qed.

Lemma calc_mka_bounds v0 v1 jerk : 0 <= jerk ->
  0 <= calc_mka v0 v1 jerk <= Rmin (norm3 v0) (norm3 v1).
Proof.
  intros Hj. unfold calc_mka.
  set (vmax := Rmin (norm3 v0) (norm3 v1)).
  assert (Hm : 0 <= vmax) by (apply Rmin_glb; apply norm3_nonneg).
  clearbody vmax.
  match goal with |- context [fold_left (mka_axis jerk ?f) ?l _] => set (fac := f); generalize l end.
  intros l.
  assert (G : forall l vm vf lim, 0 <= vm -> 0 <= vf <= 1 ->
            0 <= fst (fst (fold_left (mka_axis jerk fac) l (vm, vf, lim))) <= vm).
  { clear l. induction l as [|ax l IH]; intros vm vf lim H1 H2; cbn [fold_left fst]; [lra|].
    pose proof (mka_axis_bounds jerk fac vm vf lim ax Hj H1 H2) as H.
    destruct (mka_axis jerk fac (vm, vf, lim) ax) as [[vm' vf'] lim'].
    destruct H as [H3 H4]. destruct (IH vm' vf' lim'); try split; lra. }
  apply G; lra.
Qed.

Lemma calc_jerk_bounds v0 v1 jerk : 0 <= jerk -> 0 <= calc_jerk v0 v1 jerk <= norm3 v0.
Proof.
  intros Hj. unfold calc_jerk. pose proof (norm3_nonneg v0) as H0.
  match goal with |- context [Rleb 1 ?s] => destruct (Rleb_spec 1 s) as [H|H]; [|lra];
    set (sc := s) in * end.
  rewrite vdiv_norm3 by lra. split; [apply Rdiv_nonneg; lra|].
  apply Rmult_le_reg_r with sc; [lra|]. unfold Rdiv. rewrite Rmult_assoc, Rinv_l by lra. nra.
Qed.

Lemma calc_JD_bounds v0 v1 acc jerk speed : 0 <= speed ->
  0 <= calc_JD v0 v1 acc jerk speed <= speed.
Proof.
  intros Hs. unfold calc_JD.
  destruct (Reqb jerk 0); [lra|].
  destruct (Reqb (norm3 v0) 0 || Reqb (norm3 v1) 0); [lra|].
  match goal with |- context [if Rltb ?a ?b then _ else speed] => destruct (Rltb a b) end; [|lra].
  match goal with |- context [if Rltb ?a ?b then _ else 0] => destruct (Rltb a b) end; [|lra].
  match goal with |- context [if Rltb ?a speed then _ else speed] =>
    destruct (Rltb_spec a speed) as [H|H]; [pose proof (sqrt_pos (acc * (4 / 10 * jerk * jerk / acc * (if Rltb (- dot3 v0 v1 / (norm3 v0 * norm3 v1)) 1 then sqrt ((1 - - dot3 v0 v1 / (norm3 v0 * norm3 v1)) / 2) else 0) / (1 - (if Rltb (- dot3 v0 v1 / (norm3 v0 * norm3 v1)) 1 then sqrt ((1 - - dot3 v0 v1 / (norm3 v0 * norm3 v1)) / 2) else 0))))) |] end; lra.
Qed.
Lemma calc_JD_still v0 v1 acc jerk speed : norm3 v0 = 0 \/ norm3 v1 = 0 -> calc_JD v0 v1 acc jerk speed = 0.
Proof.
  intros H. unfold calc_JD. destruct (Reqb jerk 0); [reflexivity|].
  replace (Reqb (norm3 v0) 0 || Reqb (norm3 v1) 0) with true; [reflexivity|].
  symmetry. apply orb_true_iff. destruct H as [H|H]; [left | right]; apply Reqb_iff; assumption.
Qed.

Lemma calc_klipper_bounds v0 v1 dist acc jerk speed : 0 <= speed ->
  0 <= calc_klipper v0 v1 dist acc jerk speed <= speed.
Proof.
  intros Hs. unfold calc_klipper.
  destruct (Reqb (norm3 v0) 0 || Reqb (norm3 v1) 0); [lra|].
  match goal with |- context [if Rltb ?a ?b then _ else _] => destruct (Rltb a b) end; [lra|].
  split; [apply sqrt_pos|].
  apply sqrt_le_sq; [assumption | apply Rmin_r].
Qed.
Lemma calc_klipper_still v0 v1 dist acc jerk speed : norm3 v0 = 0 \/ norm3 v1 = 0 ->
  calc_klipper v0 v1 dist acc jerk speed = 0.
Proof.
  intros H. unfold calc_klipper.
  replace (Reqb (norm3 v0) 0 || Reqb (norm3 v1) 0) with true; [reflexivity|].
  symmetry. apply orb_true_iff. destruct H as [H|H]; [left | right]; apply Reqb_iff; assumption.
Qed.

(** C27 *)
Lemma junction_vel_bounds fw A B rest : 0 < k_speed B -> 0 <= k_jerk B ->
  0 <= junction_vel fw (mk_junction (Some A) B rest) B <= norm3 (connect_state A B).
Proof.
  intros Hs Hj. unfold mk_junction, junction_vel; cbn [target_vel vel_next jt_distance connect_state_opt].
  set (v1 := connect_state B (find_next_state B rest)).
  set (dd := norm3 _).
  destruct (connect_norm3 A B Hs) as [H|H]; rewrite H.
  - destruct fw.
    + rewrite calc_JD_still by auto. lra.
    + rewrite calc_klipper_still by auto. lra.
    + pose proof (calc_jerk_bounds (connect_state A B) v1 (k_jerk B) Hj). rewrite H in H0. lra.
    + pose proof (calc_mka_bounds (connect_state A B) v1 (k_jerk B) Hj) as H0.
      rewrite H in H0. pose proof (Rmin_l 0 (norm3 v1)). lra.
    + lra.
  - destruct fw.
    + apply calc_JD_bounds; lra.
    + apply calc_klipper_bounds; lra.
    + rewrite <- H. apply calc_jerk_bounds; assumption.
    + rewrite <- H. pose proof (calc_mka_bounds (connect_state A B) v1 (k_jerk B) Hj) as H0.
      pose proof (Rmin_l (norm3 (connect_state A B)) (norm3 v1)). lra.
    + lra.
Qed.
Lemma still_norm A B : 0 < k_speed B -> norm3 (vsub (k_pos B) (k_pos A)) = 0 -> norm3 (connect_state A B) = 0.
Proof.
  intros Hs H. unfold connect_state. rewrite H, Rabs_R0, (Rltb_false 0 0) by lra.
  pose proof (norm3_sq (vsub (k_pos B) (k_pos A))) as Q. rewrite H in Q.
  assert (Z : vx (vsub (k_pos B) (k_pos A)) = 0 /\ vy (vsub (k_pos B) (k_pos A)) = 0 /\ vz (vsub (k_pos B) (k_pos A)) = 0) by (repeat split; nra).
  destruct Z as (X & Y & Z). apply norm3_unique; [lra|].
  destruct (Rltb 0 _); cbn [vx vy vz vscale vdiv vzero]; rewrite ?X, ?Y, ?Z; unfold Rdiv; ring.
Qed.
