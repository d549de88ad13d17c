(** Property C82: a part that is moved or turned is printed in the same way.
    Vocabulary: SpecRigid.v, SpecKin.v, SpecQuery.v, SpecJunction.v. *)
From Coq Require Import Lra.
From Verif Require Import Py Vec Segment Junction Planner Query RealFacts SpecKin SpecQuery SpecJunction SpecRigid
  PlannerProofs TrajProofs PlanFacts QueryProofs CornerProofs RigidProofs PropertiesPlan PropertiesCorner.
Open Scope R_scope.

(** Two simulations of which the second answers every query with the turned
    velocity and the turned and moved position. *)
Definition same_print (T : vec4 -> vec4) (c : vec4) (bl bl' : list block) : Prop :=
  length bl' = length bl /\ map b_type bl' = map b_type bl /\ map b_extr bl' = map b_extr bl /\
  (forall t, print_time bl t -> print_time bl' t) /\
  (forall unit hist t u k v x, unit_length (match u with Some w => w | None => unit end) k ->
     fst (get_values (after_queries (Sim bl unit None) hist) t u) = Ok (v, x) ->
     fst (get_values (after_queries (Sim bl' unit None) hist) t u) = Ok (T v, vadd (T x) (vscale (/ k) c))).

Lemma placed_same_print T c bl : isometry T -> same_print T c bl (map (placed_block T c) bl).
Proof.
  intros HT. split; [apply map_length|]. split; [rewrite map_map; reflexivity|]. split; [rewrite map_map; reflexivity|]. split.
  - intros t (pre & l & E & ->). exists (map (placed_seg T c) pre), (placed_seg T c l). rewrite Q_unpack, E, map_app. split; reflexivity.
  - intros unit hist t u k v x Hk H. destruct (Q_after T c bl unit hist None) as (j & E1 & E2). rewrite E1. rewrite E2 in H.
    rewrite (Q_values T c HT bl unit j t u (/ k)); [rewrite H; reflexivity|].
    destruct Hk; unfold output_units; cbn; f_equal; field.
Qed.

(** Every firmware but MKA: turning and moving the part. *)
Theorem C82_turned_partial fw T c s0 states bl wn : fw <> MKA -> isometry T -> valid_program s0 states ->
  simulate fw (s0 :: states) = Ok (bl, wn) ->
  exists bl', simulate fw (map (placed_state T c) (s0 :: states)) = Ok (bl', wn) /\ same_print T c bl bl'.
Proof.
  intros Hf HT Hv H. exists (map (placed_block T c) bl). split; [|apply placed_same_print; exact HT].
  exact (placed_simulation T c HT fw (isotropic T c fw HT Hf) s0 states bl wn Hv H).
Qed.
(** Every firmware: moving the part, and the zero of the filament. *)
Theorem C82_moved fw c s0 states bl wn : valid_program s0 states ->
  simulate fw (s0 :: states) = Ok (bl, wn) ->
  exists bl', simulate fw (map (placed_state (fun v => v) c) (s0 :: states)) = Ok (bl', wn) /\ same_print (fun v => v) c bl bl'.
Proof.
  intros Hv H. exists (map (placed_block (fun v => v) c) bl). split; [|apply placed_same_print; exact id_isometry].
  exact (placed_simulation _ c id_isometry fw (shift_any c fw) s0 states bl wn Hv H).
Qed.
(** A turn around the z axis is one of these maps. *)
Theorem C82_turn_is_isometry w : isometry (turn w).
Proof. exact (turn_isometry w). Qed.

(** MKA looks at the axes one by one: the same right angle is passed with
    another speed when it is turned. *)
Theorem C82_mka_refuted : exists T A B N, isometry T /\ corner A B [N] N /\
  corner_speed MKA (placed_state T vzero A) (placed_state T vzero B) [placed_state T vzero N] <> corner_speed MKA A B [N].
Proof.
  set (T := fun v => V4 (3 / 5 * vx v - 4 / 5 * vy v) (4 / 5 * vx v + 3 / 5 * vy v) (vz v) (ve v)).
  set (A := KState (V4 0 0 0 0) 10 500 8 None None). set (B := KState (V4 10 0 0 0) 10 500 8 None None).
  set (N := KState (V4 10 5 0 0) 10 500 8 None None). exists T, A, B, N.
  assert (HT : isometry T).
  { split; [intros; unfold T; vec|]. split; [intros; unfold T; vec|]. split; [intros; unfold T; simpl; field|reflexivity]. }
  assert (N1 : norm3 (travel A B) = 10) by (apply norm3_unique; simpl; lra).
  assert (N2 : norm3 (travel B N) = 5) by (apply norm3_unique; simpl; lra).
  assert (Hc : corner A B [N] N).
  { constructor; try (simpl; lra). apply ns_here. intros E. apply (f_equal vy) in E. simpl in E. lra. }
  assert (Hx : along_x_then_y 10 8 A B N).
  { split; [exists 10; split; [lra|apply vec4_ext; simpl; lra]|]. split; [exists 5; split; [lra|apply vec4_ext; simpl; lra]|]. repeat split. }
  split; [exact HT|]. split; [exact Hc|]. rewrite (C63_mka_right_angle_partial 10 8 A B [N] N Hc Hx) by lra.
  set (A' := placed_state T vzero A). set (B' := placed_state T vzero B). set (N' := placed_state T vzero N).
  assert (M1 : norm3 (travel A' B') = 10) by (apply norm3_unique; simpl; lra).
  assert (M2 : norm3 (travel B' N') = 5) by (apply norm3_unique; simpl; lra).
  assert (Hc' : corner A' B' [N'] N').
  { constructor; try (simpl; lra). apply ns_here. intros E. apply (f_equal vy) in E. simpl in E. lra. }
  assert (V0 : nominal A' B' = V4 6 8 0 0) by (unfold nominal, unit3; rewrite M1; apply vec4_ext; simpl; field).
  assert (V1 : nominal B' N' = V4 (-8) 6 0 0) by (unfold nominal, unit3; rewrite M2; apply vec4_ext; simpl; field).
  replace (corner_speed MKA A' B' [N']) with 10; [lra|].
  unfold corner_speed, junction_vel, mk_junction. cbn [target_vel vel_next connect_state_opt].
  rewrite (next_stop_find _ _ _ (co_next _ _ _ _ Hc')), !connect_nominal by lra. rewrite V0, V1.
  unfold calc_mka. replace (norm3 (V4 6 8 0 0)) with 10 by (symmetry; apply norm3_unique; simpl; lra).
  replace (norm3 (V4 (-8) 6 0 0)) with 10 by (symmetry; apply norm3_unique; simpl; lra).
  change (k_jerk B') with 8. rewrite !Rmin_left by lra. rewrite Rltb_true by lra. cbn [fold_left vx vy vz ve].
  assert (J1 : mka_jerk 6 (-8 * (10 / 10)) = 8).
  { unfold mka_jerk. rewrite !Rltb_false by lra. cbn [orb]. rewrite Rmax_left by lra. field. }
  assert (J2 : mka_jerk 8 (6 * (10 / 10)) = 2).
  { unfold mka_jerk. rewrite !Rltb_false by lra. rewrite Rltb_true by lra. cbn [orb]. field. }
  assert (J3 : mka_jerk 0 (0 * (10 / 10)) = 0).
  { unfold mka_jerk. rewrite !Rltb_false by lra. cbn [orb]. rewrite Rmax_right by lra. reflexivity. }
  unfold mka_axis. rewrite J1, (Rltb_false 8 8) by lra. rewrite J2, (Rltb_false 8 2) by lra. repeat (rewrite J3, (Rltb_false 8 0) by lra). reflexivity.
Qed.

(** The program of PropertiesPlan, turned by a quarter and moved. *)
Example C82_case : valid_program ex0 ex_states /\ (exists bl, simulate MarlinJD (ex0 :: ex_states) = Ok (bl, false)) /\
  map (placed_state (turn (PI / 2)) (V4 50 0 0 0)) (ex0 :: ex_states) <> ex0 :: ex_states.
Proof.
  split; [exact ex_valid|]. split; [exact (ex_simulates MarlinJD)|]. intros E. apply (f_equal (fun l => vx (k_pos (hd ex0 l)))) in E. simpl in E. lra.
Qed.

Print Assumptions C82_turned_partial.
Print Assumptions C82_moved.
Print Assumptions C82_turn_is_isometry.
Print Assumptions C82_mka_refuted.
