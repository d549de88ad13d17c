(** The computed trajectory of a program with one straight move of 10 mm at
    10 mm/s, used as a concrete case in several places. *)
From Coq Require Import Reals Lra.
From Verif Require Import Py Vec Segment Junction Planner RealFacts SpecKin MoveProofs SegProofs
     JunctionProofs CorrectProofs PlannerProofs TrajProofs PlanFacts PlanRefute.
Open Scope R_scope.

Definition X (x : R) : vec4 := V4 x 0 0 0.
Lemma norm3_X x : 0 <= x -> norm3 (X x) = x.
Proof. intros H. unfold X. rewrite (proj1 (norm3_x x 0 0)). apply Rabs_right. lra. Qed.
Lemma norm4_X x : 0 <= x -> norm4 (X x) = x.
Proof. intros H. unfold norm4, X. simpl. replace (x * x + 0 * 0 + 0 * 0 + 0 * 0) with (x * x) by ring. apply sqrt_square. exact H. Qed.
Lemma keep_X t0 t1 x y v0 v1 : keep_seg (Seg t0 t1 (X x) (X y) v0 v1) = if Req_EM_T x y then [] else [Seg t0 t1 (X x) (X y) v0 v1].
Proof.
  unfold keep_seg, is_travel, pos_is_extruding. cbn [pos_begin pos_end X vx vy vz ve].
  replace (0 - 0) with 0 by ring. rewrite !Rabs_R0.
  replace (Rltb 0 0) with false by (symmetry; apply Rltb_false; lra). rewrite orb_false_r.
  destruct (Req_EM_T x y) as [->|H].
  - replace (y - y) with 0 by ring. rewrite Rabs_R0, Rltb_false by lra. reflexivity.
  - rewrite Rltb_true; [reflexivity|]. assert (0 < Rabs (x - y)) by (apply Rabs_pos_lt; lra). lra.
Qed.

Section OneMove.
Variables (fw : firmware) (j vJ : R).
Let s0 := xstate 0 10 100 j None.
Let s1 := xstate 10 10 100 j None.
Hypothesis Hj : junction_vel fw (mk_junction (Some s0) s1 []) s1 = vJ.

Lemma X_sub : vsub (k_pos s1) (k_pos s0) = X 10.
Proof. apply vec4_ext; simpl; ring. Qed.
Lemma X_target : connect_state s0 s1 = X 10.
Proof.
  unfold connect_state. rewrite X_sub, (norm3_X 10) by lra. rewrite (Rabs_right 10) by lra. rewrite Rltb_true by lra.
  apply vec4_ext; simpl; field.
Qed.
Definition first_ramp : segment := Seg 0 (1/10) (X 0) (X (1/2)) (X 0) (X 10).
Definition segs_of (v : R) : list segment :=
  let up := 1/2 in let down := (100 - v * v) / 200 in
  let t2 := 1/10 + (10 - down - up) / 10 in
  first_ramp :: Seg (1/10) t2 (X up) (X (10 - down)) (X 10) (X 10) ::
  (if Req_EM_T v 10 then [] else [Seg t2 (t2 + (10 - v) / 100) (X (10 - down)) (X 10) (X 10) (X v)]).

Lemma one_move_planned : 0 <= j -> 0 <= vJ <= 10 ->
  exists b, simulate fw (one_move j) = Ok ([b], false) /\ b_segs b = segs_of vJ /\ b_A b = s0 /\ b_B b = s1.
Proof.
  intros Hj0 HJ.
  assert (H0 : planner_block fw None s0 [s1] None = Ok None).
  { unfold planner_block. rewrite Rleb_false by (simpl; lra). reflexivity. }
  assert (Hdn : 0 <= (100 - vJ * vJ) / 200 <= 1 / 2).
  { assert (0 <= vJ * vJ <= 100) by nra. lra. }
  assert (Hm : move_maker2 s0 s1 (X 1) (create_initial (k_pos s0)) vJ = Ok (segs_of vJ, Trapezoid)).
  { unfold move_maker2, move_distance, t_distance. rewrite X_sub, (norm3_X 10) by lra.
    unfold Reqb. destruct (Req_EM_T 10 0) as [E|_]; [lra|].
    unfold s0, s1. cbn [k_acc k_speed xstate create_initial vel_end t_end pos_end k_pos]. rewrite norm3_vzero, (Rltb_true 0 10) by lra. rewrite (Rleb_false 100 0) by lra.
    set (dn := (vJ - 10) * (vJ + 10) / (2 * - (100))).
    assert (Edn : dn = (100 - vJ * vJ) / 200) by (unfold dn; field).
    replace ((10 - 0) * (0 + 10) / (2 * 100)) with (1/2) by field.
    rewrite Rltb_true by lra. rewrite (Rltb_true 0 (1/2)) by lra.
    replace (Rltb 0 dn || isclose dn 0) with true.
    2:{ destruct (Req_EM_T dn 0) as [->|]; [rewrite isclose_refl, orb_true_r; reflexivity | rewrite Rltb_true by lra; reflexivity]. }
    cbn [orb andb]. unfold trapezoid. fold dn.
    cbn [create_initial vel_end t_end pos_end]. replace ((10 - 0) * (0 + 10) / (2 * 100)) with (1/2) by field.
    replace (V4 0 0 0 0) with (X 0) by reflexivity.
    replace (vscale 0 (X 1)) with (X 0) by (apply vec4_ext; simpl; ring).
    replace (vscale 10 (X 1)) with (X 10) by (apply vec4_ext; simpl; ring).
    replace (vadd (X 0) (vscale (1/2) (X 1))) with (X (1/2)) by (apply vec4_ext; simpl; ring).
    rewrite (norm3_X 10) by lra. rewrite Edn. set (down := (100 - vJ * vJ) / 200) in *.
    replace (vadd (X (1 / 2)) (vscale (10 - down - 1 / 2) (X 1))) with (X (10 - down)) by (apply vec4_ext; simpl; ring).
    replace (vadd (X (10 - down)) (vscale down (X 1))) with (X 10) by (apply vec4_ext; simpl; ring).
    replace (0 + (10 - 0) / 100) with (1/10) by field.
    replace (vscale vJ (X 1)) with (X vJ) by (apply vec4_ext; simpl; ring).
    rewrite mk_segment_ok; [|lra | apply vec4_ext; simpl; field]. cbn [bind].
    rewrite mk_segment_ok; [|lra | apply vec4_ext; simpl; field]. cbn [bind].
    rewrite mk_segment_ok; [|lra | apply vec4_ext; simpl; unfold down; field]. cbn [bind try_runtime].
    rewrite !keep_X. destruct (Req_EM_T 0 (1/2)) as [E|_]; [lra|]. destruct (Req_EM_T (1/2) (10 - down)) as [E|_]; [lra|].
    unfold segs_of. fold down. cbn [app].
    destruct (Req_EM_T (10 - down) 10) as [E|E]; destruct (Req_EM_T vJ 10) as [E'|E']; try reflexivity; exfalso.
    - assert (vJ * vJ = 100) by (unfold down in E; lra). nra.
    - apply E. unfold down. rewrite E'. lra. }
  assert (H1 : planner_block fw (Some s0) s1 [] None =
     Ok (Some (Block s0 s1 (Some (X 1)) (segs_of vJ) (Some Trapezoid) (pos_is_extruding (k_pos s0) (k_pos s1) true) (vscale vJ (X 1))))).
  { unfold planner_block. rewrite Rleb_false by (simpl; lra). cbn [previous_segment]. rewrite Hj.
    change (target_vel (mk_junction (Some s0) s1 [])) with (connect_state s0 s1). rewrite X_target.
    unfold get_norm_dir, not_zero. rewrite (norm3_X 10), (norm4_X 10) by lra. rewrite Rltb_true by lra.
    replace (vdiv (X 10) 10) with (X 1) by (apply vec4_ext; simpl; field).
    cbn [bind]. rewrite Hm. reflexivity. }
  set (b := Block _ _ _ _ _ _ _) in H1. exists b.
  split; [|split; [|split]]; [|reflexivity|reflexivity|reflexivity].
  assert (Hs : simulate fw (one_move j) = Ok ([b], adherence_warning b)).
  { unfold simulate, one_move, generate_planner_blocks. fold s0 s1. cbn [gen_blocks hd_error add_block]. rewrite H0. cbn [bind gen_blocks hd_error add_block b_segs].
    rewrite H1. cbn [bind gen_blocks add_block b_segs rev app trajectory_self_correct correct_from]. reflexivity. }
  destruct (simulation_succeeds fw _ _ (one_move_valid j Hj0)) as (bl & Hbl).
  change (simulate fw (one_move j) = Ok (bl, false)) in Hbl. rewrite Hbl in Hs. rewrite Hbl. f_equal. f_equal. congruence.
Qed.
End OneMove.

(** The two speeds of interest. *)
Lemma full_stop_move : exists b, simulate FullStop (one_move 5) = Ok ([b], false) /\ b_segs b = [first_ramp; Seg (1/10) 1 (X (1/2)) (X (19/2)) (X 10) (X 10); Seg 1 (11/10) (X (19/2)) (X 10) (X 10) (X 0)].
Proof.
  destruct (one_move_planned FullStop 5 0 eq_refl) as (b & Hs & Hb & _); [lra | lra |].
  exists b. split; [exact Hs|]. rewrite Hb. unfold segs_of. destruct (Req_EM_T 0 10) as [E|_]; [lra|].
  cbv zeta. replace ((100 - 0 * 0) / 200) with (1/2) by field. replace (1 / 10 + (10 - 1 / 2 - 1 / 2) / 10) with 1 by field.
  replace (10 - 1 / 2) with (19/2) by field. replace (1 + (10 - 0) / 100) with (11/10) by field. reflexivity.
Qed.
Lemma jerk_move : exists b, simulate MarlinJerk (one_move 10) = Ok ([b], false) /\ b_segs b = [first_ramp; Seg (1/10) (21/20) (X (1/2)) (X 10) (X 10) (X 10)].
Proof.
  destruct (one_move_planned MarlinJerk 10 10) as (b & Hs & Hb & _); [| lra | lra |].
  - unfold junction_vel, mk_junction. cbn [target_vel vel_next connect_state_opt find_next_state].
    rewrite X_target. rewrite connect_same by reflexivity. unfold calc_jerk. cbn [k_jerk xstate]. rewrite Rltb_true by lra.
    replace (vsub (X 10) vzero) with (X 10) by (apply vec4_ext; simpl; ring). rewrite (norm3_X 10) by lra.
    rewrite Rleb_false by lra. reflexivity.
  - exists b. split; [exact Hs|]. rewrite Hb. unfold segs_of. destruct (Req_EM_T 10 10) as [_|E]; [|lra].
    cbv zeta. replace ((100 - 10 * 10) / 200) with 0 by field. replace (1 / 10 + (10 - 0 - 1 / 2) / 10) with (21/20) by field.
    replace (10 - 0) with 10 by ring. reflexivity.
Qed.
