(** C106: rounding errors of the planner add up slowly: block by block a plan
    made with doubles stays near the positions the program commands. *)
From Coq Require Import Reals Lra Lia.
From Verif Require Import Py Vec StateGen Junction Planner Rounding SpecRounding Generic SpecGeneric SpecDrift RealFacts
  RoundingProofs FloatMoveProofs FloatDriftProofs FloatPlanProofs PropertiesFloat.
Open Scope R_scope.
Notation D64 := (Bk binary64).

Lemma steps_nth {rnd} (rest : list (gkstate (Bk rnd))) : forall s0 n A B, fine_steps s0 rest -> nth_error (s0 :: rest) n = Some A -> nth_error (s0 :: rest) (S n) = Some B -> fine_step A B.
Proof.
  induction rest as [|s1 rest IH]; intros s0 n A B G EA EB; [destruct n; discriminate|]. destruct G as [G1 G2].
  destruct n as [|n]; [injection EA as <-; injection EB as <-; exact G1|]. exact (IH s1 n A B G2 EA EB).
Qed.
Lemma extrusions_nth {rnd} (rest : list (gkstate (Bk rnd))) : forall s0 n A B, fine_extrusions s0 rest -> nth_error (s0 :: rest) n = Some A -> nth_error (s0 :: rest) (S n) = Some B -> fine_extrusion A B.
Proof.
  induction rest as [|s1 rest IH]; intros s0 n A B G EA EB; [destruct n; discriminate|]. destruct G as [G1 G2].
  destruct n as [|n]; [injection EA as <-; injection EB as <-; exact G1|]. exact (IH s1 n A B G2 EA EB).
Qed.
Lemma drift_w (wE : Prop) fw s0 rest a V M bl w :
  tiny <= a -> / 1000000 <= V -> V * V <= 1000000 * a -> tiny <= M ->
  Forall (fine_state a V M) (s0 :: rest) -> fine_steps s0 rest ->
  (wE -> Forall (fun s => Rabs (ge D64 (gk_pos D64 s)) <= M) (s0 :: rest)) -> (wE -> fine_extrusions s0 rest) ->
  INR (length (s0 :: rest)) * line_drift a V M <= M ->
  gsimulate D64 fw (s0 :: rest) = Ok (bl, w) ->
  (forall b, In b bl -> exists i f l,
     nth_error (s0 :: rest) i = Some (gb_A D64 b) /\ nth_error (s0 :: rest) (S i) = Some (gb_B D64 b) /\
     gfirst_seg D64 (gb_segs D64 b) = Ok f /\ glast_seg D64 (gb_segs D64 b) = Ok l /\
     nearw binary64 wE (INR (S i) * line_drift a V M) (gpos_begin D64 f) (gk_pos D64 (gb_A D64 b)) /\
     nearw binary64 wE (INR (S i) * line_drift a V M) (gpos_end D64 l) (gk_pos D64 (gb_B D64 b))) /\
  (forall b r, rev bl = b :: r -> exists l z, glast_seg D64 (gb_segs D64 b) = Ok l /\ nth_error (s0 :: rest) (length rest) = Some z /\
     nearw binary64 wE (INR (length rest) * line_drift a V M) (gpos_end D64 l) (gk_pos D64 z)).
Proof.
  intros ga gV gVa gM F St FE StE N E. destruct binary64_rounds as (_ & E0 & Er). pose proof tiny_small as T. pose proof eta_tiny as Et.
  assert (U : powerRZ 2 (-53) = uu). { unfold uu. change (powerRZ 2 (-53)) with (/ (2 ^ Pos.to_nat 53)). rewrite pow_IZR. f_equal. }
  rewrite U in Er.
  assert (r2 : binary64 2 = 2) by (apply binary64_fix; exists 2%Z, 0%Z; split; [reflexivity|split; [lia|cbn; lra]]).
  assert (Ld : line_drift a V M = 2 * eps a V M) by (unfold line_drift, eps; ring). rewrite Ld in *.
  assert (Hf : forall n A, nth_error (s0 :: rest) n = Some A -> fine_state a V M A). { intros n A EA. rewrite Forall_forall in F. apply F. eapply nth_error_In, EA. }
  assert (HfE : wE -> forall n A, nth_error (s0 :: rest) n = Some A -> Rabs (ge D64 (gk_pos D64 A)) <= M). { intros W n A EA. specialize (FE W). rewrite Forall_forall in FE. apply FE. eapply nth_error_In, EA. }
  pose proof (eps0 a V M T ga gM) as e0.
  destruct (simulated_ok binary64 _ a V M wE E0 Er binary64_pos binary64_neg binary64_0 r2 T Et ga gV gVa gM (s0 :: rest) Hf (fun n A B => steps_nth rest s0 n A B St) HfE (fun W n A B => extrusions_nth rest s0 n A B (StE W)) N fw s0 rest bl w eq_refl E) as (idx & G & Lk).
  split.
  - intros b Ib. assert (Q : exists i, block_ok binary64 a V M wE (s0 :: rest) i b).
    { clear - G Ib. induction G as [|i b' idx bl Gb G IH]; [contradiction|]. destruct Ib as [<-|Ib]; eauto. }
    destruct Q as (i & G1 & G2 & _ & f & l & Gf & Gl & N1 & N2 & _). exists i, f, l. repeat (split; [assumption|]). split; [|exact N2].
    eapply near_le; [exact N1|]. rewrite S_INR. lra.
  - intros b r R. apply Forall2_rev_ in G. rewrite R in G. destruct (rev idx) as [|j idx'] eqn:Q; [inversion G|]. inversion G as [|? ? ? ? Gb _]. subst.
    destruct Gb as (G1 & G2 & _ & f & l & Gf & Gl & N1 & N2 & _). destruct Lk as (Lt & P & Z & EP & EZ & Nk). rewrite G2 in EP. injection EP as <-.
    exists l, Z. split; [exact Gl|]. split; [exact EZ|]. eapply near_le; [exact (near_trans _ _ _ _ _ _ _ N2 Nk)|].
    rewrite <- Rmult_plus_distr_r, <- plus_INR. replace (Datatypes.S j + (length rest - Datatypes.S j))%nat with (length rest) by lia. lra.
Qed.
(** The [i]-th move begins and ends within [i + 1] line drifts of where the
    program wants it; the last block ends that near to the last position. *)
Theorem C106_drift fw s0 rest a V M bl w :
  tiny <= a -> / 1000000 <= V -> V * V <= 1000000 * a -> tiny <= M ->
  Forall (fine_state a V M) (s0 :: rest) -> fine_steps s0 rest -> INR (length (s0 :: rest)) * line_drift a V M <= M ->
  gsimulate D64 fw (s0 :: rest) = Ok (bl, w) ->
  (forall b, In b bl -> exists i f l,
     nth_error (s0 :: rest) i = Some (gb_A D64 b) /\ nth_error (s0 :: rest) (S i) = Some (gb_B D64 b) /\
     gfirst_seg D64 (gb_segs D64 b) = Ok f /\ glast_seg D64 (gb_segs D64 b) = Ok l /\
     near (INR (S i) * line_drift a V M) (gpos_begin D64 f) (gk_pos D64 (gb_A D64 b)) /\
     near (INR (S i) * line_drift a V M) (gpos_end D64 l) (gk_pos D64 (gb_B D64 b))) /\
  (forall b r, rev bl = b :: r -> exists l z, glast_seg D64 (gb_segs D64 b) = Ok l /\ nth_error (s0 :: rest) (length rest) = Some z /\
     near (INR (length rest) * line_drift a V M) (gpos_end D64 l) (gk_pos D64 z)).
Proof.
  intros ga gV gVa gM F St N E. destruct (drift_w False fw s0 rest a V M bl w ga gV gVa gM F St (False_ind _) (False_ind _) N E) as [G1 G2]. split.
  - intros b Ib. destruct (G1 b Ib) as (i & f & l & ? & ? & ? & ? & [? _] & [? _]). exists i, f, l. repeat (split; [assumption|]). assumption.
  - intros b r R. destruct (G2 b r R) as (l & z & ? & ? & [? _]). exists l, z. auto.
Qed.
(** If the extruder never turns faster than the head moves, or turns alone by
    enough, then its position is just as near. *)
Theorem C106_extruder fw s0 rest a V M bl w :
  tiny <= a -> / 1000000 <= V -> V * V <= 1000000 * a -> tiny <= M ->
  Forall (fine_state a V M) (s0 :: rest) -> fine_steps s0 rest ->
  Forall (fun s => Rabs (ge D64 (gk_pos D64 s)) <= M) (s0 :: rest) -> fine_extrusions s0 rest ->
  INR (length (s0 :: rest)) * line_drift a V M <= M ->
  gsimulate D64 fw (s0 :: rest) = Ok (bl, w) ->
  (forall b, In b bl -> exists i f l,
     nth_error (s0 :: rest) i = Some (gb_A D64 b) /\ nth_error (s0 :: rest) (S i) = Some (gb_B D64 b) /\
     gfirst_seg D64 (gb_segs D64 b) = Ok f /\ glast_seg D64 (gb_segs D64 b) = Ok l /\
     near4 (INR (S i) * line_drift a V M) (gpos_begin D64 f) (gk_pos D64 (gb_A D64 b)) /\
     near4 (INR (S i) * line_drift a V M) (gpos_end D64 l) (gk_pos D64 (gb_B D64 b))) /\
  (forall b r, rev bl = b :: r -> exists l z, glast_seg D64 (gb_segs D64 b) = Ok l /\ nth_error (s0 :: rest) (length rest) = Some z /\
     near4 (INR (length rest) * line_drift a V M) (gpos_end D64 l) (gk_pos D64 z)).
Proof.
  intros ga gV gVa gM F St FE StE N E. destruct (drift_w True fw s0 rest a V M bl w ga gV gVa gM F St (fun _ => FE) (fun _ => StE) N E) as [G1 G2]. split.
  - intros b Ib. destruct (G1 b Ib) as (i & f & l & ? & ? & ? & ? & [? Q1] & [? Q2]). exists i, f, l. repeat (split; [assumption|]). split; split; auto.
  - intros b r R. destruct (G2 b r R) as (l & z & ? & ? & [? Q]). exists l, z. split; [assumption|]. split; [assumption|]. split; auto.
Qed.
(** On a bed of 200 mm with the speed and acceleration of prusa_mini one line
    drifts by less than 6e-11 mm: after a billion lines the plan is less than
    0.06 mm off. *)
Theorem C106_prusa_mini fw s0 rest bl w :
  Forall (fine_state 1250 180 200) (s0 :: rest) -> fine_steps s0 rest -> INR (length (s0 :: rest)) <= 1000000000 ->
  gsimulate D64 fw (s0 :: rest) = Ok (bl, w) ->
  forall b, In b bl -> exists f l, gfirst_seg D64 (gb_segs D64 b) = Ok f /\ glast_seg D64 (gb_segs D64 b) = Ok l /\
     near (6 / 100) (gpos_begin D64 f) (gk_pos D64 (gb_A D64 b)) /\ near (6 / 100) (gpos_end D64 l) (gk_pos D64 (gb_B D64 b)).
Proof.
  intros F S N E b Ib. pose proof tiny_small as T.
  assert (Ld : 0 <= line_drift 1250 180 200 <= 6 / 100000000000) by (unfold line_drift, uu; lra).
  assert (N0 := pos_INR (length (s0 :: rest))).
  assert (Q : INR (length (s0 :: rest)) * line_drift 1250 180 200 <= 1000000000 * (6 / 100000000000)) by (apply Rmult_le_compat; lra).
  destruct (C106_drift fw s0 rest 1250 180 200 bl w ltac:(lra) ltac:(lra) ltac:(lra) ltac:(lra) F S ltac:(lra) E) as [G _].
  destruct (G b Ib) as (i & f & l & EA & EB & Gf & Gl & N1 & N2). exists f, l. split; [exact Gf|]. split; [exact Gl|].
  assert (Li : (Datatypes.S i < length (s0 :: rest))%nat) by (apply nth_error_Some; rewrite EB; discriminate). apply lt_INR in Li.
  assert (Q2 : INR (Datatypes.S i) * line_drift 1250 180 200 <= INR (length (s0 :: rest)) * line_drift 1250 180 200) by (apply Rmult_le_compat_r; lra).
  assert (LE : forall e1 e2 (x y : gvec D64), near e1 x y -> e1 <= e2 -> near e2 x y) by (intros e1 e2 x y (? & ? & ?) ?; split; [|split]; lra).
  split; [eapply LE; [exact N1|]|eapply LE; [exact N2|]]; lra.
Qed.

(** * A case *)
(** Eight millimetres to the right at 2 mm/s with 1 mm/s^2: no operation rounds. *)
Definition at_x (x : R) : gkstate D64 := GKState D64 (GV D64 x 0 0 0) 2 1 0 None None.
Lemma whole z : (Z.abs z < 2 ^ 53)%Z -> binary64 (IZR z) = IZR z.
Proof. intros Hz. apply binary64_fix. exists z, 0%Z. split; [exact Hz|]. split; [lia|]. cbn. lra. Qed.
Ltac whole_numbers :=
  repeat match goal with
  | |- context[k0 D64] => rewrite (dec_0 binary64 binary64_0)
  | |- context[k2 D64] => change (k2 D64) with (binary64 (r_of_dec 2 0)); replace (r_of_dec 2 0) with 2 by (unfold r_of_dec; cbn; lra)
  | |- context[binary64 (IZR ?z)] => rewrite (whole z) by reflexivity
  | |- context[(IZR ?a + IZR ?b)%R] => let c := eval compute in (a + b)%Z in replace (IZR a + IZR b) with (IZR c) by lra
  | |- context[(IZR ?a - IZR ?b)%R] => let c := eval compute in (a - b)%Z in replace (IZR a - IZR b) with (IZR c) by lra
  | |- context[(IZR ?a * IZR ?b)%R] => let c := eval compute in (a * b)%Z in replace (IZR a * IZR b) with (IZR c) by lra
  | |- context[(IZR ?a / IZR ?b)%R] => let c := eval compute in (a / b)%Z in replace (IZR a / IZR b) with (IZR c) by lra
  | |- context[(- IZR (Zpos ?a))%R] => change (- IZR (Zpos a)) with (IZR (Zneg a))
  | |- context[(- IZR (Zneg ?a))%R] => replace (- IZR (Zneg a)) with (IZR (Zpos a)) by lra
  | |- context[sqrt 0] => rewrite sqrt_0
  | |- context[sqrt (IZR ?a)] => let c := eval compute in (Z.sqrt a) in replace (sqrt (IZR a)) with (IZR c) by (symmetry; replace (IZR a) with (IZR c * IZR c) by lra; apply sqrt_square; lra)
  | |- context[Rabs (IZR ?a)] => (rewrite (Rabs_right (IZR a)) by lra) || (rewrite (Rabs_left (IZR a)) by lra)
  | |- context[Rltb (IZR ?a) (IZR ?b)] => (rewrite (Rltb_true (IZR a) (IZR b)) by lra) || (rewrite (Rltb_false (IZR a) (IZR b)) by lra)
  | |- context[Rleb (IZR ?a) (IZR ?b)] => (rewrite (Rleb_true (IZR a) (IZR b)) by lra) || (rewrite (Rleb_false (IZR a) (IZR b)) by lra)
  end.
Ltac fields := cbn [gk_pos gk_speed gk_acc gk_jerk gk_pause gx gy gz ge gt_begin gt_end gpos_begin gpos_end gvel_begin gvel_end Bk k_sub k_mul k_add k_sqrt k_ltb k_leb k_eqb k_abs k_opp k_div fst snd andb orb bind].
Ltac compute_case := repeat (progress (unfold gvscale, gvdiv, gvadd, gvsub, gnorm3, at_x; fields; whole_numbers)).
Lemma case_connect : gconnect_state D64 (at_x 0) (at_x 8) = GV D64 2 0 0 0.
Proof. unfold gconnect_state. compute_case. reflexivity. Qed.
Lemma case_dir : gget_norm_dir D64 (GV D64 2 0 0 0) = Some (GV D64 1 0 0 0).
Proof. unfold gget_norm_dir. compute_case. reflexivity. Qed.
Lemma case_segment t0 t1 p0 p1 v0 v1 : binary64 (p0 + binary64 (binary64 (binary64 (v0 + v1) * binary64 (t1 - t0)) / 2)) = p1 -> t0 <= t1 ->
  gmk_segment D64 t0 t1 (GV D64 p0 0 0 0) (GV D64 p1 0 0 0) (GV D64 v0 0 0 0) (GV D64 v1 0 0 0) = Ok (GSeg D64 t0 t1 (GV D64 p0 0 0 0) (GV D64 p1 0 0 0) (GV D64 v0 0 0 0) (GV D64 v1 0 0 0)).
Proof.
  intros E T. unfold gmk_segment, gself_check, gpredicted_end. compute_case. rewrite E. rewrite !Rmult_0_l. compute_case. rewrite Rminus_eq_0. compute_case.
  rewrite (Rltb_false _ 0), (Rltb_false t1 t0) by (exact T || (apply binary64_pos; unfold r_of_dec; cbn; lra)). reflexivity.
Qed.
Definition case_segs : list (gsegment D64) :=
  [GSeg D64 0 2 (GV D64 0 0 0 0) (GV D64 2 0 0 0) (GV D64 0 0 0 0) (GV D64 2 0 0 0);
   GSeg D64 2 4 (GV D64 2 0 0 0) (GV D64 6 0 0 0) (GV D64 2 0 0 0) (GV D64 2 0 0 0);
   GSeg D64 4 6 (GV D64 6 0 0 0) (GV D64 8 0 0 0) (GV D64 2 0 0 0) (GV D64 0 0 0 0)].
Lemma eight : Reqb 8 0 = false. Proof. unfold Reqb. destruct (Req_EM_T 8 0); [lra|reflexivity]. Qed.
Lemma case_distance : gmove_distance D64 (at_x 0) (at_x 8) = (8, false).
Proof. unfold gmove_distance, gt_distance. compute_case. rewrite eight. reflexivity. Qed.
Lemma case_keep s : gpos_end D64 s = GV D64 2 0 0 0 /\ gpos_begin D64 s = GV D64 0 0 0 0 \/ gpos_end D64 s = GV D64 6 0 0 0 /\ gpos_begin D64 s = GV D64 2 0 0 0 \/
  gpos_end D64 s = GV D64 8 0 0 0 /\ gpos_begin D64 s = GV D64 6 0 0 0 -> gkeep_seg D64 s = [s].
Proof. unfold gkeep_seg, gis_travel. intros [[-> ->]|[[-> ->]|[-> ->]]]; compute_case; reflexivity. Qed.
Lemma case_move : gmove_maker2 D64 (at_x 0) (at_x 8) (GV D64 1 0 0 0) (gcreate_initial D64 (GV D64 0 0 0 0)) 0 = Ok (case_segs, Trapezoid).
Proof.
  unfold gmove_maker2. rewrite case_distance. unfold gcreate_initial, gzero. compute_case. cbn [andb]. unfold gtrapezoid. compute_case.
  rewrite case_segment; [|compute_case; reflexivity|lra]. cbn [bind]. rewrite case_segment; [|compute_case; reflexivity|lra]. cbn [bind]. rewrite case_segment; [|compute_case; reflexivity|lra]. cbn [bind].
  rewrite !case_keep by (cbn [gpos_end gpos_begin]; auto). reflexivity.
Qed.
Definition case_block : gblock D64 := GBlock D64 (at_x 0) (at_x 8) (Some (GV D64 1 0 0 0)) case_segs (Some Trapezoid) false (GV D64 0 0 0 0).
Lemma case_blocks : ggenerate_planner_blocks D64 FullStop [at_x 0; at_x 8] = Ok [case_block].
Proof.
  unfold ggenerate_planner_blocks. cbn [ggen_blocks hd_error]. unfold gplanner_block at 1. cbn [gadd_block at_x gk_acc gk_pause]. rewrite (dec_0 binary64 binary64_0). cbn [Bk k_leb]. rewrite (Rleb_false 1 0) by lra. cbn [bind gadd_block].
  unfold gplanner_block. cbn [hd_error gprevious_segment gmk_junction gtarget_vel gconnect_state_opt gjunction_vel]. rewrite case_connect, case_dir.
  assert (Z : gnot_zero D64 (GV D64 2 0 0 0) = true) by (unfold gnot_zero, gnorm4; compute_case; reflexivity).
  assert (X : gpos_is_extruding D64 (gk_pos D64 (at_x 0)) (gk_pos D64 (at_x 8)) true = false) by (unfold gpos_is_extruding; compute_case; reflexivity).
  assert (J : gvscale D64 0 (GV D64 1 0 0 0) = GV D64 0 0 0 0) by (compute_case; reflexivity).
  rewrite Z, X, (dec_0 binary64 binary64_0), J. cbn [at_x gk_acc gk_pause gk_pos Bk k_leb]. rewrite (Rleb_false 1 0) by lra. cbn [bind].
  rewrite case_move. reflexivity.
Qed.
Example C106_case : exists bl w, gsimulate D64 FullStop [at_x 0; at_x 8] = Ok (bl, w) /\ length bl = 1%nat /\
  Forall (fine_state 1 2 100) [at_x 0; at_x 8] /\ fine_steps (at_x 0) [at_x 8] /\ INR (length [at_x 0; at_x 8]) * line_drift 1 2 100 <= 100.
Proof.
  exists [case_block]. eexists. split; [|split; [reflexivity|]].
  - unfold gsimulate. rewrite case_blocks. cbn [bind gtrajectory_self_correct gcorrect_from rev app]. reflexivity.
  - pose proof tiny_small as T. split; [|split].
    + repeat (apply Forall_cons || apply Forall_nil); unfold fine_state, at_x; cbn [gk_speed gk_acc gk_jerk gk_pos gx gy gz]; rewrite !Rabs_right by lra; lra.
    + split; [|exact I]. split; [intros N; contradiction N; reflexivity|]. right.
      assert (L : length3 (at_x 0) (at_x 8) = 8).
      { unfold length3, at_x. cbn [gk_pos gx gy gz]. replace ((8 - 0) * (8 - 0) + (0 - 0) * (0 - 0) + (0 - 0) * (0 - 0)) with (8 * 8) by ring. apply sqrt_square. lra. }
      rewrite L. cbn [at_x gk_speed gk_acc]. unfold uu. lra.
    + unfold line_drift, uu. cbn [length INR]. lra.
Qed.

(** The extruder alone turns by eight millimetres. *)
Definition at_e (e : R) : gkstate D64 := GKState D64 (GV D64 0 0 0 e) 2 1 0 None None.
Ltac compute_case_e := repeat (progress (unfold gvscale, gvdiv, gvadd, gvsub, gnorm3, gnorm4, at_e; fields; whole_numbers)).
Lemma turn_connect : gconnect_state D64 (at_e 0) (at_e 8) = GV D64 0 0 0 2.
Proof. unfold gconnect_state. compute_case_e. reflexivity. Qed.
Lemma turn_dir : gget_norm_dir D64 (GV D64 0 0 0 2) = Some (GV D64 0 0 0 1).
Proof. unfold gget_norm_dir. compute_case_e. reflexivity. Qed.
Lemma turn_segment t0 t1 p0 p1 v0 v1 : t0 <= t1 ->
  gmk_segment D64 t0 t1 (GV D64 0 0 0 p0) (GV D64 0 0 0 p1) (GV D64 0 0 0 v0) (GV D64 0 0 0 v1) = Ok (GSeg D64 t0 t1 (GV D64 0 0 0 p0) (GV D64 0 0 0 p1) (GV D64 0 0 0 v0) (GV D64 0 0 0 v1)).
Proof.
  intros T. unfold gmk_segment, gself_check, gpredicted_end. compute_case_e. rewrite !Rmult_0_l. compute_case_e.
  rewrite (Rltb_false _ 0), (Rltb_false t1 t0) by (exact T || (apply binary64_pos; unfold r_of_dec; cbn; lra)). reflexivity.
Qed.
Definition turn_segs : list (gsegment D64) :=
  [GSeg D64 0 2 (GV D64 0 0 0 0) (GV D64 0 0 0 2) (GV D64 0 0 0 0) (GV D64 0 0 0 2);
   GSeg D64 2 4 (GV D64 0 0 0 2) (GV D64 0 0 0 6) (GV D64 0 0 0 2) (GV D64 0 0 0 2);
   GSeg D64 4 6 (GV D64 0 0 0 6) (GV D64 0 0 0 8) (GV D64 0 0 0 2) (GV D64 0 0 0 0)].
Lemma nought : Reqb 0 0 = true. Proof. unfold Reqb. destruct (Req_EM_T 0 0); [reflexivity|lra]. Qed.
Lemma turn_distance : gmove_distance D64 (at_e 0) (at_e 8) = (8, true).
Proof. unfold gmove_distance, gt_distance. compute_case_e. rewrite nought. unfold gnorm4. compute_case_e. reflexivity. Qed.
Lemma turn_keep s : gpos_end D64 s = GV D64 0 0 0 2 /\ gpos_begin D64 s = GV D64 0 0 0 0 \/ gpos_end D64 s = GV D64 0 0 0 6 /\ gpos_begin D64 s = GV D64 0 0 0 2 \/
  gpos_end D64 s = GV D64 0 0 0 8 /\ gpos_begin D64 s = GV D64 0 0 0 6 -> gkeep_seg D64 s = [s].
Proof. unfold gkeep_seg, gis_travel, gpos_is_extruding. intros [[-> ->]|[[-> ->]|[-> ->]]]; compute_case_e; reflexivity. Qed.
Lemma turn_move : gmove_maker2 D64 (at_e 0) (at_e 8) (GV D64 0 0 0 1) (gcreate_initial D64 (GV D64 0 0 0 0)) 0 = Ok (turn_segs, Trapezoid).
Proof.
  unfold gmove_maker2. rewrite turn_distance. unfold gcreate_initial, gzero. compute_case_e. cbn [andb]. unfold gtrapezoid. compute_case_e.
  rewrite turn_segment by lra. cbn [bind]. rewrite turn_segment by lra. cbn [bind]. rewrite turn_segment by lra. cbn [bind].
  rewrite !turn_keep by (cbn [gpos_end gpos_begin]; auto). reflexivity.
Qed.
Definition turn_block : gblock D64 := GBlock D64 (at_e 0) (at_e 8) (Some (GV D64 0 0 0 1)) turn_segs (Some Trapezoid) true (GV D64 0 0 0 0).
Lemma turn_blocks : ggenerate_planner_blocks D64 FullStop [at_e 0; at_e 8] = Ok [turn_block].
Proof.
  unfold ggenerate_planner_blocks. cbn [ggen_blocks hd_error]. unfold gplanner_block at 1. cbn [gadd_block at_e gk_acc gk_pause]. rewrite (dec_0 binary64 binary64_0). cbn [Bk k_leb]. rewrite (Rleb_false 1 0) by lra. cbn [bind gadd_block].
  unfold gplanner_block. cbn [hd_error gprevious_segment gmk_junction gtarget_vel gconnect_state_opt gjunction_vel]. rewrite turn_connect, turn_dir.
  assert (Z : gnot_zero D64 (GV D64 0 0 0 2) = true) by (unfold gnot_zero, gnorm4; compute_case_e; reflexivity).
  assert (X : gpos_is_extruding D64 (gk_pos D64 (at_e 0)) (gk_pos D64 (at_e 8)) true = true) by (unfold gpos_is_extruding; compute_case_e; reflexivity).
  assert (J : gvscale D64 0 (GV D64 0 0 0 1) = GV D64 0 0 0 0) by (compute_case_e; reflexivity).
  rewrite Z, X, (dec_0 binary64 binary64_0), J. cbn [at_e gk_acc gk_pause gk_pos Bk k_leb]. rewrite (Rleb_false 1 0) by lra. cbn [bind].
  rewrite turn_move. reflexivity.
Qed.
Example C106_extruder_case : exists bl w, gsimulate D64 FullStop [at_e 0; at_e 8] = Ok (bl, w) /\ length bl = 1%nat /\
  Forall (fine_state 1 2 100) [at_e 0; at_e 8] /\ fine_steps (at_e 0) [at_e 8] /\ fine_extrusions (at_e 0) [at_e 8] /\
  Forall (fun s => Rabs (ge D64 (gk_pos D64 s)) <= 100) [at_e 0; at_e 8].
Proof.
  exists [turn_block]. eexists. split; [|split; [reflexivity|]].
  - unfold gsimulate. rewrite turn_blocks. cbn [bind gtrajectory_self_correct gcorrect_from rev app]. reflexivity.
  - pose proof tiny_small as T.
    assert (L : length3 (at_e 0) (at_e 8) = 0).
    { unfold length3, at_e. cbn [gk_pos gx gy gz]. replace ((0 - 0) * (0 - 0) + (0 - 0) * (0 - 0) + (0 - 0) * (0 - 0)) with 0 by ring. apply sqrt_0. }
    split; [|split; [|split]].
    + repeat (apply Forall_cons || apply Forall_nil); unfold fine_state, at_e; cbn [gk_speed gk_acc gk_jerk gk_pos gx gy gz]; rewrite !Rabs_right by lra; lra.
    + split; [|exact I]. split; [intros N; contradiction N; reflexivity|]. left. unfold near, at_e. cbn [gk_pos gx gy gz]. rewrite Rminus_eq_0, Rabs_R0. lra.
    + split; [|exact I]. split; [|rewrite L; lra]. intros _. right. unfold at_e. cbn [gk_pos ge gk_speed gk_acc]. rewrite Rabs_right by lra. unfold uu. lra.
    + repeat (apply Forall_cons || apply Forall_nil); unfold at_e; cbn [gk_pos ge]; rewrite Rabs_right by lra; lra.
Qed.

Print Assumptions C106_drift.
Print Assumptions C106_extruder.
Print Assumptions C106_prusa_mini.
