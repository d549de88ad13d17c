(** The planner does not depend on where the part is and how it is turned. *)
From Coq Require Import Lra Lia.
From Verif Require Import Py Vec Segment Junction Planner Query RealFacts SpecKin SpecRigid PlannerProofs TrajProofs PlanFacts.
Open Scope R_scope.

Section Rigid.
Variables (T : vec4 -> vec4) (c : vec4).
Hypothesis HT : isometry T.
Notation mP := (placed T c).
Notation mK := (placed_state T c).
Notation mS := (placed_seg T c).
Notation mB := (placed_block T c).

Lemma T_add a b : T (vadd a b) = vadd (T a) (T b). Proof. apply HT. Qed.
Lemma T_scale k a : T (vscale k a) = vscale k (T a). Proof. apply HT. Qed.
Lemma T_dot a b : dot3 (T a) (T b) = dot3 a b. Proof. apply HT. Qed.
Lemma T_e a : ve (T a) = ve a. Proof. apply HT. Qed.
Lemma T_div a k : T (vdiv a k) = vdiv (T a) k.
Proof. assert (E : forall v, vdiv v k = vscale (/ k) v) by (intros; apply vec4_ext; reflexivity). rewrite !E. apply T_scale. Qed.
Lemma T_sub a b : T (vsub a b) = vsub (T a) (T b).
Proof.
  assert (E : forall u v, vsub u v = vadd u (vscale (-1) v)) by (intros; vec). rewrite !E, T_add, T_scale. reflexivity.
Qed.
Lemma T_zero : T vzero = vzero.
Proof. assert (E : vzero = vscale 0 vzero) by vec. rewrite E at 1. rewrite T_scale. vec. Qed.
Lemma T_norm3 a : norm3 (T a) = norm3 a.
Proof. exact (f_equal sqrt (T_dot a a)). Qed.
Lemma T_norm4 a : norm4 (T a) = norm4 a.
Proof. unfold norm4. rewrite T_e. f_equal. pose proof (T_dot a a) as H. unfold dot3 in H. rewrite H. reflexivity. Qed.
Lemma P_diff a b : vsub (mP a) (mP b) = T (vsub a b).
Proof. unfold placed. rewrite T_sub. vec. Qed.
Lemma P_add a v : mP (vadd a v) = vadd (mP a) (T v).
Proof. unfold placed. rewrite T_add. vec. Qed.

Lemma P_dist a b e : t_distance (mP a) (mP b) e = t_distance a b e.
Proof. unfold t_distance. rewrite P_diff. destruct e; [apply T_norm4|apply T_norm3]. Qed.
Lemma abs_sum_norm v : Rltb 0 (Rabs (vx v) + Rabs (vy v) + Rabs (vz v)) = Rltb 0 (norm3 v).
Proof.
  pose proof (Rabs_pos (vx v)). pose proof (Rabs_pos (vy v)). pose proof (Rabs_pos (vz v)).
  pose proof (Rle_0_sqr (vx v)) as X. pose proof (Rle_0_sqr (vy v)) as Y. pose proof (Rle_0_sqr (vz v)) as Z. unfold Rsqr in *.
  unfold Rltb, norm3. destruct (Rlt_dec 0 _) as [L|L]; destruct (Rlt_dec 0 (sqrt _)) as [M|M]; try reflexivity; exfalso.
  - apply M. apply sqrt_lt_R0.
    destruct (Req_dec (vx v) 0) as [Ex|Ex]; [destruct (Req_dec (vy v) 0) as [Ey|Ey]; [destruct (Req_dec (vz v) 0) as [Ez|Ez]|]|].
    + rewrite Ex, Ey, Ez, Rabs_R0 in L. lra.
    + pose proof (Rsqr_pos_lt _ Ez) as Q. unfold Rsqr in Q. lra.
    + pose proof (Rsqr_pos_lt _ Ey) as Q. unfold Rsqr in Q. lra.
    + pose proof (Rsqr_pos_lt _ Ex) as Q. unfold Rsqr in Q. lra.
  - assert (Ex : Rabs (vx v) = 0) by lra. assert (Ey : Rabs (vy v) = 0) by lra. assert (Ez : Rabs (vz v) = 0) by lra.
    assert (A0 : forall x, Rabs x = 0 -> x = 0).
    { intros x Hx. destruct (Req_dec x 0) as [E|E]; [exact E|]. pose proof (Rabs_pos_lt _ E). lra. }
    rewrite (A0 _ Ex), (A0 _ Ey), (A0 _ Ez) in M. replace (0 * 0 + 0 * 0 + 0 * 0) with 0 in M by ring. rewrite sqrt_0 in M. lra.
Qed.
Lemma P_travel a b : is_travel (mP a) (mP b) = is_travel a b.
Proof.
  unfold is_travel. change (Rltb 0 (Rabs (vx (vsub (mP b) (mP a))) + Rabs (vy (vsub (mP b) (mP a))) + Rabs (vz (vsub (mP b) (mP a)))) =
    Rltb 0 (Rabs (vx (vsub b a)) + Rabs (vy (vsub b a)) + Rabs (vz (vsub b a)))).
  rewrite P_diff, !abs_sum_norm, T_norm3. reflexivity.
Qed.
Lemma P_extr a b i : pos_is_extruding (mP a) (mP b) i = pos_is_extruding a b i.
Proof.
  assert (E : ve (mP b) - ve (mP a) = ve b - ve a) by (unfold placed; simpl; rewrite !T_e; ring).
  unfold pos_is_extruding. rewrite E. reflexivity.
Qed.

Lemma K_connect A B : connect_state (mK A) (mK B) = T (connect_state A B).
Proof.
  unfold connect_state. cbn [placed_state k_pos k_speed]. rewrite P_diff, T_norm3, T_e, T_scale. f_equal.
  destruct (Rltb 0 _); [symmetry; apply T_div|]. destruct (Rltb 0 _); [symmetry; apply T_div|symmetry; apply T_zero].
Qed.
Lemma K_next B rest : find_next_state (mK B) (map mK rest) = mK (find_next_state B rest).
Proof.
  induction rest as [|s rest IH]; [reflexivity|]. cbn [map find_next_state]. destruct rest as [|s2 rest]; [reflexivity|].
  cbn [map] in *. cbn [placed_state k_pos]. rewrite P_dist. destruct (Rltb 0 _); [reflexivity|exact IH].
Qed.
Definition mJ (j : junction) : junction := Junction (T (target_vel j)) (T (vel_next j)) (jt_distance j).
Lemma K_junction A B rest : mk_junction (option_map mK A) (mK B) (map mK rest) = mJ (mk_junction A B rest).
Proof.
  unfold mk_junction, mJ. cbn [target_vel vel_next jt_distance]. rewrite K_next, K_connect.
  replace (vsub (k_pos (mK (find_next_state B rest))) (k_pos (mK B))) with (T (vsub (k_pos (find_next_state B rest)) (k_pos B))) by (symmetry; apply P_diff).
  rewrite T_norm3. f_equal. destruct A as [A|]; [apply K_connect|symmetry; apply T_zero].
Qed.
Lemma J_JD v0 v1 a j s : calc_JD (T v0) (T v1) a j s = calc_JD v0 v1 a j s.
Proof. unfold calc_JD. rewrite !T_norm3, T_dot. reflexivity. Qed.
Lemma J_jerk v0 v1 j : calc_jerk (T v0) (T v1) j = calc_jerk v0 v1 j.
Proof. unfold calc_jerk. rewrite <- T_sub, <- T_div, !T_norm3. reflexivity. Qed.
Lemma J_klipper v0 v1 d a j s : calc_klipper (T v0) (T v1) d a j s = calc_klipper v0 v1 d a j s.
Proof. unfold calc_klipper. rewrite !T_norm3, <- !T_div, T_dot. reflexivity. Qed.

(** From here on for a firmware whose corner speed has no preferred direction. *)
Variable fw : firmware.
Hypothesis Hfw : forall j B, junction_vel fw (mJ j) (mK B) = junction_vel fw j B.

Definition res_map {A B} (f : A -> B) (x : res A) : res B := match x with Ok a => Ok (f a) | Err e => Err e end.
Lemma bind_map {A B A' B'} (f : A -> A') (g : B -> B') (x : res A) (x' : res A') (k : A -> res B) (k' : A' -> res B') :
  x' = res_map f x -> (forall a, k' (f a) = res_map g (k a)) -> bind x' k' = res_map g (bind x k).
Proof. intros -> H. destruct x; [apply H|reflexivity]. Qed.

Lemma S_pred s : predicted_end (mS s) = mP (predicted_end s).
Proof. unfold predicted_end, placed_seg. cbn [pos_begin pos_end vel_begin vel_end t_begin t_end]. rewrite <- T_add, <- T_scale, <- T_div, <- P_add. reflexivity. Qed.
Lemma S_check s : self_check (mS s) = self_check s.
Proof. unfold self_check. rewrite S_pred. cbn [placed_seg pos_end t_end t_begin]. rewrite P_diff, T_norm3. reflexivity. Qed.
Lemma S_check_settings v s : self_check_settings v (mS s) = self_check_settings v s.
Proof. unfold self_check_settings. rewrite S_check. cbn [placed_seg vel_begin vel_end]. rewrite !T_norm3. reflexivity. Qed.
Lemma S_mk t0 t1 p0 p1 v0 v1 : mk_segment t0 t1 (mP p0) (mP p1) (T v0) (T v1) = res_map mS (mk_segment t0 t1 p0 p1 v0 v1).
Proof.
  unfold mk_segment. change (Seg t0 t1 (mP p0) (mP p1) (T v0) (T v1)) with (mS (Seg t0 t1 p0 p1 v0 v1)). rewrite S_check.
  destruct (self_check _); reflexivity.
Qed.
Lemma S_keep s : keep_seg (mS s) = map mS (keep_seg s).
Proof. unfold keep_seg. cbn [placed_seg pos_begin pos_end]. rewrite P_travel, P_extr. destruct (_ || _); reflexivity. Qed.
Lemma S_last l : last_seg (map mS l) = res_map mS (last_seg l).
Proof. unfold last_seg. rewrite <- map_rev. destruct (rev l); reflexivity. Qed.
Lemma S_first l : first_seg (map mS l) = res_map mS (first_seg l).
Proof. destruct l; reflexivity. Qed.
Definition mX (x : list segment * btype) : list segment * btype := (map mS (fst x), snd x).

Lemma M_trapezoid d pv a dist v0 v v1 eo :
  trapezoid (T d) (mS pv) a dist v0 v v1 eo = res_map mX (trapezoid d pv a dist v0 v v1 eo).
Proof.
  unfold trapezoid. cbn [placed_seg t_end pos_end]. rewrite <- !T_scale, <- !P_add, T_norm3, T_norm4, S_mk. apply bind_map with (f := mS); [reflexivity|]. intros sA.
  rewrite S_mk. apply bind_map with (f := mS); [reflexivity|]. intros sB. rewrite S_mk. apply bind_map with (f := mS); [reflexivity|]. intros sC.
  cbn [res_map]. unfold mX. cbn [fst snd]. rewrite !map_app, !S_keep. reflexivity.
Qed.
Lemma M_triang d pv a v0 v v1 : triang (T d) (mS pv) a v0 v v1 = res_map mX (triang d pv a v0 v v1).
Proof.
  unfold triang. cbn [placed_seg t_end pos_end]. rewrite <- !T_scale, <- !P_add, S_mk. apply bind_map with (f := mS); [reflexivity|]. intros sA.
  rewrite S_mk. apply bind_map with (f := mS); [reflexivity|]. intros sC. cbn [res_map]. unfold mX. cbn [fst snd]. rewrite !map_app, !S_keep. reflexivity.
Qed.
Lemma M_up d pv a v0 v1 : singl_up (T d) (mS pv) a v0 v1 = res_map mX (singl_up d pv a v0 v1).
Proof.
  unfold singl_up. cbn [placed_seg t_end pos_end]. rewrite <- !T_scale, <- !P_add, S_mk. apply bind_map with (f := mS); [reflexivity|]. intros sA.
  cbn [res_map]. unfold mX. cbn [fst snd]. rewrite !S_keep. reflexivity.
Qed.
Lemma M_dwn d pv a v0 v1 : singl_dwn (T d) (mS pv) a v0 v1 = res_map mX (singl_dwn d pv a v0 v1).
Proof.
  unfold singl_dwn. cbn [placed_seg t_end pos_end]. rewrite <- !T_scale, <- !P_add, S_mk. apply bind_map with (f := mS); [reflexivity|]. intros sA.
  cbn [res_map]. unfold mX. cbn [fst snd]. rewrite !S_keep. reflexivity.
Qed.
Lemma try_map {A B} (f : A -> B) x : try_runtime (res_map f x) = res_map f (try_runtime x).
Proof. destruct x as [|[]]; reflexivity. Qed.
Lemma M_move A B d pv v : move_maker2 (mK A) (mK B) (T d) (mS pv) v = res_map mX (move_maker2 A B d pv v).
Proof.
  unfold move_maker2. assert (E : move_distance (mK A) (mK B) = move_distance A B).
  { unfold move_distance. cbn [placed_state k_pos]. rewrite !P_dist. reflexivity. }
  rewrite E. destruct (move_distance A B) as [dist eo]. cbn [placed_state k_acc k_speed placed_seg vel_end]. rewrite T_norm3.
  destruct (Rleb (k_acc B) 0); [reflexivity|]. rewrite <- try_map. f_equal. rewrite M_trapezoid, M_triang, M_up, M_dwn.
  repeat match goal with |- context [if ?b then _ else _] => match type of b with bool => destruct b end end; try reflexivity.
Qed.

Lemma D_dir v : get_norm_dir (T v) = option_map T (get_norm_dir v).
Proof.
  unfold get_norm_dir. rewrite T_norm3, T_norm4. destruct (Rltb 0 (norm3 v)); [cbn [option_map]; rewrite T_div; reflexivity|].
  destruct (Rltb 0 (norm4 v)); [cbn [option_map]; rewrite T_div; reflexivity|reflexivity].
Qed.
Lemma D_not_zero v : not_zero (T v) = not_zero v.
Proof. unfold not_zero. rewrite T_norm4. reflexivity. Qed.
Lemma B_prev A prev : previous_segment (mK A) (option_map mB prev) = res_map mS (previous_segment A prev).
Proof.
  destruct prev as [b|]; cbn [option_map previous_segment]; [apply S_last|]. cbn [res_map]. f_equal. unfold create_initial, placed_seg.
  cbn [t_begin t_end pos_begin pos_end vel_begin vel_end]. rewrite T_zero. reflexivity.
Qed.
Lemma B_block A B rest prev :
  planner_block fw (option_map mK A) (mK B) (map mK rest) (option_map mB prev) = res_map (option_map mB) (planner_block fw A B rest prev).
Proof.
  unfold planner_block. rewrite K_junction, Hfw. cbn [mJ target_vel placed_state k_acc k_pause]. rewrite D_dir, D_not_zero.
  destruct (Rleb (k_acc B) 0); [reflexivity|]. apply bind_map with (f := option_map mB).
  - destruct A as [a|]; [|destruct (get_norm_dir _); reflexivity]. cbn [option_map]. destruct (get_norm_dir _) as [d|] eqn:Ed; [|reflexivity]. cbn [option_map].
    destruct (not_zero _); [|reflexivity]. apply bind_map with (f := mS); [apply B_prev|]. intros pv.
    apply bind_map with (f := mX); [apply M_move|]. intros [segs ty]. cbn [mX res_map option_map fst snd]. unfold placed_block at 1.
    cbn [b_A b_B b_dir b_segs b_type b_extr b_JD option_map]. change (k_pos (mK a)) with (mP (k_pos a)). change (k_pos (mK B)) with (mP (k_pos B)).
    rewrite T_scale, P_extr. reflexivity.
  - intros ob. destruct (k_pause B) as [w|]; [|reflexivity]. destruct prev as [pb|]; [|reflexivity]. cbn [option_map placed_block b_segs].
    apply bind_map with (f := mS); [apply S_last|]. intros pv. cbn [placed_seg t_end pos_end].
    apply bind_map with (f := mS); [rewrite <- T_zero at 1 2; apply S_mk|]. intros s.
    destruct ob as [b|]; cbn [option_map res_map].
    + unfold placed_block. cbn [b_A b_B b_dir b_segs b_type b_extr b_JD map]. rewrite T_zero. reflexivity.
    + destruct A as [a|]; cbn [option_map res_map]; [|reflexivity]. unfold placed_block. cbn [b_A b_B b_dir b_segs b_type b_extr b_JD map option_map].
      rewrite T_zero. reflexivity.
Qed.
Lemma B_gen : forall states A done,
  gen_blocks fw (option_map mK A) (map mK states) (map mB done) = res_map (map mB) (gen_blocks fw A states done).
Proof.
  induction states as [|s rest IH]; intros A done; cbn [map gen_blocks]; [cbn [res_map]; rewrite map_rev; reflexivity|].
  apply bind_map with (f := option_map mB).
  - rewrite <- B_block. f_equal. destruct done; reflexivity.
  - intros ob. rewrite <- IH. f_equal. destruct ob as [b|]; [|reflexivity]. cbn [option_map add_block placed_block b_segs]. destruct (b_segs b); reflexivity.
Qed.

Lemma C_shift dt b : timeshift dt (mB b) = mB (timeshift dt b).
Proof. unfold timeshift, set_segs, placed_block. cbn [b_A b_B b_dir b_segs b_type b_extr b_JD]. rewrite !map_map. reflexivity. Qed.
Lemma C_warn b : adherence_warning (mB b) = adherence_warning b.
Proof.
  unfold adherence_warning. cbn [placed_block b_segs b_B placed_state k_speed]. induction (b_segs b) as [|s l IH]; [reflexivity|].
  cbn [map existsb]. rewrite IH, S_check_settings. reflexivity.
Qed.
Lemma C_flag s n : flag_correct (mS s) (mS n) = flag_correct s n.
Proof. unfold flag_correct. cbn [placed_seg vel_end vel_begin]. rewrite !T_norm3. reflexivity. Qed.
Lemma C_remake prevs b v : remake (map mB prevs) (mB b) v = res_map mB (remake prevs b v).
Proof.
  unfold remake. cbn [placed_block b_dir b_A b_B]. destruct (b_dir b) as [d|] eqn:Ed; [|reflexivity]. cbn [option_map].
  apply bind_map with (f := mS).
  - rewrite <- B_prev. f_equal. destruct prevs; reflexivity.
  - intros pv. apply bind_map with (f := mX); [apply M_move|]. intros [segs ty]. reflexivity.
Qed.

Definition mR (x : list block * block * block * bool) : list block * block * block * bool :=
  let '(p, b, n, w) := x in (map mB p, mB b, mB n, w).
(** The check of continuity is the only part that sees where the origin is; so
    the results agree if both succeed. *)
Lemma bind_ok {A B} (x : res A) (k : A -> res B) r : bind x k = Ok r -> exists a, x = Ok a /\ k a = Ok r.
Proof. destruct x as [a|]; [intros H; exists a; auto|discriminate]. Qed.
Lemma C_self : forall prevs b n r r', self_correction prevs b n = Ok r ->
  self_correction (map mB prevs) (mB b) (mB n) = Ok r' -> r' = mR r.
Proof.
  induction prevs as [|p ps IH]; intros b n r r' H H'; cbn [self_correction map] in H, H';
    apply bind_ok in H as (s & Es & H); apply bind_ok in H as (m & Em & H);
    cbn [placed_block b_segs] in H'; rewrite S_last, S_first, Es, Em in H'; cbn [res_map bind] in H'; rewrite C_flag in H'; cbn [placed_seg vel_begin] in H';
    rewrite T_norm3 in H'; apply bind_ok in H as ([[prevs1 b1] w1] & E1 & H); apply bind_ok in H' as ([[prevs1' b1'] w1'] & E1' & H');
    assert (Eq : prevs1' = map mB prevs1 /\ b1' = mB b1 /\ w1' = w1).
  - destruct (flag_correct s m).
    + apply bind_ok in E1 as (b2 & E2 & E1). apply bind_ok in E1' as (b2' & E2' & E1'). pose proof (C_remake [] b (norm3 (vel_begin m))) as R. cbn [map] in R.
      change (remake [] (mB b) (norm3 (vel_begin m)) = Ok b2') in E2'. rewrite R, E2 in E2'. cbn [res_map] in E2'. injection E2' as <-.
      cbn [placed_block b_type] in E1'. destruct (b_type b2) as [[]|]; try discriminate; injection E1 as <- <- <-; injection E1' as <- <- <-; auto.
    + injection E1 as <- <- <-; injection E1' as <- <- <-; auto.
  - destruct Eq as (-> & -> & ->). apply bind_ok in H as (s1 & Es1 & H). apply bind_ok in H' as (s1' & Es1' & H').
    cbn [placed_block b_segs] in Es1'. rewrite S_last, Es1 in Es1'. injection Es1' as <-.
    apply bind_ok in H as (m1 & Em1 & H). apply bind_ok in H' as (m1' & Em1' & H').
    apply bind_ok in H as ([] & _ & H). apply bind_ok in H' as ([] & _ & H'). injection H as <-. injection H' as <-. cbn [mR].
    rewrite C_warn. cbn [placed_seg t_end t_begin]. change (Block _ _ _ _ _ _ _) with (mB n). rewrite C_shift. reflexivity.
  - destruct (flag_correct s m).
    + apply bind_ok in E1 as (b2 & E2 & E1). apply bind_ok in E1' as (b2' & E2' & E1'). pose proof (C_remake (p :: ps) b (norm3 (vel_begin m))) as R. cbn [map] in R.
      change (remake (mB p :: map mB ps) (mB b) (norm3 (vel_begin m)) = Ok b2') in E2'. rewrite R, E2 in E2'. cbn [res_map] in E2'. injection E2' as <-.
      cbn [placed_block b_type] in E1'. destruct (b_type b2) as [[]|]; try (injection E1 as <- <- <-; injection E1' as <- <- <-; auto; fail).
      apply bind_ok in E1 as ([[[ps2 p2] b3] w2] & E3 & E1). apply bind_ok in E1' as ([[[ps2' p2'] b3'] w2'] & E3' & E1').
      pose proof (IH _ _ _ _ E3 E3') as Q. cbn [mR] in Q. injection Q as -> -> -> ->. injection E1 as <- <- <-; injection E1' as <- <- <-. auto.
    + injection E1 as <- <- <-; injection E1' as <- <- <-; auto.
  - destruct Eq as (-> & -> & ->). apply bind_ok in H as (s1 & Es1 & H). apply bind_ok in H' as (s1' & Es1' & H').
    cbn [placed_block b_segs] in Es1'. rewrite S_last, Es1 in Es1'. injection Es1' as <-.
    apply bind_ok in H as (m1 & Em1 & H). apply bind_ok in H' as (m1' & Em1' & H').
    apply bind_ok in H as ([] & _ & H). apply bind_ok in H' as ([] & _ & H'). injection H as <-. injection H' as <-. cbn [mR].
    rewrite C_warn. cbn [placed_seg t_end t_begin]. change (Block _ _ _ _ _ _ _) with (mB n). rewrite C_shift. reflexivity.
Qed.
Lemma C_from : forall rest prevs b r r', correct_from prevs b rest = Ok r ->
  correct_from (map mB prevs) (mB b) (map mB rest) = Ok r' -> r' = (map mB (fst r), snd r).
Proof.
  induction rest as [|n rest IH]; intros prevs b r r' H H'; cbn [correct_from map] in H, H'.
  - injection H as <-. injection H' as <-. cbn [fst snd]. rewrite C_warn, map_app, map_rev. reflexivity.
  - apply bind_ok in H as ([[[p1 b1] n1] w1] & E & H). apply bind_ok in H' as ([[[p1' b1'] n1'] w1'] & E' & H').
    pose proof (C_self _ _ _ _ _ E E') as Q. cbn [mR] in Q. injection Q as -> -> -> ->.
    apply bind_ok in H as ([bl w] & E2 & H). apply bind_ok in H' as ([bl' w'] & E2' & H').
    pose proof (IH (b1 :: p1) n1 _ _ E2 E2') as Q. cbn [fst snd] in Q. injection Q as -> ->. injection H as <-. injection H' as <-. reflexivity.
Qed.
Lemma C_simulate states r r' : simulate fw states = Ok r -> simulate fw (map mK states) = Ok r' -> r' = (map mB (fst r), snd r).
Proof.
  unfold simulate, generate_planner_blocks. intros H H'. apply bind_ok in H as (bl & E & H). apply bind_ok in H' as (bl' & E' & H').
  pose proof (B_gen states None []) as G. cbn [option_map map] in G. rewrite G, E in E'. injection E' as <-.
  destruct bl as [|b rest]; [injection H as <-; injection H' as <-; reflexivity|]. exact (C_from rest [] b r r' H H').
Qed.

(** Valid programs stay valid. *)
Lemma T_injective u v : T u = T v -> u = v.
Proof.
  intros E. assert (Hd : norm3 (vsub u v) = 0).
  { rewrite <- T_norm3, T_sub, E. unfold norm3. simpl. replace (_ + _) with 0 by ring. apply sqrt_0. }
  pose proof (f_equal ve E) as Ee. rewrite !T_e in Ee. unfold norm3 in Hd. simpl in Hd.
  pose proof (Rle_0_sqr (vx u - vx v)) as X. pose proof (Rle_0_sqr (vy u - vy v)) as Y. pose proof (Rle_0_sqr (vz u - vz v)) as Z. unfold Rsqr in *.
  apply sqrt_eq_0 in Hd; [|lra].
  assert (X0 : vx u - vx v = 0) by (apply Rsqr_0_uniq; unfold Rsqr; lra). assert (Y0 : vy u - vy v = 0) by (apply Rsqr_0_uniq; unfold Rsqr; lra).
  assert (Z0 : vz u - vz v = 0) by (apply Rsqr_0_uniq; unfold Rsqr; lra). apply vec4_ext; lra.
Qed.
Lemma P_injective p q : mP p = mP q -> p = q.
Proof. unfold placed. intros E. apply T_injective. replace (T p) with (vsub (vadd (T p) c) c) by vec. rewrite E. vec. Qed.
Lemma V_first : forall states A, moves_first A states -> moves_first (mK A) (map mK states).
Proof.
  induction states as [|s rest IH]; intros A H; [exact H|]. cbn [map moves_first] in *. destruct H as [H1 [H2|H2]]; (split; [exact H1|]).
  - left. intros E. apply H2, P_injective, E.
  - right. auto.
Qed.
Lemma V_valid s0 states : valid_program s0 states -> valid_program (mK s0) (map mK states).
Proof.
  intros (H1 & H2 & H3). split; [|split; [exact H2|apply V_first; exact H3]].
  change (mK s0 :: map mK states) with (map mK (s0 :: states)). apply Forall_map. eapply Forall_impl; [|exact H1]. intros k Hk. exact Hk.
Qed.
Lemma placed_simulation s0 states bl wn : valid_program s0 states -> simulate fw (s0 :: states) = Ok (bl, wn) ->
  simulate fw (map mK (s0 :: states)) = Ok (map mB bl, wn).
Proof.
  intros Hv H. destruct (simulation_succeeds fw _ _ (V_valid _ _ Hv)) as (bl' & H'). cbn [map].
  pose proof (C_simulate (s0 :: states) _ _ H H') as Q. rewrite H', Q. reflexivity.
Qed.

(** * Queries *)
Lemma Q_vel s t : vel_at (mS s) t = T (vel_at s t).
Proof.
  unfold vel_at. cbn [placed_seg vel_begin vel_end t_begin t_end]. rewrite T_add, T_scale. f_equal. f_equal.
  destruct (Rltb 0 (t_end s - t_begin s)); [rewrite T_div, T_sub; reflexivity|rewrite T_zero; reflexivity].
Qed.
Lemma Q_pos s t : pos_at (mS s) t = mP (pos_at s t).
Proof.
  unfold pos_at. rewrite Q_vel. cbn [placed_seg vel_begin pos_begin t_begin]. rewrite <- T_add, <- T_scale, <- T_div, <- P_add. reflexivity.
Qed.
Definition mF (f : found) : found := match f with At s i => At (mS s) i | x => x end.
Lemma Q_fresh t : forall path i, scan_fresh (map mS path) t i = mF (scan_fresh path t i).
Proof. induction path as [|s path IH]; intros i; [reflexivity|]. cbn [map scan_fresh placed_seg t_begin t_end]. rewrite IH. destruct (_ && _); reflexivity. Qed.
Lemma Q_from t : forall path i, scan_from (map mS path) t i = mF (scan_from path t i).
Proof. induction path as [|s path IH]; intros i; [reflexivity|]. cbn [map scan_from placed_seg t_begin t_end]. rewrite IH. destruct (_ && _); reflexivity. Qed.
Lemma Q_anew path t i : search_anew (map mS path) t i = search_anew path t i.
Proof. unfold search_anew. destruct i as [i|]; [|reflexivity]. rewrite nth_error_map. destruct (nth_error path i); reflexivity. Qed.
Lemma Q_find path t i : find_current_segment (map mS path) t i = res_map mF (find_current_segment path t i).
Proof.
  unfold find_current_segment. apply bind_map with (f := mS); [apply S_last|]. intros l. cbn [placed_seg t_end]. rewrite Q_anew.
  destruct (Rltb (t_end l) t); [reflexivity|]. destruct (search_anew path t i); [cbn [res_map]; rewrite Q_fresh; reflexivity|].
  rewrite skipn_map, Q_from. destruct (scan_from _ t _); reflexivity.
Qed.
Lemma Q_unpack bl : unpack_blocklist (map mB bl) = map mS (unpack_blocklist bl).
Proof. unfold unpack_blocklist. induction bl as [|b bl IH]; [reflexivity|]. cbn [map flat_map]. rewrite IH, map_app. reflexivity. Qed.
Lemma Q_values bl un i t u k : dindex (match u with Some w => w | None => un end) output_units = Ok k ->
  get_values (Sim (map mB bl) un i) t u =
  (res_map (fun r => (T (fst r), vadd (T (snd r)) (vscale k c))) (fst (get_values (Sim bl un i) t u)), snd (get_values (Sim bl un i) t u)).
Proof.
  intros Hk. unfold get_values, get_scaling_factor. cbn [blocklist last_index output_unit_system]. rewrite Q_unpack, Q_find, Hk.
  destruct (find_current_segment _ t i) as [[s j| |]|e]; [|reflexivity..]. cbn [res_map mF fst snd]. f_equal.
  unfold get_velocity, get_position, out_of_range. cbn [placed_seg t_begin t_end]. destruct (_ || _); [reflexivity|].
  cbn [bind res_map fst snd]. fold (mS s). rewrite Q_vel, Q_pos, T_scale. unfold placed. rewrite T_scale. f_equal. f_equal. vec.
Qed.
Lemma Q_index bl un i t u : snd (get_values (Sim (map mB bl) un i) t u) = snd (get_values (Sim bl un i) t u).
Proof.
  unfold get_values. cbn [blocklist last_index]. rewrite Q_unpack, Q_find.
  destruct (find_current_segment _ t i) as [[s j| |]|e]; reflexivity.
Qed.
Lemma Q_after bl un : forall hist i, exists j,
  after_queries (Sim (map mB bl) un i) hist = Sim (map mB bl) un j /\ after_queries (Sim bl un i) hist = Sim bl un j.
Proof.
  induction hist as [|h hist IH]; intros i; [exists i; auto|]. unfold after_queries in *. cbn [fold_left].
  rewrite Q_index. unfold set_index at 2 4. cbn [blocklist output_unit_system]. apply IH.
Qed.
End Rigid.

(** Which firmwares see only lengths and angles. *)
Lemma isotropic T c fw : isometry T -> fw <> MKA -> forall j B, junction_vel fw (mJ T j) (placed_state T c B) = junction_vel fw j B.
Proof.
  intros HT Hn j B. destruct fw; cbn [junction_vel mJ target_vel vel_next jt_distance placed_state k_acc k_jerk k_speed];
    [apply J_JD|apply J_klipper|apply J_jerk|contradiction|reflexivity]; exact HT.
Qed.
Lemma id_isometry : isometry (fun v => v).
Proof. repeat split. Qed.
Lemma shift_any c fw : forall j B, junction_vel fw (mJ (fun v => v) j) (placed_state (fun v => v) c B) = junction_vel fw j B.
Proof. intros [u v d] B. destruct fw; reflexivity. Qed.
Lemma turn_isometry w : isometry (turn w).
Proof.
  assert (E : cos w * cos w + sin w * sin w = 1) by (pose proof (sin2_cos2 w) as H; unfold Rsqr in H; lra).
  split; [intros; vec|]. split; [intros; vec|]. split; [|reflexivity]. intros a b. unfold turn. simpl.
  replace ((cos w * vx a - sin w * vy a) * (cos w * vx b - sin w * vy b) + (sin w * vx a + cos w * vy a) * (sin w * vx b + cos w * vy b)) with
    ((cos w * cos w + sin w * sin w) * (vx a * vx b + vy a * vy b)) by ring. rewrite E. ring.
Qed.
