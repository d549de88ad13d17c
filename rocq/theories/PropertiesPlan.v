(** Properties C20-C35, C61, C62: planning and the simulated trajectory.
    Vocabulary: SpecKin.v. *)
From Coq Require Import Lra.
From Verif Require Import Py Vec Segment Junction Planner RealFacts SpecKin MoveProofs SegProofs
     JunctionProofs CorrectProofs PlannerProofs TrajProofs PlanFacts PlanRefute.
Open Scope R_scope.

(** A concrete program used to show that hypotheses can be met: an L-shaped
    path with extrusion, a dwell, a retraction and a travel move. *)
Definition ex0 : kstate := KState (V4 0 0 0 0) 20 500 8 None None.
Definition ex_states : list kstate :=
  [KState (V4 10 0 0 1) 20 500 8 None (Some 0%nat); KState (V4 10 5 0 (3 / 2)) 20 500 8 None (Some 0%nat);
   KState (V4 10 5 0 (3 / 2)) 20 500 8 (Some (1 / 2)) (Some 0%nat);
   KState (V4 10 5 0 (1 / 2)) 40 500 8 None (Some 0%nat);
   KState (V4 0 0 (1 / 5) (1 / 2)) 100 1000 8 None (Some 1%nat)].
Example ex_valid : valid_program ex0 ex_states.
Proof.
  split; [|split].
  - repeat first [apply Forall_nil | apply Forall_cons];
      (split; [simpl; lra|]; split; [simpl; lra|]; split; [simpl; lra|]);
      intros p Hp; try discriminate Hp. injection Hp as <-. lra.
  - reflexivity.
  - simpl. split; [reflexivity|]. left. intros E. apply (f_equal vx) in E. simpl in E. lra.
Qed.
Example ex_no_moving_pause : no_moving_pause ex0 ex_states.
Proof. simpl. tauto. Qed.
Example ex_simulates fw : exists bl, simulate fw (ex0 :: ex_states) = Ok (bl, false).
Proof. exact (simulation_succeeds fw _ _ ex_valid). Qed.
Example ex_move_hypotheses : let A := ex0 in let B := nth 0 ex_states ex0 in
  k_pos B <> k_pos A /\ 0 < k_acc B /\ 0 < k_speed B /\ 0 <= 8 <= k_speed B.
Proof.
  simpl. split; [|lra]. intros E. apply (f_equal vx) in E. simpl in E. lra.
Qed.
Example ex_consistent : consistent (Seg 1 2 vzero (V4 3 0 0 0) (V4 2 0 0 0) (V4 4 0 0 0)).
Proof. split; simpl; [lra|]. apply vec4_ext; simpl; field. Qed.

(** C20: within a segment the velocity is linear in time, the position leads
    from pos_begin to pos_end and its derivative is the velocity. *)
Theorem C20_position_is_integral_of_velocity s : consistent s ->
  get_position s (t_begin s) = Ok (pos_begin s) /\ get_position s (t_end s) = Ok (pos_end s) /\
  get_velocity s (t_begin s) = Ok (vel_begin s) /\ get_velocity s (t_end s) = Ok (vel_end s) /\
  forall t, t_begin s <= t <= t_end s ->
    exists v, get_velocity s t = Ok v /\
      v = vadd (vel_begin s) (vscale ((t - t_begin s) / (t_end s - t_begin s)) (vsub (vel_end s) (vel_begin s))) /\
      (exists p, get_position s t = Ok p) /\
      (t_begin s < t < t_end s -> forall pos, (forall u, t_begin s <= u <= t_end s -> get_position s u = Ok (pos u)) ->
         derivative4 pos t v).
Proof. exact (position_is_integral s). Qed.

(** C20: at all other times the segment answers neither question. *)
Theorem C20_outside s t : t < t_begin s \/ t_end s < t -> get_position s t = Err ValueError /\ get_velocity s t = Err ValueError.
Proof.
  intros H. unfold get_position, get_velocity, out_of_range. destruct H as [H|H]; rewrite (Rltb_true _ _ H); [|rewrite orb_true_r]; split; reflexivity.
Qed.
Example ex_outside : let s := Seg 1 2 vzero (V4 3 0 0 0) (V4 2 0 0 0) (V4 4 0 0 0) in 1 / 2 < t_begin s \/ t_end s < 1 / 2.
Proof. left. simpl. lra. Qed.

(** C20, the constructor's check: an accepted segment that takes time ends
    where the interpolation leads, up to 1e-6 mm. *)
Theorem C20_constructor_check t0 t1 p0 p1 v0 v1 s : t0 < t1 -> mk_segment t0 t1 p0 p1 v0 v1 = Ok s ->
  s = Seg t0 t1 p0 p1 v0 v1 /\
  exists q, get_position s t1 = Ok q /\ norm3 (vsub p1 q) <= 1 / 1000000.
Proof.
  intros Ht H. unfold mk_segment in H. destruct (self_check (Seg t0 t1 p0 p1 v0 v1)) as [[]|] eqn:E; [|discriminate].
  cbn [bind] in H. injection H as <-. split; [reflexivity|].
  exists (pos_at (Seg t0 t1 p0 p1 v0 v1) t1). split.
  - unfold get_position. rewrite in_range by (simpl; lra). reflexivity.
  - exact (self_check_bound (Seg t0 t1 p0 p1 v0 v1) Ht E).
Qed.

(** The planner's direction is the direction of the move. *)
Lemma planner_direction A B d : k_pos B <> k_pos A -> 0 < k_speed B ->
  get_norm_dir (connect_state A B) = Some d <-> direction A B d.
Proof.
  intros Hne Hs. destruct (connect_moves A B Hne Hs) as (d' & eo & dist & Hm & Hd & _ & Hv & _ & Hn & _).
  rewrite Hn. unfold direction. rewrite <- (move_distance_length _ _ _ _ Hm), <- Hv. split.
  - intros E. injection E as <-. split; [exact Hd | reflexivity].
  - intros [_ E]. f_equal. assert (X : forall x y, x * dist = y * dist -> y = x) by (intros x y Hxy; symmetry; apply Rmult_eq_reg_r with dist; lra).
    apply vec4_ext; apply X; [exact (f_equal vx E) | exact (f_equal vy E) | exact (f_equal vz E) | exact (f_equal ve E)].
Qed.
(** C21: planning a move never fails. *)
Theorem C21_every_move_plannable A B pv v_end :
  k_pos B <> k_pos A -> 0 < k_acc B -> 0 < k_speed B -> 0 <= v_end <= k_speed B ->
  exists d segs ty, direction A B d /\
    move_maker2 A B d pv v_end = Ok (segs, ty) /\ segs <> [].
Proof.
  intros Hne Ha Hs Hv. destruct (move_planned A B pv v_end Hne Ha Hs Hv) as (d & segs & ty & Hd & H).
  exists d, segs, ty. split; [apply planner_direction; assumption | exact H].
Qed.

(** C22: the segments of a planned move start where the previous one ended,
    join in time, position and velocity, and cover B - A in all four axes. *)
Theorem C22_exact_displacement A B pv v_end d segs ty :
  k_pos B <> k_pos A -> 0 < k_acc B -> 0 < k_speed B -> 0 <= v_end <= k_speed B ->
  direction A B d -> move_maker2 A B d pv v_end = Ok (segs, ty) ->
  starts (fun s => t_begin s = t_end pv /\ pos_begin s = pos_end pv) segs /\
  joined (fun s n => (t_end s = t_begin n /\ pos_end s = pos_begin n) /\ vel_end s = vel_begin n) segs /\
  ends (fun s => pos_end s = vadd (pos_end pv) (vsub (k_pos B) (k_pos A))) segs.
Proof.
  intros Hne Ha Hs Hv Hd. apply planner_direction in Hd; [|assumption..]. exact (move_displacement A B pv v_end d segs ty Hne Ha Hs Hv Hd).
Qed.

(** C22, also after the self correction. *)
Theorem C22_exact_displacement_simulated fw s0 states bl wn b :
  valid_program s0 states -> simulate fw (s0 :: states) = Ok (bl, wn) ->
  In b bl -> k_pause (b_B b) = None ->
  joined (fun s n => (t_end s = t_begin n /\ pos_end s = pos_begin n) /\ vel_end s = vel_begin n) (b_segs b) /\
  starts (fun f => ends (fun l => vsub (pos_end l) (pos_begin f) = vsub (k_pos (b_B b)) (k_pos (b_A b))) (b_segs b))
         (b_segs b).
Proof. intros Hv Hs. exact (sim_block_displacement fw s0 states bl wn Hv Hs b). Qed.

(** C23: speed and acceleration limits, for a planned move and after the self
    correction: acceleration exactly +a, 0 or -a along the move. *)
Theorem C23_limits A B pv v_end d segs ty :
  k_pos B <> k_pos A -> 0 < k_acc B -> 0 < k_speed B -> 0 <= v_end <= k_speed B ->
  direction A B d -> move_maker2 A B d pv v_end = Ok (segs, ty) ->
  forall s, In s segs -> consistent s /\ within_limits d (k_acc B) (k_speed B) s.
Proof.
  intros Hne Ha Hs Hv Hd. apply planner_direction in Hd; [|assumption..]. exact (move_limits A B pv v_end d segs ty Hne Ha Hs Hv Hd).
Qed.

Theorem C23_limits_simulated fw s0 states bl wn b s :
  valid_program s0 states -> simulate fw (s0 :: states) = Ok (bl, wn) ->
  In b bl -> In s (b_segs b) -> k_pause (b_B b) = None ->
  consistent s /\ exists d, direction (b_A b) (b_B b) d /\ within_limits d (k_acc (b_B b)) (k_speed (b_B b)) s.
Proof. intros Hv Hs. exact (sim_limits_dir fw s0 states bl wn Hv Hs b s). Qed.

(** C24: the trajectory starts at time 0 at the initial position, has no gaps,
    and every block leads from the position of its first to the position of
    its second state. *)
Theorem C24_contiguous_trajectory fw s0 states bl wn :
  valid_program s0 states -> simulate fw (s0 :: states) = Ok (bl, wn) ->
  starts (fun s => t_begin s = 0 /\ pos_begin s = k_pos s0) (unpack_blocklist bl) /\
  joined (fun s n => t_end s = t_begin n /\ pos_end s = pos_begin n) (unpack_blocklist bl).
Proof. intros Hv Hs. exact (sim_contiguous fw s0 states bl wn Hv Hs). Qed.

Theorem C24_blocks_reach_their_states fw s0 states bl wn b :
  valid_program s0 states -> no_moving_pause s0 states -> simulate fw (s0 :: states) = Ok (bl, wn) ->
  In b bl ->
  starts (fun s => pos_begin s = k_pos (b_A b)) (b_segs b) /\
  ends (fun s => pos_end s = k_pos (b_B b)) (b_segs b).
Proof. intros Hv Hn Hs. exact (sim_positions fw s0 states bl wn Hv Hs Hn b). Qed.

(** C25: speeds match at all junctions, up to the tolerance of the code. *)
Theorem C25_speeds_match fw s0 states bl wn :
  valid_program s0 states -> simulate fw (s0 :: states) = Ok (bl, wn) ->
  joined (fun s n => Rabs (norm3 (vel_end s) - norm3 (vel_begin n)) <= 1 / 1000000000000) (unpack_blocklist bl).
Proof. intros Hv Hs. exact (sim_speeds_match fw s0 states bl wn Hv Hs). Qed.

(** C26: no exception and no warning on valid input. *)
Theorem C26_simulation_succeeds fw s0 states :
  valid_program s0 states -> exists bl, simulate fw (s0 :: states) = Ok (bl, false).
Proof. exact (simulation_succeeds fw s0 states). Qed.

(** C27: a junction speed is between zero and the speed of the arriving move. *)
Theorem C27_junction_speed_bounds fw A B rest : 0 < k_speed B -> 0 <= k_jerk B ->
  0 <= junction_vel fw (mk_junction (Some A) B rest) B <= k_speed B /\
  (norm3 (vsub (k_pos B) (k_pos A)) = 0 -> junction_vel fw (mk_junction (Some A) B rest) B = 0).
Proof.
  intros Hs Hj. pose proof (junction_vel_bounds fw A B rest Hs Hj) as Q. split.
  - destruct (connect_norm3 A B Hs) as [H|H]; rewrite H in Q; lra.
  - intros H. rewrite (still_norm A B Hs H) in Q. lra.
Qed.

(** C28: the plan keeps the corner speeds and is at least as fast as every
    profile that does. *)
Theorem C28_plan_is_fastest fw s0 states bl wn items :
  valid_program s0 states -> simulate fw (s0 :: states) = Ok (bl, wn) -> plan_items s0 states items ->
  (forall wl, feasible fw 0 items wl ->
     Forall2 (fun b w => ends (fun s => w <= norm3 (vel_end s)) (b_segs b)) bl wl) /\
  Forall2 (fun b i => let '(A, B, rest) := i in
             ends (fun s => norm3 (vel_end s) <= junction_vel fw (mk_junction (Some A) B rest) B) (b_segs b)) bl items.
Proof.
  intros Hv Hs Hi. split.
  - intros wl. exact (sim_dominates fw s0 states bl wn Hv Hs items wl Hi).
  - exact (sim_corner_speeds fw s0 states bl wn Hv Hs items Hi).
Qed.

(** C29: correcting again changes nothing.  (refresh() recomputes the same
    function of the same states, see Interp.v.) *)
Theorem C29_correction_idempotent fw s0 states bl wn :
  valid_program s0 states -> simulate fw (s0 :: states) = Ok (bl, wn) ->
  trajectory_self_correct bl = Ok (bl, false).
Proof. intros Hv Hs. exact (sim_idempotent fw s0 states bl wn Hv Hs). Qed.

(** C30: duration of a move and of the whole trajectory. *)
Theorem C30_move_time_lower_bound A B pv v_end d segs ty :
  k_pos B <> k_pos A -> 0 < k_acc B -> 0 < k_speed B -> 0 <= v_end <= k_speed B ->
  direction A B d -> move_maker2 A B d pv v_end = Ok (segs, ty) ->
  ends (fun s => move_length A B / k_speed B <= t_end s - t_end pv) segs.
Proof.
  intros Hne Ha Hs Hv Hd. apply planner_direction in Hd; [|assumption..]. exact (move_min_time A B pv v_end d segs ty Hne Ha Hs Hv Hd).
Qed.

Theorem C30_total_time_lower_bound fw s0 states bl wn :
  valid_program s0 states -> simulate fw (s0 :: states) = Ok (bl, wn) ->
  ends (fun s => Rsum (fun b => least_time (b_A b) (b_B b)) bl <= t_end s) (unpack_blocklist bl).
Proof. intros Hv Hs. exact (sim_min_time fw s0 states bl wn Hv Hs). Qed.

Theorem C30_isolated_move_time A B pv d segs ty :
  k_pos B <> k_pos A -> 0 < k_acc B -> 0 < k_speed B -> norm3 (vel_end pv) = 0 ->
  direction A B d -> move_maker2 A B d pv 0 = Ok (segs, ty) ->
  let L := move_length A B in let v := k_speed B in let a := k_acc B in
  ends (fun s => t_end s - t_end pv = if Rlt_dec (v * v / a) L then v / a + L / v else 2 * sqrt (L / a)) segs.
Proof.
  intros Hne Ha Hs Hv Hd. apply planner_direction in Hd; [|assumption..]. exact (isolated_move_time A B pv d segs ty Hne Ha Hs Hv Hd).
Qed.

(** C31: one block for each line that moves or dwells, in order. *)
Theorem C31_blocks_are_moves_and_dwells fw s0 states bl wn :
  valid_program s0 states -> simulate fw (s0 :: states) = Ok (bl, wn) ->
  exists items, plan_items s0 states items /\
  Forall2 (fun b i => let '(A, B, _) := i in b_A b = A /\ b_B b = B /\ (b_extr b = true <-> ve (k_pos A) < ve (k_pos B))) bl items.
Proof.
  intros Hv Hs. destruct (sim_blocks fw s0 states bl wn Hv Hs) as (items & Hi & E). exists items. split; [exact Hi|]. clear Hi Hv Hs.
  revert items E. induction bl as [|b l IH]; intros [|[[A B] rest] items] E; try discriminate; constructor.
  - injection E as -> -> -> _. split; [reflexivity|]. split; [reflexivity|]. unfold pos_is_extruding.
    destruct (Rltb_spec 0 (ve (k_pos B) - ve (k_pos A))) as [H|H]; (split; [intros G; first [discriminate | lra] | intros G; first [reflexivity | lra]]).
  - apply IH. injection E as _ _ _ E. exact E.
Qed.

(** C32: a dwell stands still for its duration, and the block before it ends
    at rest (up to the tolerance). *)
Theorem C32_dwell_stands_still fw s0 states bl wn b p :
  valid_program s0 states -> simulate fw (s0 :: states) = Ok (bl, wn) ->
  In b bl -> k_pause (b_B b) = Some p ->
  exists t q, b_segs b = [Seg t (t + p) q q vzero vzero].
Proof. intros Hv Hs. exact (sim_dwell fw s0 states bl wn Hv Hs b p). Qed.

Theorem C32_rest_before_dwell fw s0 states bl wn :
  valid_program s0 states -> simulate fw (s0 :: states) = Ok (bl, wn) ->
  joined (fun b n => k_pause (b_B n) <> None ->
                     ends (fun s => norm3 (vel_end s) <= 1 / 1000000000000) (b_segs b)) bl.
Proof. intros Hv Hs. exact (sim_dwell_rest fw s0 states bl wn Hv Hs). Qed.

(** C33 is false: a program that dwells first makes the simulation fail with
    an AttributeError, for every firmware. *)
Theorem C33_dwell_first_refuted : exists s0 s1,
  valid_state s0 /\ valid_state s1 /\ k_pause s0 = None /\
  forall fw, simulate fw [s0; s1] = Err AttributeError.
Proof.
  exists (xstate 0 10 100 5 None), (xstate 0 10 100 5 (Some 1)).
  split; [|split; [|split]].
  - unfold valid_state; simpl; repeat split; try lra; intros p Hp; discriminate Hp.
  - unfold valid_state; simpl; repeat split; try lra; intros p Hp; injection Hp as <-; lra.
  - reflexivity.
  - intros fw. apply (dwell_first_fails fw _ _ [] 1); simpl; lra || reflexivity.
Qed.


(** C34 is false: after a move with speed 0 the trajectory misses the target. *)
Theorem C34_feed_rate_zero_refuted : exists states target, 
  Forall (fun s => 0 <= k_speed s /\ 0 < k_acc s /\ 0 <= k_jerk s /\ k_pause s = None) states /\
  ends (fun s => k_pos s = target) states /\
  forall fw, exists bl, simulate fw states = Ok (bl, false) /\ bl <> [] /\
                        ends (fun s => pos_end s <> target) (unpack_blocklist bl).
Proof.
  exists f0_program, (V4 30 0 0 0). split; [|split].
  - unfold f0_program. repeat first [apply Forall_nil | apply Forall_cons]; simpl; repeat split; lra.
  - reflexivity.
  - intros fw. destruct (f0_displaced fw) as (bl & H1 & H2 & H3). exists bl.
    split; [assumption|]. split; [assumption|]. unfold ends in *.
    destruct (rev (unpack_blocklist bl)); [exact I|]. cbn [starts] in *. rewrite H2.
    intros E. apply (f_equal vx) in E. simpl in E. lra.
Qed.

(** C35: the trajectory ends at rest for every firmware but marlin_jerk ... *)
Theorem C35_ends_at_rest_partial fw s0 states bl wn :
  valid_program s0 states -> simulate fw (s0 :: states) = Ok (bl, wn) ->
  fw <> MarlinJerk -> ends (fun s => vel_end s = vzero) (unpack_blocklist bl).
Proof. intros Hv Hs. exact (sim_ends_at_rest fw s0 states bl wn Hv Hs). Qed.

(** ... which ends with at most twice the jerk setting ... *)
Theorem C35_marlin_jerk_partial s0 states bl wn jmax :
  valid_program s0 states -> simulate MarlinJerk (s0 :: states) = Ok (bl, wn) ->
  Forall (fun s => 0 < k_jerk s <= jmax) states ->
  ends (fun s => norm3 (vel_end s) <= 2 * jmax) (unpack_blocklist bl).
Proof. intros Hv Hs. exact (sim_ends_slowly MarlinJerk s0 states bl wn Hv Hs jmax eq_refl). Qed.

(** ... and can end while moving. *)
Theorem C35_ends_at_rest_refuted : exists s0 states bl,
  valid_program s0 states /\ simulate MarlinJerk (s0 :: states) = Ok (bl, false) /\ bl <> [] /\
  ends (fun s => norm3 (vel_end s) >= 2) (unpack_blocklist bl).
Proof.
  destruct marlin_jerk_ends_moving as (bl & H1 & H2 & H3).
  exists (xstate 0 10 100 1 None), (tl (one_move 1)), bl.
  split; [apply one_move_valid; lra|]. auto.
Qed.

(** C61 is false: a line that moves and dwells loses its move. *)
Theorem C61_move_with_pause_refuted : exists s0 states target,
  valid_program s0 states /\ ends (fun s => k_pos s = target) states /\
  forall fw, exists bl, simulate fw (s0 :: states) = Ok (bl, false) /\ bl <> [] /\
                        ends (fun s => pos_end s <> target) (unpack_blocklist bl).
Proof.
  exists (xstate 0 10 100 5 None), (tl moving_pause_program), (V4 20 0 0 0).
  split; [exact moving_pause_valid|]. split; [reflexivity|].
  intros fw. destruct (moving_pause_lost fw) as (bl & H1 & H2 & H3). exists bl.
  split; [exact H1|]. split; [exact H3|]. unfold ends in *.
  destruct (rev (unpack_blocklist bl)); [exact I|]. cbn [starts] in *. rewrite H2.
  intros E. apply (f_equal vx) in E. simpl in E. lra.
Qed.

(** C62 is false: an extruder-only move may start with extruder speed 10 mm/s
    right after a segment that ends with extruder speed 0. *)
Theorem C62_extruder_speed_continuous_refuted : exists s0 states b1 b2 bl,
  Forall valid_state (s0 :: states) /\
  simulate MarlinJerk (s0 :: states) = Ok (b1 :: b2 :: bl, false) /\
  ends (fun s => ve (vel_end s) = 0) (b_segs b1) /\ b_segs b1 <> [] /\
  starts (fun s => vel_begin s = V4 0 0 0 10) (b_segs b2) /\ b_segs b2 <> [].
Proof.
  destruct retract_jump as (b1 & b2 & bl & H).
  exists (KState (V4 0 0 0 0) 10 100 5 None None), (tl retract_program), b1, b2, bl.
  split; [|exact H].
  repeat first [apply Forall_nil | apply Forall_cons];
    (split; [simpl; lra|]; split; [simpl; lra|]; split; [simpl; lra|]); intros p Hp; discriminate Hp.
Qed.

Print Assumptions C20_position_is_integral_of_velocity.
Print Assumptions C20_outside.
Print Assumptions C20_constructor_check.
Print Assumptions C21_every_move_plannable.
Print Assumptions C22_exact_displacement.
Print Assumptions C22_exact_displacement_simulated.
Print Assumptions C23_limits.
Print Assumptions C23_limits_simulated.
Print Assumptions C24_contiguous_trajectory.
Print Assumptions C24_blocks_reach_their_states.
Print Assumptions C25_speeds_match.
Print Assumptions C26_simulation_succeeds.
Print Assumptions C27_junction_speed_bounds.
Print Assumptions C28_plan_is_fastest.
Print Assumptions C29_correction_idempotent.
Print Assumptions C30_move_time_lower_bound.
Print Assumptions C30_total_time_lower_bound.
Print Assumptions C30_isolated_move_time.
Print Assumptions C31_blocks_are_moves_and_dwells.
Print Assumptions C32_dwell_stands_still.
Print Assumptions C32_rest_before_dwell.
Print Assumptions C33_dwell_first_refuted.
Print Assumptions C34_feed_rate_zero_refuted.
Print Assumptions C35_ends_at_rest_partial.
Print Assumptions C35_marlin_jerk_partial.
Print Assumptions C35_ends_at_rest_refuted.
Print Assumptions C61_move_with_pause_refuted.
Print Assumptions C62_extruder_speed_continuous_refuted.
