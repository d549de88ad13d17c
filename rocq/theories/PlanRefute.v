(** Witnesses against properties of the planner that do not hold. *)
From Coq Require Import Lra Psatz.
From Verif Require Import Py Vec Segment Junction Planner RealFacts SpecKin MoveProofs SegProofs
     JunctionProofs CorrectProofs PlannerProofs TrajProofs PlanFacts.
Open Scope R_scope.

(** ** A dwell before the first move *)
Lemma dwell_first_fails fw s0 s1 rest p :
  0 < k_acc s0 -> k_pause s0 = None -> 0 < k_acc s1 -> k_pos s1 = k_pos s0 -> k_pause s1 = Some p ->
  simulate fw (s0 :: s1 :: rest) = Err AttributeError.
Proof.
  intros Ha0 Hp0 Ha1 Hpos Hp1.
  unfold simulate, generate_planner_blocks. cbn [gen_blocks hd_error add_block].
  assert (H0 : planner_block fw None s0 (s1 :: rest) None = Ok None).
  { unfold planner_block. rewrite Rleb_false by lra. rewrite Hp0. reflexivity. }
  rewrite H0. cbn [bind hd_error add_block].
  assert (H1 : planner_block fw (Some s0) s1 rest None = Err AttributeError).
  { unfold planner_block. rewrite Rleb_false by lra. cbn [connect_state_opt mk_junction target_vel].
    rewrite connect_same by congruence.
    unfold get_norm_dir. rewrite norm3_vzero, norm4_vzero, (Rltb_false 0 0) by lra.
    cbn [bind]. rewrite Hp1. reflexivity. }
  rewrite H1. reflexivity.
Qed.

(** ** One planned block *)
Lemma planner_block_move fw A B rest prev pv :
  k_pos B <> k_pos A -> 0 < k_acc B -> 0 < k_speed B -> 0 <= k_jerk B -> k_pause B = None ->
  previous_segment A prev = Ok pv ->
  let vJ := junction_vel fw (mk_junction (Some A) B rest) B in
  exists b d eo segs ty T s e,
    planner_block fw (Some A) B rest prev = Ok (Some b) /\
    b = Block A B (Some d) segs (Some ty) (pos_is_extruding (k_pos A) (k_pos B) true) (vscale vJ d) /\
    move_distance A B = (move_length A B, eo) /\ is_dir d eo /\
    vscale (move_length A B) d = vsub (k_pos B) (k_pos A) /\
    move_plan d (k_acc B) (k_speed B) (move_length A B) (t_end pv) (pos_end pv)
              (Rmin (norm3 (vel_end pv)) (k_speed B)) vJ segs ty T /\
    wf_block b (t_end pv) (pos_end pv) T (vadd (pos_end pv) (vsub (k_pos B) (k_pos A))) s e /\
    s <= norm3 (vel_end pv).
Proof.
  intros Hpos Ha Hs Hj Hp Hpv vJ.
  destruct (connect_moves A B Hpos Hs) as (d & eo & dist & Hmd & Hd & Hdir & Hsc & Hcs & Hnd & Hnz).
  pose proof (junction_vel_bounds fw A B rest Hs Hj) as HJ.
  rewrite Hcs, (dir_norm3 d eo) in HJ by (assumption || lra). fold vJ in HJ.
  pose proof (move_distance_length _ _ _ _ Hmd) as Hlen. subst dist.
  destruct (move_step A B d eo (move_length A B) pv vJ Hmd Hdir Hd Hsc Ha Hs HJ) as (segs & ty & Hmm & Hwf).
  destruct (move_maker2_spec A B d pv vJ (move_length A B) eo Hmd Hdir Hd Ha Hs) as (segs' & ty' & T & Hmm' & Hplan);
    [destruct eo; lra|].
  rewrite Hmm in Hmm'. injection Hmm' as <- <-.
  assert (Hjd : norm3 (vscale vJ d) = if eo then 0 else vJ) by (apply dir_norm3; tauto).
  destruct (Hwf (pos_is_extruding (k_pos A) (k_pos B) true) (vscale vJ d) Hp) as (t' & s & e & Hwfb & Hse & _);
    [rewrite Hjd; destruct eo; lra|].
  assert (Ht : t' = T).
  { destruct (wf_last _ _ _ _ _ _ _ Hwfb) as (l & Hl & Hlt & _).
    destruct (motion_last _ _ _ _ _ _ _ _ _ _ (mp_motion _ _ _ _ _ _ _ _ _ _ _ Hplan)
                          (mp_nonempty _ _ _ _ _ _ _ _ _ _ _ Hplan)) as (l' & Hl' & Hlt' & _).
    cbn [b_segs] in Hl. congruence. }
  subst t'. rewrite Hsc in Hwfb.
  do 8 eexists. split; [|split; [reflexivity|]].
  - unfold planner_block. rewrite Rleb_false by lra.
    change (target_vel (mk_junction (Some A) B rest)) with (connect_state A B).
    rewrite Hnd, Hnz. cbn beta iota zeta. rewrite Hpv. cbn [bind].
    fold vJ. rewrite Hmm. cbn [bind]. rewrite Hp. reflexivity.
  - split; [exact Hmd|]. split; [exact Hdir|]. split; [exact Hsc|]. split; [exact Hplan|].
    split; [exact Hwfb | exact Hse].
Qed.

Definition xstate (x v a j : R) (pause : option R) : kstate := KState (V4 x 0 0 0) v a j pause None.
Lemma xstate_neq x y v a j p v' a' j' p' : x <> y -> k_pos (xstate x v a j p) <> k_pos (xstate y v' a' j' p').
Proof. intros H E. apply H. exact (f_equal vx E). Qed.

Lemma planner_block_idle fw A B rest prev :
  0 < k_acc B -> k_pause B = None -> (k_pos B = k_pos A \/ k_speed B = 0) ->
  planner_block fw (Some A) B rest prev = Ok None.
Proof.
  intros Ha Hp Hor. unfold planner_block. rewrite Rleb_false by lra.
  change (target_vel (mk_junction (Some A) B rest)) with (connect_state A B).
  assert (E : connect_state A B = vzero).
  { destruct Hor as [H|H]; [apply connect_same; congruence|]. unfold connect_state. rewrite H. apply vscale_0. }
  rewrite E. unfold get_norm_dir. rewrite norm3_vzero, norm4_vzero, (Rltb_false 0 0) by lra.
  cbn [bind]. rewrite Hp. reflexivity.
Qed.

Lemma add_last b l done : last_seg (b_segs b) = Ok l -> add_block (Some b) done = b :: done.
Proof. intros H. unfold add_block. destruct (b_segs b); [discriminate|reflexivity]. Qed.
(** ** A move with feed rate 0 displaces everything after it *)
Definition f0_program : list kstate :=
  [xstate 0 10 100 5 None; xstate 10 10 100 5 None; xstate 20 0 100 5 None; xstate 30 10 100 5 None].

Lemma f0_displaced fw : exists bl, simulate fw f0_program = Ok (bl, false) /\
  ends (fun s => pos_end s = V4 20 0 0 0) (unpack_blocklist bl) /\ bl <> [].
Proof.
  set (s0 := xstate 0 10 100 5 None). set (s1 := xstate 10 10 100 5 None).
  set (s2 := xstate 20 0 100 5 None). set (s3 := xstate 30 10 100 5 None).
  assert (H0 : planner_block fw None s0 [s1; s2; s3] None = Ok None).
  { unfold planner_block. rewrite Rleb_false by (simpl; lra). reflexivity. }
  destruct (planner_block_move fw s0 s1 [s2; s3] None (create_initial (k_pos s0)))
    as (b1 & d1 & eo1 & segs1 & ty1 & T1 & sp1 & e1 & Hb1 & Eb1 & Hmd1 & Hd1 & Hsc1 & _ & Hwf1 & Hse1);
    [apply xstate_neq; lra | simpl; lra | simpl; lra | simpl; lra | reflexivity | reflexivity |].
  simpl t_end in Hwf1. simpl pos_end in Hwf1. simpl vel_end in Hse1. rewrite norm3_vzero in Hse1.
  pose proof (wf_nonneg _ _ _ _ _ _ _ Hwf1) as [Hs1 He1].
  destruct (wf_last _ _ _ _ _ _ _ Hwf1) as (l1 & Hl1 & Hlt1 & Hlp1 & Hle1).
  assert (H2 : planner_block fw (Some s1) s2 [s3] (Some b1) = Ok None).
  { apply planner_block_idle; [simpl; lra | reflexivity | right; reflexivity]. }
  destruct (planner_block_move fw s2 s3 [] (Some b1) l1)
    as (b3 & d3 & eo3 & segs3 & ty3 & T3 & sp3 & e3 & Hb3 & Eb3 & Hmd3 & Hd3 & Hsc3 & _ & Hwf3 & Hse3);
    [apply xstate_neq; lra | simpl; lra | simpl; lra | simpl; lra | reflexivity | exact Hl1 |].
  rewrite Hlt1, Hlp1 in Hwf3. rewrite Hle1 in Hse3.
  pose proof (wf_nonneg _ _ _ _ _ _ _ Hwf3) as [Hs3 He3].
  assert (Hgen : generate_planner_blocks fw f0_program = Ok [b1; b3]).
  { unfold generate_planner_blocks, f0_program. fold s0 s1 s2 s3. cbn [gen_blocks hd_error add_block].
    rewrite H0. cbn [bind hd_error add_block]. rewrite Hb1. cbn [bind hd_error]. rewrite (add_last _ _ _ Hl1). cbn [hd_error]. rewrite H2. cbn [bind hd_error add_block].
    rewrite Hb3. destruct (wf_last _ _ _ _ _ _ _ Hwf3) as (l3 & Hl3 & _). cbn [bind]. rewrite (add_last _ _ _ Hl3). reflexivity. }
  assert (Hd : done_chain (k_pos s0) [b1] [0] T1 (vadd (k_pos s0) (vsub (k_pos s1) (k_pos s0))) e1).
  { eapply done_cons with (prevs := []) (wl := []) (s := sp1);
      [constructor | intros _; rewrite Eb1; reflexivity | exact Hwf1 | lra | lra | | simpl; lra | lra].
    split; [simpl; lra|]. split; [lra|]. left. split; reflexivity. }
  assert (Hr : raw_chain (vadd (k_pos s0) (vsub (k_pos s1) (k_pos s0))) e1 0 [b3] [0]).
  { econstructor; [exact Hwf3 | lra | | lra | lra | constructor].
    split; [lra|]. split; [lra|]. left. split; reflexivity. }
  destruct (correct_from_ok (k_pos s0) [b3] [0] [] [] b1 0 _ _ _ Hd Hr) as (bl & tf & pf & ef & Hc & Hdc & Hst).
  exists bl. unfold simulate. rewrite Hgen. cbn [bind trajectory_self_correct].
  split; [exact Hc|].
  destruct bl as [|c1 [|c3 [|? ?]]]; try discriminate Hst.
  split; [|discriminate].
  cbn [rev app] in Hdc.
  inversion Hdc as [|? ? ? ? t p e0 t' p' s e Hdc1 _ Hwfc3 _ _ _ _ _]; subst.
  inversion Hdc1 as [|? ? ? ? t4 p4 e4 t4' p4' s4 e4' Hdc0 _ Hwfc1 _ _ _ _ _]; subst.
  inversion Hdc0; subst.
  cbn [map rev app] in Hst.
  assert (Ec1 : st c1 = st (Block s0 s1 (Some d1) segs1 (Some ty1) (pos_is_extruding (k_pos s0) (k_pos s1) true)
                                  (vscale (junction_vel fw (mk_junction (Some s0) s1 [s2; s3]) s1) d1))).
  { congruence. }
  assert (Ec3 : st c3 = st (Block s2 s3 (Some d3) segs3 (Some ty3) (pos_is_extruding (k_pos s2) (k_pos s3) true)
                                  (vscale (junction_vel fw (mk_junction (Some s2) s3 []) s3) d3))).
  { congruence. }
  unfold st in Ec1, Ec3; cbn [b_A b_B b_dir b_extr b_JD] in Ec1, Ec3.
  assert (Ec1A : b_A c1 = s0) by congruence. assert (Ec1B : b_B c1 = s1) by congruence.
  assert (Ec3A : b_A c3 = s2) by congruence. assert (Ec3B : b_B c3 = s3) by congruence.
  destruct (wf_last _ _ _ _ _ _ _ Hwfc3) as (l & Hl & _ & Hlp & _).
  unfold unpack_blocklist. cbn [flat_map]. rewrite app_nil_r.
  apply (ends_of_last _ l); [rewrite last_seg_app; [exact Hl | eapply wf_nonempty; eassumption]|].
  rewrite Hlp.
  inversion Hwfc3 as [? ? ? ? ? ? ? ? ? ? ? ? ? Hsc | ? ? ? Hpa]; subst; [|rewrite Ec3B in Hpa; discriminate].
  inversion Hwfc1 as [? ? ? ? ? ? ? ? ? ? ? ? ? Hsc' | ? ? ? Hpa]; subst; [|rewrite Ec1B in Hpa; discriminate].
  rewrite Hsc, Hsc', Ec1A, Ec1B, Ec3A, Ec3B.
  apply vec4_ext; simpl; ring.
Qed.

(** ** A line that moves and dwells loses its move *)
Definition moving_pause_program : list kstate :=
  [xstate 0 10 100 5 None; xstate 10 10 100 5 None; xstate 20 10 100 5 (Some 1)].
Lemma moving_pause_valid : valid_program (xstate 0 10 100 5 None) (tl moving_pause_program).
Proof.
  split; [|split].
  - repeat first [apply Forall_nil | apply Forall_cons]; (split; [simpl; lra|]; split; [simpl; lra|]; split; [simpl; lra|]);
      intros p Hp; try discriminate Hp. injection Hp as <-. lra.
  - reflexivity.
  - simpl. split; [reflexivity|]. left. apply (xstate_neq 10 0 10 100 5 None 10 100 5 None). lra.
Qed.
Lemma moving_pause_lost fw : exists bl, simulate fw moving_pause_program = Ok (bl, false) /\
  ends (fun s => pos_end s = V4 10 0 0 0) (unpack_blocklist bl) /\ bl <> [].
Proof.
  set (s0 := xstate 0 10 100 5 None). set (s1 := xstate 10 10 100 5 None).
  set (s2 := xstate 20 10 100 5 (Some 1)).
  destruct (simulation_succeeds fw _ _ moving_pause_valid) as (bl & Hs).
  exists bl. split; [exact Hs|].
  destruct (simulate_inv _ _ _ _ _ moving_pause_valid Hs) as (_ & items & Hi & Hib & _).
  destruct (simulate_fchain _ _ _ _ _ moving_pause_valid Hs) as (wl & Hf).
  assert (Hi' : plan_items s0 [s1; s2] [(s0, s1, [s2]); (s1, s2, [])]).
  { apply pi_item; [left; apply xstate_neq; lra|]. apply pi_item; [right; discriminate | constructor]. }
  pose proof (plan_items_fun _ _ _ _ Hi Hi') as ->.
  inversion Hib as [|b1 i1 bl1 items1 Hib1 Hibs]; subst. inversion Hibs as [|b2 i2 bl2 items2 Hib2 Hibn]; subst.
  inversion Hibn; subst.
  inversion Hf as [|? ? ? ? ? t' p' s e' w' ? wl' Hwf1 _ _ _ _ _ Hf']; subst.
  inversion Hf' as [|? ? ? ? ? t2 p2 s2' e2 w2 ? wl2 Hwf2 _ _ _ _ _ Hf2]; subst.
  destruct Hib1 as (HA1 & HB1 & _). destruct Hib2 as (HA2 & HB2 & _).
  split; [|discriminate].
  destruct (wf_last _ _ _ _ _ _ _ Hwf2) as (l & Hl & _ & Hlp & _).
  unfold unpack_blocklist. cbn [flat_map]. rewrite app_nil_r.
  apply (ends_of_last _ l); [rewrite last_seg_app; [exact Hl | eapply wf_nonempty; eassumption]|].
  rewrite Hlp.
  inversion Hwf2 as [? ? ? ? ? ? ? ? Hpa | ? ? ? Hpa]; subst; [rewrite HB2 in Hpa; discriminate|].
  inversion Hwf1 as [? ? ? ? ? ? ? ? ? ? ? ? ? Hsc' | ? ? ? Hpa']; subst; [|rewrite HB1 in Hpa'; discriminate].
  rewrite Hsc', HA1, HB1. apply vec4_ext; simpl; ring.
Qed.

(** ** With marlin_jerk the trajectory ends while moving *)
Lemma norm3_x x y e : norm3 (V4 x 0 0 e) = Rabs x /\ norm3 (V4 0 y 0 e) = Rabs y.
Proof.
  split; apply norm3_unique; try apply Rabs_pos; simpl; unfold Rabs; destruct (Rcase_abs _); ring.
Qed.

Definition one_move (j : R) : list kstate := [xstate 0 10 100 j None; xstate 10 10 100 j None].
Lemma one_move_valid j : 0 <= j -> valid_program (xstate 0 10 100 j None) (tl (one_move j)).
Proof.
  intros Hj. split; [|split].
  - repeat first [apply Forall_nil | apply Forall_cons]; (split; [simpl; lra|]; split; [simpl; lra|]; split; [simpl; lra|]);
      intros p Hp; discriminate Hp.
  - reflexivity.
  - simpl. split; [reflexivity|]. left. apply (xstate_neq 10 0 10 100 j None 10 100 j None). lra.
Qed.
Lemma marlin_jerk_ends_moving : exists bl, simulate MarlinJerk (one_move 1) = Ok (bl, false) /\
  ends (fun s => norm3 (vel_end s) >= 2) (unpack_blocklist bl) /\ bl <> [].
Proof.
  set (s0 := xstate 0 10 100 1 None). set (s1 := xstate 10 10 100 1 None).
  assert (Hv : valid_program s0 [s1]) by (apply (one_move_valid 1); lra).
  destruct (simulation_succeeds MarlinJerk _ _ Hv) as (bl & Hs).
  exists bl. split; [exact Hs|].
  assert (Hi : plan_items s0 [s1] [(s0, s1, [])]).
  { apply pi_item; [left; apply xstate_neq; lra|constructor]. }
  assert (Hn10 : norm3 (vsub (k_pos s1) (k_pos s0)) = 10).
  { simpl. unfold vsub; simpl. replace (10 - 0) with 10 by ring. replace (0 - 0) with 0 by ring.
    rewrite (proj1 (norm3_x 10 0 0)). apply Rabs_right; lra. }
  assert (Hf : feasible MarlinJerk 0 [(s0, s1, [])] [2]).
  { constructor; [| |constructor].
    - split; [lra|]. split; [lra|]. right. split; [reflexivity|]. rewrite Hn10. simpl k_speed. simpl k_acc.
      split; [lra|]. split; [lra|]. split; [lra|]. rewrite Rabs_right; lra.
    - unfold junction_vel, mk_junction. cbn [target_vel vel_next connect_state_opt find_next_state].
      rewrite (connect_same s1 s1) by reflexivity.
      assert (Hc : norm3 (connect_state s0 s1) = 10).
      { unfold connect_state. rewrite Hn10. rewrite (Rabs_right 10) by lra. rewrite Rltb_true by lra.
        rewrite norm3_scale_pos by (simpl; lra). rewrite vdiv_norm3 by lra. rewrite Hn10. simpl. field. }
      unfold calc_jerk. simpl k_jerk. rewrite Rltb_true by lra.
      replace (vsub (connect_state s0 s1) vzero) with (connect_state s0 s1) by (apply vec4_ext; simpl; ring).
      rewrite Hc. rewrite Rleb_true by lra. rewrite vdiv_norm3 by lra. rewrite Hc. lra. }
  pose proof (sim_dominates _ _ _ _ _ Hv Hs _ _ Hi Hf) as H.
  inversion H as [|b w bl' wl Hb Hn]; subst. inversion Hn; subst.
  split; [|discriminate]. unfold unpack_blocklist; cbn [flat_map]. rewrite app_nil_r.
  unfold ends in *. destruct (rev (b_segs b)); [exact I|]. cbn [starts] in *. lra.
Qed.

(** ** An extruder-only move may start with a jump of the extruder speed *)
Lemma self_correction_next prevs b n prevs' b' n' w :
  self_correction prevs b n = Ok (prevs', b', n', w) -> exists dt, n' = timeshift dt n.
Proof.
  intros H. destruct prevs; cbn [self_correction] in H;
  repeat match type of H with
  | bind ?x _ = _ => destruct x; cbn [bind] in H; [|discriminate]
  | (let '(_, _) := ?p in _) = _ => destruct p
  end; injection H as _ _ <- _; eexists; reflexivity.
Qed.

Definition retract_program : list kstate :=
  [KState (V4 0 0 0 0) 10 100 5 None None; KState (V4 10 0 0 0) 10 100 5 None None;
   KState (V4 10 0 0 1) 10 100 5 None None].
Lemma retract_jump : exists b1 b2 bl, simulate MarlinJerk retract_program = Ok (b1 :: b2 :: bl, false) /\
  ends (fun s => ve (vel_end s) = 0) (b_segs b1) /\ b_segs b1 <> [] /\
  starts (fun s => vel_begin s = V4 0 0 0 10) (b_segs b2) /\ b_segs b2 <> [].
Proof.
  set (s0 := KState (V4 0 0 0 0) 10 100 5 None None). set (s1 := KState (V4 10 0 0 0) 10 100 5 None None).
  set (s2 := KState (V4 10 0 0 1) 10 100 5 None None).
  assert (Hne1 : k_pos s1 <> k_pos s0) by (intros E; apply (f_equal vx) in E; simpl in E; lra).
  assert (Hne2 : k_pos s2 <> k_pos s1) by (intros E; apply (f_equal ve) in E; simpl in E; lra).
  assert (H0 : planner_block MarlinJerk None s0 [s1; s2] None = Ok None).
  { unfold planner_block. rewrite Rleb_false by (simpl; lra). reflexivity. }
  assert (HD1 : vsub (k_pos s1) (k_pos s0) = V4 10 0 0 0) by (apply vec4_ext; simpl; ring).
  assert (HD2 : vsub (k_pos s2) (k_pos s1) = V4 0 0 0 1) by (apply vec4_ext; simpl; ring).
  assert (Hn1 : norm3 (V4 10 0 0 0) = 10) by (rewrite (proj1 (norm3_x 10 0 0)); apply Rabs_right; lra).
  assert (Hn2 : norm3 (V4 0 0 0 1) = 0) by (apply norm3_zero; reflexivity).
  assert (Hlen1 : move_length s0 s1 = 10).
  { unfold move_length. rewrite HD1, Hn1. destruct (Req_EM_T 10 0); lra. }
  assert (Hlen2 : move_length s1 s2 = 1).
  { unfold move_length. rewrite HD2, Hn2. destruct (Req_EM_T 0 0); [|lra]. simpl. apply Rabs_right; lra. }
  assert (Hvj1 : junction_vel MarlinJerk (mk_junction (Some s0) s1 [s2]) s1 = 10).
  { unfold junction_vel, mk_junction. cbn [target_vel vel_next connect_state_opt find_next_state].
    assert (C1 : connect_state s0 s1 = V4 10 0 0 0).
    { unfold connect_state. rewrite HD1, Hn1. rewrite (Rabs_right 10) by lra. rewrite Rltb_true by lra.
      apply vec4_ext; simpl; field. }
    assert (C2 : connect_state s1 s2 = V4 0 0 0 10).
    { unfold connect_state. rewrite HD2, Hn2. rewrite Rabs_R0. rewrite (Rltb_false 0 0) by lra.
      simpl ve. rewrite (Rabs_right 1) by lra. rewrite Rltb_true by lra. apply vec4_ext; simpl; field. }
    rewrite C1, C2. unfold calc_jerk. simpl k_jerk. rewrite (Rltb_true 0 (5 * 2)) by lra.
    replace (norm3 (vsub (V4 10 0 0 0) (V4 0 0 0 10))) with 10.
    - rewrite Rleb_true by lra. rewrite vdiv_norm3 by lra. rewrite Hn1. field.
    - symmetry. replace (vsub (V4 10 0 0 0) (V4 0 0 0 10)) with (V4 10 0 0 (-10)) by (apply vec4_ext; simpl; ring).
      rewrite (proj1 (norm3_x 10 0 (-10))). apply Rabs_right; lra. }
  destruct (planner_block_move MarlinJerk s0 s1 [s2] None (create_initial (k_pos s0)))
    as (b1 & d1 & eo1 & segs1 & ty1 & T1 & sp1 & e1 & Hb1 & Eb1 & Hmd1 & Hd1 & Hsc1 & Hmp1 & Hwf1 & Hse1);
    [assumption | simpl; lra | simpl; lra | simpl; lra | reflexivity | reflexivity |].
  simpl t_end in Hwf1. simpl pos_end in Hwf1. simpl vel_end in Hse1. rewrite norm3_vzero in Hse1.
  pose proof (wf_nonneg _ _ _ _ _ _ _ Hwf1) as [Hs1 He1].
  assert (Heo1 : eo1 = false).
  { unfold move_distance, t_distance in Hmd1. rewrite HD1, Hn1 in Hmd1.
    destruct (Reqb_spec 10 0); [lra|]. congruence. }
  subst eo1.
  destruct Hmp1 as [Hne Hmo _ _ _ _].
  destruct (motion_last _ _ _ _ _ _ _ _ _ _ Hmo Hne) as (l1 & Hl1 & Hlt1 & Hlp1 & Hle1).
  assert (Hl1b : last_seg (b_segs b1) = Ok l1) by (rewrite Eb1; exact Hl1).
  assert (Hsp1 : norm3 (vel_end l1) = 10).
  { rewrite Hle1. rewrite Hvj1, Hlen1. simpl k_acc. simpl vel_end. rewrite norm3_vzero.
    simpl k_speed. rewrite (Rmin_left 0 10) by lra.
    rewrite exit_speed_full by lra. rewrite (dir_norm3 d1 false) by (assumption || lra). reflexivity. }
  destruct (planner_block_move MarlinJerk s1 s2 [] (Some b1) l1)
    as (b2 & d2 & eo2 & segs2 & ty2 & T2 & sp2 & e2 & Hb2 & Eb2 & Hmd2 & Hd2 & Hsc2 & Hmp2 & Hwf2 & Hse2);
    [assumption | simpl; lra | simpl; lra | simpl; lra | reflexivity | exact Hl1b |].
  assert (Heo2 : eo2 = true).
  { unfold move_distance, t_distance in Hmd2. rewrite HD2, Hn2 in Hmd2.
    destruct (Reqb_spec 0 0); [|lra]. congruence. }
  subst eo2.
  destruct Hmp2 as [Hne2' Hmo2 _ _ _ _].
  destruct (motion_first _ _ _ _ _ _ _ _ _ _ Hmo2 Hne2') as (m2 & Hm2 & _ & _ & Hmv2).
  assert (Hvj2 : junction_vel MarlinJerk (mk_junction (Some s1) s2 []) s2 = 0).
  { assert (Hb := junction_vel_bounds MarlinJerk s1 s2 []).
    assert (C2 : connect_state s1 s2 = V4 0 0 0 10).
    { unfold connect_state. rewrite HD2, Hn2. rewrite Rabs_R0. rewrite (Rltb_false 0 0) by lra.
      simpl ve. rewrite (Rabs_right 1) by lra. rewrite Rltb_true by lra. apply vec4_ext; simpl; field. }
    rewrite C2 in Hb. rewrite (norm3_zero (V4 0 0 0 10)) in Hb by reflexivity.
    simpl k_speed in Hb. simpl k_jerk in Hb. lra. }
  assert (Hd2e : d2 = V4 0 0 0 1).
  { rewrite Hlen2, HD2, vscale_1 in Hsc2. exact Hsc2. }
  assert (Hbeg : vel_begin m2 = V4 0 0 0 10).
  { rewrite Hmv2, Hvj2, Hlen2, Hsp1. simpl k_acc. simpl k_speed. rewrite (Rmin_left 10 10) by lra.
    rewrite entry_speed_full by lra. rewrite Hd2e. apply vec4_ext; simpl; ring. }
  assert (Hgen : generate_planner_blocks MarlinJerk retract_program = Ok [b1; b2]).
  { unfold generate_planner_blocks, retract_program. fold s0 s1 s2. cbn [gen_blocks hd_error add_block].
    rewrite H0. cbn [bind hd_error add_block]. rewrite Hb1. cbn [bind hd_error]. rewrite (add_last _ _ _ Hl1b). cbn [hd_error]. rewrite Hb2. destruct (wf_last _ _ _ _ _ _ _ Hwf2) as (l2 & Hl2 & _). cbn [bind]. rewrite (add_last _ _ _ Hl2). reflexivity. }
  destruct (wf_last _ _ _ _ _ _ _ Hwf1) as (l1' & Hl1' & Hlt1' & Hlp1' & Hle1').
  rewrite Hl1b in Hl1'. injection Hl1' as <-.
  rewrite Hlt1', Hlp1' in Hwf2. rewrite Hle1' in Hse2.
  pose proof (wf_nonneg _ _ _ _ _ _ _ Hwf2) as [Hs2 He2].
  assert (Hd : done_chain (k_pos s0) [b1] [0] T1 (vadd (k_pos s0) (vsub (k_pos s1) (k_pos s0))) e1).
  { eapply done_cons with (prevs := []) (wl := []) (s := sp1);
      [constructor | intros _; rewrite Eb1; reflexivity | exact Hwf1 | lra | lra | | simpl; lra | lra].
    split; [simpl; lra|]. split; [lra|]. left. split; reflexivity. }
  assert (Hfe : feas b2 0 0) by (split; [lra|]; split; [lra|]; left; split; reflexivity).
  destruct (self_correction_ok (k_pos s0) _ _ _ _ _ _ _ _ 0 _ _ _ _ _ Hd Hwf2 Hse2 Hfe Hs2 He2)
    as (prevs' & b1' & b2' & tf & Hsc & Hdc & Hst).
  destruct (self_correction_next _ _ _ _ _ _ _ Hsc) as (dt & Hn').
  destruct prevs'; [|discriminate Hst].
  exists b1', b2', []. unfold simulate. rewrite Hgen. cbn [bind trajectory_self_correct correct_from].
  rewrite Hsc. cbn [bind]. 
  inversion Hdc as [|? ? ? ? t p e0 t' p' s e Hdc1 _ Hwfc2 _ _ _ _ _]; subst prevs w wl t' p' e b.
  rewrite (wf_no_warning _ _ _ _ _ _ _ Hwfc2). cbn [bind].
  split; [reflexivity|].
  inversion Hdc1 as [|? ? ? ? t4 p4 e4 t4' p4' s4 e4' Hdc0 _ Hwfc1 _ _ _ _ _]; subst.
  destruct (wf_last _ _ _ _ _ _ _ Hwfc1) as (l & Hl & _ & _ & _).
  assert (Es1 : b_A b1' = s0 /\ b_B b1' = s1).
  { clear - Hst. cbn [map] in Hst. unfold st in Hst. simpl in Hst. split; congruence. }
  destruct Es1 as [EA EB].
  split; [|split; [|split]].
  - apply (ends_of_last _ _ Hl).
    inversion Hwfc1 as [? ? ? ? ? d ? dist ? ? ? Hmd ? Hscd ? ? Hne3 Hmo3 | ? ? ? Hpa]; subst; [|rewrite EB in Hpa; discriminate].
    destruct (motion_last _ _ _ _ _ _ _ _ _ _ Hmo3 Hne3) as (l3 & Hl3 & _ & _ & Hv3).
    rewrite Hl in Hl3. injection Hl3 as <-. rewrite Hv3.
    assert (Hde : ve d = 0).
    { assert (X : ve (vscale dist d) = 0) by (rewrite Hscd, EA, EB; simpl; ring).
      simpl in X. nra. }
    simpl. rewrite Hde. ring.
  - eapply wf_nonempty; eassumption.
  - cbn [timeshift set_segs b_segs]. destruct segs2 as [|m segs2]; [discriminate Hm2|].
    injection Hm2 as ->. exact Hbeg.
  - eapply wf_nonempty; eassumption.
Qed.
