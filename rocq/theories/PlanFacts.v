(** Facts about planned moves and simulated trajectories in the form in which
    the properties state them. *)
From Coq Require Import Lra Psatz.
From Verif Require Import Py Vec Segment Junction Planner RealFacts SpecKin MoveProofs SegProofs
     JunctionProofs CorrectProofs PlannerProofs TrajProofs.
Open Scope R_scope.

(** ** Single moves *)
Lemma move_distance_length A B dist eo : move_distance A B = (dist, eo) -> dist = move_length A B.
Proof.
  unfold move_distance, move_length, t_distance, Reqb.
  destruct (Req_EM_T (norm3 (vsub (k_pos B) (k_pos A))) 0) as [E|E]; intros H; injection H as <- _.
  - apply norm4_ext. assumption.
  - reflexivity.
Qed.

Lemma planned_plan A B pv v_end d segs ty :
  k_pos B <> k_pos A -> 0 < k_acc B -> 0 < k_speed B -> 0 <= v_end <= k_speed B ->
  get_norm_dir (connect_state A B) = Some d -> move_maker2 A B d pv v_end = Ok (segs, ty) ->
  exists eo T, is_dir d eo /\ 0 < move_length A B /\
    vscale (move_length A B) d = vsub (k_pos B) (k_pos A) /\
    move_plan d (k_acc B) (k_speed B) (move_length A B) (t_end pv) (pos_end pv)
              (Rmin (norm3 (vel_end pv)) (k_speed B)) v_end segs ty T.
Proof.
  intros Hpos Ha Hs Hv Hd Hmm.
  destruct (connect_moves A B Hpos Hs) as (d' & eo & dist & Hmd & Hdist & Hdir & Hsc & _ & Hnd & _).
  rewrite Hd in Hnd. injection Hnd as <-.
  destruct (move_maker2_spec A B d pv v_end dist eo Hmd Hdir Hdist Ha Hs Hv) as (segs' & ty' & T & Hmm' & Hp).
  rewrite Hmm in Hmm'. injection Hmm' as <- <-.
  rewrite <- (move_distance_length _ _ _ _ Hmd). exists eo, T. auto.
Qed.

Lemma move_planned A B pv v_end :
  k_pos B <> k_pos A -> 0 < k_acc B -> 0 < k_speed B -> 0 <= v_end <= k_speed B ->
  exists d segs ty, get_norm_dir (connect_state A B) = Some d /\
    move_maker2 A B d pv v_end = Ok (segs, ty) /\ segs <> [].
Proof.
  intros Hpos Ha Hs Hv.
  destruct (connect_moves A B Hpos Hs) as (d & eo & dist & Hmd & Hdist & Hdir & Hsc & _ & Hnd & _).
  destruct (move_maker2_spec A B d pv v_end dist eo Hmd Hdir Hdist Ha Hs Hv) as (segs & ty & T & Hmm & Hp).
  exists d, segs, ty. split; [assumption|]. split; [assumption|]. apply (mp_nonempty _ _ _ _ _ _ _ _ _ _ _ Hp).
Qed.

Lemma ends_of_last {P : segment -> Prop} segs s : last_seg segs = Ok s -> P s -> ends P segs.
Proof.
  unfold last_seg, ends. destruct (rev segs) as [|x l]; [discriminate|]. intros H HP. injection H as <-. exact HP.
Qed.
Lemma starts_of_first {P : segment -> Prop} segs s : first_seg segs = Ok s -> P s -> starts P segs.
Proof. destruct segs as [|x l]; [discriminate|]. intros H HP. injection H as <-. exact HP. Qed.

Lemma move_displacement A B pv v_end d segs ty :
  k_pos B <> k_pos A -> 0 < k_acc B -> 0 < k_speed B -> 0 <= v_end <= k_speed B ->
  get_norm_dir (connect_state A B) = Some d -> move_maker2 A B d pv v_end = Ok (segs, ty) ->
  starts (fun s => t_begin s = t_end pv /\ pos_begin s = pos_end pv) segs /\
  joined (fun s n => contiguous s n /\ vel_end s = vel_begin n) segs /\
  ends (fun s => pos_end s = vadd (pos_end pv) (vsub (k_pos B) (k_pos A))) segs.
Proof.
  intros Hpos Ha Hs Hv Hd Hmm.
  destruct (planned_plan _ _ _ _ _ _ _ Hpos Ha Hs Hv Hd Hmm) as (eo & T & Hdir & Hl & Hsc & [Hne Hm _ _ _ _]).
  rewrite Hsc in Hm.
  destruct (motion_first _ _ _ _ _ _ _ _ _ _ Hm Hne) as (m & H1 & H2 & H3 & H4).
  destruct (motion_last _ _ _ _ _ _ _ _ _ _ Hm Hne) as (l & H5 & H6 & H7 & H8).
  split; [|split].
  - apply (starts_of_first _ _ H1); auto.
  - eapply motion_joined; eassumption.
  - apply (ends_of_last _ _ H5); auto.
Qed.

Lemma motion_forall d a vm t p v segs t' p' v' :
  motion d a vm t p v segs t' p' v' -> forall s, In s segs -> exists v0 v1, ramp d a vm s v0 v1.
Proof.
  induction 1 as [|t p v s v1 segs t' p' v' Ht Hp Hr Hm IH]; intros x Hx; [contradiction|].
  destruct Hx as [<-|Hx]; eauto.
Qed.

Lemma move_limits A B pv v_end d segs ty :
  k_pos B <> k_pos A -> 0 < k_acc B -> 0 < k_speed B -> 0 <= v_end <= k_speed B ->
  get_norm_dir (connect_state A B) = Some d -> move_maker2 A B d pv v_end = Ok (segs, ty) ->
  forall s, In s segs -> consistent s /\ within_limits d (k_acc B) (k_speed B) s.
Proof.
  intros Hpos Ha Hs Hv Hd Hmm s Hin.
  destruct (planned_plan _ _ _ _ _ _ _ Hpos Ha Hs Hv Hd Hmm) as (eo & T & Hdir & Hl & Hsc & [Hne Hm _ _ _ _]).
  destruct (motion_forall _ _ _ _ _ _ _ _ _ _ Hm s Hin) as (v0 & v1 & Hr).
  split; [eapply ramp_consistent; eassumption | eapply ramp_limits; eassumption].
Qed.

Lemma motion_min_time d eo a vm t p v segs t' v' L :
  is_dir d eo -> 0 < vm -> motion d a vm t p v segs t' (vadd p (vscale L d)) v' -> L / vm <= t' - t.
Proof.
  intros Hd Hvm Hm. destruct (motion_length _ _ _ _ _ _ _ _ _ _ Hm) as (L' & E & HL & _).
  apply (is_dir_inj d eo) in E; [|assumption]. subst L'.
  apply Rmult_le_reg_r with vm; [assumption|]. unfold Rdiv. rewrite Rmult_assoc, Rinv_l by lra. lra.
Qed.

Lemma move_min_time A B pv v_end d segs ty :
  k_pos B <> k_pos A -> 0 < k_acc B -> 0 < k_speed B -> 0 <= v_end <= k_speed B ->
  get_norm_dir (connect_state A B) = Some d -> move_maker2 A B d pv v_end = Ok (segs, ty) ->
  ends (fun s => move_length A B / k_speed B <= t_end s - t_end pv) segs.
Proof.
  intros Hpos Ha Hs Hv Hd Hmm.
  destruct (planned_plan _ _ _ _ _ _ _ Hpos Ha Hs Hv Hd Hmm) as (eo & T & Hdir & Hl & Hsc & [Hne Hm _ _ _ _]).
  destruct (motion_last _ _ _ _ _ _ _ _ _ _ Hm Hne) as (l & H5 & H6 & H7 & H8).
  apply (ends_of_last _ _ H5). rewrite H6. eapply motion_min_time; eassumption.
Qed.

Lemma isolated_move_time A B pv d segs ty :
  k_pos B <> k_pos A -> 0 < k_acc B -> 0 < k_speed B -> norm3 (vel_end pv) = 0 ->
  get_norm_dir (connect_state A B) = Some d -> move_maker2 A B d pv 0 = Ok (segs, ty) ->
  let L := move_length A B in let v := k_speed B in let a := k_acc B in
  ends (fun s => t_end s - t_end pv = if Rlt_dec (v * v / a) L then v / a + L / v else 2 * sqrt (L / a)) segs.
Proof.
  intros Hpos Ha Hs Hrest Hd Hmm L v a.
  assert (H0 : 0 <= 0 <= k_speed B) by (split; lra).
  destruct (planned_plan _ _ _ _ _ _ _ Hpos Ha Hs H0 Hd Hmm)
    as (eo & T & Hdir & Hl & Hsc & [Hne Hm Hsi Htr Htt Htri]).
  destruct (motion_last _ _ _ _ _ _ _ _ _ _ Hm Hne) as (l & H5 & H6 & H7 & H8).
  apply (ends_of_last _ _ H5). rewrite H6.
  rewrite Hrest, (Rmin_left 0 (k_speed B)) in * by lra.
  fold L v a in Hl, Hsi, Htr, Htt, Htri. fold v a in Ha, Hs.
  assert (HaL : 0 < a * L) by (apply Rmult_lt_0_compat; assumption).
  assert (Hns : ty <> Single).
  { intros E. apply Hsi in E. replace (0 * 0 - 0 * 0) with 0 in E by ring. rewrite Rabs_R0 in E. lra. }
  destruct (Rlt_dec (v * v / a) L) as [Hlt|Hge].
  - rewrite Htt.
    + field. split; apply Rgt_not_eq; assumption.
    + apply Htr. replace ((v * v - 0 * 0) / (2 * a) + (v * v - 0 * 0) / (2 * a)) with (v * v / a) by (field; lra).
      assumption.
  - assert (Ety : ty = Triangle).
    { destruct ty; [|reflexivity|contradiction]. exfalso. apply Hge.
      destruct Htr as [Htr _]. specialize (Htr eq_refl).
      replace ((v * v - 0 * 0) / (2 * a) + (v * v - 0 * 0) / (2 * a)) with (v * v / a) in Htr by (field; lra).
      assumption. }
    specialize (Htri Ety). cbv zeta in Htri.
    replace (a * L + 0 * 0 / 2 + 0 * 0 / 2) with (a * L) in Htri by field.
    rewrite Htri.
    assert (E : sqrt (a * L) = a * sqrt (L / a)).
    { replace (a * L) with (a * a * (L / a)) by (field; lra).
      rewrite sqrt_mult by (first [apply Rdiv_nonneg; lra | nra]). rewrite sqrt_square by lra. reflexivity. }
    rewrite E. field. lra.
Qed.

(** ** Simulated trajectories *)
Lemma simulation_succeeds fw s0 states : valid_program s0 states ->
  exists bl, simulate fw (s0 :: states) = Ok (bl, false).
Proof.
  intros Hv. destruct (plan_items_total states s0) as (items & Hi).
  assert (Hvs : Forall valid_state states) by (destruct Hv as [Hv _]; inversion Hv; assumption).
  destruct (simulate_ok fw s0 states items _ Hv Hi (feasible_zero fw _ _ _ Hvs Hi))
    as (bl & _ & _ & _ & Hs & _). eauto.
Qed.

Section Sim.
Variables (fw : firmware) (s0 : kstate) (states : list kstate) (bl : list block) (wn : bool).
Hypothesis Hv : valid_program s0 states.
Hypothesis Hsim : simulate fw (s0 :: states) = Ok (bl, wn).

Lemma sim_contiguous :
  starts (fun s => t_begin s = 0 /\ pos_begin s = k_pos s0) (unpack_blocklist bl) /\
  joined contiguous (unpack_blocklist bl).
Proof.
  destruct (simulate_fchain _ _ _ _ _ Hv Hsim) as (wl & Hf).
  destruct (fchain_segs _ _ _ _ _ _ Hf) as [H1 H2]. split.
  - destruct (unpack_blocklist bl); simpl in *; tauto.
  - eapply joined_weaken; [|exact H1]. intros x y [H _]. exact H.
Qed.

Lemma sim_speeds_match :
  joined (fun s n => Rabs (norm3 (vel_end s) - norm3 (vel_begin n)) <= 1 / 1000000000000) (unpack_blocklist bl).
Proof.
  destruct (simulate_fchain _ _ _ _ _ Hv Hsim) as (wl & Hf).
  destruct (fchain_segs _ _ _ _ _ _ Hf) as [H1 H2].
  eapply joined_weaken; [|exact H1]. intros x y [_ H]. rewrite Rabs_right; lra.
Qed.

Lemma sim_positions : no_moving_pause s0 states ->
  forall b, In b bl ->
    starts (fun s => pos_begin s = k_pos (b_A b)) (b_segs b) /\
    ends (fun s => pos_end s = k_pos (b_B b)) (b_segs b).
Proof.
  intros Hn b Hb. destruct (simulate_inv _ _ _ _ _ Hv Hsim) as (_ & items & Hi & Hib & Hf).
  assert (Hvs : Forall valid_state states) by (destruct Hv as [Hv' _]; inversion Hv'; assumption).
  specialize (Hf _ (feasible_zero fw _ _ _ Hvs Hi)).
  destruct (fchain_positions fw _ _ _ _ _ _ _ _ _ Hf Hi Hib Hn eq_refl b Hb) as (t1 & t2 & s & e & Hwf).
  destruct (wf_first _ _ _ _ _ _ _ Hwf) as (m & Hm & Hmt & Hmp & Hms).
  destruct (wf_last _ _ _ _ _ _ _ Hwf) as (l & Hl & Hlt & Hlp & Hle).
  split; [apply (starts_of_first _ _ Hm) | apply (ends_of_last _ _ Hl)]; assumption.
Qed.

Lemma sim_block_displacement b : In b bl -> k_pause (b_B b) = None ->
  joined (fun s n => contiguous s n /\ vel_end s = vel_begin n) (b_segs b) /\
  starts (fun f => ends (fun l => vsub (pos_end l) (pos_begin f) = vsub (k_pos (b_B b)) (k_pos (b_A b))) (b_segs b))
         (b_segs b).
Proof.
  intros Hb Hp. destruct (simulate_fchain _ _ _ _ _ Hv Hsim) as (wl & Hf).
  destruct (fchain_in _ _ _ _ _ _ Hf b Hb) as (t & p & t' & p' & s & e & Hwf).
  split; [eapply wf_joined; eassumption|].
  destruct (wf_first _ _ _ _ _ _ _ Hwf) as (m & Hm & Hmt & Hmp & Hms).
  destruct (wf_last _ _ _ _ _ _ _ Hwf) as (l & Hl & Hlt & Hlp & Hle).
  apply (starts_of_first _ _ Hm), (ends_of_last _ _ Hl). rewrite Hlp, Hmp.
  inversion Hwf as [t2 p2 t2' v0 v1 d eo dist Hpa Hdr Hdir Hmd Hpos Hsc | ]; subst; [|congruence].
  rewrite Hsc. vec.
Qed.

Lemma sim_limits b s : In b bl -> In s (b_segs b) -> k_pause (b_B b) = None ->
  consistent s /\ exists d eo, is_dir d eo /\
    vscale (move_length (b_A b) (b_B b)) d = vsub (k_pos (b_B b)) (k_pos (b_A b)) /\
    within_limits d (k_acc (b_B b)) (k_speed (b_B b)) s.
Proof.
  intros Hb Hs Hp. destruct (simulate_fchain _ _ _ _ _ Hv Hsim) as (wl & Hf).
  destruct (fchain_in _ _ _ _ _ _ Hf b Hb) as (t & p & t' & p' & s' & e & Hwf).
  inversion Hwf as [t2 p2 t2' v0 v1 d eo dist Hpa Hdr Hdir Hmd Hpos Hsc Ha Hsp Hne Hm | ]; subst; [|congruence].
  destruct (motion_forall _ _ _ _ _ _ _ _ _ _ Hm s Hs) as (u0 & u1 & Hr).
  split; [eapply ramp_consistent; eassumption|].
  exists d, eo. split; [assumption|]. rewrite <- (move_distance_length _ _ _ _ Hmd). split; [assumption|].
  eapply ramp_limits; eassumption.
Qed.
Lemma sim_limits_dir b s : In b bl -> In s (b_segs b) -> k_pause (b_B b) = None ->
  consistent s /\ exists d, direction (b_A b) (b_B b) d /\ within_limits d (k_acc (b_B b)) (k_speed (b_B b)) s.
Proof.
  intros Hb Hs Hp. destruct (simulate_fchain _ _ _ _ _ Hv Hsim) as (wl & Hf).
  destruct (fchain_in _ _ _ _ _ _ Hf b Hb) as (t & p & t' & p' & s' & e & Hwf).
  inversion Hwf as [t2 p2 t2' v0 v1 d eo dist Hpa Hdr Hdir Hmd Hpos Hsc Ha Hsp Hne Hm | ]; subst; [|congruence].
  destruct (motion_forall _ _ _ _ _ _ _ _ _ _ Hm s Hs) as (u0 & u1 & Hr).
  split; [eapply ramp_consistent; eassumption|].
  exists d. unfold direction. rewrite <- (move_distance_length _ _ _ _ Hmd). split; [split; assumption|].
  eapply ramp_limits; eassumption.
Qed.

Lemma sim_dwell b p : In b bl -> k_pause (b_B b) = Some p ->
  exists t q, b_segs b = [Seg t (t + p) q q vzero vzero].
Proof.
  intros Hb Hp. destruct (simulate_fchain _ _ _ _ _ Hv Hsim) as (wl & Hf).
  destruct (fchain_in _ _ _ _ _ _ Hf b Hb) as (t & q & t' & p' & s' & e & Hwf).
  inversion Hwf; subst; [congruence|]. exists t, p'. congruence.
Qed.

Lemma fchain_dwell_rest t p e w bl' wl : fchain t p e w bl' wl ->
  starts (fun n => k_pause (b_B n) <> None -> e <= tol) bl' /\
  joined (fun b n => k_pause (b_B n) <> None -> ends (fun s => norm3 (vel_end s) <= tol) (b_segs b)) bl'.
Proof.
  induction 1 as [|t p e w b t' p' s e' w' bl' wl Hwf Hs Htol Hfe Hw Hw2 Hf [IH1 IH2]]; [simpl; auto|].
  split.
  - simpl. intros Hp. inversion Hwf; subst; [congruence|]. lra.
  - simpl. split; [|assumption]. destruct bl' as [|n bl']; [trivial|]. intros Hp. specialize (IH1 Hp).
    destruct (wf_last _ _ _ _ _ _ _ Hwf) as (l & Hl & Hlt & Hlp & Hle).
    apply (ends_of_last _ _ Hl). lra.
Qed.
Lemma sim_dwell_rest :
  joined (fun b n => k_pause (b_B n) <> None ->
                     ends (fun s => norm3 (vel_end s) <= 1 / 1000000000000) (b_segs b)) bl.
Proof.
  destruct (simulate_fchain _ _ _ _ _ Hv Hsim) as (wl & Hf).
  exact (proj2 (fchain_dwell_rest _ _ _ _ _ _ Hf)).
Qed.

Lemma sim_blocks : exists items, plan_items s0 states items /\
  map (fun b => (b_A b, b_B b, b_extr b)) bl =
  map (fun i => let '(A, B, _) := i in (A, B, pos_is_extruding (k_pos A) (k_pos B) true)) items.
Proof.
  destruct (simulate_inv _ _ _ _ _ Hv Hsim) as (_ & items & Hi & Hib & _).
  exists items. split; [assumption|]. clear Hsim Hi.
  induction Hib as [|b i bl' items' Hb _ IH]; [reflexivity|].
  simpl. rewrite IH. destruct i as [[A B] rest]. destruct Hb as (-> & -> & -> & _). reflexivity.
Qed.

Lemma fchain_dominates t p e w bl' wl : fchain t p e w bl' wl ->
  Forall2 (fun b w => ends (fun s => w <= norm3 (vel_end s)) (b_segs b)) bl' wl.
Proof.
  induction 1 as [|t p e w b t' p' s e' w' bl' wl Hwf Hs Htol Hfe Hw Hw2 Hf IH]; constructor; [|assumption].
  destruct (wf_last _ _ _ _ _ _ _ Hwf) as (l & Hl & Hlt & Hlp & Hle).
  apply (ends_of_last _ _ Hl). lra.
Qed.
Lemma sim_dominates items wl : plan_items s0 states items -> feasible fw 0 items wl ->
  Forall2 (fun b w => ends (fun s => w <= norm3 (vel_end s)) (b_segs b)) bl wl.
Proof.
  intros Hi Hf. destruct (simulate_inv _ _ _ _ _ Hv Hsim) as (_ & items' & Hi' & Hib & Hall).
  rewrite (plan_items_fun _ _ _ _ Hi' Hi) in *. eapply fchain_dominates. apply Hall. assumption.
Qed.

Lemma wf_cap b t p t' p' s e : wf_block b t p t' p' s e ->
  exists l k d, last_seg (b_segs b) = Ok l /\ vel_end l = vscale k d /\ 0 <= k <= norm3 (b_JD b) /\ norm3 (vel_end l) <= k.
Proof.
  intros H. destruct H as [t p t' v0 v1 d eo dist Hp Hd Hdir Hmd Hpos Hsc Ha Hs Hne Hm Hen Hcap | t p dt Hp Hdt Hs Hsegs].
  - destruct (motion_last _ _ _ _ _ _ _ _ _ _ Hm Hne) as (l & H1 & H2 & H3 & H4).
    destruct (motion_speed_range _ _ _ _ _ _ _ _ _ _ Hm Hne) as [_ Hr].
    exists l, v1, d. split; [assumption|]. split; [assumption|]. split; [lra|].
    rewrite H4, (dir_norm3 d eo) by tauto. destruct eo; lra.
  - rewrite Hsegs. eexists; exists 0, vzero. split; [reflexivity|]. simpl.
    split; [vec|]. split; [split; [lra|apply norm3_nonneg]|]. rewrite norm3_vzero. lra.
Qed.

Lemma sim_corner_speeds items : plan_items s0 states items ->
  Forall2 (fun b i => let '(A, B, rest) := i in
             ends (fun s => norm3 (vel_end s) <= junction_vel fw (mk_junction (Some A) B rest) B) (b_segs b)) bl items.
Proof.
  intros Hi. destruct (simulate_inv _ _ _ _ _ Hv Hsim) as (_ & items' & Hi' & Hib & _).
  destruct (simulate_fchain _ _ _ _ _ Hv Hsim) as (wl & Hf).
  rewrite (plan_items_fun _ _ _ _ Hi' Hi) in *.
  pose proof (fchain_in _ _ _ _ _ _ Hf) as Hin. clear Hf Hsim Hi Hi'.
  induction Hib as [|b i bl' items'' Hb _ IH]; constructor.
  - destruct i as [[A B] rest]. destruct Hb as (_ & _ & _ & Hcap & _).
    destruct (Hin b) as (t & p & t' & p' & s & e & Hwf); [left; reflexivity|].
    destruct (wf_cap _ _ _ _ _ _ _ Hwf) as (l & k & d & Hl & _ & Hk & Hn).
    apply (ends_of_last _ _ Hl). lra.
  - apply IH. intros b' Hb'. apply Hin. right. assumption.
Qed.

Lemma sim_idempotent : trajectory_self_correct bl = Ok (bl, false).
Proof.
  destruct (simulate_fchain _ _ _ _ _ Hv Hsim) as (wl & Hf).
  inversion Hf as [|? ? ? ? b t' p' s e' w' bl' wl' Hwf Hs Htol Hfe Hw Hw2 Hf']; subst; [reflexivity|].
  simpl. erewrite fchain_correct; [reflexivity | eassumption | eassumption].
Qed.

Lemma last_seg_app l1 l2 : l2 <> [] -> last_seg (l1 ++ l2) = last_seg l2.
Proof.
  intros H. unfold last_seg. rewrite rev_app_distr. destruct (rev l2) eqn:E; [|reflexivity].
  exfalso. apply H. rewrite <- (rev_involutive l2), E. reflexivity.
Qed.
Lemma wf_nonempty b t p t' p' s e : wf_block b t p t' p' s e -> b_segs b <> [].
Proof. intros H. destruct (wf_first _ _ _ _ _ _ _ H) as (m & Hm & _). intros E. rewrite E in Hm. discriminate. Qed.
Lemma fchain_unpack_nil t p e w bl' wl : fchain t p e w bl' wl -> unpack_blocklist bl' = [] -> bl' = [].
Proof.
  destruct 1 as [|t p e w b t' p' s e' w' bl' wl Hwf]; [reflexivity|]. intros E.
  apply app_eq_nil in E. destruct E as [E _]. exfalso. eapply wf_nonempty; eassumption.
Qed.

Lemma fchain_min_time t p e w bl' wl : fchain t p e w bl' wl ->
  ends (fun s => t + Rsum (fun b => least_time (b_A b) (b_B b)) bl' <= t_end s) (unpack_blocklist bl').
Proof.
  induction 1 as [|t p e w b t' p' s e' w' bl' wl Hwf Hs Htol Hfe Hw Hw2 Hf IH]; [exact I|].
  destruct (wf_last _ _ _ _ _ _ _ Hwf) as (l & Hl & Hlt & Hlp & Hle).
  assert (Hb : least_time (b_A b) (b_B b) <= t' - t).
  { unfold least_time. inversion Hwf as [t2 p2 t2' v0 v1 d eo dist Hpa Hdr Hdir Hmd Hpos Hsc Ha Hsp Hne Hm | t2 p2 dt Hpa]; subst; rewrite Hpa.
    - rewrite <- (move_distance_length _ _ _ _ Hmd). eapply motion_min_time; eassumption.
    - lra. }
  unfold unpack_blocklist in *. cbn [flat_map Rsum fold_right].
  fold (Rsum (fun b => least_time (b_A b) (b_B b)) bl').
  destruct (flat_map b_segs bl') as [|x segs] eqn:E.
  - rewrite app_nil_r. apply (ends_of_last _ _ Hl).
    rewrite (fchain_unpack_nil _ _ _ _ _ _ Hf E). unfold Rsum; simpl. lra.
  - unfold ends in *. rewrite rev_app_distr. destruct (rev (x :: segs)) as [|y r] eqn:E2.
    + exfalso. apply (f_equal (@List.length _)) in E2. rewrite rev_length in E2. discriminate.
    + simpl in *. lra.
Qed.
Lemma sim_min_time :
  ends (fun s => Rsum (fun b => least_time (b_A b) (b_B b)) bl <= t_end s) (unpack_blocklist bl).
Proof.
  destruct (simulate_fchain _ _ _ _ _ Hv Hsim) as (wl & Hf).
  pose proof (fchain_min_time _ _ _ _ _ _ Hf) as H. unfold ends in *.
  destruct (rev (unpack_blocklist bl)); simpl in *; lra.
Qed.

(** *** The end of the program *)
Lemma no_items_next : forall rest B, plan_items B rest [] -> k_pos (find_next_state B rest) = k_pos B.
Proof.
  intros rest B H. 
  assert (Hall : Forall (fun s => k_pos s = k_pos B) rest).
  { remember (@nil item) as l eqn:El. induction H as [A|A B' rest l E Ep H IH|A B' rest l Hor H IH]; [constructor| |discriminate].
    constructor; [assumption|]. eapply Forall_impl; [|apply IH; assumption]. simpl. intros; congruence. }
  clear H. induction rest as [|s rest IH]; [reflexivity|].
  inversion Hall; subst. cbn [find_next_state]. destruct rest; [assumption|].
  destruct (Rltb _ _); [assumption|]. apply IH. assumption.
Qed.

Lemma fchain_last : forall states' A items t p e w bl' wl,
  fchain t p e w bl' wl -> plan_items A states' items -> Forall2 (item_block fw) bl' items ->
  ends (fun s => exists A B rest k d,
          In B states' /\
          vel_next (mk_junction (Some A) B rest) = vzero /\ vel_end s = vscale k d /\
          0 <= k <= junction_vel fw (mk_junction (Some A) B rest) B /\ norm3 (vel_end s) <= k)
       (unpack_blocklist bl').
Proof.
  assert (Hweak : forall (P Q : segment -> Prop) segs, (forall s, P s -> Q s) -> ends P segs -> ends Q segs).
  { intros P Q segs H. unfold ends. destruct (rev segs); simpl; auto. }
  induction states' as [|B rest IH]; intros A items t p e w bl' wl Hf Hi Hib.
  - inversion Hi; subst. inversion Hib; subst. exact I.
  - inversion Hi as [|? ? ? ? E' Ep' H1|? ? ? l Hor H1]; subst.
    + eapply Hweak; [|eapply IH; eassumption]. simpl.
      intros s (A1 & B1 & r & k & d & Hin & H). exists A1, B1, r, k, d. tauto.
    + inversion Hib as [|b' i' bl1 items' Hb1 Hib']; subst. destruct Hb1 as (HA & HB & _ & Hcap & _).
      inversion Hf as [|? ? ? ? ? t' p' s e' w' ? wl' Hwf Hs Htol Hfe Hw Hw2 Hf']; subst.
      specialize (IH _ _ _ _ _ _ _ _ Hf' H1 Hib').
      unfold unpack_blocklist in *. cbn [flat_map].
      destruct (flat_map b_segs bl1) as [|x segs] eqn:Ex.
      * rewrite app_nil_r. pose proof (fchain_unpack_nil _ _ _ _ _ _ Hf' Ex) as ->.
        inversion Hib'; subst.
        destruct (wf_cap _ _ _ _ _ _ _ Hwf) as (l0 & k & d & Hl & Hvk & Hk & Hn).
        apply (ends_of_last _ _ Hl).
        exists (b_A b'), (b_B b'), rest, k, d. split; [left; reflexivity|]. split.
        { unfold mk_junction; cbn [vel_next]. apply connect_same. symmetry. apply no_items_next. assumption. }
        split; [assumption|]. split; [lra|assumption].
      * unfold ends in *. rewrite rev_app_distr. destruct (rev (x :: segs)) as [|y r] eqn:E2.
        -- exfalso. apply (f_equal (@List.length _)) in E2. rewrite rev_length in E2. discriminate.
        -- simpl in *. destruct IH as (A1 & B1 & r1 & k & d & Hin & H). exists A1, B1, r1, k, d. tauto.
Qed.

Lemma junction_stop A B rest : fw <> MarlinJerk -> 0 <= k_jerk B ->
  vel_next (mk_junction (Some A) B rest) = vzero -> junction_vel fw (mk_junction (Some A) B rest) B = 0.
Proof.
  intros Hfw Hj Hz. unfold junction_vel. rewrite Hz. destruct fw; try congruence.
  - apply calc_JD_still. right. apply norm3_vzero.
  - apply calc_klipper_still. right. apply norm3_vzero.
  - pose proof (calc_mka_bounds (target_vel (mk_junction (Some A) B rest)) vzero (k_jerk B) Hj) as [H1 H2].
    rewrite norm3_vzero in H2.
    pose proof (Rmin_r (norm3 (target_vel (mk_junction (Some A) B rest))) 0). lra.
Qed.

Lemma sim_ends_at_rest : fw <> MarlinJerk -> ends (fun s => vel_end s = vzero) (unpack_blocklist bl).
Proof.
  intros Hfw. destruct (simulate_inv _ _ _ _ _ Hv Hsim) as (_ & items & Hi & Hib & _).
  destruct (simulate_fchain _ _ _ _ _ Hv Hsim) as (wl & Hf).
  pose proof (fchain_last _ _ _ _ _ _ _ _ _ Hf Hi Hib) as H.
  assert (Hvs : Forall valid_state states) by (destruct Hv as [Hv' _]; inversion Hv'; assumption).
  unfold ends in *. destruct (rev (unpack_blocklist bl)) as [|s l]; [exact I|]. cbn [starts] in *.
  destruct H as (A & B & rest & k & d & Hin & Hz & Hk & Hk2 & _).
  rewrite Forall_forall in Hvs. destruct (Hvs B Hin) as (_ & _ & Hj & _).
  rewrite junction_stop in Hk2 by assumption. replace k with 0 in Hk by lra. rewrite Hk. vec.
Qed.

Lemma jerk_stop v0 jerk : 0 < jerk -> calc_jerk v0 vzero jerk <= 2 * jerk.
Proof.
  intros Hj. unfold calc_jerk. rewrite Rltb_true by lra.
  replace (vsub v0 vzero) with v0 by (apply vec4_ext; simpl; ring).
  destruct (Rleb_spec 1 (norm3 v0 / (jerk * 2))) as [H|H].
  - assert (Hn : 0 < norm3 v0).
    { apply Rmult_le_compat_r with (r := jerk * 2) in H; [|lra].
      unfold Rdiv in H. rewrite Rmult_assoc, Rinv_l in H by lra. lra. }
    rewrite vdiv_norm3 by lra. apply Req_le. field. lra.
  - apply Rnot_le_lt in H || idtac. 
    assert (H2 : norm3 v0 / (jerk * 2) < 1) by lra.
    apply Rmult_lt_compat_r with (r := jerk * 2) in H2; [|lra].
    unfold Rdiv in H2. rewrite Rmult_assoc, Rinv_l in H2 by lra. lra.
Qed.

Lemma sim_ends_slowly jmax : fw = MarlinJerk -> Forall (fun s => 0 < k_jerk s <= jmax) states ->
  ends (fun s => norm3 (vel_end s) <= 2 * jmax) (unpack_blocklist bl).
Proof.
  intros Hfw Hjm. destruct (simulate_inv _ _ _ _ _ Hv Hsim) as (_ & items & Hi & Hib & _).
  destruct (simulate_fchain _ _ _ _ _ Hv Hsim) as (wl & Hf).
  pose proof (fchain_last _ _ _ _ _ _ _ _ _ Hf Hi Hib) as H.
  unfold ends in *. destruct (rev (unpack_blocklist bl)) as [|s l]; [exact I|]. cbn [starts] in *.
  destruct H as (A & B & rest & k & d & Hin & Hz & Hk & Hk2 & Hn).
  rewrite Forall_forall in Hjm. destruct (Hjm B Hin) as (Hj & Hj2).
  unfold junction_vel in Hk2. rewrite Hfw, Hz in Hk2.
  pose proof (jerk_stop (target_vel (mk_junction (Some A) B rest)) (k_jerk B) Hj). lra.
Qed.

End Sim.
