(** The nozzle follows the commanded path without turning back. *)
From Coq Require Import Lra Lia.
From Verif Require Import Py Parser StateGen SpecMachine Vec Segment Junction Planner RealFacts SpecKin SpecQuery SpecText SpecTrace
  MoveProofs JunctionProofs CorrectProofs SegProofs PlannerProofs TrajProofs PlanFacts QueryProofs InterpProofs.
Open Scope R_scope.

(** Way done in a ramp from [v0] to [v1] of duration [dt] after the time [x]. *)
Definition way (v0 v1 dt x : R) : R := x * (v0 + x / dt / 2 * (v1 - v0)).
Lemma way_mono v0 v1 dt x y : 0 < dt -> 0 <= v0 -> 0 <= v1 -> 0 <= x -> x <= y -> y <= dt -> way v0 v1 dt x <= way v0 v1 dt y.
Proof.
  intros Hd H0 H1 Hx Hxy Hy. unfold way.
  assert (E : y * (v0 + y / dt / 2 * (v1 - v0)) - x * (v0 + x / dt / 2 * (v1 - v0)) =
              (y - x) * (v0 * (1 - (x + y) / (2 * dt)) + v1 * ((x + y) / (2 * dt)))) by (field; lra).
  assert (Hm : 0 <= (x + y) / (2 * dt) <= 1).
  { split; [apply Rmult_le_pos; [lra|apply Rlt_le, Rinv_0_lt_compat; lra]|]. apply Rmult_le_reg_r with (2 * dt); [lra|].
    unfold Rdiv. rewrite Rmult_assoc, Rinv_l by lra. lra. }
  set (m := (x + y) / (2 * dt)) in *.
  assert (0 <= (y - x) * (v0 * (1 - m) + v1 * m)); [|lra].
  apply Rmult_le_pos; [lra|]. apply Rplus_le_le_0_compat; apply Rmult_le_pos; lra.
Qed.
Lemma way_0 v0 v1 dt : way v0 v1 dt 0 = 0.
Proof. unfold way. ring. Qed.
Lemma way_end v0 v1 dt : 0 < dt -> way v0 v1 dt dt = (v0 + v1) / 2 * dt.
Proof. intros. unfold way. field. lra. Qed.

Lemma ramp_point d a vm s v0 v1 u w q : ramp d a vm s v0 v1 -> moves_through s u w q ->
  let x := way v0 v1 (t_end s - t_begin s) (u - t_begin s) in
  q = vadd (pos_begin s) (vscale x d) /\ exists c, 0 <= c <= vm /\ w = vscale c d.
Proof.
  intros (Hd & E0 & E1 & _ & H0 & H1 & _) (Hu & -> & ->). set (y := (u - t_begin s) / (t_end s - t_begin s)).
  assert (Hy : 0 <= y <= 1).
  { unfold y. split; [apply Rmult_le_pos; [lra|apply Rlt_le, Rinv_0_lt_compat; lra]|].
    apply Rmult_le_reg_r with (t_end s - t_begin s); [lra|]. unfold Rdiv. rewrite Rmult_assoc, Rinv_l by lra. lra. }
  rewrite E0, E1. unfold way. fold y. split; [vec|]. exists (v0 + y * (v1 - v0)). split; [|vec].
  pose proof (Rmult_le_pos y v1 ltac:(lra) ltac:(lra)). pose proof (Rmult_le_pos (1 - y) v0 ltac:(lra) ltac:(lra)).
  pose proof (Rmult_le_pos y (vm - v1) ltac:(lra) ltac:(lra)). pose proof (Rmult_le_pos (1 - y) (vm - v0) ltac:(lra) ltac:(lra)). lra.
Qed.

(** Within one move. *)
Lemma motion_progress d a vm t p v segs t' p' v' : motion d a vm t p v segs t' p' v' ->
  exists D, 0 <= D /\ p' = vadd p (vscale D d) /\
    (forall s u w q, In s segs -> moves_through s u w q ->
       t <= u <= t' /\ exists x c, 0 <= x <= D /\ q = vadd p (vscale x d) /\ 0 <= c <= vm /\ w = vscale c d) /\
    (forall s u w q s' u' w' q', In s segs -> In s' segs -> moves_through s u w q -> moves_through s' u' w' q' -> u < u' ->
       exists x x' c c', 0 <= x /\ x <= x' /\ x' <= D /\ q = vadd p (vscale x d) /\ q' = vadd p (vscale x' d) /\
         0 <= c <= vm /\ w = vscale c d /\ 0 <= c' <= vm /\ w' = vscale c' d).
Proof.
  induction 1 as [t p v|t p v s v1 segs t' p' v' Ht Hp Hr Hm (D & HD & Ep & H1 & H2)].
  - exists 0. split; [lra|]. split; [vec|]. split; [intros s u w q []|intros s u w q s' u' w' q' []].
  - pose proof (motion_time _ _ _ _ _ _ _ _ _ _ Hm) as Htt. pose proof Hr as (Hd & _ & _ & Epe & Hv0 & Hv1 & _).
    set (dt := t_end s - t_begin s) in *. set (X := (v + v1) / 2 * dt) in *.
    assert (Hts : t_begin s < t_end s) by (unfold dt in Hd; lra).
    assert (HX : 0 <= X) by (unfold X; apply Rmult_le_pos; lra).
    assert (Hin : forall u, t_begin s <= u <= t_end s -> 0 <= way v v1 dt (u - t_begin s) <= X).
    { intros u Hu. split.
      - pose proof (way_mono v v1 dt 0 (u - t_begin s) Hd ltac:(lra) ltac:(lra) ltac:(lra) ltac:(lra) ltac:(unfold dt; lra)) as H. rewrite way_0 in H. exact H.
      - pose proof (way_mono v v1 dt (u - t_begin s) dt Hd ltac:(lra) ltac:(lra) ltac:(lra) ltac:(unfold dt; lra) ltac:(lra)) as H. rewrite way_end in H by exact Hd. exact H. }
    subst p. exists (X + D). split; [lra|]. split; [rewrite Ep, Epe; vec|]. split.
    + intros s0 u w q [<-|Hs] Hmt.
      * destruct (ramp_point _ _ _ _ _ _ _ _ _ Hr Hmt) as (E & c & Hc & Ew). fold dt in E. pose proof Hmt as (Hu & _).
        specialize (Hin u Hu). split; [lra|]. eexists. exists c. split; [|split; [exact E|split; [exact Hc|exact Ew]]]. lra.
      * destruct (H1 _ _ _ _ Hs Hmt) as (Hu & x & c & Hx & E & Hc & Ew). split; [lra|]. exists (X + x), c.
        split; [lra|]. split; [rewrite E, Epe; vec|]. split; assumption.
    + intros s0 u w q s0' u' w' q' [<-|Hs] [<-|Hs'] Hmt Hmt' Hlt.
      * destruct (ramp_point _ _ _ _ _ _ _ _ _ Hr Hmt) as (E & c & Hc & Ew). destruct (ramp_point _ _ _ _ _ _ _ _ _ Hr Hmt') as (E' & c' & Hc' & Ew').
        fold dt in E, E'. pose proof Hmt as (Hu & _). pose proof Hmt' as (Hu' & _). pose proof (Hin u Hu). pose proof (Hin u' Hu').
        do 2 eexists. exists c, c'. split; [|split; [|split; [|split; [exact E|split; [exact E'|auto]]]]]; try lra.
        apply way_mono; unfold dt in *; lra.
      * destruct (ramp_point _ _ _ _ _ _ _ _ _ Hr Hmt) as (E & c & Hc & Ew). fold dt in E. pose proof Hmt as (Hu & _). pose proof (Hin u Hu).
        destruct (H1 _ _ _ _ Hs' Hmt') as (Hu' & x & c' & Hx & E' & Hc' & Ew').
        eexists. exists (X + x), c, c'. split; [|split; [|split; [|split; [exact E|split; [rewrite E', Epe; vec|auto]]]]]; lra.
      * exfalso. destruct (H1 _ _ _ _ Hs Hmt) as (Hu & _). pose proof Hmt' as (Hu' & _). lra.
      * destruct (H2 _ _ _ _ _ _ _ _ Hs Hs' Hmt Hmt' Hlt) as (x & x' & c & c' & Hx & Hxx & Hx' & E & E' & Hc & Ew & Hc' & Ew').
        exists (X + x), (X + x'), c, c'. split; [lra|]. split; [lra|]. split; [lra|].
        split; [rewrite E, Epe; vec|]. split; [rewrite E', Epe; vec|]. auto.
Qed.

Lemma scale_inj d eo x y : is_dir d eo -> vscale x d = vscale y d -> x = y.
Proof.
  intros Hd E. pose proof (is_dir_norm4 _ _ Hd) as Hn. destruct (Req_dec x y) as [H|H]; [exact H|exfalso].
  assert (Z : vscale (x - y) d = vzero).
  { assert (E' : vsub (vscale x d) (vscale y d) = vzero) by (rewrite E; vec). rewrite <- E'. vec. }
  assert (Hz : d = vzero).
  { replace d with (vscale (/ (x - y)) (vscale (x - y) d)) by (vec; lra). rewrite Z. vec. }
  rewrite Hz in Hn. unfold norm4, vzero in Hn. simpl in Hn. replace (_ + _) with 0 in Hn by ring. rewrite sqrt_0 in Hn. lra.
Qed.
Lemma is_dir_e d : is_dir d true -> Rabs (ve d) = 1.
Proof.
  intros [H3 H4]. unfold norm3, norm4 in *. pose proof (Rle_0_sqr (vx d)) as Px. pose proof (Rle_0_sqr (vy d)) as Py. pose proof (Rle_0_sqr (vz d)) as Pz.
  unfold Rsqr in *. apply sqrt_eq_0 in H3; [|lra]. rewrite <- sqrt_Rsqr_abs. unfold Rsqr. rewrite <- H4. f_equal. lra.
Qed.
(** A point of a move, as a fraction of the way. *)
Lemma leg_of A B d eo dist vm x c : is_dir d eo -> 0 < dist -> vscale dist d = vsub B A -> 0 <= x <= dist -> 0 <= c <= vm ->
  (norm3 (vsub B A) = 0 -> eo = true) ->
  on_leg A B vm (x / dist) (vscale c d) (vadd A (vscale x d)).
Proof.
  intros Hd Hp E Hx Hc Heo. split; [|split; [|split; [|split]]].
  - split; [apply Rmult_le_pos; [lra|apply Rlt_le, Rinv_0_lt_compat; lra]|]. apply Rmult_le_reg_r with dist; [lra|].
    unfold Rdiv. rewrite Rmult_assoc, Rinv_l by lra. lra.
  - rewrite <- E. vec; lra.
  - exists (c / dist). split; [apply Rmult_le_pos; [lra|apply Rlt_le, Rinv_0_lt_compat; lra]|]. rewrite <- E. vec; lra.
  - rewrite norm3_scale_pos by lra. destruct eo; simpl in Hd; [destruct Hd as [-> _]|rewrite Hd]; lra.
  - intros H0. rewrite (Heo H0) in Hd. simpl. rewrite Rabs_mult, (is_dir_e _ Hd), Rabs_right by lra. lra.
Qed.
Lemma frac_le x y D : 0 < D -> x <= y -> x / D <= y / D.
Proof. intros H Hx. apply Rmult_le_compat_r; [apply Rlt_le, Rinv_0_lt_compat; exact H|exact Hx]. Qed.

(** Within one block. *)
Lemma block_progress b t p t' p' s e : wf_block b t p t' p' s e -> p = k_pos (b_A b) ->
  k_pause (b_B b) = None \/ k_pos (b_B b) = k_pos (b_A b) ->
  p' = k_pos (b_B b) /\ t <= t' /\
  (forall g u w q, In g (b_segs b) -> moves_through g u w q ->
     t <= u <= t' /\ exists r, on_leg (k_pos (b_A b)) (k_pos (b_B b)) (k_speed (b_B b)) r w q /\ (k_pause (b_B b) <> None -> w = vzero)) /\
  (forall g u w q g' u' w' q', In g (b_segs b) -> In g' (b_segs b) -> moves_through g u w q -> moves_through g' u' w' q' -> u < u' ->
     exists r r', r <= r' /\ on_leg (k_pos (b_A b)) (k_pos (b_B b)) (k_speed (b_B b)) r w q /\ (k_pause (b_B b) <> None -> w = vzero) /\
       on_leg (k_pos (b_A b)) (k_pos (b_B b)) (k_speed (b_B b)) r' w' q' /\ (k_pause (b_B b) <> None -> w' = vzero)).
Proof.
  intros Hwf Hp Hnp.
  inversion Hwf as [t0 p0 t1 v0 v1 d eo dist Hpz Hd Hdir Hmd Hpos Hsc Ha Hsp Hne Hm Hen Hcap | t0 p0 dt Hpz Hdt Hsp Hsegs]; subst.
  - destruct (motion_progress _ _ _ _ _ _ _ _ _ _ Hm) as (D & HD & ED & H1 & H2).
    assert (D = dist).
    { apply (scale_inj d eo _ _ Hdir). set (A := k_pos (b_A b)) in *.
      replace (vscale D d) with (vsub (vadd A (vscale D d)) A) by vec. rewrite <- ED. vec. }
    subst D. assert (Heo : norm3 (vsub (k_pos (b_B b)) (k_pos (b_A b))) = 0 -> eo = true).
    { intros H0. rewrite <- Hsc in H0. rewrite norm3_scale_pos in H0 by lra. destruct eo; [reflexivity|]. simpl in Hdir. rewrite Hdir in H0. lra. }
    split; [rewrite Hsc; vec|]. split; [exact (motion_time _ _ _ _ _ _ _ _ _ _ Hm)|]. split.
    + intros g u w q Hg Hmt. destruct (H1 _ _ _ _ Hg Hmt) as (Hu & x & c & Hx & -> & Hc & ->). split; [exact Hu|].
      exists (x / dist). split; [|congruence]. eapply leg_of; eassumption.
    + intros g u w q g' u' w' q' Hg Hg' Hmt Hmt' Hlt.
      destruct (H2 _ _ _ _ _ _ _ _ Hg Hg' Hmt Hmt' Hlt) as (x & x' & c & c' & Hx & Hxx & Hx' & -> & -> & Hc & -> & Hc' & ->).
      exists (x / dist), (x' / dist). split; [apply frac_le; lra|].
      split; [eapply leg_of; try eassumption; lra|]. split; [congruence|]. split; [eapply leg_of; try eassumption; lra|congruence].
  - assert (Ep : k_pos (b_B b) = k_pos (b_A b)) by (destruct Hnp as [Hn|Hn]; [congruence|exact Hn]).
    assert (L : forall g u w q, In g (b_segs b) -> moves_through g u w q ->
      t <= u <= t + dt /\ on_leg (k_pos (b_A b)) (k_pos (b_B b)) (k_speed (b_B b)) 0 w q /\ w = vzero).
    { intros g u w q Hg (Hu & -> & ->). rewrite Hsegs in Hg. destruct Hg as [<-|[]]. simpl in *. rewrite Ep. split; [exact Hu|].
      split; [|vec]. split; [lra|]. split; [vec|]. split; [exists 0; split; [lra|vec]|].
      assert (Ez : vadd vzero (vscale ((u - t) / (t + dt - t)) (vsub vzero vzero)) = vzero) by vec. rewrite Ez.
      unfold norm3, vzero. simpl. replace (_ + _) with 0 by ring. rewrite sqrt_0, Rabs_R0. lra. }
    split; [congruence|]. split; [lra|]. split.
    + intros g u w q Hg Hmt. destruct (L _ _ _ _ Hg Hmt) as (H1 & H2 & H3). split; [exact H1|]. exists 0. auto.
    + intros g u w q g' u' w' q' Hg Hg' Hmt Hmt' _. destruct (L _ _ _ _ Hg Hmt) as (_ & H2 & H3). destruct (L _ _ _ _ Hg' Hmt') as (_ & H2' & H3').
      exists 0, 0. split; [lra|]. auto.
Qed.

Lemma stage_shift A ks i r v p : at_stage ks i r v p -> at_stage (A :: ks) (S i) r v p.
Proof. intros (K & L & H1 & H2 & H). exists K, L. auto. Qed.

Lemma fchain_progress fw : forall states A items t p e w bl wl,
  fchain t p e w bl wl -> plan_items A states items -> Forall2 (item_block fw) bl items ->
  no_moving_pause A states -> p = k_pos A ->
  (forall g u x q, In g (unpack_blocklist bl) -> moves_through g u x q -> t <= u /\ exists i r, at_stage (A :: states) i r x q) /\
  (forall g u x q g' u' x' q', In g (unpack_blocklist bl) -> In g' (unpack_blocklist bl) ->
     moves_through g u x q -> moves_through g' u' x' q' -> u < u' ->
     exists i r i' r', at_stage (A :: states) i r x q /\ at_stage (A :: states) i' r' x' q' /\ not_after i r i' r').
Proof.
  induction states as [|B rest IH]; intros A items t p e w bl wl Hf Hi Hib Hn Hp.
  - inversion Hi; subst. inversion Hib; subst. split; [intros g u x q []|intros g u x q g' u' x' q' []].
  - destruct Hn as [Hn0 Hn]. inversion Hi as [|? ? ? ? E' Ep' H1|? ? ? l Hor H1]; subst.
    + destruct (IH B items t (k_pos A) e w bl wl Hf H1 Hib Hn (eq_sym E')) as [I1 I2]. split.
      * intros g u x q Hg Hm. destruct (I1 _ _ _ _ Hg Hm) as (Hu & i & r & Hs). split; [exact Hu|]. exists (S i), r. apply stage_shift, Hs.
      * intros g u x q g' u' x' q' Hg Hg' Hm Hm' Hlt. destruct (I2 _ _ _ _ _ _ _ _ Hg Hg' Hm Hm' Hlt) as (i & r & i' & r' & Hs & Hs' & Ho).
        exists (S i), r, (S i'), r'. split; [apply stage_shift, Hs|]. split; [apply stage_shift, Hs'|].
        destruct Ho as [Ho|[-> Ho]]; [left; lia|right; auto].
    + inversion Hib as [|b i' bl' items' Hb1 Hib']; subst. destruct Hb1 as (HA & HB & _).
      inversion Hf as [|? ? ? ? ? t' p' s e' w' ? wl' Hwf Hs Htol Hfe Hw Hw2 Hf']; subst.
      destruct (block_progress _ _ _ _ _ _ _ Hwf eq_refl Hn0) as (Ep' & Htt & B1 & B2).
      destruct (IH _ _ _ _ _ _ _ _ Hf' H1 Hib' Hn Ep') as [I1 I2].
      assert (St : forall r x q, on_leg (k_pos (b_A b)) (k_pos (b_B b)) (k_speed (b_B b)) r x q -> (k_pause (b_B b) <> None -> x = vzero) ->
                   at_stage (b_A b :: b_B b :: rest) 0 r x q).
      { intros r x q H2 H3. exists (b_A b), (b_B b). auto. }
      split.
      * intros g u x q Hg Hm. unfold unpack_blocklist in Hg. simpl in Hg. apply in_app_or in Hg as [Hg|Hg].
        -- destruct (B1 _ _ _ _ Hg Hm) as (Hu & r & H2 & H3). split; [lra|]. exists 0%nat, r. apply St; assumption.
        -- destruct (I1 _ _ _ _ Hg Hm) as (Hu & i & r & Hst). split; [lra|]. exists (S i), r. apply stage_shift, Hst.
      * intros g u x q g' u' x' q' Hg Hg' Hm Hm' Hlt. unfold unpack_blocklist in Hg, Hg'. simpl in Hg, Hg'.
        apply in_app_or in Hg as [Hg|Hg]; apply in_app_or in Hg' as [Hg'|Hg'].
        -- destruct (B2 _ _ _ _ _ _ _ _ Hg Hg' Hm Hm' Hlt) as (r & r' & Hr & H2 & H3 & H4 & H5).
           exists 0%nat, r, 0%nat, r'. split; [apply St; assumption|]. split; [apply St; assumption|]. right. auto.
        -- destruct (B1 _ _ _ _ Hg Hm) as (Hu & r & H2 & H3). destruct (I1 _ _ _ _ Hg' Hm') as (Hu' & i & r' & Hst).
           exists 0%nat, r, (S i), r'. split; [apply St; assumption|]. split; [apply stage_shift, Hst|]. left. lia.
        -- exfalso. destruct (B1 _ _ _ _ Hg' Hm') as (Hu & _). destruct (I1 _ _ _ _ Hg Hm) as (Hu' & _). lra.
        -- destruct (I2 _ _ _ _ _ _ _ _ Hg Hg' Hm Hm' Hlt) as (i & r & i2 & r' & Hst & Hst' & Ho).
           exists (S i), r, (S i2), r'. split; [apply stage_shift, Hst|]. split; [apply stage_shift, Hst'|].
           destruct Ho as [Ho|[-> Ho]]; [left; lia|right; auto].
Qed.

Lemma sim_progress fw s0 states bl wn : valid_program s0 states -> no_moving_pause s0 states -> simulate fw (s0 :: states) = Ok (bl, wn) ->
  (forall u x q, on_path (unpack_blocklist bl) u x q -> exists i r, at_stage (s0 :: states) i r x q) /\
  (forall u x q u' x' q', on_path (unpack_blocklist bl) u x q -> on_path (unpack_blocklist bl) u' x' q' -> u < u' ->
     exists i r i' r', at_stage (s0 :: states) i r x q /\ at_stage (s0 :: states) i' r' x' q' /\ not_after i r i' r').
Proof.
  intros Hv Hn Hs. destruct (simulate_inv _ _ _ _ _ Hv Hs) as (_ & items & Hi & Hib & Hf).
  assert (Hvs : Forall valid_state states) by (destruct Hv as [Hv' _]; inversion Hv'; assumption).
  specialize (Hf _ (feasible_zero fw _ _ _ Hvs Hi)).
  destruct (fchain_progress fw _ _ _ _ _ _ _ _ _ Hf Hi Hib Hn eq_refl) as [H1 H2]. split.
  - intros u x q (g & Hg & Hm). exact (proj2 (H1 _ _ _ _ Hg Hm)).
  - intros u x q u' x' q' (g & Hg & Hm) (g' & Hg' & Hm') Hlt. exact (H2 _ _ _ _ _ _ _ _ Hg Hg' Hm Hm' Hlt).
Qed.
