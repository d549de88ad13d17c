(** More about the queries: what a successful query says, the plot of the
    velocities, extent and largest velocity. *)
From Coq Require Import Lra Psatz.
From Verif Require Import Py Vec Segment Junction Planner Query RealFacts SpecKin SpecQuery MoveProofs JunctionProofs CorrectProofs SegProofs PlannerProofs TrajProofs PlanFacts QueryProofs.
Open Scope R_scope.

(** * Successful queries *)
Lemma scan_fresh_inv : forall path t i s j, scan_fresh path t i = At s j ->
  exists n, j = (i + n)%nat /\ nth_error path n = Some s /\ t_begin s <= t < t_end s.
Proof.
  induction path as [|x path IH]; intros t i s j H; [discriminate H|]. cbn [scan_fresh] in H.
  destruct (Rleb_spec (t_begin x) t) as [H1|H1], (Rltb_spec t (t_end x)) as [H2|H2]; simpl in H.
  1: { injection H as <- <-. exists 0%nat. rewrite Nat.add_0_r. auto. }
  all: destruct (IH _ _ _ _ H) as (n & -> & Hn); exists (S n); rewrite Nat.add_succ_r; auto.
Qed.
Lemma scan_from_inv : forall path t i s j, scan_from path t i = At s j ->
  exists n, j = (i + n)%nat /\ nth_error path n = Some s /\ t_begin s <= t <= t_end s.
Proof.
  induction path as [|x path IH]; intros t i s j H; [discriminate H|]. cbn [scan_from] in H.
  destruct (Rleb_spec (t_begin x) t) as [H1|H1], (Rleb_spec t (t_end x)) as [H2|H2]; simpl in H.
  1: { injection H as <- <-. exists 0%nat. rewrite Nat.add_0_r. auto. }
  all: destruct (IH _ _ _ _ H) as (n & -> & Hn); exists (S n); rewrite Nat.add_succ_r; auto.
Qed.
Lemma find_inv path t li s j : find_current_segment path t li = Ok (At s j) ->
  nth_error path j = Some s /\ t_begin s <= t <= t_end s.
Proof.
  unfold find_current_segment. destruct (last_seg path) as [l|]; [|discriminate]. simpl.
  destruct (Rltb (t_end l) t); [discriminate|]. destruct (search_anew path t li).
  - intros H. injection H as H. destruct (scan_fresh_inv _ _ _ _ _ H) as (n & -> & Hn & Ht). split; [exact Hn | lra].
  - intros H. destruct (scan_from _ _ _) as [s' j'| |] eqn:E; try discriminate H. injection H as -> ->.
    destruct (scan_from_inv _ _ _ _ _ E) as (n & -> & Hn & Ht). rewrite nth_skipn in Hn. auto.
Qed.
Lemma get_values_inv s t unit v p j : get_values s t unit = (Ok (v, p), j) ->
  exists g i k, j = Some i /\ nth_error (unpack_blocklist (blocklist s)) i = Some g /\ t_begin g <= t <= t_end g /\
    get_scaling_factor s unit = Ok k /\ v = vscale k (vel_at g t) /\ p = vscale k (pos_at g t).
Proof.
  unfold get_values. destruct (find_current_segment _ t (last_index s)) as [[g i| |]|e] eqn:E; try discriminate.
  intros H. injection H as H1 H2. apply find_inv in E. destruct E as [E1 E2].
  destruct (get_in_range g t E2) as [G1 G2]. rewrite G1, G2 in H1. simpl in H1.
  destruct (get_scaling_factor s unit) as [k|] eqn:Ek; [|discriminate H1]. simpl in H1. injection H1 as H1 H3.
  exists g, i, k. rewrite <- H1, <- H3. auto 10.
Qed.
(** Histories do not matter for the position, and for the speed not much. *)
Lemma get_values_agree eps s1 s2 t unit v1 p1 j1 v2 p2 j2 k : 0 <= eps ->
  let path := unpack_blocklist (blocklist s1) in
  contiguous_path path -> Forall rests path -> speed_joined eps path ->
  blocklist s2 = blocklist s1 -> output_unit_system s2 = output_unit_system s1 ->
  unit_length (unit_of s1 unit) k ->
  get_values s1 t unit = (Ok (v1, p1), j1) -> get_values s2 t unit = (Ok (v2, p2), j2) ->
  p1 = p2 /\ k * Rabs (norm3 v1 - norm3 v2) <= eps /\ (not_a_joint path t -> v1 = v2).
Proof.
  intros He path Hp Hr Hj Hb Hu Hk G1 G2.
  destruct (get_values_inv _ _ _ _ _ _ G1) as (g1 & i1 & k1 & -> & N1 & T1 & K1 & -> & ->).
  destruct (get_values_inv _ _ _ _ _ _ G2) as (g2 & i2 & k2 & -> & N2 & T2 & K2 & -> & ->).
  rewrite Hb in N2. fold path in N1, N2.
  destruct (unit_scale_own s1 unit _ k eq_refl Hk) as [K1' Hkp].
  assert (K2' : get_scaling_factor s2 unit = Ok (/ k)).
  { rewrite <- K1'. unfold get_scaling_factor. rewrite Hu. reflexivity. }
  rewrite K1' in K1. rewrite K2' in K2. injection K1 as <-. injection K2 as <-.
  split; [|split].
  - f_equal. apply (same_position path Hp i1 i2 g1 g2 t); assumption.
  - rewrite !norm3_scale, (Rabs_right (/ k)) by (apply Rle_ge, Rlt_le, Rinv_0_lt_compat; lra).
    rewrite <- Rmult_minus_distr_l, Rabs_mult, (Rabs_right (/ k)) by (apply Rle_ge, Rlt_le, Rinv_0_lt_compat; lra).
    rewrite <- Rmult_assoc, Rinv_r, Rmult_1_l by lra.
    apply (same_speed eps path He Hp Hr Hj i1 i2 g1 g2 t); assumption.
  - intros Hn. f_equal. f_equal. apply (off_joint path Hp i1 i2 g1 g2 t); assumption.
Qed.

(** * Queries that fail *)
Lemma fresh_end_fails bl u l unit : contiguous_path (unpack_blocklist bl) -> last_seg (unpack_blocklist bl) = Ok l ->
  get_values (Sim bl u None) (t_end l) unit = (Err TypeError, None).
Proof.
  intros H Hl. unfold get_values, find_current_segment. simpl. rewrite Hl. simpl.
  rewrite (Rltb_false (t_end l) (t_end l)) by lra.
  rewrite scan_fresh_end; [reflexivity|]. intros s Hs. exact (cpath_last_end _ l H Hl s Hs).
Qed.
Lemma beyond_end_fails bl u li l t unit : last_seg (unpack_blocklist bl) = Ok l -> t_end l < t ->
  get_values (Sim bl u li) t unit = (Err AttributeError, None).
Proof.
  intros Hl Ht. unfold get_values, find_current_segment. simpl. rewrite Hl. simpl. rewrite (Rltb_true (t_end l) t) by lra.
  reflexivity.
Qed.
Lemma scan_fresh_before : forall path t i, (forall s, In s path -> t < t_begin s) -> scan_fresh path t i = Nothing.
Proof.
  induction path as [|s path IH]; intros t i H; [reflexivity|]. cbn [scan_fresh].
  rewrite (Rleb_false (t_begin s) t) by (apply H; left; reflexivity). simpl.
  apply IH. intros n Hn. apply H. right. exact Hn.
Qed.

(** The last index always names a segment. *)
Definition index_ok (s : sim) : Prop :=
  forall i, last_index s = Some i -> exists g, nth_error (unpack_blocklist (blocklist s)) i = Some g.
Lemma index_ok_query s t unit : index_ok s -> index_ok (set_index s (snd (get_values s t unit))).
Proof.
  intros H i Hi. simpl in *. unfold get_values in Hi.
  destruct (find_current_segment _ t (last_index s)) as [[g j| |]|e] eqn:E; simpl in Hi; try exact (H i Hi).
  - injection Hi as <-. exists g. apply (find_inv _ _ _ _ _ E).
  - discriminate Hi.
Qed.
Lemma index_ok_queries hist : forall s, index_ok s -> index_ok (after_queries s hist).
Proof. induction hist as [|q hist IH]; intros s H; [exact H|]. simpl. apply IH, index_ok_query, H. Qed.

(** * The velocity plot *)
Lemma keep_from_ok path l t i0 : contiguous_path path -> last_seg path = Ok l ->
  forall rest i, skipn i path = rest -> rest <> [] -> (i0 <= i)%nat ->
  (exists x, nth_error path i0 = Some x /\ t_begin x <= t) ->
  starts (fun s => t_begin s <= t) rest -> t <= t_end l ->
  exists s j, keep_from path rest t i0 i = Ok (At s j) /\ (i <= j)%nat /\ nth_error path j = Some s /\ t_begin s <= t <= t_end s.
Proof.
  intros Hc Hl. induction rest as [|s rest IH]; intros i Hrest Hne Hi Hx Hs Ht; [contradiction Hne; reflexivity|].
  simpl in Hs. cbn [keep_from]. rewrite (Rleb_true (t_begin s) t) by assumption.
  assert (Hns : nth_error path i = Some s).
  { rewrite <- (Nat.add_0_r i), <- nth_skipn, Hrest. reflexivity. }
  destruct (Rleb_spec t (t_end s)) as [Hle|Hgt]; cbn [andb].
  - exists s, i. auto.
  - rewrite (Rleb_true (t_end s) t) by lra.
    destruct rest as [|n rest].
    { exfalso. assert (El : last_seg [s] = Ok l) by (rewrite <- Hrest; apply (last_seg_skipn l path i s Hns Hl)).
      injection El as ->. lra. }
    assert (Hn : nth_error path (S i) = Some n).
    { replace (S i) with (i + 1)%nat by lia. rewrite <- nth_skipn, Hrest. reflexivity. }
    assert (Hcr : contiguous_path (s :: n :: rest)) by (rewrite <- Hrest; apply cpath_skipn; exact Hc).
    destruct (cpath_next _ _ _ Hcr) as [E _].
    destruct (nth_error path (S i0)) as [m|] eqn:Em.
    + assert (Hm : t_begin m <= t).
      { assert (Hmn : t_begin m <= t_begin n); [|lra].
        clear -Hc Em Hn Hi. revert i0 i Hi Em Hn. induction path as [|x path IHp]; intros i0 i Hi Em Hn; [discriminate Em|].
        destruct i0 as [|i0].
        - simpl in Em, Hn. apply cpath_cons in Hc. destruct Hc as [_ Hc]. clear IHp.
          destruct path as [|y path]; [discriminate Em|]. injection Em as ->.
          destruct i as [|i]; [injection Hn as ->; lra|]. simpl in Hn. apply nth_error_In in Hn.
          pose proof (cpath_after _ _ Hc n Hn). pose proof (cpath_in _ m Hc (or_introl eq_refl)) as [? _]. lra.
        - destruct i as [|i]; [lia|]. apply cpath_cons in Hc. apply (IHp (proj2 Hc) i0 i); auto. lia. }
      rewrite (Rltb_false t (t_begin m)) by lra.
      destruct (IH (S i)) as (s' & j & H1 & H2 & H3); auto.
      * replace (S i) with (1 + i)%nat by lia. clear -Hrest. revert i Hrest.
        induction path as [|y path IHp]; intros [|i] Hrest; simpl in *; try discriminate Hrest.
        -- injection Hrest as -> ->. reflexivity.
        -- apply IHp. exact Hrest.
      * discriminate.
      * simpl. lra.
      * exists s', j. rewrite H1. split; [reflexivity|]. split; [lia | exact H3].
    + exfalso. apply nth_error_None in Em. assert (S i < length path)%nat by (apply nth_error_Some; congruence). lia.
Qed.
Lemma nth_suffix {X} : forall (l : list X) i x, nth_error l i = Some x -> exists r, skipn i l = x :: r.
Proof.
  induction l as [|y l IH]; intros [|i] x H; try discriminate H.
  - injection H as ->. exists l. reflexivity.
  - exact (IH i x H).
Qed.
Lemma find_keep_ok path l t i x : contiguous_path path -> last_seg path = Ok l ->
  nth_error path i = Some x -> t_begin x <= t <= t_end l ->
  exists s j, find_keep_position path t (Some i) = Ok (At s j) /\ nth_error path j = Some s /\ t_begin s <= t <= t_end s.
Proof.
  intros Hc Hl Hx Ht. unfold find_keep_position. simpl. rewrite Hx, (Rltb_false t (t_begin x)) by lra.
  destruct (nth_suffix _ _ _ Hx) as (r & Er).
  destruct (keep_from_ok path l t i Hc Hl (skipn i path) i) as (s & j & H1 & _ & H2); auto.
  - rewrite Er. discriminate.
  - exists x. split; [exact Hx | lra].
  - rewrite Er. simpl. lra.
  - lra.
  - exists s, j. auto.
Qed.
Lemma plot_values_ok path l : contiguous_path path -> last_seg path = Ok l ->
  forall times i x, nth_error path i = Some x -> starts (fun t => t_begin x <= t) times ->
  ascending times -> Forall (fun t => t <= t_end l) times ->
  exists vals, plot_values path (Some i) times = Ok vals /\
    Forall2 (fun t vp => on_path path t (fst vp) (snd vp)) times vals.
Proof.
  intros Hc Hl. induction times as [|t times IH]; intros i x Hx Hs Ha Ht.
  - exists []. split; [reflexivity | constructor].
  - inversion Ht as [|? ? Ht1 Ht2]; subst. simpl in Hs.
    destruct (find_keep_ok path l t i x Hc Hl Hx ltac:(lra)) as (s & j & H1 & H2 & H3).
    cbn [plot_values]. rewrite H1. simpl. destruct (get_in_range s t H3) as [-> ->]. simpl.
    destruct Ha as [Ha1 Ha2].
    destruct (IH j s H2) as (vals & Hv1 & Hv2); auto.
    { destruct times as [|t' times]; simpl in *; [exact I | lra]. }
    rewrite Hv1. simpl. eexists. split; [reflexivity|]. constructor; [|exact Hv2].
    exists s. split; [eapply nth_error_In; exact H2 | apply at_moves; exact H3].
Qed.

(** * Largest and smallest elements *)
Lemma fold_max_spec : forall l x, let m := fold_left Rmax l x in
  (m = x \/ In m l) /\ x <= m /\ Forall (fun y => y <= m) l.
Proof.
  induction l as [|y l IH]; intros x m; simpl in m.
  - split; [left; reflexivity|]. split; [subst m; lra | constructor].
  - destruct (IH (Rmax x y)) as (H1 & H2 & H3). fold m in H1, H2, H3.
    pose proof (Rmax_l x y). pose proof (Rmax_r x y).
    split; [|split; [lra | constructor; [lra | exact H3]]].
    destruct H1 as [H1|H1]; [|right; right; exact H1].
    rewrite H1. unfold Rmax. destruct (Rle_dec x y); [right; left; reflexivity | left; reflexivity].
Qed.
Lemma amax_spec l m : amax l = Ok m -> In m l /\ Forall (fun y => y <= m) l.
Proof.
  destruct l as [|x l]; [discriminate|]. intros H. injection H as <-.
  destruct (fold_max_spec l x) as (H1 & H2 & H3). split; [|constructor; assumption].
  destruct H1 as [H1|H1]; [left; symmetry; exact H1 | right; exact H1].
Qed.
Lemma amax_ok l : l <> [] -> exists m, amax l = Ok m.
Proof. destruct l; [contradiction|]. intros _. eexists. reflexivity. Qed.
Lemma fold_min_max : forall l x, fold_left Rmin l x = - fold_left Rmax (map Ropp l) (- x).
Proof.
  induction l as [|y l IH]; intros x; simpl; [ring|]. rewrite IH. f_equal. f_equal.
  unfold Rmin, Rmax. destruct (Rle_dec x y), (Rle_dec (- x) (- y)); lra.
Qed.
Lemma amin_spec l m : amin l = Ok m -> In m l /\ Forall (fun y => m <= y) l.
Proof.
  destruct l as [|x l]; [discriminate|]. intros H. injection H as <-. rewrite fold_min_max.
  destruct (fold_max_spec (map Ropp l) (- x)) as (H1 & H2 & H3).
  set (M := fold_left Rmax (map Ropp l) (- x)) in *. split.
  - destruct H1 as [H1|H1]; [left; lra|]. right. apply in_map_iff in H1. destruct H1 as (y & E & Hy).
    replace (- M) with y by lra. exact Hy.
  - constructor; [lra|]. apply Forall_forall. intros y Hy. rewrite Forall_forall in H3.
    specialize (H3 (- y)). rewrite in_map_iff in H3. specialize (H3 (ex_intro _ y (conj eq_refl Hy))). lra.
Qed.
Lemma amin_ok l : l <> [] -> exists m, amin l = Ok m.
Proof. destruct l; [contradiction|]. intros _. eexists. reflexivity. Qed.
Lemma max_unique l m m' : In m l -> Forall (fun y => y <= m) l -> In m' l -> Forall (fun y => y <= m') l -> m = m'.
Proof. intros H1 H2 H3 H4. rewrite Forall_forall in *. pose proof (H2 _ H3). pose proof (H4 _ H1). lra. Qed.

(** * Positions within a block *)
Lemma ramp_between d a vm s v0 v1 t : ramp d a vm s v0 v1 -> t_begin s <= t <= t_end s ->
  exists x, pos_at s t = vadd (pos_begin s) (vscale x d) /\ 0 <= x <= (v0 + v1) / 2 * (t_end s - t_begin s).
Proof.
  intros (Ht & Hb & He & Hp & H0 & H1 & _) Hr. rewrite pos_at_moves by assumption. rewrite Hb, He.
  set (dt := t_end s - t_begin s) in *. set (u := (t - t_begin s) / dt).
  assert (Hu : 0 <= u <= 1).
  { unfold u. split; [apply Rmult_le_pos; [lra | apply Rlt_le, Rinv_0_lt_compat; lra]|].
    apply (Rmult_le_reg_r dt); [lra|]. unfold Rdiv. rewrite Rmult_assoc, Rinv_l by lra. unfold dt. lra. }
  assert (Et : t - t_begin s = u * dt) by (unfold u; field; lra).
  exists (u * dt * (v0 + u / 2 * (v1 - v0))). rewrite Et. split; [apply vec4_ext; simpl; ring|].
  assert (A1 : 0 <= v0 + u / 2 * (v1 - v0)) by nra.
  split; [apply Rmult_le_pos; [nra | exact A1]|].
  apply Rminus_le. replace (u * dt * (v0 + u / 2 * (v1 - v0)) - (v0 + v1) / 2 * dt)
    with (- (dt * (v0 * ((1 - u) * (1 - u)) / 2 + v1 * ((1 - u) * (1 + u)) / 2))) by field.
  assert (0 <= (1 - u) * (1 - u)) by nra. assert (0 <= (1 - u) * (1 + u)) by nra.
  assert (0 <= v0 * ((1 - u) * (1 - u))) by (apply Rmult_le_pos; lra).
  assert (0 <= v1 * ((1 - u) * (1 + u))) by (apply Rmult_le_pos; lra).
  assert (0 <= dt * (v0 * ((1 - u) * (1 - u)) / 2 + v1 * ((1 - u) * (1 + u)) / 2)) by (apply Rmult_le_pos; lra).
  lra.
Qed.
Lemma motion_between d a vm t p v segs t' p' v' : motion d a vm t p v segs t' p' v' ->
  forall L, 0 <= L -> p' = vadd p (vscale L d) -> (exists eo, is_dir d eo) ->
  forall s u, In s segs -> t_begin s <= u <= t_end s ->
  exists x, pos_at s u = vadd p (vscale x d) /\ 0 <= x <= L.
Proof.
  intros Hm. induction Hm as [|t p v s v1 segs t' p' v' Ht Hp Hr Hm IH]; intros L HL EL Hd x u Hx Hu; [contradiction|].
  destruct (motion_length _ _ _ _ _ _ _ _ _ _ Hm) as (L' & E' & HL' & _).
  pose proof Hr as (Hdt & Hb & He & Hpe & H0 & H1 & _).
  set (l1 := (v + v1) / 2 * (t_end s - t_begin s)) in *.
  assert (Hl1 : 0 <= l1) by (unfold l1; nra).
  assert (EL2 : L = l1 + L').
  { destruct Hd as [eo Hd]. apply (is_dir_inj d eo p); [exact Hd|].
    rewrite <- EL, E', Hpe, Hp. apply vec4_ext; simpl; ring. }
  destruct Hx as [<-|Hx].
  - destruct (ramp_between _ _ _ _ _ _ u Hr Hu) as (x & E & Hx). rewrite Hp in E. exists x. split; [exact E|].
    fold l1 in Hx. lra.
  - destruct (IH L' ltac:(lra) E' Hd x u Hx Hu) as (y & E & Hy).
    exists (l1 + y). split; [|lra]. rewrite E, Hpe, Hp. apply vec4_ext; simpl; ring.
Qed.
(** Extruding positions lie on the straight line from A to B. *)
Lemma sim_block_line fw s0 states bl wn b s t :
  valid_program s0 states -> no_moving_pause s0 states -> simulate fw (s0 :: states) = Ok (bl, wn) ->
  In b bl -> In s (b_segs b) -> t_begin s <= t <= t_end s ->
  exists x, 0 <= x <= 1 /\
    pos_at s t = vadd (k_pos (b_A b)) (vscale x (vsub (k_pos (b_B b)) (k_pos (b_A b)))).
Proof.
  intros Hv Hn Hs Hb Hin Ht.
  destruct (simulate_inv _ _ _ _ _ Hv Hs) as (_ & items & Hi & Hib & _).
  destruct (simulate_fchain _ _ _ _ _ Hv Hs) as (wl & Hf).
  destruct (fchain_positions fw states s0 items 0 (k_pos s0) 0 0 bl wl Hf Hi Hib Hn eq_refl b Hb)
    as (t1 & t2 & ss & e1 & Hwf).
  remember (k_pos (b_A b)) as pA eqn:EA. remember (k_pos (b_B b)) as pB eqn:EB.
  destruct Hwf as [t0 p0 t' v0 v1 d eo dist Hp Hd Hdir Hmd Hpos Hsc Ha Hsp Hne Hm Hen Hcap | t0 p0 dt Hp Hdt Hsp Hsegs].
  - destruct (motion_between _ _ _ _ _ _ _ _ _ _ Hm dist ltac:(lra) eq_refl (ex_intro _ eo Hdir) s t Hin Ht)
      as (x & E & Hx).
    exists (x / dist). split.
    + split; [apply Rmult_le_pos; [lra | apply Rlt_le, Rinv_0_lt_compat; lra]|].
      apply (Rmult_le_reg_r dist); [lra|]. unfold Rdiv. rewrite Rmult_assoc, Rinv_l by lra. lra.
    + rewrite E. apply vec4_ext; simpl; field; lra.
  - rewrite Hsegs in Hin. destruct Hin as [<-|[]]. exists 0. split; [lra|].
    unfold pos_at, vel_at; simpl. destruct (Rltb _ _); apply vec4_ext; simpl; unfold Rdiv; ring.
Qed.
Lemma between_coord a b x m0 m1 : 0 <= x <= 1 -> m0 <= a <= m1 -> m0 <= b <= m1 -> m0 <= a + (b - a) * x <= m1.
Proof.
  intros Hx Ha Hb. replace (a + (b - a) * x) with (a * (1 - x) + b * x) by ring.
  assert (0 <= (a - m0) * (1 - x)) by (apply Rmult_le_pos; lra).
  assert (0 <= (b - m0) * x) by (apply Rmult_le_pos; lra).
  assert (0 <= (m1 - a) * (1 - x)) by (apply Rmult_le_pos; lra).
  assert (0 <= (m1 - b) * x) by (apply Rmult_le_pos; lra). split; lra.
Qed.
Lemma extruding_points_in bl b : In b bl -> b_extr b = true ->
  In (k_pos (b_A b)) (extruding_points bl) /\ In (k_pos (b_B b)) (extruding_points bl).
Proof.
  intros H E. assert (Hf : In b (filter b_extr bl)) by (apply filter_In; auto).
  split; apply in_or_app; [left | right]; apply in_map_iff; exists b; auto.
Qed.
Lemma extruding_points_inv bl p : In p (extruding_points bl) ->
  exists b, In b bl /\ b_extr b = true /\ (p = k_pos (b_A b) \/ p = k_pos (b_B b)).
Proof.
  intros H. apply in_app_or in H. destruct H as [H|H]; apply in_map_iff in H; destruct H as (b & <- & Hb);
    apply filter_In in Hb; destruct Hb; exists b; auto.
Qed.
Lemma extruding_points_nil bl : (forall b, In b bl -> b_extr b = false) -> extruding_points bl = [].
Proof.
  intros H. unfold extruding_points. replace (filter b_extr bl) with (@nil block); [reflexivity|].
  symmetry. induction bl as [|b bl IH]; [reflexivity|]. simpl. rewrite (H b (or_introl eq_refl)).
  apply IH. intros b' Hb'. apply H. right. exact Hb'.
Qed.

(** The extent, when something extrudes. *)
Lemma extent_ok s unit k : (exists b, In b (blocklist s) /\ b_extr b = true) -> unit_length (unit_of s unit) k ->
  exists x0 y0 z0 x1 y1 z1, extrusion_extent s unit = Ok ((/ k * x0, / k * y0, / k * z0), (/ k * x1, / k * y1, / k * z1)) /\
  let pts := extruding_points (blocklist s) in
  (forall p, In p pts -> (x0 <= vx p <= x1) /\ (y0 <= vy p <= y1) /\ (z0 <= vz p <= z1)) /\
  (exists p, In p pts /\ vx p = x0) /\ (exists p, In p pts /\ vy p = y0) /\ (exists p, In p pts /\ vz p = z0) /\
  (exists p, In p pts /\ vx p = x1) /\ (exists p, In p pts /\ vy p = y1) /\ (exists p, In p pts /\ vz p = z1).
Proof.
  intros (b & Hb & Hbe) Hu. unfold extrusion_extent.
  destruct (extruding_points_in _ _ Hb Hbe) as [HA _]. set (pts := extruding_points (blocklist s)) in *.
  assert (Hne : forall f : vec4 -> R, map f pts <> []).
  { intros f E. apply map_eq_nil in E. rewrite E in HA. contradiction. }
  destruct (amax_ok _ (Hne vx)) as (x1 & Ex1), (amax_ok _ (Hne vy)) as (y1 & Ey1), (amax_ok _ (Hne vz)) as (z1 & Ez1).
  destruct (amin_ok _ (Hne vx)) as (x0 & Ex0), (amin_ok _ (Hne vy)) as (y0 & Ey0), (amin_ok _ (Hne vz)) as (z0 & Ez0).
  exists x0, y0, z0, x1, y1, z1. rewrite Ex1, Ey1, Ez1, Ex0, Ey0, Ez0. cbn [bind].
  destruct (unit_scale_own s unit _ k eq_refl Hu) as [-> _]. cbn [bind]. split; [reflexivity|].
  apply amax_spec in Ex1, Ey1, Ez1. apply amin_spec in Ex0, Ey0, Ez0.
  split.
  - intros p Hp. destruct Ex1 as [_ Ex1], Ey1 as [_ Ey1], Ez1 as [_ Ez1], Ex0 as [_ Ex0], Ey0 as [_ Ey0], Ez0 as [_ Ez0].
    rewrite Forall_forall in *.
    assert (In (vx p) (map vx pts)) by (apply in_map; exact Hp).
    assert (In (vy p) (map vy pts)) by (apply in_map; exact Hp).
    assert (In (vz p) (map vz pts)) by (apply in_map; exact Hp). auto 10.
  - assert (Hw : forall (f : vec4 -> R) m, In m (map f pts) -> exists p, In p pts /\ f p = m).
    { intros f m Hm. apply in_map_iff in Hm. destruct Hm as (p & E & Hp). exists p. auto. }
    repeat split; apply Hw; tauto.
Qed.

(** * Speeds within a block *)
(** The velocities of a block are multiples of one direction. *)
Definition one_line (b : block) (d : vec4) (ks : list R) : Prop :=
  ks <> [] /\ Forall (fun k => 0 <= k) ks /\
  (forall f, (f = vx \/ f = vy \/ f = vz) -> axis_speeds f (b_segs b) = map (fun k => k * Rabs (f d)) ks) /\
  (forall s, In s (b_segs b) -> exists v0 v1, In v0 ks /\ In v1 ks /\ vel_begin s = vscale v0 d /\ vel_end s = vscale v1 d /\
     (t_begin s < t_end s \/ v0 = v1)) /\
  (forall k, In k ks -> exists s t, In s (b_segs b) /\ t_begin s <= t <= t_end s /\ vel_at s t = vscale k d).
Lemma motion_ks d a vm t p v segs t' p' v' : motion d a vm t p v segs t' p' v' ->
  exists ks, (segs <> [] -> ks <> []) /\ Forall (fun k => 0 <= k) ks /\
  (forall f, (f = vx \/ f = vy \/ f = vz) -> axis_speeds f segs = map (fun k => k * Rabs (f d)) ks) /\
  (forall s, In s segs -> exists v0 v1, In v0 ks /\ In v1 ks /\ vel_begin s = vscale v0 d /\ vel_end s = vscale v1 d /\ (t_begin s < t_end s \/ v0 = v1)) /\
  (forall k, In k ks -> exists s t, In s segs /\ t_begin s <= t <= t_end s /\ vel_at s t = vscale k d).
Proof.
  induction 1 as [|t p v s v1 segs t' p' v' Ht Hp Hr Hm (ks & H1 & H2 & H3 & H4 & H5)].
  - exists []. split; [tauto|]. split; [constructor|]. split; [reflexivity|]. split; intros ? [].
  - destruct Hr as (Hdt & Hb & He & _ & H0 & H01 & _). exists (v :: v1 :: ks).
    split; [discriminate|]. split; [constructor; [lra | constructor; [lra | exact H2]]|]. split; [|split].
    + intros f Hf. cbn [axis_speeds flat_map app map]. change (flat_map _ segs) with (axis_speeds f segs).
      rewrite (H3 f Hf), Hb, He. f_equal; [|f_equal].
      * destruct Hf as [E|[E|E]]; rewrite E; simpl; rewrite Rabs_mult, (Rabs_right v) by lra; ring.
      * destruct Hf as [E|[E|E]]; rewrite E; simpl; rewrite Rabs_mult, (Rabs_right v1) by lra; ring.
    + intros x [<-|Hx].
      * exists v, v1. split; [left; reflexivity|]. split; [right; left; reflexivity|].
        split; [exact Hb|]. split; [exact He | left; lra].
      * destruct (H4 x Hx) as (w0 & w1 & W0 & W1 & W2). exists w0, w1. split; [right; right; exact W0|].
        split; [right; right; exact W1 | exact W2].
    + intros k [<-|[<-|Hk]].
      * exists s, (t_begin s). split; [left; reflexivity|]. split; [lra|]. rewrite vel_at_begin. exact Hb.
      * exists s, (t_end s). split; [left; reflexivity|]. split; [lra|]. rewrite vel_at_end by lra. exact He.
      * destruct (H5 k Hk) as (x & u & Hx & Hu). exists x, u. split; [right; exact Hx | exact Hu].
Qed.
Lemma wf_one_line b t p t' p' s e : wf_block b t p t' p' s e -> exists d ks, one_line b d ks.
Proof.
  intros H. destruct H as [t p t' v0 v1 d eo dist Hp Hd Hdir Hmd Hpos Hsc Ha Hsp Hne Hm Hen Hcap | t p dt Hp Hdt Hsp Hsegs].
  - destruct (motion_ks _ _ _ _ _ _ _ _ _ _ Hm) as (ks & H1 & H2). exists d, ks. split; [exact (H1 Hne) | exact H2].
  - exists vzero, [0; 0]. unfold one_line. rewrite Hsegs. split; [discriminate|]. split; [constructor; [lra | constructor; [lra | constructor]]|]. split; [|split].
    + intros f [E|[E|E]]; rewrite E; simpl; rewrite Rabs_R0, Rmult_0_l; reflexivity.
    + intros x [<-|[]]. exists 0, 0. simpl. repeat split; auto; vec.
    + intros k Hk. exists (Seg t (t + dt) p p vzero vzero), t. split; [left; reflexivity|]. simpl. split; [lra|].
      change t with (t_begin (Seg t (t + dt) p p vzero vzero)) at 2. rewrite vel_at_begin. simpl.
      destruct Hk as [<-|[<-|[]]]; vec.
Qed.
Lemma amax_scaled ks c m : 0 <= c -> amax ks = Ok m -> amax (map (fun k => k * c) ks) = Ok (m * c).
Proof.
  intros Hc H. destruct (amax_spec _ _ H) as [H1 H2].
  destruct (amax_ok (map (fun k => k * c) ks)) as (m' & Em).
  { destruct ks; [discriminate H | discriminate]. }
  rewrite Em. f_equal. destruct (amax_spec _ _ Em) as [E1 E2].
  apply (max_unique (map (fun k => k * c) ks)); auto.
  - apply in_map_iff. exists m. auto.
  - apply Forall_forall. intros y Hy. apply in_map_iff in Hy. destruct Hy as (k & <- & Hk).
    rewrite Forall_forall in H2. apply Rmult_le_compat_r; [exact Hc | exact (H2 k Hk)].
Qed.
Lemma one_line_max b d ks : one_line b d ks -> exists K x y z, extrusion_block_max_vel b = Ok (x, y, z) /\
  sqrt (x * x + y * y + z * z) = K * norm3 d /\ In K ks /\ Forall (fun k => k <= K) ks /\ 0 <= K.
Proof.
  intros (H1 & H2 & H3 & _). destruct (amax_ok ks H1) as (K & EK). destruct (amax_spec _ _ EK) as [HK1 HK2].
  assert (HK : 0 <= K) by (rewrite Forall_forall in H2; exact (H2 K HK1)).
  exists K, (K * Rabs (vx d)), (K * Rabs (vy d)), (K * Rabs (vz d)).
  split; [|split; [|auto]].
  - unfold extrusion_block_max_vel. rewrite (H3 vx), (H3 vy), (H3 vz) by auto.
    rewrite !(amax_scaled ks _ K) by (apply Rabs_pos || exact EK). reflexivity.
  - rewrite <- (norm3_scale_pos K d HK). unfold norm3. f_equal. simpl.
    assert (Ha : forall x, Rabs x * Rabs x = x * x) by (intros x; unfold Rabs; destruct (Rcase_abs x); ring).
    replace (K * Rabs (vx d) * (K * Rabs (vx d))) with (K * K * (Rabs (vx d) * Rabs (vx d))) by ring.
    replace (K * Rabs (vy d) * (K * Rabs (vy d))) with (K * K * (Rabs (vy d) * Rabs (vy d))) by ring.
    replace (K * Rabs (vz d) * (K * Rabs (vz d))) with (K * K * (Rabs (vz d) * Rabs (vz d))) by ring.
    rewrite !Ha. ring.
Qed.
Lemma one_line_speed b d ks s t K : one_line b d ks -> Forall (fun k => k <= K) ks -> In s (b_segs b) ->
  t_begin s <= t <= t_end s -> norm3 (vel_at s t) <= K * norm3 d.
Proof.
  intros (_ & H2 & _ & H4 & _) HK Hs Ht. destruct (H4 s Hs) as (v0 & v1 & I0 & I1 & E0 & E1 & Hd).
  rewrite Forall_forall in H2, HK. pose proof (H2 _ I0). pose proof (H2 _ I1). pose proof (HK _ I0). pose proof (HK _ I1).
  rewrite vel_at_moves by assumption. rewrite E0, E1. set (u := (t - t_begin s) / (t_end s - t_begin s)).
  assert (E : vadd (vscale v0 d) (vscale u (vsub (vscale v1 d) (vscale v0 d))) = vscale (v0 + u * (v1 - v0)) d).
  { apply vec4_ext; simpl; ring. }
  rewrite E.
  assert (Hk : 0 <= v0 + u * (v1 - v0) <= K).
  { destruct (Rle_lt_or_eq_dec (t_begin s) (t_end s) ltac:(lra)) as [L|L].
    - assert (Hu : 0 <= u <= 1).
      { unfold u. split; [apply Rmult_le_pos; [lra | apply Rlt_le, Rinv_0_lt_compat; lra]|].
        apply (Rmult_le_reg_r (t_end s - t_begin s)); [lra|]. unfold Rdiv. rewrite Rmult_assoc, Rinv_l by lra. lra. }
      split; nra.
    - destruct Hd as [Hd|Hd]; [lra|]. rewrite Hd. replace (v1 + u * (v1 - v1)) with v1 by ring. lra. }
  rewrite norm3_scale_pos by lra. apply Rmult_le_compat_r; [apply norm3_nonneg | lra].
Qed.
(** The list of maxima and its blocks. *)
Lemma block_maxima_ok bl : Forall (fun b => exists d ks, one_line b d ks) bl ->
  exists ms, block_maxima bl = Ok ms /\
    Forall2 (fun b m => (forall s t, In s (b_segs b) -> t_begin s <= t <= t_end s -> norm3 (vel_at s t) <= m) /\
                        (exists s t, In s (b_segs b) /\ t_begin s <= t <= t_end s /\ norm3 (vel_at s t) = m)) bl ms.
Proof.
  induction 1 as [|b bl (d & ks & H) _ (ms & E & F)].
  - exists []. split; [reflexivity | constructor].
  - destruct (one_line_max b d ks H) as (K & x & y & z & E1 & E2 & HK1 & HK2 & HK3).
    exists (K * norm3 d :: ms). cbn [block_maxima]. rewrite E1. simpl. rewrite E. simpl. rewrite E2. split; [reflexivity|].
    constructor; [|exact F]. split.
    + intros s t Hs Ht. exact (one_line_speed b d ks s t K H HK2 Hs Ht).
    + destruct H as (_ & _ & _ & _ & H5). destruct (H5 K HK1) as (s & t & Hs & Ht & Ev). exists s, t.
      split; [exact Hs|]. split; [exact Ht|]. rewrite Ev. apply norm3_scale_pos. exact HK3.
Qed.
Lemma Forall2_in_l {X Y} (P : X -> Y -> Prop) l1 l2 x : Forall2 P l1 l2 -> In x l1 -> exists y, In y l2 /\ P x y.
Proof.
  induction 1 as [|a b l1 l2 Hab _ IH]; intros [].
  - subst. exists b. split; [left; reflexivity | assumption].
  - destruct (IH H) as (y & Hy & HP). exists y. split; [right; exact Hy | exact HP].
Qed.
Lemma Forall2_in_r {X Y} (P : X -> Y -> Prop) l1 l2 y : Forall2 P l1 l2 -> In y l2 -> exists x, In x l1 /\ P x y.
Proof.
  induction 1 as [|a b l1 l2 Hab _ IH]; intros [].
  - subst. exists a. split; [left; reflexivity | assumption].
  - destruct (IH H) as (x & Hx & HP). exists x. split; [right; exact Hx | exact HP].
Qed.
Lemma max_vel_ok s unit k : (exists b, In b (blocklist s) /\ b_extr b = true) -> unit_length (unit_of s unit) k ->
  Forall (fun b => exists d ks, one_line b d ks) (blocklist s) ->
  exists m, extrusion_max_vel s unit = Ok (/ k * m) /\
    (forall b g t, In b (blocklist s) -> b_extr b = true -> In g (b_segs b) -> t_begin g <= t <= t_end g -> norm3 (vel_at g t) <= m) /\
    (exists b g t, In b (blocklist s) /\ b_extr b = true /\ In g (b_segs b) /\ t_begin g <= t <= t_end g /\ norm3 (vel_at g t) = m).
Proof.
  intros (b & Hb & Hbe) Hu Hl. unfold extrusion_max_vel.
  destruct (block_maxima_ok (filter b_extr (blocklist s))) as (ms & Em & F).
  { apply Forall_forall. intros x Hx. apply filter_In in Hx. rewrite Forall_forall in Hl. exact (Hl x (proj1 Hx)). }
  rewrite Em. cbn [bind].
  assert (Hbf : In b (filter b_extr (blocklist s))) by (apply filter_In; auto).
  destruct (amax_ok ms) as (m & Emm).
  { intros ->. inversion F as [E|]. rewrite <- E in Hbf. contradiction. }
  rewrite Emm. cbn [bind]. destruct (unit_scale_own s unit _ k eq_refl Hu) as [-> _]. cbn [bind].
  exists m. split; [reflexivity|]. destruct (amax_spec _ _ Emm) as [H1 H2]. split.
  - intros b' g t Hb' Hbe' Hg Ht. destruct (Forall2_in_l _ _ _ b' F) as (m' & Hm' & [HP _]); [apply filter_In; auto|].
    rewrite Forall_forall in H2. pose proof (HP g t Hg Ht). pose proof (H2 m' Hm'). lra.
  - destruct (Forall2_in_r _ _ _ m F H1) as (b' & Hb' & [_ (g & t & Hg & Ht & E)]). apply filter_In in Hb'.
    exists b', g, t. tauto.
Qed.
Lemma sim_one_line fw s0 states bl wn : valid_program s0 states -> simulate fw (s0 :: states) = Ok (bl, wn) ->
  Forall (fun b => exists d ks, one_line b d ks) bl.
Proof.
  intros Hv Hs. destruct (simulate_fchain _ _ _ _ _ Hv Hs) as (wl & Hf). apply Forall_forall. intros b Hb.
  destruct (fchain_in _ _ _ _ _ _ Hf b Hb) as (t1 & p1 & t2 & p2 & s1 & e1 & Hwf). exact (wf_one_line _ _ _ _ _ _ _ Hwf).
Qed.

(** * Whole simulations *)
Lemma last_default {X} : forall (l : list X) x a b, last (x :: l) a = last (x :: l) b.
Proof. induction l as [|y l IH]; intros x a b; [reflexivity|]. exact (IH y a b). Qed.
Lemma last_cons {X} (x : X) l a : last (x :: l) a = last l x.
Proof. destruct l as [|y l]; [reflexivity|]. exact (last_default l y a x). Qed.
Lemma feeds_flag fw s0 states bl wn b : valid_program s0 states -> simulate fw (s0 :: states) = Ok (bl, wn) ->
  In b bl -> (b_extr b = true <-> feeds b).
Proof.
  intros Hv Hs Hb. destruct (sim_blocks _ _ _ _ _ Hv Hs) as (items & _ & Hmap).
  assert (H : In (b_A b, b_B b, b_extr b) (map (fun b => (b_A b, b_B b, b_extr b)) bl)) by (apply in_map_iff; exists b; auto).
  rewrite Hmap in H. apply in_map_iff in H. destruct H as ([[A B] r] & E & _). injection E as E1 E2 E3.
  rewrite <- E3. unfold feeds, pos_is_extruding. rewrite E1, E2. rewrite Rltb_iff. lra.
Qed.
Lemma plan_items_final : forall states s0 items, plan_items s0 states items ->
  match rev items with [] => k_pos s0 | (_, B, _) :: _ => k_pos B end = final_position s0 states.
Proof.
  unfold final_position. induction states as [|B rest IH]; intros A items Hi;
    inversion Hi as [|? ? ? ? E Ep H1|? ? ? l Hor H1]; subst; [reflexivity| |]; rewrite last_cons, <- (IH _ _ H1).
  - destruct (rev items) as [|[[? ?] ?] ?]; [symmetry; exact E | reflexivity].
  - simpl. destruct (rev l) as [|[[? ?] ?] ?]; reflexivity.
Qed.
Lemma unpack_snoc bl b : unpack_blocklist (bl ++ [b]) = unpack_blocklist bl ++ b_segs b.
Proof. unfold unpack_blocklist. rewrite flat_map_app. simpl. rewrite app_nil_r. reflexivity. Qed.
Section Whole.
Variables (fw : firmware) (s0 : kstate) (states : list kstate) (bl : list block) (wn : bool).
Hypothesis Hv : valid_program s0 states.
Hypothesis Hs : simulate fw (s0 :: states) = Ok (bl, wn).
Lemma sim_final l : no_moving_pause s0 states -> last_seg (unpack_blocklist bl) = Ok l ->
  pos_end l = final_position s0 states.
Proof.
  intros Hn Hl. destruct (sim_blocks _ _ _ _ _ Hv Hs) as (items & Hi & Hmap). rewrite <- (plan_items_final _ _ _ Hi).
  destruct (rev bl) as [|b r] eqn:Er.
  - apply (f_equal (@rev block)) in Er. rewrite rev_involutive in Er. subst bl. discriminate Hl.
  - assert (Eb : bl = rev r ++ [b]) by (apply (f_equal (@rev block)) in Er; rewrite rev_involutive in Er; exact Er).
    rewrite Eb in Hmap. rewrite map_app in Hmap. simpl in Hmap.
    destruct (rev items) as [|[[A B] re] ri] eqn:Ei.
    { apply (f_equal (@rev item)) in Ei. rewrite rev_involutive in Ei. subst items. symmetry in Hmap. apply app_cons_not_nil in Hmap. contradiction. }
    assert (Eit : items = rev ri ++ [(A, B, re)]) by (apply (f_equal (@rev item)) in Ei; rewrite rev_involutive in Ei; exact Ei).
    rewrite Eit, map_app in Hmap. simpl in Hmap. apply app_inj_tail in Hmap. destruct Hmap as [_ Hmap]. injection Hmap as _ E2 _.
    rewrite <- E2.
    assert (Hb : In b bl) by (rewrite Eb; apply in_or_app; right; left; reflexivity).
    destruct (sim_positions _ _ _ _ _ Hv Hs Hn b Hb) as [_ H].
    destruct (simulate_fchain _ _ _ _ _ Hv Hs) as (wl & Hf).
    destruct (fchain_in _ _ _ _ _ _ Hf b Hb) as (? & ? & ? & ? & ? & ? & Hwf). pose proof (wf_nonempty _ _ _ _ _ _ _ Hwf) as Hne.
    rewrite Eb, unpack_snoc, last_seg_app in Hl by exact Hne.
    unfold last_seg in Hl. unfold ends in H. destruct (rev (b_segs b)) as [|lx ly]; [discriminate Hl|].
    injection Hl as ->. exact H.
Qed.
Lemma sim_begins t : 0 <= t -> starts (fun s => t_begin s <= t) (unpack_blocklist bl).
Proof.
  intros Ht. pose proof (sim_starts _ _ _ _ _ Hv Hs) as H. destruct (unpack_blocklist bl); simpl in *; [exact I | lra].
Qed.
Lemma sim_speed_joined : speed_joined (1 / 1000000000000) (unpack_blocklist bl).
Proof. exact (sim_speeds_match _ _ _ _ _ Hv Hs). Qed.
End Whole.

(** * Extrusion width *)
Lemma width_of_values s t h d v p i k : 0 < k -> get_scaling_factor s None = Ok (/ k) -> 0 < h ->
  get_values s t None = (Ok (vscale (/ k) v, vscale (/ k) p), i) ->
  get_width s t h d = (Ok (if Rltb 0 (norm3 v) then ve v * (PI * (d * d) / 4) / (h * norm3 v) else 0), i).
Proof.
  intros Hk _ Hh E. unfold get_width. rewrite E. cbn [bind fst].
  pose proof (Rinv_0_lt_compat _ Hk) as Hi. rewrite norm3_scale_pos by lra. pose proof (norm3_nonneg v) as Hn.
  destruct (Rltb_spec 0 (norm3 v)) as [L|L].
  - rewrite (Rltb_true 0 (/ k * norm3 v)) by (apply Rmult_lt_0_compat; lra).
    destruct (Reqb_spec h 0) as [E0|E0]; [lra|]. f_equal. f_equal. simpl. field. repeat split; lra.
  - rewrite (Rltb_false 0 (/ k * norm3 v)) by nra. reflexivity.
Qed.
Lemma width_unit_free bl li t h d u u' k k' : unit_length u k -> unit_length u' k' ->
  get_width (Sim bl u li) t h d = get_width (Sim bl u' li) t h d.
Proof.
  intros Hu Hu'. unfold get_width, get_values. cbn [blocklist last_index].
  destruct (find_current_segment (unpack_blocklist bl) t li) as [[g i| |]|e]; try reflexivity.
  destruct (get_velocity g t) as [v|]; [|reflexivity]. cbn [bind]. destruct (get_position g t) as [p|]; [|reflexivity]. cbn [bind].
  destruct (unit_scale_own (Sim bl u li) None u k eq_refl Hu) as [-> Hk].
  destruct (unit_scale_own (Sim bl u' li) None u' k' eq_refl Hu') as [-> Hk']. cbn [bind fst].
  pose proof (Rinv_0_lt_compat _ Hk) as Hi. pose proof (Rinv_0_lt_compat _ Hk') as Hi'.
  rewrite !norm3_scale_pos by lra. pose proof (norm3_nonneg v) as Hn.
  destruct (Rtotal_order 0 (norm3 v)) as [L|[L|L]]; [| |lra].
  - rewrite (Rltb_true 0 (/ k * norm3 v)), (Rltb_true 0 (/ k' * norm3 v)) by (apply Rmult_lt_0_compat; lra).
    destruct (Reqb_spec h 0) as [E0|E0]; [reflexivity|]. f_equal. f_equal. simpl. field. repeat split; lra.
  - rewrite <- L, !Rmult_0_r. rewrite (Rltb_false 0 0) by lra. reflexivity.
Qed.
