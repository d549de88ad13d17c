(** Properties C40-C42, C44-C46, C64: reading values from a simulation.
    Vocabulary: SpecKin.v, SpecQuery.v.  A fresh simulation of the blocks [bl]
    with output unit [u] is [Sim bl u None]; [after_queries s hist] is [s]
    after the queries [hist] (times and units, whether they fail or not). *)
From Coq Require Import Lra Psatz.
From Verif Require Import Py Vec Segment Junction Planner Query RealFacts SpecKin SpecQuery MoveProofs JunctionProofs
     CorrectProofs SegProofs PlannerProofs TrajProofs PlanFacts PlanRefute PropertiesPlan QueryProofs QueryFacts QueryRefute.
Open Scope R_scope.

(** The example program of PropertiesPlan.v takes time and feeds material. *)
Example ex_queries fw : exists bl T b, simulate fw (ex0 :: ex_states) = Ok (bl, false) /\ print_time bl T /\ 0 < T /\
  In b bl /\ feeds b.
Proof.
  destruct (ex_simulates fw) as (bl & Hs). exists bl.
  destruct (sim_blocks _ _ _ _ _ ex_valid Hs) as (items & Hi & Hmap). unfold ex_states in Hi.
  inversion Hi as [|? ? ? ? E Ep H1|? ? ? l Hor H1]; subst.
  { exfalso. apply (f_equal vx) in E. simpl in E. lra. }
  destruct bl as [|b bl]; [discriminate Hmap|]. injection Hmap as E1 E2 _ _.
  destruct (simulate_fchain _ _ _ _ _ ex_valid Hs) as (wl & Hf).
  destruct (fchain_in _ _ _ _ _ _ Hf b (or_introl eq_refl)) as (? & ? & ? & ? & ? & ? & Hwf).
  pose proof (wf_nonempty _ _ _ _ _ _ _ Hwf) as Hne.
  destruct (b_segs b) as [|s segs] eqn:Es; [contradiction Hne; reflexivity|].
  destruct (print_time_exists (b :: bl)) as (T & HT); [unfold unpack_blocklist; simpl; rewrite Es; discriminate|].
  exists T, b. split; [exact Hs|]. split; [exact HT|]. split; [|split; [left; reflexivity|]].
  - destruct (print_time_last _ _ HT) as (z & Hl & ->).
    pose proof (sim_cpath _ _ _ _ _ ex_valid Hs) as Hp. pose proof (sim_starts _ _ _ _ _ ex_valid Hs) as Hst.
    assert (Hin : In s (unpack_blocklist (b :: bl))) by (unfold unpack_blocklist; simpl; rewrite Es; left; reflexivity).
    pose proof (cpath_last_end _ _ Hp Hl s Hin).
    assert (Hp1 : k_pause (b_B b) = None) by (rewrite E2; reflexivity).
    destruct (sim_limits _ _ _ _ _ ex_valid Hs b s (or_introl eq_refl)) as ((Ht & _) & _); [rewrite Es; left; reflexivity | exact Hp1|].
    unfold unpack_blocklist in Hst. simpl in Hst. rewrite Es in Hst. simpl in Hst. lra.
  - unfold feeds. rewrite E1, E2. simpl. lra.
Qed.
Example ex_unit : unit_length (unit_of (Sim [] (S_ "SImm") None) (Some (S_ "inch"))) (254 / 10).
Proof. constructor. Qed.

Section Simulation.
Variables (fw : firmware) (s0 : kstate) (states : list kstate) (bl : list block) (wn : bool).
Hypothesis Hv : valid_program s0 states.
Hypothesis Hs : simulate fw (s0 :: states) = Ok (bl, wn).
Variable (u : str).

(** C40: during the whole print, after any queries, get_values returns the
    velocity and position of the trajectory, in the unit asked for. *)
Theorem C40_values_on_trajectory hist T t unit k :
  print_time bl T -> 0 <= t < T -> unit_length (match unit with Some w => w | None => u end) k ->
  exists v p vmm pmm, fst (get_values (after_queries (Sim bl u None) hist) t unit) = Ok (v, p) /\
    on_path (unpack_blocklist bl) t vmm pmm /\ vscale k v = vmm /\ vscale k p = pmm.
Proof.
  intros HT Ht Hu. destruct (print_time_last _ _ HT) as (l & Hl & ->).
  destruct (after_queries_blocks hist (Sim bl u None)) as [Eb Eu].
  pose proof (sim_cpath _ _ _ _ _ Hv Hs) as Hp.
  destruct (get_values_ok (after_queries (Sim bl u None) hist) t unit k l) as (g & i & E & Hg & Hr).
  - rewrite Eb. exact Hp.
  - rewrite Eb. exact Hl.
  - rewrite Eb. apply (sim_begins _ _ _ _ _ Hv Hs). lra.
  - lra.
  - unfold unit_of. rewrite Eu. exact Hu.
  - rewrite E, Eb in *. exists (vscale (/ k) (vel_at g t)), (vscale (/ k) (pos_at g t)), (vel_at g t), (pos_at g t).
    split; [reflexivity|]. split.
    + exists g. split; [eapply nth_error_In; exact Hg | apply at_moves; exact Hr].
    + assert (Hk : k <> 0) by (destruct Hu; lra).
      split; [generalize (vel_at g t) | generalize (pos_at g t)]; intros q; apply vec4_ext; simpl; field; exact Hk.
Qed.

(** C41, what holds: two histories give the same position, the same speed up
    to the tolerance of the planner, and away from the times at which segments
    meet the same velocity.  Missing: the same velocity at all times (false,
    see below). *)
Theorem C41_no_memory_partial hist hist' t unit k v p v' p' :
  unit_length (match unit with Some w => w | None => u end) k ->
  fst (get_values (after_queries (Sim bl u None) hist) t unit) = Ok (v, p) ->
  fst (get_values (after_queries (Sim bl u None) hist') t unit) = Ok (v', p') ->
  p = p' /\ k * Rabs (norm3 v - norm3 v') <= 1 / 1000000000000 /\
  (not_a_joint (unpack_blocklist bl) t -> v = v').
Proof.
  intros Hu G G'. set (q := after_queries (Sim bl u None) hist) in *. set (q' := after_queries (Sim bl u None) hist') in *.
  assert (Eb : blocklist q = bl /\ output_unit_system q = u) by apply (after_queries_blocks hist (Sim bl u None)).
  assert (Eb' : blocklist q' = bl /\ output_unit_system q' = u) by apply (after_queries_blocks hist' (Sim bl u None)).
  destruct Eb as [Eb Eu], Eb' as [Eb' Eu']. rewrite <- Eb.
  destruct (get_values q t unit) as [r j] eqn:E. destruct (get_values q' t unit) as [r' j'] eqn:E'. simpl in G, G'. subst r r'.
  apply (get_values_agree (1 / 1000000000000) q q' t unit v p j v' p' j' k); try assumption; try congruence; try lra.
  - rewrite Eb. apply (sim_cpath _ _ _ _ _ Hv Hs).
  - rewrite Eb. apply (sim_rests _ _ _ _ _ Hv Hs).
  - rewrite Eb. apply (sim_speed_joined _ _ _ _ _ Hv Hs).
  - unfold unit_of. rewrite Eu. exact Hu.
Qed.

(** C42, what holds: the end can be queried if the last query before was
    inside the print, and gives the position of the last state.  Missing: the
    same for other histories (false, see below). *)
Theorem C42_end_after_query_partial hist t0 unit0 T unit k :
  no_moving_pause s0 states -> print_time bl T -> 0 <= t0 < T ->
  unit_length (match unit with Some w => w | None => u end) k ->
  exists v p, fst (get_values (after_queries (Sim bl u None) (hist ++ [(t0, unit0)])) T unit) = Ok (v, p) /\
    vscale k p = final_position s0 states.
Proof.
  intros Hn HT Ht Hu. destruct (print_time_last _ _ HT) as (l & Hl & ->).
  set (q := after_queries (Sim bl u None) hist).
  assert (Eq : after_queries (Sim bl u None) (hist ++ [(t0, unit0)]) = set_index q (snd (get_values q t0 unit0))).
  { unfold after_queries. rewrite fold_left_app. reflexivity. }
  assert (Eb : blocklist q = bl /\ output_unit_system q = u) by apply (after_queries_blocks hist (Sim bl u None)).
  destruct Eb as [Eb Eu]. pose proof (sim_cpath _ _ _ _ _ Hv Hs) as Hp.
  destruct (find_ok (unpack_blocklist bl) l t0 (last_index q) Hp Hl) as (g0 & i0 & F & N0 & R0).
  { apply (sim_begins _ _ _ _ _ Hv Hs). lra. } { lra. }
  assert (Ei : snd (get_values q t0 unit0) = Some i0) by (unfold get_values; rewrite Eb, F; reflexivity).
  rewrite Eq, Ei.
  destruct (get_values_ok_end (set_index q (Some i0)) (t_end l) unit k l i0 g0) as (g & i & E & Hg & Hr); simpl.
  - rewrite Eb. exact Hp.
  - rewrite Eb. exact Hl.
  - reflexivity.
  - rewrite Eb. exact N0.
  - lra.
  - unfold unit_of. simpl. rewrite Eu. exact Hu.
  - rewrite E. eexists. eexists. split; [reflexivity|].
    rewrite <- (sim_final _ _ _ _ _ Hv Hs l Hn Hl). simpl in Hg. rewrite Eb in Hg.
    assert (Hli : In l (unpack_blocklist bl)) by (apply last_seg_in; exact Hl).
    pose proof (cpath_in _ l Hp Hli) as Hcl. rewrite <- (pos_at_end l Hcl).
    destruct (In_nth_error _ _ Hli) as (j & Hj).
    rewrite (same_position (unpack_blocklist bl) Hp i j g l (t_end l) Hg Hj Hr) by (destruct Hcl; lra).
    assert (Hk : k <> 0) by (destruct Hu; lra).
    generalize (pos_at l (t_end l)). intros q'. apply vec4_ext; simpl; field; exact Hk.
Qed.

(** C44: the width is zero while standing still, and otherwise the volume of
    the laid material is the volume of the fed filament. *)
Theorem C44_volume_conserved hist T t h d k :
  print_time bl T -> 0 <= t < T -> unit_length u k -> 0 < h ->
  exists w v p, fst (get_width (after_queries (Sim bl u None) hist) t h d) = Ok w /\
    on_path (unpack_blocklist bl) t v p /\
    (norm3 v = 0 -> w = 0) /\
    (norm3 v <> 0 -> w * h * norm3 v = ve v * (PI * (d / 2) ^ 2)).
Proof.
  intros HT Ht Hu Hh. destruct (print_time_last _ _ HT) as (l & Hl & ->).
  destruct (after_queries_blocks hist (Sim bl u None)) as [Eb Eu].
  pose proof (sim_cpath _ _ _ _ _ Hv Hs) as Hp. set (q := after_queries (Sim bl u None) hist) in *.
  assert (Huq : unit_length (unit_of q None) k) by (unfold unit_of; rewrite Eu; exact Hu).
  destruct (get_values_ok q t None k l) as (g & i & E & Hg & Hr).
  - rewrite Eb. exact Hp.
  - rewrite Eb. exact Hl.
  - rewrite Eb. apply (sim_begins _ _ _ _ _ Hv Hs). lra.
  - lra.
  - exact Huq.
  - destruct (unit_scale_own q None _ k eq_refl Huq) as [Hf Hk].
    rewrite (width_of_values q t h d _ _ _ k Hk Hf Hh E). cbn [fst]. rewrite Eb in Hg.
    eexists. exists (vel_at g t), (pos_at g t). split; [reflexivity|]. split.
    + exists g. split; [eapply nth_error_In; exact Hg | apply at_moves; exact Hr].
    + pose proof (norm3_nonneg (vel_at g t)) as Hnn. split; intros Hz.
      * rewrite Hz. rewrite (Rltb_false 0 0) by lra. reflexivity.
      * rewrite (Rltb_true 0 (norm3 (vel_at g t))) by lra. field. split; lra.
Qed.

(** C45: at every time at which material is fed the position lies in the
    returned box, and every face of the box holds an end point of a move that
    feeds. *)
Theorem C45_extent unit k :
  no_moving_pause s0 states -> (exists b, In b bl /\ feeds b) ->
  unit_length (match unit with Some w => w | None => u end) k ->
  exists x0 y0 z0 x1 y1 z1, extrusion_extent (Sim bl u None) unit = Ok ((x0, y0, z0), (x1, y1, z1)) /\
  (forall t v p, feeding_at bl t v p ->
     k * x0 <= vx p <= k * x1 /\ k * y0 <= vy p <= k * y1 /\ k * z0 <= vz p <= k * z1) /\
  (exists p, feed_end_point bl p /\ vx p = k * x0) /\ (exists p, feed_end_point bl p /\ vx p = k * x1) /\
  (exists p, feed_end_point bl p /\ vy p = k * y0) /\ (exists p, feed_end_point bl p /\ vy p = k * y1) /\
  (exists p, feed_end_point bl p /\ vz p = k * z0) /\ (exists p, feed_end_point bl p /\ vz p = k * z1).
Proof.
  intros Hn (b0 & Hb0 & Hf0) Hu.
  destruct (extent_ok (Sim bl u None) unit k) as (x0 & y0 & z0 & x1 & y1 & z1 & E & H1 & H2 & H3 & H4 & H5 & H6 & H7).
  { exists b0. split; [exact Hb0|]. apply (feeds_flag _ _ _ _ _ b0 Hv Hs Hb0). exact Hf0. }
  { exact Hu. }
  assert (Hk : 0 < k) by (destruct Hu; lra).
  assert (Ek : forall x, k * (/ k * x) = x) by (intros x; field; lra).
  do 6 eexists. split; [exact E|]. rewrite !Ek. cbn [blocklist] in *. split.
  - intros t v p (b & s & Hb & Hfb & Hin & Hm). destruct (moves_at _ _ _ _ Hm) as [_ ->]. destruct Hm as [Hr _].
    destruct (sim_block_line _ _ _ _ _ b s t Hv Hn Hs Hb Hin Hr) as (x & Hx & ->).
    apply (feeds_flag _ _ _ _ _ b Hv Hs Hb) in Hfb. destruct (extruding_points_in _ _ Hb Hfb) as [PA PB].
    destruct (H1 _ PA) as (A1 & A2 & A3). destruct (H1 _ PB) as (B1 & B2 & B3).
    simpl. split; [|split]; apply between_coord; assumption.
  - assert (Hpt : forall p, In p (extruding_points bl) -> feed_end_point bl p).
    { intros p Hp. destruct (extruding_points_inv _ _ Hp) as (b & Hb & He & Hor).
      exists b. split; [exact Hb|]. split; [apply (feeds_flag _ _ _ _ _ b Hv Hs Hb); exact He | exact Hor]. }
    repeat split;
      [destruct H2 as (p & Hp & Ep) | destruct H5 as (p & Hp & Ep) | destruct H3 as (p & Hp & Ep) |
       destruct H6 as (p & Hp & Ep) | destruct H4 as (p & Hp & Ep) | destruct H7 as (p & Hp & Ep)];
      exists p; auto.
Qed.

(** C45, if no move feeds: an error, not an empty box. *)
Theorem C45_no_extrusion unit : (forall b, In b bl -> ~ feeds b) ->
  extrusion_extent (Sim bl u None) unit = Err ValueError.
Proof.
  intros H. unfold extrusion_extent. cbn [blocklist]. rewrite extruding_points_nil; [reflexivity|].
  intros b Hb. destruct (b_extr b) eqn:E; [|reflexivity]. exfalso. apply (H b Hb).
  apply (feeds_flag _ _ _ _ _ b Hv Hs Hb). exact E.
Qed.

(** C46: the returned value bounds the travel speed at all times at which
    material is fed, and is reached. *)
Theorem C46_max_vel unit k :
  (exists b, In b bl /\ feeds b) -> unit_length (match unit with Some w => w | None => u end) k ->
  exists m, extrusion_max_vel (Sim bl u None) unit = Ok m /\
    (forall t v p, feeding_at bl t v p -> norm3 v <= k * m) /\
    (exists t v p, feeding_at bl t v p /\ norm3 v = k * m).
Proof.
  intros (b0 & Hb0 & Hf0) Hu.
  destruct (max_vel_ok (Sim bl u None) unit k) as (m & E & H1 & (b & g & t & Hb & He & Hg & Ht & Em)).
  { exists b0. split; [exact Hb0|]. apply (feeds_flag _ _ _ _ _ b0 Hv Hs Hb0). exact Hf0. }
  { exact Hu. }
  { exact (sim_one_line _ _ _ _ _ Hv Hs). }
  assert (Hk : 0 < k) by (destruct Hu; lra). exists (/ k * m). split; [exact E|].
  replace (k * (/ k * m)) with m by (field; lra). cbn [blocklist] in *. split.
  - intros t' v p (b' & s & Hb' & Hf' & Hin & Hm). destruct (moves_at _ _ _ _ Hm) as [-> _]. destruct Hm as [Hr _].
    apply (H1 b' s t' Hb'); try assumption. apply (feeds_flag _ _ _ _ _ b' Hv Hs Hb'). exact Hf'.
  - exists t, (vel_at g t), (pos_at g t). split; [|exact Em]. exists b, g.
    split; [exact Hb|]. split; [apply (feeds_flag _ _ _ _ _ b Hv Hs Hb); exact He|]. split; [exact Hg|]. apply at_moves. exact Ht.
Qed.

(** C64: the velocity plot draws values of the trajectory at its times, both
    at the segment ends and at evenly spaced times, and never fails. *)
Theorem C64_plot_at_segment_ends T : print_time bl T ->
  exists vals, plot_vel_constrained bl = Ok vals /\
    Forall2 (fun t vp => on_path (unpack_blocklist bl) t (fst vp) (snd vp))
            (0 :: map t_end (unpack_blocklist bl)) vals.
Proof.
  intros HT. destruct (print_time_last _ _ HT) as (l & Hl & ->). pose proof (sim_cpath _ _ _ _ _ Hv Hs) as Hp.
  pose proof (sim_starts _ _ _ _ _ Hv Hs) as Hst. unfold plot_vel_constrained, constrained_times.
  destruct (unpack_blocklist bl) as [|x path] eqn:Ep; [discriminate Hl|]. destruct Hst as [Hx0 _].
  apply (plot_values_ok (x :: path) l Hp Hl) with (x := x).
  - reflexivity.
  - simpl. lra.
  - split.
    + simpl. pose proof (cpath_in _ x Hp (or_introl eq_refl)) as [? _]. lra.
    + clear -Hp. revert x Hp. induction path as [|y path IH]; intros x Hp; [split; exact I|].
      split; [|apply IH; exact (proj2 (cpath_cons _ _ Hp))].
      simpl. destruct (cpath_next _ _ _ Hp) as [E _]. apply cpath_cons in Hp. destruct Hp as [_ Hp].
      pose proof (cpath_in _ y Hp (or_introl eq_refl)) as [? _]. lra.
  - constructor.
    + pose proof (cpath_last_end _ l Hp Hl x (or_introl eq_refl)). pose proof (cpath_in _ x Hp (or_introl eq_refl)) as [? _]. lra.
    + apply Forall_forall. intros t Ht. apply in_map_iff in Ht. destruct Ht as (s & <- & Hin). exact (cpath_last_end _ l Hp Hl s Hin).
Qed.
Theorem C64_plot_at_time_steps T n : print_time bl T -> (0 < n)%nat ->
  exists vals, plot_vel_steps bl n = Ok vals /\
    Forall2 (fun t vp => on_path (unpack_blocklist bl) t (fst vp) (snd vp))
            (map (fun i => INR i * T / INR n) (seq 0 n)) vals.
Proof.
  intros HT Hn. destruct (print_time_last _ _ HT) as (l & Hl & ->). pose proof (sim_cpath _ _ _ _ _ Hv Hs) as Hp.
  pose proof (sim_starts _ _ _ _ _ Hv Hs) as Hst. unfold plot_vel_steps.
  destruct (rev bl) as [|b r] eqn:Er.
  { apply (f_equal (@rev block)) in Er. rewrite rev_involutive in Er. subst bl. discriminate Hl. }
  assert (Ebl : bl = rev r ++ [b]) by (apply (f_equal (@rev block)) in Er; rewrite rev_involutive in Er; exact Er).
  destruct (simulate_fchain _ _ _ _ _ Hv Hs) as (wl & Hf).
  assert (Hb : In b bl) by (rewrite Ebl; apply in_or_app; right; left; reflexivity).
  destruct (fchain_in _ _ _ _ _ _ Hf b Hb) as (? & ? & ? & ? & ? & ? & Hwf). pose proof (wf_nonempty _ _ _ _ _ _ _ Hwf) as Hne.
  assert (Elb : last_seg (b_segs b) = Ok l) by (rewrite Ebl, unpack_snoc, last_seg_app in Hl by exact Hne; exact Hl).
  rewrite Elb. cbn [bind].
  assert (Hin : 0 < INR n) by (apply lt_0_INR; exact Hn).
  assert (El : linspace (t_end l) n = map (fun i => INR i * t_end l / INR n) (seq 0 n)).
  { unfold linspace. apply map_ext. intros i. field. lra. }
  rewrite El. clear El.
  destruct (unpack_blocklist bl) as [|y path] eqn:Ep; [discriminate Hl|]. destruct Hst as [Hx0 _].
  assert (HT0 : 0 <= t_end l).
  { pose proof (cpath_last_end _ l Hp Hl y (or_introl eq_refl)). pose proof (cpath_in _ y Hp (or_introl eq_refl)) as [? _]. lra. }
  assert (Hstep : forall a b, (a <= b)%nat -> INR a * t_end l / INR n <= INR b * t_end l / INR n).
  { intros a b' Hab. unfold Rdiv. apply Rmult_le_compat_r; [apply Rlt_le, Rinv_0_lt_compat; exact Hin|].
    apply Rmult_le_compat_r; [exact HT0 | apply le_INR; exact Hab]. }
  apply (plot_values_ok (y :: path) l Hp Hl) with (x := y).
  - reflexivity.
  - destruct n as [|n]; [exact I|]. simpl. rewrite Hx0. unfold Rdiv. rewrite !Rmult_0_l. lra.
  - generalize 0%nat. generalize n at 2. intros m. induction m as [|m IH]; intros a; [exact I|]. cbn [seq map].
    split; [|apply IH]. destruct m; [exact I|]. cbn [seq map]. apply Hstep. lia.
  - apply Forall_forall. intros t Ht. apply in_map_iff in Ht. destruct Ht as (i & <- & Hi). apply in_seq in Hi.
    replace (t_end l) with (INR n * t_end l / INR n) at 2 by (field; lra). apply Hstep. lia.
Qed.

(** C42, in general false: the end of the print cannot be queried on a fresh
    simulation, for any trajectory at all; and a query behind the end makes
    the simulation forget again. *)
Theorem C42_fresh_end_fails T unit : print_time bl T ->
  fst (get_values (Sim bl u None) T unit) = Err TypeError.
Proof.
  intros HT. destruct (print_time_last _ _ HT) as (l & Hl & ->).
  rewrite (fresh_end_fails bl u l unit (sim_cpath _ _ _ _ _ Hv Hs) Hl). reflexivity.
Qed.
Theorem C42_beyond_end_fails hist T t unit unit' : print_time bl T -> T < t ->
  fst (get_values (after_queries (Sim bl u None) hist) t unit) = Err AttributeError /\
  fst (get_values (after_queries (Sim bl u None) (hist ++ [(t, unit)])) T unit') = Err TypeError.
Proof.
  intros HT Ht. destruct (print_time_last _ _ HT) as (l & Hl & ->).
  destruct (after_queries_blocks hist (Sim bl u None)) as [Eb Eu].
  set (q := after_queries (Sim bl u None) hist) in *. destruct q as [bq uq iq] eqn:Eq. simpl in Eb, Eu. subst bq uq.
  split.
  - rewrite (beyond_end_fails bl u iq l t unit Hl Ht). reflexivity.
  - unfold after_queries. rewrite fold_left_app. simpl. fold (after_queries (Sim bl u None) hist). fold q. rewrite Eq.
    rewrite (beyond_end_fails bl u iq l t unit Hl Ht). unfold set_index. simpl.
    rewrite (fresh_end_fails bl u l unit' (sim_cpath _ _ _ _ _ Hv Hs) Hl). reflexivity.
Qed.

(** C42, exactly: the end can be queried if and only if a query within the
    print is remembered, that is, came after every query for a time after the
    end.  Queries for times before the start fail, and change nothing. *)
Lemma never_negative s : In s (unpack_blocklist bl) -> 0 <= t_begin s.
Proof.
  intros I. pose proof (sim_begins _ _ _ _ _ Hv Hs 0 ltac:(lra)) as B0. pose proof (sim_starts _ _ _ _ _ Hv Hs) as B. pose proof (sim_cpath _ _ _ _ _ Hv Hs) as Hp.
  destruct (unpack_blocklist bl) as [|a path]; [contradiction|]. destruct I as [<-|I]; [simpl in B; lra|]. pose proof (cpath_after _ _ Hp s I).
  pose proof (cpath_in _ _ Hp (or_introl eq_refl)) as [C _]. simpl in B. lra.
Qed.
Lemma before_start q t unit : blocklist q = bl -> (exists T, print_time bl T) -> t < 0 -> get_values q t unit = (Err TypeError, last_index q).
Proof.
  intros Eb (T & HT) Ht. destruct (print_time_last _ _ HT) as (l & Hl & ->). unfold get_values, find_current_segment. rewrite Eb, Hl. cbn [bind].
  pose proof (never_negative l (last_seg_in _ _ Hl)) as L0. pose proof (cpath_in _ _ (sim_cpath _ _ _ _ _ Hv Hs) (last_seg_in _ _ Hl)) as [C _]. rewrite Rltb_false by lra.
  assert (A : search_anew (unpack_blocklist bl) t (last_index q) = true).
  { unfold search_anew. destruct (last_index q) as [i|]; [|reflexivity]. destruct (nth_error _ i) as [x|] eqn:E; [|reflexivity]. apply nth_error_In, never_negative in E. apply Rltb_true. lra. }
  rewrite A, scan_fresh_before; [reflexivity|]. intros s I. apply never_negative in I. lra.
Qed.
Lemma remembered T hist : print_time bl T ->
  (remembers T hist /\ exists i x, last_index (after_queries (Sim bl u None) hist) = Some i /\ nth_error (unpack_blocklist bl) i = Some x) \/
  (~ remembers T hist /\ last_index (after_queries (Sim bl u None) hist) = None).
Proof.
  intros HT. destruct (print_time_last _ _ HT) as (l & Hl & ET). pose proof (sim_cpath _ _ _ _ _ Hv Hs) as Hp.
  induction hist as [|[t w] hist IH] using rev_ind; [right; split; [intros (h1 & q & h2 & E & _); destruct h1; discriminate E|reflexivity]|].
  assert (E1 : after_queries (Sim bl u None) (hist ++ [(t, w)]) = set_index (after_queries (Sim bl u None) hist) (snd (get_values (after_queries (Sim bl u None) hist) t w))) by (unfold after_queries; rewrite fold_left_app; reflexivity).
  rewrite E1. clear E1. cbn [last_index set_index]. destruct (after_queries_blocks hist (Sim bl u None)) as [Eb Eu]. set (q := after_queries (Sim bl u None) hist) in *. cbn [blocklist output_unit_system] in Eb, Eu.
  assert (Keep : t <= T -> remembers T hist -> remembers T (hist ++ [(t, w)])).
  { intros Lt (h1 & r & h2 & -> & R1 & R2). exists h1, r, (h2 ++ [(t, w)]). split; [rewrite <- app_assoc; reflexivity|]. split; [exact R1|]. apply Forall_app. split; [exact R2|]. constructor; [exact Lt|constructor]. }
  assert (Drop : ~ (0 <= t < T) -> remembers T (hist ++ [(t, w)]) -> t <= T /\ remembers T hist).
  { intros Nt (h1 & r & h2 & E & R1 & R2). destruct h2 as [|x h2 _] using rev_ind.
    - apply app_inj_tail in E as [_ <-]. cbn in R1. contradiction.
    - rewrite app_comm_cons, app_assoc in E. apply app_inj_tail in E as [-> <-]. apply Forall_app in R2 as [R2 R3]. inversion_clear R3. split; [assumption|]. exists h1, r, h2. auto. }
  assert (Here : 0 <= t < T -> remembers T (hist ++ [(t, w)])) by (intros H; exists hist, (t, w), []; split; [reflexivity|split; [exact H|constructor]]).
  destruct (Rlt_le_dec T t) as [After|Le].
  { right. split; [intros R; apply Drop in R; [lra|lra]|]. destruct q as [bq uq iq]. cbn in Eb, Eu. subst bq uq. rewrite (beyond_end_fails bl u iq l t w Hl) by lra. reflexivity. }
  destruct (Rlt_le_dec t 0) as [Neg|Nn].
  { rewrite (before_start q t w Eb (ex_intro _ T HT) Neg). cbn [snd]. destruct IH as [[R I]|[N I]]; [left; auto|right]. split; [|exact I]. intros R. apply N. apply Drop in R; [apply R|lra]. }
  destruct (Rlt_le_dec t T) as [Lt|Ge].
  { left. split; [apply Here; lra|]. destruct (find_ok (unpack_blocklist bl) l t (last_index q) Hp Hl (sim_begins _ _ _ _ _ Hv Hs t Nn) ltac:(lra)) as (g & i & F & N & _).
    exists i, g. split; [unfold get_values; rewrite Eb, F; reflexivity|exact N]. }
  assert (Et : t = t_end l) by lra. destruct IH as [[R (i & x & I & N)]|[N I]].
  - left. split; [apply Keep; assumption|]. assert (Ix : In x (unpack_blocklist bl)) by (eapply nth_error_In; exact N). pose proof (cpath_last_end _ l Hp Hl x Ix). pose proof (cpath_in _ _ Hp Ix) as [C _].
    destruct (find_ok_end (unpack_blocklist bl) l t i x Hp Hl N ltac:(lra)) as (g & j & F & Nj & _). exists j, g. split; [unfold get_values; rewrite Eb, I, F; reflexivity|exact Nj].
  - right. split; [intros R; apply N; apply Drop in R; [apply R|lra]|]. destruct q as [bq uq iq]. cbn in Eb, Eu, I. subst bq uq iq t. rewrite (fresh_end_fails bl u l w Hp Hl). reflexivity.
Qed.
Theorem C42_end_exactly hist T unit k : print_time bl T -> unit_length (match unit with Some w => w | None => u end) k ->
  (remembers T hist <-> exists v p, fst (get_values (after_queries (Sim bl u None) hist) T unit) = Ok (v, p)) /\
  (~ remembers T hist -> fst (get_values (after_queries (Sim bl u None) hist) T unit) = Err TypeError).
Proof.
  intros HT Hu. destruct (print_time_last _ _ HT) as (l & Hl & ET). pose proof (sim_cpath _ _ _ _ _ Hv Hs) as Hp.
  destruct (after_queries_blocks hist (Sim bl u None)) as [Eb Eu]. pose proof (remembered T hist HT) as Rm. set (q := after_queries (Sim bl u None) hist) in *. cbn [blocklist output_unit_system] in Eb, Eu.
  destruct Rm as [[R (i & x & I & N)]|[N I]].
  - assert (Ix : In x (unpack_blocklist bl)) by (eapply nth_error_In; exact N). pose proof (cpath_last_end _ l Hp Hl x Ix). pose proof (cpath_in _ _ Hp Ix) as [C _].
    destruct (get_values_ok_end q T unit k l i x) as (g & j & E & _); try (rewrite Eb; assumption); try assumption; [lra|unfold unit_of; rewrite Eu; exact Hu|].
    rewrite E. split; [split; [intros _; eexists; eexists; reflexivity|intros _; exact R]|intros Nr; contradiction].
  - assert (F : fst (get_values q T unit) = Err TypeError). { destruct q as [bq uq iq]. cbn in Eb, Eu, I. subst bq uq iq T. rewrite (fresh_end_fails bl u l unit Hp Hl). reflexivity. }
    rewrite F. split; [split; [intros R; contradiction|intros (v & p & E); discriminate E]|intros _; reflexivity].
Qed.
Theorem C42_before_start hist t unit T : print_time bl T -> t < 0 -> fst (get_values (after_queries (Sim bl u None) hist) t unit) = Err TypeError.
Proof.
  intros HT Ht. destruct (after_queries_blocks hist (Sim bl u None)) as [Eb Eu]. rewrite before_start; [reflexivity|exact Eb|exists T; exact HT|exact Ht].
Qed.
End Simulation.

(** A query at the start makes the end available, and queries before the start
    or at the end do not change that; a query after the end does. *)
Example C42_end_case fw : exists bl T k, simulate fw (ex0 :: ex_states) = Ok (bl, false) /\ print_time bl T /\ 0 < T /\
  unit_length (S_ "SImm") k /\
  remembers T [(0, None); (-1, None); (T, None)] /\ ~ remembers T [(0, None); (T + 1, None)].
Proof.
  destruct (ex_queries fw) as (bl & T & b & Hs & HT & Hpos & _). exists bl, T, 1. do 3 (split; [assumption|]). split; [repeat constructor; lra|]. split.
  - exists [], (0, None), [(-1, None); (T, None)]. cbn. split; [reflexivity|]. split; [lra|]. repeat constructor; cbn; lra.
  - intros (h1 & q & h2 & E & R1 & R2). destruct h1 as [|a h1].
    + injection E as <- <-. inversion_clear R2. cbn in *. lra.
    + injection E as _ E. destruct h1 as [|a' h1]; [injection E as <- <-; cbn in *; lra|]. injection E as _ E. destruct h1; discriminate E.
Qed.

Theorem C42_end_refuted : exists s0 states bl T, valid_program s0 states /\ no_moving_pause s0 states /\
  simulate MarlinJD (s0 :: states) = Ok (bl, false) /\ print_time bl T /\
  fst (get_values (Sim bl (S_ "SImm") None) T None) = Err TypeError.
Proof.
  destruct (ex_queries MarlinJD) as (bl & T & b & Hs & HT & _). exists ex0, ex_states, bl, T.
  split; [exact ex_valid|]. split; [exact ex_no_moving_pause|]. split; [exact Hs|]. split; [exact HT|].
  exact (C42_fresh_end_fails _ _ _ _ _ ex_valid Hs _ T None HT).
Qed.

(** C41, in general false: at a corner a fresh query and a query after another
    one return different velocities. *)
Theorem C41_no_memory_refuted : exists s0 states bl T t v1 p1 v2 p2,
  valid_program s0 states /\ simulate MarlinJerk (s0 :: states) = Ok (bl, false) /\ print_time bl T /\ 0 < t < T /\
  fst (get_values (Sim bl (S_ "SImm") None) t None) = Ok (v1, p1) /\
  fst (get_values (after_queries (Sim bl (S_ "SImm") None) [(0, None)]) t None) = Ok (v2, p2) /\
  v1 <> v2.
Proof.
  destruct corner_velocity as (bl & T & t & v1 & p1 & v2 & p2 & H1 & H2 & H3 & H4 & H5 & H6 & H7).
  exists corner_start, corner_program, bl, T, t, v1, p1, v2, p2. split; [exact corner_valid|].
  do 5 (split; [assumption|]). intros E. rewrite E in H6. lra.
Qed.

(** C44: the unit of the output does not matter, for any blocks and any state
    of the search. *)
Theorem C44_unit_independent bl i t h d u u' k k' : unit_length u k -> unit_length u' k' ->
  get_width (Sim bl u i) t h d = get_width (Sim bl u' i) t h d.
Proof. exact (width_unit_free bl i t h d u u' k k'). Qed.

Print Assumptions C40_values_on_trajectory.
Print Assumptions C41_no_memory_partial.
Print Assumptions C42_end_after_query_partial.
Print Assumptions C44_volume_conserved.
Print Assumptions C45_extent.
Print Assumptions C45_no_extrusion.
Print Assumptions C46_max_vel.
Print Assumptions C64_plot_at_segment_ends.
Print Assumptions C64_plot_at_time_steps.
Print Assumptions C42_fresh_end_fails.
Print Assumptions C42_beyond_end_fails.
Print Assumptions C42_end_exactly.
Print Assumptions C42_before_start.
Print Assumptions C42_end_refuted.
Print Assumptions C41_no_memory_refuted.
Print Assumptions C44_unit_independent.
