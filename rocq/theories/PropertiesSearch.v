(** Properties C83, C84: the summary of a simulation, and the search in a path
    with gaps.  Vocabulary: SpecSearch.v, SpecKin.v, SpecQuery.v. *)
From Coq Require Import Lra Lia.
From Verif Require Import Py Vec Segment Junction Planner Query RealFacts SpecKin SpecQuery SpecSearch
  MoveProofs SegProofs JunctionProofs CorrectProofs PlannerProofs TrajProofs PlanFacts QueryProofs QueryFacts SearchProofs
  PropertiesPlan PropertiesQuery.
Open Scope R_scope.

(** * C83 *)
Section Summary.
Variables (fw : firmware) (s0 : kstate) (states : list kstate) (bl : list block) (wn : bool).
Hypothesis Hv : valid_program s0 states.
Hypothesis Hs : simulate fw (s0 :: states) = Ok (bl, wn).

(** With extrusion the summary is written; it holds the time at which the print
    ends, the smallest box around all positions at which material is fed, and
    the largest speed at which material is fed, lengths in the unit of the
    simulation. *)
Theorem C83_summary u k hist : no_moving_pause s0 states -> (exists b, In b bl /\ feeds b) -> unit_length u k ->
  exists T x0 y0 z0 x1 y1 z1 m,
    save_summary (after_queries (Sim bl u None) hist) = Ok (T, ((x0, y0, z0), (x1, y1, z1)), m) /\
    (forall t v p, on_path (unpack_blocklist bl) t v p -> t <= T) /\
    (exists v, on_path (unpack_blocklist bl) T v (final_position s0 states)) /\
    (forall t v p, feeding_at bl t v p ->
       k * x0 <= vx p <= k * x1 /\ k * y0 <= vy p <= k * y1 /\ k * z0 <= vz p <= k * z1 /\ norm3 v <= k * m) /\
    (exists p, feed_end_point bl p /\ vx p = k * x0) /\ (exists p, feed_end_point bl p /\ vx p = k * x1) /\
    (exists p, feed_end_point bl p /\ vy p = k * y0) /\ (exists p, feed_end_point bl p /\ vy p = k * y1) /\
    (exists p, feed_end_point bl p /\ vz p = k * z0) /\ (exists p, feed_end_point bl p /\ vz p = k * z1) /\
    (exists t v p, feeding_at bl t v p /\ norm3 v = k * m).
Proof.
  intros Hnm Hf Hu.
  destruct (C45_extent _ _ _ _ _ Hv Hs u None k Hnm Hf Hu) as (x0 & y0 & z0 & x1 & y1 & z1 & Ex & H1 & H2).
  destruct (C46_max_vel _ _ _ _ _ Hv Hs u None k Hf Hu) as (m & Em & H3 & H4).
  destruct Hf as (b0 & Hb0 & _). destruct (rev bl) as [|b r] eqn:Er; [apply in_rev in Hb0; rewrite Er in Hb0; destruct Hb0|].
  assert (Ebl : bl = rev r ++ [b]) by (apply (f_equal (@rev block)) in Er; rewrite rev_involutive in Er; exact Er).
  destruct (simulate_fchain _ _ _ _ _ Hv Hs) as (wl & Hfc).
  assert (Hb : In b bl) by (rewrite Ebl; apply in_or_app; right; left; reflexivity).
  destruct (fchain_in _ _ _ _ _ _ Hfc b Hb) as (? & ? & ? & ? & ? & ? & Hwf). pose proof (wf_nonempty _ _ _ _ _ _ _ Hwf) as Hne.
  destruct (exists_last Hne) as (segs & l & El).
  assert (Hl : last_seg (b_segs b) = Ok l) by (unfold last_seg; rewrite El, rev_app_distr; reflexivity).
  assert (Hlast : last_seg (unpack_blocklist bl) = Ok l) by (rewrite Ebl, unpack_snoc, last_seg_app by exact Hne; exact Hl).
  pose proof (sim_cpath _ _ _ _ _ Hv Hs) as Hp.
  assert (Hin : In l (unpack_blocklist bl)) by (rewrite Ebl, unpack_snoc, El; apply in_or_app; right; apply in_or_app; right; left; reflexivity).
  exists (t_end l), x0, y0, z0, x1, y1, z1, m. destruct (after_queries_blocks hist (Sim bl u None)) as [B1 B2]. cbn [blocklist output_unit_system] in B1, B2.
  split.
  { unfold save_summary, extrusion_extent, extrusion_max_vel, get_scaling_factor in *. rewrite B1, B2. cbn [blocklist output_unit_system] in Ex, Em.
    rewrite Er, Hl. cbn [bind]. rewrite Ex. cbn [bind]. rewrite Em. reflexivity. }
  split; [intros t v p (s & Hs' & (Hr & _)); pose proof (cpath_last_end _ _ Hp Hlast s Hs'); lra|]. split.
  { exists (vel_at l (t_end l)), l. split; [exact Hin|]. rewrite <- (sim_final _ _ _ _ _ Hv Hs l Hnm Hlast).
    pose proof (cpath_in _ l Hp Hin) as Hcov. destruct (Hcov) as [Hle _].
    rewrite <- (pos_at_end l Hcov). apply at_moves. lra. }
  split; [|tauto]. intros t v p H. pose proof (H1 t v p H). pose proof (H3 t v p H). tauto.
Qed.
End Summary.
Example C83_case fw : exists bl b, valid_program ex0 ex_states /\ no_moving_pause ex0 ex_states /\
  simulate fw (ex0 :: ex_states) = Ok (bl, false) /\ In b bl /\ feeds b /\ unit_length (S_ "inch") (254 / 10).
Proof.
  destruct (ex_queries fw) as (bl & T & b & H1 & _ & _ & H2 & H3). exists bl, b.
  split; [exact ex_valid|]. split; [exact ex_no_moving_pause|]. repeat split; try assumption. constructor.
Qed.

(** * C84 *)
(** A fresh search finds the motion at every time from the first begin until
    before the last end: the segment, or in a gap the last position at rest. *)
Theorem C84_fresh_partial path t a b : in_order path -> begins path a -> ends path b -> a <= t < b ->
  exists g i v p, find_keep_position path t None = Ok (At g i) /\ (i < length path)%nat /\
    get_velocity g t = Ok v /\ get_position g t = Ok p /\ moves_or_waits path t v p.
Proof.
  intros Ho (s & r & -> & <-) (pre & l & E & <-) Ht. unfold find_keep_position. cbn [search_anew].
  apply (keep_fresh_good (s :: r) t Ho (s :: r) []); [reflexivity|intros x []|exists s, r; split; [reflexivity|lra]|].
  exists l. split; [rewrite E; apply in_or_app; right; left; reflexivity|lra].
Qed.
(** From a known index it still finds segments, and the gap behind that index. *)
Theorem C84_from_index_partial path t i s : in_order path -> nth_error path i = Some s -> t_begin s <= t ->
  (exists j n, (i <= j)%nat /\ nth_error path j = Some n /\ t_begin n <= t <= t_end n) \/ (exists p, in_gap path i t p) ->
  exists g j v p, find_keep_position path t (Some i) = Ok (At g j) /\ (j < length path)%nat /\
    get_velocity g t = Ok v /\ get_position g t = Ok p /\ moves_or_waits path t v p.
Proof.
  intros Ho Es Hb H. unfold find_keep_position, search_anew. rewrite Es, Rltb_false by lra.
  destruct H as [(j & n & Hij & Ej & Ht)|(p & s' & n & Es' & En & Ht & _)].
  - pose proof (keep_from_segment path t i n j Ho Ej Ht Hij 0 ltac:(lia)) as Q. rewrite Nat.add_0_r in Q. exact Q.
  - replace s' with s in * by congruence. apply (keep_from_gap path t i s n Es En Ht).
    destruct Ho as [_ Ho]. rewrite Forall_forall in Ho. exact (Ho s (nth_error_In _ _ Es)).
Qed.
(** A gap further behind the known index is not found: the function returns
    nothing, although a fresh search finds it. *)
Definition gap_path : list segment :=
  [Seg 0 1 vzero (V4 1 0 0 0) (V4 1 0 0 0) (V4 1 0 0 0); Seg 1 2 (V4 1 0 0 0) (V4 2 0 0 0) (V4 1 0 0 0) (V4 1 0 0 0);
   Seg 3 4 (V4 2 0 0 0) (V4 3 0 0 0) (V4 1 0 0 0) (V4 1 0 0 0)].
Lemma gap_path_fails : in_order gap_path /\ begins gap_path 0 /\ ends gap_path 4 /\ in_gap gap_path 1 (5 / 2) (V4 2 0 0 0) /\
  (exists g, find_keep_position gap_path (1 / 2) None = Ok (At g 0)) /\
  find_keep_position gap_path (5 / 2) (Some 0%nat) = Ok Nothing.
Proof.
  split; [split; [simpl; repeat split; lra|repeat (constructor; [simpl; lra|]); constructor]|].
  split; [eexists; eexists; split; [reflexivity|reflexivity]|]. split; [exists (firstn 2 gap_path); eexists; split; reflexivity|].
  split; [do 2 eexists; split; [reflexivity|]; split; [reflexivity|]; split; [simpl; lra|reflexivity]|].
  split.
  - unfold find_keep_position, gap_path. cbn [search_anew keep_fresh t_begin t_end]. rewrite Rleb_true, Rltb_true by lra. eexists. reflexivity.
  - unfold find_keep_position, gap_path. cbn [search_anew nth_error t_begin]. rewrite Rltb_false by lra. cbn [skipn keep_from t_begin t_end nth_error].
    rewrite (Rleb_true 0), (Rleb_false (5 / 2) 1), (Rleb_true 1 (5 / 2)), (Rltb_false (5 / 2) 1), (Rleb_false (5 / 2) 2), (Rleb_true 2 (5 / 2)) by lra.
    cbn [andb]. rewrite (Rleb_false 3 (5 / 2)), (Rleb_false 4 (5 / 2)) by lra. reflexivity.
Qed.
Theorem C84_later_gap_refuted : exists path t0 t i g p a b, in_order path /\ begins path a /\ ends path b /\ a <= t0 < t /\ t < b /\
  find_keep_position path t0 None = Ok (At g i) /\ in_gap path (S i) t p /\ find_keep_position path t (Some i) = Ok Nothing.
Proof.
  destruct gap_path_fails as (H1 & H2 & H3 & H4 & (g & H5) & H6). exists gap_path, (1 / 2), (5 / 2), 0%nat, g, (V4 2 0 0 0), 0, 4.
  repeat (split; [first [assumption|lra]|]). exact H6.
Qed.
(** From the end on, a fresh search raises IndexError. *)
Theorem C84_end_fails path t b : in_order path -> ends path b -> b <= t -> find_keep_position path t None = Err IndexError.
Proof.
  intros Ho (pre & l & -> & <-) Ht. unfold find_keep_position. cbn [search_anew].
  apply (keep_fresh_end _ t Ho _ []); [reflexivity|destruct pre; discriminate|].
  intros s Hs. apply in_app_or in Hs as [Hs|[<-|[]]]; [|lra].
  pose proof (in_order_before pre [l] s l Ho Hs (or_introl eq_refl)).
  destruct (in_order_cons _ _ (in_order_app pre _ Ho)) as (Hl & _). lra.
Qed.
Example C84_case : in_order gap_path /\ begins gap_path 0 /\ ends gap_path 4 /\ in_gap gap_path 1 (5 / 2) (V4 2 0 0 0) /\ 0 <= 5 / 2 < 4.
Proof. destruct gap_path_fails as (H1 & H2 & H3 & H4 & _). repeat split; try assumption; try apply H1; lra. Qed.

Print Assumptions C83_summary.
Print Assumptions C84_fresh_partial.
Print Assumptions C84_from_index_partial.
Print Assumptions C84_later_gap_refuted.
Print Assumptions C84_end_fails.
