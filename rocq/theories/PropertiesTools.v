(** Properties C47-C52, C67, C68: time for a distance, Abaqus event series,
    layer metrics, submodel times.  Vocabulary: SpecTools.v, SpecKin.v, SpecQuery.v. *)
From Coq Require Import Lra Psatz.
From Verif Require Import Py Vec Segment Junction Planner Query Abaqus Tools RealFacts SpecKin SpecQuery SpecTools MoveProofs
  JunctionProofs CorrectProofs SegProofs PlannerProofs TrajProofs PlanFacts QueryProofs QueryFacts TimeProofs AbaqusProofs LayerProofs
  BoxProofs BoxFacts ToolsFacts InterpProofs.
Open Scope R_scope.
Local Arguments S_ : simpl never.

(** * A program for the examples: one diagonal move that opens layer 1 *)
Definition diag0 : kstate := KState (V4 (-2) (-2) 0 0) 20 500 8 None (Some 0%nat).
Definition diag1 : kstate := KState (V4 2 2 0 1) 20 500 8 None (Some 1%nat).
Lemma diag_moves : k_pos diag1 <> k_pos diag0.
Proof. intros E. apply (f_equal vx) in E. simpl in E. lra. Qed.
Example diag_valid : valid_program diag0 [diag1].
Proof.
  split; [|split].
  - repeat first [apply Forall_nil | apply Forall_cons];
      (split; [simpl; lra|]; split; [simpl; lra|]; split; [simpl; lra|]); intros p Hp; discriminate Hp.
  - reflexivity.
  - simpl. split; [reflexivity|]. left. exact diag_moves.
Qed.
Example diag_no_moving_pause : no_moving_pause diag0 [diag1].
Proof. simpl. tauto. Qed.
Example diag_block fw : exists b, simulate fw [diag0; diag1] = Ok ([b], false) /\ b_A b = diag0 /\ b_B b = diag1.
Proof.
  destruct (simulation_succeeds fw _ _ diag_valid) as (bl & Hs). destruct (one_block _ _ _ _ _ diag_valid Hs diag_moves) as (b & -> & E).
  exists b. split; [exact Hs|exact E].
Qed.
Lemma diag_travels b : b_A b = diag0 -> b_B b = diag1 -> travels b.
Proof.
  intros EA EB. unfold travels. rewrite EA, EB. apply sqrt_lt_R0. simpl. lra.
Qed.

(** * C47: time for a distance *)
(** On a segment that does not brake the time is right. *)
Theorem C47_inverse_time_partial fw s0 states bl wn b s x :
  valid_program s0 states -> simulate fw (s0 :: states) = Ok (bl, wn) -> In b bl -> k_pause (b_B b) = None -> travels b ->
  falls_into b s x -> ~ braking s ->
  exists t, inverse_time_at_pos b x = Ok t /\ reached b t x.
Proof.
  intros Hv Hs Hb Hp Ht Hf Hnb. destruct (block_motion _ _ _ _ _ _ Hv Hs Hb Hp Ht) as (d & t & p & v & t' & v' & Hd & _ & _ & Hm).
  exact (inverse_up _ _ _ _ _ _ _ _ _ _ _ _ Hd Hm Hf Hnb).
Qed.
(** Every distance of the block falls into one of its segments, beyond there is no time. *)
Theorem C47_domain fw s0 states bl wn b x :
  valid_program s0 states -> simulate fw (s0 :: states) = Ok (bl, wn) -> In b bl -> k_pause (b_B b) = None -> travels b ->
  (0 < x <= block_travel b -> exists s, falls_into b s x) /\ (block_travel b < x -> inverse_time_at_pos b x = Err ValueError).
Proof.
  intros Hv Hs Hb Hp Ht. pose proof (block_travelled _ _ _ _ _ _ Hv Hs Hb Hp Ht) as El. split.
  - intros Hx. destruct (falls_somewhere (b_segs b) 0 x ltac:(lra)) as (pre & s & post & E & H). exists s, pre, post. split; [exact E|lra].
  - intros Hx. destruct (block_motion _ _ _ _ _ _ Hv Hs Hb Hp Ht) as (d & t & p & v & t' & v' & Hd & _ & _ & Hm).
    apply loop_beyond; [|lra]. intros s Hin. exact (Rlt_le _ _ (motion_travels _ _ _ _ _ _ _ _ _ _ _ Hd Hm Hin)).
Qed.
(** The begin of the block: no time if it starts at rest. *)
Theorem C47_start fw s0 states bl wn b s l :
  valid_program s0 states -> simulate fw (s0 :: states) = Ok (bl, wn) -> In b bl -> k_pause (b_B b) = None -> travels b -> b_segs b = s :: l ->
  (vel_begin s = vzero -> inverse_time_at_pos b 0 = Err ValueError) /\
  (0 < norm3 (vel_begin s) -> ~ braking s -> inverse_time_at_pos b 0 = Ok (t_begin s)).
Proof.
  intros Hv Hs Hb Hp Ht E. destruct (block_motion _ _ _ _ _ _ Hv Hs Hb Hp Ht) as (d & t & p & v & t' & v' & Hd & _ & _ & Hm).
  destruct (inverse_start _ _ _ _ _ _ _ _ _ _ _ _ Hd Hm E) as [H1 H2]. split; [|auto]. intros Z. apply H2; [rewrite Z; apply norm3_vzero|].
  apply (motion_travels _ _ _ _ _ _ _ _ _ _ s Hd Hm). rewrite E. left. reflexivity.
Qed.
(** On a segment that brakes the time is too early. *)
Theorem C47_too_early_when_braking fw s0 states bl wn b s x :
  valid_program s0 states -> simulate fw (s0 :: states) = Ok (bl, wn) -> In b bl -> k_pause (b_B b) = None -> travels b ->
  falls_into b s x -> braking s ->
  exists t, inverse_time_at_pos b x = Ok t /\ t_begin s < t < t_end s /\ forall t', reached b t' x -> t < t'.
Proof.
  intros Hv Hs Hb Hp Ht Hf Hbr. destruct (block_motion _ _ _ _ _ _ Hv Hs Hb Hp Ht) as (d & t & p & v & t' & v' & Hd & _ & _ & Hm).
  exact (inverse_down _ _ _ _ _ _ _ _ _ _ _ _ Hd Hm Hf Hbr).
Qed.
(** So the time is wrong at the end of every print that ends with a move. *)
Theorem C47_last_move_wrong fw s0 states pre b wn :
  valid_program s0 states -> simulate fw (s0 :: states) = Ok (pre ++ [b], wn) -> fw <> MarlinJerk -> k_pause (b_B b) = None -> travels b ->
  exists t, inverse_time_at_pos b (block_travel b) = Ok t /\ ~ reached b t (block_travel b).
Proof.
  intros Hv Hs Hfw Hp Ht. assert (Hb : In b (pre ++ [b])) by (apply in_or_app; right; left; reflexivity).
  destruct (last_block_brakes _ _ _ _ _ _ Hv Hs Hfw Hp Ht) as (l & s & E & Hbr).
  pose proof (block_travelled _ _ _ _ _ _ Hv Hs Hb Hp Ht) as El.
  destruct (block_motion _ _ _ _ _ _ Hv Hs Hb Hp Ht) as (d & t & p & v & t' & v' & Hd & _ & _ & Hm).
  assert (Hf : falls_into b s (block_travel b)).
  { exists l, []. split; [exact E|]. rewrite <- El, E. rewrite travelled_app at 1. rewrite travelled_app.
    assert (0 < seg_travel s) by (apply (motion_travels _ _ _ _ _ _ _ _ _ _ s Hd Hm); rewrite E; apply in_or_app; right; left; reflexivity).
    unfold travelled at 3 5. simpl. lra. }
  destruct (inverse_down _ _ _ _ _ _ _ _ _ _ _ _ Hd Hm Hf Hbr) as (u & Eu & _ & K). exists u. split; [exact Eu|]. intros R. specialize (K _ R). lra.
Qed.
Theorem C47_refuted : exists fw s0 states bl wn b x t, valid_program s0 states /\ simulate fw (s0 :: states) = Ok (bl, wn) /\ In b bl /\
  k_pause (b_B b) = None /\ travels b /\ 0 < x <= block_travel b /\ inverse_time_at_pos b x = Ok t /\ ~ reached b t x.
Proof.
  destruct (diag_block FullStop) as (b & Hs & EA & EB). pose proof (diag_travels b EA EB) as Ht.
  destruct (C47_last_move_wrong FullStop diag0 [diag1] [] b false diag_valid Hs) as (t & E & Hn); [discriminate|rewrite EB; reflexivity|exact Ht|].
  exists FullStop, diag0, [diag1], [b], false, b, (block_travel b), t. split; [exact diag_valid|]. split; [exact Hs|]. split; [left; reflexivity|].
  split; [rewrite EB; reflexivity|]. split; [exact Ht|]. split; [unfold travels in Ht; fold (block_travel b) in Ht; lra|]. auto.
Qed.
(** The hypotheses of both cases can be met. *)
Example C47_cases fw : fw <> MarlinJerk -> exists b s x s' x', simulate fw [diag0; diag1] = Ok ([b], false) /\ travels b /\ k_pause (b_B b) = None /\
  falls_into b s x /\ ~ braking s /\ falls_into b s' x' /\ braking s'.
Proof.
  intros Hfw. destruct (diag_block fw) as (b & Hs & EA & EB). pose proof (diag_travels b EA EB) as Ht. assert (Hp : k_pause (b_B b) = None) by (rewrite EB; reflexivity).
  destruct (first_block_rests _ _ _ _ _ _ diag_valid Hs Hp Ht) as (s & l & d & t' & v' & p' & Hd & E & Hz & Hm).
  destruct (last_block_brakes fw diag0 [diag1] [] b false diag_valid Hs Hfw Hp Ht) as (l' & s' & E' & Hbr).
  assert (T : forall g, In g (b_segs b) -> 0 < seg_travel g) by (intros g Hg; rewrite E in Hg; exact (motion_travels _ _ _ _ _ _ _ _ _ _ g Hd Hm Hg)).
  exists b, s, (seg_travel s), s', (travelled (b_segs b)). split; [exact Hs|]. split; [exact Ht|]. split; [exact Hp|].
  assert (T1 : 0 < seg_travel s) by (apply T; rewrite E; left; reflexivity).
  assert (T2 : 0 < seg_travel s') by (apply T; rewrite E'; apply in_or_app; right; left; reflexivity).
  split; [|split; [|split]].
  - exists [], l. split; [exact E|]. unfold travelled. simpl. lra.
  - unfold braking. rewrite Hz. pose proof (norm3_nonneg (vel_end s)). lra.
  - exists l', []. split; [exact E'|]. rewrite E', travelled_app. unfold travelled at 3 5. simpl. lra.
  - exact Hbr.
Qed.

(** * C48: the Abaqus event series *)
(** One event at time 0 and one per segment end; per segment the events at
    its ends, the first with flag 1 exactly if the segment feeds. *)
Theorem C48_events s tol unit u k path f :
  u = match unit with Some v => v | None => output_unit_system s end -> unit_length u k ->
  unpack_blocklist (blocklist s) = f :: path -> contiguous_path (f :: path) -> t_begin f = 0 ->
  exists evs, generate_abaqus_event_series s tol unit = Ok evs /\ length evs = S (length (f :: path)) /\ ascending (map ev_t evs) /\
    (forall i g, nth_error (f :: path) i = Some g ->
      exists a b, nth_error evs i = Some a /\ nth_error evs (S i) = Some b /\ ev_t a = t_begin g /\ ev_t b = t_end g /\
        event_at u a (pos_begin g) /\ event_at u b (pos_end g) /\
        (ev_flag a = 1%nat <-> feeds_more tol g) /\ (ev_flag a = 0%nat <-> ~ feeds_more tol g)) /\
    exists l, nth_error evs (length (f :: path)) = Some l /\ ev_flag l = 0%nat.
Proof.
  intros Hu Hk Hp Hc H0. pose proof (series_ok s tol unit u k f path Hu Hk Hp) as E. eexists. split; [exact E|].
  split; [exact (series_length s tol unit u k f path Hu Hk Hp _ E)|]. split; [exact (series_ascending s tol unit u k f path Hu Hk Hp _ Hc H0 E)|].
  split; [|exact (series_last s tol unit u k f path Hu Hk Hp _ E)].
  intros i g Hi. exact (series_segment s tol unit u k f path Hu Hk Hp _ i g Hc E H0 Hi).
Qed.
(** For simulated programs: the events are points of the trajectory. *)
Theorem C48_events_on_trajectory fw s0 states s wn tol unit u k :
  valid_program s0 states -> simulate fw (s0 :: states) = Ok (blocklist s, wn) -> blocklist s <> [] ->
  u = match unit with Some v => v | None => output_unit_system s end -> unit_length u k ->
  exists evs, generate_abaqus_event_series s tol unit = Ok evs /\ ascending (map ev_t evs) /\
    starts (fun e => ev_t e = 0 /\ event_at u e (k_pos s0)) evs /\
    forall e, In e evs -> exists v p, on_path (unpack_blocklist (blocklist s)) (ev_t e) v p /\ event_at u e p.
Proof.
  intros Hv Hs Hne Hu Hk. pose proof (sim_cpath _ _ _ _ _ Hv Hs) as Hc. pose proof (sim_starts _ _ _ _ _ Hv Hs) as Hst.
  assert (Hn : unpack_blocklist (blocklist s) <> []).
  { destruct (sim_timed _ _ _ _ _ Hv Hs) as (T & HT & _). destruct (blocklist s) as [|b bl]; [contradiction|]. inversion HT as [|? ? ? ? ? (x & y & Hf & _)]; subst.
    unfold unpack_blocklist. simpl. destruct (b_segs b); [discriminate Hf|discriminate]. }
  destruct (unpack_blocklist (blocklist s)) as [|f path] eqn:E; [contradiction|]. simpl in Hst. destruct Hst as [T0 P0].
  destruct (C48_events s tol unit u k path f Hu Hk E Hc T0) as (evs & Ee & Hlen & Hasc & Hseg & _). exists evs. split; [exact Ee|]. split; [exact Hasc|]. split.
  - destruct (Hseg 0%nat f eq_refl) as (a & b & Ha & _ & Ta & _ & Pa & _). destruct evs; [discriminate|]. injection Ha as ->. simpl. rewrite <- P0, <- T0. auto.
  - intros e He. apply In_nth_error in He as (i & Hi).
    assert (Hcov : forall g, In g (f :: path) -> t_begin g <= t_end g) by (intros g Hg; apply (cpath_in _ _ Hc Hg)).
    destruct (nth_error (f :: path) i) as [g|] eqn:Eg.
    + destruct (Hseg i g Eg) as (a & b & Ha & _ & Ta & _ & Pa & _). assert (a = e) by congruence. subst a.
      pose proof (Hcov g (nth_error_In _ _ Eg)). exists (vel_at g (ev_t e)), (pos_begin g). split; [|exact Pa]. exists g. split; [exact (nth_error_In _ _ Eg)|].
      rewrite <- (pos_at_begin g). rewrite Ta. apply at_moves. lra.
    + assert (i = length (f :: path)).
      { apply nth_error_None in Eg. assert (i < length evs)%nat by (apply nth_error_Some; congruence). lia. }
      subst i. destruct (nth_error (f :: path) (length path)) as [g|] eqn:El.
      2: { apply nth_error_None in El. simpl in El. lia. }
      destruct (Hseg _ g El) as (a & b & _ & Hb & _ & Tb & _ & Pb & _). assert (b = e) by (change (length (f :: path)) with (S (length path)) in Hi; congruence). subst b.
      pose proof (Hcov g (nth_error_In _ _ El)). exists (vel_at g (ev_t e)), (pos_end g). split; [|exact Pb]. exists g. split; [exact (nth_error_In _ _ El)|].
      rewrite <- (pos_at_end g) by exact (cpath_in _ _ Hc (nth_error_In _ _ El)). rewrite Tb. apply at_moves. lra.
Qed.
(** A trajectory without segments, and unknown units, are refused. *)
Theorem C48_refused s tol unit :
  (unpack_blocklist (blocklist s) = [] -> generate_abaqus_event_series s tol unit = Err IndexError) /\
  (unpack_blocklist (blocklist s) <> [] -> (forall k, ~ unit_length (match unit with Some v => v | None => output_unit_system s end) k) ->
   generate_abaqus_event_series s tol unit = Err KeyError).
Proof.
  unfold generate_abaqus_event_series. split.
  - intros ->. reflexivity.
  - intros Hne Hk. destruct (unpack_blocklist (blocklist s)) as [|f path]; [contradiction|]. cbn [first_seg bind].
    unfold get_scaling_factor. set (u := match unit with Some v => v | None => output_unit_system s end) in *.
    pose proof (unknown_output_unit u Hk) as E. unfold dindex. unfold dmem in E. destruct (dget u output_units); [discriminate|reflexivity].
Qed.
Example C48_example fw : exists b, simulate fw [diag0; diag1] = Ok ([b], false) /\ blocklist (Sim [b] (S_ "SImm") None) <> [] /\ unit_length (S_ "SImm") 1.
Proof. destruct (diag_block fw) as (b & Hs & _). exists b. split; [exact Hs|]. split; [discriminate|constructor]. Qed.

(** * C49: linear interpolation of the events *)
(** Between two events the linear interpolation is off by at most an eighth
    of the velocity change times the duration, in each axis. *)
Theorem C49_interpolation_bound s tol unit u k path f evs i g a b t v q :
  u = match unit with Some v => v | None => output_unit_system s end -> unit_length u k ->
  unpack_blocklist (blocklist s) = f :: path -> contiguous_path (f :: path) -> t_begin f = 0 ->
  generate_abaqus_event_series s tol unit = Ok evs -> nth_error (f :: path) i = Some g -> nth_error evs i = Some a -> nth_error evs (S i) = Some b ->
  t_begin g < t_end g -> moves_through g t v q ->
  let r := (t - ev_t a) / (ev_t b - ev_t a) in
  Rabs (k * between (ev_x a) (ev_x b) r - vx q) <= (t_end g - t_begin g) * Rabs (vx (vel_end g) - vx (vel_begin g)) / 8 /\
  Rabs (k * between (ev_y a) (ev_y b) r - vy q) <= (t_end g - t_begin g) * Rabs (vy (vel_end g) - vy (vel_begin g)) / 8 /\
  Rabs (k * between (ev_z a) (ev_z b) r - vz q) <= (t_end g - t_begin g) * Rabs (vz (vel_end g) - vz (vel_begin g)) / 8.
Proof.
  intros Hu Hk Hp Hc H0 He Hi Ha Hb Ht Hm r.
  destruct (series_segment s tol unit u k f path Hu Hk Hp evs i g Hc He H0 Hi) as (a' & b' & Ha' & Hb' & Ta & Tb & Pa & Pb & _).
  assert (a' = a) by congruence. assert (b' = b) by congruence. subst a' b'.
  destruct Pa as (k1 & K1 & Xa & Ya & Za). destruct Pb as (k2 & K2 & Xb & Yb & Zb).
  assert (E1 : k1 = k) by (destruct K1; inversion Hk; reflexivity). assert (E2 : k2 = k) by (destruct K2; inversion Hk; reflexivity). subst k1 k2.
  destruct Hm as (Hr & _ & ->). pose proof (cpath_in _ _ Hc (nth_error_In _ _ Hi)) as [_ Pe].
  assert (D : forall w, (t - t_begin g) = w -> w = r * (t_end g - t_begin g)) by (intros w <-; unfold r; rewrite Ta, Tb; field; lra).
  assert (Er : (t - t_begin g) / (t_end g - t_begin g) = r) by (unfold r; rewrite Ta, Tb; reflexivity). rewrite Er.
  assert (L : forall y z, k * between y z r = between (k * y) (k * z) r) by (intros; unfold between; ring). rewrite !L, Xa, Ya, Za, Xb, Yb, Zb, Pe.
  rewrite (D _ eq_refl). simpl.
  split; [|split].
  - destruct (chord (t_begin g) (t_end g) (vx (pos_begin g)) (vx (vel_begin g)) (vx (vel_end g)) t Ht Hr) as [_ K]. rewrite Er in K.
    eapply Rle_trans; [right|exact K]. f_equal. unfold between. field.
  - destruct (chord (t_begin g) (t_end g) (vy (pos_begin g)) (vy (vel_begin g)) (vy (vel_end g)) t Ht Hr) as [_ K]. rewrite Er in K.
    eapply Rle_trans; [right|exact K]. f_equal. unfold between. field.
  - destruct (chord (t_begin g) (t_end g) (vz (pos_begin g)) (vz (vel_begin g)) (vz (vel_end g)) t Ht Hr) as [_ K]. rewrite Er in K.
    eapply Rle_trans; [right|exact K]. f_equal. unfold between. field.
Qed.
(** So it is exact on the segments of constant velocity. *)
Theorem C49_interpolation_exact_partial s tol unit u k path f evs i g a b t v q :
  u = match unit with Some v => v | None => output_unit_system s end -> unit_length u k ->
  unpack_blocklist (blocklist s) = f :: path -> contiguous_path (f :: path) -> t_begin f = 0 ->
  generate_abaqus_event_series s tol unit = Ok evs -> nth_error (f :: path) i = Some g -> nth_error evs i = Some a -> nth_error evs (S i) = Some b ->
  t_begin g < t_end g -> moves_through g t v q -> vel_end g = vel_begin g ->
  let r := (t - ev_t a) / (ev_t b - ev_t a) in
  k * between (ev_x a) (ev_x b) r = vx q /\ k * between (ev_y a) (ev_y b) r = vy q /\ k * between (ev_z a) (ev_z b) r = vz q.
Proof.
  intros Hu Hk Hp Hc H0 He Hi Ha Hb Ht Hm Ev r.
  destruct (C49_interpolation_bound s tol unit u k path f evs i g a b t v q Hu Hk Hp Hc H0 He Hi Ha Hb Ht Hm) as (B0 & B1 & B2). fold r in B0, B1, B2.
  rewrite Ev in *. assert (Z : forall x y w, Rabs (x - y) <= (t_end g - t_begin g) * Rabs (w - w) / 8 -> x = y).
  { intros x y w K. replace (w - w) with 0 in K by ring. rewrite Rabs_R0 in K. apply abs_le in K. lra. }
  split; [|split]; eapply Z; eassumption.
Qed.
(** On an accelerated segment it is wrong. *)
Theorem C49_refuted : exists fw s0 states s wn evs a b i t v q, valid_program s0 states /\ simulate fw (s0 :: states) = Ok (blocklist s, wn) /\
  generate_abaqus_event_series s 0 (Some (S_ "SImm")) = Ok evs /\ nth_error evs i = Some a /\ nth_error evs (S i) = Some b /\
  ev_t a <= t <= ev_t b /\ on_path (unpack_blocklist (blocklist s)) t v q /\
  between (ev_x a) (ev_x b) ((t - ev_t a) / (ev_t b - ev_t a)) <> vx q.
Proof.
  destruct (diag_block FullStop) as (b & Hs & EA & EB). pose proof (diag_travels b EA EB) as Ht. assert (Hp : k_pause (b_B b) = None) by (rewrite EB; reflexivity).
  destruct (first_block_rests _ _ _ _ _ _ diag_valid Hs Hp Ht) as (g & l & d & t' & v' & p' & Hd & E & Hz & Hm).
  destruct (block_motion _ _ _ _ _ _ diag_valid Hs (or_introl eq_refl) Hp Ht) as (d2 & t2 & p2 & v2 & t2' & v2' & Hd2 & _ & Hsc & Hm2).
  rewrite E in Hm2. inversion Hm2 as [|? ? ? ? v1 ? ? ? ? E1 E2 Hr Hm']; subst. clear Hm Hm'. 
  set (s := Sim [b] (S_ "SImm") None). assert (Hpath : unpack_blocklist (blocklist s) = g :: l) by (unfold s, unpack_blocklist; simpl; rewrite app_nil_r; exact E).
  pose proof (sim_cpath _ _ _ _ _ diag_valid Hs) as Hc. pose proof (sim_starts _ _ _ _ _ diag_valid Hs) as Hst.
  change [b] with (blocklist s) in Hc, Hst. rewrite Hpath in Hc, Hst. destruct Hst as [T0 P0].
  destruct (C48_events s 0 (Some (S_ "SImm")) (S_ "SImm") 1 l g eq_refl u_SImm Hpath Hc T0) as (evs & Ee & _ & _ & Hseg & _).
  destruct (Hseg 0%nat g eq_refl) as (x & y & Hx & Hy & Tx & Ty & (k1 & K1 & X1 & _) & (k2 & K2 & X2 & _) & _).
  assert (k1 = 1) by (inversion K1; reflexivity). assert (k2 = 1) by (inversion K2; reflexivity). subst k1 k2.
  destruct Hr as (Hdt & Hb & He & Hpe & H0 & H1 & _ & Hpos). set (t := (t_begin g + t_end g) / 2). set (q := pos_at g t).
  assert (Htr : t_begin g <= t <= t_end g) by (unfold t; lra).
  exists FullStop, diag0, [diag1], s, false, evs, x, y, 0%nat, t, (vel_at g t), q.
  split; [exact diag_valid|]. split; [exact Hs|]. split; [exact Ee|]. split; [exact Hx|]. split; [exact Hy|]. rewrite Tx, Ty. split; [exact Htr|].
  assert (Hmt : moves_through g t (vel_at g t) q) by (apply at_moves; exact Htr).
  split; [exists g; rewrite Hpath; split; [left; reflexivity|exact Hmt]|].
  assert (V0 : v2 = 0). { rewrite Hb, (dir_len d2 Hd2) in Hz by lra. exact Hz. } subst v2.
  assert (Dx : vx d2 <> 0).
  { intros Z. apply (f_equal vx) in Hsc. rewrite EA, EB in Hsc. simpl in Hsc. rewrite Z in Hsc. lra. }
  destruct Hmt as (_ & _ & Eq). rewrite Eq, Hb, He. rewrite Hpe in X2. simpl in X1, X2 |- *. unfold between.
  assert (Er : (t - t_begin g) / (t_end g - t_begin g) = 1 / 2) by (unfold t; field; lra). rewrite Er.
  replace (t - t_begin g) with ((t_end g - t_begin g) / 2) by (unfold t; field).
  replace (ev_x x) with (vx (pos_begin g)) by lra. replace (ev_x y) with (vx (pos_begin g) + vx d2 * ((0 + v1) / 2 * (t_end g - t_begin g))) by lra.
  set (dt := t_end g - t_begin g) in *. intros K.
  assert (vx d2 * (v1 * dt) = 0) by lra. assert (0 < v1 * dt) by (apply Rmult_lt_0_compat; lra). apply Rmult_integral in H as [H|H]; [contradiction|lra].
Qed.

(** * C50, C51: layer metrics *)
(** If the last block does not open a layer: one row per layer, in increasing
    order from 0, each with the time its blocks take, together the print time. *)
Theorem C50_layer_durations_partial fw s0 states bl wn T :
  valid_program s0 states -> simulate fw (s0 :: states) = Ok (bl, wn) -> layered bl -> print_time bl T -> ~ last_opens_layer bl ->
  exists rows, save_layer_metrics true bl = Ok (Some rows) /\ Rsum row_duration rows = T /\
    starts (fun r => row_layer r = 0%nat) rows /\ joined (fun a b => (row_layer a < row_layer b)%nat) rows /\
    (forall b n, In b bl -> k_layer (b_B b) = Some n -> In n (map row_layer rows)) /\
    (forall r, In r rows -> row_duration r = Rsum block_duration (filter (in_layer (row_layer r)) bl)).
Proof.
  intros Hv Hs Hl HT Hno. destruct (sim_timed _ _ _ _ _ Hv Hs) as (T' & Ht & HT').
  assert (Hne : bl <> []) by (intros ->; destruct HT as (pre & l & E & _); destruct pre; discriminate).
  specialize (HT' Hne). assert (T' = T).
  { apply print_time_last in HT as (l & E & ->). apply print_time_last in HT' as (l' & E' & ->). congruence. }
  subst T'. destruct (layer_loop_ok bl 0 0 0 0 T Ht Hl Hne ltac:(intros; lia)) as (rows & E & H0 & _ & Hj & Hin & Hrow & _ & Hdu).
  unfold save_layer_metrics. rewrite E. exists rows. split; [reflexivity|]. destruct (exists_last Hne) as (pre & b & Eb).
  assert (exists n, k_layer (b_B b) = Some n) as (n & Hn).
  { destruct Hl as [HF _]. rewrite Forall_forall in HF. apply HF. rewrite Eb. apply in_or_app. right. left. reflexivity. }
  assert (Hcase : n = 0%nat \/ exists a, In a pre /\ k_layer (b_B a) = Some n).
  { destruct n as [|n]; [left; reflexivity|]. right.
    destruct (Exists_dec (fun a => k_layer (b_B a) = Some (S n)) pre) as [X|X].
    { intros a. destruct (k_layer (b_B a)) as [m|]; [destruct (Nat.eq_dec m (S n)); [left; congruence|right; congruence]|right; discriminate]. }
    - apply Exists_exists in X. exact X.
    - exfalso. apply Hno. exists pre, b, (S n). split; [exact Eb|]. split; [exact Hn|]. split; [lia|]. intros a m Ha Hm.
      assert (m <= S n)%nat.
      { clear -Hl Eb Ha Hm Hn. subst bl. induction pre as [|c pre IH]; [destruct Ha|]. simpl in Hl. destruct (layered_cons _ _ Hl) as (k & Hk & Hl' & Hge).
        destruct Ha as [<-|Ha]; [|exact (IH Hl' Ha)]. assert (m = k) by congruence. subst k. apply (Hge b); [apply in_or_app; right; left; reflexivity|exact Hn]. }
      assert (m <> S n) by (intros ->; apply X, Exists_exists; eauto). lia. }
  destruct (Hdu pre b n Eb Hn) as [_ D]. split; [rewrite (D Hcase); ring|]. split; [exact H0|]. split; [exact Hj|]. split.
  - intros c m Hc Hm. apply Hin. rewrite Eb in Hc. rewrite Eb, removelast_last. apply in_app_or in Hc as [Hc|[<-|[]]]; [right; eauto|].
    assert (m = n) by congruence. subst m. destruct Hcase as [->|(a & Ha & Han)]; [left; reflexivity|right; eauto].
  - intros r Hr. destruct (Hrow r Hr) as (_ & -> & _). destruct (Nat.eqb _ _); ring.
Qed.
(** If the last block opens a layer, its row and its time are missing. *)
Theorem C50_last_layer_lost fw s0 states pre b n wn T :
  valid_program s0 states -> simulate fw (s0 :: states) = Ok (pre ++ [b], wn) -> layered (pre ++ [b]) -> print_time (pre ++ [b]) T ->
  k_layer (b_B b) = Some n -> (0 < n)%nat -> (forall a m, In a pre -> k_layer (b_B a) = Some m -> (m < n)%nat) ->
  exists rows, save_layer_metrics true (pre ++ [b]) = Ok (Some rows) /\ Rsum row_duration rows = T - block_duration b /\ ~ In n (map row_layer rows).
Proof.
  intros Hv Hs Hl HT Hn Hpos Hall. destruct (sim_timed _ _ _ _ _ Hv Hs) as (T' & Ht & HT').
  assert (Hne : pre ++ [b] <> []) by (destruct pre; discriminate).
  specialize (HT' Hne). assert (T' = T).
  { apply print_time_last in HT as (l & E & ->). apply print_time_last in HT' as (l' & E' & ->). congruence. }
  subst T'. destruct (layer_loop_ok (pre ++ [b]) 0 0 0 0 T Ht Hl Hne ltac:(intros; lia)) as (rows & E & _ & _ & _ & Hin & _ & _ & Hdu).
  unfold save_layer_metrics. rewrite E. exists rows. split; [reflexivity|]. destruct (Hdu pre b n eq_refl Hn) as [D _]. split; [rewrite D; [ring|auto]|].
  rewrite Hin, removelast_last. intros [->|(a & Ha & Hm)]; [lia|]. specialize (Hall a n Ha Hm). lia.
Qed.
Lemma diag_layered b : b_B b = diag1 -> layered [b].
Proof. intros E. split; [repeat constructor; rewrite E; exists 1%nat; reflexivity|simpl; auto]. Qed.
Lemma diag_duration fw b : simulate fw [diag0; diag1] = Ok ([b], false) -> b_A b = diag0 -> b_B b = diag1 ->
  exists T, print_time [b] T /\ T = block_duration b /\ 0 < T.
Proof.
  intros Hs EA EB. destruct (sim_timed _ _ _ _ _ diag_valid Hs) as (T & Ht & HT). exists T. split; [apply HT; discriminate|].
  inversion Ht as [|? ? ? t' ? (f & l & Hf & Hl & Tf & Tl & Hd) Ht']; subst. inversion Ht'; subst. split; [lra|].
  pose proof (diag_travels b EA EB) as Htr. assert (Hp : k_pause (b_B b) = None) by (rewrite EB; reflexivity).
  destruct (block_motion _ _ _ _ _ _ diag_valid Hs (or_introl eq_refl) Hp Htr) as (d & t & p & v & t2 & v' & Hd2 & Hne & _ & Hm).
  destruct (b_segs b) as [|g r] eqn:E; [contradiction|]. destruct (motion_last _ _ _ _ _ _ _ _ _ _ Hm Hne) as (l' & Hl' & T2 & _).
  inversion Hm as [|? ? ? ? w1 ? ? ? ? E1 E2 Hr Hm']; subst. injection Hf as ->. destruct (motion_len d _ _ Hd2 _ _ _ _ _ _ _ Hm') as (L & _).
  destruct Hr as (Hdt & _). assert (l' = l) by congruence. subst l'. lra.
Qed.
Theorem C50_refuted : exists fw s0 states bl wn T rows, valid_program s0 states /\ simulate fw (s0 :: states) = Ok (bl, wn) /\ layered bl /\
  print_time bl T /\ save_layer_metrics true bl = Ok (Some rows) /\ Rsum row_duration rows <> T.
Proof.
  destruct (diag_block FullStop) as (b & Hs & EA & EB). destruct (diag_duration _ _ Hs EA EB) as (T & HT & ET & Hpos).
  destruct (C50_last_layer_lost FullStop diag0 [diag1] [] b 1%nat false T diag_valid Hs (diag_layered b EB) HT) as (rows & Er & Es & _);
    [rewrite EB; reflexivity|lia|intros a m []|].
  exists FullStop, diag0, [diag1], [b], false, T, rows. split; [exact diag_valid|]. split; [exact Hs|]. split; [exact (diag_layered b EB)|].
  split; [exact HT|]. split; [exact Er|]. simpl in Es |- *. lra.
Qed.
(** Without layers, and for blocks before the first layer cue. *)
Theorem C50_other_cases bl : save_layer_metrics false bl = Ok None /\
  (starts (fun b => k_layer (b_B b) = None) bl -> bl <> [] -> save_layer_metrics true bl = Err TypeError).
Proof.
  split; [reflexivity|]. intros H Hne. destruct bl as [|b bl]; [contradiction|]. simpl in H. unfold save_layer_metrics. cbn [layer_loop]. rewrite H. reflexivity.
Qed.
(** Two moves in one layer meet the hypotheses of the first theorem. *)
Definition square2 : kstate := KState (V4 2 (-2) 0 2) 20 500 8 None (Some 1%nat).
Example C50_example fw : exists bl T, valid_program diag0 [diag1; square2] /\ simulate fw [diag0; diag1; square2] = Ok (bl, false) /\ layered bl /\
  print_time bl T /\ ~ last_opens_layer bl.
Proof.
  assert (Hv : valid_program diag0 [diag1; square2]).
  { split; [|split].
    - repeat first [apply Forall_nil | apply Forall_cons];
        (split; [simpl; lra|]; split; [simpl; lra|]; split; [simpl; lra|]); intros p Hp; discriminate Hp.
    - reflexivity.
    - simpl. split; [reflexivity|]. left. exact diag_moves. }
  destruct (simulation_succeeds fw _ _ Hv) as (bl & Hs). destruct (two_blocks _ _ _ _ _ _ Hv Hs diag_moves) as (a & b & -> & E1 & E2 & E3 & E4).
  { intros E. apply (f_equal vy) in E. simpl in E. lra. }
  destruct (sim_timed _ _ _ _ _ Hv Hs) as (T & _ & HT). exists [a; b], T. split; [exact Hv|]. split; [exact Hs|].
  split; [|split; [apply HT; discriminate|]].
  - split; [repeat apply Forall_cons; [rewrite E2; exists 1%nat; reflexivity|rewrite E4; exists 1%nat; reflexivity|apply Forall_nil]|].
    simpl. rewrite E2, E4. simpl. split; [intros m n A B; injection A as <-; injection B as <-; lia|auto].
  - intros (pre & c & n & E & Hn & Hpos & Hall). destruct pre as [|x [|y pre]]; [discriminate| |destruct pre; discriminate].
    injection E as <- <-. rewrite E4 in Hn. injection Hn as <-. specialize (Hall a 1%nat (or_introl eq_refl)). rewrite E2 in Hall. specialize (Hall eq_refl). lia.
Qed.

(** C51: the travel distance of the last block is missing, everything else is right. *)
Theorem C51_travel_sum_partial fw s0 states pre b wn :
  valid_program s0 states -> simulate fw (s0 :: states) = Ok (pre ++ [b], wn) -> layered (pre ++ [b]) ->
  exists rows, save_layer_metrics true (pre ++ [b]) = Ok (Some rows) /\
    Rsum row_travel rows + block_travel b = Rsum block_travel (pre ++ [b]) /\
    (forall r, In r rows -> row_travel r = Rsum block_travel (filter (in_layer (row_layer r)) pre) /\
       (row_duration r <> 0 -> exists v, row_speed r = Some v /\ v * row_duration r = row_travel r) /\ (row_duration r = 0 -> row_speed r = None)).
Proof.
  intros Hv Hs Hl. destruct (sim_timed _ _ _ _ _ Hv Hs) as (T & Ht & _). assert (Hne : pre ++ [b] <> []) by (destruct pre; discriminate).
  destruct (layer_loop_ok (pre ++ [b]) 0 0 0 0 T Ht Hl Hne ltac:(intros; lia)) as (rows & E & _ & _ & _ & _ & Hrow & Htr & _).
  rewrite removelast_last in *. unfold save_layer_metrics. rewrite E. exists rows. split; [reflexivity|]. split.
  - rewrite Htr. clear. unfold Rsum. induction pre as [|a pre IH]; simpl in *; lra.
  - intros r Hr. destruct (Hrow r Hr) as (_ & _ & -> & ->). unfold average_speed. split; [|split].
    + destruct (Nat.eqb _ _); ring.
    + intros Hd. rewrite (proj2 (Reqb_neq _ _) Hd). eexists. split; [reflexivity|]. field. exact Hd.
    + intros ->. rewrite Reqb_refl. reflexivity.
Qed.
Theorem C51_refuted : exists fw s0 states bl wn rows, valid_program s0 states /\ simulate fw (s0 :: states) = Ok (bl, wn) /\ layered bl /\
  save_layer_metrics true bl = Ok (Some rows) /\ Rsum row_travel rows <> Rsum block_travel bl.
Proof.
  destruct (diag_block FullStop) as (b & Hs & EA & EB). pose proof (diag_travels b EA EB) as Ht. unfold travels in Ht. fold (block_travel b) in Ht.
  destruct (C51_travel_sum_partial FullStop diag0 [diag1] [] b false diag_valid Hs (diag_layered b EB)) as (rows & Er & Es & _).
  exists FullStop, diag0, [diag1], [b], false, rows. split; [exact diag_valid|]. split; [exact Hs|]. split; [exact (diag_layered b EB)|]. split; [exact Er|].
  simpl in Es |- *. lra.
Qed.

(** * C52: submodel times *)
(** The result lists, in time order, exactly the times of the crossings of the
    faces, as entries where the move goes against the outward normal. *)
Theorem C52_crossings bl c m t : write_submodel_times bl c = Ok m ->
  (In t (time_in m) <-> exists b n p, In b bl /\ crosses c b n p /\ dot3 n (sub3 (to_of b) (from_of b)) < 0 /\
     inverse_time_at_pos b (len3 (sub3 p (from_of b))) = Ok t) /\
  (In t (time_out m) <-> exists b n p, In b bl /\ crosses c b n p /\ 0 < dot3 n (sub3 (to_of b) (from_of b)) /\
     inverse_time_at_pos b (len3 (sub3 p (from_of b))) = Ok t) /\
  ascending (time_in m) /\ ascending (time_out m) /\ n_filaments m = length (time_in m) /\ print_time bl (time_process m).
Proof.
  intros H. destruct (submodel_in bl c m t H) as [H1 H2]. split; [exact H1|]. split; [exact H2|].
  destruct (submodel_inv _ _ _ H) as (table & l & Et & _ & -> & b & Hb & Hl & pre & E). cbn [time_in time_out n_filaments time_process].
  split; [apply sorted_filter, sort_sorted|]. split; [apply sorted_filter, sort_sorted|]. split; [reflexivity|].
  unfold last_seg in Hl. destruct (rev (b_segs b)) as [|x r] eqn:Er; [discriminate|]. injection Hl as ->.
  apply (f_equal (@rev _)) in Er. rewrite rev_involutive in Er. simpl in Er.
  exists (flat_map b_segs pre ++ rev r), l. split; [|reflexivity].
  subst bl. unfold unpack_blocklist. rewrite flat_map_app. simpl. rewrite app_nil_r, Er, app_assoc. reflexivity.
Qed.
(** A move into the volume has an entry, a move out of it an exit. *)
Lemma coarse_normal c b n pl : coarse b -> face c n pl -> dot3 n (sub3 (to_of b) (from_of b)) <> 0 -> 1 / 1000000 < Rabs (dot3 n (sub3 (to_of b) (from_of b))).
Proof.
  unfold coarse. set (d := sub3 (to_of b) (from_of b)). intros H Hf Hd. inversion H as [|? ? H0 H']; subst. inversion H' as [|? ? H1 H'']; subst. inversion H'' as [|? ? H2 _]; subst.
  destruct Hf; unfold dot3 in *; simpl in *;
    match goal with |- _ < Rabs ?e => match e with context [1 * ?x] => replace e with x in * by ring | context [-1 * ?x] => replace e with (- x) in * by ring end end;
    try rewrite Rabs_Ropp; match goal with H : ?x = 0 \/ _ |- _ < Rabs ?x => destruct H; [exfalso; lra|assumption] end.
Qed.
Theorem C52_complete bl c m b : write_submodel_times bl c = Ok m -> In b bl -> coarse b ->
  (~ in_box c (from_of b) -> in_box c (to_of b) ->
     exists n p t, crosses c b n p /\ In t (time_in m) /\ inverse_time_at_pos b (len3 (sub3 p (from_of b))) = Ok t) /\
  (in_box c (from_of b) -> ~ in_box c (to_of b) ->
     exists n p t, crosses c b n p /\ In t (time_out m) /\ inverse_time_at_pos b (len3 (sub3 p (from_of b))) = Ok t).
Proof.
  intros H Hb Hc. assert (D : forall n p, crosses c b n p -> exists t, inverse_time_at_pos b (len3 (sub3 p (from_of b))) = Ok t).
  { destruct (submodel_inv _ _ _ H) as (table & l & Et & _). intros n p (M & L & N). exact (table_times _ _ _ Et b n p Hb N M L). }
  split; intros Ha Hb'.
  - destruct (enters_somewhere c _ _ Ha Hb') as (n & p & M & Dn). 
    assert (X : crosses c b n p) by (split; [exact M|]; split; [destruct M as (pl & r & Hf & _); apply (coarse_normal c b n pl Hc Hf); lra|tauto]).
    destruct (D _ _ X) as (t & Et). exists n, p, t. split; [exact X|]. split; [|exact Et]. apply (submodel_in bl c m t H). eauto 8.
  - destruct (leaves_somewhere c _ _ Ha Hb') as (n & p & M & Dn). 
    assert (X : crosses c b n p) by (split; [exact M|]; split; [destruct M as (pl & r & Hf & _); apply (coarse_normal c b n pl Hc Hf); lra|tauto]).
    destruct (D _ _ X) as (t & Et). exists n, p, t. split; [exact X|]. split; [|exact Et]. apply (submodel_in bl c m t H). eauto 8.
Qed.
(** Where the move does not brake, the nozzle is at the crossing at the given time. *)
Theorem C52_nozzle_there_unless_braking fw s0 states bl wn c m b n p s :
  valid_program s0 states -> no_moving_pause s0 states -> simulate fw (s0 :: states) = Ok (bl, wn) -> write_submodel_times bl c = Ok m ->
  In b bl -> crosses c b n p -> falls_into b s (len3 (sub3 p (from_of b))) -> ~ braking s ->
  exists t v q, In t (time_in m ++ time_out m) /\ on_path (unpack_blocklist bl) t v q /\ vec3_of q = p.
Proof.
  intros Hv Hn Hs H Hb X Hf Hbr. assert (Hd : dot3 n (sub3 (to_of b) (from_of b)) <> 0).
  { destruct X as (_ & L & _). intros Z. rewrite Z, Rabs_R0 in L. lra. }
  destruct (crossing_moves _ _ _ _ _ _ _ Hv Hn Hs Hb Hd) as [Hp Ht].
  destruct (C47_inverse_time_partial _ _ _ _ _ _ _ _ Hv Hs Hb Hp Ht Hf Hbr) as (t & Et & Hr).
  destruct X as (M & L & N). destruct M as (pl & r & Hpl & Hrr & E & Hpp & Hbox). pose proof E as E'. rewrite E' in Hr. rewrite len3_way in Hr by lra.
  destruct (reached_position _ _ _ _ _ _ _ _ Hv Hn Hs Hb (proj1 Hrr) Ht Hr) as (v & q & Hq & Eq). exists t, v, q. split; [|split; [exact Hq|congruence]].
  destruct (submodel_in bl c m t H) as [I O]. assert (X : crosses c b n p) by (split; [exists pl, r; auto|auto]).
  apply in_or_app. destruct (Rlt_dec (dot3 n (sub3 (to_of b) (from_of b))) 0) as [Lt|Ge]; [left; apply I|right; apply O]; exists b, n, p; (split; [exact Hb|]; split; [exact X|]; split; [lra|exact Et]).
Qed.

(** The vector operations in these statements, in coordinates. *)
Theorem C52_coordinates (a b n : vec3) (p : vec4) r :
  vec3_of p = V3 (vx p) (vy p) (vz p) /\
  on_way a b r = V3 (c0 a + (c0 b - c0 a) * r) (c1 a + (c1 b - c1 a) * r) (c2 a + (c2 b - c2 a) * r) /\
  dot3 n (sub3 b a) = c0 n * (c0 b - c0 a) + c1 n * (c1 b - c1 a) + c2 n * (c2 b - c2 a) /\
  len3 (sub3 b a) = sqrt ((c0 b - c0 a) * (c0 b - c0 a) + (c1 b - c1 a) * (c1 b - c1 a) + (c2 b - c2 a) * (c2 b - c2 a)).
Proof. repeat split. Qed.

(** * C67: entries per move *)
(** All entries of a move are the same one, and so are all exits. *)
Theorem C67_one_entry_point c b n p n' p' : crosses c b n p -> crosses c b n' p' ->
  (dot3 n (sub3 (to_of b) (from_of b)) < 0 -> dot3 n' (sub3 (to_of b) (from_of b)) < 0 -> p = p') /\
  (0 < dot3 n (sub3 (to_of b) (from_of b)) -> 0 < dot3 n' (sub3 (to_of b) (from_of b)) -> p = p').
Proof.
  intros (M & _) (M' & _). split; [apply (entry_unique c _ _ _ _ _ _ M M')|apply (exit_unique c _ _ _ _ _ _ M M')].
Qed.

(** * C68: the times can be written *)
Theorem C68_times_partial fw s0 states bl wn c :
  valid_program s0 states -> no_moving_pause s0 states -> simulate fw (s0 :: states) = Ok (bl, wn) ->
  (exists b n p, In b bl /\ crosses c b n p) -> (forall b n p, In b bl -> crosses c b n p -> p <> from_of b) ->
  exists m, write_submodel_times bl c = Ok m.
Proof.
  intros Hv Hn Hs (b & n & p & Hb & X) Hne.
  assert (D : forall b n p, In b bl -> ~ (in_box c (from_of b) /\ in_box c (to_of b)) -> meets c (from_of b) (to_of b) n p ->
     1 / 1000000 < Rabs (dot3 n (sub3 (to_of b) (from_of b))) -> exists t, inverse_time_at_pos b (len3 (sub3 p (from_of b))) = Ok t).
  { intros b' n' p' Hb' N M L. assert (X' : crosses c b' n' p') by (split; [exact M|auto]). exact (crossing_time _ _ _ _ _ _ _ _ _ Hv Hn Hs Hb' X' (Hne _ _ _ Hb' X')). }
  destruct (table_defined c bl D) as (table & Et). unfold write_submodel_times. rewrite Et. cbn [bind].
  destruct X as (M & L & N). destruct (D b n p Hb N M L) as (t & Ett).
  assert (Hin : In (t, Rltb (dot3 n (sub3 (to_of b) (from_of b))) 0) table) by (apply (table_in c bl table Et); exists b, n, p; auto 8).
  destruct table as [|x table]; [destruct Hin|]. destruct (rev bl) as [|l r] eqn:Er.
  { apply (f_equal (@rev _)) in Er. rewrite rev_involutive in Er. subst bl. destruct Hb. }
  assert (Hl : In l bl) by (apply in_rev; rewrite Er; left; reflexivity).
  destruct (simulate_fchain _ _ _ _ _ Hv Hs) as (wl & Hf). destruct (fchain_in _ _ _ _ _ _ Hf l Hl) as (t1 & p1 & t1' & p1' & s & e & Hwf).
  assert (Hsegs : b_segs l <> []) by (destruct Hwf as [? ? ? ? ? ? ? ? ? ? ? ? ? ? ? ? Hne' | ? ? ? ? ? ? E]; [assumption|rewrite E; discriminate]).
  destruct (exists_last Hsegs) as (pre & g & Eg). unfold last_seg. rewrite Eg, rev_app_distr. simpl. eauto.
Qed.
(** Without a crossing, and with a crossing at the begin of a move from rest, it fails. *)
Theorem C68_no_crossing bl c : (forall b n p, In b bl -> ~ crosses c b n p) -> write_submodel_times bl c = Err IndexError.
Proof.
  intros H. destruct (table_defined c bl) as (table & Et); [intros b n p Hb N M L; exfalso; apply (H b n p Hb); split; [exact M|auto]|].
  unfold write_submodel_times. rewrite Et. cbn [bind]. destruct table as [|[t g] table]; [reflexivity|].
  destruct (proj1 (table_in c bl _ Et t g) (or_introl eq_refl)) as (b & n & p & Hb & N & M & L & _). exfalso. apply (H b n p Hb). split; [exact M|auto].
Qed.
(** The diagonal move and three volumes: through an edge, elsewhere, around the start. *)
Definition cube_mid : cube := Cube (V3 0 0 0) (V3 2 2 2).
Definition cube_far : cube := Cube (V3 100 0 0) (V3 2 2 2).
Definition cube_start : cube := Cube (V3 (-3) (-3) 0) (V3 2 2 2).
Lemma diag_way b r : b_A b = diag0 -> b_B b = diag1 -> on_way (from_of b) (to_of b) r = V3 (-2 + 4 * r) (-2 + 4 * r) 0.
Proof. intros EA EB. unfold from_of, to_of, vec3_of. rewrite EA, EB. apply vec3_ext; simpl; ring. Qed.
Lemma box_mid q : in_box cube_mid (V3 q q 0) <-> -1 <= q <= 1.
Proof. unfold in_box. simpl. rewrite !abs_le. split; intros; repeat split; lra. Qed.
Ltac in_numbers := unfold dot3, from_of, to_of, vec3_of; simpl.
Lemma diag_mid b n p : b_A b = diag0 -> b_B b = diag1 -> crosses cube_mid b n p ->
  p = V3 (-1) (-1) 0 /\ (n = V3 (-1) 0 0 \/ n = V3 0 (-1) 0) \/ p = V3 1 1 0 /\ (n = V3 1 0 0 \/ n = V3 0 1 0).
Proof.
  intros EA EB ((pl & r & Hf & Hr & -> & Hp & Hb) & L & _). rewrite (diag_way b r EA EB) in *. unfold from_of, to_of in L. rewrite EA, EB in L.
  destruct Hf; simpl in Hp; unfold dot3 in L; simpl in L;
    try (exfalso; match type of L with context [Rabs ?e] => replace e with 0 in L by ring end; rewrite Rabs_R0 in L; lra);
    first [right; split; [apply vec3_ext; simpl; lra|tauto] | left; split; [apply vec3_ext; simpl; lra|tauto]].
Qed.
Lemma diag_crosses b : b_A b = diag0 -> b_B b = diag1 -> crosses cube_mid b (V3 (-1) 0 0) (V3 (-1) (-1) 0).
Proof.
  intros EA EB. split; [|split].
  - eexists _, (1 / 4). split; [apply f_x0|]. split; [lra|]. split; [rewrite (diag_way b _ EA EB); apply vec3_ext; simpl; lra|]. split; [simpl; lra|].
    apply box_mid. lra.
  - unfold from_of, to_of. rewrite EA, EB. in_numbers. rewrite Rabs_left; lra.
  - intros [H _]. unfold from_of in H. rewrite EA in H. destruct H as (H & _). simpl in H. apply abs_le in H. lra.
Qed.
(** The hypotheses of the theorems on success, completeness and position are met. *)
Example C68_example fw : exists b m, simulate fw [diag0; diag1] = Ok ([b], false) /\ write_submodel_times [b] cube_mid = Ok m /\ coarse b /\
  crosses cube_mid b (V3 (-1) 0 0) (V3 (-1) (-1) 0) /\ (forall n p, crosses cube_mid b n p -> p <> from_of b).
Proof.
  destruct (diag_block fw) as (b & Hs & EA & EB). pose proof (diag_crosses b EA EB) as X.
  assert (N : forall n p, crosses cube_mid b n p -> p <> from_of b).
  { intros n p Hc E. unfold from_of in E. rewrite EA in E. apply (f_equal c0) in E. simpl in E.
    destruct (diag_mid _ _ _ EA EB Hc) as [[-> _]|[-> _]]; simpl in E; lra. }
  destruct (C68_times_partial fw diag0 [diag1] [b] false cube_mid diag_valid diag_no_moving_pause Hs) as (m & Em).
  { exists b, (V3 (-1) 0 0), (V3 (-1) (-1) 0). split; [left; reflexivity|exact X]. }
  { intros b' n p [<-|[]]. apply N. }
  exists b, m. split; [exact Hs|]. split; [exact Em|]. split; [|split; [exact X|exact N]].
  unfold coarse, from_of, to_of. rewrite EA, EB. simpl. apply Forall_cons; [right; rewrite Rabs_right; lra|]. apply Forall_cons; [right; rewrite Rabs_right; lra|].
  apply Forall_cons; [left; lra|apply Forall_nil].
Qed.
(** One move, counted as two filaments: it enters through an edge. *)
Theorem C67_refuted : exists fw s0 states b wn c m, valid_program s0 states /\ no_moving_pause s0 states /\ simulate fw (s0 :: states) = Ok ([b], wn) /\
  write_submodel_times [b] c = Ok m /\ n_filaments m = 2%nat /\ length (time_out m) = 2%nat.
Proof.
  destruct (C68_example FullStop) as (b & m & Hs & Em & _ & X & _). destruct (one_block _ _ _ _ _ diag_valid Hs diag_moves) as (b' & E & EA & EB). injection E as <-.
  exists FullStop, diag0, [diag1], b, false, cube_mid, m. split; [exact diag_valid|]. split; [exact diag_no_moving_pause|]. split; [exact Hs|]. split; [exact Em|].
  unfold write_submodel_times in Em. destruct (timetable_loop cube_mid [b]) as [table|] eqn:Et; [|discriminate]. cbn [bind] in Em.
  assert (K : exists t t', table = [(t', false); (t, true); (t', false); (t, true)]).
  { cbn [timetable_loop] in Et. destruct X as ((pl & r & _ & Hr & Ep & _ & Hbox) & _ & Nn).
    fold (from_of b) (to_of b) in Et. rewrite (possible _ _ _ _ r Hr Ep Hbox Nn) in Et.
    assert (I : forall o n, isect_line_plane (from_of b) (to_of b) o n = isect_line_plane (V3 (-2) (-2) 0) (V3 2 2 0) o n)
      by (intros; unfold from_of, to_of; rewrite EA, EB; reflexivity).
    assert (J : forall o n x y, dot3 n (V3 4 4 0) = x -> dot3 n (sub3 (V3 (-2) (-2) 0) o) = y -> 1 / 1000000 < Rabs x -> 0 <= - y / x <= 1 ->
      isect_line_plane (V3 (-2) (-2) 0) (V3 2 2 0) o n = Some (V3 (-2 + 4 * (- y / x)) (-2 + 4 * (- y / x)) 0, len3 (V3 (4 * (- y / x)) (4 * (- y / x)) 0), Rltb x 0)).
    { intros o n x y <- <- L F. unfold isect_line_plane. replace (sub3 (V3 2 2 0) (V3 (-2) (-2) 0)) with (V3 4 4 0) by (apply vec3_ext; simpl; lra).
      rewrite (Rltb_true _ _ L). destruct F as [F0 F1]. rewrite (Rleb_true _ _ F0), (Rleb_true _ _ F1). cbn [andb].
      set (q := - dot3 n (sub3 (V3 (-2) (-2) 0) o) / dot3 n (V3 4 4 0)).
      replace (scale3 q (V3 4 4 0)) with (V3 (4 * q) (4 * q) 0) by (apply vec3_ext; simpl; ring).
      replace (add3 (V3 (-2) (-2) 0) (V3 (4 * q) (4 * q) 0)) with (V3 (-2 + 4 * q) (-2 + 4 * q) 0) by (apply vec3_ext; simpl; ring). reflexivity. }
    assert (Z : forall o n, dot3 n (V3 4 4 0) = 0 -> isect_line_plane (V3 (-2) (-2) 0) (V3 2 2 0) o n = None).
    { intros o n E. unfold isect_line_plane. replace (sub3 (V3 2 2 0) (V3 (-2) (-2) 0)) with (V3 4 4 0) by (apply vec3_ext; simpl; lra).
      rewrite E, Rabs_R0, Rltb_false by lra. reflexivity. }
    assert (P1 : forall o n, dot3 n (V3 4 4 0) = 4 -> dot3 n (sub3 (V3 (-2) (-2) 0) o) = -3 ->
      isect_line_plane (from_of b) (to_of b) o n = Some (V3 1 1 0, len3 (V3 3 3 0), false)).
    { intros o n D1 D2. rewrite I, (J _ _ _ _ D1 D2), (Rltb_false 4 0); [|lra|rewrite Rabs_right; lra|lra].
      replace (4 * (- -3 / 4)) with 3 by lra. replace (-2 + 3) with 1 by lra. reflexivity. }
    assert (P2 : forall o n, dot3 n (V3 4 4 0) = -4 -> dot3 n (sub3 (V3 (-2) (-2) 0) o) = 1 ->
      isect_line_plane (from_of b) (to_of b) o n = Some (V3 (-1) (-1) 0, len3 (V3 1 1 0), true)).
    { intros o n D1 D2. rewrite I, (J _ _ _ _ D1 D2), (Rltb_true (-4) 0); [|lra|rewrite Rabs_left; lra|replace (- (1) / -4) with (1 / 4) by field; lra].
      replace (4 * (- (1) / -4)) with 1 by field. replace (-2 + 1) with (-1) by lra. reflexivity. }
    assert (B1 : point_inside (point_eval (V3 1 1 0) (get_plane_lim cube_mid)) = true) by (apply inside_box, box_mid; lra).
    assert (B2 : point_inside (point_eval (V3 (-1) (-1) 0) (get_plane_lim cube_mid)) = true) by (apply inside_box, box_mid; lra).
    destruct (face_loop b (get_plane_lim cube_mid) (get_plane_orig cube_mid) get_plane_normals) as [tab|] eqn:Ef; [|discriminate]. cbn [bind] in Et. rewrite app_nil_r in Et.
    unfold get_plane_orig, get_plane_normals in Ef.
    eapply face_hit in Ef as (t1 & r1 & T1 & Ef & E1); [|apply P1; in_numbers; lra|exact B1].
    eapply face_hit in Ef as (t2 & r2 & T2 & Ef & E2); [|apply P2; in_numbers; lra|exact B2].
    eapply face_hit in Ef as (t3 & r3 & T3 & Ef & E3); [|apply P1; in_numbers; lra|exact B1].
    eapply face_hit in Ef as (t4 & r4 & T4 & Ef & E4); [|apply P2; in_numbers; lra|exact B2].
    rewrite face_skip in Ef by (rewrite I; apply Z; in_numbers; lra). rewrite face_skip in Ef by (rewrite I; apply Z; in_numbers; lra).
    injection Ef as <-. exists t2, t1. congruence. }
  destruct K as (t & t' & ->). destruct (rev [b]) as [|l rl]; [discriminate|]. destruct (last_seg (b_segs l)) as [g|]; [|discriminate]. cbn [bind] in Em. injection Em as <-.
  cbn [n_filaments time_out]. unfold sort_times. simpl.
  repeat (match goal with |- context [Rleb ?x ?y] => destruct (Rleb x y) end; simpl); split; reflexivity.
Qed.
(** Both failures happen for a valid print. *)
Theorem C68_refuted : exists fw s0 states bl wn, valid_program s0 states /\ no_moving_pause s0 states /\ simulate fw (s0 :: states) = Ok (bl, wn) /\ bl <> [] /\
  (exists c, write_submodel_times bl c = Err IndexError) /\ (exists c, write_submodel_times bl c = Err ValueError).
Proof.
  destruct (diag_block FullStop) as (b & Hs & EA & EB). exists FullStop, diag0, [diag1], [b], false.
  split; [exact diag_valid|]. split; [exact diag_no_moving_pause|]. split; [exact Hs|]. split; [discriminate|]. split.
  - exists cube_far. apply C68_no_crossing. intros b' n p [<-|[]] ((pl & r & Hf & Hr & -> & Hp & (Hb & _)) & _).
    rewrite (diag_way b r EA EB) in Hb. simpl in Hb. apply abs_le in Hb. lra.
  - exists cube_start. unfold write_submodel_times. 
    assert (Hp : k_pause (b_B b) = None) by (rewrite EB; reflexivity). pose proof (diag_travels b EA EB) as Ht.
    destruct (first_block_rests _ _ _ _ _ _ diag_valid Hs Hp Ht) as (g & l & d & t' & v' & p' & Hd & E & Hz & Hm).
    assert (I0 : inverse_time_at_pos b 0 = Err ValueError).
    { apply (proj1 (C47_start _ _ _ _ _ _ _ _ diag_valid Hs (or_introl eq_refl) Hp Ht E)).
      inversion Hm as [|? ? ? ? ? ? ? ? ? E1 E2 Hr Hm']; subst. destruct Hr as (_ & -> & _). vec. }
    cbn [timetable_loop]. fold (from_of b) (to_of b).
    rewrite (possible cube_start (from_of b) (to_of b) (from_of b) 0).
    2: lra. 2: { rewrite (diag_way b 0 EA EB). unfold from_of. rewrite EA. apply vec3_ext; simpl; lra. }
    2: { unfold from_of. rewrite EA. unfold in_box. simpl. rewrite !abs_le. lra. }
    2: { intros [_ (H & _)]. unfold to_of in H. rewrite EB in H. simpl in H. apply abs_le in H. lra. }
    assert (J : isect_line_plane (from_of b) (to_of b) (V3 (c0 (origin cube_start) + c0 (side_len cube_start) / 2) 0 0) (V3 1 0 0) = Some (V3 (-2) (-2) 0, 0, false)).
    { unfold isect_line_plane, from_of, to_of. rewrite EA, EB. in_numbers. 
      replace (1 * (2 - -2) + 0 * (2 - -2) + 0 * (0 - 0)) with 4 by ring. rewrite (Rltb_true (1 / 1000000) (Rabs 4)) by (rewrite Rabs_right; lra).
      match goal with |- context [Rleb 0 ?f] => replace f with 0 by lra end. rewrite (Rleb_true 0 0), (Rleb_true 0 1), (Rltb_false 4 0) by lra.
      cbn [andb]. unfold len3, dot3, add3, scale3. simpl. repeat f_equal; try ring. match goal with |- sqrt ?e = 0 => replace e with 0 by ring end. apply sqrt_0. }
    destruct (face_loop b (get_plane_lim cube_start) (get_plane_orig cube_start) get_plane_normals) as [now|e] eqn:Ef.
    { eapply face_hit in Ef as (t & r & T & _); [|exact J|]; [rewrite I0 in T; discriminate|]. apply inside_box. unfold in_box. simpl. rewrite !abs_le. lra. }
    unfold get_plane_orig, get_plane_normals in Ef. cbn [face_loop] in Ef. fold (from_of b) (to_of b) in Ef.
    rewrite J, (proj2 (inside_box cube_start (V3 (-2) (-2) 0))), I0 in Ef; [injection Ef as <-; reflexivity|]. unfold in_box. simpl. rewrite !abs_le. lra.
Qed.
(** A volume that the diagonal move enters at the end of its first segment. *)
Example C52_example fw : exists b c m n p s, simulate fw [diag0; diag1] = Ok ([b], false) /\ write_submodel_times [b] c = Ok m /\
  crosses c b n p /\ falls_into b s (len3 (sub3 p (from_of b))) /\ ~ braking s.
Proof.
  destruct (diag_block fw) as (b & Hs & EA & EB). pose proof (diag_travels b EA EB) as Ht. assert (Hp : k_pause (b_B b) = None) by (rewrite EB; reflexivity).
  destruct (first_block_rests _ _ _ _ _ _ diag_valid Hs Hp Ht) as (s & l & d & t' & v' & p' & Hd & E & Hz & Hm).
  assert (T : forall g, In g (b_segs b) -> 0 < seg_travel g) by (intros g Hg; rewrite E in Hg; exact (motion_travels _ _ _ _ _ _ _ _ _ _ g Hd Hm Hg)).
  assert (T1 : 0 < seg_travel s) by (apply T; rewrite E; left; reflexivity).
  pose proof (block_travelled _ _ _ _ _ _ diag_valid Hs (or_introl eq_refl) Hp Ht) as El.
  assert (T2 : seg_travel s <= block_travel b).
  { rewrite <- El, E. unfold travelled. simpl. assert (0 <= Rsum seg_travel l); [|unfold Rsum in *; simpl; lra].
    assert (T' : forall g, In g l -> 0 < seg_travel g) by (intros g Hg; apply T; rewrite E; right; exact Hg).
    clear -T'. unfold Rsum. induction l as [|g l IH]; simpl; [lra|]. assert (0 < seg_travel g) by (apply T'; left; reflexivity).
    pose proof (IH (fun g0 Hg => T' g0 (or_intror Hg))). simpl in *. lra. }
  set (r := seg_travel s / block_travel b). assert (Hb0 : 0 < block_travel b) by exact Ht.
  assert (Hr : 0 < r <= 1). { unfold r. split; [apply Rdiv_lt_0_compat; lra|]. apply (Rmult_le_reg_r (block_travel b)); [lra|]. unfold Rdiv. rewrite Rmult_assoc, Rinv_l by lra. lra. }
  set (x := -2 + 4 * r). set (c := Cube (V3 (x + 10) x 0) (V3 20 20 2)). 
  assert (Hin : forall p, in_box c p -> c0 p <> -2). { intros p (H & _) Z. rewrite Z in H. simpl in H. apply abs_le in H. unfold x in H. lra. }
  assert (X : crosses c b (V3 (-1) 0 0) (V3 x x 0)).
  { split; [|split].
    - eexists _, r. split; [apply f_x0|]. split; [lra|]. split; [rewrite (diag_way b _ EA EB); apply vec3_ext; simpl; unfold x; lra|]. split; [simpl; lra|].
      unfold in_box. simpl. rewrite !abs_le. lra.
    - unfold from_of, to_of. rewrite EA, EB. in_numbers. rewrite Rabs_left; lra.
    - intros [H _]. apply (Hin _ H). unfold from_of. rewrite EA. reflexivity. }
  assert (N : forall n p, crosses c b n p -> p <> from_of b).
  { intros n p ((pl & q & _ & _ & _ & _ & Hb) & _) ->. apply (Hin _ Hb). unfold from_of. rewrite EA. reflexivity. }
  destruct (C68_times_partial fw diag0 [diag1] [b] false c diag_valid diag_no_moving_pause Hs) as (m & Em).
  { exists b, (V3 (-1) 0 0), (V3 x x 0). split; [left; reflexivity|exact X]. }
  { intros b' n p [<-|[]]. apply N. }
  exists b, c, m, (V3 (-1) 0 0), (V3 x x 0), s. split; [exact Hs|]. split; [exact Em|]. split; [exact X|]. split.
  - replace (V3 x x 0) with (on_way (from_of b) (to_of b) r) by (rewrite (diag_way b _ EA EB); reflexivity). rewrite len3_way by lra.
    replace (r * block_travel b) with (seg_travel s) by (unfold r; field; lra). exists [], l. split; [exact E|]. unfold travelled. simpl. lra.
  - unfold braking. rewrite Hz. pose proof (norm3_nonneg (vel_end s)). lra.
Qed.

Print Assumptions C47_inverse_time_partial.
Print Assumptions C47_domain.
Print Assumptions C47_start.
Print Assumptions C47_too_early_when_braking.
Print Assumptions C47_last_move_wrong.
Print Assumptions C47_refuted.
Print Assumptions C48_events.
Print Assumptions C48_events_on_trajectory.
Print Assumptions C48_refused.
Print Assumptions C49_interpolation_bound.
Print Assumptions C49_interpolation_exact_partial.
Print Assumptions C49_refuted.
Print Assumptions C50_layer_durations_partial.
Print Assumptions C50_last_layer_lost.
Print Assumptions C50_refuted.
Print Assumptions C50_other_cases.
Print Assumptions C51_travel_sum_partial.
Print Assumptions C51_refuted.
Print Assumptions C52_crossings.
Print Assumptions C52_complete.
Print Assumptions C52_nozzle_there_unless_braking.
Print Assumptions C52_coordinates.
Print Assumptions C67_one_entry_point.
Print Assumptions C68_times_partial.
Print Assumptions C68_no_crossing.
Print Assumptions C67_refuted.
Print Assumptions C68_refuted.
