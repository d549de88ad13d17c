(** C108: a machine that stops after every line is simulated with doubles: no
    error, no warning, whatever the program.  C109: the print time is right to a
    nanosecond per line.  Vocabulary: SpecStop.v, SpecTime.v, SpecQuery.v. *)
From Coq Require Import Reals Lra Lia.
From Verif Require Import Py Vec StateGen Junction Planner SpecKin SpecTime SpecQuery PropertiesPlan PropertiesTime Rounding SpecRounding Generic SpecGeneric SpecDrift SpecStop RealFacts
  RoundingProofs FloatMoveProofs FloatDriftProofs FloatPlanProofs FloatStopProofs PropertiesFloat PropertiesDrift StopTimeFacts PlannerProofs.
Open Scope R_scope.

Lemma binary64_mono x y : x <= y -> binary64 x <= binary64 y.
Proof.
  intros [L| ->]; [|lra]. destruct (Rle_or_lt (binary64 x) (binary64 y)) as [G|G]; [exact G|].
  pose proof (binary64_nearest x _ (binary64_double y)) as X. pose proof (binary64_nearest y _ (binary64_double x)) as Y.
  unfold Rabs in X, Y. repeat destruct (Rcase_abs _); lra.
Qed.
Lemma binary64_idem x : binary64 (binary64 x) = binary64 x.
Proof. apply binary64_fix, binary64_double. Qed.
Lemma stops_doubles s0 rest :
  ordinary_program s0 rest -> INR (length (s0 :: rest)) <= 1000000000 -> program_time s0 rest <= 500000 ->
  exists bl t, gsimulate D64 FullStop (s0 :: rest) = Ok (bl, false) /\ over_at bl t /\
    Rabs (t - stop_times s0 rest) <= INR (length rest) * / 1000000000 + / 10000000000000 * stop_times s0 rest.
Proof.
  intros O N T. destruct binary64_rounds as (_ & E0 & Er).
  assert (U : powerRZ 2 (-53) = uu). { unfold uu. change (powerRZ 2 (-53)) with (/ (2 ^ Pos.to_nat 53)). rewrite pow_IZR. f_equal. }
  rewrite U in Er.
  assert (r2 : binary64 2 = 2) by (apply binary64_fix; exists 2%Z, 0%Z; split; [reflexivity|split; [lia|cbn; lra]]).
  exact (stops_simulated binary64 _ E0 Er binary64_pos binary64_neg binary64_0 r2 binary64_mono binary64_idem tiny_small eta_tiny s0 rest O N T).
Qed.
(** Up to a billion lines, moves of a micrometre and more at 0.01 to 1000 mm/s
    within ten metres, in all not more than about six days: the simulation
    succeeds and finds nothing to warn of. *)
Theorem C108_full_stop s0 rest :
  ordinary_program s0 rest -> INR (length (s0 :: rest)) <= 1000000000 -> program_time s0 rest <= 500000 ->
  exists bl, gsimulate D64 FullStop (s0 :: rest) = Ok (bl, false).
Proof. intros O N T. destruct (stops_doubles s0 rest O N T) as (bl & t & E & _). exists bl. exact E. Qed.

(** * C109: the print time *)
(** The last segment ends when the sum of the times from rest to rest is over, up
    to a nanosecond per line and a ten-trillionth of the time. *)
Theorem C109_time s0 rest bl w t :
  ordinary_program s0 rest -> INR (length (s0 :: rest)) <= 1000000000 -> program_time s0 rest <= 500000 ->
  gsimulate D64 FullStop (s0 :: rest) = Ok (bl, w) -> over_at bl t ->
  Rabs (t - stop_times s0 rest) <= INR (length rest) * / 1000000000 + / 10000000000000 * stop_times s0 rest.
Proof.
  intros O N T E Et. destruct (stops_doubles s0 rest O N T) as (bl' & t' & E' & Et' & B). rewrite E in E'. injection E' as <- _.
  replace t with t'; [exact B|]. unfold over_at in Et, Et'. destruct (concat (map (gb_segs D64) bl)); [congruence|].
  destruct Et as (p & x & Q & ->). destruct Et' as (p' & x' & Q' & ->). rewrite Q in Q'. apply app_inj_tail in Q' as [_ ->]. reflexivity.
Qed.
(** The same program planned with exact numbers *)
Lemma ordinary_valid s0 rest : ordinary_program (rnd := binary64) s0 rest -> valid_program (exact_state s0) (map exact_state rest).
Proof.
  intros (F & P & S). split; [|split; [exact P|]].
  - change (exact_state s0 :: map exact_state rest) with (map exact_state (s0 :: rest)). apply Forall_map.
    assert (Pz : forall X p, In X (s0 :: rest) -> gk_pause D64 X = Some p -> 0 <= p).
    { intros X p [<-|I] E; [congruence|]. revert I S. clear F P. generalize False s0. induction rest as [|B r IH]; intros m A I S; [contradiction|]. destruct S as (S1 & _ & S2).
      destruct I as [<-|I]; [unfold ordinary_step in S1; rewrite E in S1; apply S1|exact (IH _ B I S2)]. }
    rewrite Forall_forall in *. intros X I. destruct (F X I) as (Hv & Ha & Hj & _). unfold valid_state, exact_state. cbn [k_speed k_acc k_jerk k_pause].
    split; [lra|]. split; [lra|]. split; [exact Hj|]. intros p E. exact (Pz X p I E).
  - clear F P. assert (G : forall m : Prop, ~ m -> ordinary_steps m s0 rest -> moves_first (exact_state s0) (map exact_state rest)); [|exact (G False (fun x => x) S)].
    clear S. revert s0. induction rest as [|B r IH]; intros A m Nm S; [exact I|]. destruct S as (S1 & S2 & S3). cbn [map moves_first].
    split.
    + change (gk_pause D64 B = None). destruct (gk_pause D64 B) as [p|]; [contradiction Nm; apply S2; discriminate|reflexivity].
    + destruct (vec4_eq_dec (k_pos (exact_state B)) (k_pos (exact_state A))) as [E|E]; [right|left; exact E].
      apply (IH B (m \/ gk_pos D64 B <> gk_pos D64 A)); [|exact S3]. intros [M|M]; [exact (Nm M)|]. apply M.
      unfold exact_state in E. cbn [k_pos] in E. injection E as Ex Ey Ez Ee. destruct (gk_pos D64 A), (gk_pos D64 B). cbn in *. congruence.
Qed.
Lemma times_are rest : forall s0 m items, Forall ordinary_state (s0 :: rest) -> ordinary_steps (rnd := binary64) m s0 rest -> plan_items (exact_state s0) (map exact_state rest) items ->
  Rsum item_stop items = stop_times s0 rest.
Proof.
  induction rest as [|B r IH]; intros A m items F S Hi.
  - inversion Hi; subst. reflexivity.
  - destruct S as (S1 & _ & S2). inversion F as [|? ? FA F']; subst. cbn [map stop_times] in *. inversion Hi as [|? ? ? ? E1 E2 H|? ? ? ? E1 H]; subst.
    + rewrite (IH B _ _ F' S2 H). replace (stop_time (exact_state A) (exact_state B)) with 0; [ring|]. symmetry. apply stop_still.
      * exact E2.
      * inversion F'; assumption.
      * unfold exact_state in E1. cbn [k_pos] in E1. injection E1 as Ex Ey Ez Ee. destruct (gk_pos D64 A), (gk_pos D64 B). cbn in *. congruence.
    + unfold Rsum in *. cbn [fold_right item_stop]. rewrite (IH B _ _ F' S2 H). reflexivity.
Qed.
(** Planned with exact numbers it takes the same time, up to as much. *)
Theorem C109_exact s0 rest :
  ordinary_program s0 rest -> INR (length (s0 :: rest)) <= 1000000000 -> program_time s0 rest <= 500000 ->
  exists bl bl' t, gsimulate D64 FullStop (s0 :: rest) = Ok (bl, false) /\
    simulate FullStop (map exact_state (s0 :: rest)) = Ok (bl', false) /\ over_at bl t /\
    forall T, print_time bl' T -> Rabs (t - T) <= INR (length rest) * / 1000000000 + / 10000000000000 * T.
Proof.
  intros O N T. destruct (stops_doubles s0 rest O N T) as (bl & t & E & Et & B). pose proof (ordinary_valid _ _ O) as V.
  destruct (C26_simulation_succeeds FullStop _ _ V) as [bl' E']. exists bl, bl', t. split; [exact E|]. split; [exact E'|]. split; [exact Et|]. intros T' HT.
  destruct (plan_items_total (map exact_state rest) (exact_state s0)) as (items & Hi). destruct O as (F & _ & S).
  rewrite (C91_full_stop _ _ _ _ _ _ V E' Hi HT), (times_are _ _ _ _ F S Hi). exact B.
Qed.

(** * A case: a diagonal move, half a second of rest, a retraction, and a line
    that repeats where the head is *)
Definition stop_at (x y e : R) (w : option R) : gkstate D64 := GKState D64 (GV D64 x y 0 e) 85 100 10 w None.
Definition stop_case : list (gkstate D64) := [stop_at 1 2 0 None; stop_at 1 2 0 (Some (/ 2)); stop_at 1 2 (- 3) None; stop_at 1 2 (- 3) None].
Lemma diagonal : 1 <= length3 (stop_at 0 0 0 None) (stop_at 1 2 0 None) <= 4.
Proof.
  unfold length3, stop_at. cbn [gk_pos gx gy gz]. replace ((1 - 0) * (1 - 0) + (2 - 0) * (2 - 0) + (0 - 0) * (0 - 0)) with 5 by ring.
  split; [apply le_sqrt|apply sqrt_le_]; lra.
Qed.
Lemma stays x y e w f v : near 0 (gk_pos D64 (stop_at x y e w)) (gk_pos D64 (stop_at x y f v)).
Proof. unfold near, stop_at. cbn [gk_pos gx gy gz]. rewrite !Rminus_eq_0, Rabs_R0. lra. Qed.
Example C108_case : ordinary_program (stop_at 0 0 0 None) stop_case /\ program_time (stop_at 0 0 0 None) stop_case <= 500000.
Proof.
  pose proof diagonal as D. split; [split; [|split; [reflexivity|]]|].
  - repeat (apply Forall_cons || apply Forall_nil); unfold ordinary_state, stop_at; cbn [gk_speed gk_acc gk_jerk gk_pos gx gy gz ge];
      (repeat split; try lra; apply Rabs_le; lra).
  - unfold stop_case. cbn [ordinary_steps]. split; [|split; [|split; [|split; [|split; [|split; [|split; [|split; [|exact I]]]]]]]].
    + right. right. unfold extruded, stop_at in *. cbn [gk_pos ge gk_pause] in *. rewrite Rminus_eq_0, Rabs_R0. lra.
    + intros N. contradiction N. reflexivity.
    + cbn. split; [lra|reflexivity].
    + intros _. right. intros E. apply (f_equal (gx D64)) in E. cbn in E. lra.
    + right. left. split; [apply stays|]. unfold extruded, stop_at. cbn [gk_pos ge]. rewrite Rabs_left; lra.
    + intros N. contradiction N. reflexivity.
    + left. reflexivity.
    + intros N. contradiction N. reflexivity.
  - unfold stop_case. cbn [program_time]. unfold line_time. rewrite !(length3_still binary64 (stop_at 1 2 _ _)) by apply stays.
    unfold extruded, stop_at in *. cbn [gk_pos ge gk_speed gk_acc gk_pause] in *. rewrite !Rminus_eq_0, !Rabs_R0, (Rabs_left (-3 - 0)) by lra. lra.
Qed.

(** It takes about 1.15 s. *)
Example C109_case : 11 / 10 <= stop_times (stop_at 0 0 0 None) stop_case <= 12 / 10.
Proof.
  unfold stop_case. cbn [stop_times]. pose proof diagonal as D.
  rewrite (stop_moving binary64 (stop_at 0 0 0 None) (stop_at 1 2 0 None) eq_refl) by lra.
  rewrite (stop_turning binary64 (stop_at 1 2 0 (Some (/ 2))) (stop_at 1 2 (- 3) None) eq_refl) by (apply length3_still, stays).
  rewrite (stop_still binary64 (stop_at 1 2 (- 3) None) (stop_at 1 2 (- 3) None)) by (reflexivity || (unfold ordinary_state, stop_at; cbn [gk_speed gk_acc gk_jerk gk_pos gx gy gz ge]; repeat split; try lra; apply Rabs_le; lra)).
  change (stop_time (exact_state (stop_at 1 2 0 None)) (exact_state (stop_at 1 2 0 (Some (/ 2))))) with (/ 2). set (L := length3 _ _) in *.
  assert (LL : 22 / 10 <= L <= 23 / 10). { unfold L, length3, stop_at. cbn [gk_pos gx gy gz]. split; [apply le_sqrt|apply sqrt_le_]; lra. }
  unfold stop_in, extruded, stop_at. cbn [gk_speed gk_acc gk_pos ge]. rewrite (Rabs_left (-3 - 0)) by lra.
  destruct (Rlt_dec _ _) as [C|_]; [lra|]. destruct (Rlt_dec _ _) as [C|_]; [lra|].
  assert (14 / 100 <= sqrt (L / 100) <= 16 / 100) by (split; [apply le_sqrt|apply sqrt_le_]; lra).
  assert (17 / 100 <= sqrt (- (-3 - 0) / 100) <= 18 / 100) by (split; [apply le_sqrt|apply sqrt_le_]; lra). lra.
Qed.

Print Assumptions C108_full_stop.
Print Assumptions C109_time.
Print Assumptions C109_exact.
