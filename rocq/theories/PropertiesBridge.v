(** C113: the simulation with IEEE doubles: as with rounded real numbers, so no
    number becomes infinite or NaN, and what is shown of rounded numbers holds of
    the doubles themselves. *)
From Coq Require Import Reals ZArith SpecFloat List Lia Lra.
From Verif Require Import Py Vec StateGen Junction Planner Rounding SpecRounding RoundingProofs Generic SpecGeneric SpecDrift SpecStop SpecIEEE IEEEProofs SpecBridge PropertiesIEEE RealFacts
  FloatMoveProofs FloatDriftProofs FloatPlanProofs FloatStopProofs PropertiesFloat PropertiesDrift PropertiesStop BridgeProofs BridgeJunctionProofs BridgePlanProofs BridgeRunProofs.
Import ListNotations.
Open Scope R_scope.

Lemma value_same s : proper_state s -> same_state s (value_state s).
Proof.
  intros ((X & Y & Z & E) & V & A & J & P). unfold same_state, value_state, same_vec, value_vec, stands. cbn [gk_pos gk_speed gk_acc gk_jerk gk_pause gk_layer gx gy gz ge].
  split; [split; [split; [exact X|reflexivity]|split; [split; [exact Y|reflexivity]|split; [split; [exact Z|reflexivity]|split; [exact E|reflexivity]]]]|]. split; [split; [exact V|reflexivity]|]. split; [split; [exact A|reflexivity]|]. split; [split; [exact J|reflexivity]|]. split; [|reflexivity].
  destruct (gk_pause Fk s); cbn [option_map same_opt]; [split; [exact P|reflexivity]|exact I].
Qed.
Lemma values_same ss : Forall proper_state ss -> Forall2 same_state ss (map value_state ss).
Proof. induction 1; cbn [map]; constructor; [apply value_same; assumption|assumption]. Qed.
Lemma same_value a b : same_vec a b -> value_vec a = b.
Proof. destruct b as [x y z e]. unfold same_vec, value_vec, stands. cbn [gx gy gz ge]. intros ((_ & ->) & (_ & ->) & (_ & ->) & (_ & ->)). reflexivity. Qed.
(** * The doubles and the rounded numbers *)
(** Whatever the firmware, up to a billion lines: the same exception is raised,
    or the same blocks are planned, every number of which is a finite double, and
    the same warning is given. *)
Theorem C113_doubles fw ss :
  Forall proper_state ss -> tame_program (map value_state ss) -> INR (length ss) <= 1000000000 ->
  same_result (gsimulate Fk fw ss) (gsimulate D64 fw (map value_state ss)).
Proof. intros P T N. apply simulation_same; [apply values_same, P|exact T|rewrite map_length; exact N]. Qed.
Lemma same_proper a b : same_vec a b -> proper_vec a.
Proof. intros ((X & _) & (Y & _) & (Z & _) & (E & _)). repeat (split; [assumption|]). assumption. Qed.
(** No infinity and no NaN anywhere in the trajectory *)
Theorem C113_finite fw ss bl w :
  Forall proper_state ss -> tame_program (map value_state ss) -> INR (length ss) <= 1000000000 ->
  gsimulate Fk fw ss = Ok (bl, w) -> forall b s, In b bl -> In s (gb_segs Fk b) -> proper_seg s.
Proof.
  intros P T N E b s Ib Is. pose proof (C113_doubles fw ss P T N) as G. rewrite E in G. unfold same_result in G. destruct (gsimulate D64 fw _) as [[bl' w']|]; [|contradiction]. destruct G as [G _].
  clear - G Ib Is. induction G as [|c c' r r' H G IH]; [contradiction|]. destruct Ib as [->|Ib]; [|exact (IH Ib)]. destruct H as (_ & _ & _ & S & _). clear - S Is.
  induction S as [|x x' l l' H S IH]; [contradiction|]. destruct Is as [->|Is]; [|exact (IH Is)]. destruct H as (T0 & T1 & P0 & P1 & V0 & V1).
  split; [apply T0|]. split; [apply T1|]. split; [exact (same_proper _ _ P0)|]. split; [exact (same_proper _ _ P1)|]. split; [exact (same_proper _ _ V0)|exact (same_proper _ _ V1)].
Qed.

(** * What follows for the doubles *)
(** The plan follows the program as C106 says: within [i + 1] line drifts *)
Lemma tame_fine s0 rest : Forall tame (s0 :: rest) -> tame_steps s0 rest -> fine_steps s0 rest /\ fine_extrusions s0 rest.
Proof.
  revert s0. induction rest as [|B rest IH]; intros s0 F T; [split; exact I|]. destruct T as [T1 T2]. inversion F as [|? ? O0 F']; subst. destruct (IH B F' T2) as [G1 G2].
  inversion F' as [|? ? O1 F'']; subst.
  assert (Ho : forall n A, nth_error [s0; B] n = Some A -> ordinary_state A). { intros [|[|n]] A E; [injection E as <-; apply O0|injection E as <-; apply O1|destruct n; discriminate]. }
  assert (Hs : forall n A C, nth_error [s0; B] n = Some A -> nth_error [s0; B] (S n) = Some C -> ordinary_step A C). { intros [|n] A C EA EC; [injection EA as <-; injection EC as <-; exact T1|destruct n; [discriminate|destruct n; discriminate]]. }
  split; (split; [|assumption]).
  - exact (Hfstep_ binary64 tiny_small [s0; B] Ho Hs 0 s0 B eq_refl eq_refl).
  - exact (HstepE_ binary64 tiny_small [s0; B] Ho Hs Logic.I 0 s0 B eq_refl eq_refl).
Qed.
Lemma in_same bl bl' b : Forall2 same_block bl bl' -> In b bl -> exists b', In b' bl' /\ same_block b b'.
Proof. induction 1 as [|c c' r r' H G IH]; [contradiction|]. intros [->|Ib]; [exists c'; split; [left; reflexivity|exact H]|]. destruct (IH Ib) as (b' & I1 & I2). exists b'. split; [right; exact I1|exact I2]. Qed.
Lemma ends_same l l' f' z' : Forall2 same_seg l l' -> gfirst_seg D64 l' = Ok f' -> glast_seg D64 l' = Ok z' -> exists f z, gfirst_seg Fk l = Ok f /\ glast_seg Fk l = Ok z /\ same_seg f f' /\ same_seg z z'.
Proof.
  intros S F Z. assert (R := S). apply Forall2_rev_ in R. unfold glast_seg in *. destruct S as [|x x' r r' H S]; [discriminate|]. injection F as <-. exists x.
  destruct (rev (x' :: r')) as [|y' q'] eqn:E; [discriminate|]. injection Z as <-. destruct (rev (x :: r)) as [|y q]; [inversion R|]. inversion R as [|? ? ? ? Hy R']. exists y. split; [reflexivity|]. split; [reflexivity|]. split; assumption.
Qed.
Theorem C113_drift fw s0 rest a V M bl w :
  Forall proper_state (s0 :: rest) -> tame_program (map value_state (s0 :: rest)) -> INR (length (s0 :: rest)) <= 1000000000 ->
  tiny <= a -> / 1000000 <= V -> V * V <= 1000000 * a -> tiny <= M ->
  Forall (fine_state a V M) (map value_state (s0 :: rest)) -> Forall (fun s => Rabs (fval (ge Fk (gk_pos Fk s))) <= M) (s0 :: rest) ->
  INR (length (s0 :: rest)) * line_drift a V M <= M ->
  gsimulate Fk fw (s0 :: rest) = Ok (bl, w) ->
  forall b, In b bl -> exists i f l A B,
    nth_error (s0 :: rest) i = Some A /\ nth_error (s0 :: rest) (S i) = Some B /\
    value_state (gb_A Fk b) = value_state A /\ value_state (gb_B Fk b) = value_state B /\
    gfirst_seg Fk (gb_segs Fk b) = Ok f /\ glast_seg Fk (gb_segs Fk b) = Ok l /\
    near4 (INR (S i) * line_drift a V M) (value_vec (gpos_begin Fk f)) (value_vec (gk_pos Fk A)) /\
    near4 (INR (S i) * line_drift a V M) (value_vec (gpos_end Fk l)) (value_vec (gk_pos Fk B)).
Proof.
  intros P T N ga gV gVa gM F FE Ln E b Ib. pose proof (C113_doubles fw _ P T N) as G. rewrite E in G. unfold same_result in G. destruct (gsimulate D64 fw (map value_state (s0 :: rest))) as [[bl' w']|] eqn:E'; [|contradiction]. destruct G as [G _].
  destruct T as [T1 T2]. cbn [map] in T1, T2, E'. destruct (tame_fine _ _ T1 T2) as [St StE].
  assert (FE' : Forall (fun s => Rabs (ge D64 (gk_pos D64 s)) <= M) (value_state s0 :: map value_state rest)). { change (value_state s0 :: map value_state rest) with (map value_state (s0 :: rest)). apply Forall_map. exact FE. }
  assert (Ln' : INR (length (value_state s0 :: map value_state rest)) * line_drift a V M <= M). { cbn [length] in *. rewrite map_length. exact Ln. }
  destruct (C106_extruder fw (value_state s0) (map value_state rest) a V M bl' w' ga gV gVa gM F St FE' StE Ln' E') as [D _].
  destruct (in_same _ _ _ G Ib) as (b' & Ib' & Sb). destruct (D b' Ib') as (i & f' & l' & EA & EB & Ef & El & NA & NB).
  change (value_state s0 :: map value_state rest) with (map value_state (s0 :: rest)) in EA, EB. rewrite nth_error_map in EA, EB.
  destruct (nth_error (s0 :: rest) i) as [A|] eqn:QA; [|discriminate]. destruct (nth_error (s0 :: rest) (S i)) as [B|] eqn:QB; [|discriminate]. cbn [option_map] in EA, EB. injection EA as EA. injection EB as EB.
  destruct Sb as (SA & SB & _ & Ss & _). destruct (ends_same _ _ _ _ Ss Ef El) as (f & l & Ff & Fl & Sf & Sl). exists i, f, l, A, B.
  assert (VS : forall x y, same_state x y -> value_state x = y).
  { intros x [py sy ay jy wy ly] (S1 & (_ & S2) & (_ & S3) & (_ & S4) & S5 & S6). unfold value_state. cbn [gk_pos gk_speed gk_acc gk_jerk gk_pause gk_layer] in *. rewrite (same_value _ _ S1), S2, S3, S4, S6. f_equal.
    destruct (gk_pause Fk x), wy; try contradiction; [|reflexivity]. destruct S5 as [_ S5]. cbn [option_map]. rewrite S5. reflexivity. }
  split; [exact QA|]. split; [exact QB|]. split; [rewrite EA; exact (VS _ _ SA)|]. split; [rewrite EB; exact (VS _ _ SB)|]. split; [exact Ff|]. split; [exact Fl|].
  destruct Sf as (_ & _ & Sf & _). destruct Sl as (_ & _ & _ & Sl & _). rewrite (same_value _ _ Sf), (same_value _ _ Sl). rewrite <- EA in NA. rewrite <- EB in NB. split; assumption.
Qed.
(** A machine that stops after every line is simulated without failure and
    without warning, and the print time is that of C109. *)
Lemma over_same bl bl' t : Forall2 same_block bl bl' -> over_at bl' t -> double_over_at bl t.
Proof.
  intros G O. assert (C : Forall2 same_seg (concat (map (gb_segs Fk) bl)) (concat (map (gb_segs D64) bl'))).
  { induction G as [|b b' r r' H G IH]; [constructor|]. cbn [map concat]. apply Forall2_app; [apply H|]. clear IH. clear O. induction G as [|c c' q q' H' G IH]; [constructor|]. cbn [map concat]. apply Forall2_app; [apply H'|exact IH]. }
  unfold over_at in O. unfold double_over_at. revert C O. generalize (concat (map (gb_segs Fk) bl)) (concat (map (gb_segs D64) bl')). intros l l' C O.
  destruct C as [|x x' r r' H C]; [exact O|]. destruct O as (pre & s & E & ->). assert (C' : Forall2 same_seg (x :: r) (x' :: r')) by (constructor; assumption). rewrite E in C'.
  apply Forall2_app_inv_r in C' as (p & q & _ & Q & Eq). inversion Q as [|z ? q2 ? Hz Q2]; subst. inversion Q2; subst. exists p, z. split; [exact Eq|]. destruct Hz as (_ & (P & V) & _). split; [exact P|symmetry; exact V].
Qed.
Lemma steps_tame l : forall (m : Prop) A, ordinary_steps m A l -> tame_steps A l.
Proof. induction l as [|X l IH]; intros m A S; [exact I|]. destruct S as (S1 & _ & S2). split; [exact S1|exact (IH _ _ S2)]. Qed.
Theorem C113_full_stop s0 rest :
  Forall proper_state (s0 :: rest) -> Forall tame (map value_state (s0 :: rest)) -> ordinary_program (value_state s0) (map value_state rest) ->
  INR (length (s0 :: rest)) <= 1000000000 -> program_time (value_state s0) (map value_state rest) <= 500000 ->
  exists bl t, gsimulate Fk FullStop (s0 :: rest) = Ok (bl, false) /\ double_over_at bl t /\
    Rabs (t - stop_times (value_state s0) (map value_state rest)) <=
      INR (length rest) * / 1000000000 + / 10000000000000 * stop_times (value_state s0) (map value_state rest).
Proof.
  intros P F O N T. assert (N' : INR (length (value_state s0 :: map value_state rest)) <= 1000000000). { cbn [length] in *. rewrite map_length. exact N. }
  destruct (stops_doubles _ _ O N' T) as (bl' & t & E & Ot & B). rewrite map_length in B.
  assert (Tp : tame_program (map value_state (s0 :: rest))).
  { split; [exact F|]. cbn [map]. destruct O as (_ & _ & S). exact (steps_tame _ _ _ S). }
  pose proof (C113_doubles FullStop _ P Tp N) as G. cbn [map] in G. change (Bk binary64) with D64 in E. rewrite E in G. unfold same_result in G.
  destruct (gsimulate Fk FullStop (s0 :: rest)) as [[bl w]|]; [|contradiction]. destruct G as [G ->]. exists bl, t. split; [reflexivity|]. split; [exact (over_same _ _ _ G Ot)|exact B].
Qed.

(** * A case: the program of C108 in doubles, on every firmware *)
Definition double_at (x y e : Z) (w : option spec_float) : gkstate Fk := GKState Fk (GV Fk (f_int x) (f_int y) (f_int 0) (f_int e)) (f_int 85) (f_int 100) (f_int 10) w None.
Definition double_case : list (gkstate Fk) :=
  [double_at 0 0 0 None; double_at 1 2 0 None; double_at 1 2 0 (Some (f_dec 5 (-1))); double_at 1 2 (-3) None; double_at 1 2 (-3) None].
Lemma int_stands z : (Z.abs z < 2 ^ 53)%Z -> stands (f_int z) (IZR z).
Proof.
  intros B. destruct (C112_numbers z 0) as [G _]. cbn [Z.leb Z.compare Z.pow] in G. rewrite Rmult_1_r, (whole z B) in G. apply G.
  apply Rlt_le_trans with (p2 53); [|unfold too_large; apply pow2_mono; lia]. rewrite p2_Z, <- abs_IZR by lia. apply IZR_lt, B.
Qed.
Lemma half_stands : stands (f_dec 5 (-1)) (/ 2).
Proof.
  destruct (C112_numbers 5 (-1)) as [G _]. assert (E : binary64 (IZR 5 / IZR (10 ^ - (-1))) = / 2).
  { replace (IZR 5 / IZR (10 ^ - (-1))) with (p2 (-1)) by (rewrite (p2_neg 1); cbn; lra). rewrite binary64_fix by (apply p2_double; lia). rewrite (p2_neg 1). reflexivity. }
  cbn [Z.leb Z.compare] in G. rewrite E in G. apply G. rewrite Rabs_right by lra. apply Rlt_le_trans with (p2 53); [|unfold too_large; apply pow2_mono; lia]. rewrite p2_Z by lia. cbn. lra.
Qed.
Lemma double_same x y e w : (Z.abs x < 2 ^ 53)%Z -> (Z.abs y < 2 ^ 53)%Z -> (Z.abs e < 2 ^ 53)%Z -> match w with Some p => proper p | None => True end ->
  proper_state (double_at x y e w) /\ value_state (double_at x y e w) = stop_at (IZR x) (IZR y) (IZR e) (option_map fval w).
Proof.
  intros X Y E W. destruct (int_stands x X) as [X1 X2], (int_stands y Y) as [Y1 Y2], (int_stands e E) as [E1 E2], (int_stands 0 ltac:(lia)) as [Z1 Z2], (int_stands 85 ltac:(lia)) as [V1 V2], (int_stands 100 ltac:(lia)) as [A1 A2], (int_stands 10 ltac:(lia)) as [J1 J2].
  unfold double_at. split.
  - unfold proper_state, proper_vec. cbn [gk_pos gk_speed gk_acc gk_jerk gk_pause gx gy gz ge]. split; [split; [exact X1|split; [exact Y1|split; [exact Z1|exact E1]]]|]. split; [exact V1|]. split; [exact A1|]. split; [exact J1|exact W].
  - unfold value_state, value_vec. cbn [gk_pos gk_speed gk_acc gk_jerk gk_pause gk_layer gx gy gz ge]. rewrite X2, Y2, E2, Z2, V2, A2, J2. reflexivity.
Qed.
Lemma double_case_same : Forall proper_state double_case /\ map value_state double_case = stop_at 0 0 0 None :: stop_case.
Proof.
  destruct half_stands as [H1 H2].
  destruct (double_same 0 0 0 None) as [P1 V1]; [lia..|exact I|]. destruct (double_same 1 2 0 None) as [P2 V2]; [lia..|exact I|].
  destruct (double_same 1 2 0 (Some (f_dec 5 (-1)))) as [P3 V3]; [lia..|exact H1|]. destruct (double_same 1 2 (-3) None) as [P4 V4]; [lia..|exact I|].
  split; [repeat (constructor; [assumption|]); constructor|]. unfold double_case. cbn [map]. rewrite V1, V2, V3, V4. cbn [option_map]. rewrite H2. unfold stop_case. replace (IZR (-3)) with (- (3)) by lra. reflexivity.
Qed.
Example C113_case : Forall proper_state double_case /\ tame_program (map value_state double_case).
Proof.
  destruct double_case_same as [P ->]. split; [exact P|]. destruct C108_case as [(F & _ & S) _]. split.
  - unfold stop_case in *. repeat (apply Forall_cons || apply Forall_nil); (split; [rewrite Forall_forall in F; apply F; cbn [In]; tauto|]); unfold stop_at; cbn [gk_jerk gk_pause]; (split; [right; lra|try exact I; lra]).
  - exact (steps_tame _ _ _ S).
Qed.
(** what it gives in doubles, by computing: a move, the wait and the turn of the
    extruder, each from rest to rest whatever the firmware *)
Definition shape (r : res (list (gblock Fk) * bool)) : res (list (option btype * nat) * bool) :=
  match r with Ok (bl, w) => Ok (map (fun b => (gb_type Fk b, length (gb_segs Fk b))) bl, w) | Err e => Err e end.
Example C113_case_blocks fw : shape (gsimulate Fk fw double_case) = Ok ([(Some Triangle, 2%nat); (None, 1%nat); (Some Triangle, 2%nat)], false).
Proof. destruct fw; vm_compute; reflexivity. Qed.

Print Assumptions C113_doubles.
Print Assumptions C113_finite.
Print Assumptions C113_drift.
Print Assumptions C113_full_stop.
