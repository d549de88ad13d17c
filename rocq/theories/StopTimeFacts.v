(** The time of a move from rest to rest: the two profiles where they meet. *)
From Coq Require Import Reals Lra Lia.
From Verif Require Import Py Vec StateGen Junction Planner SpecTime Generic SpecGeneric SpecDrift RealFacts FloatMoveProofs FloatDriftProofs FloatPlanProofs.
Open Scope R_scope.
Definition stop_in (L v a : R) : R := if Rlt_dec (v * v / a) L then v / a + L / v else 2 * sqrt (L / a).
Section Dur.
Variables a v l : R.
Hypothesis Ha : 1 <= a <= 100000.
Hypothesis Hv : 9 / 1000 <= v <= 1001.
Hypothesis Hl : 9 / 10000 <= l <= 50000.
Let P := sqrt (a * l).
Lemma al_pos : 0 < a * l. Proof. apply Rmult_lt_0_compat; lra. Qed.
Lemma Psq : P * P = a * l. Proof. unfold P. apply sqrt_sqrt. pose proof al_pos. lra. Qed.
Lemma Ppos : 0 < P. Proof. unfold P. apply sqrt_lt_R0, al_pos. Qed.
Lemma sqrt_way : sqrt (l / a) = P / a.
Proof.
  pose proof Psq as E. pose proof Ppos. replace (l / a) with (P / a * (P / a)); [apply sqrt_square; left; apply Rmult_lt_0_compat; [lra|apply Rinv_0_lt_compat; lra]|].
  replace (P / a * (P / a)) with (P * P / (a * a)) by (field; lra). rewrite E. field. lra.
Qed.
Lemma two_profiles : v / a + l / v - 2 * sqrt (l / a) = (v - P) * (v - P) / (a * v).
Proof. rewrite sqrt_way. assert (E : l = P * P / a) by (rewrite Psq; field; lra). rewrite E at 1. field. lra. Qed.
Lemma amgm : 2 * (P / a) <= v / a + l / v.
Proof.
  pose proof two_profiles as E. rewrite sqrt_way in E. assert (0 <= (v - P) * (v - P) / (a * v)); [|lra].
  apply Rmult_le_pos; [apply Rle_0_sqr|left; apply Rinv_0_lt_compat, Rmult_lt_0_compat; lra].
Qed.
Lemma stop_least : 2 * (P / a) <= stop_in l v a.
Proof. unfold stop_in. destruct (Rlt_dec _ _); [exact amgm|rewrite sqrt_way; lra]. Qed.
(** where the two profiles meet, they take the same time up to the second order *)
Lemma meet : Rabs (v - P) <= 40 * (uu * P) -> 0 <= v / a + l / v - 2 * (P / a) <= uu * stop_in l v a.
Proof.
  intros N. pose proof stop_least as SL. pose proof amgm as G. pose proof two_profiles as E. rewrite sqrt_way in E. split; [lra|]. rewrite E. pose proof Ppos as PP.
  assert (PA : 0 < P / a) by (apply Rmult_lt_0_compat; [exact PP|apply Rinv_0_lt_compat; lra]).
  assert (Q : (v - P) * (v - P) <= 1600 * (uu * uu) * (P * P)).
  { replace ((v - P) * (v - P)) with (Rabs (v - P) * Rabs (v - P)) by (rewrite <- Rabs_mult; apply Rabs_right, Rle_ge, Rle_0_sqr).
    replace (1600 * (uu * uu) * (P * P)) with (40 * (uu * P) * (40 * (uu * P))) by ring. apply sq_le; [apply Rabs_pos|exact N]. }
  assert (PV : P <= 2 * v) by (apply abs_inv in N; unfold uu in *; lra).
  assert (AV : 0 < a * v) by (apply Rmult_lt_0_compat; lra).
  apply Rle_trans with (1600 * (uu * uu) * (P * P) / (a * v)); [apply Rmult_le_compat_r; [left; apply Rinv_0_lt_compat; exact AV|exact Q]|].
  replace (1600 * (uu * uu) * (P * P) / (a * v)) with (1600 * (uu * uu) * (P / a) * (P / v)) by (field; lra).
  assert (R1 : P / v <= 2). { apply Rmult_le_reg_r with v; [lra|]. replace (P / v * v) with P by (field; lra). lra. }
  apply Rle_trans with (1600 * (uu * uu) * (P / a) * 2); [apply Rmult_le_compat_l; [|exact R1]; apply Rmult_le_pos; [unfold uu|]; lra|]. unfold uu in *. lra.
Qed.
Lemma P_is x y : 0 <= y -> v * v = x * a -> x <= (1 + y) * l -> v <= (1 + y) * P.
Proof.
  intros Y E L. destruct (Rle_or_lt v ((1 + y) * P)) as [G|G]; [exact G|]. exfalso. pose proof Ppos.
  assert ((1 + y) * P * ((1 + y) * P) < v * v). { apply Rmult_le_0_lt_compat; try lra; apply Rmult_le_pos; lra. }
  replace ((1 + y) * P * ((1 + y) * P)) with ((1 + y) * (1 + y) * (a * l)) in H0 by (rewrite <- Psq; ring).
  assert (x * a <= (1 + y) * l * a) by (apply Rmult_le_compat_r; lra).
  assert ((1 + y) * l * a * 1 <= (1 + y) * l * a * (1 + y)) by (apply Rmult_le_compat_l; [apply Rmult_le_pos; [apply Rmult_le_pos; lra|lra]|lra]). lra.
Qed.
Lemma P_isnt x y : 0 <= y -> v * v = x * a -> l <= (1 + y) * x -> P <= (1 + y) * v.
Proof.
  intros Y E L. destruct (Rle_or_lt P ((1 + y) * v)) as [G|G]; [exact G|]. exfalso. pose proof Ppos.
  assert ((1 + y) * v * ((1 + y) * v) < P * P). { apply Rmult_le_0_lt_compat; try lra; apply Rmult_le_pos; lra. }
  rewrite Psq in H0. replace ((1 + y) * v * ((1 + y) * v)) with ((1 + y) * (1 + y) * (v * v)) in H0 by ring. rewrite E in H0.
  assert (a * l <= a * ((1 + y) * x)) by (apply Rmult_le_compat_l; lra).
  assert (0 <= x * a) by (rewrite <- E; apply Rle_0_sqr).
  assert ((1 + y) * (x * a) * 1 <= (1 + y) * (x * a) * (1 + y)) by (apply Rmult_le_compat_l; [apply Rmult_le_pos; lra|lra]). lra.
Qed.
Lemma long_stop t : v * v / a <= (1 + 40 * uu) * l -> Rabs (t - (v / a + l / v)) <= 450 * (uu * (v / a + l / v)) -> Rabs (t - stop_in l v a) <= 500 * (uu * stop_in l v a).
Proof.
  intros L T. pose proof amgm as G. unfold stop_in in *. destruct (Rlt_dec (v * v / a) l) as [C|C].
  - eapply Rle_trans; [exact T|]. pose proof Ppos. assert (0 < P / a) by (apply Rmult_lt_0_compat; [lra|apply Rinv_0_lt_compat; lra]). unfold uu in *. lra.
  - assert (E : v * v = v * v / a * a) by (field; lra).
    pose proof (P_is _ (40 * uu) ltac:(unfold uu; lra) E L) as Q1. pose proof (P_isnt _ 0 ltac:(lra) E ltac:(lra)) as Q2.
    pose proof Ppos as PP. destruct (meet ltac:(apply Rabs_le; unfold uu in *; lra)) as [M1 M2]. unfold stop_in in M2. destruct (Rlt_dec _ _); [lra|]. rewrite sqrt_way in *.
    assert (0 < P / a) by (apply Rmult_lt_0_compat; [exact PP|apply Rinv_0_lt_compat; lra]). apply abs_inv in T. apply Rabs_le. unfold uu in *. lra.
Qed.
Lemma short_stop t : l <= (1 + 60 * uu) * (v * v / a) -> Rabs (t - 2 * (P / a)) <= 450 * (uu * (2 * (P / a))) -> Rabs (t - stop_in l v a) <= 500 * (uu * stop_in l v a).
Proof.
  intros L T. pose proof Ppos as PP. assert (PA : 0 < P / a) by (apply Rmult_lt_0_compat; [exact PP|apply Rinv_0_lt_compat; lra]).
  unfold stop_in in *. destruct (Rlt_dec (v * v / a) l) as [C|C].
  - assert (E : v * v = v * v / a * a) by (field; lra). set (x := v * v / a) in *. assert (X : 0 < x) by (apply Rmult_lt_0_compat; [apply Rmult_lt_0_compat; lra|apply Rinv_0_lt_compat; lra]).
    assert (Q1 : P <= (1 + 30 * uu + uu) * v).
    { apply sqrt_le_; [unfold uu; lra|]. replace ((1 + 30 * uu + uu) * v * ((1 + 30 * uu + uu) * v)) with ((1 + 30 * uu + uu) * (1 + 30 * uu + uu) * (v * v)) by ring. rewrite E.
      apply Rle_trans with (a * ((1 + 60 * uu) * x)); [apply Rmult_le_compat_l; lra|]. replace (a * ((1 + 60 * uu) * x)) with ((1 + 60 * uu) * (x * a)) by ring. apply Rmult_le_compat_r; [apply Rmult_le_pos; lra|unfold uu; lra]. }
    pose proof (P_is _ 0 ltac:(lra) E ltac:(lra)) as Q2.
    assert (M : 0 <= v / a + l / v - 2 * (P / a) <= 2 * (uu * (v / a + l / v))).
    { pose proof amgm. split; [lra|]. pose proof two_profiles as W. rewrite sqrt_way in W. rewrite W.
      assert (Q : (v - P) * (v - P) <= 31 * uu * v * (31 * uu * v)).
      { replace ((v - P) * (v - P)) with ((P - v) * (P - v)) by ring. apply sq_le; lra. }
      assert (AV : 0 < a * v) by (apply Rmult_lt_0_compat; lra).
      apply Rle_trans with (31 * uu * v * (31 * uu * v) / (a * v)); [apply Rmult_le_compat_r; [left; apply Rinv_0_lt_compat; exact AV|exact Q]|].
      replace (31 * uu * v * (31 * uu * v) / (a * v)) with (961 * (uu * uu) * (v / a)) by (field; lra).
      assert (0 < v / a) by (apply Rmult_lt_0_compat; [lra|apply Rinv_0_lt_compat; lra]). assert (0 < l / v) by (apply Rmult_lt_0_compat; [lra|apply Rinv_0_lt_compat; lra]). unfold uu in *. lra. }
    apply abs_inv in T. apply Rabs_le. unfold uu in *. lra.
  - rewrite sqrt_way. eapply Rle_trans; [exact T|]. unfold uu. lra.
Qed.
End Dur.
