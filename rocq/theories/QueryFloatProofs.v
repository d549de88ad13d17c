(** Queries with doubles: the errors of one axis, and the same search. *)
From Coq Require Import Reals ZArith SpecFloat List Lia Lra.
From Verif Require Import Py Vec Segment StateGen Junction Planner Rounding SpecRounding RoundingProofs Generic SpecGeneric SpecQuery SpecIEEE IEEEProofs SpecBridge GenericQuery SpecGenericQuery PropertiesFloat BridgeProofs RealFacts.
Import ListNotations.
Open Scope R_scope.

(** * One axis *)
Section Axis.
Variable rnd : R -> R.
Variable eta : R.
Hypothesis E0 : 0 <= eta.
Hypothesis Er : forall x, Rabs (rnd x - x) <= uu * Rabs x + eta.
Hypothesis Es : eta <= / 1000.
Lemma prod_le a b c d : 0 <= a <= b -> 0 <= c <= d -> 0 <= a * c <= b * d.
Proof. intros H1 H2. split; [apply Rmult_le_pos; lra|apply Rmult_le_compat; lra]. Qed.
Lemma rnd_abs x y e : Rabs (x - y) <= e -> Rabs (rnd x - y) <= e + uu * (Rabs y + e) + eta.
Proof.
  intros H. pose proof (Er x). assert (Rabs x <= Rabs y + e). { replace x with (y + (x - y)) by ring. eapply Rle_trans; [apply Rabs_triang|]. lra. }
  assert (0 <= uu) by (unfold uu; lra). assert (uu * Rabs x <= uu * (Rabs y + e)) by (apply Rmult_le_compat_l; lra).
  replace (rnd x - y) with ((rnd x - x) + (x - y)) by ring. eapply Rle_trans; [apply Rabs_triang|]. lra.
Qed.
(** tau/T with rounded tau and T *)
Lemma ratio_err T tau : 0 < T -> 0 <= tau <= T -> eta <= uu * T ->
  0 < rnd T /\ Rabs (rnd tau / rnd T - tau / T) <= 4 * uu + 2 * (eta / T).
Proof.
  intros HT Ht He. pose proof (Er T) as ET. pose proof (Er tau) as Et. rewrite (Rabs_right T) in ET by lra. rewrite (Rabs_right tau) in Et by lra.
  apply abs_le_inv in ET. apply abs_le_inv in Et. assert (U : uu = / 9007199254740992) by reflexivity.
  assert (P : 0 < rnd T) by (rewrite U in *; lra). split; [exact P|].
  replace (rnd tau / rnd T - tau / T) with (((rnd tau - tau) * T - tau * (rnd T - T)) / (T * rnd T)) by (field; lra).
  assert (N : Rabs ((rnd tau - tau) * T - tau * (rnd T - T)) <= (3 * uu * T + eta) * T).
  { unfold Rminus at 1. eapply Rle_trans; [apply Rabs_triang|]. rewrite Rabs_Ropp, !Rabs_mult, (Rabs_right T), (Rabs_right tau) by lra.
    assert (A : Rabs (rnd tau - tau) <= uu * T + eta). { apply Rabs_le. assert (uu * tau <= uu * T) by (apply Rmult_le_compat_l; rewrite ?U; lra). lra. }
    assert (B : Rabs (rnd T - T) <= 2 * uu * T) by (apply Rabs_le; lra).
    assert (Rabs (rnd tau - tau) * T <= (uu * T + eta) * T) by (apply Rmult_le_compat_r; lra).
    assert (tau * Rabs (rnd T - T) <= T * (2 * uu * T)) by (apply Rmult_le_compat; try lra; apply Rabs_pos). lra. }
  unfold Rdiv at 1. rewrite Rabs_mult, (Rabs_right (/ (T * rnd T))) by (left; apply Rinv_0_lt_compat, Rmult_lt_0_compat; lra).
  apply Rmult_le_reg_r with (T * rnd T); [apply Rmult_lt_0_compat; lra|]. rewrite Rmult_assoc, Rinv_l, Rmult_1_r by (apply Rgt_not_eq, Rmult_lt_0_compat; lra).
  eapply Rle_trans; [exact N|]. replace ((4 * uu + 2 * (eta / T)) * (T * rnd T)) with ((4 * uu * rnd T + 2 * (eta * (rnd T / T))) * T) by (field; lra).
  apply Rmult_le_compat_r; [lra|]. assert (Q : 3 / 4 <= rnd T / T). { apply Rmult_le_reg_r with T; [lra|]. unfold Rdiv at 2. rewrite Rmult_assoc, Rinv_l, Rmult_1_r by lra. rewrite U in *; lra. }
  assert (eta * (3 / 4) <= eta * (rnd T / T)) by (apply Rmult_le_compat_l; lra).
  assert (uu * (3 * T / 4) <= uu * rnd T) by (apply Rmult_le_compat_l; rewrite U in *; lra). lra.
Qed.
(** the velocity at [tau] after the begin of a segment of duration [T] *)
Definition vel1 (v0 v1 T tau : R) : R := rnd (v0 + rnd (rnd (rnd (v1 - v0) / rnd T) * rnd tau)).
Lemma vel1_err v0 v1 T tau W small : 0 < T -> 0 <= tau <= T -> eta <= uu * T -> Rabs v0 + Rabs v1 <= W ->
  0 <= small -> eta * (4 * T + 4) <= small -> eta / T <= small -> (eta / T) * W <= small ->
  Rabs (vel1 v0 v1 T tau - (v0 + tau / T * (v1 - v0))) <= 10 * uu * (Rabs v0 + Rabs v1) + 12 * small.
Proof.
  intros HT Ht He HW S0 S1 S2 S3. destruct (ratio_err T tau HT Ht He) as [PT Q]. assert (U : uu = / 9007199254740992) by reflexivity. assert (u0 : 0 <= uu) by (rewrite U; lra).
  set (w := Rabs v0 + Rabs v1) in *. assert (w0 : 0 <= w) by (unfold w; pose proof (Rabs_pos v0); pose proof (Rabs_pos v1); lra).
  set (dv := v1 - v0). assert (D : Rabs dv <= w). { unfold dv, w, Rminus. eapply Rle_trans; [apply Rabs_triang|]. rewrite Rabs_Ropp. lra. }
  set (q := rnd tau / rnd T) in *. set (r := tau / T) in *.
  assert (r1 : 0 <= r <= 1). { unfold r. split; [apply Rmult_le_pos; [lra|left; apply Rinv_0_lt_compat; lra]|]. apply Rmult_le_reg_r with T; [lra|]. unfold Rdiv. rewrite Rmult_assoc, Rinv_l, Rmult_1_l, Rmult_1_r by lra. lra. }
  assert (et : 0 <= eta / T) by (apply Rmult_le_pos; [lra|left; apply Rinv_0_lt_compat; lra]).
  assert (q1 : Rabs q <= 1 + 4 * uu + 2 * (eta / T)). { replace q with (r + (q - r)) by ring. eapply Rle_trans; [apply Rabs_triang|]. rewrite (Rabs_right r) by lra. lra. }
  assert (eu : eta / T <= uu). { apply Rmult_le_reg_r with T; [lra|]. unfold Rdiv. rewrite Rmult_assoc, Rinv_l, Rmult_1_r by lra. lra. }
  assert (eT : 0 <= eta * T) by (apply Rmult_le_pos; lra).
  (* the product of the slope and the time *)
  assert (E1 : Rabs (rnd dv - dv) <= uu * w + eta). { eapply Rle_trans; [apply Er|]. assert (uu * Rabs dv <= uu * w) by (apply Rmult_le_compat_l; lra). lra. }
  assert (rd : Rabs (rnd dv) <= w + uu * w + eta). { replace (rnd dv) with (dv + (rnd dv - dv)) by ring. eapply Rle_trans; [apply Rabs_triang|]. lra. }
  assert (A1 : Rabs (rnd dv * q - r * dv) <= 51 / 10 * uu * w + 2 * ((eta / T) * w) + 2 * eta).
  { replace (rnd dv * q - r * dv) with ((rnd dv - dv) * q + dv * (q - r)) by ring. eapply Rle_trans; [apply Rabs_triang|]. rewrite !Rabs_mult.
    assert (Rabs (rnd dv - dv) * Rabs q <= (uu * w + eta) * (1 + 4 * uu + 2 * (eta / T))) by (apply Rmult_le_compat; try apply Rabs_pos; lra).
    assert (Rabs dv * Rabs (q - r) <= w * (4 * uu + 2 * (eta / T))) by (apply Rmult_le_compat; try apply Rabs_pos; lra).
    assert (0 <= uu * w) by (apply Rmult_le_pos; lra).
    assert ((uu * w + eta) * (1 + 4 * uu + 2 * (eta / T)) <= (uu * w + eta) * (1 + 6 * uu)) by (apply Rmult_le_compat_l; lra).
    assert ((uu * w + eta) * (1 + 6 * uu) <= (uu * w + eta) * (11 / 10)) by (apply Rmult_le_compat_l; rewrite ?U in *; lra). lra. }
  assert (A2 : Rabs (rnd (rnd dv / rnd T) * rnd tau - rnd dv * q) <= 11 / 10 * uu * w + 2 * eta + 2 * (eta * T)).
  { replace (rnd (rnd dv / rnd T) * rnd tau - rnd dv * q) with ((rnd (rnd dv / rnd T) - rnd dv / rnd T) * rnd tau) by (unfold q; field; lra). rewrite Rabs_mult.
    assert (Rabs (rnd tau) <= 2 * T). { replace (rnd tau) with (tau + (rnd tau - tau)) by ring. eapply Rle_trans; [apply Rabs_triang|]. pose proof (Er tau) as X. rewrite (Rabs_right tau) in * by lra. assert (uu * tau <= uu * T) by (apply Rmult_le_compat_l; lra). rewrite U in *; lra. }
    assert (G : Rabs (rnd (rnd dv / rnd T) - rnd dv / rnd T) * Rabs (rnd tau) <= (uu * Rabs (rnd dv / rnd T) + eta) * Rabs (rnd tau)) by (apply Rmult_le_compat_r; [apply Rabs_pos|apply Er]).
    eapply Rle_trans; [exact G|]. replace ((uu * Rabs (rnd dv / rnd T) + eta) * Rabs (rnd tau)) with (uu * (Rabs (rnd dv / rnd T) * Rabs (rnd tau)) + eta * Rabs (rnd tau)) by ring.
    rewrite <- Rabs_mult. replace (rnd dv / rnd T * rnd tau) with (rnd dv * q) by (unfold q; field; lra). rewrite Rabs_mult.
    assert (Rabs (rnd dv) * Rabs q <= (w + uu * w + eta) * (1 + 6 * uu)) by (apply Rmult_le_compat; try apply Rabs_pos; lra).
    assert (0 <= uu * w) by (apply Rmult_le_pos; lra).
    assert (uu * (Rabs (rnd dv) * Rabs q) <= uu * ((w + uu * w + eta) * (1 + 6 * uu))) by (apply Rmult_le_compat_l; lra).
    assert (eta * Rabs (rnd tau) <= eta * (2 * T)) by (apply Rmult_le_compat_l; lra). rewrite U in *; lra. }
  assert (A : Rabs (rnd (rnd dv / rnd T) * rnd tau - r * dv) <= 62 / 10 * uu * w + (2 * ((eta / T) * w) + 4 * eta + 2 * (eta * T))).
  { replace (rnd (rnd dv / rnd T) * rnd tau - r * dv) with ((rnd (rnd dv / rnd T) * rnd tau - rnd dv * q) + (rnd dv * q - r * dv)) by ring. eapply Rle_trans; [apply Rabs_triang|]. lra. }
  set (m := rnd (rnd dv / rnd T) * rnd tau) in *. set (s1 := 2 * ((eta / T) * w) + 4 * eta + 2 * (eta * T)) in *.
  assert (ew : (eta / T) * w <= small). { eapply Rle_trans; [|exact S3]. apply Rmult_le_compat_l; lra. }
  assert (s1s : 0 <= s1 <= 4 * small). { unfold s1. assert (0 <= (eta / T) * w) by (apply Rmult_le_pos; lra). lra. }
  assert (rdv : Rabs (r * dv) <= w). { rewrite Rabs_mult, (Rabs_right r) by lra. replace w with (1 * w) by ring. apply Rmult_le_compat; try apply Rabs_pos; lra. }
  pose proof (rnd_abs m (r * dv) _ A) as B.
  assert (C : Rabs ((v0 + rnd m) - (v0 + r * dv)) <= 73 / 10 * uu * w + (2 * s1 + eta)).
  { replace ((v0 + rnd m) - (v0 + r * dv)) with (rnd m - r * dv) by ring. eapply Rle_trans; [exact B|]. assert (0 <= uu * w) by (apply Rmult_le_pos; lra).
    assert (uu * Rabs (r * dv) <= uu * w) by (apply Rmult_le_compat_l; lra). rewrite U in *; lra. }
  pose proof (rnd_abs _ _ _ C) as Dd.
  assert (cv : Rabs (v0 + r * dv) <= w).
  { replace (v0 + r * dv) with ((1 - r) * v0 + r * v1) by (unfold dv; ring). eapply Rle_trans; [apply Rabs_triang|]. rewrite !Rabs_mult, (Rabs_right r), (Rabs_right (1 - r)) by lra.
    pose proof (Rabs_pos v0). pose proof (Rabs_pos v1). assert ((1 - r) * Rabs v0 <= 1 * Rabs v0) by (apply Rmult_le_compat_r; lra). assert (r * Rabs v1 <= 1 * Rabs v1) by (apply Rmult_le_compat_r; lra). unfold w. lra. }
  unfold vel1. fold dv. fold m. eapply Rle_trans; [exact Dd|]. assert (0 <= uu * w) by (apply Rmult_le_pos; lra).
  assert (uu * Rabs (v0 + r * dv) <= uu * w) by (apply Rmult_le_compat_l; lra). rewrite U in *; lra.
Qed.
(** the position *)
Definition pos1 (p0 v0 v tau : R) : R := rnd (p0 + rnd (rnd (rnd (v0 + v) * rnd tau) / 2)).
Lemma pos1_err p0 v0 v vs tau w small : 0 <= tau -> 0 <= w -> Rabs v0 <= w -> Rabs vs <= w -> Rabs (v - vs) <= 10 * uu * w + small ->
  0 <= small -> eta <= small -> eta * (w + 1) <= small ->
  Rabs (pos1 p0 v0 v tau - (p0 + (v0 + vs) * tau / 2)) <= uu * Rabs (p0 + (v0 + vs) * tau / 2) + 16 * uu * w * tau + small * (5 * tau + 20).
Proof.
  intros Ht w0 A B C s0 S1 S2. assert (U : uu = / 9007199254740992) by reflexivity. assert (u0 : 0 <= uu) by (rewrite U; lra).
  assert (uw : 0 <= uu * w) by (apply Rmult_le_pos; lra). assert (ut : 0 <= uu * w * tau) by (apply Rmult_le_pos; lra). assert (st : 0 <= small * tau) by (apply Rmult_le_pos; lra).
  assert (ew : 0 <= eta * w) by (apply Rmult_le_pos; lra).
  assert (V : Rabs (v0 + vs) <= 2 * w) by (eapply Rle_trans; [apply Rabs_triang|]; lra).
  assert (D : Rabs ((v0 + v) - (v0 + vs)) <= 10 * uu * w + small) by (replace ((v0 + v) - (v0 + vs)) with (v - vs) by ring; exact C).
  assert (F : Rabs (rnd (v0 + v) - (v0 + vs)) <= 121 / 10 * uu * w + 3 * small).
  { eapply Rle_trans; [apply (rnd_abs _ _ _ D)|]. assert (uu * Rabs (v0 + vs) <= uu * (2 * w)) by (apply Rmult_le_compat_l; lra). rewrite U in *; lra. }
  set (x := rnd (v0 + v)) in *. set (y := v0 + vs) in *.
  assert (G : Rabs (x * rnd tau - y * tau) <= 142 / 10 * (uu * w * tau) + (4 * (small * tau) + 4 * small)).
  { replace (x * rnd tau - y * tau) with ((x - y) * rnd tau + y * (rnd tau - tau)) by ring. eapply Rle_trans; [apply Rabs_triang|]. rewrite !Rabs_mult. pose proof (Er tau) as X. rewrite (Rabs_right tau) in X by lra.
    assert (Y : Rabs (rnd tau) <= tau + uu * tau + eta). { replace (rnd tau) with (tau + (rnd tau - tau)) by ring. eapply Rle_trans; [apply Rabs_triang|]. rewrite (Rabs_right tau) by lra. lra. }
    assert (K1 : Rabs (x - y) * Rabs (rnd tau) <= (121 / 10 * uu * w + 3 * small) * (tau + uu * tau + eta)) by (apply Rmult_le_compat; try apply Rabs_pos; lra).
    assert (K2 : Rabs y * Rabs (rnd tau - tau) <= (2 * w) * (uu * tau + eta)) by (apply Rmult_le_compat; try apply Rabs_pos; lra).
    assert (K3 : small * eta <= small * (/ 1000)) by (apply Rmult_le_compat_l; lra). rewrite U in *; lra. }
  assert (H : Rabs (y * tau) <= 2 * (w * tau)). { rewrite Rabs_mult, (Rabs_right tau) by lra. replace (2 * (w * tau)) with (2 * w * tau) by ring. apply Rmult_le_compat_r; lra. }
  pose proof (rnd_abs _ _ _ G) as I1.
  assert (I2 : Rabs (rnd (x * rnd tau) / 2 - y * tau / 2) <= 82 / 10 * (uu * w * tau) + (3 * (small * tau) + 4 * small)).
  { replace (rnd (x * rnd tau) / 2 - y * tau / 2) with ((rnd (x * rnd tau) - y * tau) * / 2) by field. rewrite Rabs_mult, (Rabs_right (/ 2)) by lra.
    assert (uu * Rabs (y * tau) <= uu * (2 * (w * tau))) by (apply Rmult_le_compat_l; lra). rewrite U in *; lra. }
  pose proof (rnd_abs _ _ _ I2) as I3.
  assert (I4 : Rabs ((p0 + rnd (rnd (x * rnd tau) / 2)) - (p0 + y * tau / 2)) <= 93 / 10 * (uu * w * tau) + (4 * (small * tau) + 6 * small)).
  { replace ((p0 + rnd (rnd (x * rnd tau) / 2)) - (p0 + y * tau / 2)) with (rnd (rnd (x * rnd tau) / 2) - y * tau / 2) by ring. eapply Rle_trans; [exact I3|].
    assert (Rabs (y * tau / 2) <= w * tau). { unfold Rdiv. rewrite Rabs_mult, (Rabs_right (/ 2)) by lra. lra. }
    assert (uu * Rabs (y * tau / 2) <= uu * (w * tau)) by (apply Rmult_le_compat_l; lra). rewrite U in *; lra. }
  pose proof (rnd_abs _ _ _ I4) as I5. unfold pos1. fold x. eapply Rle_trans; [exact I5|]. rewrite U in *; lra.
Qed.
End Axis.

(** * Segments with rounded numbers *)
Definition eta : R := p2 (-1075).
Lemma eta_pos : 0 < eta. Proof. apply pow2_pos. Qed.
Lemma eta_bound : eta * 10 ^ 225 <= 1.
Proof.
  assert (A : 10 ^ 225 <= p2 900). { replace (p2 900) with (16 ^ 225). - apply pow_incr. lra. - change (p2 900) with (2 ^ Pos.to_nat 900). replace 16 with (2 ^ 4) by ring. rewrite <- pow_mult. f_equal. }
  assert (B : p2 900 * p2 (-900) = 1). { rewrite <- pow2_add. reflexivity. }
  assert (C : eta <= p2 (-900)) by (apply pow2_mono; lia). pose proof (pow2_pos (-900)). pose proof eta_pos. assert (0 <= 10 ^ 225) by (apply pow_le; lra).
  apply Rle_trans with (p2 (-900) * p2 900); [apply Rmult_le_compat; lra|lra].
Qed.
Lemma b64_err x : Rabs (binary64 x - x) <= uu * Rabs x + eta.
Proof.
  destruct binary64_rounds as (_ & _ & Er). assert (U : powerRZ 2 (-53) = uu). { unfold uu. change (powerRZ 2 (-53)) with (/ (2 ^ Pos.to_nat 53)). rewrite pow_IZR. f_equal. }
  rewrite U in Er. apply Er.
Qed.
Lemma eta_1000 : eta <= / 1000.
Proof. replace (/ 1000) with (/ 10 ^ 3) by (cbn; lra). pose proof eta_bound as E. pose proof eta_pos.
  assert (10 ^ 3 <= 10 ^ 225) by (apply Rle_pow; [lra|lia]). apply Rmult_le_reg_r with (10 ^ 3); [cbn; lra|]. rewrite Rinv_l by (cbn; lra).
  eapply Rle_trans; [|exact E]. apply Rmult_le_compat_l; lra. Qed.
(** one axis: [p0], [v0], [v1] are doubles, the segment lasts [T] *)
Lemma axis_err p0 v0 v1 T tau : / 10 ^ 50 <= T <= 2 * 10 ^ 31 -> 0 <= tau <= T -> Rabs v0 <= 10 ^ 31 -> Rabs v1 <= 10 ^ 31 ->
  let v := vel1 binary64 v0 v1 T tau in
  axis_right (p0 + tau * (v0 + tau / T / 2 * (v1 - v0))) (v0 + tau / T * (v1 - v0)) (pos1 binary64 p0 v0 v tau) v v0 v1 tau.
Proof.
  intros HT Ht H0 H1 v. pose proof eta_pos as e0. pose proof eta_bound as eb. pose proof eta_1000 as es.
  assert (ten : forall n, 0 < 10 ^ n) by (intros n; apply pow_lt; lra).
  set (w := Rabs v0 + Rabs v1). assert (w0 : 0 <= w <= 2 * 10 ^ 31) by (unfold w; pose proof (Rabs_pos v0); pose proof (Rabs_pos v1); lra).
  assert (T0 : 0 < T) by (pose proof (Rinv_0_lt_compat _ (ten 50%nat)); lra).
  assert (iT : / T <= 10 ^ 50). { rewrite <- (Rinv_inv (10 ^ 50)). apply Rinv_le_contravar; [apply Rinv_0_lt_compat; apply ten|lra]. }
  set (small := eta * 10 ^ 89).
  assert (P : forall a b, (a <= b)%nat -> 10 ^ a <= 10 ^ b) by (intros; apply Rle_pow; [lra|assumption]).
  assert (t30 : 1 <= 10 ^ 31) by (apply (P 0%nat 31%nat); lia).
  assert (Z0 : 0 <= small) by (unfold small; apply Rmult_le_pos; [lra|left; apply ten]).
  assert (Z1 : eta * (4 * T + 4) <= small). { apply Rmult_le_compat_l; [lra|]. assert (12 * 10 ^ 31 <= 10 ^ 89). { pose proof (P 33%nat 89%nat ltac:(lia)). replace (10 ^ 33) with (100 * 10 ^ 31) in H by ring. lra. } lra. }
  assert (Z2 : eta / T <= small). { unfold Rdiv. apply Rmult_le_compat_l; [lra|]. pose proof (P 50%nat 89%nat ltac:(lia)). lra. }
  assert (Z3 : eta / T * w <= small). { unfold Rdiv. rewrite Rmult_assoc. apply Rmult_le_compat_l; [lra|]. pose proof (P 82%nat 89%nat ltac:(lia)). replace (10 ^ 82) with (10 * (10 ^ 50 * 10 ^ 31)) in H by ring.
    assert (/ T * w <= 10 ^ 50 * (2 * 10 ^ 31)) by (apply Rmult_le_compat; try lra; left; apply Rinv_0_lt_compat; lra). assert (0 < 10 ^ 50 * 10 ^ 31) by (apply Rmult_lt_0_compat; apply ten). lra. }
  assert (Z4 : eta <= uu * T). { apply Rle_trans with (uu * / 10 ^ 50); [|apply Rmult_le_compat_l; [unfold uu; lra|lra]]. apply Rmult_le_reg_r with (10 ^ 225); [apply ten|]. eapply Rle_trans; [exact eb|].
    replace (uu * / 10 ^ 50 * 10 ^ 225) with (uu * 10 ^ 16 * 10 ^ 159) by (field; apply Rgt_not_eq, ten). assert (1 <= uu * 10 ^ 16) by (unfold uu; cbn; lra). pose proof (P 0%nat 159%nat ltac:(lia)) as G. cbn [pow] in G.
    replace 1 with (1 * 1) at 1 by ring. apply Rmult_le_compat; lra. }
  assert (Z5 : eta <= small). { unfold small. replace eta with (eta * 1) at 1 by ring. apply Rmult_le_compat_l; [lra|]. apply (P 0%nat 89%nat); lia. }
  assert (Z6 : eta * (w + 1) <= small). { apply Rmult_le_compat_l; [lra|]. pose proof (P 33%nat 89%nat ltac:(lia)). replace (10 ^ 33) with (100 * 10 ^ 31) in H by ring. lra. }
  assert (Z7 : 20 * small * (10 * T + 20) <= tiny).
  { unfold tiny. apply Rmult_le_reg_r with (10 ^ 100); [apply ten|]. rewrite Rinv_l by (apply Rgt_not_eq, ten). eapply Rle_trans; [|exact eb]. unfold small.
    replace (20 * (eta * 10 ^ 89) * (10 * T + 20) * 10 ^ 100) with (eta * (20 * (10 * T + 20) * 10 ^ 189)) by ring. apply Rmult_le_compat_l; [lra|].
    replace (10 ^ 225) with (100000 * 10 ^ 31 * 10 ^ 189) by ring. apply Rmult_le_compat_r; [left; apply ten|]. lra. }
  assert (ZT : 0 <= small * T) by (apply Rmult_le_pos; lra).
  pose proof (vel1_err binary64 eta (Rlt_le _ _ e0) b64_err v0 v1 T tau w small T0 Ht Z4 ltac:(unfold w; lra) Z0 Z1 Z2 Z3) as V. fold v in V. fold w in V.
  split; [fold w; lra|].
  set (vs := v0 + tau / T * (v1 - v0)) in *.
  assert (r1 : 0 <= tau / T <= 1). { split; [apply Rmult_le_pos; [lra|left; apply Rinv_0_lt_compat; lra]|]. apply Rmult_le_reg_r with T; [lra|]. unfold Rdiv. rewrite Rmult_assoc, Rinv_l, Rmult_1_l, Rmult_1_r by lra. lra. }
  assert (cv : Rabs vs <= w).
  { unfold vs. set (r := tau / T) in *. replace (v0 + r * (v1 - v0)) with ((1 - r) * v0 + r * v1) by ring. eapply Rle_trans; [apply Rabs_triang|]. rewrite !Rabs_mult, (Rabs_right r), (Rabs_right (1 - r)) by lra.
    pose proof (Rabs_pos v0). pose proof (Rabs_pos v1). assert ((1 - r) * Rabs v0 <= 1 * Rabs v0) by (apply Rmult_le_compat_r; lra). assert (r * Rabs v1 <= 1 * Rabs v1) by (apply Rmult_le_compat_r; lra). unfold w. lra. }
  pose proof (pos1_err binary64 eta (Rlt_le _ _ e0) b64_err es p0 v0 v vs tau w (12 * small) (proj1 Ht) (proj1 w0) ltac:(unfold w; pose proof (Rabs_pos v1); lra) cv V ltac:(lra) ltac:(lra) ltac:(lra)) as G.
  replace (p0 + tau * (v0 + tau / T / 2 * (v1 - v0))) with (p0 + (v0 + vs) * tau / 2) by (unfold vs; field; lra). fold w.
  assert (12 * small * (5 * tau + 20) <= tiny). { eapply Rle_trans; [|exact Z7]. assert (small * tau <= small * T) by (apply Rmult_le_compat_l; lra). lra. }
  lra.
Qed.
Lemma at_same s b t t' : sb 100 (gt_begin Fk s) (gt_begin D64 b) -> sb 100 (gt_end Fk s) (gt_end D64 b) -> sv 100 (gpos_begin Fk s) (gpos_begin D64 b) ->
  sv 100 (gvel_begin Fk s) (gvel_begin D64 b) -> sv 100 (gvel_end Fk s) (gvel_end D64 b) -> sb 100 t t' ->
  gt_begin D64 b = gt_end D64 b \/ lb (-200) (gt_end D64 b - gt_begin D64 b) ->
  sv 500 (gvel_at Fk s t) (gvel_at D64 b t') /\ sv 800 (gpos_at Fk s t) (gpos_at D64 b t').
Proof.
  intros T0 T1 P0 V0 V1 T L. assert (V : sv 500 (gvel_at Fk s t) (gvel_at D64 b t')).
  { unfold gvel_at. cbv zeta. set (c := k_ltb D64 (k0 D64) (k_sub D64 (gt_end D64 b) (gt_begin D64 b))).
    assert (C : k_ltb Fk (k0 Fk) (k_sub Fk (gt_end Fk s) (gt_begin Fk s)) = c) by (unfold c; cmp). rewrite C.
    assert (S : sv 302 (if c return gvec Fk then gvdiv Fk (gvsub Fk (gvel_end Fk s) (gvel_begin Fk s)) (k_sub Fk (gt_end Fk s) (gt_begin Fk s)) else gzero Fk)
                 (if c return gvec D64 then gvdiv D64 (gvsub D64 (gvel_end D64 b) (gvel_begin D64 b)) (k_sub D64 (gt_end D64 b) (gt_begin D64 b)) else gzero D64)).
    { destruct L as [L|L].
      - assert (c = false) as ->. { unfold c. cbn [Bk k_ltb k_sub k0 k_dec r_of_dec]. rewrite L, Rminus_eq_0, !binary64_0. apply Rltb_false. lra. }
        eapply sv_weaken; [apply sv_zero|reflexivity].
      - assert (L' : lb (-200) (k_sub D64 (gt_end D64 b) (gt_begin D64 b))) by (cbn [Bk k_sub]; apply lb_round; [lia|exact L]).
        destruct c; [|eapply sv_weaken; [apply sv_zero|reflexivity]]. wk. }
    wk. }
  split; [exact V|]. unfold gpos_at. pose proof lb_2 as L2. wk.
Qed.
