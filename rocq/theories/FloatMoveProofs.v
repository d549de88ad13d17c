(** With rounded operations every move that is not extremely short can be
    planned. *)
From Coq Require Import Reals Lra.
From Verif Require Import Py Vec RealFacts StateGen Junction Planner Generic SpecGeneric.
Open Scope R_scope.

(** * Inequalities *)
Lemma le_sqrt a b : 0 <= a -> a * a <= b -> a <= sqrt b.
Proof. intros H1 H2. rewrite <- (sqrt_square a) by exact H1. apply sqrt_le_1_alt. exact H2. Qed.
Lemma sqrt_le_ a b : 0 <= a -> b <= a * a -> sqrt b <= a.
Proof. intros H1 H2. rewrite <- (sqrt_square a) by exact H1. apply sqrt_le_1_alt. exact H2. Qed.
Lemma sq_le a b : 0 <= a -> a <= b -> a * a <= b * b.
Proof. intros H1 H2. apply Rmult_le_compat; assumption. Qed.

Section Rounded.
Variables (rnd : R -> R) (eta : R).
Hypothesis eta0 : 0 <= eta.
Hypothesis err : forall x, Rabs (rnd x - x) <= uu * Rabs x + eta.
Hypothesis pos : forall x, 0 <= x -> 0 <= rnd x.
Hypothesis neg : forall x, x <= 0 -> rnd x <= 0.

Lemma up_ x : 0 <= x -> rnd x <= (1 + uu) * x + eta.
Proof. intros H. pose proof (err x) as E. rewrite (Rabs_right x) in E by lra. pose proof (Rle_abs (rnd x - x)). lra. Qed.
Lemma lo_ x : 0 <= x -> (1 - uu) * x - eta <= rnd x.
Proof. intros H. pose proof (err x) as E. rewrite (Rabs_right x) in E by lra. pose proof (Rle_abs (- (rnd x - x))) as G. rewrite Rabs_Ropp in G. lra. Qed.
Lemma near_ x M : Rabs x <= M -> x - uu * M - eta <= rnd x <= x + uu * M + eta.
Proof.
  intros H. pose proof (err x) as E. assert (uu * Rabs x <= uu * M) by (apply Rmult_le_compat_l; [unfold uu; lra|exact H]).
  pose proof (Rle_abs (rnd x - x)). pose proof (Rle_abs (- (rnd x - x))) as G. rewrite Rabs_Ropp in G. lra.
Qed.

Variables acc d vb vt ve : R.
Hypothesis Ha : 0 < acc.
Hypothesis Hd : 0 < d.
Hypothesis Hvt : 0 < vt.
Hypothesis Hvb : 0 <= vb <= vt.
Hypothesis Hve : 0 <= ve <= (1 + 8 * uu) * vt.
Hypothesis Hshort : 32 * uu * (vt * vt) <= acc * d.
Hypothesis Hramp : vt * vt <= 1000000 * acc.
Hypothesis E1 : eta <= uu * uu * vt.
Hypothesis E2 : eta <= uu * d / 1000.
Hypothesis E3 : eta <= uu * (acc * d) / 1000.
Hypothesis E4 : eta <= uu * sqrt (acc * d).
Hypothesis E6 : eta <= uu * uu * (vt * vt) / 1000.
Hypothesis E7 : eta <= / 1000000000000000000000000000000.

Let A2 := rnd (2 * acc).
Let P := rnd (A2 * d).
Let vb2 := rnd (vb * vb).
Let ve2 := rnd (ve * ve).

Lemma AD0 : 0 < acc * d.
Proof. apply Rmult_lt_0_compat; assumption. Qed.
Lemma VB_VT : 0 <= vb * vb <= vt * vt.
Proof. split; [apply Rmult_le_pos; lra|apply sq_le; lra]. Qed.
Lemma VE_VT : 0 <= ve * ve <= (1 + 17 * uu) * (vt * vt).
Proof.
  split; [apply Rmult_le_pos; lra|]. apply Rle_trans with (((1 + 8 * uu) * vt) * ((1 + 8 * uu) * vt)); [apply sq_le; lra|].
  replace ((1 + 8 * uu) * vt * ((1 + 8 * uu) * vt)) with ((1 + 8 * uu) * (1 + 8 * uu) * (vt * vt)) by ring.
  apply Rmult_le_compat_r; [apply Rmult_le_pos; lra|unfold uu; lra].
Qed.
Lemma A2_b : (2 - 4 * uu) * acc <= A2 <= (2 + 4 * uu) * acc.
Proof. pose proof (up_ (2 * acc)) as U. pose proof (lo_ (2 * acc)) as L. fold A2 in U, L. unfold uu in *. lra. Qed.
Lemma P_b : (2 - 7 * uu) * (acc * d) <= P <= (2 + 7 * uu) * (acc * d).
Proof.
  destruct A2_b as [L U]. pose proof AD0. assert (L' : (2 - 4 * uu) * (acc * d) <= A2 * d) by (replace ((2 - 4 * uu) * (acc * d)) with ((2 - 4 * uu) * acc * d) by ring; apply Rmult_le_compat_r; lra).
  assert (U' : A2 * d <= (2 + 4 * uu) * (acc * d)) by (replace ((2 + 4 * uu) * (acc * d)) with ((2 + 4 * uu) * acc * d) by ring; apply Rmult_le_compat_r; lra).
  assert (0 <= A2 * d) by (unfold uu in *; lra). pose proof (up_ (A2 * d)) as U2. pose proof (lo_ (A2 * d)) as L2. fold P in U2, L2. unfold uu in *. lra.
Qed.
Lemma vb2_b : (1 - uu) * (vb * vb) - eta <= vb2 <= (1 + uu) * (vb * vb) + eta.
Proof. pose proof VB_VT. split; [apply lo_; lra|apply up_; lra]. Qed.
Lemma ve2_b : (1 - uu) * (ve * ve) - eta <= ve2 <= (1 + uu) * (ve * ve) + eta.
Proof. pose proof VE_VT. split; [apply lo_; lra|apply up_; lra]. Qed.
Lemma w_pos : 0 < sqrt (acc * d).
Proof. apply sqrt_lt_R0, AD0. Qed.
Lemma w_sq : sqrt (acc * d) * sqrt (acc * d) = acc * d.
Proof. apply sqrt_sqrt. left. apply AD0. Qed.

(** a slower end *)
Lemma slower q : q = rnd (vb2 - P) -> 0 <= q -> rnd (sqrt q) < vb.
Proof.
  intros Eq Hq. pose proof AD0 as AD. pose proof VB_VT as VB. destruct P_b as [PL PU], vb2_b as [BL BU].
  assert (Hb : 0 <= vb2) by (apply pos; lra).
  assert (M : Rabs (vb2 - P) <= vb2 + P) by (apply Rabs_le; unfold uu in *; lra).
  destruct (near_ _ _ M) as [_ N]. rewrite <- Eq in N.
  assert (Q : q <= (1 - 60 * uu) * (vb * vb)) by (unfold uu in *; lra).
  assert (V : acc * d <= vb * vb) by (unfold uu in *; lra).
  assert (W : sqrt (acc * d) <= vb) by (apply sqrt_le_; lra). pose proof w_pos as W0.
  assert (S : sqrt q <= (1 - 30 * uu) * vb).
  { apply sqrt_le_; [unfold uu; lra|]. eapply Rle_trans; [exact Q|]. replace ((1 - 30 * uu) * vb * ((1 - 30 * uu) * vb)) with ((1 - 30 * uu) * (1 - 30 * uu) * (vb * vb)) by ring.
    apply Rmult_le_compat_r; [lra|unfold uu; lra]. }
  pose proof (up_ (sqrt q) (sqrt_pos q)). unfold uu in *. lra.
Qed.
(** a faster end *)
Lemma faster q : q = rnd (vb2 + P) -> 0 <= q /\ vb < rnd (sqrt q).
Proof.
  intros Eq. pose proof AD0 as AD. pose proof VB_VT as VB. destruct P_b as [PL PU], vb2_b as [BL BU].
  assert (Hb : 0 <= vb2) by (apply pos; lra). assert (N0 : 0 <= vb2 + P) by (unfold uu in *; lra).
  pose proof (lo_ _ N0) as N. rewrite <- Eq in N.
  assert (Q1 : (1 + 60 * uu) * (vb * vb) <= q) by (unfold uu in *; lra).
  assert (Q2 : acc * d <= q) by (unfold uu in *; lra). split; [lra|].
  assert (S1 : (1 + 29 * uu) * vb <= sqrt q).
  { apply le_sqrt; [unfold uu; lra|]. eapply Rle_trans; [|exact Q1]. replace ((1 + 29 * uu) * vb * ((1 + 29 * uu) * vb)) with ((1 + 29 * uu) * (1 + 29 * uu) * (vb * vb)) by ring.
    apply Rmult_le_compat_r; [lra|unfold uu; lra]. }
  assert (S2 : sqrt (acc * d) <= sqrt q) by (apply sqrt_le_1_alt; exact Q2).
  pose proof w_pos. pose proof (lo_ (sqrt q) (sqrt_pos q)). unfold uu in *. lra.
Qed.
(** ... above the target *)
Lemma overshoot q : q = rnd (vb2 + P) -> (1 + 98 / 10000000) * vt <= rnd (sqrt q) -> (1 + 18 / 1000000) * (vt * vt) <= vb * vb + 2 * (acc * d).
Proof.
  intros Eq H. pose proof AD0 as AD. pose proof VB_VT as VB. destruct P_b as [PL PU], vb2_b as [BL BU].
  assert (Hb : 0 <= vb2) by (apply pos; lra). assert (N0 : 0 <= vb2 + P) by (unfold uu in *; lra).
  pose proof (up_ _ N0) as N. rewrite <- Eq in N. assert (q0 : 0 <= q) by (rewrite Eq; apply pos; lra).
  pose proof (up_ (sqrt q) (sqrt_pos q)) as S.
  assert (S1 : (1 + 97 / 10000000) * vt <= sqrt q) by (unfold uu in *; lra).
  assert (S2 : (1 + 97 / 10000000) * vt * ((1 + 97 / 10000000) * vt) <= q) by (rewrite <- (sqrt_sqrt q) by exact q0; apply sq_le; lra).
  replace ((1 + 97 / 10000000) * vt * ((1 + 97 / 10000000) * vt)) with ((1 + 97 / 10000000) * (1 + 97 / 10000000) * (vt * vt)) in S2 by ring.
  unfold uu in *. lra.
Qed.

(** ramps *)
Let up := rnd (rnd (rnd (vt - vb) * rnd (vb + vt)) / A2).
Let D2 := rnd (2 * - acc).
Let dn := rnd (rnd (rnd (ve - vt) * rnd (ve + vt)) / D2).
Lemma A2_pos : 0 < A2.
Proof. destruct A2_b. unfold uu in *. lra. Qed.
Lemma D2_b : (2 - 4 * uu) * acc <= - D2 <= (2 + 4 * uu) * acc.
Proof.
  assert (M : Rabs (2 * - acc) <= 2 * acc) by (apply Rabs_le; lra). pose proof (near_ _ _ M) as N. fold D2 in N. unfold uu in *. lra.
Qed.
Lemma up_pos : 0 <= up.
Proof.
  apply pos. pose proof A2_pos. apply Rmult_le_pos; [|left; apply Rinv_0_lt_compat; lra]. apply pos. apply Rmult_le_pos; apply pos; lra.
Qed.
(** [N / A] with numerator at most [X] *)
Lemma quotient N A X : 0 <= X -> N <= X -> (2 - 4 * uu) * acc <= A -> 2 * acc * (N / A) <= (1 + 3 * uu) * X.
Proof.
  intros HX HN HA. assert (A0 : 0 < A) by (unfold uu in *; lra).
  assert (H : N / A <= X / A) by (apply Rmult_le_compat_r; [left; apply Rinv_0_lt_compat; exact A0|exact HN]).
  apply Rle_trans with (2 * acc * (X / A)); [apply Rmult_le_compat_l; lra|].
  apply Rmult_le_reg_r with A; [exact A0|]. replace (2 * acc * (X / A) * A) with (2 * acc * X) by (field; lra).
  replace ((1 + 3 * uu) * X * A) with (X * ((1 + 3 * uu) * A)) by ring. rewrite (Rmult_comm (2 * acc) X). apply Rmult_le_compat_l; [exact HX|].
  apply Rle_trans with ((1 + 3 * uu) * ((2 - 4 * uu) * acc)); [unfold uu; lra|]. apply Rmult_le_compat_l; [unfold uu; lra|exact HA].
Qed.
(** a rounded product of a rounded difference [x - y] and a rounded sum *)
Lemma product x y : 0 <= y <= x -> x <= (1 + 8 * uu) * vt -> rnd (rnd (x - y) * rnd (y + x)) <= (1 + 4 * uu) * (x * x - y * y) + 6 * (uu * uu * (vt * vt)).
Proof.
  intros Hy Hx. pose proof AD0 as AD. pose proof (up_ (x - y)) as U1. pose proof (up_ (y + x)) as U2. pose proof (pos (x - y)) as P1. pose proof (pos (y + x)) as P2.
  assert (VV : 0 < vt * vt) by (apply Rmult_lt_0_compat; exact Hvt).
  assert (Pr : rnd (x - y) * rnd (y + x) <= ((1 + uu) * (x - y) + eta) * ((1 + uu) * (y + x) + eta)) by (apply Rmult_le_compat; lra).
  assert (X : ((1 + uu) * (x - y) + eta) * ((1 + uu) * (y + x) + eta) = (1 + uu) * (1 + uu) * (x * x - y * y) + (1 + uu) * (2 * (eta * x)) + eta * eta) by ring.
  assert (T1 : eta * x <= 2 * (eta * vt)) by (replace (2 * (eta * vt)) with (eta * (2 * vt)) by ring; apply Rmult_le_compat_l; [exact eta0|unfold uu in *; lra]).
  assert (T2 : eta * vt <= uu * uu * (vt * vt)) by (rewrite <- Rmult_assoc; apply Rmult_le_compat_r; lra).
  assert (T3 : eta * eta <= eta * vt) by (apply Rmult_le_compat_l; [exact eta0|]; unfold uu in *; lra).
  assert (T0 : 0 <= eta * x) by (apply Rmult_le_pos; lra).
  assert (D0 : 0 <= x * x - y * y) by (pose proof (sq_le y x); lra).
  assert (N0 : 0 <= rnd (x - y) * rnd (y + x)) by (apply Rmult_le_pos; lra).
  pose proof (up_ _ N0) as N. unfold uu in *. lra.
Qed.
Lemma up_b : 2 * acc * up <= (1 + 9 * uu) * (vt * vt - vb * vb) + uu * (acc * d).
Proof.
  pose proof AD0 as AD. destruct A2_b as [L U]. pose proof (product vt vb Hvb ltac:(unfold uu; lra)) as N. pose proof VB_VT as VB.
  rewrite (Rplus_comm vb vt) in N. set (n := rnd (rnd (vt - vb) * rnd (vb + vt))) in *. rewrite (Rplus_comm vt vb) in N. fold n in N.
  assert (n0 : 0 <= n) by (apply pos; apply Rmult_le_pos; apply pos; lra).
  assert (X0 : 0 <= (1 + 4 * uu) * (vt * vt - vb * vb) + 6 * (uu * uu * (vt * vt))) by (unfold uu in *; lra).
  pose proof (quotient n A2 _ X0 N L) as Q. pose proof A2_pos as A0.
  assert (q0 : 0 <= n / A2) by (apply Rmult_le_pos; [exact n0|left; apply Rinv_0_lt_compat; exact A0]).
  pose proof (up_ _ q0) as F. fold up in F.
  assert (F' : 2 * acc * up <= (1 + uu) * (2 * acc * (n / A2)) + 2 * (acc * eta)).
  { replace ((1 + uu) * (2 * acc * (n / A2)) + 2 * (acc * eta)) with (2 * acc * ((1 + uu) * (n / A2) + eta)) by ring. apply Rmult_le_compat_l; lra. }
  assert (T : acc * eta <= uu * (acc * d) / 1000) by (replace (uu * (acc * d) / 1000) with (acc * (uu * d / 1000)) by field; apply Rmult_le_compat_l; lra).
  unfold uu in *. lra.
Qed.
Lemma upn x : x <= 0 -> - rnd x <= (1 + uu) * - x + eta.
Proof. intros H. pose proof (err x) as E. rewrite (Rabs_left1 x) in E by lra. pose proof (Rle_abs (- (rnd x - x))) as G. rewrite Rabs_Ropp in G. lra. Qed.
Lemma product_n x y : 0 <= x <= y -> y <= (1 + 8 * uu) * vt -> - rnd (rnd (x - y) * rnd (x + y)) <= (1 + 4 * uu) * (y * y - x * x) + 6 * (uu * uu * (vt * vt)).
Proof.
  intros Hy Hx. pose proof AD0 as AD. pose proof (upn (x - y)) as U1. pose proof (up_ (x + y)) as U2. pose proof (neg (x - y)) as P1. pose proof (pos (x + y)) as P2.
  assert (VV : 0 < vt * vt) by (apply Rmult_lt_0_compat; exact Hvt).
  assert (Pr : - rnd (x - y) * rnd (x + y) <= ((1 + uu) * (y - x) + eta) * ((1 + uu) * (x + y) + eta)) by (apply Rmult_le_compat; lra).
  assert (X : ((1 + uu) * (y - x) + eta) * ((1 + uu) * (x + y) + eta) = (1 + uu) * (1 + uu) * (y * y - x * x) + (1 + uu) * (2 * (eta * y)) + eta * eta) by ring.
  assert (T1 : eta * y <= 2 * (eta * vt)) by (replace (2 * (eta * vt)) with (eta * (2 * vt)) by ring; apply Rmult_le_compat_l; [exact eta0|unfold uu in *; lra]).
  assert (T2 : eta * vt <= uu * uu * (vt * vt)) by (rewrite <- Rmult_assoc; apply Rmult_le_compat_r; lra).
  assert (T3 : eta * eta <= eta * vt) by (apply Rmult_le_compat_l; [exact eta0|]; unfold uu in *; lra).
  assert (T0 : 0 <= eta * y) by (apply Rmult_le_pos; lra).
  assert (D0 : 0 <= y * y - x * x) by (pose proof (sq_le x y); lra).
  assert (N0 : 0 <= - rnd (x - y) * rnd (x + y)) by (apply Rmult_le_pos; lra).
  assert (N1 : rnd (x - y) * rnd (x + y) <= 0) by lra.
  pose proof (upn _ N1) as N. replace (- (rnd (x - y) * rnd (x + y))) with (- rnd (x - y) * rnd (x + y)) in N by ring.
  unfold uu in *. lra.
Qed.
Lemma dn_b : 2 * acc * dn <= vt * vt - ve * ve + 27 * uu * (vt * vt) + uu * (acc * d).
Proof.
  pose proof AD0 as AD. destruct D2_b as [L U]. pose proof VE_VT as VE. pose proof A2_pos.
  assert (VV : 0 < vt * vt) by (apply Rmult_lt_0_compat; exact Hvt).
  destruct (Rle_or_lt ve vt) as [G|G].
  - pose proof (product_n ve vt ltac:(lra) ltac:(unfold uu; lra)) as N. set (n := rnd (rnd (ve - vt) * rnd (ve + vt))) in *.
    assert (n0 : n <= 0).
    { apply neg. pose proof (neg (ve - vt)). pose proof (pos (ve + vt)). assert (0 <= - rnd (ve - vt) * rnd (ve + vt)) by (apply Rmult_le_pos; lra). lra. }
    pose proof (sq_le ve vt ltac:(lra) G) as S.
    assert (X0 : 0 <= (1 + 4 * uu) * (vt * vt - ve * ve) + 6 * (uu * uu * (vt * vt))) by (unfold uu in *; lra).
    pose proof (quotient (- n) (- D2) _ X0 N L) as Q. assert (A0 : 0 < - D2) by (unfold uu in *; lra).
    assert (E : n / D2 = - n / - D2) by (field; lra).
    assert (q0 : 0 <= n / D2) by (rewrite E; apply Rmult_le_pos; [lra|left; apply Rinv_0_lt_compat; exact A0]).
    pose proof (up_ _ q0) as F. fold dn in F. rewrite <- E in Q.
    assert (F' : 2 * acc * dn <= (1 + uu) * (2 * acc * (n / D2)) + 2 * (acc * eta)).
    { replace ((1 + uu) * (2 * acc * (n / D2)) + 2 * (acc * eta)) with (2 * acc * ((1 + uu) * (n / D2) + eta)) by ring. apply Rmult_le_compat_l; lra. }
    assert (T : acc * eta <= uu * (acc * d) / 1000) by (replace (uu * (acc * d) / 1000) with (acc * (uu * d / 1000)) by field; apply Rmult_le_compat_l; lra).
    unfold uu in *. lra.
  - assert (D0 : dn <= 0).
    { apply neg. assert (A0 : 0 < - D2) by (unfold uu in *; lra). set (n := rnd _). assert (n0 : 0 <= n) by (apply pos, Rmult_le_pos; apply pos; lra).
      replace (n / D2) with (- (n * / - D2)) by (field; lra). assert (0 <= n * / - D2) by (apply Rmult_le_pos; [exact n0|left; apply Rinv_0_lt_compat; exact A0]). lra. }
    assert (2 * acc * dn <= 0) by (replace (2 * acc * dn) with (- (2 * acc * - dn)) by ring; assert (0 <= 2 * acc * - dn) by (apply Rmult_le_pos; lra); lra).
    unfold uu in *. lra.
Qed.
(** the ramp down is never really negative *)
Lemma dn_lo : - (/ 200000000) <= dn.
Proof.
  pose proof AD0 as AD. destruct D2_b as [L U]. pose proof VE_VT as VE.
  assert (A0 : 0 < - D2) by (unfold uu in *; lra). assert (VV : 0 < vt * vt) by (apply Rmult_lt_0_compat; exact Hvt).
  destruct (Rle_or_lt ve vt) as [G|G].
  - enough (0 <= dn) by lra. apply pos. set (n := rnd _). assert (n0 : n <= 0).
    { apply neg. pose proof (neg (ve - vt)). pose proof (pos (ve + vt)). assert (0 <= - rnd (ve - vt) * rnd (ve + vt)) by (apply Rmult_le_pos; lra). lra. }
    replace (n / D2) with (- n * / - D2) by (field; lra). apply Rmult_le_pos; [lra|left; apply Rinv_0_lt_compat; exact A0].
  - pose proof (product ve vt ltac:(lra) ltac:(lra)) as N. rewrite (Rplus_comm vt ve) in N. set (n := rnd (rnd (ve - vt) * rnd (ve + vt))) in *.
    assert (n0 : 0 <= n) by (apply pos, Rmult_le_pos; apply pos; lra).
    assert (X0 : 0 <= (1 + 4 * uu) * (ve * ve - vt * vt) + 6 * (uu * uu * (vt * vt))) by (pose proof (sq_le vt ve ltac:(lra) ltac:(lra)); unfold uu in *; lra).
    pose proof (quotient n (- D2) _ X0 N L) as Q.
    assert (q0 : n / D2 <= 0) by (replace (n / D2) with (- (n * / - D2)) by (field; lra); assert (0 <= n * / - D2) by (apply Rmult_le_pos; [exact n0|left; apply Rinv_0_lt_compat; exact A0]); lra).
    pose proof (upn _ q0) as F. fold dn in F. replace (n / - D2) with (- (n / D2)) in Q by (field; lra).
    assert (B : - (n / D2) <= 20 * uu * 1000000).
    { apply Rmult_le_reg_l with (2 * acc); [lra|]. unfold uu in *. lra. }
    unfold uu in *. lra.
Qed.
(** the peak *)
Let S := rnd (rnd (rnd (acc * d) + rnd (vb2 / 2)) + rnd (ve2 / 2)).
Lemma S_b : (1 - 8 * uu) * (acc * d + vb * vb / 2 + ve * ve / 2) - uu * (acc * d) <= S
            <= (1 + 8 * uu) * (acc * d + vb * vb / 2 + ve * ve / 2) + uu * (acc * d).
Proof.
  pose proof AD0 as AD. pose proof VB_VT as VB. pose proof VE_VT as VE. destruct vb2_b as [BL BU], ve2_b as [EL EU].
  assert (b0 : 0 <= vb2) by (apply pos; lra). assert (e0 : 0 <= ve2) by (apply pos; lra).
  pose proof (up_ (acc * d) ltac:(lra)) as U1. pose proof (lo_ (acc * d) ltac:(lra)) as L1. pose proof (pos (acc * d) ltac:(lra)) as P1.
  pose proof (up_ (vb2 / 2) ltac:(lra)) as U2. pose proof (lo_ (vb2 / 2) ltac:(lra)) as L2. pose proof (pos (vb2 / 2) ltac:(lra)) as P2.
  pose proof (up_ (ve2 / 2) ltac:(lra)) as U3. pose proof (lo_ (ve2 / 2) ltac:(lra)) as L3. pose proof (pos (ve2 / 2) ltac:(lra)) as P3.
  pose proof (up_ (rnd (acc * d) + rnd (vb2 / 2)) ltac:(lra)) as U4. pose proof (lo_ (rnd (acc * d) + rnd (vb2 / 2)) ltac:(lra)) as L4. pose proof (pos (rnd (acc * d) + rnd (vb2 / 2)) ltac:(lra)) as P4.
  pose proof (up_ (rnd (rnd (acc * d) + rnd (vb2 / 2)) + rnd (ve2 / 2)) ltac:(lra)) as U5. pose proof (lo_ (rnd (rnd (acc * d) + rnd (vb2 / 2)) + rnd (ve2 / 2)) ltac:(lra)) as L5.
  fold S in U5, L5. unfold uu in *. lra.
Qed.
Lemma S_pos : 0 <= S.
Proof. pose proof S_b. pose proof AD0. pose proof VB_VT. pose proof VE_VT. unfold uu in *. lra. Qed.
Lemma peak_below : d <= rnd (up + dn) -> rnd (sqrt S) <= (1 + 80 * uu) * vt.
Proof.
  intros H. pose proof AD0 as AD. pose proof VB_VT as VB. pose proof VE_VT as VE. pose proof up_b as UB. pose proof dn_b as DB. destruct S_b as [_ SU].
  assert (VV : 0 < vt * vt) by (apply Rmult_lt_0_compat; exact Hvt).
  assert (N : 0 <= up + dn). { destruct (Rle_or_lt 0 (up + dn)) as [G|G]; [exact G|]. pose proof (neg (up + dn)). lra. }
  pose proof (up_ _ N) as U.
  assert (X : 2 * (acc * d) <= (1 + uu) * (2 * acc * up + 2 * acc * dn) + 2 * (acc * eta)).
  { replace (2 * (acc * d)) with (2 * acc * d) by ring. replace ((1 + uu) * (2 * acc * up + 2 * acc * dn) + 2 * (acc * eta)) with (2 * acc * ((1 + uu) * (up + dn) + eta)) by ring. apply Rmult_le_compat_l; lra. }
  assert (T : acc * eta <= uu * (acc * d) / 1000) by (replace (uu * (acc * d) / 1000) with (acc * (uu * d / 1000)) by field; apply Rmult_le_compat_l; lra).
  assert (Q : S <= (1 + 70 * uu) * (vt * vt)) by (unfold uu in *; lra).
  assert (R : sqrt S <= (1 + 70 * uu) * vt).
  { apply sqrt_le_; [unfold uu; lra|]. eapply Rle_trans; [exact Q|]. replace ((1 + 70 * uu) * vt * ((1 + 70 * uu) * vt)) with ((1 + 70 * uu) * (1 + 70 * uu) * (vt * vt)) by ring.
    apply Rmult_le_compat_r; [lra|unfold uu; lra]. }
  pose proof (up_ (sqrt S) (sqrt_pos S)). unfold uu in *. lra.
Qed.
Lemma peak_above : (1 + 18 / 1000000) * (vt * vt) <= vb * vb + 2 * (acc * d) -> ve < rnd (sqrt S).
Proof.
  intros H. pose proof AD0 as AD. pose proof VB_VT as VB. pose proof VE_VT as VE. destruct S_b as [SL _].
  assert (VV : 0 < vt * vt) by (apply Rmult_lt_0_compat; exact Hvt).
  assert (Q : ve * ve + 8 / 1000000 * (vt * vt) <= S) by (unfold uu in *; lra).
  assert (W : ve * vt <= 101 / 100 * (vt * vt)) by (rewrite <- Rmult_assoc; apply Rmult_le_compat_r; unfold uu in *; lra).
  assert (R : ve + 3 / 1000000 * vt <= sqrt S).
  { apply le_sqrt; [lra|]. replace ((ve + 3 / 1000000 * vt) * (ve + 3 / 1000000 * vt)) with (ve * ve + 6 / 1000000 * (ve * vt) + 9 / 1000000000000 * (vt * vt)) by field. lra. }
  pose proof (lo_ (sqrt S) (sqrt_pos S)). unfold uu in *. lra.
Qed.

(** * The decisions of move_maker2 *)
Hypothesis r0 : rnd 0 = 0.
Hypothesis r2 : rnd 2 = 2.
Notation k := (Bk rnd).
Lemma dec_2 : k2 k = 2.
Proof. change (rnd (r_of_dec 2 0) = 2). replace (r_of_dec 2 0) with 2 by (unfold r_of_dec; cbn; lra). exact r2. Qed.
Lemma dec_0 : k0 k = 0.
Proof. change (rnd (r_of_dec 0 0) = 0). replace (r_of_dec 0 0) with 0 by (unfold r_of_dec; cbn; lra). exact r0. Qed.
Lemma r8 : 9 / 1000000000 <= rnd (r_of_dec 1 (-8)).
Proof. replace (r_of_dec 1 (-8)) with (/ 100000000) by (unfold r_of_dec; cbn; lra). pose proof (lo_ (/ 100000000) ltac:(lra)). unfold uu in *. lra. Qed.
Lemma r5 : (1 - 2 * uu) / 100000 <= rnd (r_of_dec 1 (-5)).
Proof. replace (r_of_dec 1 (-5)) with (/ 100000) by (unfold r_of_dec; cbn; lra). pose proof (lo_ (/ 100000) ltac:(lra)). unfold uu in *. lra. Qed.
Lemma close_0 x : - (/ 200000000) <= x <= / 200000000 -> gisclose k x (k0 k) = true.
Proof.
  intros H. unfold gisclose. rewrite dec_0. cbn [Bk K k_dec k_add k_sub k_mul k_abs k_leb]. rewrite Rabs_R0, Rmult_0_r, r0, Rplus_0_r, Rminus_0_r.
  apply Rleb_true. pose proof r8 as B. pose proof (lo_ (rnd (r_of_dec 1 (-8))) ltac:(lra)) as L.
  assert (M : Rabs x <= / 200000000) by (apply Rabs_le; lra). destruct (near_ _ _ M).
  apply Rle_trans with (6 / 1000000000); [|unfold uu in *; lra]. apply Rabs_le. unfold uu in *. lra.
Qed.
Lemma tol_lo v : 0 <= v -> (1 - 4 * uu) / 100000 * v - 3 * eta <= rnd (rnd (r_of_dec 1 (-8)) + rnd (rnd (r_of_dec 1 (-5)) * Rabs v)).
Proof.
  intros Hv. rewrite (Rabs_right v) by lra. pose proof r8 as B8. pose proof r5 as B5.
  assert (M : (1 - 2 * uu) / 100000 * v <= rnd (r_of_dec 1 (-5)) * v) by (apply Rmult_le_compat_r; lra).
  assert (M0 : 0 <= (1 - 2 * uu) / 100000 * v) by (apply Rmult_le_pos; [unfold uu; lra|lra]).
  pose proof (lo_ (rnd (r_of_dec 1 (-5)) * v) ltac:(lra)) as L.
  pose proof (pos (rnd (r_of_dec 1 (-5)) * v) ltac:(lra)) as P1.
  pose proof (lo_ (rnd (r_of_dec 1 (-8)) + rnd (rnd (r_of_dec 1 (-5)) * v)) ltac:(lra)) as L2.
  unfold uu in *. lra.
Qed.
Lemma close_vt x : vt <= x <= (1 + 80 * uu) * vt -> gisclose k x vt = true.
Proof.
  intros H. unfold gisclose. cbn [Bk K k_dec k_add k_sub k_mul k_abs k_leb]. apply Rleb_true.
  pose proof (tol_lo vt ltac:(lra)) as T. rewrite (Rabs_right (rnd (x - vt))) by (apply Rle_ge, pos; lra).
  pose proof (up_ (x - vt) ltac:(lra)). unfold uu in *. lra.
Qed.
Lemma not_close_vt x : vt <= x -> gisclose k x vt = false -> (1 + 98 / 10000000) * vt <= x.
Proof.
  intros H C. unfold gisclose in C. cbn [Bk K k_dec k_add k_sub k_mul k_abs k_leb] in C.
  assert (C' : rnd (rnd (r_of_dec 1 (-8)) + rnd (rnd (r_of_dec 1 (-5)) * Rabs vt)) < Rabs (rnd (x - vt))).
  { apply Rnot_le_lt. intros G. apply Rleb_true in G. congruence. }
  pose proof (tol_lo vt ltac:(lra)) as T. rewrite (Rabs_right (rnd (x - vt))) in C' by (apply Rle_ge, pos; lra).
  pose proof (up_ (x - vt) ltac:(lra)). unfold uu in *. lra.
Qed.

(** One of the four ways is always taken. *)
Let qs := if Rltb ve vb then rnd (vb2 - P) else rnd (vb2 + P).
Let ves := if Rleb 0 qs then rnd (sqrt qs) else 0.
Lemma some_way :
  (Rltb (rnd (up + dn)) d && (Rltb 0 up || gisclose k up (k0 k)) && (Rltb 0 dn || gisclose k dn (k0 k)) = true) \/
  (Rltb ve (rnd (sqrt S)) && Rltb vb (rnd (sqrt S)) && (Rltb (rnd (sqrt S)) vt || gisclose k (rnd (sqrt S)) vt) = true) \/
  (Rltb vb ves && (Rltb ves vt || gisclose k ves vt) = true) \/ Rltb ves vb = true.
Proof.
  assert (U0 : Rltb 0 up || gisclose k up (k0 k) = true).
  { pose proof up_pos as U. destruct (Req_dec up 0) as [E|E]; [rewrite close_0 by lra; apply Bool.orb_true_r|rewrite Rltb_true by lra; reflexivity]. }
  assert (D0 : Rltb 0 dn || gisclose k dn (k0 k) = true).
  { pose proof dn_lo as L. destruct (Rlt_or_le 0 dn) as [G|G]; [rewrite Rltb_true by lra; reflexivity|rewrite close_0 by lra; apply Bool.orb_true_r]. }
  rewrite U0, D0. destruct (Rltb_spec (rnd (up + dn)) d) as [T|T]; [left; reflexivity|right]. apply Rnot_lt_le in T.
  pose proof (peak_below T) as PB.
  assert (PC : Rltb (rnd (sqrt S)) vt || gisclose k (rnd (sqrt S)) vt = true).
  { destruct (Rlt_or_le (rnd (sqrt S)) vt) as [G|G]; [rewrite Rltb_true by exact G; reflexivity|rewrite close_vt by lra; apply Bool.orb_true_r]. }
  rewrite PC. unfold ves, qs. destruct (Rltb_spec ve vb) as [B|B].
  - right; right. destruct (Rleb_spec 0 (rnd (vb2 - P))) as [Q|Q]; [apply Rltb_true, slower; [reflexivity|exact Q]|apply Rltb_true; lra].
  - apply Rnot_lt_le in B. destruct (faster _ eq_refl) as [Q F]. rewrite (Rleb_true _ _ Q). set (w := rnd (sqrt (rnd (vb2 + P)))) in *.
    destruct (Rltb w vt || gisclose k w vt) eqn:C; [right; left; rewrite Rltb_true by exact F; reflexivity|]. left.
    apply Bool.orb_false_iff in C as [C1 C2]. apply Rltb_nlt in C1. pose proof (not_close_vt _ C1 C2) as G.
    pose proof (overshoot _ eq_refl G) as O. pose proof (peak_above O) as A. rewrite !Rltb_true by lra. reflexivity.
Qed.
(** Only a short move ends with a single ramp down. *)
Lemma down_short : ve < vb ->
  Rltb (rnd (up + dn)) d && (Rltb 0 up || gisclose k up (k0 k)) && (Rltb 0 dn || gisclose k dn (k0 k)) = false ->
  Rltb ve (rnd (sqrt S)) && Rltb vb (rnd (sqrt S)) && (Rltb (rnd (sqrt S)) vt || gisclose k (rnd (sqrt S)) vt) = false ->
  2 * (acc * d) <= 102 / 100 * (vb * vb).
Proof.
  intros Hvv HT HP. destruct (Rle_or_lt (2 * (acc * d)) (102 / 100 * (vb * vb))) as [G|G]; [exact G|exfalso].
  assert (U0 : Rltb 0 up || gisclose k up (k0 k) = true).
  { pose proof up_pos as U. destruct (Req_dec up 0) as [E|E]; [rewrite close_0 by lra; apply Bool.orb_true_r|rewrite Rltb_true by lra; reflexivity]. }
  assert (D0 : Rltb 0 dn || gisclose k dn (k0 k) = true).
  { pose proof dn_lo as L. destruct (Rlt_or_le 0 dn) as [C|C]; [rewrite Rltb_true by lra; reflexivity|rewrite close_0 by lra; apply Bool.orb_true_r]. }
  rewrite U0, D0, !Bool.andb_true_r in HT. apply Rltb_nlt in HT. pose proof (peak_below HT) as PB.
  assert (PC : Rltb (rnd (sqrt S)) vt || gisclose k (rnd (sqrt S)) vt = true).
  { destruct (Rlt_or_le (rnd (sqrt S)) vt) as [C|C]; [rewrite Rltb_true by exact C; reflexivity|rewrite close_vt by lra; apply Bool.orb_true_r]. }
  rewrite PC, Bool.andb_true_r in HP.
  pose proof AD0 as AD. pose proof VB_VT as VB. pose proof VE_VT as VE. destruct S_b as [SL _].
  assert (S1 : 1004 / 1000 * (vb * vb) <= S) by (unfold uu in *; lra). assert (S2 : 98 / 100 * (98 / 100) * (acc * d) <= S) by (unfold uu in *; lra).
  assert (Q1 : 1001 / 1000 * vb <= sqrt S) by (apply le_sqrt; [lra|]; replace (1001 / 1000 * vb * (1001 / 1000 * vb)) with (1001 / 1000 * (1001 / 1000) * (vb * vb)) by field; lra).
  assert (Q2 : 98 / 100 * sqrt (acc * d) <= sqrt S).
  { pose proof w_pos as W0. apply le_sqrt; [lra|]. replace (98 / 100 * sqrt (acc * d) * (98 / 100 * sqrt (acc * d))) with (98 / 100 * (98 / 100) * (sqrt (acc * d) * sqrt (acc * d))) by field. rewrite w_sq. lra. }
  pose proof (lo_ (sqrt S) (sqrt_pos S)) as L.
  assert (B : vb < rnd (sqrt S)) by (unfold uu in *; lra). rewrite !Rltb_true in HP by lra. discriminate.
Qed.
End Rounded.

(** * Errors of the move makers *)
Definition not_name {A} (r : res A) : Prop := r <> Err NameError.
Lemma bind_nn {A B} (x : res A) (f : A -> res B) : not_name x -> (forall a, not_name (f a)) -> not_name (bind x f).
Proof. intros H1 H2. destruct x as [a|e]; cbn [bind]; [apply H2|]. intros [= ->]. apply H1. reflexivity. Qed.
Section Kops.
Variable k : kops.
Lemma mk_nn t0 t1 p0 p1 v0 v1 : not_name (gmk_segment k t0 t1 p0 p1 v0 v1).
Proof. unfold gmk_segment, gself_check. destruct (k_ltb k _ _); [discriminate|]. destruct (k_ltb k _ _); discriminate. Qed.
Ltac seg := repeat (apply bind_nn; [apply mk_nn|intros ?]); discriminate.
Lemma try_nn {A} (r : res A) : not_name r -> not_name (try_runtime r).
Proof. destruct r as [a|[]]; cbn; intros H; try exact H; discriminate. Qed.
Lemma trapezoid_nn dir pv a d b t e x : not_name (gtrapezoid k dir pv a d b t e x). Proof. unfold gtrapezoid. seg. Qed.
Lemma triang_nn dir pv a b t e : not_name (gtriang k dir pv a b t e). Proof. unfold gtriang. seg. Qed.
Lemma up_nn dir pv a b e : not_name (gsingl_up k dir pv a b e). Proof. unfold gsingl_up. seg. Qed.
Lemma dwn_nn dir pv a b e : not_name (gsingl_dwn k dir pv a b e). Proof. unfold gsingl_dwn. seg. Qed.
End Kops.

(** * move_maker2 *)
Ltac takes W := lazymatch type of W with ?c = true => lazymatch goal with |- not_name (if ?c' then _ else _) => change c' with c; rewrite W end end.
Ltac skips L := lazymatch goal with |- not_name (if ?c then _ else _) => destruct c; [apply L|] end.
Lemma move_planned rnd eta A B dir pv ve :
  0 <= eta -> (forall x, Rabs (rnd x - x) <= uu * Rabs x + eta) -> (forall x, 0 <= x -> 0 <= rnd x) -> (forall x, x <= 0 -> rnd x <= 0) ->
  rnd 0 = 0 -> rnd 2 = 2 ->
  let acc := gk_acc (Bk rnd) B in let vt := gk_speed (Bk rnd) B in let d := fst (gmove_distance (Bk rnd) A B) in
  0 < acc -> 0 < d -> 0 < vt -> 0 <= ve <= (1 + 8 * uu) * vt -> 32 * uu * (vt * vt) <= acc * d -> vt * vt <= 1000000 * acc ->
  eta <= uu * uu * vt -> eta <= uu * d / 1000 -> eta <= uu * (acc * d) / 1000 -> eta <= uu * sqrt (acc * d) ->
  eta <= uu * uu * (vt * vt) / 1000 -> eta <= / 1000000000000000000000000000000 ->
  not_name (gmove_maker2 (Bk rnd) A B dir pv ve).
Proof.
  intros H1 H2 H3 H4 H5 H6 acc vt d G1 G2 G3 G4 G5 G6 E1 E2 E3 E4 E6 E7. unfold gmove_maker2. subst d.
  destruct (gmove_distance (Bk rnd) A B) as [d xo]. cbn [fst] in *. fold acc vt.
  set (v := gnorm3 (Bk rnd) _). assert (v0 : 0 <= v) by (apply H3, sqrt_pos). clearbody v. cbv zeta.
  set (vb := if k_ltb (Bk rnd) v vt then v else vt). assert (Hvb : 0 <= vb <= vt) by (unfold vb; cbn [Bk k_ltb]; destruct (Rltb_spec v vt); lra). clearbody vb.
  cbn [Bk K k_ltb k_leb k_add k_sub k_mul k_div k_sqrt k_opp].
  rewrite (dec_0 rnd H5), (dec_2 rnd H6). rewrite (Rleb_false acc 0) by lra. apply try_nn.
  pose proof (some_way rnd eta H1 H2 H3 H4 acc d vb vt ve G1 G2 G3 Hvb G4 G5 G6 E1 E2 E3 E4 E6 E7 H5) as W. cbv zeta in W. rewrite (dec_0 rnd H5) in W.
  destruct W as [W|[W|[W|W]]].
  - takes W. apply trapezoid_nn.
  - skips trapezoid_nn. takes W. apply triang_nn.
  - skips trapezoid_nn. skips triang_nn. takes W. apply up_nn.
  - skips trapezoid_nn. skips triang_nn. skips up_nn. takes W. apply dwn_nn.
Qed.
