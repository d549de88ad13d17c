(** How far rounding carries the planned positions from the exact ones. *)
From Coq Require Import Reals Lra.
From Verif Require Import Py Vec RealFacts StateGen Junction Planner Generic SpecGeneric FloatMoveProofs.
Open Scope R_scope.

(** * Inequalities *)
Lemma abs_inv x e : Rabs x <= e -> - e <= x <= e.
Proof. intros H. pose proof (Rle_abs x). pose proof (Rle_abs (- x)) as G. rewrite Rabs_Ropp in G. lra. Qed.
Lemma mul_near a b x y ea eb X Y : Rabs (a - x) <= ea -> Rabs (b - y) <= eb -> Rabs x <= X -> Rabs y <= Y -> Rabs (a * b - x * y) <= X * eb + Y * ea + ea * eb.
Proof.
  intros H1 H2 H3 H4. replace (a * b - x * y) with (x * (b - y) + y * (a - x) + (a - x) * (b - y)) by ring.
  pose proof (Rabs_pos (a - x)). pose proof (Rabs_pos (b - y)). pose proof (Rabs_pos x). pose proof (Rabs_pos y).
  eapply Rle_trans; [apply Rabs_triang|]. apply Rplus_le_compat; [eapply Rle_trans; [apply Rabs_triang|]; apply Rplus_le_compat|]; rewrite Rabs_mult; apply Rmult_le_compat; assumption.
Qed.
Lemma abs_3 x y z : Rabs x <= sqrt (x * x + y * y + z * z) /\ Rabs y <= sqrt (x * x + y * y + z * z) /\ Rabs z <= sqrt (x * x + y * y + z * z).
Proof.
  assert (Q : forall t, 0 <= t * t) by (intros; apply Rle_0_sqr). assert (E : forall t, Rabs t * Rabs t = t * t) by (intros; rewrite <- Rabs_mult; apply Rabs_right, Rle_ge, Q).
  pose proof (Q x). pose proof (Q y). pose proof (Q z).
  repeat split; (apply le_sqrt; [apply Rabs_pos|]; rewrite E; lra).
Qed.
(** Minkowski *)
Lemma norm_sum a b c x y z : sqrt ((a + x) * (a + x) + (b + y) * (b + y) + (c + z) * (c + z)) <= sqrt (a * a + b * b + c * c) + sqrt (x * x + y * y + z * z).
Proof.
  set (p := sqrt (a * a + b * b + c * c)). set (q := sqrt (x * x + y * y + z * z)).
  assert (S : forall t, 0 <= t * t) by (intros; apply Rle_0_sqr).
  assert (P0 : 0 <= p) by apply sqrt_pos. assert (Q0 : 0 <= q) by apply sqrt_pos.
  assert (P2 : p * p = a * a + b * b + c * c) by (apply sqrt_sqrt; pose proof (S a); pose proof (S b); pose proof (S c); lra).
  assert (Q2 : q * q = x * x + y * y + z * z) by (apply sqrt_sqrt; pose proof (S x); pose proof (S y); pose proof (S z); lra).
  assert (C : (a * x + b * y + c * z) * (a * x + b * y + c * z) <= (p * q) * (p * q)).
  { replace (p * q * (p * q)) with (p * p * (q * q)) by ring. rewrite P2, Q2. pose proof (S (a * y - b * x)). pose proof (S (a * z - c * x)). pose proof (S (b * z - c * y)). lra. }
  assert (D : a * x + b * y + c * z <= p * q).
  { destruct (Rle_or_lt (a * x + b * y + c * z) (p * q)) as [G|G]; [exact G|]. exfalso. assert (0 <= p * q) by (apply Rmult_le_pos; assumption).
    assert ((p * q) * (p * q) < (a * x + b * y + c * z) * (a * x + b * y + c * z)) by (apply Rmult_le_0_lt_compat; assumption). lra. }
  apply sqrt_le_; lra.
Qed.
Lemma norm_sup e x y z : Rabs x <= e -> Rabs y <= e -> Rabs z <= e -> sqrt (x * x + y * y + z * z) <= 2 * e.
Proof.
  intros Hx Hy Hz. assert (E : forall t, Rabs t <= e -> t * t <= e * e).
  { intros t Ht. pose proof (Rabs_pos t). assert (Rabs t * Rabs t <= e * e) by (apply Rmult_le_compat; lra). rewrite <- Rabs_mult, (Rabs_right (t * t)) in H0 by (apply Rle_ge, Rle_0_sqr). exact H0. }
  pose proof (E x Hx). pose proof (E y Hy). pose proof (E z Hz). pose proof (Rabs_pos x). assert (0 <= e * e) by (apply Rmult_le_pos; lra). apply sqrt_le_; lra.
Qed.
Lemma norm_near a b c x y z e : Rabs (a - x) <= e -> Rabs (b - y) <= e -> Rabs (c - z) <= e ->
  Rabs (sqrt (a * a + b * b + c * c) - sqrt (x * x + y * y + z * z)) <= 2 * e.
Proof.
  intros H1 H2 H3. pose proof (norm_sup e _ _ _ H1 H2 H3) as N.
  assert (M1 : Rabs (x - a) <= e) by (rewrite Rabs_minus_sym; exact H1). assert (M2 : Rabs (y - b) <= e) by (rewrite Rabs_minus_sym; exact H2). assert (M3 : Rabs (z - c) <= e) by (rewrite Rabs_minus_sym; exact H3).
  pose proof (norm_sup e _ _ _ M1 M2 M3) as N'.
  pose proof (norm_sum x y z (a - x) (b - y) (c - z)) as T. pose proof (norm_sum a b c (x - a) (y - b) (z - c)) as T'.
  replace (x + (a - x)) with a in T by ring. replace (y + (b - y)) with b in T by ring. replace (z + (c - z)) with c in T by ring.
  replace (a + (x - a)) with x in T' by ring. replace (b + (y - b)) with y in T' by ring. replace (c + (z - c)) with z in T' by ring.
  apply Rabs_le. lra.
Qed.
Lemma div_near a n x m e f : 0 < n -> 0 < m -> Rabs (a - x) <= e -> Rabs (n - m) <= f -> Rabs x <= m -> n * Rabs (a / n - x / m) <= e + f.
Proof.
  intros Hn Hm H1 H2 H3. assert (E : n * Rabs (a / n - x / m) = Rabs ((a - x) + - (x / m) * (n - m))).
  { rewrite <- (Rabs_right n) at 1 by lra. rewrite <- Rabs_mult. f_equal. field. lra. }
  rewrite E. eapply Rle_trans; [apply Rabs_triang|]. apply Rplus_le_compat; [exact H1|]. rewrite Rabs_mult, Rabs_Ropp.
  assert (Q : Rabs (x / m) <= 1). { unfold Rdiv. rewrite Rabs_mult, (Rabs_right (/ m)) by (apply Rle_ge; left; apply Rinv_0_lt_compat; lra). apply Rmult_le_reg_r with m; [lra|]. rewrite Rmult_assoc, Rinv_l by lra. lra. }
  pose proof (Rabs_pos (x / m)). pose proof (Rabs_pos (n - m)). rewrite <- (Rmult_1_l f). apply Rmult_le_compat; assumption.
Qed.

Section Rounded.
Variables (rnd : R -> R) (eta : R).
Hypothesis eta0 : 0 <= eta.
Hypothesis err : forall x, Rabs (rnd x - x) <= uu * Rabs x + eta.
Hypothesis pos : forall x, 0 <= x -> 0 <= rnd x.
Hypothesis neg : forall x, x <= 0 -> rnd x <= 0.
Hypothesis r0 : rnd 0 = 0.
Hypothesis r2 : rnd 2 = 2.
Notation k := (Bk rnd).

Lemma uu0 : 0 < uu. Proof. unfold uu. lra. Qed.
(** [x] known up to [e] and rounded *)
Lemma rnd_near x y e X : Rabs (x - y) <= e -> Rabs y <= X -> Rabs (rnd x - y) <= (1 + uu) * e + uu * X + eta.
Proof.
  intros H1 H2. pose proof (err x) as E. pose proof uu0. assert (Rabs x <= X + e) by (replace x with (y + (x - y)) by ring; eapply Rle_trans; [apply Rabs_triang|]; lra).
  assert (uu * Rabs x <= uu * (X + e)) by (apply Rmult_le_compat_l; lra).
  replace (rnd x - y) with ((rnd x - x) + (x - y)) by ring. eapply Rle_trans; [apply Rabs_triang|]. lra.
Qed.
Lemma rnd_abs x X : Rabs x <= X -> Rabs (rnd x) <= (1 + uu) * X + eta.
Proof.
  intros H. pose proof (err x). pose proof uu0. assert (uu * Rabs x <= uu * X) by (apply Rmult_le_compat_l; lra).
  replace (rnd x) with ((rnd x - x) + x) by ring. eapply Rle_trans; [apply Rabs_triang|]. lra.
Qed.

(** * Ramps *)
Section Ramp.
Variables acc W : R.
Hypothesis Ha : 0 < acc.
Hypothesis Hea : eta <= uu * acc.
Hypothesis HeW : eta <= uu * W.
Hypothesis HeWW : eta <= uu * (W * W).
Lemma W0 : 0 <= W. Proof. pose proof uu0. apply Rmult_le_reg_l with uu; lra. Qed.
Lemma WW0 : 0 <= W * W. Proof. pose proof W0. apply Rmult_le_pos; assumption. Qed.
Lemma quotient_near A n s : s = 1 \/ s = - 1 -> Rabs (A - 2 * s * acc) <= 3 * uu * acc -> Rabs n <= 5 * (W * W) ->
  Rabs (2 * acc * rnd (n / A) - s * n) <= 16 * uu * (W * W) + 2 * acc * eta.
Proof.
  intros Hs HA Hn. pose proof uu0 as U. assert (A0 : A <> 0). { intros ->. apply abs_inv in HA. unfold uu in *. destruct Hs as [-> | ->]; lra. }
  assert (AA : (2 - 3 * uu) * acc <= Rabs A).
  { apply abs_inv in HA. destruct Hs as [-> | ->]; [rewrite Rabs_right by (unfold uu in *; lra)|rewrite Rabs_left by (unfold uu in *; lra)]; lra. }
  assert (A1 : 0 < Rabs A) by (apply Rabs_pos_lt; exact A0).
  assert (Q : Rabs (n / A) * Rabs A = Rabs n) by (rewrite <- Rabs_mult; f_equal; field; exact A0).
  assert (Q2 : 2 * acc * Rabs (n / A) <= (1 + 2 * uu) * Rabs n).
  { rewrite <- Q. replace ((1 + 2 * uu) * (Rabs (n / A) * Rabs A)) with (Rabs (n / A) * ((1 + 2 * uu) * Rabs A)) by ring. rewrite (Rmult_comm (2 * acc)).
    apply Rmult_le_compat_l; [apply Rabs_pos|]. apply Rle_trans with ((1 + 2 * uu) * ((2 - 3 * uu) * acc)); [unfold uu; lra|apply Rmult_le_compat_l; unfold uu in *; lra]. }
  assert (D : Rabs (2 * acc * (n / A) - s * n) <= 2 * uu * Rabs n).
  { assert (SS : s * s = 1) by (destruct Hs as [-> | ->]; lra).
    replace (2 * acc * (n / A) - s * n) with (- s * (n / A) * (A - 2 * s * acc)) by (replace (2 * acc * (n / A)) with (s * s * 2 * acc * (n / A)) by (rewrite SS; ring); field; exact A0).
    rewrite Rabs_mult, Rabs_mult, Rabs_Ropp. assert (S1 : Rabs s = 1) by (destruct Hs as [-> | ->]; [apply Rabs_R1|rewrite Rabs_left by lra; lra]). rewrite S1, Rmult_1_l.
    apply Rle_trans with (Rabs (n / A) * (3 * uu * acc)); [apply Rmult_le_compat_l; [apply Rabs_pos|exact HA]|].
    replace (Rabs (n / A) * (3 * uu * acc)) with (3 / 2 * uu * (2 * acc * Rabs (n / A))) by field.
    apply Rle_trans with (3 / 2 * uu * ((1 + 2 * uu) * Rabs n)); [apply Rmult_le_compat_l; lra|]. replace (3 / 2 * uu * ((1 + 2 * uu) * Rabs n)) with (3 / 2 * (1 + 2 * uu) * (uu * Rabs n)) by field.
    replace (2 * uu * Rabs n) with (2 * (uu * Rabs n)) by ring. apply Rmult_le_compat_r; [apply Rmult_le_pos; [lra|apply Rabs_pos]|unfold uu; lra]. }
  assert (E : Rabs (2 * acc * rnd (n / A) - 2 * acc * (n / A)) <= uu * ((1 + 2 * uu) * Rabs n) + 2 * acc * eta).
  { rewrite <- Rmult_minus_distr_l, Rabs_mult, (Rabs_right (2 * acc)) by lra. apply Rle_trans with (2 * acc * (uu * Rabs (n / A) + eta)); [apply Rmult_le_compat_l; [lra|apply err]|].
    replace (2 * acc * (uu * Rabs (n / A) + eta)) with (uu * (2 * acc * Rabs (n / A)) + 2 * acc * eta) by ring. apply Rplus_le_compat_r. apply Rmult_le_compat_l; lra. }
  replace (2 * acc * rnd (n / A) - s * n) with ((2 * acc * rnd (n / A) - 2 * acc * (n / A)) + (2 * acc * (n / A) - s * n)) by ring.
  eapply Rle_trans; [apply Rabs_triang|]. pose proof WW0. pose proof (Rabs_pos n). unfold uu in *. lra.
Qed.
Lemma double_acc : Rabs (rnd (2 * acc) - 2 * 1 * acc) <= 3 * uu * acc.
Proof. pose proof (err (2 * acc)) as E. rewrite (Rabs_right (2 * acc)) in E by lra. replace (2 * 1 * acc) with (2 * acc) by ring. lra. Qed.
Lemma double_acc_n : Rabs (rnd (2 * - acc) - 2 * -1 * acc) <= 3 * uu * acc.
Proof. pose proof (err (2 * - acc)) as E. rewrite (Rabs_left (2 * - acc)) in E by lra. replace (2 * -1 * acc) with (2 * - acc) by ring. lra. Qed.
Lemma square_difference x y x' y' : Rabs x <= W -> Rabs y <= W -> x' - y' = x - y -> x' + y' = x + y ->
  Rabs (rnd (rnd (x' - y') * rnd (x' + y')) - (x * x - y * y)) <= 19 * uu * (W * W) /\ Rabs (rnd (rnd (x' - y') * rnd (x' + y'))) <= 5 * (W * W).
Proof.
  intros Hx Hy E1 E2. rewrite E1, E2. pose proof uu0 as U. pose proof W0 as Wp. pose proof WW0 as WW.
  assert (B1 : Rabs (x - y) <= 2 * W) by (eapply Rle_trans; [apply Rabs_triang|]; rewrite Rabs_Ropp; lra).
  assert (B2 : Rabs (x + y) <= 2 * W) by (eapply Rle_trans; [apply Rabs_triang|]; lra).
  assert (M : forall t, Rabs t <= 2 * W -> Rabs (rnd t - t) <= 3 * uu * W).
  { intros t Ht. eapply Rle_trans; [apply err|]. assert (uu * Rabs t <= uu * (2 * W)) by (apply Rmult_le_compat_l; lra). lra. }
  pose proof (mul_near _ _ _ _ _ _ _ _ (M _ B1) (M _ B2) B1 B2) as P.
  replace ((x - y) * (x + y)) with (x * x - y * y) in P by ring.
  assert (P' : Rabs (rnd (x - y) * rnd (x + y) - (x * x - y * y)) <= 13 * uu * (W * W)).
  { eapply Rle_trans; [exact P|]. replace (2 * W * (3 * uu * W) + 2 * W * (3 * uu * W) + 3 * uu * W * (3 * uu * W)) with ((12 + 9 * uu) * uu * (W * W)) by ring.
    apply Rmult_le_compat_r; [exact WW|]. unfold uu. lra. }
  assert (D : Rabs (x * x - y * y) <= 4 * (W * W)).
  { replace (x * x - y * y) with ((x - y) * (x + y)) by ring. rewrite Rabs_mult. replace (4 * (W * W)) with (2 * W * (2 * W)) by ring. apply Rmult_le_compat; (apply Rabs_pos || assumption). }
  pose proof (rnd_near _ _ _ _ P' D) as F.
  assert (F' : Rabs (rnd (rnd (x - y) * rnd (x + y)) - (x * x - y * y)) <= 19 * uu * (W * W)) by (unfold uu in *; lra).
  split; [exact F'|]. replace (rnd (rnd (x - y) * rnd (x + y))) with ((rnd (rnd (x - y) * rnd (x + y)) - (x * x - y * y)) + (x * x - y * y)) by ring.
  eapply Rle_trans; [apply Rabs_triang|]. unfold uu in *. lra.
Qed.
(** the way of a change of speed from [v1] to [v2] *)
Lemma ramp v1 v2 : Rabs v1 <= W -> Rabs v2 <= W ->
  Rabs (2 * acc * rnd (rnd (rnd (v2 - v1) * rnd (v1 + v2)) / rnd (2 * acc)) - (v2 * v2 - v1 * v1)) <= 35 * uu * (W * W) + 2 * acc * eta.
Proof.
  intros H1 H2. rewrite (Rplus_comm v1 v2). destruct (square_difference v2 v1 v2 v1 H2 H1 eq_refl eq_refl) as [S N].
  pose proof (quotient_near _ _ 1 (or_introl eq_refl) double_acc N) as Q. rewrite Rmult_1_l in Q. set (n := rnd (rnd (v2 - v1) * rnd (v2 + v1))) in *.
  replace (2 * acc * rnd (n / rnd (2 * acc)) - (v2 * v2 - v1 * v1)) with ((2 * acc * rnd (n / rnd (2 * acc)) - n) + (n - (v2 * v2 - v1 * v1))) by ring.
  eapply Rle_trans; [apply Rabs_triang|]. lra.
Qed.
Lemma ramp_n v1 v2 : Rabs v1 <= W -> Rabs v2 <= W ->
  Rabs (2 * acc * rnd (rnd (rnd (v2 - v1) * rnd (v2 + v1)) / rnd (2 * - acc)) - (v1 * v1 - v2 * v2)) <= 35 * uu * (W * W) + 2 * acc * eta.
Proof.
  intros H1 H2. destruct (square_difference v2 v1 v2 v1 H2 H1 eq_refl eq_refl) as [S N].
  pose proof (quotient_near _ _ (-1) (or_intror eq_refl) double_acc_n N) as Q. set (n := rnd (rnd (v2 - v1) * rnd (v2 + v1))) in *.
  replace (2 * acc * rnd (n / rnd (2 * - acc)) - (v1 * v1 - v2 * v2)) with ((2 * acc * rnd (n / rnd (2 * - acc)) - -1 * n) + - (n - (v2 * v2 - v1 * v1))) by ring.
  eapply Rle_trans; [apply Rabs_triang|]. rewrite (Rabs_Ropp (n - (v2 * v2 - v1 * v1))). lra.
Qed.
End Ramp.

Lemma root_square S Z : 0 <= S -> sqrt S <= Z -> eta <= uu * Z -> Rabs (rnd (sqrt S) * rnd (sqrt S) - S) <= 5 * uu * (Z * Z).
Proof.
  intros HS HZ He. pose proof uu0 as U. pose proof (sqrt_pos S) as S0. assert (Z0 : 0 <= Z) by lra.
  assert (N : Rabs (rnd (sqrt S) - sqrt S) <= 2 * uu * Z).
  { eapply Rle_trans; [apply err|]. rewrite (Rabs_right (sqrt S)) by lra. assert (uu * sqrt S <= uu * Z) by (apply Rmult_le_compat_l; lra). lra. }
  assert (B : Rabs (sqrt S) <= Z) by (rewrite Rabs_right; lra). pose proof (mul_near _ _ _ _ _ _ _ _ N N B B) as P. rewrite sqrt_sqrt in P by exact HS.
  eapply Rle_trans; [exact P|]. replace (Z * (2 * uu * Z) + Z * (2 * uu * Z) + 2 * uu * Z * (2 * uu * Z)) with ((4 + 4 * uu) * uu * (Z * Z)) by ring.
  apply Rmult_le_compat_r; [apply Rmult_le_pos; lra|unfold uu; lra].
Qed.
Lemma square_near x : Rabs (rnd (x * x) - x * x) <= uu * (x * x) + eta.
Proof. pose proof (err (x * x)) as E. rewrite (Rabs_right (x * x)) in E by (apply Rle_ge, Rle_0_sqr). exact E. Qed.

(** * The ways of the four profiles *)
Section Ways.
Variables acc d vb vt ve V H : R.
Hypothesis Ha : 0 < acc.
Hypothesis Hd : 0 < d.
Hypothesis Hvb : 0 <= vb <= vt.
Hypothesis HV : vt <= V.
Hypothesis V0 : 0 < V.
Hypothesis Hve : 0 <= ve <= 2 * V.
Hypothesis VH : V * V <= acc * H.
Hypothesis dH : d <= 5 * H.
Hypothesis ea : eta <= uu * acc.
Hypothesis eV : eta <= uu * V.
Hypothesis eVV : eta <= uu * (V * V).
Hypothesis eAD : eta <= uu * (acc * d) / 1000.
Hypothesis eH : eta <= uu * H.
Lemma VVp : 0 < V * V. Proof. apply Rmult_lt_0_compat; assumption. Qed.
Lemma ADp : 0 < acc * d. Proof. apply Rmult_lt_0_compat; assumption. Qed.
Lemma Hp : 0 < H.
Proof. pose proof VVp. destruct (Rle_or_lt H 0) as [G|G]; [|exact G]. assert (0 <= acc * - H) by (apply Rmult_le_pos; lra). lra. Qed.
Lemma vb2_V : 0 <= vb * vb <= V * V. Proof. split; [apply Rle_0_sqr|apply sq_le; lra]. Qed.
Lemma ve2_V : 0 <= ve * ve <= 4 * (V * V). Proof. split; [apply Rle_0_sqr|]. replace (4 * (V * V)) with (2 * V * (2 * V)) by ring. apply sq_le; lra. Qed.
(** from [2 acc x] back to [x] *)
Lemma per_acc x y c : Rabs (2 * acc * x - 2 * (acc * y)) <= c * uu * (V * V) + 4 * acc * eta -> 0 <= c -> Rabs (x - y) <= (c / 2 + 2) * uu * H.
Proof.
  intros P Hc. pose proof uu0 as U. pose proof Hp as HH. replace (2 * acc * x - 2 * (acc * y)) with (2 * acc * (x - y)) in P by ring. rewrite Rabs_mult, (Rabs_right (2 * acc)) in P by lra.
  apply Rmult_le_reg_l with (2 * acc); [lra|]. eapply Rle_trans; [exact P|].
  assert (A1 : c * uu * (V * V) <= c * uu * (acc * H)) by (apply Rmult_le_compat_l; [apply Rmult_le_pos; lra|exact VH]).
  assert (A2 : acc * eta <= acc * (uu * H)) by (apply Rmult_le_compat_l; lra). lra.
Qed.
Lemma ramp_V v1 v2 : Rabs v1 <= 2 * V -> Rabs v2 <= 2 * V ->
  Rabs (2 * acc * rnd (rnd (rnd (v2 - v1) * rnd (v1 + v2)) / rnd (2 * acc)) - (v2 * v2 - v1 * v1)) <= 140 * uu * (V * V) + 2 * acc * eta.
Proof.
  intros H1 H2. pose proof (ramp acc (2 * V) Ha ea ltac:(lra) ltac:(lra) v1 v2 H1 H2). lra.
Qed.
Lemma ramp_V_n v1 v2 : Rabs v1 <= 2 * V -> Rabs v2 <= 2 * V ->
  Rabs (2 * acc * rnd (rnd (rnd (v2 - v1) * rnd (v2 + v1)) / rnd (2 * - acc)) - (v1 * v1 - v2 * v2)) <= 140 * uu * (V * V) + 2 * acc * eta.
Proof.
  intros H1 H2. pose proof (ramp_n acc (2 * V) Ha ea ltac:(lra) ltac:(lra) v1 v2 H1 H2). lra.
Qed.
Lemma way_size x y : Rabs (2 * acc * x - y) <= 140 * uu * (V * V) + 2 * acc * eta -> Rabs y <= 4 * (V * V) -> Rabs x <= 21 / 10 * H.
Proof.
  intros P Hy. pose proof uu0 as U. pose proof Hp as HH. pose proof VVp as VV. assert (A2 : acc * eta <= acc * (uu * H)) by (apply Rmult_le_compat_l; lra).
  assert (AH : 0 < acc * H) by (apply Rmult_lt_0_compat; assumption).
  apply Rmult_le_reg_l with (2 * acc); [lra|]. rewrite <- (Rabs_right (2 * acc)) at 1 by lra. rewrite <- Rabs_mult.
  replace (2 * acc * x) with ((2 * acc * x - y) + y) by ring. eapply Rle_trans; [apply Rabs_triang|]. unfold uu in *. lra.
Qed.

(** triangle *)
Let S := rnd (rnd (rnd (acc * d) + rnd (rnd (vb * vb) / 2)) + rnd (rnd (ve * ve) / 2)).
Lemma S_near : Rabs (S - (acc * d + vb * vb / 2 + ve * ve / 2)) <= 8 * uu * (acc * d + vb * vb / 2 + ve * ve / 2) + 6 * eta /\ 0 <= S.
Proof.
  pose proof ADp as AD. pose proof vb2_V as B. pose proof ve2_V as E. pose proof uu0 as U.
  assert (A0 : 0 <= rnd (vb * vb)) by (apply pos; lra). assert (A1 : 0 <= rnd (ve * ve)) by (apply pos; lra).
  pose proof (up_ rnd eta err (vb * vb) ltac:(lra)) as U1. pose proof (lo_ rnd eta err (vb * vb) ltac:(lra)) as L1.
  pose proof (up_ rnd eta err (ve * ve) ltac:(lra)) as U2. pose proof (lo_ rnd eta err (ve * ve) ltac:(lra)) as L2.
  pose proof (up_ rnd eta err (acc * d) ltac:(lra)) as U3. pose proof (lo_ rnd eta err (acc * d) ltac:(lra)) as L3. pose proof (pos (acc * d) ltac:(lra)) as P3.
  pose proof (up_ rnd eta err (rnd (vb * vb) / 2) ltac:(lra)) as U4. pose proof (lo_ rnd eta err (rnd (vb * vb) / 2) ltac:(lra)) as L4. pose proof (pos (rnd (vb * vb) / 2) ltac:(lra)) as P4.
  pose proof (up_ rnd eta err (rnd (ve * ve) / 2) ltac:(lra)) as U5. pose proof (lo_ rnd eta err (rnd (ve * ve) / 2) ltac:(lra)) as L5. pose proof (pos (rnd (ve * ve) / 2) ltac:(lra)) as P5.
  pose proof (up_ rnd eta err (rnd (acc * d) + rnd (rnd (vb * vb) / 2)) ltac:(lra)) as U6. pose proof (lo_ rnd eta err (rnd (acc * d) + rnd (rnd (vb * vb) / 2)) ltac:(lra)) as L6. pose proof (pos (rnd (acc * d) + rnd (rnd (vb * vb) / 2)) ltac:(lra)) as P6.
  pose proof (up_ rnd eta err (rnd (rnd (acc * d) + rnd (rnd (vb * vb) / 2)) + rnd (rnd (ve * ve) / 2)) ltac:(lra)) as U7. pose proof (lo_ rnd eta err (rnd (rnd (acc * d) + rnd (rnd (vb * vb) / 2)) + rnd (rnd (ve * ve) / 2)) ltac:(lra)) as L7.
  fold S in U7, L7. split; [|apply pos; lra]. apply Rabs_le. unfold uu in *. lra.
Qed.
Lemma root_below S' X : 0 <= S' -> rnd (sqrt S') <= X -> sqrt S' <= 101 / 100 * X + 2 * eta.
Proof. intros HS HX. pose proof (lo_ rnd eta err (sqrt S') (sqrt_pos S')). pose proof (sqrt_pos S'). unfold uu in *. lra. Qed.
Lemma peak_square : rnd (sqrt S) <= 11 / 10 * V -> Rabs (2 * (rnd (sqrt S) * rnd (sqrt S)) - (2 * (acc * d) + vb * vb + ve * ve)) <= 60 * uu * (V * V) /\ acc * d <= 2 * (V * V).
Proof.
  intros HX. destruct S_near as [N S0]. pose proof (root_below _ _ S0 HX) as Z. pose proof VVp as VV. pose proof ADp as AD. pose proof vb2_V as B. pose proof ve2_V as E. pose proof uu0 as U.
  assert (Z' : sqrt S <= 12 / 10 * V) by (unfold uu in *; lra). pose proof (root_square _ _ S0 Z' ltac:(unfold uu in *; lra)) as Q.
  replace (12 / 10 * V * (12 / 10 * V)) with (144 / 100 * (V * V)) in Q by field.
  assert (SV : S <= 144 / 100 * (V * V)). { rewrite <- (sqrt_sqrt S S0). replace (144 / 100 * (V * V)) with (12 / 10 * V * (12 / 10 * V)) by field. apply sq_le; [apply sqrt_pos|exact Z']. }
  apply abs_inv in N, Q. split; [apply Rabs_le|]; unfold uu in *; lra.
Qed.
Lemma way_triangle vp : vp = rnd (sqrt S) -> vp <= 11 / 10 * V ->
  let up := rnd (rnd (rnd (vp - vb) * rnd (vb + vp)) / rnd (2 * acc)) in
  let dn := rnd (rnd (rnd (vp - ve) * rnd (ve + vp)) / rnd (2 * acc)) in
  Rabs (up + dn - d) <= 200 * uu * H /\ Rabs up <= 3 * H /\ Rabs dn <= 3 * H.
Proof.
  intros Ev Hv up dn. subst vp. destruct S_near as [_ S0]. destruct (peak_square Hv) as [Q AD2]. set (vp := rnd (sqrt S)) in *.
  assert (P0 : 0 <= vp) by (apply pos, sqrt_pos). pose proof VVp as VV. pose proof vb2_V as B. pose proof ve2_V as E. pose proof uu0 as U. pose proof Hp as HH.
  assert (R1 : Rabs vb <= 2 * V) by (rewrite Rabs_right; lra). assert (R2 : Rabs ve <= 2 * V) by (rewrite Rabs_right; lra). assert (R3 : Rabs vp <= 2 * V) by (rewrite Rabs_right; lra).
  pose proof (ramp_V vb vp R1 R3) as T1. fold up in T1. pose proof (ramp_V ve vp R2 R3) as T2. fold dn in T2.
  assert (vp2 : 0 <= vp * vp <= 4 * (V * V)). { split; [apply Rle_0_sqr|]. replace (4 * (V * V)) with (2 * V * (2 * V)) by ring. apply sq_le; lra. }
  split; [|split].
  - eapply Rle_trans; [apply (per_acc _ _ 340); [|lra]|apply Rmult_le_compat_r; [lra|apply Rmult_le_compat_r; lra]]. apply abs_inv in T1, T2, Q. apply Rabs_le. lra.
  - eapply Rle_trans; [apply (way_size _ _ T1); apply Rabs_le; lra|lra].
  - eapply Rle_trans; [apply (way_size _ _ T2); apply Rabs_le; lra|lra].
Qed.

(** one ramp *)
Let P := rnd (rnd (2 * acc) * d).
Lemma P_near : Rabs (P - 2 * (acc * d)) <= 7 * uu * (acc * d).
Proof.
  pose proof ADp as AD. pose proof (double_acc acc Ha ea) as D. assert (N : Rabs (rnd (2 * acc) * d - 2 * (acc * d)) <= 3 * uu * (acc * d)).
  { replace (rnd (2 * acc) * d - 2 * (acc * d)) with ((rnd (2 * acc) - 2 * 1 * acc) * d) by ring. rewrite Rabs_mult, (Rabs_right d) by lra. rewrite <- Rmult_assoc. apply Rmult_le_compat_r; lra. }
  assert (B : Rabs (2 * (acc * d)) <= 2 * (acc * d)) by (rewrite Rabs_right; lra). pose proof (rnd_near _ _ _ _ N B) as Q. fold P in Q. unfold uu in *. lra.
Qed.
Lemma way_up q ves : q = (if Rltb ve vb then rnd (rnd (vb * vb) - P) else rnd (rnd (vb * vb) + P)) -> 0 <= q -> ves = rnd (sqrt q) -> vb < ves -> ves <= 11 / 10 * V ->
  let up := rnd (rnd (rnd (ves - vb) * rnd (vb + ves)) / rnd (2 * acc)) in Rabs (up - d) <= 200 * uu * H.
Proof.
  intros Eq q0 Ev Hlt Hv up. subst ves. set (w := rnd (sqrt q)) in *. pose proof VVp as VV. pose proof vb2_V as B. pose proof uu0 as U. pose proof Hp as HH. pose proof ADp as AD.
  pose proof (root_below _ _ q0 Hv) as Z. assert (Z' : sqrt q <= 12 / 10 * V) by (unfold uu in *; lra). pose proof (root_square _ _ q0 Z' ltac:(unfold uu in *; lra)) as Q. fold w in Q.
  replace (12 / 10 * V * (12 / 10 * V)) with (144 / 100 * (V * V)) in Q by field.
  assert (qV : q <= 144 / 100 * (V * V)). { rewrite <- (sqrt_sqrt q q0). replace (144 / 100 * (V * V)) with (12 / 10 * V * (12 / 10 * V)) by field. apply sq_le; [apply sqrt_pos|exact Z']. }
  pose proof (square_near vb) as SB. pose proof P_near as PN.
  assert (R1 : Rabs vb <= 2 * V) by (rewrite Rabs_right; lra). assert (R3 : Rabs w <= 2 * V) by (rewrite Rabs_right; lra).
  pose proof (ramp_V vb w R1 R3) as T1. fold up in T1. pose proof (sq_le vb w ltac:(lra) ltac:(lra)) as WB.
  apply abs_inv in T1, Q, SB, PN.
  assert (K : - 30 * uu * (V * V) <= w * w - vb * vb - 2 * (acc * d) <= 30 * uu * (V * V)).
  { destruct (Rltb ve vb).
    - assert (M : Rabs (rnd (vb * vb) - P) <= rnd (vb * vb) + P) by (pose proof (pos (vb * vb) ltac:(lra)); apply Rabs_le; unfold uu in *; lra).
      destruct (near_ rnd eta err _ _ M) as [N1 N2]. rewrite <- Eq in N1, N2. unfold uu in *. lra.
    - assert (M0 : 0 <= rnd (vb * vb) + P) by (pose proof (pos (vb * vb) ltac:(lra)); unfold uu in *; lra).
      pose proof (up_ rnd eta err _ M0) as N1. pose proof (lo_ rnd eta err _ M0) as N2. rewrite <- Eq in N1, N2. unfold uu in *. lra. }
  eapply Rle_trans; [apply (per_acc _ _ 340); [|lra]|apply Rmult_le_compat_r; [lra|apply Rmult_le_compat_r; lra]]. assert (0 <= acc * eta) by (apply Rmult_le_pos; lra). apply Rabs_le. lra.
Qed.
Lemma way_down vbs : ve <= V -> 2 * (acc * d) <= 102 / 100 * (vb * vb) -> vbs = rnd (sqrt (rnd (P + rnd (ve * ve)))) ->
  0 <= vbs <= 18 / 10 * V /\
  let dn := rnd (rnd (rnd (vbs - ve) * rnd (vbs + ve)) / rnd (2 * acc)) in Rabs (dn - d) <= 200 * uu * H.
Proof.
  intros Hl Hs Ev. subst vbs. pose proof VVp as VV. pose proof vb2_V as B. pose proof uu0 as U. pose proof Hp as HH. pose proof ADp as AD.
  assert (EV : 0 <= ve * ve <= V * V) by (split; [apply Rle_0_sqr|apply sq_le; lra]).
  pose proof (square_near ve) as SE. pose proof P_near as PN. apply abs_inv in SE, PN. pose proof (pos (ve * ve) ltac:(lra)) as E0.
  assert (M0 : 0 <= P + rnd (ve * ve)) by (unfold uu in *; lra). pose proof (up_ rnd eta err _ M0) as N1. pose proof (lo_ rnd eta err _ M0) as N2. pose proof (pos _ M0) as q0.
  set (q := rnd (P + rnd (ve * ve))) in *. set (w := rnd (sqrt q)).
  assert (qV : q <= 225 / 100 * (V * V)) by (unfold uu in *; lra).
  assert (Z' : sqrt q <= 15 / 10 * V) by (apply sqrt_le_; [lra|]; replace (15 / 10 * V * (15 / 10 * V)) with (225 / 100 * (V * V)) by field; exact qV).
  pose proof (root_square _ _ q0 Z' ltac:(unfold uu in *; lra)) as Q. fold w in Q. replace (15 / 10 * V * (15 / 10 * V)) with (225 / 100 * (V * V)) in Q by field.
  pose proof (up_ rnd eta err _ (sqrt_pos q)) as WU. fold w in WU. assert (W0 : 0 <= w) by (apply pos, sqrt_pos).
  assert (WV : w <= 18 / 10 * V) by (unfold uu in *; lra). split; [lra|]. cbv zeta. rewrite (Rplus_comm w ve).
  assert (R2 : Rabs ve <= 2 * V) by (rewrite Rabs_right; lra). assert (R3 : Rabs w <= 2 * V) by (rewrite Rabs_right; lra).
  pose proof (ramp_V ve w R2 R3) as T1. apply abs_inv in T1, Q.
  eapply Rle_trans; [apply (per_acc _ _ 340); [|lra]|apply Rmult_le_compat_r; [lra|apply Rmult_le_compat_r; lra]]. assert (0 <= acc * eta) by (apply Rmult_le_pos; lra). apply Rabs_le. unfold uu in *. lra.
Qed.

(** trapezoid *)
Lemma way_trapezoid :
  let up := rnd (rnd (rnd (vt - vb) * rnd (vb + vt)) / rnd (2 * acc)) in
  let dn := rnd (rnd (rnd (ve - vt) * rnd (ve + vt)) / rnd (2 * - acc)) in
  let c := rnd (rnd (d - dn) - up) in
  Rabs (up + c + dn - d) <= 200 * uu * H /\ Rabs up <= 3 * H /\ Rabs c <= 10 * H /\ Rabs dn <= 3 * H.
Proof.
  intros up dn c. pose proof VVp as VV. pose proof vb2_V as B. pose proof ve2_V as E. pose proof uu0 as U. pose proof Hp as HH.
  assert (R1 : Rabs vb <= 2 * V) by (rewrite Rabs_right; lra). assert (R2 : Rabs ve <= 2 * V) by (rewrite Rabs_right; lra). assert (R3 : Rabs vt <= 2 * V) by (rewrite Rabs_right; lra).
  pose proof (ramp_V vb vt R1 R3) as T1. fold up in T1. pose proof (ramp_V_n vt ve R3 R2) as T2. fold dn in T2.
  assert (t2 : 0 <= vt * vt <= V * V) by (split; [apply Rle_0_sqr|apply sq_le; lra]).
  assert (U1 : Rabs up <= 21 / 10 * H) by (apply (way_size _ _ T1); apply Rabs_le; lra).
  assert (D1 : Rabs dn <= 21 / 10 * H) by (apply (way_size _ _ T2); apply Rabs_le; lra).
  assert (X1 : Rabs (d - dn) <= 71 / 10 * H) by (apply abs_inv in D1; apply Rabs_le; lra).
  pose proof (near_ rnd eta err _ _ X1) as N1.
  assert (X2 : Rabs (rnd (d - dn) - up) <= 93 / 10 * H) by (apply abs_inv in D1, U1; apply Rabs_le; unfold uu in *; lra).
  pose proof (near_ rnd eta err _ _ X2) as N2. fold c in N2.
  split; [apply Rabs_le; unfold uu in *; lra|]. split; [lra|]. split; [apply abs_inv in X2; apply Rabs_le; unfold uu in *; lra|lra].
Qed.
End Ways.

(** * Norms and directions *)
Definition rnorm (x y z : R) : R := rnd (sqrt (rnd (rnd (rnd (x * x) + rnd (y * y)) + rnd (z * z)))).
Lemma rnorm_sum x y z : let N2 := x * x + y * y + z * z in (1 - 4 * uu) * N2 - 6 * eta <= rnd (rnd (rnd (x * x) + rnd (y * y)) + rnd (z * z)) <= (1 + 4 * uu) * N2 + 6 * eta.
Proof.
  intros N2. pose proof (Rle_0_sqr x) as X. pose proof (Rle_0_sqr y) as Y. pose proof (Rle_0_sqr z) as Z. unfold Rsqr in X, Y, Z.
  pose proof (up_ rnd eta err _ X) as U1. pose proof (lo_ rnd eta err _ X) as L1. pose proof (pos _ X) as P1.
  pose proof (up_ rnd eta err _ Y) as U2. pose proof (lo_ rnd eta err _ Y) as L2. pose proof (pos _ Y) as P2.
  pose proof (up_ rnd eta err _ Z) as U3. pose proof (lo_ rnd eta err _ Z) as L3. pose proof (pos _ Z) as P3.
  pose proof (up_ rnd eta err (rnd (x * x) + rnd (y * y)) ltac:(lra)) as U4. pose proof (lo_ rnd eta err (rnd (x * x) + rnd (y * y)) ltac:(lra)) as L4. pose proof (pos (rnd (x * x) + rnd (y * y)) ltac:(lra)) as P4.
  pose proof (up_ rnd eta err (rnd (rnd (x * x) + rnd (y * y)) + rnd (z * z)) ltac:(lra)) as U5. pose proof (lo_ rnd eta err (rnd (rnd (x * x) + rnd (y * y)) + rnd (z * z)) ltac:(lra)) as L5.
  unfold N2, uu in *. lra.
Qed.
Lemma rnorm_le x y z X : 0 <= X -> x * x + y * y + z * z <= X * X -> eta <= uu * X -> eta <= uu * (X * X) -> 0 <= rnorm x y z <= 101 / 100 * X.
Proof.
  intros X0 HN e1 e2. unfold rnorm. destruct (rnorm_sum x y z) as [_ U]. cbv zeta in U. set (s := rnd (_ + _)) in *. split; [apply pos, sqrt_pos|]. pose proof uu0.
  assert (XX : 0 <= X * X) by (apply Rmult_le_pos; assumption).
  assert (sqrt s <= 1005 / 1000 * X) by (apply sqrt_le_; [lra|]; replace (1005 / 1000 * X * (1005 / 1000 * X)) with (1005 / 1000 * (1005 / 1000) * (X * X)) by field; unfold uu in *; lra).
  pose proof (up_ rnd eta err _ (sqrt_pos s)). unfold uu in *. lra.
Qed.
Lemma rnorm_near x y z N : 0 < N -> N * N = x * x + y * y + z * z -> eta <= uu * N / 10 -> eta <= uu * (N * N) / 10 -> Rabs (rnorm x y z - N) <= 4 * uu * N.
Proof.
  intros N0 HN e1 e2. unfold rnorm. destruct (rnorm_sum x y z) as [L U]. cbv zeta in L, U. rewrite <- HN in L, U. set (s := rnd (_ + _)) in *. pose proof uu0 as U0.
  assert (NN : 0 < N * N) by (apply Rmult_lt_0_compat; assumption).
  assert (S1 : sqrt s <= (1 + 25 / 10 * uu) * N) by (apply sqrt_le_; [unfold uu; lra|]; replace ((1 + 25 / 10 * uu) * N * ((1 + 25 / 10 * uu) * N)) with ((1 + 25 / 10 * uu) * (1 + 25 / 10 * uu) * (N * N)) by ring; unfold uu in *; lra).
  assert (S2 : (1 - 25 / 10 * uu) * N <= sqrt s) by (apply le_sqrt; [unfold uu; lra|]; replace ((1 - 25 / 10 * uu) * N * ((1 - 25 / 10 * uu) * N)) with ((1 - 25 / 10 * uu) * (1 - 25 / 10 * uu) * (N * N)) by ring; unfold uu in *; lra).
  pose proof (up_ rnd eta err _ (sqrt_pos s)). pose proof (lo_ rnd eta err _ (sqrt_pos s)). apply Rabs_le. unfold uu in *. lra.
Qed.

Section Direction.
Variables dx dy dz v : R.
Let L := sqrt (dx * dx + dy * dy + dz * dz).
Hypothesis L0 : 0 < L.
Hypothesis v0 : 0 < v.
Hypothesis eL : eta <= uu * uu * L.
Hypothesis eLL : eta <= uu * uu * (L * L).
Hypothesis ev : eta <= uu * uu * v.
Hypothesis evv : eta <= uu * uu * (v * v).
Hypothesis e1 : eta <= uu * uu.
Lemma L_sq : L * L = dx * dx + dy * dy + dz * dz.
Proof. apply sqrt_sqrt. pose proof (Rle_0_sqr dx). pose proof (Rle_0_sqr dy). pose proof (Rle_0_sqr dz). unfold Rsqr in *. lra. Qed.
Lemma on_axis : Rabs dx <= L /\ Rabs dy <= L /\ Rabs dz <= L. Proof. apply abs_3. Qed.
Lemma LLp : 0 < L * L. Proof. apply Rmult_lt_0_compat; assumption. Qed.
Let n1 := rnorm (rnd dx) (rnd dy) (rnd dz).
Lemma moved_near t : Rabs t <= L -> Rabs (rnd t - t) <= 2 * uu * L.
Proof. intros Ht. pose proof uu0. eapply Rle_trans; [apply err|]. assert (uu * Rabs t <= uu * L) by (apply Rmult_le_compat_l; lra). unfold uu in *. lra. Qed.
Lemma length_near : Rabs (n1 - L) <= 9 * uu * L.
Proof.
  destruct on_axis as (H1 & H2 & H3). pose proof LLp as LL. pose proof uu0 as U.
  set (N := sqrt (rnd dx * rnd dx + rnd dy * rnd dy + rnd dz * rnd dz)).
  pose proof (norm_near _ _ _ _ _ _ _ (moved_near _ H1) (moved_near _ H2) (moved_near _ H3)) as NN. fold N in NN. fold L in NN. apply abs_inv in NN.
  assert (N0 : 0 < N) by (unfold uu in *; lra).
  assert (N1 : 99 / 100 * L <= N) by (unfold uu in *; lra). assert (N2 : 99 / 100 * (99 / 100) * (L * L) <= N * N) by (replace (99 / 100 * (99 / 100) * (L * L)) with (99 / 100 * L * (99 / 100 * L)) by ring; apply sq_le; lra).
  assert (NS : N * N = rnd dx * rnd dx + rnd dy * rnd dy + rnd dz * rnd dz).
  { apply sqrt_sqrt. pose proof (Rle_0_sqr (rnd dx)). pose proof (Rle_0_sqr (rnd dy)). pose proof (Rle_0_sqr (rnd dz)). unfold Rsqr in *. lra. }
  pose proof (rnorm_near _ _ _ N N0 NS ltac:(unfold uu in *; lra) ltac:(unfold uu in *; lra)) as Q. fold n1 in Q. apply abs_inv in Q. apply Rabs_le. unfold uu in *. lra.
Qed.
Lemma n1_pos : 99 / 100 * L <= n1. Proof. pose proof length_near as N. apply abs_inv in N. unfold uu in *. lra. Qed.
Lemma unit_le t : Rabs t <= L -> Rabs (t / L) <= 1.
Proof.
  intros Ht. unfold Rdiv. rewrite Rabs_mult, (Rabs_right (/ L)) by (apply Rle_ge; left; apply Rinv_0_lt_compat; exact L0).
  apply Rmult_le_reg_r with L; [exact L0|]. rewrite Rmult_assoc, Rinv_l by lra. lra.
Qed.
Lemma dir1_near t : Rabs t <= L -> Rabs (rnd (rnd t / n1) - t / L) <= 14 * uu.
Proof.
  intros Ht. pose proof n1_pos as N. pose proof (div_near (rnd t) n1 t L _ _ ltac:(lra) L0 (moved_near _ Ht) length_near Ht) as D. pose proof uu0 as U.
  assert (D' : Rabs (rnd t / n1 - t / L) <= 12 * uu).
  { apply Rmult_le_reg_l with n1; [lra|]. eapply Rle_trans; [exact D|]. assert (12 * uu * (99 / 100 * L) <= 12 * uu * n1) by (apply Rmult_le_compat_l; lra). unfold uu in *. lra. }
  pose proof (rnd_near _ _ _ _ D' (unit_le _ Ht)). unfold uu in *. lra.
Qed.
Lemma vel_near t : Rabs t <= L -> Rabs (rnd (rnd (rnd t / n1) * v) - v * (t / L)) <= 16 * uu * v.
Proof.
  intros Ht. pose proof (dir1_near _ Ht) as D. pose proof uu0 as U.
  assert (D' : Rabs (rnd (rnd t / n1) * v - v * (t / L)) <= 14 * uu * v).
  { replace (rnd (rnd t / n1) * v - v * (t / L)) with ((rnd (rnd t / n1) - t / L) * v) by ring. rewrite Rabs_mult, (Rabs_right v) by lra. apply Rmult_le_compat_r; lra. }
  assert (B : Rabs (v * (t / L)) <= v). { rewrite Rabs_mult, (Rabs_right v) by lra. rewrite <- (Rmult_1_r v) at 2. apply Rmult_le_compat_l; [lra|apply unit_le, Ht]. }
  pose proof (rnd_near _ _ _ _ D' B). unfold uu in *. lra.
Qed.
Let vx := rnd (rnd (rnd dx / n1) * v).
Let vy := rnd (rnd (rnd dy / n1) * v).
Let vz := rnd (rnd (rnd dz / n1) * v).
Let n2 := rnorm vx vy vz.
Lemma speed_near : Rabs (n2 - v) <= 37 * uu * v.
Proof.
  destruct on_axis as (H1 & H2 & H3). pose proof uu0 as U.
  assert (E : sqrt (v * (dx / L) * (v * (dx / L)) + v * (dy / L) * (v * (dy / L)) + v * (dz / L) * (v * (dz / L))) = v).
  { replace (v * (dx / L) * (v * (dx / L)) + v * (dy / L) * (v * (dy / L)) + v * (dz / L) * (v * (dz / L))) with (v * v * ((dx * dx + dy * dy + dz * dz) / (L * L))) by (field; lra).
    rewrite <- L_sq. replace (v * v * (L * L / (L * L))) with (v * v) by (field; lra). apply sqrt_square. lra. }
  pose proof (norm_near _ _ _ _ _ _ _ (vel_near _ H1) (vel_near _ H2) (vel_near _ H3)) as NN. rewrite E in NN. fold vx vy vz in NN.
  set (N := sqrt (vx * vx + vy * vy + vz * vz)) in *. apply abs_inv in NN. assert (VV : 0 < v * v) by (apply Rmult_lt_0_compat; assumption).
  assert (N1 : 99 / 100 * v <= N) by (unfold uu in *; lra). assert (N2 : 99 / 100 * (99 / 100) * (v * v) <= N * N) by (replace (99 / 100 * (99 / 100) * (v * v)) with (99 / 100 * v * (99 / 100 * v)) by ring; apply sq_le; lra).
  assert (NS : N * N = vx * vx + vy * vy + vz * vz).
  { apply sqrt_sqrt. pose proof (Rle_0_sqr vx). pose proof (Rle_0_sqr vy). pose proof (Rle_0_sqr vz). unfold Rsqr in *. lra. }
  pose proof (rnorm_near vx vy vz N ltac:(lra) NS ltac:(unfold uu in *; lra) ltac:(unfold uu in *; lra)) as Q. fold n2 in Q. apply abs_inv in Q. apply Rabs_le. unfold uu in *. lra.
Qed.
Lemma n2_pos : 99 / 100 * v <= n2. Proof. pose proof speed_near as N. apply abs_inv in N. unfold uu in *. lra. Qed.
Lemma dir_near t : Rabs t <= L -> Rabs (rnd (rnd (rnd (rnd t / n1) * v) / n2) - t / L) <= 56 * uu.
Proof.
  intros Ht. pose proof n2_pos as N. pose proof uu0 as U.
  assert (B : Rabs (v * (t / L)) <= v). { rewrite Rabs_mult, (Rabs_right v) by lra. rewrite <- (Rmult_1_r v) at 2. apply Rmult_le_compat_l; [lra|apply unit_le, Ht]. }
  pose proof (div_near _ n2 _ v _ _ ltac:(lra) v0 (vel_near _ Ht) speed_near B) as D. replace (v * (t / L) / v) with (t / L) in D by (field; lra).
  assert (D' : Rabs (rnd (rnd (rnd t / n1) * v) / n2 - t / L) <= 54 * uu).
  { apply Rmult_le_reg_l with n2; [lra|]. eapply Rle_trans; [exact D|]. assert (54 * uu * (99 / 100 * v) <= 54 * uu * n2) by (apply Rmult_le_compat_l; lra). unfold uu in *. lra. }
  pose proof (rnd_near _ _ _ _ D' (unit_le _ Ht)). unfold uu in *. lra.
Qed.
End Direction.
End Rounded.
