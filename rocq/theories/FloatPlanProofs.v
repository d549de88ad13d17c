(** The positions of a plan made with rounded operations. *)
From Coq Require Import Reals Lra Lia.
From Verif Require Import Py Vec RealFacts StateGen Junction Planner Generic SpecGeneric SpecDrift FloatMoveProofs FloatDriftProofs.
Open Scope R_scope.

Lemma unit_div t L : 0 < L -> Rabs t <= L -> Rabs (t / L) <= 1.
Proof.
  intros L0 T. unfold Rdiv. rewrite Rabs_mult, (Rabs_right (/ L)) by (left; apply Rinv_0_lt_compat; exact L0).
  apply Rmult_le_reg_r with L; [exact L0|]. rewrite Rmult_assoc, Rinv_l by lra. lra.
Qed.
Lemma norm_scaled dx dy dz v : let L := sqrt (dx * dx + dy * dy + dz * dz) in 0 < L -> 0 <= v ->
  sqrt (v * (dx / L) * (v * (dx / L)) + v * (dy / L) * (v * (dy / L)) + v * (dz / L) * (v * (dz / L))) = v.
Proof.
  intros L L0 v0. replace (v * (dx / L) * (v * (dx / L)) + v * (dy / L) * (v * (dy / L)) + v * (dz / L) * (v * (dz / L))) with (v * v * ((dx * dx + dy * dy + dz * dz) / (L * L))) by (field; lra).
  unfold L at 1 2. rewrite sqrt_sqrt.
  - replace (v * v * ((dx * dx + dy * dy + dz * dz) / (dx * dx + dy * dy + dz * dz))) with (v * v); [apply sqrt_square; exact v0|].
    field. intros E. unfold L in L0. rewrite E, sqrt_0 in L0. lra.
  - pose proof (Rle_0_sqr dx). pose proof (Rle_0_sqr dy). pose proof (Rle_0_sqr dz). unfold Rsqr in *. lra.
Qed.
Lemma norm_below x y z X : sqrt (x * x + y * y + z * z) <= X -> x * x + y * y + z * z <= X * X.
Proof.
  intros N. assert (P : 0 <= x * x + y * y + z * z) by (pose proof (Rle_0_sqr x); pose proof (Rle_0_sqr y); pose proof (Rle_0_sqr z); unfold Rsqr in *; lra).
  rewrite <- (sqrt_sqrt _ P). apply sq_le; [apply sqrt_pos|exact N].
Qed.
Lemma Forall2_rev_ {X Y} (P : X -> Y -> Prop) l m : Forall2 P l m -> Forall2 P (rev l) (rev m).
Proof. induction 1; [constructor|]. cbn [rev]. apply Forall2_app; [assumption|]. constructor; [assumption|constructor]. Qed.

Section Plan.
Variables (rnd : R -> R) (eta a V M : R) (wE : Prop).
Hypothesis eta0 : 0 <= eta.
Hypothesis err : forall x, Rabs (rnd x - x) <= uu * Rabs x + eta.
Hypothesis pos : forall x, 0 <= x -> 0 <= rnd x.
Hypothesis neg : forall x, x <= 0 -> rnd x <= 0.
Hypothesis r0 : rnd 0 = 0.
Hypothesis r2 : rnd 2 = 2.
Hypothesis tiny_lt : 0 < tiny <= / 1000000000000.
Hypothesis eta_lt : eta <= uu * uu * uu * (tiny * tiny) / 1000000.
Hypothesis ga : tiny <= a.
Hypothesis gV : / 1000000 <= V.
Hypothesis gVa : V * V <= 1000000 * a.
Hypothesis gM : tiny <= M.
Notation k := (Bk rnd).
Notation fine := (fine_state a V M).
Let H := M + V * V / a.

Lemma tt0 : 0 < tiny * tiny <= / 1000000000000 * tiny.
Proof. split; [apply Rmult_lt_0_compat; lra|apply Rmult_le_compat_r; lra]. Qed.
Lemma H_M : M <= H /\ V * V / a <= H.
Proof. unfold H. assert (0 <= V * V / a) by (apply Rmult_le_pos; [apply Rle_0_sqr|left; apply Rinv_0_lt_compat; lra]). split; lra. Qed.
Lemma VH acc : a <= acc -> V * V <= acc * H.
Proof.
  intros Ha. destruct H_M as [_ G]. assert (V * V <= a * H). { replace (V * V) with (a * (V * V / a)) by (field; lra). apply Rmult_le_compat_l; lra. }
  assert (a * H <= acc * H) by (apply Rmult_le_compat_r; [pose proof H_M; lra|exact Ha]). lra.
Qed.

Lemma c_eV : eta <= uu * V /\ eta <= uu * (V * V).
Proof. pose proof tt0. assert (/ 1000000 * (/ 1000000) <= V * V) by (apply sq_le; lra). pose proof (Rmult_le_compat_l (/ 1000000000000) _ _ ltac:(lra) (proj2 tiny_lt)). unfold uu in *. split; lra. Qed.

(** * Directions *)
Lemma norm3_k (p : gvec k) : gnorm3 k p = rnorm rnd (gx k p) (gy k p) (gz k p).
Proof. reflexivity. Qed.
Lemma still_moved A B : near 0 (gk_pos k B) (gk_pos k A) ->
  gx k (gvsub k (gk_pos k B) (gk_pos k A)) = 0 /\ gy k (gvsub k (gk_pos k B) (gk_pos k A)) = 0 /\ gz k (gvsub k (gk_pos k B) (gk_pos k A)) = 0.
Proof.
  intros (X & Y & Z). cbn [gvsub gx gy gz Bk k_sub].
  assert (E : forall t, Rabs t <= 0 -> rnd t = 0). { intros t Ht. rewrite <- r0. f_equal. apply abs_inv in Ht. lra. }
  repeat split; apply E; assumption.
Qed.
Lemma rnorm_0 : rnorm rnd 0 0 0 = 0.
Proof. unfold rnorm. repeat (rewrite ?Rmult_0_l, ?Rplus_0_l, ?sqrt_0, ?r0). reflexivity. Qed.
Lemma div0 c : rnd (0 / c) = 0. Proof. unfold Rdiv. rewrite Rmult_0_l. exact r0. Qed.
Lemma mul0 c : rnd (0 * c) = 0. Proof. rewrite Rmult_0_l. exact r0. Qed.
Lemma still_connect A B : near 0 (gk_pos k B) (gk_pos k A) ->
  gx k (gconnect_state k A B) = 0 /\ gy k (gconnect_state k A B) = 0 /\ gz k (gconnect_state k A B) = 0.
Proof.
  intros N. destruct (still_moved A B N) as (X & Y & Z). unfold gconnect_state. cbv zeta. rewrite (norm3_k (gvsub k (gk_pos k B) (gk_pos k A))), X, Y, Z, rnorm_0.
  rewrite (dec_0 rnd r0). cbn [Bk k_ltb k_abs]. rewrite Rabs_R0, (Rltb_false 0 0) by lra.
  destruct (Rltb 0 _).
  - cbn [gvscale gvdiv gx gy gz k_mul k_div Bk]. rewrite X, Y, Z, !div0, !mul0. auto.
  - unfold gzero. rewrite (dec_0 rnd r0). cbn [gvscale gx gy gz k_mul Bk]. rewrite !mul0. auto.
Qed.
Lemma still_dir A B dir : near 0 (gk_pos k B) (gk_pos k A) -> gget_norm_dir k (gconnect_state k A B) = Some dir -> gx k dir = 0 /\ gy k dir = 0 /\ gz k dir = 0.
Proof.
  intros N D. destruct (still_connect A B N) as (X & Y & Z). unfold gget_norm_dir in D. rewrite norm3_k, X, Y, Z, rnorm_0, (dec_0 rnd r0) in D. cbn [Bk k_ltb] in D.
  rewrite (Rltb_false 0 0) in D by lra. destruct (Rltb 0 _); [|discriminate]. injection D as <-. cbn [gvdiv gx gy gz k_div Bk]. rewrite X, Y, Z, !div0. auto.
Qed.
Section Move.
Variables A B : gkstate k.
Hypothesis FB : fine B.
Hypothesis FA : fine A.
Hypothesis FL : tiny <= length3 A B.
Let p := gk_pos k A.
Let q := gk_pos k B.
Let dx := gx k q - gx k p.
Let dy := gy k q - gy k p.
Let dz := gz k q - gz k p.
Let L := length3 A B.
Let v := gk_speed k B.
Let n1 := rnorm rnd (rnd dx) (rnd dy) (rnd dz).
Lemma L_is : sqrt (dx * dx + dy * dy + dz * dz) = L. Proof. reflexivity. Qed.
Lemma LL : tiny * tiny <= L * L. Proof. apply sq_le; [lra|exact FL]. Qed.
Lemma vv : tiny * tiny <= v * v. Proof. apply sq_le; [lra|apply FB]. Qed.
Lemma c_L0 : 0 < L. Proof. unfold L. lra. Qed.
Lemma c_v0 : 0 < v. Proof. destruct FB as ((? & _) & _). unfold v. lra. Qed.
Lemma c_eL : eta <= uu * uu * L. Proof. pose proof tt0. assert (G := FL). fold L in G. unfold uu in *. lra. Qed.
Lemma c_eLL : eta <= uu * uu * (L * L). Proof. pose proof tt0. pose proof LL. unfold uu in *. lra. Qed.
Lemma c_ev : eta <= uu * uu * v. Proof. pose proof tt0. destruct FB as ((? & _) & _). unfold v, uu in *. lra. Qed.
Lemma c_evv : eta <= uu * uu * (v * v). Proof. pose proof tt0. pose proof vv. unfold uu in *. lra. Qed.
Lemma c_e1 : eta <= uu * uu. Proof. pose proof tt0. unfold uu in *. lra. Qed.
Lemma d_near : Rabs (n1 - L) <= 9 * uu * L.
Proof. exact (length_near rnd eta eta0 err pos dx dy dz c_L0 c_eL c_eLL). Qed.
Lemma d_pos : 99 / 100 * L <= n1. Proof. pose proof d_near as N. apply abs_inv in N. pose proof c_L0. unfold uu in *. lra. Qed.
Lemma d_moved : gnorm3 k (gvsub k (gk_pos k B) (gk_pos k A)) = n1.
Proof. reflexivity. Qed.
Lemma d_is : gmove_distance k A B = (n1, false).
Proof.
  unfold gmove_distance, gt_distance. rewrite d_moved, (dec_0 rnd r0). cbn [Bk k_eqb]. unfold Reqb. destruct (Req_EM_T n1 0) as [E|E]; [|reflexivity]. pose proof d_pos. pose proof c_L0. lra.
Qed.
Lemma connect_is : gconnect_state k A B = GV k (rnd (rnd (rnd dx / n1) * v)) (rnd (rnd (rnd dy / n1) * v)) (rnd (rnd (rnd dz / n1) * v)) (rnd (rnd (rnd (ge k q - ge k p) / n1) * v)).
Proof.
  unfold gconnect_state. cbv zeta. rewrite d_moved, (dec_0 rnd r0). cbn [Bk k_ltb k_abs]. pose proof d_pos. pose proof c_L0.
  rewrite (Rabs_right n1) by lra. rewrite (Rltb_true 0 n1) by lra. reflexivity.
Qed.
Let n2 := rnorm rnd (rnd (rnd (rnd dx / n1) * v)) (rnd (rnd (rnd dy / n1) * v)) (rnd (rnd (rnd dz / n1) * v)).
Lemma v_near : Rabs (n2 - v) <= 37 * uu * v.
Proof. exact (speed_near rnd eta eta0 err pos dx dy dz v c_L0 c_v0 c_eL c_eLL c_ev c_evv c_e1). Qed.
Lemma connect_norm : gnorm3 k (gconnect_state k A B) = n2.
Proof. rewrite connect_is. reflexivity. Qed.
Lemma v_pos : 99 / 100 * v <= n2. Proof. pose proof v_near as N. apply abs_inv in N. pose proof c_v0. unfold uu in *. lra. Qed.
Lemma move_dir dir : gget_norm_dir k (gconnect_state k A B) = Some dir ->
  Rabs (gx k dir - dx / L) <= 56 * uu /\ Rabs (gy k dir - dy / L) <= 56 * uu /\ Rabs (gz k dir - dz / L) <= 56 * uu /\
  (Rabs (ge k q - ge k p) <= L -> Rabs (ge k dir - (ge k q - ge k p) / L) <= 56 * uu).
Proof.
  unfold gget_norm_dir. rewrite connect_norm, (dec_0 rnd r0). cbn [Bk k_ltb]. pose proof v_pos. pose proof c_v0. rewrite (Rltb_true 0 n2) by lra.
  rewrite connect_is. intros [= <-]. cbn [gvdiv gx gy gz ge k_div Bk].
  destruct (on_axis dx dy dz) as (X & Y & Z).
  split; [|split; [|split; [|intros W]]]; apply (dir_near rnd eta eta0 err pos dx dy dz v c_L0 c_v0 c_eL c_eLL c_ev c_evv c_e1); assumption.
Qed.
Lemma L_le : L <= 4 * M.
Proof.
  destruct FA as (_ & _ & _ & X1 & Y1 & Z1), FB as (_ & _ & _ & X2 & Y2 & Z2). fold p in X1, Y1, Z1. fold q in X2, Y2, Z2.
  assert (T : forall x y, Rabs x <= M -> Rabs y <= M -> Rabs (x - y) <= 2 * M) by (intros x y G1 G2; apply abs_inv in G1, G2; apply Rabs_le; lra).
  pose proof (norm_sup (2 * M) dx dy dz (T _ _ X2 X1) (T _ _ Y2 Y1) (T _ _ Z2 Z1)) as N. rewrite L_is in N. lra.
Qed.
Lemma vel_le dir w : gget_norm_dir k (gconnect_state k A B) = Some dir -> 0 <= w <= 18 / 10 * V -> 0 <= gnorm3 k (gvscale k w dir) <= 2 * V.
Proof.
  intros D W. destruct (move_dir dir D) as (X & Y & Z & _). rewrite norm3_k. cbn [gvscale gx gy gz k_mul Bk]. destruct c_eV as [eV eVV]. pose proof gV.
  destruct (on_axis dx dy dz) as (TX & TY & TZ). rewrite L_is in TX, TY, TZ. pose proof c_L0 as L0.
  assert (G : forall c t, Rabs (c - t / L) <= 56 * uu -> Rabs t <= L -> Rabs (rnd (c * w) - w * (t / L)) <= 120 * uu * V).
  { intros c t C T. pose proof (unit_div t L L0 T) as U.
    assert (C' : Rabs (c * w - w * (t / L)) <= 101 * uu * V).
    { replace (c * w - w * (t / L)) with ((c - t / L) * w) by ring. rewrite Rabs_mult, (Rabs_right w) by lra. apply Rle_trans with (56 * uu * (18 / 10 * V)); [apply Rmult_le_compat; try apply Rabs_pos; lra|unfold uu in *; lra]. }
    assert (B' : Rabs (w * (t / L)) <= 18 / 10 * V). { rewrite Rabs_mult, (Rabs_right w) by lra. apply Rle_trans with (18 / 10 * V * 1); [apply Rmult_le_compat; try apply Rabs_pos; lra|lra]. }
    pose proof (rnd_near rnd eta err _ _ _ _ C' B'). unfold uu in *. lra. }
  pose proof (norm_near _ _ _ _ _ _ _ (G _ _ X TX) (G _ _ Y TY) (G _ _ Z TZ)) as N.
  pose proof (norm_scaled dx dy dz w) as S. cbv zeta in S. rewrite L_is in S. rewrite (S L0 (proj1 W)) in N. apply abs_inv in N.
  match type of N with _ <= ?S - _ <= _ => assert (Q : S <= 19 / 10 * V) by (unfold uu in *; lra) end. apply norm_below in Q.
  assert (0 <= V * V) by (apply Rle_0_sqr).
  destruct (rnorm_le rnd eta eta0 err pos _ _ _ (19 / 10 * V) ltac:(lra) Q) as [R1 R2]; [unfold uu in *; lra|replace (19 / 10 * V * (19 / 10 * V)) with (361 / 100 * (V * V)) by field; unfold uu in *; lra|]. split; [exact R1|]. lra.
Qed.
Lemma connect_sq : let c := gconnect_state k A B in gx k c * gx k c + gy k c * gy k c + gz k c * gz k c <= 101 / 100 * V * (101 / 100 * V).
Proof.
  rewrite connect_is. cbn [gx gy gz]. apply norm_below. destruct FB as ((_ & vV) & _). pose proof c_v0. fold v in vV.
  destruct (on_axis dx dy dz) as (TX & TY & TZ).
  pose proof (vel_near rnd eta eta0 err pos dx dy dz v c_L0 c_v0 c_eL c_eLL c_ev c_e1) as G.
  pose proof (norm_near _ _ _ _ _ _ _ (G _ TX) (G _ TY) (G _ TZ)) as N.
  pose proof (norm_scaled dx dy dz v c_L0 ltac:(lra)) as S. cbv zeta in S. rewrite S in N. fold n1 in N. apply abs_inv in N.
  match goal with |- ?G <= _ => match type of N with _ <= ?S - _ <= _ => change G with S end end. unfold uu in *. lra.
Qed.
End Move.

Section Extrude.
Variables A B : gkstate k.
Hypothesis FB : fine B.
Hypothesis FN : near 0 (gk_pos k B) (gk_pos k A).
Let D := ge k (gk_pos k B) - ge k (gk_pos k A).
Hypothesis FD : tiny <= Rabs D.
Let v := gk_speed k B.
Let e1 := rnd D.
Let s := D / Rabs D.
Let r1 w := rnd (sqrt (rnd (0 + rnd (w * w)))).
Lemma sign_s : (s = 1 /\ D = Rabs D) \/ (s = -1 /\ D = - Rabs D).
Proof.
  unfold s. destruct (Rle_or_lt 0 D) as [P|P]; [left; rewrite Rabs_right in * by lra|right; rewrite Rabs_left in * by lra]; split; try lra; field; lra.
Qed.
Lemma abs_s : Rabs s <= 1. Proof. apply Rabs_le. destruct sign_s as [[-> _]|[-> _]]; lra. Qed.
Lemma e1_near : Rabs (e1 - D) <= 2 * uu * Rabs D.
Proof. pose proof (err D). pose proof tt0. unfold e1, uu in *. lra. Qed.
Lemma e1_unit : e1 / Rabs e1 = s /\ Rabs (Rabs e1 - Rabs D) <= 2 * uu * Rabs D /\ 0 < Rabs e1.
Proof.
  pose proof e1_near as N. apply abs_inv in N. destruct sign_s as [[-> E]|[-> E]].
  - assert (0 < e1) by (unfold uu in *; lra). rewrite (Rabs_right e1) by lra. split; [field; lra|]. split; [apply Rabs_le; unfold uu in *; lra|lra].
  - assert (e1 < 0) by (unfold uu in *; lra). rewrite (Rabs_left e1) by lra. split; [field; lra|]. split; [apply Rabs_le; unfold uu in *; lra|lra].
Qed.
Lemma r1_near w N : Rabs w = N -> 0 < N -> eta <= uu * N / 10 -> eta <= uu * (N * N) / 10 -> Rabs (r1 w - N) <= 4 * uu * N.
Proof.
  intros W N0 e2 e3. unfold r1. assert (WW : w * w = N * N) by (rewrite <- W, <- Rabs_mult; symmetry; apply Rabs_right, Rle_ge, Rle_0_sqr). rewrite WW, Rplus_0_l.
  assert (NN : 0 < N * N) by (apply Rmult_lt_0_compat; assumption).
  pose proof (up_ rnd eta err _ (Rlt_le _ _ NN)) as U1. pose proof (lo_ rnd eta err _ (Rlt_le _ _ NN)) as L1. set (a1 := rnd (N * N)) in *.
  assert (A0 : 0 <= a1) by (unfold uu in *; lra).
  pose proof (up_ rnd eta err _ A0) as U2. pose proof (lo_ rnd eta err _ A0) as L2. set (q := rnd a1) in *.
  assert (S1 : sqrt q <= (1 + 25 / 10 * uu) * N) by (apply sqrt_le_; [unfold uu; lra|]; replace ((1 + 25 / 10 * uu) * N * ((1 + 25 / 10 * uu) * N)) with ((1 + 25 / 10 * uu) * (1 + 25 / 10 * uu) * (N * N)) by ring; unfold uu in *; lra).
  assert (S2 : (1 - 25 / 10 * uu) * N <= sqrt q) by (apply le_sqrt; [unfold uu; lra|]; replace ((1 - 25 / 10 * uu) * N * ((1 - 25 / 10 * uu) * N)) with ((1 - 25 / 10 * uu) * (1 - 25 / 10 * uu) * (N * N)) by ring; unfold uu in *; lra).
  pose proof (up_ rnd eta err _ (sqrt_pos q)). pose proof (lo_ rnd eta err _ (sqrt_pos q)). apply Rabs_le. unfold uu in *. lra.
Qed.
Lemma r1_is (c : gvec k) : gx k c = 0 -> gy k c = 0 -> gz k c = 0 -> gnorm4 k c = r1 (ge k c).
Proof. intros X Y Z. unfold gnorm4. cbn [Bk k_sqrt k_add k_mul] in *. rewrite X, Y, Z. repeat (rewrite ?Rmult_0_l, ?Rplus_0_l, ?r0). unfold r1. rewrite Rplus_0_l. reflexivity. Qed.
Lemma x_d : exists d, gmove_distance k A B = (d, true) /\ Rabs (d - Rabs D) <= 9 * uu * Rabs D.
Proof.
  destruct (still_moved A B FN) as (X & Y & Z). exists (r1 e1). split.
  - unfold gmove_distance, gt_distance. rewrite (norm3_k (gvsub k (gk_pos k B) (gk_pos k A))), X, Y, Z, rnorm_0, (dec_0 rnd r0). cbn [Bk k_eqb]. unfold Reqb. destruct (Req_EM_T 0 0); [|lra].
    rewrite r1_is by assumption. reflexivity.
  - destruct e1_unit as (_ & N & P). pose proof tt0. assert (T : tiny * tiny <= Rabs D * Rabs D) by (apply sq_le; lra). apply abs_inv in N.
    assert (T2 : 98 / 100 * (Rabs D * Rabs D) <= Rabs e1 * Rabs e1). { apply Rle_trans with (99 / 100 * Rabs D * (99 / 100 * Rabs D)); [lra|]. apply sq_le; unfold uu in *; lra. }
    pose proof (r1_near e1 (Rabs e1) eq_refl P ltac:(unfold uu in *; lra) ltac:(unfold uu in *; lra)) as Q. apply abs_inv in Q. apply Rabs_le. unfold uu in *. lra.
Qed.
Let w := rnd (rnd s * v).
Lemma w_near : Rabs (w - s * v) <= 4 * uu * v.
Proof.
  destruct FB as ((v1 & _) & _). fold v in v1. pose proof tt0. pose proof (err s) as E. pose proof abs_s as S.
  assert (E' : Rabs (rnd s - s) <= 2 * uu) by (unfold uu in *; lra).
  assert (E2 : Rabs (rnd s * v - s * v) <= 2 * uu * v). { rewrite <- Rmult_minus_distr_r, Rabs_mult, (Rabs_right v) by lra. apply Rmult_le_compat_r; lra. }
  assert (E3 : Rabs (s * v) <= v). { rewrite Rabs_mult, (Rabs_right v) by lra. apply Rle_trans with (1 * v); [apply Rmult_le_compat_r; lra|lra]. }
  pose proof (rnd_near rnd eta err _ _ _ _ E2 E3). unfold w, uu in *. lra.
Qed.
Lemma x_connect : ge k (gconnect_state k A B) = w.
Proof.
  destruct (still_moved A B FN) as (X & Y & Z). unfold gconnect_state. cbv zeta. rewrite (norm3_k (gvsub k (gk_pos k B) (gk_pos k A))), X, Y, Z, rnorm_0, (dec_0 rnd r0).
  cbn [Bk k_ltb k_abs]. rewrite Rabs_R0, (Rltb_false 0 0) by lra. destruct e1_unit as (U & _ & P). change (ge k (gvsub k (gk_pos k B) (gk_pos k A))) with e1.
  rewrite (Rltb_true 0 (Rabs e1)) by exact P. cbn [gvscale gvdiv ge k_mul k_div Bk]. change (ge k (gvsub k (gk_pos k B) (gk_pos k A))) with e1. rewrite U. reflexivity.
Qed.
Lemma x_norm : Rabs (gnorm4 k (gconnect_state k A B) - v) <= 9 * uu * v.
Proof.
  destruct (still_connect A B FN) as (X & Y & Z). rewrite (r1_is _ X Y Z), x_connect. destruct FB as ((v1 & _) & _). fold v in v1. pose proof tt0. pose proof w_near as N.
  assert (N' : Rabs (Rabs w - v) <= 4 * uu * v).
  { apply abs_inv in N. destruct sign_s as [[E _]|[E _]]; rewrite E in N; [rewrite (Rabs_right w) by (unfold uu in *; lra)|rewrite (Rabs_left w) by (unfold uu in *; lra)]; apply Rabs_le; lra. }
  apply abs_inv in N'. assert (T : tiny * tiny <= v * v) by (apply sq_le; lra).
  assert (T2 : 98 / 100 * (v * v) <= Rabs w * Rabs w). { apply Rle_trans with (99 / 100 * v * (99 / 100 * v)); [lra|]. apply sq_le; unfold uu in *; lra. }
  pose proof (r1_near w (Rabs w) eq_refl ltac:(unfold uu in *; lra) ltac:(unfold uu in *; lra) ltac:(unfold uu in *; lra)) as Q. apply abs_inv in Q. apply Rabs_le. unfold uu in *. lra.
Qed.
Lemma x_not_zero : gnot_zero k (gconnect_state k A B) = true /\ gget_norm_dir k (gconnect_state k A B) <> None.
Proof.
  pose proof x_norm as N. apply abs_inv in N. destruct FB as ((v1 & _) & _). fold v in v1. unfold gnot_zero, gget_norm_dir. rewrite (dec_0 rnd r0). cbn [Bk k_ltb].
  rewrite (Rltb_true 0 (gnorm4 k _)) by (unfold uu in *; lra). split; [reflexivity|]. destruct (Rltb 0 _); discriminate.
Qed.
Lemma x_dir dir : gget_norm_dir k (gconnect_state k A B) = Some dir -> Rabs (ge k dir - D / Rabs D) <= 56 * uu.
Proof.
  destruct (still_connect A B FN) as (X & Y & Z). unfold gget_norm_dir. rewrite norm3_k, X, Y, Z, rnorm_0, (dec_0 rnd r0). cbn [Bk k_ltb]. rewrite (Rltb_false 0 0) by lra.
  pose proof x_norm as N. destruct FB as ((v1 & _) & _). fold v in v1. set (n4 := gnorm4 k (gconnect_state k A B)) in *. assert (N1 := N). apply abs_inv in N1.
  destruct (Rltb 0 n4); [|discriminate]. intros [= <-]. cbn [gvdiv ge k_div Bk]. change (ge (Bk rnd) (gconnect_state k A B)) with (ge k (gconnect_state k A B)). rewrite x_connect. fold s.
  assert (P : 99 / 100 * v <= n4) by (unfold uu in *; lra). pose proof tt0.
  assert (E3 : Rabs (s * v) <= v). { rewrite Rabs_mult, (Rabs_right v) by lra. pose proof abs_s. apply Rle_trans with (1 * v); [apply Rmult_le_compat_r; lra|lra]. }
  pose proof (div_near w n4 (s * v) v _ _ ltac:(lra) ltac:(lra) w_near N E3) as Q. replace (s * v / v) with s in Q by (field; lra).
  assert (Q' : Rabs (w / n4 - s) <= 20 * uu).
  { apply Rmult_le_reg_l with n4; [lra|]. eapply Rle_trans; [exact Q|]. assert (20 * uu * (99 / 100 * v) <= 20 * uu * n4) by (apply Rmult_le_compat_l; [unfold uu; lra|lra]). unfold uu in *. lra. }
  pose proof (rnd_near rnd eta err _ _ _ _ Q' abs_s). unfold uu in *. lra.
Qed.
End Extrude.
Lemma no_dir A B dir : near 0 (gk_pos k B) (gk_pos k A) -> ge k (gk_pos k B) = ge k (gk_pos k A) -> gget_norm_dir k (gconnect_state k A B) = Some dir -> False.
Proof.
  intros N E D. destruct (still_connect A B N) as (X & Y & Z). destruct (still_moved A B N) as (X' & Y' & Z').
  assert (W : ge k (gconnect_state k A B) = 0).
  { unfold gconnect_state. cbv zeta. rewrite (norm3_k (gvsub k (gk_pos k B) (gk_pos k A))), X', Y', Z', rnorm_0, (dec_0 rnd r0). cbn [Bk k_ltb k_abs]. rewrite Rabs_R0, (Rltb_false 0 0) by lra.
    assert (Q : ge k (gvsub k (gk_pos k B) (gk_pos k A)) = 0) by (cbn [gvsub ge Bk k_sub]; change (ge (Bk rnd)) with (ge k); rewrite E, Rminus_diag_eq by reflexivity; exact r0).
    rewrite Q, Rabs_R0, (Rltb_false 0 0) by lra. unfold gzero. rewrite (dec_0 rnd r0). cbn [gvscale ge k_mul Bk]. apply mul0. }
  unfold gget_norm_dir in D. rewrite norm3_k, X, Y, Z, rnorm_0, (dec_0 rnd r0) in D. cbn [Bk k_ltb] in D. rewrite (Rltb_false 0 0) in D by lra.
  rewrite (r1_is _ X Y Z), W in D. repeat (rewrite ?Rmult_0_l, ?Rplus_0_l, ?sqrt_0, ?r0 in D). rewrite (Rltb_false 0 0) in D by lra. discriminate.
Qed.

(** * Legs *)
Definition leg (dir p : gvec k) (t : R) : gvec k := gvadd k p (gvscale k t dir).
Fixpoint legs (dir p : gvec k) (tv : list (R * R)) (all : list (gsegment k)) : Prop :=
  match tv, all with
  | [], [] => True
  | (t, v) :: tv', s :: all' =>
    gpos_begin k s = p /\ gpos_end k s = leg dir p t /\ gvel_begin k s = gvscale k v dir /\ legs dir (gpos_end k s) tv' all'
  | _, _ => False
  end.
Definition arrive (dir p : gvec k) (tv : list (R * R)) : gvec k := fold_left (leg dir) (map fst tv) p.
(** near along x, y and z, and along the extruder if [wE] *)
Definition nearw (e : R) (p q : gvec k) : Prop := near e p q /\ (wE -> Rabs (ge k p - ge k q) <= e).
Lemma near_trans e1 e2 (x y z : gvec k) : nearw e1 x y -> nearw e2 y z -> nearw (e1 + e2) x z.
Proof.
  intros ((A1 & A2 & A3) & A4) ((B1 & B2 & B3) & B4). apply abs_inv in A1, A2, A3, B1, B2, B3. split; [split; [|split]; apply Rabs_le; lra|].
  intros W. specialize (A4 W). specialize (B4 W). apply abs_inv in A4, B4. apply Rabs_le. lra.
Qed.
Lemma near_sym e (x y : gvec k) : nearw e x y -> nearw e y x.
Proof. intros ((A1 & A2 & A3) & A4). unfold nearw, near. rewrite (Rabs_minus_sym (gx k y)), (Rabs_minus_sym (gy k y)), (Rabs_minus_sym (gz k y)), (Rabs_minus_sym (ge k y)). auto. Qed.
Lemma near_refl e (x : gvec k) : 0 <= e -> nearw e x x.
Proof. intros E. split; [split; [|split]|intros _]; apply Rabs_le; lra. Qed.
Lemma near_le e1 e2 (x y : gvec k) : nearw e1 x y -> e1 <= e2 -> nearw e2 x y.
Proof. intros ((A1 & A2 & A3) & A4) E. split; [split; [|split]; lra|]. intros W. specialize (A4 W). lra. Qed.
Lemma rnd_nonpos t : 0 <= t -> rnd t <= 0 -> t <= 101 / 100 * eta.
Proof. intros P N. pose proof (err t) as G. rewrite (Rabs_right t) in G by lra. apply abs_inv in G. unfold uu in *. lra. Qed.
Lemma rnd_back t X : Rabs (rnd t) <= X -> Rabs t <= 101 / 100 * (X + eta).
Proof. intros N. pose proof (err t) as G. apply abs_inv in G, N. unfold uu in *. destruct (Rle_or_lt 0 t); [rewrite (Rabs_right t) in * by lra|rewrite (Rabs_left t) in * by lra]; lra. Qed.
Lemma dropped s : gkeep_seg k s = [] -> nearw (6 * eta) (gpos_begin k s) (gpos_end k s).
Proof.
  unfold gkeep_seg. destruct (gis_travel k (gpos_end k s) (gpos_begin k s)) eqn:T; [discriminate|]. destruct (gpos_is_extruding k (gpos_end k s) (gpos_begin k s) false) eqn:TE; [discriminate|]. intros _.
  unfold gpos_is_extruding in TE. rewrite (dec_0 rnd r0) in TE. cbn [Bk k_ltb k_sub k_abs] in TE. apply Rltb_nlt in TE.
  unfold gis_travel in T. rewrite (dec_0 rnd r0) in T. cbn [Bk k_ltb k_add k_sub k_abs] in T. apply Rltb_nlt in T.
  set (x := Rabs (rnd (gx _ (gpos_begin _ s) - gx _ (gpos_end _ s)))) in *. set (y := Rabs (rnd (gy _ (gpos_begin _ s) - gy _ (gpos_end _ s)))) in *. set (z := Rabs (rnd (gz _ (gpos_begin _ s) - gz _ (gpos_end _ s)))) in *.
  assert (x0 : 0 <= x) by apply Rabs_pos. assert (y0 : 0 <= y) by apply Rabs_pos. assert (z0 : 0 <= z) by apply Rabs_pos.
  assert (w0 : 0 <= rnd (x + y)) by (apply pos; lra).
  pose proof (rnd_nonpos _ (Rplus_le_le_0_compat _ _ w0 z0) ltac:(lra)) as G.
  pose proof (rnd_back (x + y) (101 / 100 * eta)) as W. rewrite (Rabs_right (rnd (x + y))), (Rabs_right (x + y)) in W by lra. specialize (W ltac:(lra)).
  pose proof (rnd_back _ _ (Rle_refl x)). pose proof (rnd_back _ _ (Rle_refl y)). pose proof (rnd_back _ _ (Rle_refl z)).
  split; [split; [|split]; lra|]. intros _. pose proof (rnd_back (ge k (gpos_begin k s) - ge k (gpos_end k s)) 0 ltac:(lra)). lra.
Qed.
Definition drops (n : nat) : R := INR n * (6 * eta).
Lemma drops_S n : drops (S n) = 6 * eta + drops n. Proof. unfold drops. rewrite S_INR. ring. Qed.
Lemma drops_0 n : 0 <= drops n. Proof. unfold drops. apply Rmult_le_pos; [apply pos_INR|lra]. Qed.
Lemma kept_or s : gkeep_seg k s = [s] \/ gkeep_seg k s = [].
Proof. unfold gkeep_seg. destruct (_ || _); auto. Qed.
Lemma kept_first dir tv : forall p all f r, legs dir p tv all -> flat_map (gkeep_seg k) all = f :: r ->
  nearw (drops (length all)) (gpos_begin k f) p /\ exists v, In v (map snd tv) /\ gvel_begin k f = gvscale k v dir.
Proof.
  induction tv as [|[t v] tv IH]; intros p [|s all] f r G E; try contradiction; [discriminate|].
  destruct G as (B & N & W & G). cbn [flat_map length] in *. rewrite drops_S. pose proof (drops_0 (length all)).
  destruct (kept_or s) as [K|K]; rewrite K in E.
  - injection E as -> _. rewrite B. split; [apply near_refl; lra|]. exists v. split; [left; reflexivity|exact W].
  - destruct (IH _ _ _ _ G E) as [I (u & U & Wu)]. split; [|exists u; split; [right; exact U|exact Wu]].
    apply dropped in K. rewrite B in K. apply (near_le (drops (length all) + 6 * eta)); [|lra]. exact (near_trans _ _ _ _ _ I (near_sym _ _ _ K)).
Qed.
Lemma kept_none dir tv : forall p all, legs dir p tv all -> flat_map (gkeep_seg k) all = [] -> nearw (drops (length all)) p (arrive dir p tv).
Proof.
  induction tv as [|[t v] tv IH]; intros p [|s all] G E; try contradiction; [apply near_refl, drops_0|].
  destruct G as (B & N & W & G). cbn [flat_map length] in *. rewrite drops_S. apply app_eq_nil in E. destruct E as [K E].
  apply dropped in K. rewrite B in K. specialize (IH _ _ G E). unfold arrive in *. cbn [map fst fold_left]. rewrite <- N.
  exact (near_trans _ _ _ _ _ K IH).
Qed.
Lemma kept_last dir tv : forall p all f, legs dir p tv all -> flat_map (gkeep_seg k) all <> [] -> glast_seg k (flat_map (gkeep_seg k) all) = Ok f ->
  nearw (drops (length all)) (gpos_end k f) (arrive dir p tv).
Proof.
  induction tv as [|[t v] tv IH]; intros p [|s all] f G E1 E; try contradiction.
  destruct G as (B & N & W & G). cbn [flat_map length] in *. rewrite drops_S. unfold arrive. cbn [map fst fold_left]. rewrite <- N.
  destruct (flat_map (gkeep_seg k) all) as [|g r] eqn:D.
  - rewrite app_nil_r in *. destruct (kept_or s) as [K|K]; rewrite K in E; [|discriminate]. injection E as <-.
    pose proof (kept_none dir tv _ _ G D) as Z. apply (near_le _ _ _ _ Z). lra.
  - apply (near_le (drops (length all))); [|lra]. apply IH; [exact G|rewrite D; discriminate|]. rewrite D. unfold glast_seg in *.
    assert (X : exists l h, g :: r = l ++ [h]). { destruct (exists_last (l := g :: r)) as (l & h & X); [discriminate|]. exists l, h. exact X. }
    destruct X as (l & h & X). rewrite X in *. rewrite !rev_app_distr in *. cbn [rev app] in *. exact E.
Qed.

(** * What the planner lays out *)
Definition t_ramp (acc v1 v2 : R) : R := rnd (rnd (rnd (v2 - v1) * rnd (v1 + v2)) / rnd (2 * acc)).
Definition t_down (acc v1 v2 : R) : R := rnd (rnd (rnd (v2 - v1) * rnd (v2 + v1)) / rnd (2 * - acc)).
Definition t_peak (acc d vb ve : R) : R := rnd (sqrt (rnd (rnd (rnd (acc * d) + rnd (rnd (vb * vb) / 2)) + rnd (rnd (ve * ve) / 2)))).
Definition t_sq (acc d vb ve : R) : R :=
  if Rltb ve vb then rnd (rnd (vb * vb) - rnd (rnd (2 * acc) * d)) else rnd (rnd (vb * vb) + rnd (rnd (2 * acc) * d)).
Definition t_ves (acc d vb ve : R) : R := if Rleb 0 (t_sq acc d vb ve) then rnd (sqrt (t_sq acc d vb ve)) else 0.
Definition t_vbs (acc d ve : R) : R := rnd (sqrt (rnd (rnd (rnd (2 * acc) * d) + rnd (ve * ve)))).
Definition is_trapezoid (acc d vb vt ve : R) : bool :=
  Rltb (rnd (t_ramp acc vb vt + t_down acc vt ve)) d
  && (Rltb 0 (t_ramp acc vb vt) || gisclose k (t_ramp acc vb vt) 0)
  && (Rltb 0 (t_down acc vt ve) || gisclose k (t_down acc vt ve) 0).
Definition below (vt v : R) : bool := Rltb v vt || gisclose k v vt.
Definition is_triangle (acc d vb vt ve : R) : bool :=
  Rltb ve (t_peak acc d vb ve) && Rltb vb (t_peak acc d vb ve) && below vt (t_peak acc d vb ve).
Definition laid_out (acc d vb vt ve : R) (tv : list (R * R)) : Prop :=
  if is_trapezoid acc d vb vt ve then
    tv = [(t_ramp acc vb vt, vb); (rnd (rnd (d - t_down acc vt ve) - t_ramp acc vb vt), vt); (t_down acc vt ve, vt)]
  else if is_triangle acc d vb vt ve then
    tv = [(t_ramp acc vb (t_peak acc d vb ve), vb); (rnd (rnd (rnd (t_peak acc d vb ve - ve) * rnd (ve + t_peak acc d vb ve)) / rnd (2 * acc)), t_peak acc d vb ve)]
  else if Rltb vb (t_ves acc d vb ve) && below vt (t_ves acc d vb ve) then
    tv = [(t_ramp acc vb (t_ves acc d vb ve), vb)]
  else Rltb (t_ves acc d vb ve) vb = true /\
    tv = [(rnd (rnd (rnd (t_vbs acc d ve - ve) * rnd (t_vbs acc d ve + ve)) / rnd (2 * acc)), t_vbs acc d ve)].
Lemma mk_ok t0 t1 p0 p1 v0 v1 s : gmk_segment k t0 t1 p0 p1 v0 v1 = Ok s -> s = GSeg k t0 t1 p0 p1 v0 v1.
Proof. unfold gmk_segment. destruct (gself_check k _); cbn [bind]; congruence. Qed.
Lemma try_ok {X} (r : res X) x : try_runtime r = Ok x -> r = Ok x.
Proof. unfold try_runtime. destruct r as [y|[]]; congruence. Qed.
Lemma bind_inv {X Y} (r : res X) (f : X -> res Y) y : bind r f = Ok y -> exists x, r = Ok x /\ f x = Ok y.
Proof. destruct r; cbn; [eauto|discriminate]. Qed.
Lemma maker_legs A B dir pv ve segs ty : gmove_maker2 k A B dir pv ve = Ok (segs, ty) ->
  let vt := gk_speed k B in
  let vb := if Rltb (gnorm3 k (gvel_end k pv)) vt then gnorm3 k (gvel_end k pv) else vt in
  exists tv all, laid_out (gk_acc k B) (fst (gmove_distance k A B)) vb vt ve tv /\ legs dir (gpos_end k pv) tv all /\
    segs = flat_map (gkeep_seg k) all /\ (length all <= 3)%nat.
Proof.
  intros E vt vb. unfold gmove_maker2 in E. destruct (gmove_distance k A B) as [d x]. change (fst (d, x)) with d.
  destruct (k_leb k (gk_acc k B) (k0 k)); [discriminate|]. apply try_ok in E. unfold laid_out.
  set (acc := gk_acc k B) in *.
  change (if k_ltb k (gnorm3 k (gvel_end k pv)) (gk_speed k B) then gnorm3 k (gvel_end k pv) else gk_speed k B) with vb in E. change (gk_speed k B) with vt in E.
  unfold gtrapezoid, gtriang, gsingl_up, gsingl_dwn in E. rewrite (dec_2 rnd r2), (dec_0 rnd r0) in E.
  revert E. 
  match goal with |- (if ?c then _ else _) = _ -> _ => change c with (is_trapezoid acc d vb vt ve) end.
  destruct (is_trapezoid acc d vb vt ve) eqn:T1.
  - intros E. apply bind_inv in E. destruct E as (sA & EA & E). apply bind_inv in E. destruct E as (sB & EB & E). apply bind_inv in E. destruct E as (sC & EC & E).
    apply mk_ok in EA, EB, EC. injection E as <- <-. eexists. exists [sA; sB; sC]. split; [reflexivity|]. subst sA sB sC.
    split; [cbn [legs gpos_begin gpos_end gvel_begin]; repeat split|]. split; [|cbn; lia]. cbn [flat_map]. rewrite app_nil_r. reflexivity.
  - match goal with |- (if ?c then _ else _) = _ -> _ => change c with (is_triangle acc d vb vt ve) end.
    destruct (is_triangle acc d vb vt ve) eqn:T2.
    + intros E. apply bind_inv in E. destruct E as (sA & EA & E). apply bind_inv in E. destruct E as (sC & EC & E).
      apply mk_ok in EA, EC. injection E as <- <-. eexists. exists [sA; sC]. split; [reflexivity|]. subst sA sC.
      split; [cbn [legs gpos_begin gpos_end gvel_begin]; repeat split|]. split; [|cbn; lia]. cbn [flat_map]. rewrite app_nil_r. reflexivity.
    + match goal with |- (if ?c then _ else _) = _ -> _ => change c with (Rltb vb (t_ves acc d vb ve) && below vt (t_ves acc d vb ve)) end.
      destruct (Rltb vb (t_ves acc d vb ve) && below vt (t_ves acc d vb ve)) eqn:T3.
      * intros E. apply bind_inv in E. destruct E as (sA & EA & E).
        apply mk_ok in EA. injection E as <- <-. eexists. exists [sA]. split; [reflexivity|]. subst sA.
        split; [cbn [legs gpos_begin gpos_end gvel_begin]; repeat split|]. split; [|cbn; lia]. cbn [flat_map]. rewrite app_nil_r. reflexivity.
      * match goal with |- (if ?c then _ else _) = _ -> _ => change c with (Rltb (t_ves acc d vb ve) vb) end.
        destruct (Rltb (t_ves acc d vb ve) vb) eqn:T4; [|discriminate].
        intros E. apply bind_inv in E. destruct E as (sC & EC & E).
        apply mk_ok in EC. injection E as <- <-. eexists. exists [sC]. split; [split; reflexivity|]. subst sC.
        split; [cbn [legs gpos_begin gpos_end gvel_begin]; repeat split|]. split; [|cbn; lia]. cbn [flat_map]. rewrite app_nil_r. reflexivity.
Qed.

(** * Where the legs lead *)
Definition step (c p t : R) : R := rnd (p + rnd (c * t)).
Fixpoint total (l : list R) : R := match l with [] => 0 | t :: l' => t + total l' end.
Lemma arrive_x dir tv : forall p, gx k (arrive dir p tv) = fold_left (step (gx k dir)) (map fst tv) (gx k p).
Proof. unfold arrive. induction (map fst tv) as [|t l IH]; intros p; [reflexivity|]. cbn [fold_left]. rewrite IH. reflexivity. Qed.
Lemma arrive_y dir tv : forall p, gy k (arrive dir p tv) = fold_left (step (gy k dir)) (map fst tv) (gy k p).
Proof. unfold arrive. induction (map fst tv) as [|t l IH]; intros p; [reflexivity|]. cbn [fold_left]. rewrite IH. reflexivity. Qed.
Lemma arrive_z dir tv : forall p, gz k (arrive dir p tv) = fold_left (step (gz k dir)) (map fst tv) (gz k p).
Proof. unfold arrive. induction (map fst tv) as [|t l IH]; intros p; [reflexivity|]. cbn [fold_left]. rewrite IH. reflexivity. Qed.
Lemma arrive_e dir tv : forall p, ge k (arrive dir p tv) = fold_left (step (ge k dir)) (map fst tv) (ge k p).
Proof. unfold arrive. induction (map fst tv) as [|t l IH]; intros p; [reflexivity|]. cbn [fold_left]. rewrite IH. reflexivity. Qed.
Lemma step_err c p t T Q : Rabs p <= Q -> Rabs (c * t) <= T -> Rabs (step c p t - (p + c * t)) <= uu * (Q + 3 * T) + 3 * eta.
Proof.
  intros P C. unfold step. pose proof (err (c * t)) as E1. pose proof (err (p + rnd (c * t))) as E2.
  assert (G1 : Rabs (rnd (c * t) - c * t) <= uu * T + eta). { eapply Rle_trans; [exact E1|]. apply Rplus_le_compat_r, Rmult_le_compat_l; [unfold uu; lra|exact C]. }
  assert (G2 : Rabs (p + rnd (c * t)) <= Q + (T + (uu * T + eta))). { apply abs_inv in P, C, G1. apply Rabs_le. lra. }
  assert (G3 : uu * Rabs (p + rnd (c * t)) <= uu * (Q + (T + (uu * T + eta)))) by (apply Rmult_le_compat_l; [unfold uu; lra|exact G2]).
  assert (T0 : 0 <= T) by (pose proof (Rabs_pos (c * t)); lra).
  apply abs_inv in G1, E2. apply Rabs_le. unfold uu in *. lra.
Qed.
Lemma steps_err c T Qm l : uu * (Qm + 3 * T) + 3 * eta <= T -> Forall (fun t => Rabs (c * t) <= T) l -> forall p Q, Rabs p <= Q -> Q + INR (length l) * (2 * T) <= Qm ->
  Rabs (fold_left (step c) l p - (p + c * total l)) <= INR (length l) * (uu * (Qm + 3 * T) + 3 * eta).
Proof.
  intros E F. induction F as [|t l C F IH]; intros p Q P Z.
  - cbn [fold_left total length INR]. rewrite Rmult_0_r, Rplus_0_r, Rminus_diag_eq, Rabs_R0 by reflexivity. lra.
  - cbn [fold_left total]. change (length (t :: l)) with (S (length l)) in *. rewrite S_INR in *.
    assert (T0 : 0 <= T) by (pose proof (Rabs_pos (c * t)); lra).
    assert (N0 : 0 <= INR (length l) * (2 * T)) by (apply Rmult_le_pos; [apply pos_INR|lra]).
    pose proof (step_err c p t T Q P C) as G.
    assert (G' : uu * (Q + 3 * T) <= uu * (Qm + 3 * T)) by (apply Rmult_le_compat_l; [unfold uu; lra|lra]).
    assert (P' : Rabs (step c p t) <= Q + 2 * T). { apply abs_inv in G, C, P. apply Rabs_le. lra. }
    specialize (IH (step c p t) (Q + 2 * T) P' ltac:(lra)). apply abs_inv in IH, G. apply Rabs_le. lra.
Qed.
Lemma below_le vt v : vt <= V -> 0 <= vt -> below vt v = true -> v <= 11 / 10 * V.
Proof.
  intros Hv H0 B. unfold below in B. apply orb_true_iff in B. destruct B as [B|B]; [apply Rltb_iff in B; lra|].
  unfold gisclose in B. cbn [Bk k_leb k_abs k_sub k_add k_mul k_dec] in B. apply Rleb_iff in B.
  assert (D : eta <= / 1000000000000) by (pose proof tt0; unfold uu in *; lra).
  rewrite (Rabs_right vt) in B by lra.
  assert (U8 : rnd (r_of_dec 1 (-8)) <= 2 / 100 * V).
  { replace (r_of_dec 1 (-8)) with (/ 100000000) by (unfold r_of_dec; cbn; lra). pose proof (up_ rnd eta err (/ 100000000) ltac:(lra)). unfold uu in *. lra. }
  assert (U5 : 0 <= rnd (r_of_dec 1 (-5)) <= 2 / 100000).
  { replace (r_of_dec 1 (-5)) with (/ 100000) by (unfold r_of_dec; cbn; lra). split; [apply pos; lra|]. pose proof (up_ rnd eta err (/ 100000) ltac:(lra)). unfold uu in *. lra. }
  assert (P8 : 0 <= rnd (r_of_dec 1 (-8))). { replace (r_of_dec 1 (-8)) with (/ 100000000) by (unfold r_of_dec; cbn; lra). apply pos. lra. }
  assert (M5 : 0 <= rnd (r_of_dec 1 (-5)) * vt <= 2 / 100000 * V).
  { split; [apply Rmult_le_pos; lra|]. apply Rmult_le_compat; lra. }
  pose proof (up_ rnd eta err _ (proj1 M5)) as W5. pose proof (pos _ (proj1 M5)) as Q5.
  pose proof (up_ rnd eta err _ (Rplus_le_le_0_compat _ _ P8 Q5)) as W.
  assert (B' : Rabs (rnd (v - vt)) <= 3 / 100 * V) by (unfold uu in *; lra).
  apply rnd_back in B'. apply abs_inv in B'. lra.
Qed.
Section Profile.
Variables acc d vb vt ve : R.
Hypothesis Ha : a <= acc.
Hypothesis Hd : 99 / 100 * tiny <= d.
Hypothesis dH : d <= 5 * H.
Hypothesis Hvb : 0 <= vb <= vt.
Hypothesis Hvt : tiny <= vt <= V.
Hypothesis Hve : 0 <= ve <= 2 * V.
Hypothesis short : 32 * uu * (vt * vt) <= acc * d.
Lemma ad_lo : 99 / 100 * (tiny * tiny) <= acc * d.
Proof. replace (99 / 100 * (tiny * tiny)) with (tiny * (99 / 100 * tiny)) by ring. apply Rmult_le_compat; lra. Qed.
Lemma vt2_lo : tiny * tiny <= vt * vt <= V * V.
Proof. split; apply sq_le; lra. Qed.
Lemma root_lo : 9 / 10 * tiny <= sqrt (acc * d).
Proof. apply le_sqrt; [lra|]. pose proof ad_lo. pose proof tt0. lra. Qed.
Lemma laid_sum tv : laid_out acc d vb vt ve tv ->
  Rabs (total (map fst tv) - d) <= 200 * uu * H /\ Forall (fun t => Rabs t <= 10 * H) (map fst tv) /\ Forall (fun v => 0 <= v <= 18 / 10 * V) (map snd tv).
Proof.
  intros G. pose proof ad_lo. pose proof vt2_lo. pose proof root_lo. pose proof tt0. pose proof (VH acc Ha) as VHa. pose proof H_M.
  assert (e1 : eta <= uu * acc) by (unfold uu in *; lra). assert (e2 : eta <= uu * V) by (unfold uu in *; lra).
  assert (e3 : eta <= uu * (V * V)) by (unfold uu in *; lra). assert (e4 : eta <= uu * (acc * d) / 1000) by (unfold uu in *; lra).
  assert (e5 : eta <= uu * H) by (unfold uu in *; lra). assert (h0 : 0 < H) by lra. assert (a0 : 0 < acc) by lra. assert (d0 : 0 < d) by lra. assert (V0 : 0 < V) by lra.
  assert (Hramp : vt * vt <= 1000000 * acc) by lra.
  assert (f4 : eta <= uu * sqrt (acc * d)) by (unfold uu in *; lra). assert (f6 : eta <= uu * uu * (vt * vt) / 1000) by (unfold uu in *; lra).
  unfold laid_out in G. destruct (is_trapezoid acc d vb vt ve) eqn:T1; [|destruct (is_triangle acc d vb vt ve) eqn:T2; [|destruct (Rltb vb (t_ves acc d vb ve) && below vt (t_ves acc d vb ve)) eqn:T3]].
  - subst tv. cbn [map fst snd total].
    destruct (way_trapezoid rnd eta eta0 err acc d vb vt ve V H a0 d0 Hvb (proj2 Hvt) V0 Hve VHa dH e1 e2 e3 e5) as (S & B1 & B2 & B3).
    split; [|split; repeat (apply Forall_cons || apply Forall_nil); unfold t_ramp, t_down; try lra].
    replace (t_ramp acc vb vt + (rnd (rnd (d - t_down acc vt ve) - t_ramp acc vb vt) + (t_down acc vt ve + 0)) - d) with (t_ramp acc vb vt + rnd (rnd (d - t_down acc vt ve) - t_ramp acc vb vt) + t_down acc vt ve - d) by ring. exact S.
  - subst tv. cbn [map fst snd total]. unfold is_triangle in T2. apply andb_true_iff in T2. destruct T2 as [T2 C]. apply andb_true_iff in T2. destruct T2 as [C1 C2]. apply Rltb_iff in C1, C2.
    pose proof (below_le vt _ (proj2 Hvt) ltac:(lra) C) as Vp.
    destruct (way_triangle rnd eta eta0 err pos acc d vb vt ve V H a0 d0 Hvb (proj2 Hvt) V0 Hve VHa dH e1 e2 e3 e4 e5 _ eq_refl Vp) as (S & B1 & B2).
    fold (t_peak acc d vb ve) in S, B1, B2.
    split; [|split; repeat (apply Forall_cons || apply Forall_nil); unfold t_ramp; try lra]. rewrite Rplus_0_r. exact S.
  - subst tv. cbn [map fst snd total]. apply andb_true_iff in T3. destruct T3 as [C1 C]. apply Rltb_iff in C1.
    pose proof (below_le vt _ (proj2 Hvt) ltac:(lra) C) as Vp. unfold t_ves in *. destruct (Rleb 0 (t_sq acc d vb ve)) eqn:Q; [|lra]. apply Rleb_iff in Q.
    pose proof (way_up rnd eta eta0 err pos acc d vb vt ve V H a0 d0 Hvb (proj2 Hvt) V0 VHa dH e1 e2 e3 e4 e5 (t_sq acc d vb ve) _ eq_refl Q eq_refl C1 Vp) as S. cbv zeta in S.
    fold (t_ramp acc vb (rnd (sqrt (t_sq acc d vb ve)))) in S.
    split; [rewrite Rplus_0_r; exact S|]. apply abs_inv in S. split; repeat (apply Forall_cons || apply Forall_nil); try lra. apply Rabs_le. unfold uu in *. lra.
  - destruct G as [C G]. subst tv. cbn [map fst snd total]. apply Rltb_iff in C.
    destruct (Rltb ve vb) eqn:D; [apply Rltb_iff in D|].
    + assert (ve1 : 0 <= ve <= (1 + 8 * uu) * vt) by (unfold uu in *; lra).
      assert (Dn : 2 * (acc * d) <= 102 / 100 * (vb * vb)).
      { apply (down_short rnd eta eta0 err pos neg acc d vb vt ve); try assumption; try lra; try (unfold uu in *; lra).
        rewrite (dec_0 rnd r0). exact T1. }
      destruct (way_down rnd eta eta0 err pos acc d vb vt ve V H a0 d0 Hvb (proj2 Hvt) V0 Hve VHa dH e1 e2 e3 e4 e5 _ ltac:(lra) Dn eq_refl) as (B & S). cbv zeta in S.
      fold (t_vbs acc d ve) in S, B. split; [rewrite Rplus_0_r; exact S|]. apply abs_inv in S. split; repeat (apply Forall_cons || apply Forall_nil); try lra. apply Rabs_le. unfold uu in *. lra.
    + exfalso. unfold t_ves, t_sq in C. rewrite D in C.
      destruct (faster rnd eta err pos acc d vb vt a0 d0 Hvb short Hramp e4 f4 f6 _ eq_refl) as [F1 F2]. rewrite (Rleb_true _ _ F1) in C. lra.
Qed.
End Profile.

(** * One move *)
Definition eps : R := 1000 * uu * H.
Definition shift (p A B : gvec k) : gvec k := GV k (gx k p + (gx k B - gx k A)) (gy k p + (gy k B - gy k A)) (gz k p + (gz k B - gz k A)) (ge k p + (ge k B - ge k A)).
Definition inside (p : gvec k) : Prop := Rabs (gx k p) <= 2 * M /\ Rabs (gy k p) <= 2 * M /\ Rabs (gz k p) <= 2 * M /\ (wE -> Rabs (ge k p) <= 2 * M).
Definition moved_to (dir p q : gvec k) (segs : list (gsegment k)) : Prop :=
  (segs = [] -> nearw eps p q) /\
  (forall f r, segs = f :: r -> nearw eps (gpos_begin k f) p /\ 0 <= gnorm3 k (gvel_begin k f) <= 2 * V) /\
  (forall l, segs <> [] -> glast_seg k segs = Ok l -> nearw eps (gpos_end k l) q).
Lemma H0 : 0 < H. Proof. pose proof H_M. lra. Qed.
Lemma e_H : eta <= uu * H / 1000. Proof. pose proof H_M. pose proof tt0. unfold uu in *. lra. Qed.
Lemma drops_3 n : (n <= 3)%nat -> drops n <= uu * H.
Proof. intros N. unfold drops. apply le_INR in N. replace (INR 3) with 3 in N by (cbn; lra). pose proof e_H. assert (INR n * (6 * eta) <= 3 * (6 * eta)) by (apply Rmult_le_compat_r; lra). lra. Qed.
Lemma moved_from dir p q tv all : legs dir p tv all -> (length all <= 3)%nat -> nearw (990 * uu * H) (arrive dir p tv) q ->
  (forall v, In v (map snd tv) -> 0 <= gnorm3 k (gvscale k v dir) <= 2 * V) -> moved_to dir p q (flat_map (gkeep_seg k) all).
Proof.
  intros G N R W. pose proof (drops_3 _ N) as D. pose proof H0. assert (u0 : 0 < uu * H) by (apply Rmult_lt_0_compat; [unfold uu; lra|assumption]). split; [|split].
  - intros E. pose proof (kept_none dir tv _ _ G E) as Z. apply (near_le (drops (length all) + 990 * uu * H)); [exact (near_trans _ _ _ _ _ Z R)|unfold eps; lra].
  - intros f r E. destruct (kept_first dir tv _ _ _ _ G E) as (Z & v & I & ->). split; [|apply W; exact I]. apply (near_le _ _ _ _ Z). unfold eps. lra.
  - intros l E L. pose proof (kept_last dir tv _ _ _ G E L) as Z. apply (near_le (drops (length all) + 990 * uu * H)); [exact (near_trans _ _ _ _ _ Z R)|unfold eps; lra].
Qed.
Lemma legs_length dir tv : forall p all, legs dir p tv all -> length tv = length all.
Proof. induction tv as [|[t v] tv IH]; intros p [|s all] G; try contradiction; [reflexivity|]. destruct G as (_ & _ & _ & G). cbn [length]. f_equal. exact (IH _ _ G). Qed.
Lemma inside_H x : Rabs x <= 2 * M -> Rabs x <= 2 * H. Proof. pose proof H_M. lra. Qed.
Lemma axis_moved c p l : Rabs p <= 2 * M -> (length l <= 3)%nat -> Forall (fun t => Rabs (c * t) <= 11 * H) l ->
  Rabs (fold_left (step c) l p - (p + c * total l)) <= 310 * uu * H.
Proof.
  intros P N F. pose proof H0. pose proof e_H. apply inside_H in P.
  assert (N3 : INR (length l) <= 3) by (apply le_INR in N; replace (INR 3) with 3 in N by (cbn; lra); exact N).
  assert (N0 := pos_INR (length l)).
  pose proof (steps_err c (11 * H) (68 * H) l ltac:(unfold uu in *; lra) F p (2 * H) P) as S.
  assert (Z : INR (length l) * (2 * (11 * H)) <= 3 * (2 * (11 * H))) by (apply Rmult_le_compat_r; lra).
  specialize (S ltac:(lra)). eapply Rle_trans; [exact S|].
  apply Rle_trans with (3 * (uu * (68 * H + 3 * (11 * H)) + 3 * eta)); [apply Rmult_le_compat_r; [unfold uu in *; lra|exact N3]|unfold uu in *; lra].
Qed.
Lemma move_axis c t L d p l : 0 < L <= 4 * M -> Rabs t <= L -> Rabs (c - t / L) <= 56 * uu -> Rabs (d - L) <= 9 * uu * L -> Rabs (total l - d) <= 200 * uu * H ->
  Rabs p <= 2 * M -> (length l <= 3)%nat -> Forall (fun t => Rabs t <= 10 * H) l -> Rabs (fold_left (step c) l p - (p + t)) <= 990 * uu * H.
Proof.
  intros L0 T C D S P N F. pose proof H0. pose proof H_M.
  assert (U : Rabs (t / L) <= 1). { apply unit_div; lra. }
  assert (Cb : Rabs c <= 101 / 100). { apply abs_inv in C, U. apply Rabs_le. unfold uu in *. lra. }
  assert (F' : Forall (fun t => Rabs (c * t) <= 11 * H) l).
  { apply Forall_impl with (2 := F). intros s Hs. rewrite Rabs_mult. apply Rle_trans with (101 / 100 * (10 * H)); [|lra]. apply Rmult_le_compat; try apply Rabs_pos; assumption. }
  pose proof (axis_moved c p l P N F') as G.
  assert (G1 : Rabs (c * total l - c * d) <= 101 / 100 * (200 * uu * H)).
  { rewrite <- Rmult_minus_distr_l, Rabs_mult. apply Rmult_le_compat; try apply Rabs_pos; assumption. }
  assert (G2 : Rabs (c * d - t) <= 66 * uu * L).
  { pose proof (mul_near c d (t / L) L _ _ 1 L C D U ltac:(rewrite Rabs_right; lra)) as Q. replace (t / L * L) with t in Q by (field; lra). unfold uu in *. lra. }
  apply abs_inv in G, G1, G2. apply Rabs_le. assert (0 < uu * H) by (apply Rmult_lt_0_compat; [unfold uu; lra|assumption]). assert (uu * L <= 4 * (uu * H)) by (unfold uu in *; lra). lra.
Qed.
Lemma profile_sum B L d pv ve tv : fine B -> tiny <= L <= 4 * M -> Rabs (d - L) <= 9 * uu * L -> 33 * uu * (gk_speed k B * gk_speed k B) <= gk_acc k B * L -> 0 <= ve <= 2 * V ->
  laid_out (gk_acc k B) d (if Rltb (gnorm3 k (gvel_end k pv)) (gk_speed k B) then gnorm3 k (gvel_end k pv) else gk_speed k B) (gk_speed k B) ve tv ->
  Rabs (total (map fst tv) - d) <= 200 * uu * H /\ Forall (fun t => Rabs t <= 10 * H) (map fst tv) /\ Forall (fun v => 0 <= v <= 18 / 10 * V) (map snd tv).
Proof.
  intros (Sp & Ac & _) HL N1 Fs Hve P. set (vb := if Rltb _ _ then _ else _) in P. pose proof H_M as HM. apply abs_inv in N1.
  assert (Vb : 0 <= vb <= gk_speed k B).
  { unfold vb. destruct (Rltb _ _) eqn:Q; [apply Rltb_iff in Q|lra]. split; [|lra]. rewrite norm3_k. unfold rnorm. apply pos, sqrt_pos. }
  assert (Dl : 99 / 100 * L <= d) by (unfold uu in *; lra). assert (Dn : 99 / 100 * tiny <= d) by lra. assert (Dh : d <= 5 * H) by (unfold uu in *; lra).
  assert (Sh : 32 * uu * (gk_speed k B * gk_speed k B) <= gk_acc k B * d).
  { apply Rle_trans with (gk_acc k B * (99 / 100 * L)); [|apply Rmult_le_compat_l; lra]. assert (0 <= gk_speed k B * gk_speed k B) by apply Rle_0_sqr. unfold uu in *. lra. }
  exact (laid_sum _ _ _ _ _ Ac Dn Dh Vb Sp Hve Sh tv P).
Qed.
Lemma still_near A B dir pv ve segs ty : fine B -> near 0 (gk_pos k B) (gk_pos k A) -> (wE -> Rabs (ge k (gk_pos k B) - ge k (gk_pos k A)) <= 4 * M) -> (wE -> fine_extrusion A B) ->
  gget_norm_dir k (gconnect_state k A B) = Some dir -> inside (gpos_end k pv) -> 0 <= ve <= 2 * V ->
  gmove_maker2 k A B dir pv ve = Ok (segs, ty) -> moved_to dir (gpos_end k pv) (shift (gpos_end k pv) (gk_pos k A) (gk_pos k B)) segs.
Proof.
  intros FB N4 NM NE D (X & Y & Z & W) Hve E. assert (N := N4). destruct (still_dir A B dir N D) as (dX & dY & dZ). destruct (maker_legs _ _ _ _ _ _ _ E) as (tv & all & P & G & -> & Le).
  pose proof H0. assert (u0 : 0 < uu * H) by (apply Rmult_lt_0_compat; [unfold uu; lra|assumption]).
  apply moved_from with tv; [exact G|exact Le| |].
  - destruct N as (Nx & Ny & Nz). apply abs_inv in Nx, Ny, Nz. pose proof (legs_length _ _ _ _ G) as Ll. rewrite <- Ll in Le. rewrite <- (map_length fst) in Le.
    assert (F : forall c, c = 0 -> Forall (fun t => Rabs (c * t) <= 11 * H) (map fst tv)). { intros c ->. apply Forall_forall. intros t _. rewrite Rmult_0_l, Rabs_R0. lra. }
    pose proof (axis_moved _ _ _ X Le (F _ dX)) as Ax. pose proof (axis_moved _ _ _ Y Le (F _ dY)) as Ay. pose proof (axis_moved _ _ _ Z Le (F _ dZ)) as Az.
    split.
    + unfold near. rewrite arrive_x, arrive_y, arrive_z. cbn [shift gx gy gz]. rewrite dX, Rmult_0_l in Ax. rewrite dY, Rmult_0_l in Ay. rewrite dZ, Rmult_0_l in Az. apply abs_inv in Ax, Ay, Az.
      rewrite dX, dY, dZ. split; [|split]; apply Rabs_le; lra.
    + intros w. specialize (W w). specialize (NM w). destruct (NE w) as [NE' _]. destruct (NE' N4) as [E0|[E1 E2]]; [contradiction (no_dir A B dir N4 E0 D)|].
      destruct (x_d A B N4 E1) as (d & Ed & Nd). rewrite Ed in P. cbn [fst] in P.
      destruct (profile_sum B _ d pv ve tv FB (conj E1 NM) Nd E2 Hve P) as (T1 & T2 & _).
      rewrite arrive_e. cbn [shift ge]. pose proof tiny_lt. eapply (move_axis _ _ (Rabs (ge k (gk_pos k B) - ge k (gk_pos k A))) d); [lra|apply Rle_refl|exact (x_dir A B FB N4 E1 dir D)|exact Nd|exact T1|exact W|exact Le|exact T2].
  - intros v _. rewrite norm3_k. cbn [gvscale gx gy gz k_mul Bk]. rewrite dX, dY, dZ, !mul0, rnorm_0. pose proof gV. lra.
Qed.
Lemma move_near A B dir pv ve segs ty : fine A -> fine B -> tiny <= length3 A B -> 33 * uu * (gk_speed k B * gk_speed k B) <= gk_acc k B * length3 A B -> (wE -> fine_extrusion A B) ->
  gget_norm_dir k (gconnect_state k A B) = Some dir -> inside (gpos_end k pv) -> 0 <= ve <= 2 * V ->
  gmove_maker2 k A B dir pv ve = Ok (segs, ty) -> moved_to dir (gpos_end k pv) (shift (gpos_end k pv) (gk_pos k A) (gk_pos k B)) segs.
Proof.
  intros FA FB FL Fs NE D (X & Y & Z & W) Hve E. destruct (maker_legs _ _ _ _ _ _ _ E) as (tv & all & P & G & -> & Le).
  pose proof (d_near A B FL) as N1. pose proof (d_pos A B FL) as N2. pose proof (L_le A B FB FA) as N3.
  rewrite (d_is A B FL) in P. cbn [fst] in P.
  set (n1 := rnorm rnd _ _ _) in *.
  destruct (profile_sum B _ n1 pv ve tv FB (conj FL N3) N1 Fs Hve P) as (T1 & T2 & T3).
  apply moved_from with tv; [exact G|exact Le| |].
  - pose proof (legs_length _ _ _ _ G) as Ll. rewrite <- Ll in Le. rewrite <- (map_length fst) in Le.
    destruct (move_dir A B FB FL dir D) as (dX & dY & dZ & dE).
    destruct (on_axis (gx k (gk_pos k B) - gx k (gk_pos k A)) (gy k (gk_pos k B) - gy k (gk_pos k A)) (gz k (gk_pos k B) - gz k (gk_pos k A))) as (TX & TY & TZ).
    fold (length3 A B) in TX, TY, TZ. assert (L0 : 0 < length3 A B <= 4 * M) by lra. split.
    + unfold near. rewrite arrive_x, arrive_y, arrive_z. cbn [shift gx gy gz].
      split; [|split]; eapply move_axis; eassumption.
    + intros w. specialize (W w). destruct (NE w) as [_ NE']. specialize (NE' FL). specialize (dE NE'). rewrite arrive_e. cbn [shift ge]. eapply move_axis; eassumption.
  - intros v I. apply (vel_le A B FB FL dir v D). rewrite Forall_forall in T3. apply T3, I.
Qed.

(** * Speeds at the junctions *)
Lemma speed_ok B : fine B -> 0 < gk_speed k B <= V.
Proof. intros ((X & Y) & _). split; [|exact Y]. pose proof tiny_lt. lra. Qed.
Lemma JD_le v0 v1 acc jerk speed : 0 < speed <= V -> 0 <= gcalc_JD k v0 v1 acc jerk speed <= 2 * V.
Proof.
  intros S. unfold gcalc_JD. rewrite (dec_0 rnd r0). cbv zeta.
  destruct (k_eqb k jerk 0); [lra|]. destruct (_ || _); [lra|].
  match goal with |- context[k_ltb k ?s (k_sin_max k)] => set (t := s); clearbody t end.
  destruct (k_ltb k t (k_sin_max k)); [|lra]. destruct (k_ltb k (k_sin_min k) t); [|lra].
  match goal with |- context[k_ltb k ?s speed] => destruct (k_ltb k s speed) eqn:E end; [|lra].
  cbn [Bk k_ltb k_sqrt] in *. apply Rltb_iff in E. split; [apply pos, sqrt_pos|lra].
Qed.
Lemma kmin_le x y : kmin k x y <= y.
Proof. unfold kmin. cbn [Bk k_ltb]. destruct (Rltb y x) eqn:E; [lra|]. apply Rltb_nlt in E. lra. Qed.
Lemma klipper_le v0 v1 dist acc jerk speed : 0 < speed <= V -> 0 <= gcalc_klipper k v0 v1 dist acc jerk speed <= 2 * V.
Proof.
  intros S. unfold gcalc_klipper. rewrite (dec_0 rnd r0). cbv zeta.
  destruct (_ || _); [lra|]. destruct (k_ltb k _ _); [lra|].
  match goal with |- 0 <= k_sqrt k (kmin k ?x ?y) <= _ => pose proof (kmin_le x y) as K; set (m := kmin k x y) in * end.
  cbn [Bk k_sqrt k_mul] in *. split; [apply pos, sqrt_pos|].
  destruct c_eV as [eV eVV]. assert (S2 : 0 <= speed * speed <= V * V) by (split; [apply Rle_0_sqr|apply sq_le; lra]).
  pose proof (up_ rnd eta err _ (proj1 S2)) as U.
  assert (Q : sqrt m <= 15 / 10 * V). { apply sqrt_le_; [lra|]. replace (15 / 10 * V * (15 / 10 * V)) with (225 / 100 * (V * V)) by field. unfold uu in *. lra. }
  pose proof (up_ rnd eta err _ (sqrt_pos m)). unfold uu in *. lra.
Qed.
Lemma sq_scaled x s : 99 / 100 <= s -> rnd (x / s) * rnd (x / s) <= 214 / 100 * (x * x) + 3 * (eta * eta).
Proof.
  intros S. assert (G : Rabs (rnd (x / s)) <= 102 / 100 * Rabs x + eta).
  { assert (X : Rabs (x / s) <= 1011 / 1000 * Rabs x).
    { unfold Rdiv. rewrite Rabs_mult, (Rabs_right (/ s)) by (left; apply Rinv_0_lt_compat; lra). rewrite Rmult_comm. apply Rmult_le_compat_r; [apply Rabs_pos|].
      apply Rmult_le_reg_r with s; [lra|]. rewrite Rinv_l by lra. lra. }
    pose proof (rnd_abs rnd eta err (x / s) _ X). pose proof (Rabs_pos x). unfold uu in *. lra. }
  assert (Q : rnd (x / s) * rnd (x / s) <= (102 / 100 * Rabs x + eta) * (102 / 100 * Rabs x + eta)).
  { rewrite <- (Rabs_right (rnd (x / s) * rnd (x / s))) by (apply Rle_ge, Rle_0_sqr). rewrite Rabs_mult. apply sq_le; [apply Rabs_pos|exact G]. }
  assert (X2 : Rabs x * Rabs x = x * x) by (rewrite <- Rabs_mult; apply Rabs_right, Rle_ge, Rle_0_sqr).
  pose proof (Rle_0_sqr (102 / 100 * Rabs x - eta)) as P. unfold Rsqr in P. pose proof (Rle_0_sqr eta) as P2. unfold Rsqr in P2. pose proof (Rle_0_sqr x) as P3. unfold Rsqr in P3.
  replace (102 / 100 * Rabs x - eta) with (102 / 100 * Rabs x - eta) in P by ring.
  assert (P' : 2 * (102 / 100 * Rabs x * eta) <= 102 / 100 * (102 / 100) * (x * x) + eta * eta) by (rewrite <- X2; lra).
  assert (Q' : (102 / 100 * Rabs x + eta) * (102 / 100 * Rabs x + eta) = 102 / 100 * (102 / 100) * (x * x) + 2 * (102 / 100 * Rabs x * eta) + eta * eta) by (rewrite <- X2; ring). lra.
Qed.
Lemma target_norm (v0 : gvec k) : gx k v0 * gx k v0 + gy k v0 * gy k v0 + gz k v0 * gz k v0 <= 101 / 100 * V * (101 / 100 * V) -> 0 <= gnorm3 k v0 <= 103 / 100 * V.
Proof.
  intros Q. rewrite norm3_k. destruct c_eV as [eV eVV]. pose proof gV. destruct (rnorm_le rnd eta eta0 err pos _ _ _ (101 / 100 * V) ltac:(lra) Q) as [R1 R2]; [unfold uu in *; lra| |lra].
  replace (101 / 100 * V * (101 / 100 * V)) with (10201 / 10000 * (V * V)) by field. assert (0 <= V * V) by apply Rle_0_sqr. unfold uu in *. lra.
Qed.
Lemma jerk_le v0 v1 jerk : gx k v0 * gx k v0 + gy k v0 * gy k v0 + gz k v0 * gz k v0 <= 101 / 100 * V * (101 / 100 * V) -> 0 <= gcalc_jerk k v0 v1 jerk <= 2 * V.
Proof.
  intros Q. unfold gcalc_jerk. cbv zeta. set (s := if k_ltb k _ _ then _ else _). destruct (k_leb k (k1 k) s) eqn:E; [|pose proof (target_norm _ Q); lra].
  cbn [Bk k_leb] in E. apply Rleb_iff in E.
  assert (S : 99 / 100 <= s).
  { eapply Rle_trans; [|exact E]. change (k1 k) with (rnd (r_of_dec 1 0)). replace (r_of_dec 1 0) with 1 by (unfold r_of_dec; cbn; lra). pose proof (lo_ rnd eta err 1 ltac:(lra)). pose proof tt0. unfold uu in *. lra. }
  clearbody s. rewrite norm3_k. cbn [gvdiv gx gy gz k_div Bk] in *. destruct c_eV as [eV eVV]. pose proof gV. assert (V2 : 0 <= V * V) by apply Rle_0_sqr.
  pose proof (sq_scaled (gx k v0) s S). pose proof (sq_scaled (gy k v0) s S). pose proof (sq_scaled (gz k v0) s S).
  assert (ee : eta * eta <= V * V / 1000) by (replace (V * V / 1000) with (V * V * / 1000) by reflexivity; apply Rle_trans with (uu * V * (uu * V)); [apply sq_le; lra|unfold uu; lra]).
  destruct (rnorm_le rnd eta eta0 err pos (rnd (gx k v0 / s)) (rnd (gy k v0 / s)) (rnd (gz k v0 / s)) (15 / 10 * V)) as [R1 R2]; [lra| |unfold uu in *; lra| |split; [exact R1|lra]].
  - replace (15 / 10 * V * (15 / 10 * V)) with (225 / 100 * (V * V)) by field. replace (101 / 100 * V * (101 / 100 * V)) with (10201 / 10000 * (V * V)) in Q by field. lra.
  - replace (15 / 10 * V * (15 / 10 * V)) with (225 / 100 * (V * V)) by field. unfold uu in *. lra.
Qed.
Lemma axis_le jerk fac n st ax : 0 <= jerk -> (n = 0 \/ n = 1 \/ n = 2 \/ n = 3) ->
  (let '(vmax, vfac, lim) := st in 0 <= vmax <= (1 + n / 10) * (103 / 100 * V) /\ 0 <= vfac <= 1001 / 1000 + n / 100) ->
  let '(vmax, vfac, lim) := gmka_axis k jerk fac st ax in 0 <= vmax <= (1 + (n + 1) / 10) * (103 / 100 * V) /\ 0 <= vfac <= 1001 / 1000 + (n + 1) / 100.
Proof.
  intros J N. destruct st as [[vmax vfac] lim], ax as [ven vex]. intros [A B]. unfold gmka_axis. cbv zeta.
  set (j := gmka_jerk k _ _). clearbody j. destruct c_eV as [eV _]. pose proof gV. assert (D : eta <= / 1000000) by (pose proof tt0; unfold uu in *; lra).
  assert (G : forall f, 0 <= f <= 1001 / 1000 + (n + 1) / 100 -> 0 <= rnd (vmax * f) <= (1 + (n + 1) / 10) * (103 / 100 * V)).
  { intros f F. assert (P : 0 <= vmax * f <= (1 + n / 10) * (103 / 100 * V) * (1001 / 1000 + (n + 1) / 100)) by (split; [apply Rmult_le_pos; lra|apply Rmult_le_compat; lra]).
    split; [apply pos; lra|]. pose proof (up_ rnd eta err _ (proj1 P)). unfold uu in *. destruct N as [->|[->|[->| ->]]]; lra. }
  assert (G0 : 0 <= vmax <= (1 + (n + 1) / 10) * (103 / 100 * V)) by (destruct N as [->|[->|[->| ->]]]; lra).
  assert (G1 : 0 <= vfac <= 1001 / 1000 + (n + 1) / 100) by lra.
  cbn [Bk k_ltb k_mul k_div]. destruct (Rltb jerk j) eqn:E.
  - apply Rltb_iff in E. assert (Q : 0 <= jerk / j <= 1).
    { split; [apply Rmult_le_pos; [exact J|left; apply Rinv_0_lt_compat; lra]|]. apply Rmult_le_reg_r with j; [lra|]. unfold Rdiv. rewrite Rmult_assoc, Rinv_l by lra. lra. }
    assert (Q' : 0 <= rnd (jerk / j) <= 1001 / 1000). { split; [apply pos; lra|]. pose proof (up_ rnd eta err _ (proj1 Q)). unfold uu in *. lra. }
    assert (P : 0 <= vfac * rnd (jerk / j) <= (1001 / 1000 + n / 100) * (1001 / 1000)) by (split; [apply Rmult_le_pos; lra|apply Rmult_le_compat; lra]).
    assert (F : 0 <= rnd (vfac * rnd (jerk / j)) <= 1001 / 1000 + (n + 1) / 100). { split; [apply pos; lra|]. pose proof (up_ rnd eta err _ (proj1 P)). unfold uu in *. destruct N as [->|[->|[->| ->]]]; lra. }
    split; [apply G, F|exact F].
  - split; [|exact G1]. destruct lim; [apply G, G1|exact G0].
Qed.
Lemma mka_le v0 v1 jerk : 0 <= jerk -> gx k v0 * gx k v0 + gy k v0 * gy k v0 + gz k v0 * gz k v0 <= 101 / 100 * V * (101 / 100 * V) -> 0 <= gcalc_mka k v0 v1 jerk <= 2 * V.
Proof.
  intros J Q. unfold gcalc_mka. cbv zeta. pose proof (target_norm _ Q) as N.
  assert (N1 : 0 <= kmin k (gnorm3 k v0) (gnorm3 k v1) <= 103 / 100 * V).
  { unfold kmin. cbn [Bk k_ltb]. destruct (Rltb _ _) eqn:E; [apply Rltb_iff in E; split; [|lra]|exact N]. rewrite norm3_k. unfold rnorm. apply pos, sqrt_pos. }
  set (m := kmin k _ _) in *. clearbody m. set (fac := if k_ltb k _ _ then _ else _). clearbody fac. cbn [fold_left].
  assert (I0 : 0 <= m <= (1 + 0 / 10) * (103 / 100 * V) /\ 0 <= k1 k <= 1001 / 1000 + 0 / 100).
  { split; [lra|]. change (k1 k) with (rnd (r_of_dec 1 0)). replace (r_of_dec 1 0) with 1 by (unfold r_of_dec; cbn; lra). split; [apply pos; lra|]. pose proof (up_ rnd eta err 1 ltac:(lra)). pose proof tt0. unfold uu in *. lra. }
  pose proof (axis_le jerk fac 0 (m, k1 k, false) (gx k v0, gx k v1) J ltac:(auto) I0) as I1. set (s1 := gmka_axis k jerk fac _ _) in *. clearbody s1.
  pose proof (axis_le jerk fac 1 s1 (gy k v0, gy k v1) J ltac:(auto)) as I2. set (s2 := gmka_axis k jerk fac s1 _) in *. clearbody s2.
  pose proof (axis_le jerk fac 2 s2 (gz k v0, gz k v1) J ltac:(auto)) as I3. set (s3 := gmka_axis k jerk fac s2 _) in *. clearbody s3.
  pose proof (axis_le jerk fac 3 s3 (ge k v0, ge k v1) J ltac:(auto)) as I4. set (s4 := gmka_axis k jerk fac s3 _) in *. clearbody s4.
  destruct s1 as [[a1 b1] c1], s2 as [[a2 b2] c2], s3 as [[a3 b3] c3], s4 as [[a4 b4] c4]. cbn [fst].
  rewrite Rplus_0_l in I1. specialize (I2 I1). replace (1 + 1) with 2 in I2 by ring. specialize (I3 I2). replace (2 + 1) with 3 in I3 by ring. specialize (I4 I3). lra.
Qed.
Lemma junction_le fw A B rest : fine B -> near 0 (gk_pos k B) (gk_pos k A) \/ tiny <= length3 A B -> 0 <= gjunction_vel k fw (gmk_junction k (Some A) B rest) B <= 2 * V.
Proof.
  intros FB FL. pose proof (speed_ok B FB) as S.
  assert (Q : let c := gconnect_state k A B in gx k c * gx k c + gy k c * gy k c + gz k c * gz k c <= 101 / 100 * V * (101 / 100 * V)).
  { destruct FL as [FL|FL]; [|exact (connect_sq A B FB FL)]. destruct (still_connect A B FL) as (X & Y & Z). cbv zeta. rewrite X, Y, Z. pose proof (Rle_0_sqr (101 / 100 * V)) as P. unfold Rsqr in P. lra. }
  destruct FB as (_ & _ & J & _).
  destruct fw; cbn [gjunction_vel].
  - apply JD_le, S.
  - apply klipper_le, S.
  - apply jerk_le, Q.
  - apply mka_le; [exact J|exact Q].
  - rewrite (dec_0 rnd r0). pose proof gV. lra.
Qed.

(** * Lists of blocks *)
Section Blocks.
Variable ks : list (gkstate k).
Hypothesis Hfine : forall n A, nth_error ks n = Some A -> fine A.
Hypothesis Hstep : forall n A B, nth_error ks n = Some A -> nth_error ks (S n) = Some B -> fine_step A B.
Hypothesis HfineE : wE -> forall n A, nth_error ks n = Some A -> Rabs (ge k (gk_pos k A)) <= M.
Hypothesis HstepE : wE -> forall n A B, nth_error ks n = Some A -> nth_error ks (S n) = Some B -> fine_extrusion A B.
Hypothesis HN : INR (length ks) * (2 * eps) <= M.
Lemma eps0 : 0 < eps. Proof. unfold eps. apply Rmult_lt_0_compat; [unfold uu; lra|apply H0]. Qed.
Definition block_ok (i : nat) (b : gblock k) : Prop :=
  nth_error ks i = Some (gb_A k b) /\ nth_error ks (S i) = Some (gb_B k b) /\
  (forall d, gb_dir k b = Some d -> gget_norm_dir k (gconnect_state k (gb_A k b) (gb_B k b)) = Some d) /\
  exists f l, gfirst_seg k (gb_segs k b) = Ok f /\ glast_seg k (gb_segs k b) = Ok l /\
    nearw (INR i * (2 * eps) + eps) (gpos_begin k f) (gk_pos k (gb_A k b)) /\
    nearw (INR (S i) * (2 * eps)) (gpos_end k l) (gk_pos k (gb_B k b)) /\
    0 <= gnorm3 k (gvel_begin k f) <= 2 * V.
Definition link (j n : nat) : Prop :=
  (j < n)%nat /\ exists P Q, nth_error ks (S j) = Some P /\ nth_error ks n = Some Q /\ nearw (INR (n - S j) * (2 * eps)) (gk_pos k P) (gk_pos k Q).
Fixpoint linked (idx : list nat) : Prop :=
  match idx with
  | i :: r => match r with j :: _ => link j i | [] => True end /\ linked r
  | [] => True
  end.
Definition links_to (n : nat) (idx : list nat) : Prop := match idx with [] => True | j :: _ => link j n end.
Lemma linked_app x y : linked (x ++ y) -> linked y.
Proof. induction x as [|i x IH]; intros G; [exact G|]. apply IH. destruct G as [_ G]. exact G. Qed.
Lemma inside_near n A p : nth_error ks n = Some A -> nearw (INR n * (2 * eps)) p (gk_pos k A) -> inside p.
Proof.
  intros E N. assert (L : (n < length ks)%nat) by (apply nth_error_Some; rewrite E; discriminate).
  destruct (Hfine _ _ E) as (_ & _ & _ & X & Y & Z). destruct N as ((NX & NY & NZ) & NE). apply lt_INR in L. pose proof eps0.
  assert (Q : INR n * (2 * eps) <= M) by (eapply Rle_trans; [|exact HN]; apply Rmult_le_compat_r; lra).
  apply abs_inv in X, Y, Z, NX, NY, NZ. split; [|split; [|split]]; [apply Rabs_le; lra..|]. intros W. specialize (NE W). pose proof (HfineE W _ _ E) as EE. apply abs_inv in NE, EE. apply Rabs_le. lra.
Qed.
Lemma prev_near n A idx done pv : nth_error ks n = Some A -> Forall2 block_ok idx done -> links_to n idx -> gprevious_segment k A (hd_error done) = Ok pv ->
  nearw (INR n * (2 * eps)) (gpos_end k pv) (gk_pos k A).
Proof.
  intros E F Lk P. pose proof eps0. destruct F as [|j b idx done Bk F].
  - injection P as <-. cbn [gcreate_initial gpos_end]. apply near_refl, Rmult_le_pos; [apply pos_INR|lra].
  - cbn [hd_error gprevious_segment] in P. destruct Bk as (_ & EB & _ & f & l & _ & EL & _ & NL & _). rewrite EL in P. injection P as <-.
    destruct Lk as (Lt & P & Q & EP & EQ & N). rewrite EB in EP. injection EP as <-. rewrite E in EQ. injection EQ as <-.
    pose proof (near_trans _ _ _ _ _ NL N) as T. apply (near_le _ _ _ _ T). rewrite <- Rmult_plus_distr_r, <- plus_INR. replace (S j + (n - S j))%nat with n by lia. lra.
Qed.
Lemma make_near n A B d pv ve segs ty : nth_error ks n = Some A -> nth_error ks (S n) = Some B -> gget_norm_dir k (gconnect_state k A B) = Some d ->
  nearw (INR n * (2 * eps)) (gpos_end k pv) (gk_pos k A) -> 0 <= ve <= 2 * V -> gmove_maker2 k A B d pv ve = Ok (segs, ty) ->
  moved_to d (gpos_end k pv) (shift (gpos_end k pv) (gk_pos k A) (gk_pos k B)) segs.
Proof.
  intros EA EB D N Hve E. pose proof (inside_near n A _ EA N) as I. destruct (Hstep _ _ _ EA EB) as [_ [S|[S1 S2]]].
  - refine (still_near A B d pv ve segs ty (Hfine _ _ EB) S _ (fun W => HstepE W _ _ _ EA EB) D I Hve E).
    intros W. pose proof (HfineE W _ _ EA) as GA. pose proof (HfineE W _ _ EB) as GB. apply abs_inv in GA, GB. apply Rabs_le. pose proof tiny_lt. lra.
  - exact (move_near A B d pv ve segs ty (Hfine _ _ EA) (Hfine _ _ EB) S1 S2 (fun W => HstepE W _ _ _ EA EB) D I Hve E).
Qed.
Lemma shift_near e (p A B : gvec k) : nearw e p A -> nearw e (shift p A B) B.
Proof.
  intros ((X & Y & Z) & W). apply abs_inv in X, Y, Z. split; [split; [|split]|intros w; specialize (W w); apply abs_inv in W]; cbn [shift gx gy gz ge]; apply Rabs_le; lra.
Qed.
Lemma made_ok n A B dir d pv segs ty x v : nth_error ks n = Some A -> nth_error ks (S n) = Some B ->
  (forall d', dir = Some d' -> gget_norm_dir k (gconnect_state k A B) = Some d') ->
  nearw (INR n * (2 * eps)) (gpos_end k pv) (gk_pos k A) -> moved_to d (gpos_end k pv) (shift (gpos_end k pv) (gk_pos k A) (gk_pos k B)) segs -> segs <> [] ->
  block_ok n (GBlock k A B dir segs ty x v).
Proof.
  intros EA EB D N (_ & M2 & M3) NE. pose proof eps0. unfold block_ok. cbn [gb_A gb_B gb_dir gb_segs]. split; [exact EA|]. split; [exact EB|]. split; [exact D|].
  destruct segs as [|f r]; [contradiction NE; reflexivity|]. destruct (M2 f r eq_refl) as [B1 B2].
  destruct (glast_seg k (f :: r)) as [l|] eqn:EL.
  2:{ exfalso. unfold glast_seg in EL. destruct (rev (f :: r)) eqn:Q; [|discriminate]. apply (f_equal (@length _)) in Q. rewrite rev_length in Q. discriminate. }
  exists f, l. split; [reflexivity|]. split; [reflexivity|]. split; [|split; [|exact B2]].
  - pose proof (near_trans _ _ _ _ _ B1 N) as T. apply (near_le _ _ _ _ T). lra.
  - pose proof (near_trans _ _ _ _ _ (M3 l ltac:(discriminate) eq_refl) (shift_near _ _ _ _ N)) as T. apply (near_le _ _ _ _ T). rewrite S_INR. lra.
Qed.
Lemma next_link n A B idx : nth_error ks n = Some A -> nth_error ks (S n) = Some B -> nearw (2 * eps) (gk_pos k A) (gk_pos k B) -> links_to n idx -> links_to (S n) idx.
Proof.
  intros EA EB N. destruct idx as [|j idx]; [auto|]. intros (Lt & P & Q & EP & EQ & G). rewrite EA in EQ. injection EQ as <-. split; [lia|]. exists P, B. split; [exact EP|]. split; [exact EB|].
  pose proof (near_trans _ _ _ _ _ G N) as T. apply (near_le _ _ _ _ T). replace (S n - S j)%nat with (S (n - S j)) by lia. rewrite S_INR. lra.
Qed.
Lemma own_link n B : nth_error ks (S n) = Some B -> link n (S n).
Proof. intros E. split; [lia|]. exists B, B. split; [exact E|]. split; [exact E|]. rewrite Nat.sub_diag. cbn [INR]. apply near_refl. lra. Qed.
Lemma still_near2 n A B : nth_error ks n = Some A -> nth_error ks (S n) = Some B -> near 0 (gk_pos k B) (gk_pos k A) ->
  gget_norm_dir k (gconnect_state k A B) = None \/ gnot_zero k (gconnect_state k A B) = false -> nearw (2 * eps) (gk_pos k A) (gk_pos k B).
Proof.
  intros EA EB N Hb. pose proof eps0. apply near_sym. split.
  - destruct N as (X & Y & Z). split; [|split]; lra.
  - intros W. destruct (HstepE W _ _ _ EA EB) as [NE _]. destruct (NE N) as [E0|[E1 E2]]; [rewrite E0, Rminus_diag_eq, Rabs_R0 by reflexivity; lra|].
    destruct (x_not_zero A B (Hfine _ _ EB) N E1) as [Z1 Z2]. destruct Hb; [contradiction|congruence].
Qed.
Lemma moving_not_zero A B : fine B -> tiny <= length3 A B -> gnot_zero k (gconnect_state k A B) = true /\ gget_norm_dir k (gconnect_state k A B) <> None.
Proof.
  intros FB FL. pose proof (v_pos A B FB FL) as P. pose proof (c_v0 B FB) as v0. assert (vt : tiny <= gk_speed k B) by apply FB. pose proof (connect_norm A B FL) as CN. split.
  - unfold gnot_zero. rewrite (dec_0 rnd r0). cbn [Bk k_ltb]. apply Rltb_true.
    set (c := gconnect_state k A B) in *. rewrite <- CN in P. unfold gnorm3 in P. unfold gnorm4. cbn [Bk k_sqrt k_add k_mul] in *.
    set (Sq := rnd (rnd (rnd (gx _ c * gx _ c) + rnd (gy _ c * gy _ c)) + rnd (gz _ c * gz _ c))) in *.
    assert (S0 : 0 <= Sq). { unfold Sq. apply pos, Rplus_le_le_0_compat; [apply pos, Rplus_le_le_0_compat|]; apply pos, Rle_0_sqr. }
    assert (W0 : 0 <= rnd (ge _ c * ge _ c)) by (apply pos, Rle_0_sqr). pose proof tt0.
    pose proof (up_ rnd eta err _ (sqrt_pos Sq)) as U. assert (R : 9 / 10 * tiny <= sqrt Sq) by (unfold uu in *; lra).
    assert (R2 : 81 / 100 * (tiny * tiny) <= Sq). { rewrite <- (sqrt_sqrt Sq S0). replace (81 / 100 * (tiny * tiny)) with (9 / 10 * tiny * (9 / 10 * tiny)) by field. apply sq_le; [lra|exact R]. }
    assert (R3 : 64 / 100 * (tiny * tiny) <= rnd (Sq + rnd (ge _ c * ge _ c))). { pose proof (lo_ rnd eta err (Sq + rnd (ge _ c * ge _ c)) ltac:(lra)). unfold uu in *. lra. }
    assert (R4 : 8 / 10 * tiny <= sqrt (rnd (Sq + rnd (ge _ c * ge _ c)))). { apply le_sqrt; lra. }
    pose proof (lo_ rnd eta err _ (sqrt_pos (rnd (Sq + rnd (ge _ c * ge _ c))))). unfold uu in *. lra.
  - unfold gget_norm_dir. rewrite CN, (dec_0 rnd r0). cbn [Bk k_ltb]. match goal with |- context[Rltb 0 ?x] => rewrite (Rltb_true 0 x) by lra end. discriminate.
Qed.
Definition laid (n : nat) (idx : list nat) (done : list (gblock k)) : Prop := Forall2 block_ok idx done /\ linked idx /\ links_to n idx.
Lemma shift_back e (p A B : gvec k) : nearw e p (shift p A B) -> nearw e A B.
Proof.
  intros ((X & Y & Z) & W). cbn [shift gx gy gz ge] in *. apply abs_inv in X, Y, Z. split; [split; [|split]|intros w; specialize (W w); apply abs_inv in W]; apply Rabs_le; lra.
Qed.
Lemma add_ok n A B idx done b : nth_error ks n = Some A -> nth_error ks (S n) = Some B -> laid n idx done -> block_ok n b -> laid (S n) (n :: idx) (gadd_block k (Some b) done).
Proof.
  intros EA EB (F & L & T) G. destruct G as (G1 & G2 & G3 & f & l & Gf & Gl & G4) eqn:Q. clear Q.
  cbn [gadd_block]. destruct (gb_segs k b) as [|g r] eqn:S; [discriminate|]. split; [|split].
  - constructor; [|exact F]. unfold block_ok. rewrite S. eauto 10.
  - split; [exact T|exact L].
  - exact (own_link n B EB).
Qed.
Lemma zero_norm : gnorm3 k (gzero k) = 0.
Proof. rewrite norm3_k. unfold gzero. rewrite (dec_0 rnd r0). apply rnorm_0. Qed.
Lemma plan_step fw n A B rest idx done ob : nth_error ks n = Some A -> nth_error ks (S n) = Some B -> laid n idx done ->
  gplanner_block k fw (Some A) B rest (hd_error done) = Ok ob -> exists idx', laid (S n) idx' (gadd_block k ob done).
Proof.
  intros EA EB LD E. unfold gplanner_block in E. destruct (k_leb k (gk_acc k B) (k0 k)); [discriminate|]. cbv zeta in E.
  change (gtarget_vel k (gmk_junction k (Some A) B rest)) with (gconnect_state k A B) in E.
  apply bind_inv in E. destruct E as (b & Eb & E). assert (F := LD). destruct F as (F & L & T). pose proof eps0 as e0.
  assert (Hb : match b with
               | None => gget_norm_dir k (gconnect_state k A B) = None \/ gnot_zero k (gconnect_state k A B) = false
               | Some b => exists d pv segs ty x v, gget_norm_dir k (gconnect_state k A B) = Some d /\ nearw (INR n * (2 * eps)) (gpos_end k pv) (gk_pos k A) /\
                   moved_to d (gpos_end k pv) (shift (gpos_end k pv) (gk_pos k A) (gk_pos k B)) segs /\ b = GBlock k A B (Some d) segs ty x v
               end).
  { destruct (gget_norm_dir k (gconnect_state k A B)) as [d|] eqn:D; [|injection Eb as <-; auto].
    destruct (gnot_zero k (gconnect_state k A B)); [|injection Eb as <-; auto].
    apply bind_inv in Eb. destruct Eb as (pv & Ep & Eb). apply bind_inv in Eb. destruct Eb as ((segs & ty) & Em & Eb). injection Eb as <-.
    pose proof (prev_near n A idx done pv EA F T Ep) as N. exists d, pv, segs. do 3 eexists. split; [reflexivity|]. split; [exact N|]. split; [|reflexivity].
    eapply (make_near n A B d pv); [exact EA|exact EB|exact D|exact N| |exact Em]. apply (junction_le fw A B rest (Hfine _ _ EB)). destruct (Hstep _ _ _ EA EB) as [_ [S|[S _]]]; auto. }
  destruct (gk_pause k B) as [w|] eqn:W.
  - destruct (hd_error done) as [pb|] eqn:Hd; [|discriminate]. apply bind_inv in E. destruct E as (pv & Ep & E). apply bind_inv in E. destruct E as (s & Es & E). apply mk_ok in Es.
    assert (N : nearw (INR n * (2 * eps)) (gpos_end k pv) (gk_pos k A)). { apply (prev_near n A idx done pv EA F T). rewrite Hd. exact Ep. }
    destruct (Hstep _ _ _ EA EB) as [St _]. rewrite W in St. specialize (St ltac:(discriminate)).
    assert (G : forall dir ty x v, (forall d', dir = Some d' -> gget_norm_dir k (gconnect_state k A B) = Some d') -> block_ok n (GBlock k A B dir [s] ty x v)).
    { intros dir ty x v Hd'. unfold block_ok. cbn [gb_A gb_B gb_dir gb_segs]. split; [exact EA|]. split; [exact EB|]. split; [exact Hd'|].
      exists s, s. split; [reflexivity|]. split; [reflexivity|]. subst s. cbn [gpos_begin gpos_end gvel_begin]. rewrite St, zero_norm. pose proof gV. split; [apply (near_le _ _ _ _ N); lra|]. split; [|lra].
      apply (near_le _ _ _ _ N). rewrite S_INR. lra. }
    destruct b as [b|].
    + destruct Hb as (d & pv' & segs & ty & x & v & D & _ & _ & ->). injection E as <-. exists (n :: idx). apply (add_ok n A B); try assumption. cbn [gb_A gb_B gb_dir gb_type gb_extr]. apply G. congruence.
    + injection E as <-. exists (n :: idx). apply (add_ok n A B); try assumption. apply G. discriminate.
  - injection E as <-. destruct b as [b|].
    + destruct Hb as (d & pv & segs & ty & x & v & D & N & Mv & ->). destruct segs as [|f r].
      * exists idx. cbn [gadd_block gb_segs]. split; [exact F|]. split; [exact L|]. apply (next_link n A B); try assumption.
        destruct Mv as (M1 & _ & _). pose proof (shift_back _ _ _ _ (M1 eq_refl)) as Z. apply (near_le _ _ _ _ Z). lra.
      * exists (n :: idx). apply (add_ok n A B); try assumption. eapply made_ok; try eassumption; [congruence|discriminate].
    + exists idx. cbn [gadd_block]. split; [exact F|]. split; [exact L|]. apply (next_link n A B); try assumption.
      destruct (Hstep _ _ _ EA EB) as [_ [S|[S1 S2]]]; [exact (still_near2 n A B EA EB S Hb)|].
      destruct (moving_not_zero A B (Hfine _ _ EB) S1) as [Z1 Z2]. destruct Hb as [Hb|Hb]; [contradiction|congruence].
Qed.
Lemma gen_ok fw states : forall n A idx done bl, nth_error ks n = Some A -> (forall i, nth_error states i = nth_error ks (S n + i)) -> laid n idx done ->
  ggen_blocks k fw (Some A) states done = Ok bl -> exists idx', laid (n + length states) idx' (rev bl).
Proof.
  induction states as [|B states IH]; intros n A idx done bl EA Ht LD E.
  - injection E as <-. exists idx. rewrite rev_involutive. cbn [length]. rewrite Nat.add_0_r. exact LD.
  - cbn [ggen_blocks] in E. apply bind_inv in E. destruct E as (ob & E1 & E2).
    assert (EB : nth_error ks (S n) = Some B). { rewrite <- (Nat.add_0_r (S n)), <- Ht. reflexivity. }
    destruct (plan_step fw n A B states idx done ob EA EB LD E1) as (idx' & LD'). cbn [length]. rewrite <- Nat.add_succ_comm. apply (IH (S n) B idx' (gadd_block k ob done)); try assumption.
    intros i. rewrite (Ht (S i)) || specialize (Ht (S i)); cbn [nth_error] in *. rewrite Ht. f_equal. lia.
Qed.
Lemma shifted_ok i dt b : block_ok i b -> block_ok i (gtimeshift k dt b).
Proof.
  intros (E1 & E2 & E3 & f & l & Ef & El & G). unfold block_ok, gtimeshift, gset_segs. cbn [gb_A gb_B gb_dir gb_segs]. split; [exact E1|]. split; [exact E2|]. split; [exact E3|].
  exists (gmove_segment_time k dt f), (gmove_segment_time k dt l). split; [|split; [|exact G]].
  - destruct (gb_segs k b); [discriminate|]. injection Ef as ->. reflexivity.
  - unfold glast_seg in *. rewrite <- map_rev. destruct (rev (gb_segs k b)); [discriminate|]. injection El as ->. reflexivity.
Qed.
Lemma remade_ok i b prevs ip ve b1 : block_ok i b -> Forall2 block_ok ip prevs -> links_to i ip -> 0 <= ve <= 2 * V -> gremake k prevs b ve = Ok b1 -> gb_segs k b1 <> [] -> block_ok i b1.
Proof.
  intros (E1 & E2 & E3 & _) F T Hve E NE. unfold gremake in E. destruct (gb_dir k b) as [d|] eqn:D; [|discriminate].
  apply bind_inv in E. destruct E as (pv & Ep & E). apply bind_inv in E. destruct E as ((segs & ty) & Em & E). injection E as <-.
  pose proof (prev_near i _ ip prevs pv E1 F T Ep) as N. cbn [gset_segs gb_segs] in NE. unfold gset_segs. rewrite D.
  eapply made_ok; try eassumption. eapply make_near; try eassumption. apply E3; reflexivity.
Qed.
Lemma corrected_ok prevs : forall ip ib i b n prevs1 b1 n1 w, Forall2 block_ok ip prevs -> block_ok ib b -> block_ok i n -> linked (i :: ib :: ip) ->
  gself_correction k prevs b n = Ok (prevs1, b1, n1, w) -> Forall2 block_ok ip prevs1 /\ block_ok ib b1 /\ block_ok i n1.
Proof.
  induction prevs as [|p ps IH]; intros ip ib i b n prevs1 b1 n1 w F Gb Gn L E; cbn [gself_correction] in E;
    apply bind_inv in E; destruct E as (s & Es & E); apply bind_inv in E; destruct E as (m & Em & E); apply bind_inv in E; destruct E as (((prevs0 & b0) & w0) & E1 & E);
    apply bind_inv in E; destruct E as (s1 & Es1 & E); apply bind_inv in E; destruct E as (m1 & Em1 & E); apply bind_inv in E; destruct E as (u & Eu & E); injection E as <- <- <- <-.
  - assert (NE : gb_segs k b0 <> []) by (intros Z; rewrite Z in Es1; discriminate).
    assert (Ve : 0 <= gnorm3 k (gvel_begin k m) <= 2 * V). { destruct Gn as (_ & _ & _ & f & l & Ef & _ & _ & _ & G). rewrite Em in Ef. injection Ef as <-. exact G. }
    destruct (gflag_correct k s m).
    + apply bind_inv in E1. destruct E1 as (b' & Eb & E1). assert (Z : (prevs0, b0) = ([], b')).
      { destruct (gb_type k b') as [[]|]; try discriminate; injection E1 as <- <- _; reflexivity. }
      injection Z as -> ->. split; [exact F|]. split; [|apply shifted_ok, Gn].
      eapply remade_ok; try eassumption. destruct L as (_ & L & _). exact L.
    + injection E1 as <- <- _. split; [exact F|]. split; [exact Gb|apply shifted_ok, Gn].
  - assert (NE : gb_segs k b0 <> []) by (intros Z; rewrite Z in Es1; discriminate).
    assert (Ve : 0 <= gnorm3 k (gvel_begin k m) <= 2 * V). { destruct Gn as (_ & _ & _ & f & l & Ef & _ & _ & _ & G). rewrite Em in Ef. injection Ef as <-. exact G. }
    assert (Lb : links_to ib ip) by (destruct L as (_ & L & _); exact L).
    destruct (gflag_correct k s m).
    + apply bind_inv in E1. destruct E1 as (b' & Eb & E1).
      assert (Hs : gb_type k b' = Some Single \/ (prevs0, b0) = (p :: ps, b')). { destruct (gb_type k b') as [[]|]; auto; right; injection E1 as <- <- _; reflexivity. }
      destruct Hs as [Hs|Hs].
      * rewrite Hs in E1. apply bind_inv in E1. destruct E1 as ((((ps' & p') & b2) & w2) & Er & E1). injection E1 as <- <- _.
        inversion F as [|j p0 ip' ps0 Gp F' Q1 Q2]. subst.
        assert (NE' : gb_segs k b' <> []). { intros Z. assert (X : exists e, gself_correction k ps p b' = Err e).
          { destruct ps; cbn [gself_correction]; rewrite Z; destruct (glast_seg k (gb_segs k p)); cbn [bind gfirst_seg]; eauto. }
          destruct X as [e X]. rewrite X in Er. discriminate. }
        pose proof (remade_ok ib b _ _ _ b' Gb F Lb Ve Eb NE') as Gb'.
        destruct L as (_ & L). destruct (IH ip' j ib p b' ps' p' b2 w2 F' Gp Gb' L Er) as (F2 & Gp2 & Gb2).
        split; [constructor; assumption|]. split; [exact Gb2|apply shifted_ok, Gn].
      * injection Hs as -> ->. split; [exact F|]. split; [|apply shifted_ok, Gn]. eapply remade_ok; eassumption.
    + injection E1 as <- <- _. split; [exact F|]. split; [exact Gb|apply shifted_ok, Gn].
Qed.
Lemma correct_ok rest : forall ip ib ir prevs b bl w, Forall2 block_ok ip prevs -> block_ok ib b -> Forall2 block_ok ir rest -> linked (rev ir ++ ib :: ip) ->
  gcorrect_from k prevs b rest = Ok (bl, w) -> Forall2 block_ok (rev ip ++ ib :: ir) bl.
Proof.
  induction rest as [|n rest IH]; intros ip ib ir prevs b bl w F Gb Fr L E.
  - injection E as <- _. inversion Fr. subst. cbn [rev]. change (rev prevs ++ [b]) with (rev (b :: prevs)). change (rev ip ++ [ib]) with (rev (ib :: ip)). apply Forall2_rev_. constructor; assumption.
  - cbn [gcorrect_from] in E. apply bind_inv in E. destruct E as ((((prevs1 & b1) & n1) & w1) & E1 & E). apply bind_inv in E. destruct E as ((bl1 & w2) & E2 & E). injection E as <- _.
    inversion Fr as [|i n0 ir' rest0 Gn Fr' Q1 Q2]. subst. cbn [rev] in L. rewrite <- app_assoc in L. cbn [app] in L.
    destruct (corrected_ok prevs ip ib i b n prevs1 b1 n1 w1 F Gb Gn (linked_app _ _ L) E1) as (F1 & Gb1 & Gn1).
    pose proof (IH (ib :: ip) i ir' (b1 :: prevs1) n1 bl1 w2 ltac:(constructor; assumption) Gn1 Fr' L E2) as G. cbn [rev] in G. rewrite <- app_assoc in G. exact G.
Qed.
Lemma simulated_ok fw s0 rest bl w : ks = s0 :: rest -> gsimulate k fw ks = Ok (bl, w) -> exists idx, Forall2 block_ok idx bl /\ links_to (length rest) (rev idx).
Proof.
  intros K E. unfold gsimulate, ggenerate_planner_blocks in E. apply bind_inv in E. destruct E as (bl0 & E0 & E). rewrite K in E0. cbn [ggen_blocks] in E0.
  apply bind_inv in E0. destruct E0 as (ob & Eo & E0).
  assert (O : ob = None).
  { unfold gplanner_block in Eo. destruct (k_leb k (gk_acc k s0) (k0 k)); [discriminate|]. cbn [hd_error bind] in Eo. destruct (gk_pause k s0); [discriminate|]. congruence. }
  subst ob. cbn [gadd_block] in E0.
  destruct (gen_ok fw rest 0 s0 [] [] bl0) as (idx & F & L & T); [rewrite K; reflexivity|intros i; rewrite K; reflexivity|split; [constructor|split; exact I]|exact E0|].
  cbn [plus] in T. exists (rev idx). rewrite rev_involutive. split; [|exact T].
  apply Forall2_rev_ in F. rewrite rev_involutive in F. unfold gtrajectory_self_correct in E.
  assert (L' : linked (rev (rev idx))) by (rewrite rev_involutive; exact L). destruct F as [|i b ir rest0 Gb F].
  - injection E as <- _. constructor.
  - exact (correct_ok rest0 [] i ir [] b bl w ltac:(constructor) Gb F L' E).
Qed.
End Blocks.
End Plan.
