(** A machine that stops after every line, with rounded operations. *)
From Coq Require Import Reals Lra Lia.
From Verif Require Import Py Vec RealFacts StateGen Junction Planner SpecKin SpecTime Generic SpecGeneric SpecDrift SpecStop FloatMoveProofs FloatDriftProofs FloatPlanProofs StopTimeFacts.
Open Scope R_scope.

Section Stop.
Variables (rnd : R -> R) (eta : R).
Hypothesis eta0 : 0 <= eta.
Hypothesis err : forall x, Rabs (rnd x - x) <= uu * Rabs x + eta.
Hypothesis pos : forall x, 0 <= x -> 0 <= rnd x.
Hypothesis neg : forall x, x <= 0 -> rnd x <= 0.
Hypothesis r0 : rnd 0 = 0.
Hypothesis r2 : rnd 2 = 2.
Hypothesis mono : forall x y, x <= y -> rnd x <= rnd y.
Hypothesis idem : forall x, rnd (rnd x) = rnd x.
Hypothesis tiny_lt : 0 < tiny <= / 1000000000000.
Hypothesis eta_lt : eta <= uu * uu * uu * (tiny * tiny) / 1000000.
Notation k := (Bk rnd).

Lemma eta_small : eta <= uu * uu / 1000000000000000000.
Proof. assert (tiny * tiny <= / 1000000000000 * (/ 1000000000000)) by (apply Rmult_le_compat; lra). assert (0 <= tiny * tiny) by (apply Rmult_le_pos; lra). unfold uu in *. lra. Qed.

(** * Relative errors *)
Definition about (c x y : R) : Prop := 0 < y /\ Rabs (x - y) <= c * (uu * y).
Lemma about_refl y : 0 < y -> about 0 y y.
Proof. intros Y. split; [exact Y|]. rewrite Rminus_diag_eq, Rabs_R0 by reflexivity. lra. Qed.
Lemma about_le c c' x y : about c x y -> c <= c' -> about c' x y.
Proof. intros [Y A] C. split; [exact Y|]. assert (0 <= uu * y) by (apply Rmult_le_pos; [unfold uu|]; lra). apply (Rmult_le_compat_r (uu * y)) in C; lra. Qed.
Lemma about_pos c x y : about c x y -> 0 <= c <= 1000 -> 99 / 100 * y <= x <= 101 / 100 * y.
Proof. intros [Y A] C. assert (0 <= uu * y) by (apply Rmult_le_pos; [unfold uu|]; lra). assert (c * (uu * y) <= 1000 * (uu * y)) by (apply Rmult_le_compat_r; lra). apply abs_inv in A. unfold uu in *. lra. Qed.
Definition low : R := / 1000000000000.
Lemma about_rnd c x y : about c x y -> 0 <= c <= 1000 -> low <= y -> about (c + 2) (rnd x) y.
Proof.
  intros A C L. pose proof (about_pos _ _ _ A C) as P. destruct A as [Y A]. split; [exact Y|].
  pose proof (err x) as E. rewrite (Rabs_right x) in E by lra. pose proof eta_small. apply abs_inv in A, E. apply Rabs_le. unfold low, uu in *. lra.
Qed.
Lemma about_rndn c x y : about c x y -> 0 <= c <= 1000 -> low <= y -> about (c + 2) (- rnd (- x)) y.
Proof.
  intros A C L. pose proof (about_pos _ _ _ A C) as P. destruct A as [Y A]. split; [exact Y|].
  pose proof (err (- x)) as E. rewrite Rabs_Ropp, (Rabs_right x) in E by lra. pose proof eta_small. apply abs_inv in A, E. apply Rabs_le. unfold low, uu in *. lra.
Qed.
Lemma about_mul c1 c2 x y x' y' : about c1 x y -> about c2 x' y' -> 0 <= c1 <= 1000 -> 0 <= c2 <= 1000 -> about (c1 + c2 + 1) (x * x') (y * y').
Proof.
  intros [Y A] [Y' A'] C1 C2. assert (P : 0 < y * y') by (apply Rmult_lt_0_compat; assumption). split; [exact P|].
  assert (Q := mul_near x x' y y' _ _ y y' A A' ltac:(rewrite Rabs_right; lra) ltac:(rewrite Rabs_right; lra)).
  eapply Rle_trans; [exact Q|].
  replace (y * (c2 * (uu * y')) + y' * (c1 * (uu * y)) + c1 * (uu * y) * (c2 * (uu * y'))) with ((c1 + c2 + c1 * c2 * uu) * (uu * (y * y'))) by ring.
  apply Rmult_le_compat_r; [apply Rmult_le_pos; [unfold uu|]; lra|].
  assert (c1 * c2 <= 1000 * 1000) by (apply Rmult_le_compat; lra). unfold uu. lra.
Qed.
Lemma about_inv c x y : about c x y -> 0 <= c <= 1000 -> about (c + 1) (/ x) (/ y).
Proof.
  intros A C. pose proof (about_pos _ _ _ A C) as P. destruct A as [Y A]. assert (Z : 0 < / y) by (apply Rinv_0_lt_compat; exact Y). split; [exact Z|].
  replace (/ x - / y) with (- (x - y) * (/ x * / y)) by (field; lra).
  assert (X : 0 < / x) by (apply Rinv_0_lt_compat; lra).
  rewrite Rabs_mult, Rabs_Ropp, (Rabs_right (/ x * / y)) by (left; apply Rmult_lt_0_compat; assumption).
  assert (G : / x * y <= 1 + 2 * (c * uu)).
  { apply Rmult_le_reg_l with x; [lra|]. rewrite <- Rmult_assoc, Rinv_r, Rmult_1_l by lra. apply abs_inv in A.
    assert (0 <= c * uu <= 1000 * uu) by (split; [apply Rmult_le_pos; [lra|unfold uu; lra]|apply Rmult_le_compat_r; [unfold uu; lra|lra]]).
    assert (G : (1 - c * uu) * y <= x) by lra.
    assert (G2 : (1 - c * uu) * y * (1 + 2 * (c * uu)) <= x * (1 + 2 * (c * uu))) by (apply Rmult_le_compat_r; lra).
    assert (G3 : y * 1 <= y * ((1 - c * uu) * (1 + 2 * (c * uu)))).
    { apply Rmult_le_compat_l; [lra|]. assert (c * uu * (c * uu) <= 1000 * uu * (c * uu)) by (apply Rmult_le_compat_r; lra). unfold uu in *. lra. }
    lra. }
  eapply Rle_trans; [apply Rmult_le_compat_r; [left; apply Rmult_lt_0_compat; assumption|exact A]|].
  replace (c * (uu * y) * (/ x * / y)) with (c * (/ x * y) * (uu * / y)) by ring.
  apply Rmult_le_compat_r; [apply Rmult_le_pos; [unfold uu|]; lra|].
  assert (c * (/ x * y) <= c * (1 + 2 * (c * uu))) by (apply Rmult_le_compat_l; lra).
  assert (c * (c * uu) <= 1000 * (1000 * uu)) by (apply Rmult_le_compat; [lra|apply Rmult_le_pos; [lra|unfold uu; lra]|lra|apply Rmult_le_compat_r; [unfold uu|]; lra]). unfold uu in *. lra.
Qed.
Lemma about_div c1 c2 x y x' y' : about c1 x y -> about c2 x' y' -> 0 <= c1 <= 900 -> 0 <= c2 <= 900 -> about (c1 + c2 + 2) (x / x') (y / y').
Proof.
  intros A A' C1 C2. unfold Rdiv. eapply about_le; [apply about_mul; [exact A|apply about_inv; [exact A'|]| |]|]; lra.
Qed.
Lemma about_sqrt c x y : about c x y -> 0 <= c <= 1000 -> about c (sqrt x) (sqrt y).
Proof.
  intros A C. pose proof (about_pos _ _ _ A C) as P. destruct A as [Y A]. assert (S : 0 < sqrt y) by (apply sqrt_lt_R0; exact Y). split; [exact S|].
  assert (S' : 0 <= sqrt x) by apply sqrt_pos.
  apply Rmult_le_reg_r with (sqrt x + sqrt y); [lra|].
  rewrite <- (Rabs_right (sqrt x + sqrt y)) at 1 by lra. rewrite <- Rabs_mult.
  replace ((sqrt x - sqrt y) * (sqrt x + sqrt y)) with (sqrt x * sqrt x - sqrt y * sqrt y) by ring. rewrite !sqrt_sqrt by lra.
  eapply Rle_trans; [exact A|]. rewrite <- (sqrt_sqrt y) at 1 by lra.
  replace (c * (uu * (sqrt y * sqrt y))) with (c * (uu * sqrt y) * sqrt y) by ring. apply Rmult_le_compat_l; [|lra].
  apply Rmult_le_pos; [lra|]. apply Rmult_le_pos; [unfold uu|]; lra.
Qed.

Lemma about_trans c1 c2 x y z : about c1 x y -> about c2 y z -> 0 <= c1 <= 1000 -> 0 <= c2 <= 1000 -> about (c1 + c2 + 1) x z.
Proof.
  intros A B C1 C2. pose proof (about_pos _ _ _ B C2) as P. destruct A as [Y A]. destruct B as [Z B]. split; [exact Z|].
  assert (Q : c1 * (uu * y) <= (c1 + 1) * (uu * z)).
  { apply abs_inv in B. assert (G : c1 * uu * y <= c1 * uu * (z + c2 * (uu * z))) by (apply Rmult_le_compat_l; [apply Rmult_le_pos; [lra|unfold uu; lra]|lra]).
    assert (c1 * c2 <= 1000 * 1000) by (apply Rmult_le_compat; lra). assert (c1 * c2 * (uu * (uu * z)) <= 1000 * 1000 * (uu * (uu * z))) by (apply Rmult_le_compat_r; [repeat apply Rmult_le_pos; unfold uu; lra|lra]).
    unfold uu in *. lra. }
  replace (x - z) with (x - y + (y - z)) by ring. eapply Rle_trans; [apply Rabs_triang|]. lra.
Qed.

(** * One segment passes its check *)
Section Axis.
Variables c p s w0 w1 t0 tau : R.
Hypothesis Hc : Rabs c <= 101 / 100.
Hypothesis Hp : Rabs p <= 200000.
Hypothesis Hs : 0 <= s <= 50000.
Hypothesis Hw0 : 0 <= w0 <= 1001.
Hypothesis Hw1 : 0 <= w1 <= 1001.
Hypothesis Ht0 : 0 <= t0.
Hypothesis Dt0 : rnd t0 = t0.
Hypothesis Htau : 0 <= tau.
Hypothesis Ht : t0 + tau <= 1000000.
Hypothesis Hway : Rabs (s - (w0 + w1) / 2 * tau) <= / 100000000.
Let W := w0 + w1.
Let D := rnd (rnd (t0 + tau) - t0).
Lemma later : t0 <= rnd (t0 + tau).
Proof. rewrite <- Dt0 at 1. apply mono. lra. Qed.
Lemma D_near : 0 <= D /\ Rabs (D - tau) <= 3 / 10000000000.
Proof.
  pose proof later. split; [unfold D; apply pos; lra|].
  pose proof eta_small. pose proof (near_ rnd eta err (t0 + tau) 1000000 ltac:(rewrite Rabs_right; lra)) as E1.
  pose proof (near_ rnd eta err (rnd (t0 + tau) - t0) 1000001 ltac:(apply Rabs_le; unfold uu in *; lra)) as E2. fold D in E2. apply Rabs_le. unfold uu in *. lra.
Qed.
Lemma W_D : Rabs (W * D - 2 * s) <= 63 / 100000000 /\ 0 <= W * D.
Proof.
  destruct D_near as [P N]. assert (W0 : 0 <= W <= 2002) by (unfold W; lra). split; [|apply Rmult_le_pos; lra].
  replace (W * D - 2 * s) with (W * (D - tau) - 2 * (s - W / 2 * tau)) by field. unfold W at 2.
  assert (Rabs (W * (D - tau)) <= 2002 * (3 / 10000000000)). { rewrite Rabs_mult, (Rabs_right W) by lra. apply Rmult_le_compat; [lra|apply Rabs_pos|lra|exact N]. }
  apply abs_inv in H, Hway. apply Rabs_le. lra.
Qed.
Lemma cw w : 0 <= w <= 1001 -> Rabs (rnd (c * w) - c * w) <= 2 * (uu * w) + eta.
Proof.
  intros Hw. eapply Rle_trans; [apply err|]. rewrite Rabs_mult, (Rabs_right w) by lra.
  assert (Rabs c * w <= 2 * w) by (apply Rmult_le_compat_r; lra). unfold uu. lra.
Qed.
Lemma cW : Rabs (rnd (rnd (c * w0) + rnd (c * w1)) - c * W) <= 6 * (uu * W) + 4 * eta.
Proof.
  pose proof (cw w0 Hw0) as E0. pose proof (cw w1 Hw1) as E1. pose proof (err (rnd (c * w0) + rnd (c * w1))) as E.
  assert (B : Rabs (c * W) <= 101 / 100 * W). { unfold W. rewrite Rabs_mult, (Rabs_right (w0 + w1)) by lra. apply Rmult_le_compat_r; lra. }
  unfold W in *. assert (B' : Rabs (rnd (c * w0) + rnd (c * w1)) <= 2 * (w0 + w1) + 2 * eta). { apply abs_inv in E0, E1, B. apply Rabs_le. unfold uu in *. lra. }
  apply (Rmult_le_compat_l uu) in B'; [|unfold uu; lra]. apply abs_inv in E0, E1, E. apply Rabs_le. unfold uu in *. lra.
Qed.
Let X := rnd (rnd (c * w0) + rnd (c * w1)) * D.
Lemma X_near : Rabs (X - 2 * (c * s)) <= 7 / 10000000.
Proof.
  destruct D_near as [P N]. destruct W_D as [Q Q0]. pose proof cW as G. unfold X. set (S := rnd (rnd (c * w0) + rnd (c * w1))) in *.
  replace (S * D - 2 * (c * s)) with ((S - c * W) * D + c * (W * D - 2 * s)) by ring.
  assert (T : D <= 1000001) by (apply abs_inv in N; lra).
  assert (G1 : Rabs ((S - c * W) * D) <= (6 * (uu * W) + 4 * eta) * D). { rewrite Rabs_mult, (Rabs_right D) by lra. apply Rmult_le_compat_r; [lra|exact G]. }
  assert (G2 : Rabs (c * (W * D - 2 * s)) <= 101 / 100 * (63 / 100000000)). { rewrite Rabs_mult. apply Rmult_le_compat; [apply Rabs_pos|apply Rabs_pos|exact Hc|exact Q]. }
  assert (G3 : eta * D <= eta * 1000001) by (apply Rmult_le_compat_l; lra). pose proof eta_small.
  apply abs_inv in G1, G2, Q. apply Rabs_le. unfold uu in *. lra.
Qed.
Lemma axis_check : Rabs (rnd (rnd (p + rnd (c * s)) - rnd (p + rnd (rnd X / 2)))) <= 4 / 10000000.
Proof.
  pose proof X_near as G. pose proof eta_small.
  assert (B : Rabs (c * s) <= 50500). { rewrite Rabs_mult, (Rabs_right s) by lra. replace 50500 with (101 / 100 * 50000) by lra. apply Rmult_le_compat; [apply Rabs_pos|lra..]. }
  pose proof (near_ rnd eta err _ _ B) as E1. apply abs_inv in B, G, Hp.
  pose proof (near_ rnd eta err X 101001 ltac:(apply Rabs_le; lra)) as E2.
  pose proof (near_ rnd eta err (rnd X / 2) 50501 ltac:(apply Rabs_le; unfold uu in *; lra)) as E3.
  pose proof (near_ rnd eta err (p + rnd (c * s)) 300000 ltac:(apply Rabs_le; unfold uu in *; lra)) as E4.
  pose proof (near_ rnd eta err (p + rnd (rnd X / 2)) 300000 ltac:(apply Rabs_le; unfold uu in *; lra)) as E5.
  pose proof (near_ rnd eta err (rnd (p + rnd (c * s)) - rnd (p + rnd (rnd X / 2))) 1 ltac:(apply Rabs_le; unfold uu in *; lra)) as E6.
  apply Rabs_le. unfold uu in *. lra.
Qed.
End Axis.
Definition short (p : gvec k) : Prop := Rabs (gx k p) <= 200000 /\ Rabs (gy k p) <= 200000 /\ Rabs (gz k p) <= 200000.
Definition unit_like (d : gvec k) : Prop := Rabs (gx k d) <= 101 / 100 /\ Rabs (gy k d) <= 101 / 100 /\ Rabs (gz k d) <= 101 / 100.
Lemma seg_ok dir p0 s w0 w1 t0 tau : unit_like dir -> short p0 -> 0 <= s <= 50000 -> 0 <= w0 <= 1001 -> 0 <= w1 <= 1001 -> 0 <= t0 -> rnd t0 = t0 -> 0 <= tau -> t0 + tau <= 1000000 ->
  Rabs (s - (w0 + w1) / 2 * tau) <= / 100000000 ->
  gmk_segment k t0 (rnd (t0 + tau)) p0 (gvadd k p0 (gvscale k s dir)) (gvscale k w0 dir) (gvscale k w1 dir)
  = Ok (GSeg k t0 (rnd (t0 + tau)) p0 (gvadd k p0 (gvscale k s dir)) (gvscale k w0 dir) (gvscale k w1 dir)).
Proof.
  intros (Ux & Uy & Uz) (Px & Py & Pz) Hs Hw0 Hw1 Ht0 D0 Htau Ht Hway. unfold gmk_segment, gself_check.
  cbn [gpos_end gt_end gt_begin]. cbn [Bk k_ltb k_dec]. rewrite (Rltb_false (rnd (t0 + tau)) t0) by (apply later; assumption).
  rewrite Rltb_false; [reflexivity|].
  rewrite norm3_k. unfold gpredicted_end. cbn [gvsub gvadd gvscale gvdiv gx gy gz Bk k_sub k_add k_mul k_div gpos_begin gt_end gt_begin gvel_begin gvel_end]. rewrite (dec_2 rnd r2).
  pose proof (axis_check _ _ s w0 w1 t0 tau Ux Px Hs Hw0 Hw1 Ht0 D0 Htau Ht Hway) as X. pose proof (axis_check _ _ s w0 w1 t0 tau Uy Py Hs Hw0 Hw1 Ht0 D0 Htau Ht Hway) as Y.
  pose proof (axis_check _ _ s w0 w1 t0 tau Uz Pz Hs Hw0 Hw1 Ht0 D0 Htau Ht Hway) as Z. cbv zeta in X, Y, Z.
  match type of X with Rabs ?e <= _ => set (x := e) in * end. match type of Y with Rabs ?e <= _ => set (y := e) in * end. match type of Z with Rabs ?e <= _ => set (z := e) in * end.
  assert (S : forall t, Rabs t <= 4 / 10000000 -> t * t <= 4 / 10000000 * (4 / 10000000)). { intros t T. replace (t * t) with (Rabs t * Rabs t) by (rewrite <- Rabs_mult; apply Rabs_right, Rle_ge, Rle_0_sqr). apply sq_le; [apply Rabs_pos|exact T]. }
  pose proof eta_small.
  destruct (rnorm_le rnd eta eta0 err pos x y z (8 / 10000000) ltac:(lra)) as [_ R].
  - pose proof (S x X). pose proof (S y Y). pose proof (S z Z). lra.
  - unfold uu in *. lra.
  - unfold uu in *. lra.
  - eapply Rle_trans; [exact R|]. replace (r_of_dec 1 (-6)) with (/ 1000000) by (unfold r_of_dec; cbn; lra).
    pose proof (lo_ rnd eta err (/ 1000000) ltac:(lra)). unfold uu in *. lra.
Qed.

(** * One leg is seen *)
Definition plain (d : gvec k) : Prop := 1 / 2 <= Rabs (gx k d) \/ 1 / 2 <= Rabs (gy k d) \/ 1 / 2 <= Rabs (gz k d).
Definition turning (d p : gvec k) : Prop := 1 / 2 <= Rabs (ge k d) <= 101 / 100 /\ Rabs (ge k p) <= 200000.
Lemma axis_seen c p s : 1 / 2 <= Rabs c <= 101 / 100 -> Rabs p <= 200000 -> 49 / 100000000000 <= s <= 50000 -> / 10000000000 <= Rabs (rnd (p - rnd (p + rnd (c * s)))).
Proof.
  intros C P Hs. pose proof eta_small.
  assert (B : Rabs (c * s) <= 50500). { rewrite Rabs_mult, (Rabs_right s) by lra. replace 50500 with (101 / 100 * 50000) by lra. apply Rmult_le_compat; [apply Rabs_pos|lra..]. }
  assert (B' : 1 / 2 * s <= Rabs (c * s)). { rewrite Rabs_mult, (Rabs_right s) by lra. apply Rmult_le_compat_r; lra. }
  pose proof (err (c * s)) as E1. set (q := c * s) in *. clearbody q.
  pose proof (err (p + rnd q)) as E2.
  assert (B1 : Rabs (rnd q) <= 50501). { pose proof B as B0. apply abs_inv in E1, B0. apply Rabs_le. unfold uu in *. lra. }
  assert (B2 : Rabs (p + rnd q) <= 250501). { apply abs_inv in P, B1. apply Rabs_le. lra. }
  assert (E2' : Rabs (rnd (p + rnd q) - (p + rnd q)) <= 3 / 100000000000) by (unfold uu in *; lra).
  pose proof (err (p - rnd (p + rnd q))) as E3.
  assert (L : 2 / 10000000000 <= Rabs (p - rnd (p + rnd q))).
  { assert (L1 : (1 - uu) * Rabs q - eta <= Rabs (rnd q)). { pose proof (Rabs_triang_inv q (q - rnd q)) as T. replace (q - (q - rnd q)) with (rnd q) in T by ring. rewrite (Rabs_minus_sym q (rnd q)) in T. lra. }
    pose proof (Rabs_triang_inv (- rnd q) (- rnd q - (p - rnd (p + rnd q)))) as T. replace (- rnd q - (- rnd q - (p - rnd (p + rnd q)))) with (p - rnd (p + rnd q)) in T by ring.
    replace (- rnd q - (p - rnd (p + rnd q))) with (rnd (p + rnd q) - (p + rnd q)) in T by ring. rewrite Rabs_Ropp in T. unfold uu in *. lra. }
  pose proof (Rabs_triang_inv (p - rnd (p + rnd q)) ((p - rnd (p + rnd q)) - rnd (p - rnd (p + rnd q)))) as T.
  set (w := p - rnd (p + rnd q)) in *. replace (w - (w - rnd w)) with (rnd w) in T by ring. rewrite (Rabs_minus_sym w (rnd w)) in T. unfold uu in *. lra.
Qed.
Lemma sum_pos a b c x : 0 <= a -> 0 <= b -> 0 <= c -> / 10000000000 <= x -> a = x \/ b = x \/ c = x -> 0 < rnd (rnd (a + b) + c).
Proof.
  intros A B C X E. pose proof eta_small. pose proof (pos (a + b) ltac:(lra)). pose proof (lo_ rnd eta err (a + b) ltac:(lra)). pose proof (lo_ rnd eta err (rnd (a + b) + c) ltac:(lra)).
  unfold uu in *. destruct E as [<-|[<-|<-]]; lra.
Qed.
Lemma leg_kept dir p s t0 t1 v0 v1 : unit_like dir -> short p -> plain dir \/ turning dir p -> 49 / 100000000000 <= s <= 50000 ->
  let g := GSeg k t0 t1 p (gvadd k p (gvscale k s dir)) v0 v1 in gkeep_seg k g = [g].
Proof.
  intros (Ux & Uy & Uz) (Px & Py & Pz) Hd Hs g. unfold gkeep_seg. replace (gis_travel k _ _ || gpos_is_extruding k _ _ false)%bool with true; [reflexivity|]. symmetry.
  apply orb_true_iff. destruct Hd as [Hd|[Ue Pe]].
  - left. unfold gis_travel, g. cbn [gpos_end gpos_begin gvadd gvscale gx gy gz]. rewrite (dec_0 rnd r0). cbn [Bk k_ltb k_add k_abs k_sub k_mul]. apply Rltb_true.
    destruct Hd as [Hd|[Hd|Hd]]; [eapply (sum_pos _ _ _ _ ltac:(apply Rabs_pos) ltac:(apply Rabs_pos) ltac:(apply Rabs_pos) (axis_seen (gx k dir) (gx k p) s (conj Hd Ux) Px Hs))
      |eapply (sum_pos _ _ _ _ ltac:(apply Rabs_pos) ltac:(apply Rabs_pos) ltac:(apply Rabs_pos) (axis_seen (gy k dir) (gy k p) s (conj Hd Uy) Py Hs))
      |eapply (sum_pos _ _ _ _ ltac:(apply Rabs_pos) ltac:(apply Rabs_pos) ltac:(apply Rabs_pos) (axis_seen (gz k dir) (gz k p) s (conj Hd Uz) Pz Hs))]; auto.
  - right. unfold gpos_is_extruding, g. cbn [gpos_end gpos_begin gvadd gvscale ge]. rewrite (dec_0 rnd r0). cbn [Bk k_ltb k_add k_abs k_sub k_mul]. apply Rltb_true.
    pose proof (axis_seen _ _ s Ue Pe Hs). lra.
Qed.

(** * One move, from rest to rest *)
Section Rest.
Variables acc d v : R.
Hypothesis Hacc : 1 <= acc <= 100000.
Hypothesis Hv : 9 / 1000 <= v <= 1001.
Hypothesis Hd : 99 / 100000 <= d <= 45000.
Hypothesis Dd : rnd d = d.
Let U := v * v / (2 * acc).
Lemma v2 : 8 / 100000 <= v * v <= 1100000. Proof. assert (9 / 1000 * (9 / 1000) <= v * v <= 1001 * 1001) by (split; apply sq_le; lra). lra. Qed.
Lemma U_lo : 4 / 10000000000 <= U /\ v * v = 2 * acc * U.
Proof.
  assert (E : v * v = 2 * acc * U) by (unfold U; field; lra). split; [|exact E]. pose proof v2. apply Rmult_le_reg_l with (2 * acc); [lra|]. rewrite <- E. lra.
Qed.
Lemma two_acc : about 2 (rnd (2 * acc)) (2 * acc).
Proof. eapply about_le; [apply about_rnd; [apply about_refl; lra|lra|unfold low; lra]|lra]. Qed.
Lemma two_accn : about 2 (- rnd (2 * - acc)) (2 * acc).
Proof. replace (2 * - acc) with (- (2 * acc)) by ring. eapply about_le; [apply about_rndn; [apply about_refl; lra|lra|unfold low; lra]|lra]. Qed.
Lemma up_about : about 20 (t_ramp rnd acc 0 v) U.
Proof.
  unfold t_ramp. rewrite Rminus_0_r, Rplus_0_l. destruct U_lo as [L E]. pose proof v2 as V2.
  assert (A : about 2 (rnd v) v) by (eapply about_le; [apply about_rnd; [apply about_refl; lra|lra|unfold low; lra]|lra]).
  assert (B : about 7 (rnd (rnd v * rnd v)) (v * v)) by (eapply about_le; [apply about_rnd; [apply about_mul; [exact A|exact A|lra|lra]|lra|unfold low; lra]|lra]).
  eapply about_le; [apply about_rnd; [unfold U; apply about_div; [exact B|exact two_acc|lra|lra]|lra|unfold low; fold U; lra]|lra].
Qed.
Lemma down_about : about 20 (t_down rnd acc v 0) U.
Proof.
  unfold t_down. rewrite Rplus_0_l. destruct U_lo as [L E]. pose proof v2 as V2.
  assert (A : about 2 (rnd v) v) by (eapply about_le; [apply about_rnd; [apply about_refl; lra|lra|unfold low; lra]|lra]).
  assert (A' : about 2 (- rnd (0 - v)) v) by (replace (0 - v) with (- v) by ring; eapply about_le; [apply about_rndn; [apply about_refl; lra|lra|unfold low; lra]|lra]).
  assert (B : about 7 (- rnd (rnd (0 - v) * rnd v)) (v * v)).
  { replace (rnd (0 - v) * rnd v) with (- (- rnd (0 - v) * rnd v)) by ring. eapply about_le; [apply about_rndn; [apply about_mul; [exact A'|exact A|lra|lra]|lra|unfold low; lra]|lra]. }
  replace (rnd (rnd (0 - v) * rnd v) / rnd (2 * - acc)) with (- rnd (rnd (0 - v) * rnd v) / - rnd (2 * - acc)).
  - eapply about_le; [apply about_rnd; [unfold U; apply about_div; [exact B|exact two_accn|lra|lra]|lra|unfold low; fold U; lra]|lra].
  - pose proof (about_pos _ _ _ two_accn ltac:(lra)). field. lra.
Qed.
Lemma over_acc w : 1 / 1000 <= w <= 1001 -> about 10 (rnd (rnd (w - 0) / acc)) (w / acc).
Proof.
  intros W. rewrite Rminus_0_r. assert (L : / 100000000 <= w / acc). { apply Rmult_le_reg_l with acc; [lra|]. replace (acc * (w / acc)) with w by (field; lra). lra. }
  assert (A : about 2 (rnd w) w) by (eapply about_le; [apply about_rnd; [apply about_refl; lra|lra|unfold low; lra]|lra]).
  eapply about_le; [apply about_rnd; [apply about_div; [exact A|apply about_refl; lra|lra|lra]|lra|unfold low; lra]|lra].
Qed.
(** the peak of the short moves *)
Let P := sqrt (acc * d).
Lemma way_up : Rabs (t_ramp rnd acc 0 v - (0 + v) / 2 * rnd (rnd (v - 0) / acc)) <= 40 * (uu * U).
Proof.
  destruct up_about as [UP A]. pose proof (about_mul _ _ _ _ _ _ (about_refl (v / 2) ltac:(lra)) (over_acc v ltac:(lra)) ltac:(lra) ltac:(lra)) as [_ B].
  replace (v / 2 * (v / acc)) with U in B by (unfold U; field; lra). replace ((0 + v) / 2) with (v / 2) by field. apply abs_inv in A, B. apply Rabs_le. unfold uu in *. lra.
Qed.
Lemma way_down_ : Rabs (t_down rnd acc v 0 - (v + 0) / 2 * rnd (rnd (v - 0) / acc)) <= 40 * (uu * U).
Proof.
  destruct down_about as [UP A]. pose proof (about_mul _ _ _ _ _ _ (about_refl (v / 2) ltac:(lra)) (over_acc v ltac:(lra)) ltac:(lra) ltac:(lra)) as [_ B].
  replace (v / 2 * (v / acc)) with U in B by (unfold U; field; lra). replace ((v + 0) / 2) with (v / 2) by field. apply abs_inv in A, B. apply Rabs_le. unfold uu in *. lra.
Qed.
Lemma ad : / 10000 <= acc * d. Proof. assert (1 * (99 / 100000) <= acc * d) by (apply Rmult_le_compat; lra). lra. Qed.
Lemma P_sq : P * P = acc * d. Proof. unfold P. apply sqrt_sqrt. pose proof ad. lra. Qed.
Lemma P_lo : / 100 <= P. Proof. unfold P. apply le_sqrt; [lra|]. pose proof ad. lra. Qed.
Lemma peak_about : about 10 (t_peak rnd acc d 0 0) P.
Proof.
  unfold t_peak. rewrite !Rmult_0_l, !r0. replace (0 / 2) with 0 by field. rewrite r0, !Rplus_0_r, !idem. pose proof ad. pose proof P_lo.
  assert (A : about 2 (rnd (acc * d)) (acc * d)) by (eapply about_le; [apply about_rnd; [apply about_refl; lra|lra|unfold low; lra]|lra]).
  eapply about_le; [apply about_rnd; [apply about_sqrt; [exact A|lra]|lra|fold P; unfold low; lra]|lra].
Qed.
Lemma is_trap : is_trapezoid rnd acc d 0 v 0 = Rltb (rnd (t_ramp rnd acc 0 v + t_down rnd acc v 0)) d.
Proof.
  unfold is_trapezoid. destruct U_lo as [L E]. pose proof (about_pos _ _ _ up_about ltac:(lra)). pose proof (about_pos _ _ _ down_about ltac:(lra)).
  rewrite (Rltb_true 0 (t_ramp rnd acc 0 v)), (Rltb_true 0 (t_down rnd acc v 0)) by lra. cbn [orb]. rewrite !Bool.andb_true_r. reflexivity.
Qed.
(** the long moves *)
Section Long.
Hypothesis Long : rnd (t_ramp rnd acc 0 v + t_down rnd acc v 0) < d.
Lemma long_sum : t_ramp rnd acc 0 v + t_down rnd acc v 0 <= d.
Proof. destruct (Rle_or_lt (t_ramp rnd acc 0 v + t_down rnd acc v 0) d) as [G|G]; [exact G|]. pose proof (mono d _ (Rlt_le _ _ G)) as Q. rewrite Dd in Q. lra. Qed.
Lemma long_U : U <= 101 / 200 * d.
Proof. pose proof long_sum. pose proof (about_pos _ _ _ up_about ltac:(lra)). pose proof (about_pos _ _ _ down_about ltac:(lra)). destruct U_lo. destruct up_about as [_ A1]. destruct down_about as [_ A2]. apply abs_inv in A1, A2. unfold uu in *. lra. Qed.
Definition t_rest : R := rnd (rnd (d - t_down rnd acc v 0) - t_ramp rnd acc 0 v).
Lemma rest_near : 0 <= t_rest <= 101 / 100 * d /\ d - 2 * U - 100 * (uu * d) <= t_rest <= d - 2 * U + 100 * (uu * d).
Proof.
  pose proof long_sum as S. pose proof long_U as LU. pose proof (about_pos _ _ _ up_about ltac:(lra)) as P1. pose proof (about_pos _ _ _ down_about ltac:(lra)) as P2. destruct U_lo as [UL _].
  destruct up_about as [_ A1]. destruct down_about as [_ A2]. apply abs_inv in A1, A2. pose proof eta_small.
  pose proof (up_ rnd eta err (d - t_down rnd acc v 0) ltac:(lra)) as E1. pose proof (lo_ rnd eta err (d - t_down rnd acc v 0) ltac:(lra)) as F1.
  assert (R1 : t_ramp rnd acc 0 v <= rnd (d - t_down rnd acc v 0)).
  { assert (Q : t_ramp rnd acc 0 v = rnd (t_ramp rnd acc 0 v)) by (unfold t_ramp; rewrite idem; reflexivity). rewrite Q. apply mono. lra. }
  unfold t_rest. pose proof (up_ rnd eta err (rnd (d - t_down rnd acc v 0) - t_ramp rnd acc 0 v) ltac:(lra)) as E2. pose proof (lo_ rnd eta err (rnd (d - t_down rnd acc v 0) - t_ramp rnd acc 0 v) ltac:(lra)) as F2.
  pose proof (pos (rnd (d - t_down rnd acc v 0) - t_ramp rnd acc 0 v) ltac:(lra)) as E3.
  split; [split; [exact E3|]|split]; unfold uu in *; lra.
Qed.
Variable vc : R.
Hypothesis Hvc : about 300 vc v.
Lemma rest_time : 0 <= rnd (t_rest / vc) /\ Rabs (t_rest - (v + v) / 2 * rnd (t_rest / vc)) <= / 100000000 /\ (1 - 310 * uu) * (t_rest / v) - eta <= rnd (t_rest / vc) <= (1 + 310 * uu) * (t_rest / v) + eta.
Proof.
  destruct rest_near as [[R0 R1] _]. pose proof (about_pos _ _ _ Hvc ltac:(lra)) as Q. destruct (about_inv _ _ _ Hvc ltac:(lra)) as [I0 I1]. pose proof eta_small.
  assert (J : 0 <= t_rest / v) by (apply Rmult_le_pos; [exact R0|lra]).
  assert (K : Rabs (t_rest / vc - t_rest / v) <= 301 * (uu * (t_rest / v))).
  { replace (t_rest / vc - t_rest / v) with (t_rest * (/ vc - / v)) by (unfold Rdiv; ring). rewrite Rabs_mult, (Rabs_right t_rest) by lra.
    replace (301 * (uu * (t_rest / v))) with (t_rest * (301 * (uu * / v))) by (unfold Rdiv; ring). apply Rmult_le_compat_l; [exact R0|]. lra. }
  assert (J2 : 0 <= t_rest / vc) by (apply Rmult_le_pos; [exact R0|left; apply Rinv_0_lt_compat; lra]).
  pose proof (err (t_rest / vc)) as E. rewrite (Rabs_right (t_rest / vc)) in E by lra. set (r := rnd (t_rest / vc)) in *. apply abs_inv in K, E.
  assert (N : Rabs (r - t_rest / v) <= 310 * (uu * (t_rest / v)) + eta). { apply Rabs_le. unfold uu in *. lra. }
  split; [unfold r; apply pos; exact J2|]. split.
  - replace (t_rest - (v + v) / 2 * r) with (v * (t_rest / v - r)) by (field; lra). rewrite Rabs_mult, (Rabs_right v), (Rabs_minus_sym (t_rest / v) r) by lra.
    assert (G : v * Rabs (r - t_rest / v) <= v * (310 * (uu * (t_rest / v)) + eta)) by (apply Rmult_le_compat_l; lra).
    replace (v * (310 * (uu * (t_rest / v)) + eta)) with (310 * (uu * t_rest) + v * eta) in G by (field; lra).
    assert (v * eta <= 1001 * eta) by (apply Rmult_le_compat_r; lra). unfold uu in *. lra.
  - apply abs_inv in N. lra.
Qed.
End Long.
(** the short ones *)
Section Short.
Hypothesis Short : d <= rnd (t_ramp rnd acc 0 v + t_down rnd acc v 0).
Lemma short_U : d <= (1 + 30 * uu) * (2 * U).
Proof.
  pose proof (about_pos _ _ _ up_about ltac:(lra)) as P1. pose proof (about_pos _ _ _ down_about ltac:(lra)) as P2. destruct U_lo as [UL _]. pose proof eta_small.
  destruct up_about as [_ A1]. destruct down_about as [_ A2]. apply abs_inv in A1, A2. pose proof (up_ rnd eta err (t_ramp rnd acc 0 v + t_down rnd acc v 0) ltac:(lra)). unfold uu in *. lra.
Qed.
Lemma P_v : P <= (1 + 15 * uu) * v.
Proof.
  unfold P. apply sqrt_le_; [unfold uu; lra|]. replace ((1 + 15 * uu) * v * ((1 + 15 * uu) * v)) with ((1 + 15 * uu) * (1 + 15 * uu) * (v * v)) by ring.
  destruct U_lo as [UL E]. assert (G : acc * d <= acc * ((1 + 30 * uu) * (2 * U))) by (apply Rmult_le_compat_l; [lra|exact short_U]).
  replace (acc * ((1 + 30 * uu) * (2 * U))) with ((1 + 30 * uu) * (v * v)) in G by (rewrite E; ring).
  assert ((1 + 30 * uu) * (v * v) <= (1 + 15 * uu) * (1 + 15 * uu) * (v * v)) by (apply Rmult_le_compat_r; [pose proof v2; lra|unfold uu; lra]). lra.
Qed.
Let pk := t_peak rnd acc d 0 0.
Lemma pk_v : 99 / 10000 <= pk <= (1 + 30 * uu) * v.
Proof. pose proof (about_pos _ _ _ peak_about ltac:(lra)) as Q. pose proof P_lo. pose proof P_v. destruct peak_about as [_ A]. apply abs_inv in A. unfold pk, uu in *. lra. Qed.
Lemma is_tri : is_triangle rnd acc d 0 v 0 = true.
Proof.
  unfold is_triangle. fold pk. destruct pk_v as [A B]. rewrite !(Rltb_true 0 pk) by lra. cbn [andb]. unfold below. destruct (Rlt_or_le pk v) as [L|L].
  - rewrite Rltb_true by exact L. reflexivity.
  - rewrite (Rltb_false pk v) by exact L. cbn [orb]. unfold gisclose. cbn [Bk k_leb k_abs k_sub k_add k_mul k_dec]. apply Rleb_true. pose proof eta_small.
    rewrite (Rabs_right v) by lra.
    replace (r_of_dec 1 (-8)) with (/ 100000000) by (unfold r_of_dec; cbn; lra). replace (r_of_dec 1 (-5)) with (/ 100000) by (unfold r_of_dec; cbn; lra).
    pose proof (lo_ rnd eta err (/ 100000000) ltac:(lra)) as E1. pose proof (pos (/ 100000) ltac:(lra)) as E2. pose proof (pos (rnd (/ 100000) * v) ltac:(apply Rmult_le_pos; lra)) as E3.
    pose proof (lo_ rnd eta err (rnd (/ 100000000) + rnd (rnd (/ 100000) * v)) ltac:(unfold uu in *; lra)) as E4.
    pose proof (near_ rnd eta err (pk - v) 1 ltac:(apply Rabs_le; unfold uu in *; lra)) as E5. apply Rabs_le. unfold uu in *. lra.
Qed.
(** both halves *)
Let T := P * P / (2 * acc).
Lemma T_is : T = d / 2. Proof. unfold T. rewrite P_sq. field. lra. Qed.
Lemma half_about : about 40 (t_ramp rnd acc 0 pk) (d / 2) /\ rnd (rnd (rnd (pk - 0) * rnd (0 + pk)) / rnd (2 * acc)) = t_ramp rnd acc 0 pk.
Proof.
  split; [|reflexivity]. unfold t_ramp. rewrite Rminus_0_r, Rplus_0_l. pose proof P_lo as PL. pose proof ad. pose proof P_sq as PS. rewrite <- T_is.
  assert (A : about 12 (rnd pk) P) by (eapply about_le; [apply about_rnd; [exact peak_about|lra|unfold low; lra]|lra]).
  assert (B : about 27 (rnd (rnd pk * rnd pk)) (P * P)) by (eapply about_le; [apply about_rnd; [apply about_mul; [exact A|exact A|lra|lra]|lra|unfold low; lra]|lra]).
  eapply about_le; [apply about_rnd; [apply about_div; [exact B|exact two_acc|lra|lra]|lra|fold T; rewrite T_is; unfold low; lra]|lra].
Qed.
End Short.
End Rest.

Definition wide (Q : R) (dir p : gvec k) : Prop :=
  Rabs (gx k p) <= Q /\ Rabs (gy k p) <= Q /\ Rabs (gz k p) <= Q /\ (plain dir \/ 1 / 2 <= Rabs (ge k dir) <= 101 / 100 /\ Rabs (ge k p) <= Q).
Lemma wide_short Q dir p : wide Q dir p -> Q <= 200000 -> short p /\ (plain dir \/ turning dir p).
Proof.
  intros (X & Y & Z & E) L. split; [unfold short; repeat split; lra|]. destruct E as [E|[E1 E2]]; [left; exact E|]. right. split; [exact E1|lra].
Qed.
Lemma step_bound c p s Q : Rabs c <= 101 / 100 -> Rabs p <= Q -> 0 <= s <= 50000 -> Q <= 200000 -> Rabs (rnd (p + rnd (c * s))) <= Q + 51000.
Proof.
  intros C P Hs L. pose proof eta_small.
  assert (B : Rabs (c * s) <= 50500). { rewrite Rabs_mult, (Rabs_right s) by lra. replace 50500 with (101 / 100 * 50000) by lra. apply Rmult_le_compat; [apply Rabs_pos|lra..]. }
  pose proof (near_ rnd eta err _ _ B) as E1. apply abs_inv in B. apply abs_inv in P.
  pose proof (near_ rnd eta err (p + rnd (c * s)) 300000 ltac:(apply Rabs_le; unfold uu in *; lra)) as E4. apply Rabs_le. unfold uu in *. lra.
Qed.
Lemma wide_leg Q dir p s : unit_like dir -> wide Q dir p -> 0 <= s <= 50000 -> Q <= 200000 -> wide (Q + 51000) dir (gvadd k p (gvscale k s dir)).
Proof.
  intros (Ux & Uy & Uz) (X & Y & Z & E) Hs L. unfold wide. cbn [gvadd gvscale gx gy gz ge Bk k_add k_mul].
  split; [|split; [|split]]; [apply step_bound; assumption..|]. destruct E as [E|[E1 E2]]; [left; exact E|]. right. split; [exact E1|]. apply step_bound; try assumption. lra.
Qed.
Lemma rnd_time t tau : 0 <= t -> 0 <= tau -> t + tau <= 1000000 -> t + tau - 12 / 100000000000 <= rnd (t + tau) <= t + tau + 12 / 100000000000.
Proof. intros A B C. pose proof eta_small. pose proof (near_ rnd eta err (t + tau) 1000000 ltac:(rewrite Rabs_right; lra)). unfold uu in *. lra. Qed.

(** what the checks of a finished plan want of a segment *)
Definition fit (v : R) (s : gsegment k) : Prop :=
  gself_check_settings k v s = Ok tt /\ rnd (gt_begin k s) = gt_begin k s /\ rnd (gt_end k s) = gt_end k s.
Lemma not_exceeds x v : 1 / 100 <= v <= 1000 -> 0 <= x <= (1 + / 1000000) * v -> gexceeds k x v = false.
Proof.
  intros Hv X. unfold gexceeds. cbn [Bk k_ltb]. destruct (Rlt_or_le v x) as [L|L]; [|rewrite Rltb_false by exact L; reflexivity]. rewrite Rltb_true by exact L. cbn [andb].
  apply Bool.negb_false_iff. unfold gisclose. cbn [Bk k_leb k_abs k_sub k_add k_mul k_dec]. apply Rleb_true. pose proof eta_small.
  rewrite (Rabs_right v) by lra.
  replace (r_of_dec 1 (-8)) with (/ 100000000) by (unfold r_of_dec; cbn; lra). replace (r_of_dec 1 (-5)) with (/ 100000) by (unfold r_of_dec; cbn; lra).
  pose proof (lo_ rnd eta err (/ 100000) ltac:(lra)) as E2. pose proof (pos (/ 100000000) ltac:(lra)) as E1.
  assert (E5 : (/ 100000 - / 1000000000) * v <= rnd (/ 100000) * v) by (apply Rmult_le_compat_r; [lra|unfold uu in *; lra]).
  pose proof (lo_ rnd eta err (rnd (/ 100000) * v) ltac:(lra)) as E3.
  pose proof (lo_ rnd eta err (rnd (/ 100000000) + rnd (rnd (/ 100000) * v)) ltac:(unfold uu in *; lra)) as E4.
  pose proof (near_ rnd eta err (x - v) (/ 1000000 * v) ltac:(apply Rabs_le; lra)) as E6. apply Rabs_le. unfold uu in *. lra.
Qed.
Lemma fits v t0 t1 p0 p1 v0 v1 s : 1 / 100 <= v <= 1000 -> gmk_segment k t0 t1 p0 p1 v0 v1 = Ok s -> rnd t0 = t0 -> rnd t1 = t1 ->
  gnorm3 k v0 <= (1 + / 1000000) * v -> gnorm3 k v1 <= (1 + / 1000000) * v -> fit v s.
Proof.
  intros Hv E D0 D1 N0 N1. pose proof (mk_ok rnd _ _ _ _ _ _ _ E) as ->. unfold gmk_segment in E. unfold fit, gself_check_settings. destruct (gself_check k _) as [[]|]; [|discriminate]. cbn [bind gvel_begin gvel_end gt_begin gt_end].
  assert (P : forall u, 0 <= gnorm3 k u) by (intros u; rewrite norm3_k; unfold rnorm; apply pos, sqrt_pos).
  rewrite !not_exceeds by (split; [apply P|assumption] || exact Hv). auto.
Qed.

Lemma move_made A B dir pv d x l e : gmove_distance k A B = (d, x) ->
  let v := gk_speed k B in let acc := gk_acc k B in
  1 / 100 <= v <= 1000 -> 1 <= acc <= 100000 -> 99 / 100000 <= d <= 45000 -> rnd d = d -> d <= (1 + 10 * uu) * l -> about 9 d e ->
  unit_like dir -> wide 20000 dir (gpos_end k pv) -> gnorm3 k (gvel_end k pv) = 0 ->
  (forall w, w = 0 \/ 9 / 1000 <= w -> w <= (1 + 30 * uu) * v -> gnorm3 k (gvscale k w dir) <= (1 + / 1000000) * v) ->
  about 300 (if x then gnorm4 k (gvscale k v dir) else gnorm3 k (gvscale k v dir)) v ->
  0 <= gt_end k pv -> rnd (gt_end k pv) = gt_end k pv -> gt_end k pv + (l / v + 2 * (v / acc)) + / 1000000000 <= 1000000 ->
  exists sA mid sC ty, gmove_maker2 k A B dir pv 0 = Ok (sA :: mid ++ [sC], ty) /\
    Forall (fit v) (sA :: mid ++ [sC]) /\ gpos_begin k sA = gpos_end k pv /\ gt_begin k sA = gt_end k pv /\ gvel_begin k sA = gvscale k 0 dir /\ gvel_end k sC = gvscale k 0 dir /\
    rnd (gt_end k sC) = gt_end k sC /\ gt_end k pv <= gt_end k sC <= gt_end k pv + (l / v + 2 * (v / acc)) + / 1000000000 /\
    Rabs (gt_end k sC - gt_end k pv - stop_in e v acc) <= 4 / 10000000000 + 500 * (uu * stop_in e v acc).
Proof.
  intros Ed v acc. assert (Ev : gk_speed k B = v) by reflexivity. assert (Ea : gk_acc k B = acc) by reflexivity. cbn [Bk K] in v, acc. clearbody v acc. cbn [Bk K] in Ev, Ea.
  intros Hv Hacc Hd Dd Hl He Ud Wp Hvb Hn Hvc T0 TD Tb. pose proof eta_small as ES.
  assert (EB : 9 / 10000 <= e <= 50000) by (pose proof (about_pos _ _ _ He ltac:(lra)); lra).
  assert (LV : 0 <= l / v <= 1000000 /\ / 1000000 / 2 <= l / v).
  { assert (99 / 100000 / 1001 <= l / v). { apply Rmult_le_reg_l with v; [lra|]. replace (v * (l / v)) with l by (field; lra). assert (v * (99 / 100000 / 1001) <= 1000 * (99 / 100000 / 1001)) by (apply Rmult_le_compat_r; lra). unfold uu in *. lra. }
    assert (0 <= v / acc) by (apply Rmult_le_pos; [lra|left; apply Rinv_0_lt_compat; lra]). lra. }
  assert (VA : / 10000000 <= v / acc <= 1000).
  { split; apply Rmult_le_reg_l with acc; try lra; replace (acc * (v / acc)) with v by (field; lra); lra. }
  assert (Hw : 9 / 1000 <= v <= 1001) by lra.
  pose proof (up_about acc v Hacc Hw) as UA. pose proof (down_about acc v Hacc Hw) as DA. pose proof (over_acc acc Hacc v ltac:(lra)) as TA.
  pose proof (about_pos _ _ _ UA ltac:(lra)) as UP. pose proof (about_pos _ _ _ DA ltac:(lra)) as DP. pose proof (about_pos _ _ _ TA ltac:(lra)) as TP.
  pose proof (way_up acc v Hacc Hw) as WU. pose proof (way_down_ acc v Hacc Hw) as WD.
  set (U := v * v / (2 * acc)) in *.
  assert (UL : 5 / 10000000000 <= U). { unfold U. apply Rmult_le_reg_l with (2 * acc); [lra|]. replace (2 * acc * (v * v / (2 * acc))) with (v * v) by (field; lra). assert (1 / 100 * (1 / 100) <= v * v) by (apply sq_le; lra). lra. }
  unfold gmove_maker2. rewrite Ed, Hvb, Ev, Ea. cbv zeta. rewrite (dec_0 rnd r0). cbn [Bk k_ltb k_leb]. rewrite (Rltb_true 0 v), (Rleb_false acc 0) by lra.
  unfold gtrapezoid, gtriang. rewrite (dec_2 rnd r2).
  match goal with |- context[try_runtime (if ?c then _ else _)] => change c with (is_trapezoid rnd acc d 0 v 0) end.
  rewrite (is_trap acc d v Hacc Hw). destruct (Rlt_or_le (rnd (t_ramp rnd acc 0 v + t_down rnd acc v 0)) d) as [Long|Short].
  - rewrite Rltb_true by exact Long. cbv zeta.
    pose proof (long_U acc d v Hacc Hw Dd Long) as LU. fold U in LU.
    destruct (rest_near acc d v Hacc Hw Hd Dd Long) as [R1 R2]. fold U in R2.
    destruct (rest_time acc d v Hacc Hw Hd Dd Long _ Hvc) as (C1 & C2 & C3).
    change (k_div k (k_mul k (k_sub k v 0) (k_add k 0 v)) (k_mul k 2 acc)) with (t_ramp rnd acc 0 v).
    change (k_div k (k_mul k (k_sub k 0 v) (k_add k 0 v)) (k_mul k 2 (k_opp k acc))) with (t_down rnd acc v 0).
    change (k_sub k (k_sub k d (t_down rnd acc v 0)) (t_ramp rnd acc 0 v)) with (t_rest acc d v).
    change (k_div k (k_sub k v 0) acc) with (rnd (rnd (v - 0) / acc)).
    set (u := t_ramp rnd acc 0 v) in *. set (w := t_down rnd acc v 0) in *. set (c := t_rest acc d v) in *. set (ta := rnd (rnd (v - 0) / acc)) in *.
    match goal with |- context[k_div k c ?q] => change (k_div k c q) with (rnd (c / q)) end.
    set (vc := if x then _ else _) in *. set (tc := rnd (c / vc)) in *.
    assert (TC : ta + tc + ta <= l / v + 2 * (v / acc) + / 2000000000).
    { assert (c / v <= (d - 2 * U + 100 * (uu * d)) / v) by (apply Rmult_le_compat_r; [left; apply Rinv_0_lt_compat; lra|lra]).
      replace ((d - 2 * U + 100 * (uu * d)) / v) with ((1 + 100 * uu) * (d / v) - v / acc) in H by (unfold U; field; lra).
      assert (d / v <= (1 + 10 * uu) * (l / v)). { replace ((1 + 10 * uu) * (l / v)) with ((1 + 10 * uu) * l / v) by (unfold Rdiv; ring). apply Rmult_le_compat_r; [left; apply Rinv_0_lt_compat; lra|lra]. }
      destruct TA as [_ TA]. apply abs_inv in TA.
      assert ((1 + 310 * uu) * (c / v) <= (1 + 310 * uu) * ((1 + 100 * uu) * ((1 + 10 * uu) * (l / v)) - v / acc)) by (apply Rmult_le_compat_l; [unfold uu; lra|unfold uu in *; lra]).
      unfold uu in *. lra. }
    pose proof (rnd_time (gt_end k pv) ta T0 ltac:(lra) ltac:(lra)) as S1.
    pose proof (later (gt_end k pv) ta TD ltac:(lra)) as L1.
    change (k_add k (gt_end k pv) ta) with (rnd (gt_end k pv + ta)).
    set (t1 := rnd (gt_end k pv + ta)) in *. assert (D1 : rnd t1 = t1) by (unfold t1; apply idem).
    pose proof (rnd_time t1 tc ltac:(lra) ltac:(lra) ltac:(lra)) as S2. pose proof (later t1 tc D1 ltac:(lra)) as L2.
    change (k_add k t1 tc) with (rnd (t1 + tc)). set (t2 := rnd (t1 + tc)) in *. assert (D2 : rnd t2 = t2) by (unfold t2; apply idem).
    pose proof (rnd_time t2 ta ltac:(lra) ltac:(lra) ltac:(lra)) as S3. pose proof (later t2 ta D2 ltac:(lra)) as L3.
    change (k_add k t2 ta) with (rnd (t2 + ta)). set (t3 := rnd (t2 + ta)) in *. assert (D3 : rnd t3 = t3) by (unfold t3; apply idem).
    set (p0 := gpos_end k pv) in *. set (p1 := gvadd k p0 (gvscale k u dir)). set (p2 := gvadd k p1 (gvscale k c dir)). set (p3 := gvadd k p2 (gvscale k w dir)).
    assert (W1 : wide (20000 + 51000) dir p1) by (apply wide_leg; [exact Ud|exact Wp|lra|lra]).
    assert (W2 : wide (20000 + 51000 + 51000) dir p2) by (apply wide_leg; [exact Ud|exact W1|lra|lra]).
    destruct (wide_short _ _ _ Wp ltac:(lra)) as [P0 K0]. destruct (wide_short _ _ _ W1 ltac:(lra)) as [P1 _]. destruct (wide_short _ _ _ W2 ltac:(lra)) as [P2 K2].
    assert (GA := seg_ok dir p0 u 0 v (gt_end k pv) ta Ud P0 ltac:(lra) ltac:(lra) ltac:(lra) T0 TD ltac:(lra) ltac:(lra) ltac:(eapply Rle_trans; [exact WU|unfold uu; lra])). fold t1 p1 in GA.
    assert (GB := seg_ok dir p1 c v v t1 tc Ud P1 ltac:(lra) ltac:(lra) ltac:(lra) ltac:(lra) D1 ltac:(lra) ltac:(lra) C2). fold t2 p2 in GB.
    assert (GC := seg_ok dir p2 w v 0 t2 ta Ud P2 ltac:(lra) ltac:(lra) ltac:(lra) ltac:(lra) D2 ltac:(lra) ltac:(lra) ltac:(eapply Rle_trans; [exact WD|unfold uu; lra])). fold t3 p3 in GC.
    assert (N0 := Hn 0 ltac:(left; reflexivity) ltac:(unfold uu; lra)). assert (Nv := Hn v ltac:(right; lra) ltac:(unfold uu; lra)).
    assert (FA := fits v _ _ _ _ _ _ _ Hv GA TD D1 N0 Nv). assert (FB := fits v _ _ _ _ _ _ _ Hv GB D1 D2 Nv Nv). assert (FC := fits v _ _ _ _ _ _ _ Hv GC D2 D3 Nv N0).
    rewrite GA. cbn [bind]. rewrite GB. cbn [bind]. rewrite GC. cbn [bind].
    unfold p1 at 2. rewrite (leg_kept dir p0 u _ _ _ _ Ud P0 K0 ltac:(lra)). fold p1.
    unfold p3 at 1. rewrite (leg_kept dir p2 w _ _ _ _ Ud P2 K2 ltac:(lra)). fold p3.
    eexists _, _, _, _. split; [cbn [try_runtime app]; reflexivity|]. cbn [gpos_begin gt_begin gvel_begin gvel_end gt_end].
    split; [constructor; [exact FA|]; apply Forall_app; split; [|constructor; [exact FC|constructor]];
      match goal with |- Forall _ (gkeep_seg k ?g) => destruct (kept_or rnd g) as [-> | ->] end; [constructor; [exact FB|constructor]|constructor]|].
    repeat (split; [reflexivity|]). split; [exact D3|]. split; [lra|].
    assert (SL : Rabs (ta + tc + ta - stop_in e v acc) <= 500 * (uu * stop_in e v acc)).
    { apply long_stop; [exact Hacc|exact Hw|exact EB| |].
      - replace (v * v / acc) with (2 * U) by (unfold U; field; lra). pose proof (long_sum acc d v Dd Long) as LS. fold u w in LS.
        destruct UA as [_ UA]. destruct DA as [_ DA]. destruct He as [_ He]. apply abs_inv in UA, DA, He. unfold uu in *. lra.
      - assert (CV : (d - 2 * U - 100 * (uu * d)) / v <= c / v <= (d - 2 * U + 100 * (uu * d)) / v) by (split; apply Rmult_le_compat_r; try lra; left; apply Rinv_0_lt_compat; lra).
        replace ((d - 2 * U - 100 * (uu * d)) / v) with ((1 - 100 * uu) * (d / v) - v / acc) in CV by (unfold U; field; lra).
        replace ((d - 2 * U + 100 * (uu * d)) / v) with ((1 + 100 * uu) * (d / v) - v / acc) in CV by (unfold U; field; lra).
        assert (DE : (1 - 9 * uu) * (e / v) <= d / v <= (1 + 9 * uu) * (e / v)).
        { replace ((1 - 9 * uu) * (e / v)) with ((1 - 9 * uu) * e / v) by (unfold Rdiv; ring). replace ((1 + 9 * uu) * (e / v)) with ((1 + 9 * uu) * e / v) by (unfold Rdiv; ring).
          destruct He as [_ He]. apply abs_inv in He. split; (apply Rmult_le_compat_r; [left; apply Rinv_0_lt_compat; lra|lra]). }
        assert (EV : 0 < e / v) by (apply Rmult_lt_0_compat; [lra|apply Rinv_0_lt_compat; lra]).
        destruct TA as [_ TA]. apply abs_inv in TA. apply Rabs_le. unfold uu in *. lra. }
    apply abs_inv in SL. apply Rabs_le. lra.
  - rewrite Rltb_false by exact Short.
    match goal with |- context[try_runtime (if ?c then _ else _)] => change c with (is_triangle rnd acc d 0 v 0) end.
    rewrite (is_tri acc d v Hacc Hw Hd Short). cbv zeta.
    pose proof (pk_v acc d v Hacc Hw Hd Short) as PV. destruct (half_about acc d Hacc Hd) as [HA HE].
    match goal with |- context[GSeg] => idtac | |- context[gvscale k ?q dir] => idtac end.
    set (pk := t_peak rnd acc d 0 0) in *.
    match goal with |- context[k_sqrt k ?e] => change (k_sqrt k e) with pk end.
    change (k_div k (k_mul k (k_sub k pk 0) (k_add k 0 pk)) (k_mul k 2 acc)) with (t_ramp rnd acc 0 pk).
    change (k_div k (k_sub k pk 0) acc) with (rnd (rnd (pk - 0) / acc)).
    assert (PW : 9 / 1000 <= pk <= 1001) by (unfold uu in *; lra).
    pose proof (way_up acc pk Hacc PW) as WP. pose proof (over_acc acc Hacc pk ltac:(lra)) as TQ. pose proof (about_pos _ _ _ TQ ltac:(lra)) as TR.
    pose proof (about_pos _ _ _ (up_about acc pk Hacc PW) ltac:(lra)) as HB.
    pose proof (about_pos _ _ _ HA ltac:(lra)) as HC.
    set (u := t_ramp rnd acc 0 pk) in *. set (ta := rnd (rnd (pk - 0) / acc)) in *.
    assert (PA : pk / acc <= (1 + 30 * uu) * (v / acc)). { replace ((1 + 30 * uu) * (v / acc)) with ((1 + 30 * uu) * v / acc) by (unfold Rdiv; ring). apply Rmult_le_compat_r; [left; apply Rinv_0_lt_compat; lra|lra]. }
    assert (TC : 0 <= ta /\ ta + ta <= l / v + 2 * (v / acc)).
    { assert (0 < pk / acc) by (apply Rmult_lt_0_compat; [lra|apply Rinv_0_lt_compat; lra]). destruct TQ as [_ TQ]. apply abs_inv in TQ. unfold uu in *. lra. }
    pose proof (rnd_time (gt_end k pv) ta T0 ltac:(lra) ltac:(lra)) as S1.
    pose proof (later (gt_end k pv) ta TD ltac:(lra)) as L1.
    change (k_add k (gt_end k pv) ta) with (rnd (gt_end k pv + ta)).
    set (t1 := rnd (gt_end k pv + ta)) in *. assert (D1 : rnd t1 = t1) by (unfold t1; apply idem).
    pose proof (rnd_time t1 ta ltac:(lra) ltac:(lra) ltac:(lra)) as S2. pose proof (later t1 ta D1 ltac:(lra)) as L2.
    change (k_add k t1 ta) with (rnd (t1 + ta)). set (t2 := rnd (t1 + ta)) in *. assert (D2 : rnd t2 = t2) by (unfold t2; apply idem).
    set (p0 := gpos_end k pv) in *. set (p1 := gvadd k p0 (gvscale k u dir)). set (p2 := gvadd k p1 (gvscale k u dir)).
    assert (W1 : wide (20000 + 51000) dir p1) by (apply wide_leg; [exact Ud|exact Wp|lra|lra]).
    destruct (wide_short _ _ _ Wp ltac:(lra)) as [P0 K0]. destruct (wide_short _ _ _ W1 ltac:(lra)) as [P1 K1].
    assert (WP' : Rabs (u - (0 + pk) / 2 * ta) <= / 100000000) by (eapply Rle_trans; [exact WP|unfold uu; lra]).
    assert (GA := seg_ok dir p0 u 0 pk (gt_end k pv) ta Ud P0 ltac:(lra) ltac:(lra) ltac:(lra) T0 TD ltac:(lra) ltac:(lra) WP'). fold t1 p1 in GA.
    assert (GC := seg_ok dir p1 u pk 0 t1 ta Ud P1 ltac:(lra) ltac:(lra) ltac:(lra) ltac:(lra) D1 ltac:(lra) ltac:(lra) ltac:(replace (pk + 0) with (0 + pk) by ring; exact WP')). fold t2 p2 in GC.
    assert (N0 := Hn 0 ltac:(left; reflexivity) ltac:(unfold uu; lra)). assert (Nv := Hn pk ltac:(right; lra) ltac:(lra)).
    assert (FA := fits v _ _ _ _ _ _ _ Hv GA TD D1 N0 Nv). assert (FC := fits v _ _ _ _ _ _ _ Hv GC D1 D2 Nv N0).
    rewrite GA. cbn [bind]. rewrite GC. cbn [bind].
    unfold p1 at 2. rewrite (leg_kept dir p0 u _ _ _ _ Ud P0 K0 ltac:(lra)). fold p1.
    unfold p2 at 1. rewrite (leg_kept dir p1 u _ _ _ _ Ud P1 K1 ltac:(lra)). fold p2.
    eexists _, [], _, _. split; [cbn [try_runtime app]; reflexivity|]. cbn [gpos_begin gt_begin gvel_begin gvel_end gt_end].
    split; [constructor; [exact FA|constructor; [exact FC|constructor]]|].
    repeat (split; [reflexivity|]). split; [exact D2|]. split; [lra|].
    assert (SL : Rabs (ta + ta - stop_in e v acc) <= 500 * (uu * stop_in e v acc)).
    { apply short_stop; [exact Hacc|exact Hw|exact EB| |].
      - replace (v * v / acc) with (2 * U) by (unfold U; field; lra). pose proof (short_U acc d v Hacc Hw Short) as SU. fold U in SU. destruct He as [_ He]. apply abs_inv in He. unfold uu in *. lra.
      - assert (AE : about 10 (acc * d) (acc * e)) by (eapply about_le; [apply about_mul; [apply about_refl; lra|exact He|lra|lra]|lra]).
        pose proof (about_sqrt _ _ _ AE ltac:(lra)) as AQ.
        assert (AP : about 21 pk (sqrt (acc * e))) by (eapply about_le; [eapply about_trans; [apply peak_about; assumption|exact AQ|lra|lra]|lra]).
        assert (AT : about 34 ta (sqrt (acc * e) / acc)) by (eapply about_le; [eapply about_trans; [exact TQ|apply about_div; [exact AP|apply about_refl; lra|lra|lra]|lra|lra]|lra]).
        destruct AT as [AT0 AT]. apply abs_inv in AT. apply Rabs_le. unfold uu in *. lra. }
    apply abs_inv in SL. apply Rabs_le. lra.
Qed.

(** * Lines *)
Lemma moving_ready A B dir : ordinary_state A -> ordinary_state B -> 1 / 1000 <= length3 A B -> gget_norm_dir k (gconnect_state k A B) = Some dir ->
  exists d, gmove_distance k A B = (d, false) /\ 99 / 100000 <= d <= 45000 /\ rnd d = d /\ d <= (1 + 10 * uu) * length3 A B /\ about 9 d (length3 A B) /\
    unit_like dir /\ plain dir /\ forall v, 9 / 1000 <= v <= 1001 -> about 300 (gnorm3 k (gvscale k v dir)) v.
Proof.
  intros OA OB L D. assert (FB : fine_state 1 1000 10000 B) by (destruct OB as (? & ? & ? & ? & ? & ? & ?); unfold fine_state; lra).
  assert (FA : fine_state 1 1000 10000 A) by (destruct OA as (? & ? & ? & ? & ? & ? & ?); unfold fine_state; lra).
  assert (TL : tiny <= length3 A B) by lra.
  pose proof (d_is rnd eta eta0 err pos r0 tiny_lt eta_lt A B TL) as Ed. pose proof (d_near rnd eta eta0 err pos tiny_lt eta_lt A B TL) as Nd.
  destruct (move_dir rnd eta 1 1000 10000 eta0 err pos r0 tiny_lt eta_lt A B FB TL dir D) as (Dx & Dy & Dz & _).
  pose proof (L_le rnd 1 1000 10000 A B FB FA) as LL.
  assert (Dd : forall x y z, rnd (rnorm rnd x y z) = rnorm rnd x y z) by (intros; unfold rnorm; apply idem).
  set (dx := gx k (gk_pos k B) - gx k (gk_pos k A)) in *. set (dy := gy k (gk_pos k B) - gy k (gk_pos k A)) in *. set (dz := gz k (gk_pos k B) - gz k (gk_pos k A)) in *.
  assert (EL : length3 A B = sqrt (dx * dx + dy * dy + dz * dz)) by reflexivity. set (l := length3 A B) in *.
  exists (rnorm rnd (rnd dx) (rnd dy) (rnd dz)). split; [exact Ed|]. apply abs_inv in Nd. split; [unfold uu in *; lra|]. split; [apply Dd|]. split; [unfold uu in *; lra|]. split; [split; [lra|apply Rabs_le; unfold uu in *; lra]|].
  destruct (abs_3 dx dy dz) as (Ax & Ay & Az). rewrite <- EL in Ax, Ay, Az.
  pose proof (unit_div dx l ltac:(lra) Ax) as Ux. pose proof (unit_div dy l ltac:(lra) Ay) as Uy. pose proof (unit_div dz l ltac:(lra) Az) as Uz.
  assert (N1 : dx / l * (dx / l) + dy / l * (dy / l) + dz / l * (dz / l) = 1).
  { replace (dx / l * (dx / l) + dy / l * (dy / l) + dz / l * (dz / l)) with ((dx * dx + dy * dy + dz * dz) / (l * l)) by (field; lra).
    assert (Q : l * l = dx * dx + dy * dy + dz * dz). { rewrite EL. apply sqrt_sqrt. pose proof (Rle_0_sqr dx). pose proof (Rle_0_sqr dy). pose proof (Rle_0_sqr dz). unfold Rsqr in *. lra. }
    rewrite <- Q. field. lra. }
  split; [|split].
  - unfold unit_like. apply abs_inv in Dx, Dy, Dz, Ux, Uy, Uz. repeat split; apply Rabs_le; unfold uu in *; lra.
  - unfold plain.
    assert (G : forall t u, Rabs (t - u) <= 56 * uu -> 1 / 2 <= Rabs t \/ u * u <= 3 / 10).
    { intros t u T. destruct (Rle_or_lt (1 / 2) (Rabs t)) as [|Q]; [left; assumption|right]. replace (u * u) with (Rabs u * Rabs u) by (rewrite <- Rabs_mult; apply Rabs_right, Rle_ge, Rle_0_sqr).
      assert (Rabs u <= 51 / 100). { pose proof (Rabs_triang_inv u t) as V. rewrite (Rabs_minus_sym u t) in V. unfold uu in *. lra. }
      assert (Rabs u * Rabs u <= 51 / 100 * (51 / 100)) by (apply sq_le; [apply Rabs_pos|lra]). lra. }
    destruct (G _ _ Dx) as [|Gx]; [auto|]. destruct (G _ _ Dy) as [|Gy]; [auto|]. destruct (G _ _ Dz) as [|Gz]; [auto|]. lra.
  - intros v Hv. rewrite norm3_k. cbn [gvscale gx gy gz Bk k_mul]. split; [lra|].
    assert (E : forall t u, Rabs (t - u) <= 56 * uu -> Rabs u <= 1 -> Rabs (rnd (t * v) - v * u) <= 60 * (uu * v)).
    { intros t u T Q. pose proof eta_small. assert (T1 : Rabs (t * v - v * u) <= 56 * uu * v). { replace (t * v - v * u) with ((t - u) * v) by ring. rewrite Rabs_mult, (Rabs_right v) by lra. apply Rmult_le_compat_r; lra. }
      assert (T2 : Rabs (v * u) <= v). { rewrite Rabs_mult, (Rabs_right v) by lra. replace v with (v * 1) at 2 by ring. apply Rmult_le_compat_l; lra. }
      pose proof (rnd_near rnd eta err (t * v) (v * u) _ _ T1 T2). unfold uu in *. lra. }
    pose proof (norm_near _ _ _ _ _ _ _ (E _ _ Dx Ux) (E _ _ Dy Uy) (E _ _ Dz Uz)) as N.
    set (a := rnd (gx k dir * v)) in *. set (b := rnd (gy k dir * v)) in *. set (c := rnd (gz k dir * v)) in *.
    assert (NS : sqrt (v * (dx / l) * (v * (dx / l)) + v * (dy / l) * (v * (dy / l)) + v * (dz / l) * (v * (dz / l))) = v).
    { replace (v * (dx / l) * (v * (dx / l)) + v * (dy / l) * (v * (dy / l)) + v * (dz / l) * (v * (dz / l))) with (v * v * (dx / l * (dx / l) + dy / l * (dy / l) + dz / l * (dz / l))) by ring.
      rewrite N1, Rmult_1_r. apply sqrt_square. lra. }
    rewrite NS in N. set (n := sqrt (a * a + b * b + c * c)) in *.
    assert (Q : n * n = a * a + b * b + c * c). { apply sqrt_sqrt. pose proof (Rle_0_sqr a). pose proof (Rle_0_sqr b). pose proof (Rle_0_sqr c). unfold Rsqr in *. lra. }
    assert (NB : 99 / 100 * v <= n <= 101 / 100 * v) by (apply abs_inv in N; unfold uu in *; lra). pose proof eta_small.
    pose proof (rnorm_near rnd eta eta0 err pos a b c n ltac:(lra) Q ltac:(unfold uu in *; lra)) as RN.
    assert (NN : 99 / 100 * (9 / 1000) * (99 / 100 * (9 / 1000)) <= n * n) by (apply sq_le; lra). specialize (RN ltac:(unfold uu in *; lra)).
    apply abs_inv in RN, N. apply Rabs_le. unfold uu in *. lra.
Qed.
Lemma turning_ready A B dir : ordinary_state A -> ordinary_state B -> near 0 (gk_pos k B) (gk_pos k A) -> 1 / 1000 <= extruded A B -> gget_norm_dir k (gconnect_state k A B) = Some dir ->
  exists d, gmove_distance k A B = (d, true) /\ 99 / 100000 <= d <= 45000 /\ rnd d = d /\ d <= (1 + 10 * uu) * extruded A B /\ about 9 d (extruded A B) /\
    unit_like dir /\ 1 / 2 <= Rabs (ge k dir) <= 101 / 100 /\ about 300 (gnorm4 k (gvscale k (gk_speed k B) dir)) (gk_speed k B).
Proof.
  intros OA OB N L D. assert (FB : fine_state 1 1000 10000 B) by (destruct OB as (? & ? & ? & ? & ? & ? & ?); unfold fine_state; lra).
  unfold extruded in *. set (e := ge k (gk_pos k B) - ge k (gk_pos k A)) in *.
  assert (Le : Rabs e <= 20000). { destruct OA as (_ & _ & _ & _ & _ & _ & EA). destruct OB as (_ & _ & _ & _ & _ & _ & EB). apply abs_inv in EA, EB. unfold e. apply Rabs_le. lra. }
  assert (TL : tiny <= Rabs e) by lra.
  destruct (x_d rnd eta err r0 tiny_lt eta_lt A B N TL) as (d & Ed & Nd). fold e in Nd.
  pose proof (x_dir rnd eta 1 1000 10000 err r0 tiny_lt eta_lt A B FB N TL dir D) as De. fold e in De.
  destruct (still_dir rnd r0 A B dir N D) as (X & Y & Z).
  exists d. split; [exact Ed|]. apply abs_inv in Nd. split; [unfold uu in *; lra|]. split; [|split; [unfold uu in *; lra|split; [split; [lra|apply Rabs_le; unfold uu in *; lra]|]]].
  { unfold gmove_distance in Ed. destruct (k_eqb k _ _) in Ed; [|discriminate]. injection Ed as <-. unfold gt_distance, gnorm4. cbn [Bk k_sqrt]. apply idem. }
  split; [unfold unit_like; rewrite X, Y, Z, Rabs_R0; lra|].
  assert (S : e / Rabs e = 1 \/ e / Rabs e = - 1).
  { unfold Rabs in *. destruct (Rcase_abs e); [right|left]; field; lra. }
  split; [destruct S as [S|S]; rewrite S in De; apply abs_inv in De; split|].
  - rewrite Rabs_right; unfold uu in *; lra.
  - rewrite Rabs_right; unfold uu in *; lra.
  - rewrite Rabs_left; unfold uu in *; lra.
  - rewrite Rabs_left; unfold uu in *; lra.
  - destruct OB as (Hv & _). set (v := gk_speed k B) in *. cbn [Bk K] in v. split; [lra|].
    rewrite (r1_is rnd r0) by (cbn [gvscale gx gy gz Bk k_mul]; rewrite ?X, ?Y, ?Z; apply mul0; exact r0). cbn [gvscale ge Bk k_mul].
    pose proof eta_small.
    assert (T1 : Rabs (ge k dir * v - e / Rabs e * v) <= 56 * uu * v). { replace (ge k dir * v - e / Rabs e * v) with ((ge k dir - e / Rabs e) * v) by ring. rewrite Rabs_mult, (Rabs_right v) by lra. apply Rmult_le_compat_r; lra. }
    assert (T2 : Rabs (e / Rabs e * v) <= v) by (destruct S as [S|S]; rewrite S; apply Rabs_le; lra).
    pose proof (rnd_near rnd eta err _ _ _ _ T1 T2) as T3. set (w := rnd (ge k dir * v)) in *.
    assert (T4 : Rabs (Rabs w - v) <= 60 * (uu * v)).
    { apply abs_inv in T3. destruct S as [S|S]; rewrite S in T3; [rewrite (Rabs_right w) by (unfold uu in *; lra)|rewrite (Rabs_left w) by (unfold uu in *; lra)]; apply Rabs_le; unfold uu in *; lra. }
    apply abs_inv in T4. assert (WB : 99 / 100 * v <= Rabs w <= 101 / 100 * v) by (unfold uu in *; lra).
    assert (NN : 99 / 100 * (1 / 100) * (99 / 100 * (1 / 100)) <= Rabs w * Rabs w) by (apply sq_le; lra).
    pose proof (r1_near rnd eta err w (Rabs w) eq_refl ltac:(lra) ltac:(unfold uu in *; lra) ltac:(unfold uu in *; lra)) as RN.
    apply abs_inv in RN. apply Rabs_le. unfold uu in *. lra.
Qed.

Definition zero3 (v : gvec k) : Prop := gx k v = 0 /\ gy k v = 0 /\ gz k v = 0.
Lemma zero3_norm v : zero3 v -> gnorm3 k v = 0.
Proof. intros (X & Y & Z). rewrite norm3_k, X, Y, Z. apply rnorm_0, r0. Qed.
Lemma zero3_scale d : zero3 (gvscale k 0 d).
Proof. unfold zero3. cbn [gvscale gx gy gz Bk k_mul]. rewrite !Rmult_0_r, r0. auto. Qed.
Lemma zero3_zero : zero3 (gzero k).
Proof. unfold zero3, gzero. rewrite (dec_0 rnd r0). auto. Qed.
Lemma dwell_ok t p q : 0 <= t -> rnd t = t -> 0 <= p -> t + p <= 1000000 -> Rabs (gx k q) <= 20000 -> Rabs (gy k q) <= 20000 -> Rabs (gz k q) <= 20000 ->
  gmk_segment k t (rnd (t + p)) q q (gzero k) (gzero k) = Ok (GSeg k t (rnd (t + p)) q q (gzero k) (gzero k)).
Proof.
  intros T0 TD P0 TP X Y Z. unfold gmk_segment, gself_check. cbn [gpos_end gt_end gt_begin]. cbn [Bk k_ltb k_dec]. rewrite (Rltb_false (rnd (t + p)) t) by (apply later; assumption).
  rewrite Rltb_false; [reflexivity|]. pose proof eta_small.
  rewrite norm3_k. unfold gpredicted_end, gzero. rewrite (dec_0 rnd r0). cbn [gvsub gvadd gvscale gvdiv gx gy gz Bk k_sub k_add k_mul k_div gpos_begin gt_end gt_begin gvel_begin gvel_end]. rewrite (dec_2 rnd r2).
  rewrite !Rplus_0_r, !r0, !Rmult_0_l, !r0. replace (0 / 2) with 0 by field. rewrite !r0, !Rplus_0_r.
  assert (S : forall w, Rabs w <= 20000 -> Rabs (rnd (w - rnd w)) <= / 1000000000).
  { intros w W. pose proof (near_ rnd eta err w 20000 W) as E. pose proof (near_ rnd eta err (w - rnd w) 1 ltac:(apply Rabs_le; unfold uu in *; lra)). apply Rabs_le. unfold uu in *. lra. }
  assert (S2 : forall w, Rabs w <= / 1000000000 -> w * w <= / 1000000000 * / 1000000000). { intros w T. replace (w * w) with (Rabs w * Rabs w) by (rewrite <- Rabs_mult; apply Rabs_right, Rle_ge, Rle_0_sqr). apply sq_le; [apply Rabs_pos|exact T]. }
  pose proof (S2 _ (S _ X)). pose proof (S2 _ (S _ Y)). pose proof (S2 _ (S _ Z)).
  destruct (rnorm_le rnd eta eta0 err pos (rnd (gx k q - rnd (gx k q))) (rnd (gy k q - rnd (gy k q))) (rnd (gz k q - rnd (gz k q))) (2 / 1000000000) ltac:(lra)) as [_ R]; [lra|unfold uu in *; lra|unfold uu in *; lra|].
  eapply Rle_trans; [exact R|]. replace (r_of_dec 1 (-6)) with (/ 1000000) by (unfold r_of_dec; cbn; lra). pose proof (lo_ rnd eta err (/ 1000000) ltac:(lra)). unfold uu in *. lra.
Qed.
Lemma last_app (l : list (gsegment k)) s : glast_seg k (l ++ [s]) = Ok s.
Proof. unfold glast_seg. rewrite rev_app_distr. reflexivity. Qed.

(** A block that begins at rest after [pv] and ends at rest at most [c] and
    about [z] later *)
Definition resting (pv : gsegment k) (c z : R) (b : gblock k) : Prop :=
  exists f l, gfirst_seg k (gb_segs k b) = Ok f /\ glast_seg k (gb_segs k b) = Ok l /\
    Forall (fit (gk_speed k (gb_B k b))) (gb_segs k b) /\ gt_begin k f = gt_end k pv /\
    gpos_begin k f = gpos_end k pv /\ zero3 (gvel_begin k f) /\ zero3 (gvel_end k l) /\
    rnd (gt_end k l) = gt_end k l /\ gt_end k pv <= gt_end k l <= gt_end k pv + c + / 1000000000 /\
    Rabs (gt_end k l - gt_end k pv - z) <= 4 / 10000000000 + 500 * (uu * z).
Lemma length3_still A B : near 0 (gk_pos k B) (gk_pos k A) -> length3 A B = 0.
Proof.
  intros (X & Y & Z). unfold length3. apply abs_inv in X, Y, Z. cbv zeta.
  replace (gx k (gk_pos k B) - gx k (gk_pos k A)) with 0 by lra. replace (gy k (gk_pos k B) - gy k (gk_pos k A)) with 0 by lra. replace (gz k (gk_pos k B) - gz k (gk_pos k A)) with 0 by lra.
  rewrite !Rmult_0_l, !Rplus_0_l. apply sqrt_0.
Qed.
Lemma near_same p q : p = q -> near (rnd := rnd) 0 p q.
Proof. intros ->. unfold near. rewrite !Rminus_diag_eq, Rabs_R0 by reflexivity. lra. Qed.
Lemma still_none A B : gk_pos k B = gk_pos k A -> gget_norm_dir k (gconnect_state k A B) = None.
Proof. intros E. destruct (gget_norm_dir k _) as [d|] eqn:D; [|reflexivity]. exfalso. apply (no_dir rnd r0 A B d); [apply near_same; exact E|rewrite E; reflexivity|exact D]. Qed.
Lemma ordinary_fine (s : gkstate k) : ordinary_state s -> fine_state 1 1000 10000 s.
Proof. intros (? & ? & ? & ? & ? & ? & ?). unfold fine_state. lra. Qed.

Lemma stop_moving (A B : gkstate k) : gk_pause k B = None -> length3 A B <> 0 -> stop_time (exact_state A) (exact_state B) = stop_in (length3 A B) (gk_speed k B) (gk_acc k B).
Proof.
  intros P N. unfold stop_time, move_length. cbv zeta. change (norm3 (vsub (k_pos (exact_state B)) (k_pos (exact_state A)))) with (length3 A B). unfold exact_state. cbn [k_pause k_speed k_acc]. rewrite P.
  destruct (Req_EM_T (length3 A B) 0) as [C|_]; [contradiction|]. reflexivity.
Qed.
Lemma stop_turning (A B : gkstate k) : gk_pause k B = None -> length3 A B = 0 -> stop_time (exact_state A) (exact_state B) = stop_in (extruded A B) (gk_speed k B) (gk_acc k B).
Proof.
  intros P N. unfold stop_time, move_length. cbv zeta. change (norm3 (vsub (k_pos (exact_state B)) (k_pos (exact_state A)))) with (length3 A B). unfold exact_state. cbn [k_pause k_speed k_acc k_pos]. rewrite P.
  destruct (Req_EM_T (length3 A B) 0) as [_|C]; [reflexivity|contradiction].
Qed.
Lemma stop_still (A B : gkstate k) : gk_pause k B = None -> ordinary_state B -> gk_pos k B = gk_pos k A -> stop_time (exact_state A) (exact_state B) = 0.
Proof.
  intros P (Hv & Hacc & _) E. rewrite (stop_turning A B P (length3_still A B (near_same _ _ E))). unfold extruded, stop_in. rewrite E, Rminus_diag_eq, Rabs_R0 by reflexivity.
  destruct (Rlt_dec _ 0) as [C|_]; [|unfold Rdiv; rewrite Rmult_0_l, sqrt_0; ring]. exfalso.
  assert (0 <= gk_speed k B * gk_speed k B / gk_acc k B); [|cbn [Bk K] in *; lra]. apply Rmult_le_pos; [apply Rle_0_sqr|left; apply Rinv_0_lt_compat; lra].
Qed.
Lemma line_ok A B rest prev pv : ordinary_state A -> ordinary_state B -> ordinary_step A B -> (gk_pause k B <> None -> prev <> None) ->
  gprevious_segment k A prev = Ok pv -> inside rnd 10000 True (gpos_end k pv) -> zero3 (gvel_end k pv) ->
  0 <= gt_end k pv -> rnd (gt_end k pv) = gt_end k pv -> gt_end k pv + line_time A B + / 1000000000 <= 1000000 ->
  exists ob, gplanner_block k FullStop (Some A) B rest prev = Ok ob /\
    match ob with None => gk_pos k B = gk_pos k A | Some b => resting pv (line_time A B) (stop_time (exact_state A) (exact_state B)) b end /\ (ob = None -> stop_time (exact_state A) (exact_state B) = 0).
Proof.
  intros OA OB St Pz Ep (Ix & Iy & Iz & Ie) Zv T0 TD Tb. specialize (Ie I). unfold gplanner_block.
  assert (HB := OB). destruct HB as (Hv & Hacc & _). rewrite (dec_0 rnd r0). cbn [Bk k_leb]. rewrite (Rleb_false (gk_acc k B) 0) by lra. cbv zeta.
  change (gtarget_vel k (gmk_junction k (Some A) B rest)) with (gconnect_state k A B).
  assert (VP : 0 <= gk_speed k B / gk_acc k B) by (apply Rmult_le_pos; [lra|left; apply Rinv_0_lt_compat; lra]).
  assert (LP : 0 <= length3 A B) by apply sqrt_pos. assert (XP : 0 <= extruded A B) by apply Rabs_pos.
  assert (I0 : 0 <= / gk_speed k B) by (left; apply Rinv_0_lt_compat; lra).
  assert (WP : 0 <= (length3 A B + extruded A B) / gk_speed k B) by (apply Rmult_le_pos; [lra|exact I0]).
  unfold ordinary_step in St. unfold line_time in *. destruct (gk_pause k B) as [p|] eqn:Zp.
  - destruct St as [P0 S]. rewrite (still_none A B S). cbn [bind]. destruct prev as [pb|]; [|contradiction Pz; [discriminate|reflexivity]].
    cbn [gprevious_segment] in Ep. rewrite Ep. cbn [bind]. change (k_add k (gt_end k pv) p) with (rnd (gt_end k pv + p)).
    assert (D0 := dwell_ok (gt_end k pv) p (gpos_end k pv) T0 TD P0 ltac:(lra) ltac:(lra) ltac:(lra) ltac:(lra)). change (gmk_segment k) with (gmk_segment (Bk rnd)). rewrite D0. cbn [bind].
    eexists. split; [reflexivity|]. split; [|discriminate]. cbv beta iota. eexists _, _. cbn [gb_segs]. split; [reflexivity|]. split; [reflexivity|]. cbn [gpos_begin gvel_begin gvel_end gt_end gt_begin gb_B].
    assert (NZ : gnorm3 k (gzero k) <= (1 + / 1000000) * gk_speed k B) by (rewrite (zero3_norm _ zero3_zero); lra).
    split; [constructor; [exact (fits _ _ _ _ _ _ _ _ Hv D0 TD (idem _) NZ NZ)|constructor]|].
    split; [reflexivity|]. split; [reflexivity|]. split; [exact zero3_zero|]. split; [exact zero3_zero|]. split; [apply idem|].
    pose proof (later (gt_end k pv) p TD P0). pose proof (rnd_time (gt_end k pv) p T0 P0 ltac:(lra)). split; [lra|].
    replace (stop_time (exact_state A) (exact_state B)) with p by (unfold stop_time, exact_state; cbn [k_pause]; rewrite Zp; reflexivity). apply Rabs_le. unfold uu. lra.
  - rewrite Rplus_0_r in *. destruct St as [S|[[N X]|[L X]]].
    + rewrite (still_none A B S). cbn [bind]. eexists. split; [reflexivity|]. split; [exact S|]. intros _. exact (stop_still A B Zp OB S).
    + destruct (x_not_zero rnd eta 1 1000 10000 err r0 tiny_lt eta_lt A B (ordinary_fine B OB) N ltac:(unfold extruded in X; lra)) as [Z1 Z2].
      destruct (gget_norm_dir k (gconnect_state k A B)) as [dir|] eqn:D; [|contradiction Z2; reflexivity]. rewrite Z1, Ep. cbn [bind].
      destruct (turning_ready A B dir OA OB N X D) as (d & Ed & Hd & Dd & Hl & He & Ud & Pd & Hn).
      rewrite (stop_turning A B Zp (length3_still A B N)). rewrite (length3_still A B N), Rplus_0_l in *.
      destruct (move_made A B dir pv d true (extruded A B) (extruded A B) Ed Hv Hacc Hd Dd Hl He Ud) as (sA & mid & sC & ty & Em & MF & M1 & M2 & M3 & M4 & M5 & M6 & M7).
      * unfold wide. repeat (split; [lra|]). right. split; [exact Pd|lra].
      * exact (zero3_norm _ Zv).
      * intros w _ _. destruct (still_dir rnd r0 A B dir N D) as (X1 & X2 & X3). rewrite zero3_norm; [lra|]. unfold zero3. cbn [gvscale gx gy gz Bk k_mul]. rewrite X1, X2, X3, mul0 by exact r0. auto.
      * exact Hn.
      * exact T0.
      * exact TD.
      * exact Tb.
      * cbn [gjunction_vel]. rewrite (dec_0 rnd r0). rewrite Em. cbn [bind]. eexists. split; [reflexivity|]. split; [|discriminate]. cbv beta iota. exists sA, sC. cbn [gb_segs]. split; [reflexivity|]. split; [exact (last_app (sA :: mid) sC)|].
        split; [exact MF|]. split; [exact M2|]. split; [exact M1|]. rewrite M3, M4. split; [apply zero3_scale|]. split; [apply zero3_scale|]. split; [exact M5|]. split; [exact M6|exact M7].
    + destruct (moving_not_zero rnd eta 1 1000 10000 eta0 err pos r0 tiny_lt eta_lt A B (ordinary_fine B OB) ltac:(lra)) as [Z1 Z2].
      destruct (gget_norm_dir k (gconnect_state k A B)) as [dir|] eqn:D; [|contradiction Z2; reflexivity]. rewrite Z1, Ep. cbn [bind].
      rewrite (stop_moving A B Zp) by lra.
      destruct (moving_ready A B dir OA OB L D) as (d & Ed & Hd & Dd & Hl & He & Ud & Pd & Hn).
      destruct (move_made A B dir pv d false (length3 A B + extruded A B) (length3 A B) Ed Hv Hacc Hd Dd ltac:(unfold uu in *; lra) He Ud) as (sA & mid & sC & ty & Em & MF & M1 & M2 & M3 & M4 & M5 & M6 & M7).
      * unfold wide. repeat (split; [lra|]). left. exact Pd.
      * exact (zero3_norm _ Zv).
      * intros w [-> |W1] W2; [rewrite (zero3_norm _ (zero3_scale dir)); lra|]. pose proof (Hn w ltac:(unfold uu in *; lra)) as [_ Q]. apply abs_inv in Q. unfold uu in *. lra.
      * apply Hn. lra.
      * exact T0.
      * exact TD.
      * exact Tb.
      * cbn [gjunction_vel]. rewrite (dec_0 rnd r0). rewrite Em. cbn [bind]. eexists. split; [reflexivity|]. split; [|discriminate]. cbv beta iota. exists sA, sC. cbn [gb_segs]. split; [reflexivity|]. split; [exact (last_app (sA :: mid) sC)|].
        split; [exact MF|]. split; [exact M2|]. split; [exact M1|]. rewrite M3, M4. split; [apply zero3_scale|]. split; [apply zero3_scale|]. split; [exact M5|]. split; [exact M6|exact M7].
Qed.

(** * All lines *)
Definition joint (b n : gblock k) : Prop :=
  exists l f, glast_seg k (gb_segs k b) = Ok l /\ gfirst_seg k (gb_segs k n) = Ok f /\ zero3 (gvel_end k l) /\ zero3 (gvel_begin k f) /\ gpos_end k l = gpos_begin k f /\ gt_end k l = gt_begin k f.
Fixpoint joints (l : list (gblock k)) : Prop :=
  match l with
  | b :: r => match r with n :: _ => joint b n | [] => exists s, glast_seg k (gb_segs k b) = Ok s end /\ joints r
  | [] => True
  end.
Lemma joints_snoc l b n : joints (l ++ [b]) -> joint b n -> (exists s, glast_seg k (gb_segs k n) = Ok s) -> joints ((l ++ [b]) ++ [n]).
Proof.
  induction l as [|a l IH]; intros G J E.
  - cbn in *. auto.
  - cbn [app] in *. destruct G as [G1 G2]. specialize (IH G2 J E). split; [|exact IH]. destruct l as [|a' l]; cbn [app] in *; exact G1.
Qed.
Lemma close_refl x : gisclose k x x = true.
Proof.
  unfold gisclose. cbn [Bk k_leb k_abs k_sub k_add k_mul k_dec]. rewrite Rminus_diag_eq, r0, Rabs_R0 by reflexivity. apply Rleb_true. apply pos, Rplus_le_le_0_compat.
  - apply pos. unfold r_of_dec. cbn. lra.
  - apply pos, Rmult_le_pos; [apply pos; unfold r_of_dec; cbn; lra|apply Rabs_pos].
Qed.
Lemma eq_refl_ x : Reqb x x = true. Proof. unfold Reqb. destruct (Req_EM_T x x); [reflexivity|lra]. Qed.
Definition fits_all (b : gblock k) : Prop := Forall (fit (gk_speed k (gb_B k b))) (gb_segs k b).
Lemma shift_0 b : fits_all b -> gtimeshift k 0 b = b.
Proof.
  unfold fits_all, gtimeshift, gset_segs. intros F. destruct b as [A B d segs ty x j]. cbn [gb_A gb_B gb_dir gb_segs gb_type gb_extr gb_JD] in *. f_equal.
  induction F as [|s l (_ & D0 & D1) F IH]; [reflexivity|]. cbn [map]. rewrite IH. f_equal. destruct s as [s1 s2 s3 s4 s5 s6]. unfold gmove_segment_time. cbn [gt_begin gt_end gpos_begin gpos_end gvel_begin gvel_end Bk k_add] in *. rewrite !Rplus_0_r, D0, D1. reflexivity.
Qed.
Lemma no_warning b : fits_all b -> gadherence_warning k b = false.
Proof. unfold fits_all, gadherence_warning. intros F. induction F as [|s l (E & _) F IH]; [reflexivity|]. cbn [existsb]. rewrite E, IH. reflexivity. Qed.
Lemma joined_ok prevs b n : joint b n -> fits_all b -> fits_all n -> gself_correction k prevs b n = Ok (prevs, b, n, false).
Proof.
  intros (l & f & El & Ef & Zl & Zf & P & T) Fb Fn.
  assert (F : gflag_correct k l f = false).
  { unfold gflag_correct. rewrite (zero3_norm _ Zl), (zero3_norm _ Zf). cbn [Bk k_eqb]. rewrite eq_refl_. reflexivity. }
  assert (G : gcheck_continuity k l f = Ok tt).
  { unfold gcheck_continuity. rewrite P. unfold gveqb. rewrite !close_refl. reflexivity. }
  assert (D : k_sub k (gt_end k l) (gt_begin k f) = 0) by (rewrite T; cbn [Bk k_sub]; rewrite Rminus_diag_eq by reflexivity; exact r0).
  destruct prevs as [|p ps]; cbn [gself_correction]; rewrite El, Ef; cbn [bind]; rewrite F; cbn [bind]; rewrite El; cbn [bind]; rewrite D, (shift_0 n Fn), Ef; cbn [bind]; rewrite G; cbn [bind orb]; rewrite (no_warning b Fb); reflexivity.
Qed.
Lemma corrected rest : forall prevs b, joints (b :: rest) -> Forall fits_all (b :: rest) -> gcorrect_from k prevs b rest = Ok (rev prevs ++ b :: rest, false).
Proof.
  induction rest as [|n rest IH]; intros prevs b G F; inversion F as [|? ? Fb F']; subst.
  - cbn [gcorrect_from rev]. rewrite (no_warning b Fb). reflexivity.
  - destruct G as [J G]. inversion F' as [|? ? Fn _]; subst. cbn [gcorrect_from]. rewrite (joined_ok prevs b n J Fb Fn). cbn [bind].
    rewrite (IH (b :: prevs) n G F'). cbn [bind orb rev]. rewrite <- app_assoc. reflexivity.
Qed.
Lemma line_pos (A B : gkstate k) : ordinary_state B -> ordinary_step A B -> 0 <= line_time A B.
Proof.
  intros (Hv & Hacc & _) S. assert (0 <= gk_speed k B / gk_acc k B) by (apply Rmult_le_pos; [lra|left; apply Rinv_0_lt_compat; lra]).
  assert (0 <= (length3 A B + extruded A B) / gk_speed k B). { apply Rmult_le_pos; [apply Rplus_le_le_0_compat; [apply sqrt_pos|apply Rabs_pos]|left; apply Rinv_0_lt_compat; lra]. }
  unfold line_time. unfold ordinary_step in S. destruct (gk_pause k B); [destruct S|]; lra.
Qed.
Lemma time_pos l : forall (m : Prop) (C : gkstate k), (forall i X, nth_error l i = Some X -> ordinary_state X) -> ordinary_steps m C l -> 0 <= program_time C l.
Proof.
  induction l as [|X l IH]; intros m C F G; [cbn; lra|]. cbn [program_time]. destruct G as (G1 & _ & G2).
  pose proof (IH _ X (fun i Y E => F (S i) Y E) G2). pose proof (line_pos C X (F O X eq_refl) G1). lra.
Qed.
Lemma stop_pos (A B : gkstate k) : ordinary_state B -> ordinary_step A B -> 0 <= stop_time (exact_state A) (exact_state B).
Proof.
  intros (Hv & Hacc & _) S. unfold stop_time. cbv zeta. unfold exact_state at 1. cbn [k_pause]. unfold ordinary_step in S. destruct (gk_pause k B) as [p|]; [apply S|].
  destruct (Rlt_dec _ _) as [C|C]; [|assert (Q := sqrt_pos (move_length (exact_state A) (exact_state B) / k_acc (exact_state B))); lra].
  unfold exact_state in *. cbn [k_speed k_acc] in *. set (L := move_length _ _) in *. assert (I0 : 0 < / gk_speed k B) by (apply Rinv_0_lt_compat; lra). assert (I1 : 0 < / gk_acc k B) by (apply Rinv_0_lt_compat; lra).
  assert (0 <= gk_speed k B * gk_speed k B / gk_acc k B) by (apply Rmult_le_pos; [apply Rle_0_sqr|lra]).
  apply Rplus_le_le_0_compat; apply Rmult_le_pos; lra.
Qed.
Section All.
Variable ks : list (gkstate k).
Hypothesis Hord : forall n A, nth_error ks n = Some A -> ordinary_state A.
Hypothesis Hstep : forall n A B, nth_error ks n = Some A -> nth_error ks (S n) = Some B -> ordinary_step A B.
Hypothesis HN : INR (length ks) <= 1000000000.
Lemma Hfine_ n A : nth_error ks n = Some A -> fine_state 1 1000 10000 A.
Proof. intros E. apply ordinary_fine. eapply Hord, E. Qed.
Lemma HfineE_ : True -> forall n A, nth_error ks n = Some A -> Rabs (ge k (gk_pos k A)) <= 10000.
Proof. intros _ n A E. apply (Hord n A E). Qed.
Lemma Hfstep_ n A B : nth_error ks n = Some A -> nth_error ks (S n) = Some B -> fine_step A B.
Proof.
  intros EA EB. pose proof (Hstep n A B EA EB) as S. pose proof (Hord _ _ EB) as (Hv & Hacc & _). unfold ordinary_step in S. split.
  - intros P. destruct (gk_pause k B) as [p|]; [apply S|contradiction P; reflexivity].
  - destruct (gk_pause k B) as [p|]; [left; apply near_same, S|]. destruct S as [S|[[S _]|[S _]]]; [left; apply near_same, S|left; exact S|right].
    split; [lra|]. assert (gk_speed k B * gk_speed k B <= 1000 * 1000) by (apply sq_le; lra).
    assert (1 * (1 / 1000) <= gk_acc k B * length3 A B) by (apply Rmult_le_compat; lra). unfold uu. lra.
Qed.
Lemma HstepE_ : True -> forall n A B, nth_error ks n = Some A -> nth_error ks (S n) = Some B -> fine_extrusion A B.
Proof.
  intros _ n A B EA EB. pose proof (Hstep n A B EA EB) as S. pose proof (Hord _ _ EB) as (Hv & Hacc & _). unfold ordinary_step, extruded in S. unfold fine_extrusion. cbv zeta.
  assert (Same : gk_pos k B = gk_pos k A -> (near 0 (gk_pos k B) (gk_pos k A) -> ge k (gk_pos k B) = ge k (gk_pos k A) \/
     tiny <= Rabs (ge k (gk_pos k B) - ge k (gk_pos k A)) /\ 33 * uu * (gk_speed k B * gk_speed k B) <= gk_acc k B * Rabs (ge k (gk_pos k B) - ge k (gk_pos k A))) /\
     (tiny <= length3 A B -> Rabs (ge k (gk_pos k B) - ge k (gk_pos k A)) <= length3 A B)).
  { intros E. split; [intros _; left; rewrite E; reflexivity|]. rewrite (length3_still A B (near_same _ _ E)). lra. }
  destruct (gk_pause k B) as [p|]; [apply Same, S|]. destruct S as [S|[[S X]|[S X]]]; [apply Same, S| |].
  - split.
    + intros _. right. split; [lra|]. assert (gk_speed k B * gk_speed k B <= 1000 * 1000) by (apply sq_le; lra).
      assert (1 * (1 / 1000) <= gk_acc k B * Rabs (ge k (gk_pos k B) - ge k (gk_pos k A))) by (apply Rmult_le_compat; lra). unfold uu. lra.
    + rewrite (length3_still A B S). lra.
  - split; [|intros _; exact X]. intros N. rewrite (length3_still A B N) in S. lra.
Qed.
Lemma HN_ : INR (length ks) * (2 * eps 1 1000 10000) <= 10000.
Proof. assert (E : 0 <= 2 * eps 1 1000 10000 <= / 1000000) by (unfold eps, uu; lra). assert (INR (length ks) * (2 * eps 1 1000 10000) <= 1000000000 * / 1000000); [|lra]. pose proof (pos_INR (length ks)). apply Rmult_le_compat; lra. Qed.
Notation laid_ := (laid rnd 1 1000 10000 True ks).
Definition calm (A : gkstate k) (done : list (gblock k)) (t z e : R) : Prop :=
  exists pv, gprevious_segment k A (hd_error done) = Ok pv /\ zero3 (gvel_end k pv) /\ 0 <= gt_end k pv <= t /\ rnd (gt_end k pv) = gt_end k pv /\ Rabs (gt_end k pv - z) <= e + / 10000000000000 * z.
Lemma gen_all states : forall n A idx done t z e (moving : Prop), nth_error ks n = Some A -> (forall i, nth_error states i = nth_error ks (S n + i)) ->
  laid_ n idx done -> calm A done t z e -> joints (rev done) -> Forall fits_all (rev done) -> (moving -> done <> []) -> ordinary_steps moving A states ->
  t + program_time A states + INR (length states) * / 1000000000 <= 1000000 ->
  exists bl, ggen_blocks k FullStop (Some A) states done = Ok bl /\ joints bl /\ Forall fits_all bl /\
    exists C pv, gprevious_segment k C (hd_error (rev bl)) = Ok pv /\
      Rabs (gt_end k pv - (z + stop_times A states)) <= e + INR (length states) * / 1000000000 + / 10000000000000 * (z + stop_times A states).
Proof.
  induction states as [|B states IH]; intros n A idx done t z e moving EA Ht LD C J Fa Mv St Tb.
  - exists (rev done). split; [reflexivity|]. split; [exact J|]. split; [exact Fa|]. destruct C as (pv & Ep & _ & _ & _ & Ze). exists A, pv. rewrite rev_involutive. split; [exact Ep|].
    cbn [stop_times length]. change (INR 0) with 0. rewrite Rmult_0_l, !Rplus_0_r. exact Ze.
  - assert (EB : nth_error ks (S n) = Some B). { rewrite <- (Nat.add_0_r (S n)), <- Ht. reflexivity. }
    destruct St as (St1 & St2 & St3). cbn [program_time] in Tb. change (length (B :: states)) with (S (length states)) in Tb. rewrite S_INR in Tb.
    destruct C as (pv & Ep & Zv & Tv & Dv & Ze).
    assert (P0 : 0 <= program_time B states). { apply (time_pos states _ B) with (2 := St3). intros i X E. apply (Hord (S n + S i)). rewrite <- (Ht (S i)). exact E. }
    assert (N0 : 0 <= INR (length states) * / 1000000000) by (apply Rmult_le_pos; [apply pos_INR|lra]).
    assert (In : inside rnd 10000 True (gpos_end k pv)).
    { destruct LD as (F & _ & T). eapply (inside_near rnd 1 1000 10000 True tiny_lt ltac:(lra) ltac:(lra) ks Hfine_ HfineE_ HN_); [exact EA|].
      eapply (prev_near rnd 1 1000 10000 True tiny_lt ltac:(lra) ltac:(lra) ks); [exact EA|exact F|exact T|exact Ep]. }
    destruct (line_ok A B states (hd_error done) pv (Hord _ _ EA) (Hord _ _ EB) St1) as (ob & Eo & Ho & Hz).
    + intros P. specialize (Mv (St2 P)). destruct done; [contradiction Mv; reflexivity|discriminate].
    + exact Ep.
    + exact In.
    + exact Zv.
    + lra.
    + exact Dv.
    + lra.
    + cbn [ggen_blocks]. change (ggen_blocks k) with (ggen_blocks (Bk rnd)). rewrite Eo. cbn [bind].
      destruct (plan_step rnd eta 1 1000 10000 True eta0 err pos neg r0 r2 tiny_lt eta_lt ltac:(lra) ltac:(lra) ltac:(lra) ltac:(lra) ks Hfine_ Hfstep_ HfineE_ HstepE_ HN_ FullStop n A B states idx done ob EA EB LD Eo) as (idx' & LD').
      pose proof (line_pos A B (Hord _ _ EB) St1) as LT.
      cbn [stop_times]. change (length (B :: states)) with (S (length states)). rewrite S_INR.
      set (zl := stop_time (exact_state A) (exact_state B)) in *. rewrite <- (Rplus_assoc z zl).
      replace (e + (INR (length states) + 1) * / 1000000000) with (e + / 1000000000 + INR (length states) * / 1000000000) by ring.
      refine (IH (S n) B idx' (gadd_block k ob done) (t + line_time A B + / 1000000000) (z + zl) (e + / 1000000000) _ EB _ LD' _ _ _ _ St3 _).
      * intros i. change (nth_error states i) with (nth_error (B :: states) (S i)). rewrite Ht. f_equal. lia.
      * destruct ob as [b|].
        -- destruct Ho as (f & l & Ef & El & Ff & Tf & Pf & Zf & Zl & Dl & Tl & Sl). cbn [gadd_block]. destruct (gb_segs k b) as [|g r] eqn:Q; [discriminate|].
           exists l. cbn [hd_error gprevious_segment]. rewrite Q. split; [exact El|]. split; [exact Zl|]. split; [lra|]. split; [exact Dl|].
           pose proof (stop_pos A B (Hord _ _ EB) St1) as SP. fold zl in SP. apply abs_inv in Sl, Ze. apply Rabs_le. unfold uu in *. lra.
        -- cbn [gadd_block]. destruct done as [|b0 done].
           ++ exists (gcreate_initial k (gk_pos k B)). cbn [hd_error gprevious_segment] in Ep. injection Ep as <-. unfold gcreate_initial in *. cbn [gvel_end gt_end gprevious_segment hd_error] in *. split; [reflexivity|]. split; [exact zero3_zero|]. rewrite (dec_0 rnd r0) in *. split; [lra|]. split; [exact r0|].
              rewrite (Hz eq_refl), Rplus_0_r. apply abs_inv in Ze. apply Rabs_le. lra.
           ++ exists pv. split; [exact Ep|]. split; [exact Zv|]. split; [lra|]. split; [exact Dv|]. rewrite (Hz eq_refl), Rplus_0_r. apply abs_inv in Ze. apply Rabs_le. lra.
      * destruct ob as [b|]; [|exact J]. destruct Ho as (f & l & Ef & El & Ff & Tf & Pf & Zf & Zl & Dl & Tl & Sl). cbn [gadd_block]. destruct (gb_segs k b) as [|g r] eqn:Q; [discriminate|]. rewrite <- Q in *.
        cbn [rev]. destruct done as [|b0 done]; [split; [exists l; exact El|exact I]|]. cbn [rev]. apply joints_snoc; [exact J| |exists l; exact El].
        cbn [hd_error gprevious_segment] in Ep. exists pv, f. split; [exact Ep|]. split; [exact Ef|]. split; [exact Zv|]. split; [exact Zf|]. split; symmetry; [exact Pf|exact Tf].
      * destruct ob as [b|]; [|exact Fa]. destruct Ho as (f & l & Ef & El & Ff & _). cbn [gadd_block]. destruct (gb_segs k b) as [|g r] eqn:Q; [discriminate|]. rewrite <- Q in *. cbn [rev]. apply Forall_app. split; [exact Fa|]. constructor; [exact Ff|constructor].
      * intros M. destruct ob as [b|].
        -- destruct Ho as (f & l & Ef & _). cbn [gadd_block]. destruct (gb_segs k b); discriminate.
        -- cbn [gadd_block]. destruct M as [M|M]; [exact (Mv M)|contradiction].
      * lra.
Qed.
End All.
Lemma steps_nth_ rest : forall (m : Prop) s0 n A B, ordinary_steps m s0 rest -> nth_error (s0 :: rest) n = Some A -> nth_error (s0 :: rest) (S n) = Some B -> ordinary_step (rnd := rnd) A B.
Proof.
  induction rest as [|s1 rest IH]; intros m s0 n A B G EA EB; [destruct n; discriminate|]. destruct G as (G1 & _ & G2).
  destruct n as [|n]; [injection EA as <-; injection EB as <-; exact G1|]. exact (IH _ s1 n A B G2 EA EB).
Qed.
Lemma last_of (segs : list (gsegment k)) s : glast_seg k segs = Ok s -> exists pre, segs = pre ++ [s].
Proof.
  unfold glast_seg. destruct (rev segs) as [|a r] eqn:E; [discriminate|]. intros H. injection H as ->. exists (rev r). rewrite <- (rev_involutive segs), E. reflexivity.
Qed.
Lemma ends_where bl C pv : gprevious_segment k C (hd_error (rev bl)) = Ok pv -> over_at bl (gt_end k pv).
Proof.
  destruct (rev bl) as [|b r] eqn:E.
  - intros H. injection H as <-. assert (Q : bl = []) by (rewrite <- (rev_involutive bl), E; reflexivity). rewrite Q. exact (dec_0 rnd r0).
  - cbn [hd_error gprevious_segment]. intros H. destruct (last_of _ _ H) as (pre & Ep). assert (Q : bl = rev r ++ [b]) by (rewrite <- (rev_involutive bl), E; reflexivity).
    assert (W : concat (map (gb_segs k) bl) = (concat (map (gb_segs k) (rev r)) ++ pre) ++ [pv]) by (rewrite Q, map_app, concat_app; cbn [map concat]; rewrite Ep, app_nil_r, app_assoc; reflexivity).
    unfold over_at. destruct (concat (map (gb_segs k) bl)) as [|x y] eqn:G; [destruct (concat (map (gb_segs k) (rev r)) ++ pre); discriminate|]. eexists _, pv. split; [exact W|reflexivity].
Qed.
Lemma stops_simulated s0 rest : ordinary_program s0 rest -> INR (length (s0 :: rest)) <= 1000000000 -> program_time s0 rest <= 500000 ->
  exists bl t, gsimulate k FullStop (s0 :: rest) = Ok (bl, false) /\ over_at bl t /\
    Rabs (t - stop_times s0 rest) <= INR (length rest) * / 1000000000 + / 10000000000000 * stop_times s0 rest.
Proof.
  intros (F & P0 & St) N T. unfold gsimulate, ggenerate_planner_blocks. cbn [ggen_blocks].
  assert (Hord : forall n A, nth_error (s0 :: rest) n = Some A -> ordinary_state A). { intros n A E. rewrite Forall_forall in F. apply F. eapply nth_error_In, E. }
  pose proof (Hord O s0 eq_refl) as (_ & Hacc & _).
  assert (E0 : gplanner_block k FullStop None s0 rest (hd_error []) = Ok None).
  { unfold gplanner_block. rewrite (dec_0 rnd r0). cbn [Bk k_leb]. rewrite (Rleb_false (gk_acc k s0) 0) by lra. cbv zeta. cbn [bind]. rewrite P0. reflexivity. }
  rewrite E0. cbn [bind gadd_block].
  destruct (gen_all (s0 :: rest) Hord (fun n A B => steps_nth_ rest False s0 n A B St) N rest O s0 [] [] 0 0 0 False) as (bl & Eb & J & Fa & C & pv & Ep & Ez).
  - reflexivity.
  - intros i. reflexivity.
  - split; [constructor|split; exact I].
  - exists (gcreate_initial k (gk_pos k s0)). split; [reflexivity|]. unfold gcreate_initial. cbn [gvel_end gt_end]. split; [exact zero3_zero|]. rewrite (dec_0 rnd r0). split; [lra|]. split; [exact r0|]. rewrite Rminus_diag_eq, Rabs_R0 by reflexivity. lra.
  - exact I.
  - constructor.
  - intros [].
  - exact St.
  - change (length (s0 :: rest)) with (S (length rest)) in N. rewrite S_INR in N. lra.
  - rewrite Eb. cbn [bind]. rewrite !Rplus_0_l in Ez. exists bl, (gt_end k pv). split; [|split; [exact (ends_where bl C pv Ep)|exact Ez]]. destruct bl as [|b bl]; [reflexivity|]. exact (corrected bl [] b J Fa).
Qed.
End Stop.
