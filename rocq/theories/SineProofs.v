(** The doubles nearest to sin 81 degrees and sin 9 degrees. *)
From Coq Require Import Reals ZArith Lra Lia SpecFloat.
From Verif Require Import Vec RealFacts Rounding SpecRounding RoundingProofs Generic SpecIEEE IEEEProofs.
Open Scope R_scope.

Definition t18 : R := sin (PI / 10).
Definition c18 : R := cos (PI / 10).
Lemma t18_root : 4 * t18 * t18 + 2 * t18 - 1 = 0.
Proof.
  pose proof PI_RGT_0 as P. assert (C : 0 < c18) by (apply cos_gt_0; lra).
  assert (A : sin (2 * (PI / 10)) = cos (2 * (PI / 10) + PI / 10)). { rewrite <- sin_shift. f_equal. field. }
  rewrite cos_plus, sin_2a, cos_2a in A. fold t18 c18 in A. pose proof (sin2_cos2 (PI / 10)) as S. fold t18 c18 in S. unfold Rsqr in S.
  apply (Rmult_eq_reg_l c18); [|lra]. replace (c18 * c18) with (1 - t18 * t18) in A by lra. lra.
Qed.
Lemma t18_pos : 0 < t18.
Proof. pose proof PI_RGT_0. apply sin_gt_0; lra. Qed.
Lemma c18_pos : 0 < c18.
Proof. pose proof PI_RGT_0. apply cos_gt_0; lra. Qed.
Lemma c18_sqr : 4 * (c18 * c18) = 3 + 2 * t18.
Proof. pose proof t18_root. pose proof (sin2_cos2 (PI / 10)) as S. fold t18 c18 in S. unfold Rsqr in S. lra. Qed.
Lemma sq_mono a b : 0 <= a -> a <= b -> a * a <= b * b.
Proof. intros. apply Rmult_le_compat; lra. Qed.
Lemma t18_gt v E : 0 < E -> v * v + v * E - E * E < 0 -> v < 2 * E * t18.
Proof.
  intros P H. destruct (Rlt_le_dec v (2 * E * t18)) as [L|L]; [exact L|exfalso]. pose proof t18_pos. assert (0 < 2 * E * t18) by (apply Rmult_lt_0_compat; lra).
  pose proof (sq_mono (2 * E * t18) v ltac:(lra) L). assert (2 * E * t18 * E <= v * E) by (apply Rmult_le_compat_r; lra).
  assert (2 * E * t18 * (2 * E * t18) + 2 * E * t18 * E - E * E = E * E * (4 * t18 * t18 + 2 * t18 - 1)) by ring. rewrite t18_root in *. lra.
Qed.
Lemma t18_lt v E : 0 < E -> 0 <= v -> 0 < v * v + v * E - E * E -> 2 * E * t18 < v.
Proof.
  intros P V H. destruct (Rlt_le_dec (2 * E * t18) v) as [L|L]; [exact L|exfalso]. 
  pose proof (sq_mono _ _ V L). assert (v * E <= 2 * E * t18 * E) by (apply Rmult_le_compat_r; lra).
  assert (2 * E * t18 * (2 * E * t18) + 2 * E * t18 * E - E * E = E * E * (4 * t18 * t18 + 2 * t18 - 1)) by ring. rewrite t18_root in *. lra.
Qed.
Lemma c18_gt w F : 0 < F -> (let v := 4 * (w * w) - 3 * (F * F) in let E := F * F in v * v + v * E - E * E < 0) -> w < c18 * F.
Proof.
  cbn zeta. intros P H. apply t18_gt in H; [|apply Rmult_lt_0_compat; lra]. pose proof c18_pos. destruct (Rlt_le_dec w (c18 * F)) as [L|L]; [exact L|exfalso].
  assert (0 < c18 * F) by (apply Rmult_lt_0_compat; lra). pose proof (sq_mono (c18 * F) w ltac:(lra) L). replace (c18 * F * (c18 * F)) with (c18 * c18 * (F * F)) in * by ring.
  pose proof c18_sqr. assert (Q : 4 * (c18 * c18 * (F * F)) = (3 + 2 * t18) * (F * F)) by (rewrite <- c18_sqr; ring). lra.
Qed.
Lemma c18_lt w F : 0 < F -> 0 <= w -> (let v := 4 * (w * w) - 3 * (F * F) in let E := F * F in 0 <= v /\ 0 < v * v + v * E - E * E) -> c18 * F < w.
Proof.
  cbn zeta. intros P W [V H]. apply t18_lt in H; [|apply Rmult_lt_0_compat; lra|exact V]. pose proof c18_pos. destruct (Rlt_le_dec (c18 * F) w) as [L|L]; [exact L|exfalso].
  pose proof (sq_mono _ _ W L). replace (c18 * F * (c18 * F)) with (c18 * c18 * (F * F)) in * by ring.
  assert (Q : 4 * (c18 * c18 * (F * F)) = (3 + 2 * t18) * (F * F)) by (rewrite <- c18_sqr; ring). lra.
Qed.
Definition c9 : R := cos (PI / 20).
Definition s9 : R := sin (PI / 20).
Lemma c9_sqr : 2 * (c9 * c9) = 1 + c18.
Proof. unfold c18. replace (PI / 10) with (2 * (PI / 20)) by field. rewrite cos_2a_cos. fold c9. ring. Qed.
Lemma s9_sqr : 2 * (s9 * s9) = 1 - c18.
Proof. unfold c18. replace (PI / 10) with (2 * (PI / 20)) by field. rewrite cos_2a_sin. fold s9. ring. Qed.
Lemma c9_pos : 0 < c9.
Proof. pose proof PI_RGT_0. apply cos_gt_0; lra. Qed.
Lemma s9_pos : 0 < s9.
Proof. pose proof PI_RGT_0. apply sin_gt_0; lra. Qed.
Lemma sq_lt a b : 0 <= b -> a * a < b * b -> a < b.
Proof. intros B H. destruct (Rlt_le_dec a b) as [L|L]; [exact L|exfalso]. pose proof (sq_mono _ _ B L). lra. Qed.
Lemma c9_gt a D : 0 < D -> 2 * (a * a) - D * D < c18 * (D * D) -> a < c9 * D.
Proof.
  intros P H. pose proof c9_pos. apply sq_lt; [left; apply Rmult_lt_0_compat; lra|]. replace (c9 * D * (c9 * D)) with (c9 * c9 * (D * D)) by ring.
  assert (2 * (c9 * c9 * (D * D)) = (1 + c18) * (D * D)) by (rewrite <- c9_sqr; ring). lra.
Qed.
Lemma c9_lt a D : 0 < D -> 0 <= a -> c18 * (D * D) < 2 * (a * a) - D * D -> c9 * D < a.
Proof.
  intros P A H. apply sq_lt; [exact A|]. replace (c9 * D * (c9 * D)) with (c9 * c9 * (D * D)) by ring.
  assert (2 * (c9 * c9 * (D * D)) = (1 + c18) * (D * D)) by (rewrite <- c9_sqr; ring). lra.
Qed.
Lemma s9_gt a D : 0 < D -> c18 * (D * D) < D * D - 2 * (a * a) -> a < s9 * D.
Proof.
  intros P H. pose proof s9_pos. apply sq_lt; [left; apply Rmult_lt_0_compat; lra|]. replace (s9 * D * (s9 * D)) with (s9 * s9 * (D * D)) by ring.
  assert (2 * (s9 * s9 * (D * D)) = (1 - c18) * (D * D)) by (rewrite <- s9_sqr; ring). lra.
Qed.
Lemma s9_lt a D : 0 < D -> 0 <= a -> D * D - 2 * (a * a) < c18 * (D * D) -> s9 * D < a.
Proof.
  intros P A H. apply sq_lt; [exact A|]. replace (s9 * D * (s9 * D)) with (s9 * s9 * (D * D)) by ring.
  assert (2 * (s9 * s9 * (D * D)) = (1 - c18) * (D * D)) by (rewrite <- s9_sqr; ring). lra.
Qed.
Ltac ints := repeat (rewrite <- mult_IZR || rewrite <- plus_IZR || rewrite <- minus_IZR); (apply IZR_lt || apply IZR_le); (reflexivity || (vm_compute; discriminate) || (vm_compute; reflexivity)).
Lemma c9_bounds : IZR (2 * 8896305685324892 - 1) < c9 * IZR (2 ^ 54) < IZR (2 * 8896305685324892 + 1).
Proof.
  split.
  - apply c9_gt; [ints|]. apply c18_gt; cbn zeta; ints.
  - apply c9_lt; [ints|ints|]. apply c18_lt; cbn zeta; [ints|ints|split; ints].
Qed.
Lemma s9_bounds : IZR (2 * 5636145587704693 - 1) < s9 * IZR (2 ^ 56) < IZR (2 * 5636145587704693 + 1).
Proof.
  split.
  - apply s9_gt; [ints|]. apply c18_lt; cbn zeta; [ints|ints|split; ints].
  - apply s9_lt; [ints|ints|]. apply c18_gt; cbn zeta; ints.
Qed.
(** a number within half a unit of [m * 2^e], of 53 digits, rounds to it *)
Lemma nearest_is x m e : (2 ^ 52 < m < 2 ^ 53 - 1)%Z -> (-1074 <= e)%Z -> Rabs (x * p2 (- e) - IZR m) < 1 / 2 -> binary64 x = IZR m * p2 e.
Proof.
  intros M E H. pose proof (pow2_pos (- e)) as P. pose proof (pow2_pos e) as Pe. assert (H' := Rabs_def2 _ _ H).
  assert (M1 : IZR (2 ^ 52 + 1) <= IZR m) by (apply IZR_le; lia). assert (M2 : IZR m <= IZR (2 ^ 53 - 1)) by (apply IZR_le; lia). rewrite plus_IZR in M1. rewrite minus_IZR in M2.
  assert (X : x = x * p2 (- e) * p2 e) by (rewrite Rmult_assoc, <- pow2_add; replace (- e + e)%Z with 0%Z by lia; cbn; ring).
  assert (Ex : exponent x = (e + 52)%Z).
  { apply exponent_is. rewrite Rabs_right. 2: { rewrite X. apply Rle_ge, Rmult_le_pos; [|lra]. assert (0 < IZR (2 ^ 52)) by (apply IZR_lt; reflexivity). lra. }
    replace (e + 52 + 1)%Z with (53 + e)%Z by lia. replace (e + 52)%Z with (52 + e)%Z by lia. rewrite !pow2_add. rewrite (p2_Z 52), (p2_Z 53) by lia. rewrite X.
    split; [apply Rmult_le_compat_r; lra|apply Rmult_lt_compat_r; lra]. }
  unfold binary64. assert (U : ulp x = p2 e). { unfold ulp. rewrite Ex. f_equal. lia. }
  rewrite U. replace (x / p2 e) with (x * p2 (- e)) by (rewrite powerRZ_neg'; reflexivity). rewrite (rhe_unique _ m); [reflexivity|lra|intros K; lra].
Qed.
Lemma sin_max_is : binary64 (sin (162 * PI / 360)) = IZR 8896305685324892 * p2 (-53).
Proof.
  replace (sin (162 * PI / 360)) with c9 by (unfold c9; rewrite <- sin_shift; f_equal; field).
  apply nearest_is; [split; reflexivity|lia|]. change (- -53)%Z with 53%Z. rewrite (p2_Z 53) by lia. pose proof c9_bounds as B. replace (IZR (2 ^ 54)) with (2 * IZR (2 ^ 53)) in B by (rewrite <- mult_IZR; reflexivity).
  rewrite plus_IZR, minus_IZR, mult_IZR in B. apply Rabs_def1; lra.
Qed.
Lemma sin_min_is : binary64 (sin (18 * PI / 360)) = IZR 5636145587704693 * p2 (-55).
Proof.
  replace (sin (18 * PI / 360)) with s9 by (unfold s9; f_equal; field).
  apply nearest_is; [split; reflexivity|lia|]. change (- -55)%Z with 55%Z. rewrite (p2_Z 55) by lia. pose proof s9_bounds as B. replace (IZR (2 ^ 56)) with (2 * IZR (2 ^ 55)) in B by (rewrite <- mult_IZR; reflexivity).
  rewrite plus_IZR, minus_IZR, mult_IZR in B. apply Rabs_def1; lra.
Qed.
