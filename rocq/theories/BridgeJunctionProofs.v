(** The junction velocities with doubles beside those with rounded real numbers. *)
From Coq Require Import Reals ZArith SpecFloat List Lia Lra.
From Verif Require Import Py Vec StateGen Junction Planner Rounding SpecRounding RoundingProofs Generic SpecIEEE IEEEProofs SpecBridge PropertiesIEEE RealFacts SineProofs BridgeProofs.
Import ListNotations.
Open Scope R_scope.

#[local] Hint Resolve sq_nonneg add_nonneg norm3_nonneg norm4_nonneg mul_nonneg half_nonneg two_nonneg : nn.
(** zero or at least 2^l *)
Definition zlb (l : Z) (r : R) : Prop := r = 0 \/ lb l r.
Lemma k0_D : k0 D64 = 0. Proof. unfold k0. cbn. apply binary64_0. Qed.
Lemma k1_D : k1 D64 = 1. Proof. unfold k1. cbn. apply (binary64_fix 1). apply (p2_double 0). lia. Qed.
Lemma k2_D : k2 D64 = 2. Proof. unfold k2. cbn. apply (binary64_fix 2). replace 2 with (p2 1) by apply p2_1. apply p2_double. lia. Qed.
Lemma zlb_pos l r : zlb l r -> k_ltb D64 (k0 D64) r = true -> lb l r.
Proof. rewrite k0_D. cbn [Bk k_ltb]. rewrite Rltb_iff. intros [->|L] P; [lra|exact L]. Qed.
Lemma zlb_eqb l r : zlb l r -> k_eqb D64 r (k0 D64) = false -> lb l r.
Proof. rewrite k0_D. cbn [Bk k_eqb]. intros [->|L] P; [|exact L]. exfalso. unfold Reqb in P. destruct (Req_EM_T 0 0); [discriminate|lra]. Qed.
Lemma lb_mul l m r q : lb l r -> lb m q -> (-1000 <= l + m)%Z -> lb (l + m) (k_mul D64 r q).
Proof. intros [L] [M] O. cbn [Bk k_mul]. apply lb_round; [exact O|]. constructor. rewrite Rabs_mult, pow2_add. pose proof (pow2_pos l). pose proof (pow2_pos m). apply Rmult_le_compat; lra. Qed.
Lemma lb_ge l r : p2 l <= r -> lb l r.
Proof. intros L. constructor. pose proof (pow2_pos l). rewrite Rabs_right by lra. exact L. Qed.
Lemma p2_neg n : p2 (Zneg n) = / IZR (2 ^ Zpos n).
Proof. change (p2 (Zneg n)) with (/ (2 ^ Pos.to_nat n)). f_equal. rewrite <- (p2_Z (Zpos n)) by lia. reflexivity. Qed.
Lemma r4 : r_of_dec 4 (-1) = 4 / 10. Proof. unfold r_of_dec. cbn. lra. Qed.
Lemma r5 : r_of_dec 5 (-1) = 5 / 10. Proof. unfold r_of_dec. cbn. lra. Qed.
Lemma r9 : r_of_dec 999999 (-6) = 999999 / 1000000. Proof. unfold r_of_dec. cbn. lra. Qed.
Lemma sb_4 : sb 0 (k_dec Fk 4 (-1)) (k_dec D64 4 (-1)).
Proof. apply sb_dec; [|reflexivity]. rewrite r4. change (p2 0) with 1. rewrite Rabs_right; lra. Qed.
Lemma sb_5 : sb 0 (k_dec Fk 5 (-1)) (k_dec D64 5 (-1)).
Proof. apply sb_dec; [|reflexivity]. rewrite r5. change (p2 0) with 1. rewrite Rabs_right; lra. Qed.
Lemma sb_9 : sb 0 (k_dec Fk 999999 (-6)) (k_dec D64 999999 (-6)).
Proof. apply sb_dec; [|reflexivity]. rewrite r9. change (p2 0) with 1. rewrite Rabs_right; lra. Qed.
Lemma sb_dot h a b c d : sv h a b -> sv h c d -> okh (h + h + 2) = true -> (0 <=? h)%Z = true -> sb (h + h + 2) (gdot3 Fk a c) (gdot3 D64 b d).
Proof.
  intros [X Y Z _] [X' Y' Z' _] O P. apply okh_range in O. apply Z.leb_le in P. unfold gdot3. eapply sb_weaken.
  - apply sb_add; [apply sb_add; [apply sb_mul; [exact X|exact X'|]|apply sb_mul; [exact Y|exact Y'|]|]|apply sb_mul; [exact Z|exact Z'|]|]; unfold okh; rewrite Bool.andb_true_iff, !Z.leb_le; lia.
  - apply Z.leb_le. lia.
Qed.
Lemma sb_le h h' x r : sb h x r -> Rabs r <= p2 h' -> sb h' x r.
Proof. intros [S _] B. split; assumption. Qed.
Lemma div_nonneg x y : 0 <= x -> 0 < y -> 0 <= k_div D64 x y.
Proof. intros. cbn. apply binary64_nonneg, Rmult_le_pos; [assumption|left; apply Rinv_0_lt_compat; assumption]. Qed.
Lemma dec_nonneg m e : (0 <= m)%Z -> 0 <= k_dec D64 m e.
Proof.
  intros H. cbn [Bk k_dec]. apply binary64_nonneg. apply IZR_le in H. unfold r_of_dec. destruct e; [exact H|rewrite mult_IZR|].
  - apply Rmult_le_pos; [exact H|]. apply IZR_le. lia.
  - apply Rmult_le_pos; [exact H|]. left. apply Rinv_0_lt_compat. apply IZR_lt. lia.
Qed.
Lemma sqrt_nonneg x : 0 <= k_sqrt D64 x. Proof. cbn. apply binary64_nonneg, sqrt_pos. Qed.

Section Corner.
Variables (v0 v1 : gvec Fk) (v0' v1' : gvec D64) (acc jerk speed dist : spec_float) (acc' jerk' speed' dist' : R).
Hypothesis S0 : sv 36 v0 v0'.
Hypothesis S1 : sv 36 v1 v1'.
Hypothesis Z0 : zlb (-7) (gnorm3 D64 v0').
Hypothesis Z1 : zlb (-7) (gnorm3 D64 v1').
Hypothesis Sa : sb 17 acc acc'.
Hypothesis La : 1 <= acc'.
Hypothesis Sj : sb 10 jerk jerk'.
Hypothesis Pj : 0 <= jerk'.
Hypothesis Ss : sb 10 speed speed'.
Hypothesis Sd : sb 17 dist dist'.
Hypothesis Pd : 0 <= dist'.
Lemma JD_same : sb 200 (gcalc_JD Fk v0 v1 acc jerk speed) (gcalc_JD D64 v0' v1' acc' jerk' speed').
Proof.
  unfold gcalc_JD. pose proof (lb_acc _ La) as L1. pose proof lb_2 as L2. pose proof sb_4 as S4.
  assert (N0 : sb 38 (gnorm3 Fk v0) (gnorm3 D64 v0')) by wk. assert (N1 : sb 38 (gnorm3 Fk v1) (gnorm3 D64 v1')) by wk.
  assert (Dt : sb 74 (gdot3 Fk v0 v1) (gdot3 D64 v0' v1')) by (exact (sb_dot 36 _ _ _ _ S0 S1 eq_refl eq_refl)).
  rewrite (eqb_same jerk (k0 Fk) jerk' (k0 D64)) by (eapply sb_stands; sbs). destruct (k_eqb D64 jerk' (k0 D64)); [wk|]. cbv zeta.
  rewrite (eqb_same (gnorm3 Fk v0) (k0 Fk) (gnorm3 D64 v0') (k0 D64)), (eqb_same (gnorm3 Fk v1) (k0 Fk) (gnorm3 D64 v1') (k0 D64)) by (eapply sb_stands; sbs).
  destruct (k_eqb D64 (gnorm3 D64 v0') (k0 D64)) eqn:E0; [cbn [orb]; wk|]. destruct (k_eqb D64 (gnorm3 D64 v1') (k0 D64)) eqn:E1; [cbn [orb]; wk|]. cbn [orb].
  pose proof (lb_mul _ _ _ _ (zlb_eqb _ _ Z0 E0) (zlb_eqb _ _ Z1 E1) ltac:(lia)) as Lm. change (-7 + -7)%Z with (-14)%Z in Lm.
  assert (Sc : sb 88 (k_div Fk (k_opp Fk (gdot3 Fk v0 v1)) (k_mul Fk (gnorm3 Fk v0) (gnorm3 Fk v1))) (k_div D64 (k_opp D64 (gdot3 D64 v0' v1')) (k_mul D64 (gnorm3 D64 v0') (gnorm3 D64 v1')))) by wk.
  revert Sc. generalize (k_div Fk (k_opp Fk (gdot3 Fk v0 v1)) (k_mul Fk (gnorm3 Fk v0) (gnorm3 Fk v1))) (k_div D64 (k_opp D64 (gdot3 D64 v0' v1')) (k_mul D64 (gnorm3 D64 v0') (gnorm3 D64 v1'))). intros c c' Sc.
  assert (Sq : sb 50 (if k_ltb Fk c (k1 Fk) return K Fk then k_sqrt Fk (k_div Fk (k_sub Fk (k1 Fk) c) (k2 Fk)) else k0 Fk) (if k_ltb D64 c' (k1 D64) return K D64 then k_sqrt D64 (k_div D64 (k_sub D64 (k1 D64) c') (k2 D64)) else k0 D64) /\
    0 <= if k_ltb D64 c' (k1 D64) return K D64 then k_sqrt D64 (k_div D64 (k_sub D64 (k1 D64) c') (k2 D64)) else k0 D64).
  { rewrite (ltb_same c (k1 Fk) c' (k1 D64)) by (eapply sb_stands; sbs). destruct (k_ltb D64 c' (k1 D64)) eqn:C; [|split; [wk|rewrite k0_D; lra]]. split; [|apply sqrt_nonneg].
    cbn [Bk k_ltb] in C. apply Rltb_iff in C. rewrite k1_D in C.
    eapply sb_weaken; [eapply sb_sqrt; [sbs| |reflexivity]|reflexivity]. apply half_nonneg. cbn [Bk k_sub]. apply binary64_nonneg. rewrite k1_D. lra. }
  destruct Sq as [Sq Pq]. revert Sq Pq.
  generalize (if k_ltb Fk c (k1 Fk) return K Fk then k_sqrt Fk (k_div Fk (k_sub Fk (k1 Fk) c) (k2 Fk)) else k0 Fk) (if k_ltb D64 c' (k1 D64) return K D64 then k_sqrt D64 (k_div D64 (k_sub D64 (k1 D64) c') (k2 D64)) else k0 D64). intros s s' Sq Pq.
  destruct C112_sines as [M1 M2].
  rewrite (ltb_same s (k_sin_max Fk) s' (k_sin_max D64)), (ltb_same (k_sin_min Fk) s (k_sin_min D64) s') by (first [exact M1|exact M2|eapply sb_stands; sbs]).
  destruct (k_ltb D64 s' (k_sin_max D64)) eqn:C1; [|wk]. destruct (k_ltb D64 (k_sin_min D64) s'); [|wk].
  assert (L3 : lb (-7) (k_sub D64 (k1 D64) s')).
  { cbn [Bk k_ltb k_sin_max] in C1. apply Rltb_iff in C1. rewrite sin_max_is in C1. cbn [Bk k_sub]. apply lb_round; [lia|]. apply lb_ge. rewrite k1_D.
    replace (p2 (-7)) with (IZR 70368744177664 * p2 (-53)).
    - assert (O : 1 = IZR 9007199254740992 * p2 (-53)). { change 9007199254740992%Z with (2 ^ 53)%Z. rewrite <- p2_Z by lia. rewrite <- pow2_add. reflexivity. }
      pose proof (pow2_pos (-53)). lra.
    - change 70368744177664%Z with (2 ^ 46)%Z. rewrite <- p2_Z by lia. rewrite <- pow2_add. reflexivity. }
  assert (P3 : 0 < k_sub D64 (k1 D64) s').
  { cbn [Bk k_ltb k_sin_max] in C1. apply Rltb_iff in C1. rewrite sin_max_is in C1. assert (0 <= k_sub D64 (k1 D64) s'). { cbn [Bk k_sub]. apply binary64_nonneg. rewrite k1_D.
      assert (O : 1 = IZR 9007199254740992 * p2 (-53)). { change 9007199254740992%Z with (2 ^ 53)%Z. rewrite <- p2_Z by lia. rewrite <- pow2_add. reflexivity. }
      pose proof (pow2_pos (-53)). lra. }
    pose proof (lb_nonzero _ _ L3). cbn [Bk K] in *. lra. }
  assert (A0 : 0 <= acc') by lra. assert (A1 : 0 < acc') by lra.
  eapply sb_weaken; [eapply (min_same 200); [|apply sqrt_nonneg|exact Ss]|reflexivity].
  eapply sb_weaken; [eapply sb_sqrt; [sbs| |reflexivity]|reflexivity].
  apply mul_nonneg; [exact A0|]. apply div_nonneg; [|exact P3]. apply mul_nonneg; [|exact Pq]. apply div_nonneg; [|exact A1]. apply mul_nonneg; [apply mul_nonneg; [|exact Pj]|exact Pj]. apply dec_nonneg. lia.
Qed.
Lemma jerk_same : jerk' = 0 \/ 1 / 1000 <= jerk' -> sb 200 (gcalc_jerk Fk v0 v1 jerk) (gcalc_jerk D64 v0' v1' jerk').
Proof.
  intros J. unfold gcalc_jerk. cbv zeta. assert (S2 : sb 11 (k_mul Fk jerk (k2 Fk)) (k_mul D64 jerk' (k2 D64))) by wk.
  assert (Zj : zlb (-10) (k_mul D64 jerk' (k2 D64))).
  { rewrite k2_D. cbn [Bk k_mul]. destruct J as [->|J]; [left; rewrite Rmult_0_l; apply binary64_0|right]. apply lb_round; [lia|]. apply lb_ge. rewrite (p2_neg 10). change (2 ^ Zpos 10)%Z with 1024%Z. lra. }
  revert S2 Zj. generalize (k_mul Fk jerk (k2 Fk)) (k_mul D64 jerk' (k2 D64)). intros j j' S2 Zj.
  assert (Sq : sb 60 (if k_ltb Fk (k0 Fk) j return K Fk then k_div Fk (gnorm3 Fk (gvsub Fk v0 v1)) j else k0 Fk) (if k_ltb D64 (k0 D64) j' return K D64 then k_div D64 (gnorm3 D64 (gvsub D64 v0' v1')) j' else k0 D64)).
  { rewrite (ltb_same (k0 Fk) j (k0 D64) j') by (eapply sb_stands; sbs). destruct (k_ltb D64 (k0 D64) j') eqn:C; [|wk]. pose proof (zlb_pos _ _ Zj C) as Lj. wk. }
  revert Sq. generalize (if k_ltb Fk (k0 Fk) j return K Fk then k_div Fk (gnorm3 Fk (gvsub Fk v0 v1)) j else k0 Fk) (if k_ltb D64 (k0 D64) j' return K D64 then k_div D64 (gnorm3 D64 (gvsub D64 v0' v1')) j' else k0 D64). intros s s' Sq.
  rewrite (leb_same (k1 Fk) s (k1 D64) s') by (eapply sb_stands; sbs). destruct (k_leb D64 (k1 D64) s') eqn:C; [|wk].
  assert (Ls : lb 0 s') by (cbn [Bk k_leb] in C; apply Rleb_iff in C; rewrite k1_D in C; apply lb_ge; exact C). wk.
Qed.
Lemma kmin_same h h' x y r q : sb h x r -> sb h' y q -> (h <=? 300)%Z = true -> (h' <=? 300)%Z = true -> sb 300 (kmin Fk x y) (kmin D64 r q).
Proof. intros X Y L L'. unfold kmin. apply if_same; [cmp|eapply sb_weaken; [exact Y|exact L']|eapply sb_weaken; [exact X|exact L]]. Qed.
Lemma kmax_same h h' x y r q : sb h x r -> sb h' y q -> (h <=? 300)%Z = true -> (h' <=? 300)%Z = true -> sb 300 (kmax Fk x y) (kmax D64 r q).
Proof. intros X Y L L'. unfold kmax. apply if_same; [cmp|eapply sb_weaken; [exact Y|exact L']|eapply sb_weaken; [exact X|exact L]]. Qed.
Lemma kmin_nonneg x y : 0 <= x -> 0 <= y -> 0 <= kmin D64 x y.
Proof. intros. unfold kmin. destruct (k_ltb D64 y x); assumption. Qed.
(** a sine of half the angle stays clear of one, and its cosine of zero *)
Lemma clear c : Rabs c <= k_dec D64 999999 (-6) ->
  0 <= k_mul D64 (k_dec D64 5 (-1)) (k_sub D64 (k1 D64) c) /\ p2 (-22) <= k_sub D64 (k1 D64) (k_sqrt D64 (k_mul D64 (k_dec D64 5 (-1)) (k_sub D64 (k1 D64) c))) /\
  0 <= k_mul D64 (k_dec D64 5 (-1)) (k_add D64 (k1 D64) c) /\ p2 (-11) <= k_sqrt D64 (k_mul D64 (k_dec D64 5 (-1)) (k_add D64 (k1 D64) c)).
Proof.
  intros C. rewrite k1_D. assert (H5 : k_dec D64 5 (-1) = / 2).
  { cbn [Bk k_dec]. rewrite r5. replace (5 / 10) with (p2 (-1)) by (rewrite (p2_neg 1); change (2 ^ Zpos 1)%Z with 2%Z; lra). rewrite binary64_fix by (apply p2_double; lia). rewrite (p2_neg 1). reflexivity. }
  rewrite H5. cbn [Bk k_dec k_mul k_sub k_add k_sqrt] in *. rewrite r9 in C.
  assert (C9 : binary64 (999999 / 1000000) <= 1 - IZR 2097152 * p2 (-41)).
  { assert (D : double (1 - IZR 2097152 * p2 (-41))). { exists (2 ^ 41 - 2097152)%Z, (-41)%Z. split; [reflexivity|]. split; [lia|]. rewrite minus_IZR, <- (p2_Z 41) by lia. rewrite Rmult_minus_distr_r, <- pow2_add. change (p2 (41 + -41)) with 1. ring. }
    rewrite <- (binary64_fix _ D). apply b64_mono. rewrite (p2_neg 41). change (2 ^ Zpos 41)%Z with 2199023255552%Z. lra. }
  apply abs_le_inv in C. rewrite (p2_neg 41) in C9. change (2 ^ Zpos 41)%Z with 2199023255552%Z in C9.
  assert (M1 : binary64 (1 - c) <= 2 - IZR 2097152 * p2 (-41)).
  { assert (D : double (2 - IZR 2097152 * p2 (-41))). { exists (2 ^ 42 - 2097152)%Z, (-41)%Z. split; [reflexivity|]. split; [lia|]. rewrite minus_IZR, <- (p2_Z 42) by lia. rewrite Rmult_minus_distr_r, <- pow2_add. change (p2 (42 + -41)) with (p2 1). rewrite p2_1. ring. }
    rewrite <- (binary64_fix _ D). apply b64_mono. rewrite (p2_neg 41). change (2 ^ Zpos 41)%Z with 2199023255552%Z. lra. }
  rewrite (p2_neg 41) in M1. change (2 ^ Zpos 41)%Z with 2199023255552%Z in M1.
  assert (M0 : 0 <= binary64 (1 - c)) by (apply binary64_nonneg; lra).
  assert (X0 : 0 <= binary64 (/ 2 * binary64 (1 - c))) by (apply binary64_nonneg; lra).
  assert (Q1 : p2 (-20) <= binary64 (1 + c)) . { rewrite <- (binary64_fix (p2 (-20))) by (apply p2_double; lia). apply b64_mono. rewrite (p2_neg 20). change (2 ^ Zpos 20)%Z with 1048576%Z. lra. }
  assert (Q2 : p2 (-21) <= binary64 (/ 2 * binary64 (1 + c))). { rewrite <- (binary64_fix (p2 (-21))) by (apply p2_double; lia). apply b64_mono. rewrite (p2_neg 20) in Q1. rewrite (p2_neg 21). change (2 ^ Zpos 20)%Z with 1048576%Z in Q1. change (2 ^ Zpos 21)%Z with 2097152%Z. lra. }
  assert (D22 : double (1 - p2 (-22))). { exists (2 ^ 22 - 1)%Z, (-22)%Z. split; [reflexivity|]. split; [lia|]. rewrite minus_IZR, <- (p2_Z 22) by lia. rewrite Rmult_minus_distr_r, <- pow2_add. change (p2 (22 + -22)) with 1. ring. }
  assert (X1 : binary64 (/ 2 * binary64 (1 - c)) <= 1 - p2 (-21)).
  { assert (D : double (1 - p2 (-21))). { exists (2 ^ 21 - 1)%Z, (-21)%Z. split; [reflexivity|]. split; [lia|]. rewrite minus_IZR, <- (p2_Z 21) by lia. rewrite Rmult_minus_distr_r, <- pow2_add. change (p2 (21 + -21)) with 1. ring. }
    rewrite <- (binary64_fix _ D). apply b64_mono. rewrite (p2_neg 21). change (2 ^ Zpos 21)%Z with 2097152%Z. lra. }
  assert (E22 : p2 (-22) = / 4194304) by (rewrite (p2_neg 22); reflexivity).
  split; [exact X0|]. split; [|split; [pose proof (pow2_pos (-21)); lra|]].
  - set (x := binary64 (/ 2 * binary64 (1 - c))) in *. assert (Sx : sqrt x <= 1 - p2 (-22)).
    { rewrite <- (sqrt_square (1 - p2 (-22))) by (rewrite E22; lra). apply sqrt_le_1_alt. eapply Rle_trans; [exact X1|]. rewrite (p2_neg 21), E22. change (2 ^ Zpos 21)%Z with 2097152%Z. lra. }
    assert (Sy : binary64 (sqrt x) <= 1 - p2 (-22)) by (rewrite <- (binary64_fix _ D22); apply b64_mono, Sx).
    rewrite <- (binary64_fix (p2 (-22))) by (apply p2_double; lia). apply b64_mono. lra.
  - rewrite <- (binary64_fix (p2 (-11))) by (apply p2_double; lia). apply b64_mono. pose proof (pow2_pos (-11)). rewrite <- (sqrt_square (p2 (-11))) by lra. apply sqrt_le_1_alt.
    rewrite <- pow2_add. eapply Rle_trans; [|exact Q2]. apply pow2_mono. lia.
Qed.
Lemma klipper_same : sb 200 (gcalc_klipper Fk v0 v1 dist acc jerk speed) (gcalc_klipper D64 v0' v1' dist' acc' jerk' speed').
Proof.
  unfold gcalc_klipper. pose proof (lb_acc _ La) as L1. pose proof lb_2 as L2. pose proof sb_5 as S5. pose proof sb_9 as S9.
  assert (N0 : sb 38 (gnorm3 Fk v0) (gnorm3 D64 v0')) by wk. assert (N1 : sb 38 (gnorm3 Fk v1) (gnorm3 D64 v1')) by wk.
  rewrite (eqb_same (gnorm3 Fk v0) (k0 Fk) (gnorm3 D64 v0') (k0 D64)), (eqb_same (gnorm3 Fk v1) (k0 Fk) (gnorm3 D64 v1') (k0 D64)) by (eapply sb_stands; sbs).
  destruct (k_eqb D64 (gnorm3 D64 v0') (k0 D64)) eqn:E0; [cbn [orb]; wk|]. destruct (k_eqb D64 (gnorm3 D64 v1') (k0 D64)) eqn:E1; [cbn [orb]; wk|]. cbn [orb]. cbv zeta.
  pose proof (zlb_eqb _ _ Z0 E0) as M0. pose proof (zlb_eqb _ _ Z1 E1) as M1.
  assert (Dt : sb 88 (gdot3 Fk (gvdiv Fk v0 (gnorm3 Fk v0)) (gvdiv Fk v1 (gnorm3 Fk v1))) (gdot3 D64 (gvdiv D64 v0' (gnorm3 D64 v0')) (gvdiv D64 v1' (gnorm3 D64 v1')))).
  { apply (sb_dot 43); [exact (sv_div 36 38 (-7) _ _ _ _ S0 N0 M0 eq_refl)|exact (sv_div 36 38 (-7) _ _ _ _ S1 N1 M1 eq_refl)|reflexivity|reflexivity]. }
  assert (Sc : sb 300 (kmax Fk (k_opp Fk (gdot3 Fk (gvdiv Fk v0 (gnorm3 Fk v0)) (gvdiv Fk v1 (gnorm3 Fk v1)))) (k_opp Fk (k_dec Fk 999999 (-6)))) (kmax D64 (k_opp D64 (gdot3 D64 (gvdiv D64 v0' (gnorm3 D64 v0')) (gvdiv D64 v1' (gnorm3 D64 v1')))) (k_opp D64 (k_dec D64 999999 (-6))))).
  { eapply kmax_same; [sbs|sbs|reflexivity|reflexivity]. }
  assert (Lo : - k_dec D64 999999 (-6) <= kmax D64 (k_opp D64 (gdot3 D64 (gvdiv D64 v0' (gnorm3 D64 v0')) (gvdiv D64 v1' (gnorm3 D64 v1')))) (k_opp D64 (k_dec D64 999999 (-6)))).
  { unfold kmax. match goal with |- context[k_ltb D64 ?a ?b] => destruct (k_ltb D64 a b) eqn:C end; cbn [Bk k_opp k_ltb] in *; [lra|]. unfold Rltb in C. destruct (Rlt_dec _ _) in C; [discriminate|]. lra. }
  revert Sc Lo. match goal with |- sb _ ?a ?b -> _ => generalize a b end. intros c c' Sc Lo.
  rewrite (ltb_same (k_dec Fk 999999 (-6)) c (k_dec D64 999999 (-6)) c') by (eapply sb_stands; sbs).
  destruct (k_ltb D64 (k_dec D64 999999 (-6)) c') eqn:C; [wk|]. cbn [Bk k_ltb] in C. unfold Rltb in C. destruct (Rlt_dec _ _) as [C'|C'] in C; [discriminate|]. clear C.
  assert (B9 : Rabs c' <= k_dec D64 999999 (-6)) by (apply Rabs_le; cbn [Bk k_dec] in *; lra).
  destruct (clear c' B9) as (X1 & X2 & X3 & X4).
  assert (Sc0 : sb 0 c c'). { destruct Sc as [Q _]. split; [exact Q|]. destruct S9 as [_ S9]. eapply Rle_trans; [exact B9|]. eapply Rle_trans; [|exact S9]. apply Rle_abs. }
  assert (Sq : sb 1 (k_sqrt Fk (k_mul Fk (k_dec Fk 5 (-1)) (k_sub Fk (k1 Fk) c))) (k_sqrt D64 (k_mul D64 (k_dec D64 5 (-1)) (k_sub D64 (k1 D64) c')))) by (eapply sb_weaken; [eapply sb_sqrt; [sbs|exact X1|reflexivity]|reflexivity]).
  assert (Sr : sb 1 (k_sqrt Fk (k_mul Fk (k_dec Fk 5 (-1)) (k_add Fk (k1 Fk) c))) (k_sqrt D64 (k_mul D64 (k_dec D64 5 (-1)) (k_add D64 (k1 D64) c')))) by (eapply sb_weaken; [eapply sb_sqrt; [sbs|exact X3|reflexivity]|reflexivity]).
  assert (Ps : 0 <= k_sqrt D64 (k_mul D64 (k_dec D64 5 (-1)) (k_sub D64 (k1 D64) c'))) by apply sqrt_nonneg.
  revert Sq Sr Ps X2 X4. generalize (k_sqrt Fk (k_mul Fk (k_dec Fk 5 (-1)) (k_sub Fk (k1 Fk) c))) (k_sqrt D64 (k_mul D64 (k_dec D64 5 (-1)) (k_sub D64 (k1 D64) c'))) (k_sqrt Fk (k_mul Fk (k_dec Fk 5 (-1)) (k_add Fk (k1 Fk) c))) (k_sqrt D64 (k_mul D64 (k_dec D64 5 (-1)) (k_add D64 (k1 D64) c'))).
  intros s s' q q' Sq Sr Ps X2 X4. pose proof (lb_ge _ _ X2) as L3. pose proof (lb_ge _ _ X4) as L4. unfold gklipper_delta.
  assert (S2 : sb 1 (k_sqrt Fk (k2 Fk)) (k_sqrt D64 (k2 D64))) by (eapply sb_weaken; [eapply sb_sqrt; [sbs|apply two_nonneg|reflexivity]|reflexivity]).
  assert (P2 : 0 <= k_sub D64 (k_sqrt D64 (k2 D64)) (k1 D64)).
  { cbn [Bk k_sub k_sqrt]. apply binary64_nonneg. rewrite k1_D, k2_D. assert (1 <= binary64 (sqrt 2)); [|lra]. assert (D : double 1) by (apply (p2_double 0); lia). rewrite <- (binary64_fix _ D). apply b64_mono. rewrite <- sqrt_1. apply sqrt_le_1_alt. lra. }
  pose proof (pow2_pos (-22)). pose proof (pow2_pos (-11)).
  assert (S6 : sb 300 (kmin Fk (kmin Fk (k_mul Fk acc (k_div Fk (k_mul Fk (k_div Fk (k_mul Fk (k_mul Fk jerk jerk) (k_sub Fk (k_sqrt Fk (k2 Fk)) (k1 Fk))) acc) s) (k_sub Fk (k1 Fk) s)))
                                  (k_mul Fk (k_mul Fk (k_mul Fk (k_dec Fk 5 (-1)) dist) (k_div Fk s q)) acc)) (k_mul Fk speed speed))
                      (kmin D64 (kmin D64 (k_mul D64 acc' (k_div D64 (k_mul D64 (k_div D64 (k_mul D64 (k_mul D64 jerk' jerk') (k_sub D64 (k_sqrt D64 (k2 D64)) (k1 D64))) acc') s') (k_sub D64 (k1 D64) s')))
                                  (k_mul D64 (k_mul D64 (k_mul D64 (k_dec D64 5 (-1)) dist') (k_div D64 s' q')) acc')) (k_mul D64 speed' speed'))).
  { eapply kmin_same; [eapply kmin_same; [sbs|sbs|reflexivity|reflexivity]|sbs|reflexivity|reflexivity]. }
  assert (S7 := S6). eapply sb_weaken; [eapply sb_sqrt; [exact S6| |reflexivity]|reflexivity].
  apply kmin_nonneg; [apply kmin_nonneg|apply sq_nonneg].
  - apply mul_nonneg; [lra|]. apply div_nonneg; [|cbn [Bk K] in *; lra]. apply mul_nonneg; [|exact Ps]. apply div_nonneg; [|lra]. apply mul_nonneg; [apply sq_nonneg|exact P2].
  - apply mul_nonneg; [|lra]. apply mul_nonneg; [apply mul_nonneg; [apply dec_nonneg; lia|exact Pd]|]. apply div_nonneg; [exact Ps|cbn [Bk K] in *; lra].
Qed.
End Corner.

Lemma ratio_same h h' x y r q : sb h x r -> sb h' y q -> 0 <= r -> r < q -> sb 0 (k_div Fk x y) (k_div D64 r q).
Proof.
  intros [X _] [Y _] P L. assert (B : Rabs (k_div D64 r q) <= p2 0).
  { cbn [Bk k_div]. apply round_le; [lia|]. change (p2 0) with 1. assert (I : 0 < / q) by (apply Rinv_0_lt_compat; lra). rewrite Rabs_right by (apply Rle_ge, Rmult_le_pos; lra).
    apply Rmult_le_reg_r with q; [lra|]. unfold Rdiv. rewrite Rmult_assoc, Rinv_l by lra. lra. }
  split; [|exact B]. apply (proj1 (proj2 (proj2 (proj2 (C112_same_arithmetic _ _ _ _ X Y))))); [lra|]. eapply sb_fits; [|exact B]. lia.
Qed.
Lemma mka_jerk_same x y r q : sb 150 x r -> sb 150 y q -> sb 300 (gmka_jerk Fk x y) (gmka_jerk D64 r q).
Proof.
  intros X Y. unfold gmka_jerk. rewrite (ltb_same x y r q), (ltb_same (k0 Fk) x (k0 D64) r), (ltb_same y (k0 Fk) q (k0 D64)), (ltb_same x (k0 Fk) r (k0 D64)), (ltb_same (k0 Fk) y (k0 D64) q) by (eapply sb_stands; sbs).
  destruct (k_ltb D64 r q); destruct (_ || _)%bool; try wk; (eapply kmax_same; [sbs|sbs|reflexivity|reflexivity]).
Qed.
Definition sax (a : spec_float * spec_float * bool) (b : R * R * bool) : Prop :=
  sb 40 (fst (fst a)) (fst (fst b)) /\ sb 0 (snd (fst a)) (snd (fst b)) /\ snd a = snd b.
Lemma axis_same jerk jerk' fac fac' st st' ve vx ve' vx' : sb 10 jerk jerk' -> 0 <= jerk' -> sb 50 fac fac' -> sax st st' -> sb 36 ve ve' -> sb 36 vx vx' ->
  sax (gmka_axis Fk jerk fac st (ve, vx)) (gmka_axis D64 jerk' fac' st' (ve', vx')).
Proof.
  intros J Pj F S E X. destruct st as [[m f] l], st' as [[m' f'] l']. destruct S as (Sm & Sf & L). cbn [fst snd] in Sm, Sf, L. subst l'. unfold gmka_axis.
  assert (S1 : sb 150 (if l return K Fk then k_mul Fk ve f else ve) (if l return K D64 then k_mul D64 ve' f' else ve')) by (destruct l; wk).
  assert (S2 : sb 150 (if l return K Fk then k_mul Fk (k_mul Fk vx fac) f else k_mul Fk vx fac) (if l return K D64 then k_mul D64 (k_mul D64 vx' fac') f' else k_mul D64 vx' fac')) by (destruct l; wk).
  pose proof (mka_jerk_same _ _ _ _ S1 S2) as S3. cbv zeta.
  revert S3. generalize (gmka_jerk Fk (if l return K Fk then k_mul Fk ve f else ve) (if l return K Fk then k_mul Fk (k_mul Fk vx fac) f else k_mul Fk vx fac))
    (gmka_jerk D64 (if l return K D64 then k_mul D64 ve' f' else ve') (if l return K D64 then k_mul D64 (k_mul D64 vx' fac') f' else k_mul D64 vx' fac')). intros j j' S3.
  rewrite (ltb_same jerk j jerk' j') by (eapply sb_stands; sbs). destruct (k_ltb D64 jerk' j') eqn:C.
  - cbn [Bk k_ltb] in C. apply Rltb_iff in C. pose proof (ratio_same _ _ _ _ _ _ J S3 Pj C) as S4.
    assert (S5 : sb 0 (k_mul Fk f (k_div Fk jerk j)) (k_mul D64 f' (k_div D64 jerk' j'))) by exact (sb_mul 0 0 _ _ _ _ Sf S4 eq_refl). unfold sax. cbn [fst snd]. split; [exact (sb_mul 40 0 _ _ _ _ Sm S5 eq_refl)|]. split; [exact S5|reflexivity].
  - unfold sax. cbn [fst snd]. split; [destruct l; wk|]. split; [exact Sf|reflexivity].
Qed.
Lemma mka_same v0 v1 v0' v1' jerk jerk' : sv 36 v0 v0' -> sv 36 v1 v1' -> zlb (-7) (gnorm3 D64 v0') -> sb 10 jerk jerk' -> 0 <= jerk' ->
  sb 200 (gcalc_mka Fk v0 v1 jerk) (gcalc_mka D64 v0' v1' jerk').
Proof.
  intros S0 S1 Z0 J Pj. unfold gcalc_mka. assert (N0 : sb 38 (gnorm3 Fk v0) (gnorm3 D64 v0')) by wk. assert (N1 : sb 38 (gnorm3 Fk v1) (gnorm3 D64 v1')) by wk. cbv zeta.
  assert (Sm : sb 38 (kmin Fk (gnorm3 Fk v0) (gnorm3 Fk v1)) (kmin D64 (gnorm3 D64 v0') (gnorm3 D64 v1'))) by (unfold kmin; apply if_same; [cmp|exact N1|exact N0]).
  assert (Lf : k_ltb D64 (k0 D64) (kmin D64 (gnorm3 D64 v0') (gnorm3 D64 v1')) = true -> lb (-7) (gnorm3 D64 v0')).
  { intros C. apply (zlb_pos _ _ Z0). rewrite k0_D in *. cbn [Bk k_ltb] in *. apply Rltb_iff in C. apply Rltb_iff. revert C. unfold kmin. cbn [Bk k_ltb]. unfold Rltb. destruct (Rlt_dec _ _); intros; lra. }
  revert Sm Lf. generalize (kmin Fk (gnorm3 Fk v0) (gnorm3 Fk v1)) (kmin D64 (gnorm3 D64 v0') (gnorm3 D64 v1')). intros m m' Sm Lf.
  assert (Sf : sb 50 (if k_ltb Fk (k0 Fk) m return K Fk then k_div Fk m (gnorm3 Fk v0) else k0 Fk) (if k_ltb D64 (k0 D64) m' return K D64 then k_div D64 m' (gnorm3 D64 v0') else k0 D64)).
  { rewrite (ltb_same (k0 Fk) m (k0 D64) m') by (eapply sb_stands; sbs). destruct (k_ltb D64 (k0 D64) m'); [|wk]. specialize (Lf eq_refl). eapply sb_weaken; [exact (sb_div _ _ _ _ _ _ _ Sm N0 Lf eq_refl)|reflexivity]. }
  revert Sf. generalize (if k_ltb Fk (k0 Fk) m return K Fk then k_div Fk m (gnorm3 Fk v0) else k0 Fk) (if k_ltb D64 (k0 D64) m' return K D64 then k_div D64 m' (gnorm3 D64 v0') else k0 D64). intros fac fac' Sf.
  assert (I0 : sax (m, k1 Fk, false) (m', k1 D64, false)) by (unfold sax; cbn [fst snd]; split; [wk|split; [apply sb_1|reflexivity]]).
  destruct S0 as [X Y Z E], S1 as [X1 Y1 Z1 E1]. cbn [fold_left].
  pose proof (axis_same _ _ _ _ _ _ _ _ _ _ J Pj Sf I0 X X1) as I1. pose proof (axis_same _ _ _ _ _ _ _ _ _ _ J Pj Sf I1 Y Y1) as I2.
  pose proof (axis_same _ _ _ _ _ _ _ _ _ _ J Pj Sf I2 Z Z1) as I3. pose proof (axis_same _ _ _ _ _ _ _ _ _ _ J Pj Sf I3 E E1) as I4.
  destruct I4 as (I4 & _). eapply sb_weaken; [exact I4|reflexivity].
Qed.
