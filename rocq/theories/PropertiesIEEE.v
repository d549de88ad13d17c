(** C112: the doubles of the running program (Fk, Coq.Floats.SpecFloat) and the
    rounded real numbers of C105 to C110 (Bk binary64) are the same arithmetic.
    Every operation of the first rounds as IEEE 754 prescribes; as long as
    nothing overflows, the second computes the number that the first stands
    for. *)
From Coq Require Import Reals ZArith Lra Lia SpecFloat Bool.
From Verif Require Import Vec StateGen RealFacts Rounding SpecRounding RoundingProofs Generic SpecIEEE IEEEProofs SineProofs.
Open Scope R_scope.

(** the four operations and the root give the double that IEEE 754 prescribes *)
Theorem C112_operations : forall x y r q, stands x r -> stands y q ->
  rounds (k_add Fk x y) (r + q) /\ rounds (k_sub Fk x y) (r - q) /\ rounds (k_mul Fk x y) (r * q) /\
  (q <> 0 -> rounds (k_div Fk x y) (r / q)) /\ (0 <= r -> rounds (k_sqrt Fk x) (sqrt r)) /\
  stands (k_abs Fk x) (Rabs r) /\ stands (k_opp Fk x) (- r).
Proof.
  intros x y r q [Px <-] [Py <-]. repeat split; try (apply abs_ok; exact Px); try (apply opp_ok; exact Px);
    try (apply add_ok; assumption); try (apply sub_ok; assumption); try (apply mul_ok; assumption);
    try (apply div_ok; assumption); try (apply sqrt_ok; assumption).
Qed.
(** comparisons see the numbers *)
Theorem C112_comparisons : forall x y r q, stands x r -> stands y q ->
  (k_ltb Fk x y = true <-> r < q) /\ (k_leb Fk x y = true <-> r <= q) /\ (k_eqb Fk x y = true <-> r = q).
Proof.
  intros x y r q [Px <-] [Py <-]. cbn [k_ltb k_leb k_eqb Fk]. unfold SFltb, SFleb, SFeqb.
  destruct (compare_ok x y Px Py) as [[-> C]|[[-> C]|[-> C]]]; repeat split; intros H; try discriminate H; try reflexivity; try lra.
Qed.
(** a number in a text becomes the nearest double *)
Theorem C112_numbers : forall m e,
  rounds (k_dec Fk m e) (if (0 <=? e)%Z then IZR m * IZR (10 ^ e) else IZR m / IZR (10 ^ (- e))).
Proof.
  intros m e. assert (E : r_of_dec m e = if (0 <=? e)%Z then IZR m * IZR (10 ^ e) else IZR m / IZR (10 ^ (- e))).
  { destruct e as [|p|p]; cbn [r_of_dec Z.leb Z.compare].
    - change (10 ^ 0)%Z with 1%Z. ring.
    - rewrite mult_IZR. reflexivity.
    - rewrite Pos2Z.inj_pow. reflexivity. }
  rewrite <- E. apply dec_ok.
Qed.
(** the two sines of the junction rule of Klipper and Marlin's junction deviation *)
Theorem C112_sines : stands (k_sin_max Fk) (binary64 (sin (162 * PI / 360))) /\ stands (k_sin_min Fk) (binary64 (sin (18 * PI / 360))).
Proof. split; (split; [split; [exact Logic.I|vm_compute; reflexivity]|]); [rewrite sin_max_is|rewrite sin_min_is]; reflexivity. Qed.

(** so the rounded real numbers follow the doubles, operation by operation *)
Definition fits (v : R) : Prop := Rabs v < too_large.
Theorem C112_same_arithmetic : forall x y r q, stands x r -> stands y q -> let D := Bk binary64 in
  (fits (k_add D r q) -> stands (k_add Fk x y) (k_add D r q)) /\
  (fits (k_sub D r q) -> stands (k_sub Fk x y) (k_sub D r q)) /\
  (fits (k_mul D r q) -> stands (k_mul Fk x y) (k_mul D r q)) /\
  (q <> 0 -> fits (k_div D r q) -> stands (k_div Fk x y) (k_div D r q)) /\
  (0 <= r -> stands (k_sqrt Fk x) (k_sqrt D r)) /\
  stands (k_abs Fk x) (k_abs D r) /\ stands (k_opp Fk x) (k_opp D r) /\
  k_ltb Fk x y = k_ltb D r q /\ k_leb Fk x y = k_leb D r q /\ k_eqb Fk x y = k_eqb D r q /\
  (forall m e, fits (k_dec D m e) -> stands (k_dec Fk m e) (k_dec D m e)) /\
  stands (k_sin_max Fk) (k_sin_max D) /\ stands (k_sin_min Fk) (k_sin_min D).
Proof.
  intros x y r q Hx Hy. cbn zeta. destruct (C112_operations x y r q Hx Hy) as (A & S & M & D & Q & B & O). destruct (C112_comparisons x y r q Hx Hy) as (L & E & N).
  destruct C112_sines as [S1 S2].
  repeat match goal with |- _ /\ _ => split end; try assumption.
  - apply A.
  - apply S.
  - apply M.
  - intros H. apply (D H).
  - intros H. apply (Q H). destruct Hx as [Px <-]. cbn [k_sqrt Bk]. apply root_fits; assumption.
  - apply bool_same. rewrite L. symmetry. apply Rltb_iff.
  - apply bool_same. rewrite E. symmetry. apply Rleb_iff.
  - apply bool_same. rewrite N. symmetry. apply Reqb_iff.
  - intros m e. apply dec_ok.
Qed.

(** 0.1 + 0.2 as every programmer knows it; a third; a root; and an overflow *)
Example C112_case :
  stands (k_add Fk (k_dec Fk 1 (-1)) (k_dec Fk 2 (-1))) (binary64 (binary64 (1 / 10) + binary64 (2 / 10))) /\
  k_add Fk (k_dec Fk 1 (-1)) (k_dec Fk 2 (-1)) = S754_finite false 5404319552844596 (-54) /\
  k_dec Fk 3 (-1) = S754_finite false 5404319552844595 (-54) /\
  binary64 (1 / 3) = 6004799503160661 * powerRZ 2 (-54) /\
  binary64 (sqrt 2) = 6369051672525773 * powerRZ 2 (-52) /\
  k_mul Fk (k_dec Fk 1 200) (k_dec Fk 1 200) = S754_infinity false.
Proof.
  assert (F : forall v m e, 0 <= v -> binary64 v <= 2 -> rounds (S754_finite false m e) v -> binary64 v = IZR (Zpos m) * powerRZ 2 e).
  { intros v m e N B [R _]. destruct R as [_ E]; [|rewrite <- E; rewrite fval_finite; reflexivity]. pose proof (binary64_nonneg v N). rewrite Rabs_right by lra. apply Rle_lt_trans with 2; [exact B|].
    rewrite <- p2_1. apply p2_up. lia. }
  assert (T : forall v, 0 <= v <= 2 -> 0 <= binary64 v <= 2).
  { intros v [V0 V2]. split; [apply binary64_nonneg, V0|]. assert (D : double 2) by (exists 1%Z, 1%Z; split; [reflexivity|split; [lia|rewrite p2_1; ring]]).
    pose proof (binary64_nearest v 2 D) as H. rewrite (Rabs_left1 (v - 2)) in H by lra. pose proof (Rle_abs (- (v - binary64 v))) as A. rewrite Rabs_Ropp in A. lra. }
  assert (G : forall v, 0 <= v <= 2 -> fits (binary64 v)).
  { intros v V. pose proof (T v V). unfold fits. rewrite Rabs_right by lra. apply Rle_lt_trans with 2; [lra|]. rewrite <- p2_1. apply p2_up. lia. }
  assert (I : forall n, (0 <= n <= 9)%Z -> stands (k_dec Fk n 0) (IZR n)).
  { intros n N. assert (D : double (IZR n)) by (exists n, 0%Z; split; [lia|split; [lia|cbn; ring]]). pose proof (proj1 (dec_ok n 0)) as S. cbn [r_of_dec] in S. rewrite (binary64_fix _ D) in S. apply S.
    assert (0 <= IZR n <= 9) by (split; apply IZR_le; lia). rewrite Rabs_right by lra. apply Rle_lt_trans with (IZR 16); [lra|]. change 16%Z with (2 ^ 4)%Z. rewrite <- p2_Z by lia. apply p2_up. lia. }
  split; [|split; [vm_compute; reflexivity|split; [vm_compute; reflexivity|split; [|split; [|vm_compute; reflexivity]]]]].
  - assert (A : forall n, 0 <= IZR n <= 10 -> stands (k_dec Fk n (-1)) (binary64 (IZR n / 10))) by (intros n N; apply (proj1 (dec_ok n (-1))), G; cbn; lra).
    pose proof (A 1%Z ltac:(lra)) as A1. pose proof (A 2%Z ltac:(lra)) as A2. destruct (C112_operations _ _ _ _ A1 A2) as ([S _] & _). apply S. apply G.
    assert (H : forall v, 0 <= v <= 1 -> 0 <= binary64 v <= 1).
    { intros v [V0 V1]. split; [apply binary64_nonneg, V0|]. assert (D : double 1) by (exists 1%Z, 0%Z; split; [reflexivity|split; [lia|cbn; ring]]).
      pose proof (binary64_nearest v 1 D) as B. rewrite (Rabs_left1 (v - 1)) in B by lra. pose proof (Rle_abs (- (v - binary64 v))) as C. rewrite Rabs_Ropp in C. lra. }
    pose proof (H (1 / 10) ltac:(lra)). pose proof (H (2 / 10) ltac:(lra)). lra.
  - apply (F (1 / 3)); [lra|apply T; lra|]. pose proof (I 1%Z ltac:(lia)) as A1.
    pose proof (I 3%Z ltac:(lia)) as A3.
    destruct (C112_operations _ _ _ _ A1 A3) as (_ & _ & _ & D & _). specialize (D ltac:(lra)). replace (k_div Fk (k_dec Fk 1 0) (k_dec Fk 3 0)) with (S754_finite false 6004799503160661 (-54)) in D by (vm_compute; reflexivity). exact D.
  - assert (S2 : 0 <= sqrt 2 <= 2). { split; [apply sqrt_pos|]. rewrite <- (sqrt_square 2) at 2 by lra. apply sqrt_le_1; lra. }
    apply (F (sqrt 2)); [lra|apply T; exact S2|]. pose proof (I 2%Z ltac:(lia)) as A2.
    destruct (C112_operations _ _ _ _ A2 A2) as (_ & _ & _ & _ & D & _). specialize (D ltac:(lra)). replace (k_sqrt Fk (k_dec Fk 2 0)) with (S754_finite false 6369051672525773 (-52)) in D by (vm_compute; reflexivity). exact D.
Qed.

Print Assumptions C112_operations.
Print Assumptions C112_comparisons.
Print Assumptions C112_numbers.
Print Assumptions C112_sines.
Print Assumptions C112_same_arithmetic.
