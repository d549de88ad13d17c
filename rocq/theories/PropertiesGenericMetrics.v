(** C119: the layer metrics computed with doubles.  Vocabulary: SpecGenericMetrics.v. *)
From Coq Require Import Reals ZArith SpecFloat List DecimalString Lia Lra.
From Verif Require Import Py PyFloat Vec Segment StateGen Junction Planner Interp Query Tools Abaqus Rounding SpecRounding RoundingProofs Generic SpecGeneric GenericProofs SpecKin SpecQuery SpecIEEE IEEEProofs PropertiesIEEE SpecBridge GenericQuery SpecGenericQuery
  PropertiesFloat BridgeProofs BridgePlanProofs StrFacts RealFacts FloatDriftProofs QueryFloatProofs BridgeRunProofs PropertiesBridge Texts SpecTexts TextsProofs Repr SpecRepr ReprProofs ReprTextProofs PropertiesRepr PropertiesGenericQuery GenericTexts SpecGenericTexts PropertiesGenericTexts SpecBridgeText BridgeReadProofs PropertiesBridgeText SpecShape PropertiesShape GenericMetrics SpecGenericMetrics.
Import ListNotations.
Open Scope R_scope.

(** * With exact numbers they are the metrics of Tools.v *)
Definition torow (r : glayer_row Rk) : layer_row := Row (grow_layer Rk r) (grow_duration Rk r) (grow_travel Rk r) (grow_speed Rk r).
Lemma loop_R : forall bl cur t d, rmap (map torow) (glayer_loop Rk bl cur t d) = layer_loop (map toblock bl) cur t d.
Proof.
  induction bl as [|b bl IH]; intros cur t d; [reflexivity|]. cbn [glayer_loop layer_loop map]. change (k_layer (b_B (toblock b))) with (gk_layer Rk (gb_B Rk b)). change (b_segs (toblock b)) with (map toseg (gb_segs Rk b)).
  destruct (gk_layer Rk (gb_B Rk b)) as [n|]; [|reflexivity]. destruct (cur <? n)%nat.
  - destruct (gb_segs Rk b) as [|g segs]; [reflexivity|]. cbn [gfirst_seg first_seg map bind]. specialize (IH n (gt_begin Rk g) (0 + get_block_travel (toblock b))). change (t_begin (toseg g)) with (gt_begin Rk g).
    rewrite <- IH. change (k_add Rk (k0 Rk) (gget_block_travel Rk b)) with (0 + get_block_travel (toblock b)). destruct (glayer_loop Rk bl n _ _); reflexivity.
  - destruct bl as [|b' bl].
    + cbn [map]. rewrite <- last_seg_R, bind_rmap. destruct (glast_seg Rk (gb_segs Rk b)) as [l|]; reflexivity.
    + specialize (IH cur t (d + get_block_travel (toblock b))). cbn [map] in IH |- *. rewrite <- IH. reflexivity.
Qed.
Theorem C119_exact_numbers cue bl : rmap (option_map (map torow)) (gsave_layer_metrics Rk cue bl) = save_layer_metrics cue (map toblock bl).
Proof.
  unfold gsave_layer_metrics, save_layer_metrics. destruct cue; [|reflexivity]. pose proof (loop_R bl 0 0 0) as H. change (k0 Rk) with 0. rewrite <- H. destruct (glayer_loop Rk bl 0 0 0); reflexivity.
Qed.

(** * Differences of doubles have no absolute error *)
Lemma sub_relative a b : double a -> double b -> Rabs (binary64 (a - b) - (a - b)) <= uu * Rabs (a - b).
Proof.
  intros (m & e & _ & E & ->) (m' & e' & _ & E' & ->). set (d := IZR m * p2 e - IZR m' * p2 e').
  assert (D : exists k, d = IZR k * p2 (-1074)).
  { exists (m * 2 ^ (e + 1074) - m' * 2 ^ (e' + 1074))%Z. unfold d. rewrite minus_IZR, !mult_IZR, <- !p2_Z by lia. replace e with ((e + 1074) + -1074)%Z at 1 by lia. replace e' with ((e' + 1074) + -1074)%Z at 1 by lia. rewrite !pow2_add. ring. }
  destruct D as (k & D). destruct (Req_dec d 0) as [Z|Z]; [rewrite Z, binary64_0, Rminus_0_r, Rabs_R0; lra|].
  destruct (Z_lt_le_dec (Rounding.exponent d) (-1022)) as [L|L].
  - assert (F : double d). { exists k, (-1074)%Z. split; [|split; [lia|exact D]]. destruct (exponent_spec d Z) as [_ H]. apply lt_IZR. rewrite abs_IZR.
      assert (H1 : Rabs d < p2 (-1022)) by (eapply Rlt_le_trans; [exact H|apply pow2_mono; lia]). replace (-1022)%Z with (52 + -1074)%Z in H1 by lia. rewrite pow2_add, D, Rabs_mult, (Rabs_right (p2 (-1074))) in H1 by (pose proof (pow2_pos (-1074)); lra).
      apply Rmult_lt_reg_r in H1; [|apply pow2_pos]. rewrite p2_Z in H1 by lia. eapply Rlt_trans; [exact H1|]. apply IZR_lt. reflexivity. }
    rewrite (binary64_fix d F), Rminus_diag_eq, Rabs_R0 by reflexivity. apply Rmult_le_pos; [unfold uu; lra|apply Rabs_pos].
  - eapply Rle_trans; [apply binary64_half|]. destruct (exponent_spec d Z) as [H _]. unfold ulp. rewrite Z.max_r by lia. replace (Rounding.exponent d - 52)%Z with (Rounding.exponent d + (-53 + 1))%Z by lia. rewrite !pow2_add. change (powerRZ 2 1) with (2 * 1).
    assert (U : powerRZ 2 (-53) = uu) by (unfold uu; change (powerRZ 2 (-53)) with (/ (2 ^ Pos.to_nat 53)); rewrite pow_IZR; f_equal). rewrite U. assert (0 < uu) by (unfold uu; lra).
    replace (p2 (Rounding.exponent d) * (uu * (2 * 1)) / 2) with (uu * p2 (Rounding.exponent d)) by field. apply Rmult_le_compat_l; lra.
Qed.
Lemma sub_num a b : proper a -> proper b -> Rabs (fval a) <= 2 ^ 100 -> Rabs (fval b) <= 2 ^ 100 -> proper (k_sub Fk a b) /\ Rabs (fval (k_sub Fk a b) - (fval a - fval b)) <= uu * Rabs (fval a - fval b).
Proof.
  intros A B Ba Bb. assert (W : forall x, proper x -> Rabs (fval x) <= 2 ^ 100 -> sb 100 x (fval x)) by (intros x Px Bx; constructor; [split; [exact Px|reflexivity]|rewrite <- p100; exact Bx]).
  destruct (sb_sub 100 100 a b _ _ (W _ A Ba) (W _ B Bb) eq_refl) as [[P V] _]. split; [exact P|]. rewrite V. cbn [Bk k_sub]. apply sub_relative; apply proper_double; assumption.
Qed.

(** * Lengths of moves *)
Lemma square_near x d : Rabs (x - d) <= uu * Rabs d -> (1 - uu) * (1 - uu) * (d * d) <= x * x <= (1 + uu) * (1 + uu) * (d * d).
Proof.
  intros H. assert (U : 0 < uu < / 1000) by (unfold uu; lra). pose proof (Rabs_pos d) as D0. pose proof (Rabs_pos x) as X0.
  assert (A1 : Rabs x <= (1 + uu) * Rabs d). { replace x with ((x - d) + d) at 1 by ring. eapply Rle_trans; [apply Rabs_triang|]. lra. }
  assert (A2 : (1 - uu) * Rabs d <= Rabs x). { pose proof (Rabs_triang_inv d (d - x)) as T. replace (d - (d - x)) with x in T by ring. rewrite (Rabs_minus_sym d x) in T. lra. }
  assert (E : forall z, z * z = Rabs z * Rabs z) by (intros z; rewrite <- Rabs_mult; symmetry; apply Rabs_right, Rle_ge, Rle_0_sqr). rewrite (E x), (E d).
  replace ((1 - uu) * (1 - uu) * (Rabs d * Rabs d)) with (((1 - uu) * Rabs d) * ((1 - uu) * Rabs d)) by ring. replace ((1 + uu) * (1 + uu) * (Rabs d * Rabs d)) with (((1 + uu) * Rabs d) * ((1 + uu) * Rabs d)) by ring.
  assert (0 <= (1 - uu) * Rabs d) by (apply Rmult_le_pos; lra). split; apply Rmult_le_compat; lra.
Qed.
Lemma sq_le a b : 0 <= b -> a * a <= b * b -> a <= b.
Proof. intros B H. destruct (Rle_lt_dec a b) as [L|L]; [exact L|]. assert (b * b < a * a) by (apply Rmult_le_0_lt_compat; lra). lra. Qed.
Notation hh := (p2 (-340)).
Lemma uu_p2 : uu = p2 (-53).
Proof. unfold uu. change (powerRZ 2 (-53)) with (/ (2 ^ Pos.to_nat 53)). rewrite pow_IZR. f_equal. Qed.
Lemma hh_small : 0 < hh /\ 100 * hh <= tiny /\ eta <= uu * hh / 10 /\ eta <= uu * (hh * hh) / 10.
Proof.
  split; [apply pow2_pos|]. split; [|split].
  - unfold tiny. change (p2 (-340)) with (/ 2 ^ Pos.to_nat 340). assert (A : 0 < 2 ^ Pos.to_nat 340) by (apply pow_lt; lra). assert (B : 0 < 10 ^ 100) by (apply pow_lt; lra).
    apply Rmult_le_reg_r with (2 ^ Pos.to_nat 340 * 10 ^ 100); [apply Rmult_lt_0_compat; assumption|]. replace (100 * / 2 ^ Pos.to_nat 340 * (2 ^ Pos.to_nat 340 * 10 ^ 100)) with (100 * 10 ^ 100) by (field; lra). replace (/ 10 ^ 100 * (2 ^ Pos.to_nat 340 * 10 ^ 100)) with (2 ^ Pos.to_nat 340) by (field; lra).
    rewrite !pow_IZR, <- mult_IZR. apply IZR_le. vm_compute. discriminate.
  - rewrite uu_p2, <- pow2_add. assert (eta <= p2 (-397)) by (apply pow2_mono; lia). replace (-53 + -340)%Z with (4 + -397)%Z by lia. rewrite pow2_add. change (p2 4) with (2 * (2 * (2 * (2 * 1)))). pose proof (pow2_pos (-397)). lra.
  - rewrite uu_p2, <- !pow2_add. assert (eta <= p2 (-737)) by (apply pow2_mono; lia). replace (-53 + (-340 + -340))%Z with (4 + -737)%Z by lia. rewrite pow2_add. change (p2 4) with (2 * (2 * (2 * (2 * 1)))). pose proof (pow2_pos (-737)). lra.
Qed.
Lemma norm_rounded x y z d : Rabs (x - vx d) <= uu * Rabs (vx d) -> Rabs (y - vy d) <= uu * Rabs (vy d) -> Rabs (z - vz d) <= uu * Rabs (vz d) -> Rabs (rnorm binary64 x y z - norm3 d) <= 6 * uu * norm3 d + tiny / 10.
Proof.
  intros Hx Hy Hz. apply square_near in Hx, Hy, Hz. pose proof (norm3_nonneg d) as N0. pose proof (norm3_sq d) as NS. set (N := norm3 d) in *. assert (U : 0 < uu < / 1000) by (unfold uu; lra).
  set (M := sqrt (x * x + y * y + z * z)). assert (M0 : 0 <= M) by apply sqrt_pos. pose proof (Rle_0_sqr x) as X2. pose proof (Rle_0_sqr y) as Y2. pose proof (Rle_0_sqr z) as Z2. unfold Rsqr in X2, Y2, Z2. assert (MS : M * M = x * x + y * y + z * z) by (apply sqrt_sqrt; lra).
  assert (UN : 0 <= uu * N) by (apply Rmult_le_pos; lra).
  assert (M1 : M <= (1 + uu) * N). { apply sq_le; [apply Rmult_le_pos; lra|]. rewrite MS. replace ((1 + uu) * N * ((1 + uu) * N)) with ((1 + uu) * (1 + uu) * (N * N)) by ring. rewrite NS. lra. }
  assert (M2 : (1 - uu) * N <= M). { apply sq_le; [exact M0|]. rewrite MS. replace ((1 - uu) * N * ((1 - uu) * N)) with ((1 - uu) * (1 - uu) * (N * N)) by ring. rewrite NS. lra. }
  destruct hh_small as (H0 & H1 & H2 & H3). assert (pos : forall v, 0 <= v -> 0 <= binary64 v) by (intros v; apply binary64_nonneg). pose proof eta_pos as E0.
  destruct (Rle_lt_dec hh M) as [L|L].
  - assert (HM : hh * hh <= M * M) by (apply Rmult_le_compat; lra). assert (uu * hh <= uu * M) by (apply Rmult_le_compat_l; lra). assert (uu * (hh * hh) <= uu * (M * M)) by (apply Rmult_le_compat_l; lra).
    pose proof (rnorm_near binary64 eta ltac:(lra) b64_err pos x y z M ltac:(lra) MS ltac:(lra) ltac:(lra)) as Q. apply abs_le_inv in Q. assert (uu * M <= uu * ((1 + uu) * N)) by (apply Rmult_le_compat_l; lra). assert (uu * (uu * N) <= / 1000 * (uu * N)) by (apply Rmult_le_compat_r; lra).
    assert (0 < tiny) by lra. apply Rabs_le. lra.
  - assert (HM : M * M <= hh * hh) by (apply Rmult_le_compat; lra). destruct (rnorm_le binary64 eta ltac:(lra) b64_err pos x y z hh ltac:(lra) ltac:(lra) ltac:(lra)) as [Q1 Q2].
    { assert (0 <= uu * (hh * hh)) by (apply Rmult_le_pos; [lra|apply Rmult_le_pos; lra]). lra. }
    assert (N <= 2 * hh) by (assert (uu * N <= / 1000 * N) by (apply Rmult_le_compat_r; lra); lra). apply Rabs_le. lra.
Qed.
Definition block_step (b : gblock Fk) : R := get_block_travel (num_block b).
Lemma place_sv p : place p -> sv 100 p (value_vec p).
Proof. intros [(X & Y & Z & E) M]. unfold moderate_vec in M. rewrite p100 in M. inversion_clear M as [|? ? M1 M']. inversion_clear M' as [|? ? M2 M'']. inversion_clear M'' as [|? ? M3 M3']. inversion_clear M3' as [|? ? M4 _]. split; (split; [split; [assumption|reflexivity]|assumption]). Qed.
Lemma travel_num b : place (gk_pos Fk (gb_A Fk b)) -> place (gk_pos Fk (gb_B Fk b)) ->
  sb 103 (gget_block_travel Fk b) (fval (gget_block_travel Fk b)) /\ Rabs (fval (gget_block_travel Fk b) - block_step b) <= 6 * uu * block_step b + tiny / 10.
Proof.
  intros A B. unfold gget_block_travel, block_step, get_block_travel, gt_distance, t_distance. cbn [num_block b_A b_B num_state k_pos]. set (p := gk_pos Fk (gb_A Fk b)) in *. set (q := gk_pos Fk (gb_B Fk b)) in *.
  pose proof (place_sv p A) as Sp. pose proof (place_sv q B) as Sq. pose proof (sv_sub 100 100 _ _ _ _ Sp Sq eq_refl) as Sd. pose proof (sb_norm3 101 _ _ Sd eq_refl eq_refl) as Sn.
  split; [destruct Sn as [[P V] L]; split; [split; [exact P|reflexivity]|rewrite V; exact L]|]. destruct Sn as [[P V] _]. rewrite V.
  change (gnorm3 D64 (gvsub D64 (value_vec p) (value_vec q))) with (rnorm binary64 (binary64 (fval (gx Fk p) - fval (gx Fk q))) (binary64 (fval (gy Fk p) - fval (gy Fk q))) (binary64 (fval (gz Fk p) - fval (gz Fk q)))).
  destruct A as [(X & Y & Z & _) _]. destruct B as [(X' & Y' & Z' & _) _]. apply norm_rounded; cbn [vsub num_vec vx vy vz]; apply sub_relative; apply proper_double; assumption.
Qed.
(** * Sums of lengths *)
Definition travel_near (m : nat) (t : spec_float) (x : R) : Prop :=
  proper t /\ 0 <= x <= INR m * p2 104 /\ Rabs (fval t - x) <= (2 * INR m + 7) * uu * x + INR m * tiny.
Lemma tiny_bound : 0 < tiny <= / 1000000000000.
Proof. unfold tiny. split; [apply Rinv_0_lt_compat, pow_lt; lra|]. apply Rinv_le_contravar; [lra|]. apply Rle_trans with (10 ^ 12); [lra|apply Rle_pow; [lra|lia]]. Qed.
Lemma travel_size m t x : travel_near m t x -> INR m <= 1000000000 -> Rabs (fval t - x) <= / 1000 * x + / 1000 /\ sb 140 t (fval t).
Proof.
  intros (P & [X0 X1] & E) M. pose proof (pos_INR m) as M0. pose proof tiny_bound as T. assert (U : (2 * INR m + 7) * uu <= / 1000) by (unfold uu; lra).
  assert (E1 : Rabs (fval t - x) <= / 1000 * x + / 1000). { eapply Rle_trans; [exact E|]. assert ((2 * INR m + 7) * uu * x <= / 1000 * x) by (apply Rmult_le_compat_r; lra). assert (INR m * tiny <= 1000000000 * / 1000000000000) by (apply Rmult_le_compat; lra). lra. }
  split; [exact E1|]. split; [split; [exact P|reflexivity]|]. assert (X2 : x <= 1000000000 * p2 104) by (pose proof (pow2_pos 104); eapply Rle_trans; [exact X1|apply Rmult_le_compat_r; lra]).
  apply abs_le_inv in E1. rewrite p2_Z in * by lia. change (2 ^ 140)%Z with (2 ^ 36 * 2 ^ 104)%Z. rewrite mult_IZR. change (IZR (2 ^ 36)) with 68719476736. assert (1 <= IZR (2 ^ 104)) by (apply IZR_le; vm_compute; discriminate). apply Rabs_le. lra.
Qed.
Lemma travel_step m t x b : travel_near m t x -> place (gk_pos Fk (gb_A Fk b)) -> place (gk_pos Fk (gb_B Fk b)) -> INR (S m) <= 1000000000 ->
  travel_near (S m) (k_add Fk t (gget_block_travel Fk b)) (x + block_step b).
Proof.
  intros N A B M. rewrite S_INR in M. destruct (travel_num b A B) as [Sd Ed]. destruct (travel_size m t x N ltac:(lra)) as [E1 St]. destruct N as (P & [X0 X1] & E). set (s := block_step b) in *. set (d := gget_block_travel Fk b) in *.
  assert (S0 : 0 <= s) by apply norm3_nonneg. pose proof (sb_add 140 103 _ _ _ _ St Sd eq_refl) as [[Q V] _]. split; [exact Q|]. rewrite V. cbn [Bk k_add]. pose proof (b64_err (fval t + fval d)) as Er. pose proof (pos_INR m) as M0. rewrite S_INR.
  assert (U : 0 < uu < / 1000000000000000) by (unfold uu; lra). pose proof tiny_bound as T. pose proof eta_tiny as Et. pose proof eta_pos as E0.
  assert (Sx : s <= p2 104). { destruct Sd as [_ L]. apply abs_le_inv in L. apply abs_le_inv in Ed. assert (6 * uu * s <= / 1000 * s) by (apply Rmult_le_compat_r; lra). rewrite !p2_Z in * by lia. change (2 ^ 104)%Z with (2 * 2 ^ 103)%Z. rewrite mult_IZR. assert (1 <= IZR (2 ^ 103)) by (apply IZR_le; vm_compute; discriminate). lra. }
  split; [split; [lra|]; replace ((INR m + 1) * p2 104) with (INR m * p2 104 + p2 104) by ring; lra|].
  set (w := fval t + fval d) in *. set (A1 := (2 * INR m + 7) * uu * x + INR m * tiny) in *. set (A2 := 6 * uu * s + tiny / 10) in *.
  assert (W : Rabs (w - (x + s)) <= A1 + A2). { unfold w. replace (fval t + fval d - (x + s)) with ((fval t - x) + (fval d - s)) by ring. eapply Rle_trans; [apply Rabs_triang|]. lra. }
  assert (W2 : Rabs w <= (x + s) + A1 + A2). { replace w with ((w - (x + s)) + (x + s)) at 1 by ring. eapply Rle_trans; [apply Rabs_triang|]. rewrite (Rabs_right (x + s)) by lra. lra. }
  assert (UA : uu * A1 <= / 1000000 * (uu * x) + / 1000000 * tiny). { unfold A1. rewrite Rmult_plus_distr_l. assert (0 <= uu * x) by (apply Rmult_le_pos; lra).
    replace (uu * ((2 * INR m + 7) * uu * x)) with ((2 * INR m + 7) * uu * (uu * x)) by ring. assert ((2 * INR m + 7) * uu <= / 1000000) by (unfold uu; lra). assert ((2 * INR m + 7) * uu * (uu * x) <= / 1000000 * (uu * x)) by (apply Rmult_le_compat_r; lra).
    replace (uu * (INR m * tiny)) with (uu * INR m * tiny) by ring. assert (uu * INR m <= / 1000000) by (assert (uu * INR m <= / 1000000000000000 * 1000000000) by (apply Rmult_le_compat; lra); lra). assert (uu * INR m * tiny <= / 1000000 * tiny) by (apply Rmult_le_compat_r; lra). lra. }
  assert (US : 0 <= uu * s) by (apply Rmult_le_pos; lra). assert (UX : 0 <= uu * x) by (apply Rmult_le_pos; lra).
  assert (UA2 : uu * A2 <= / 1000000 * (uu * s) + / 1000000 * tiny). { unfold A2. rewrite Rmult_plus_distr_l. replace (uu * (6 * uu * s)) with (6 * uu * (uu * s)) by ring. assert (6 * uu * (uu * s) <= / 1000000 * (uu * s)) by (apply Rmult_le_compat_r; lra). assert (uu * (tiny / 10) <= / 1000000 * (tiny / 10)) by (apply Rmult_le_compat_r; lra). lra. }
  assert (UW : uu * Rabs w <= uu * x + uu * s + uu * A1 + uu * A2) by (replace (uu * x + uu * s + uu * A1 + uu * A2) with (uu * ((x + s) + A1 + A2)) by ring; apply Rmult_le_compat_l; lra).
  replace (binary64 w - (x + s)) with ((binary64 w - w) + (w - (x + s))) by ring. eapply Rle_trans; [apply Rabs_triang|].
  assert (MS : 0 <= INR m * (uu * s)) by (apply Rmult_le_pos; lra).
  replace ((2 * (INR m + 1) + 7) * uu * (x + s) + (INR m + 1) * tiny) with (A1 + 2 * (uu * x) + 2 * (INR m * (uu * s)) + 9 * (uu * s) + tiny) by (unfold A1; ring). unfold A2 in *. lra.
Qed.
(** * Rows *)
Lemma clock_range t : clock t -> 0 <= fval t /\ Rabs (fval t) <= 2 ^ 100.
Proof. intros [_ [E|[L H]]]; [rewrite E, Rabs_R0; split; [lra|apply pow_le; lra]|]. assert (0 < / 10 ^ 27) by (apply Rinv_0_lt_compat, pow_lt; lra). split; [lra|rewrite Rabs_right; lra]. Qed.
Lemma clock_gap a b : clock a -> clock b -> fval a <> fval b -> / 10 ^ 50 <= Rabs (fval a - fval b).
Proof.
  intros A B D. pose proof (clock_range a A) as [A0 _]. pose proof (clock_range b B) as [B0 _]. destruct A as [Pa A], B as [Pb B].
  destruct (Rlt_le_dec (fval a) (fval b)) as [L|L].
  - pose proof (double_gap a b Pa Pb ltac:(lra) ltac:(lra)). rewrite Rabs_left by lra. lra.
  - pose proof (double_gap b a Pb Pa ltac:(lra) ltac:(lra)). rewrite Rabs_right by lra. lra.
Qed.
Lemma row_good m n cur a last t x : clock a -> clock last -> travel_near m t x -> (m <= n)%nat -> INR n <= 1000000000 ->
  row_near n (GRow Fk cur (k_sub Fk a last) t (gaverage_speed Fk t (k_sub Fk a last))) (Row cur (fval a - fval last) x (average_speed x (fval a - fval last))).
Proof.
  intros A L N Mn Nn. pose proof (le_INR _ _ Mn) as Mr. pose proof (pos_INR m) as M0. destruct (clock_range a A) as [_ Ba]. destruct (clock_range last L) as [_ Bl]. destruct (sub_num a last (proj1 A) (proj1 L) Ba Bl) as [Pd Ed].
  destruct (travel_size m t x N ltac:(lra)) as [_ St]. destruct N as (P & [X0 _] & E). set (d := k_sub Fk a last) in *. assert (U : 0 < uu < / 1000) by (unfold uu; lra). pose proof tiny_bound as T.
  split; [reflexivity|]. split; [exact Pd|]. split; [exact Ed|]. split; [exact P|]. cbn [grow_travel grow_speed grow_duration row_travel row_speed]. split.
  { eapply Rle_trans; [exact E|]. assert ((2 * INR m + 7) * (uu * x) <= (2 * INR n + 7) * (uu * x)) by (apply Rmult_le_compat_r; [apply Rmult_le_pos; lra|lra]). assert (INR m * tiny <= INR n * tiny) by (apply Rmult_le_compat_r; lra). lra. }
  unfold gaverage_speed, average_speed. assert (Eq : k_eqb Fk d (k0 Fk) = Reqb (fval d) (fval (k0 Fk))) by (apply eqb_same; (split; [|reflexivity]); [exact Pd|apply sb_0]). rewrite Eq. assert (Z0 : fval (k0 Fk) = 0) by (vm_compute; reflexivity || reflexivity). rewrite Z0.
  destruct (Req_dec (fval a - fval last) 0) as [Z|Z].
  - rewrite Z in *. rewrite Rabs_R0, Rmult_0_r, Rminus_0_r in Ed. assert (fval d = 0) as -> by (pose proof (Rabs_pos (fval d)); destruct (Req_dec (fval d) 0) as [Q|Q]; [exact Q|apply Rabs_pos_lt in Q; lra]). rewrite !Reqb_refl. exact I.
  - assert (G : / 10 ^ 50 <= Rabs (fval a - fval last)) by (apply clock_gap; auto; lra). assert (G0 : 0 < / 10 ^ 50) by (apply Rinv_0_lt_compat, pow_lt; lra).
    assert (Gd : / 10 ^ 50 / 2 <= Rabs (fval d)). { pose proof (Rabs_triang_inv (fval a - fval last) ((fval a - fval last) - fval d)) as Tr. replace (fval a - fval last - (fval a - fval last - fval d)) with (fval d) in Tr by ring. rewrite (Rabs_minus_sym (fval a - fval last) (fval d)) in Tr. assert (uu * Rabs (fval a - fval last) <= / 1000 * Rabs (fval a - fval last)) by (apply Rmult_le_compat_r; lra). lra. }
    assert (Nd : fval d <> 0) by (intros Q; rewrite Q, Rabs_R0 in Gd; lra). rewrite (proj2 (Reqb_neq _ _) Nd), (proj2 (Reqb_neq _ _) Z).
    assert (Lb : lb (-170) (fval d)).
    { constructor. eapply Rle_trans; [|exact Gd]. change (p2 (-170)) with (/ 2 ^ Pos.to_nat 170). replace (/ 10 ^ 50 / 2) with (/ (10 ^ 50 * 2)) by (field; apply pow_nonzero; lra). apply Rinv_le_contravar; [apply Rmult_lt_0_compat; [apply pow_lt; lra|lra]|]. rewrite !pow_IZR, <- mult_IZR. apply IZR_le. vm_compute. discriminate. }
    assert (Sd : sb 101 d (fval d)). { split; [split; [exact Pd|reflexivity]|]. rewrite p100 in *. change 101%Z with (1 + 100)%Z. rewrite pow2_add. change (p2 1) with (2 * 1). pose proof (sb_sub 100 100 a last (fval a) (fval last)) as Q.
      destruct Q as [[_ V] Lq]; [split; [split; [exact (proj1 A)|reflexivity]|exact Ba]|split; [split; [exact (proj1 L)|reflexivity]|exact Bl]|reflexivity|]. fold d in V. rewrite V. eapply Rle_trans; [exact Lq|]. change (Z.max 100 100 + 1)%Z with (1 + 100)%Z. rewrite pow2_add. change (p2 1) with (2 * 1). lra. }
    destruct (sb_div 140 101 (-170) t d _ _ St Sd Lb eq_refl) as [[Pq Vq] _]. split; [exact Pq|]. rewrite Vq. cbn [Bk k_div]. cbv zeta. pose proof (b64_err (fval t / fval d)). pose proof eta_tiny. pose proof eta_pos. lra.
Qed.
Lemma last_num : forall l s, glast_seg Fk l = Ok s -> last_seg (map num_seg l) = Ok (num_seg s).
Proof. intros l s. unfold glast_seg, last_seg. rewrite <- map_rev. destruct (rev l); [discriminate|]. intros H. injection H as ->. reflexivity. Qed.
Lemma loop_near n : INR n <= 1000000000 -> forall bl m cur last t x, Forall measurable bl -> clock last -> travel_near m t x -> (m + length bl <= n)%nat ->
  exists rows xs, glayer_loop Fk bl cur last t = Ok rows /\ layer_loop (map num_block bl) cur (fval last) x = Ok xs /\ Forall2 (row_near n) rows xs.
Proof.
  intros Nn. induction bl as [|b bl IH]; intros m cur last t x Hb Hl Ht Hm; [exists [], []; repeat split; constructor|]. destruct (Forall_inv Hb) as (Hn & Hs & Hc & HA & HB). pose proof (Forall_inv_tail Hb) as Hb'. cbn [length] in Hm.
  assert (Hi : INR (S m) <= 1000000000) by (apply Rle_trans with (INR n); [apply le_INR; lia|exact Nn]).
  cbn [glayer_loop layer_loop map]. change (k_layer (b_B (num_block b))) with (gk_layer Fk (gb_B Fk b)). change (b_segs (num_block b)) with (map num_seg (gb_segs Fk b)). destruct (gk_layer Fk (gb_B Fk b)) as [k|]; [|destruct Hn; reflexivity].
  destruct (cur <? k)%nat.
  - destruct (gb_segs Fk b) as [|g segs]; [destruct Hs; reflexivity|]. destruct (Forall_inv Hc) as [Hg _]. cbn [gfirst_seg first_seg map bind]. change (t_begin (num_seg g)) with (fval (gt_begin Fk g)).
    assert (Z : travel_near 0 (k0 Fk) 0). { split; [apply sb_0|]. change (INR 0) with 0. split; [lra|]. assert (fval (k0 Fk) = 0) as -> by (vm_compute; reflexivity || reflexivity). rewrite Rminus_0_r, Rabs_R0. lra. }
    assert (Hi1 : INR 1 <= 1000000000) by (cbn; lra). pose proof (travel_step 0 _ _ b Z HA HB Hi1) as Z1. destruct (IH 1%nat k (gt_begin Fk g) _ _ Hb' Hg Z1) as (rows & xs & E1 & E2 & F); [lia|].
    rewrite E1. fold (block_step b). rewrite E2. cbn [bind]. eexists _, _. split; [reflexivity|]. split; [reflexivity|]. constructor; [|exact F]. apply row_good with m; [exact Hg|exact Hl|exact Ht|lia|exact Nn].
  - destruct bl as [|b' bl].
    + destruct (glast_seg Fk (gb_segs Fk b)) as [l|e] eqn:El; [|unfold glast_seg in El; destruct (rev (gb_segs Fk b)) eqn:Er; [|discriminate]; exfalso; apply Hs; rewrite <- (rev_involutive (gb_segs Fk b)), Er; reflexivity].
      cbn [map]. rewrite (last_num _ _ El). cbn [bind]. eexists _, _. split; [reflexivity|]. split; [reflexivity|]. constructor; [|constructor]. change (t_end (num_seg l)) with (fval (gt_end Fk l)). apply row_good with m; [|exact Hl|exact Ht|lia|exact Nn].
      unfold glast_seg in El. destruct (rev (gb_segs Fk b)) as [|s r] eqn:Er; [discriminate|]. injection El as ->. rewrite Forall_forall in Hc. apply Hc. apply in_rev. rewrite Er. left. reflexivity.
    + fold (block_step b). change (layer_loop (map num_block (b' :: bl)) cur (fval last) (x + block_step b)) with (layer_loop (map num_block (b' :: bl)) cur (fval last) (x + block_step b)). apply IH with (S m); [exact Hb'|exact Hl|apply travel_step; assumption|lia].
Qed.
(** The rows are those that exact arithmetic would give for the same trajectory,
    to a few roundings. *)
Theorem C119_rows bl : Forall measurable bl -> INR (length bl) <= 1000000000 ->
  exists rows xs, gsave_layer_metrics Fk true bl = Ok (Some rows) /\ save_layer_metrics true (map num_block bl) = Ok (Some xs) /\ Forall2 (row_near (length bl)) rows xs.
Proof.
  intros H N. assert (C : clock (k0 Fk)) by (split; [apply sb_0|left; vm_compute; reflexivity || reflexivity]). assert (Z0 : fval (k0 Fk) = 0) by (vm_compute; reflexivity || reflexivity).
  destruct (loop_near (length bl) N bl 0 0 (k0 Fk) (k0 Fk) 0 H C) as (rows & xs & E1 & E2 & F); [|lia|].
  { split; [apply sb_0|]. change (INR 0) with 0. split; [lra|]. rewrite Z0, Rminus_0_r, Rabs_R0. lra. }
  unfold gsave_layer_metrics, save_layer_metrics. rewrite Z0 in E2. rewrite E1, E2. exists rows, xs. repeat split. exact F.
Qed.

(** * The durations together *)
Definition old (cur : nat) (pre : list (gblock Fk)) (b : gblock Fk) : Prop :=
  forall n, gk_layer Fk (gb_B Fk b) = Some n -> (cur < n)%nat -> exists a m, In a pre /\ gk_layer Fk (gb_B Fk a) = Some m /\ (n <= m)%nat.
Lemma end_num b l : glast_seg Fk (gb_segs Fk b) = Ok l -> end_of b = fval (gt_end Fk l).
Proof. unfold glast_seg, end_of. destruct (rev (gb_segs Fk b)); [discriminate|]. intros H. injection H as ->. reflexivity. Qed.
Lemma time_sum b : measurable b -> begin_of b <= end_of b -> forall pre cur last x, Forall measurable pre -> joined (fun a b => begin_of a <= begin_of b) (pre ++ [b]) ->
  old cur pre b -> match pre ++ [b] with [] => True | a :: _ => last <= begin_of a end ->
  exists xs, layer_loop (map num_block (pre ++ [b])) cur last x = Ok xs /\ Rsum row_duration xs = end_of b - last /\ Forall (fun r => 0 <= row_duration r) xs.
Proof.
  intros Mb Eb. induction pre as [|a pre IH]; intros cur last x Mp J O L.
  - cbn [app map layer_loop]. destruct Mb as (Hn & Hs & _). change (k_layer (b_B (num_block b))) with (gk_layer Fk (gb_B Fk b)). change (b_segs (num_block b)) with (map num_seg (gb_segs Fk b)). unfold old in O. destruct (gk_layer Fk (gb_B Fk b)) as [n|]; [|destruct Hn; reflexivity].
    destruct (Nat.ltb_spec cur n) as [Q|Q]; [destruct (O n eq_refl Q) as (a & m & [] & _)|]. destruct (glast_seg Fk (gb_segs Fk b)) as [l|e] eqn:El; [|unfold glast_seg in El; destruct (rev (gb_segs Fk b)) eqn:Er; [|discriminate]; exfalso; apply Hs; rewrite <- (rev_involutive (gb_segs Fk b)), Er; reflexivity].
    rewrite (last_num _ _ El). cbn [bind]. eexists. split; [reflexivity|]. rewrite (end_num _ _ El) in *. cbn [app] in L. split; [cbn; ring|]. constructor; [cbn [row_duration num_seg t_end]; lra|constructor].
  - destruct (Forall_inv Mp) as (Hn & Hs & _). pose proof (Forall_inv_tail Mp) as Mp'. cbn [app map layer_loop] in *. change (k_layer (b_B (num_block a))) with (gk_layer Fk (gb_B Fk a)). change (b_segs (num_block a)) with (map num_seg (gb_segs Fk a)).
    destruct (gk_layer Fk (gb_B Fk a)) as [n|] eqn:En; [|destruct Hn; reflexivity].
    assert (J' : joined (fun a b => begin_of a <= begin_of b) (pre ++ [b]) /\ match pre ++ [b] with [] => True | c :: _ => begin_of a <= begin_of c end) by (destruct J as [J1 J2]; split; [exact J2|exact J1]). destruct J' as [J2 J1].
    assert (O' : forall c, (cur <= c)%nat -> (n <= c)%nat -> old c pre b).
    { intros c C1 C2 k Ek Lk. destruct (O k Ek ltac:(lia)) as (a' & m & [<-|Ia] & Em & Lm); [assert (m = n) by congruence; lia|exists a', m; auto]. }
    destruct (Nat.ltb_spec cur n) as [Q|Q].
    + unfold begin_of in J1, L. destruct (gb_segs Fk a) as [|g segs]; [destruct Hs; reflexivity|]. cbn [first_seg map bind]. change (t_begin (num_seg g)) with (fval (gt_begin Fk g)).
      destruct (IH n (fval (gt_begin Fk g)) (0 + get_block_travel (num_block a)) Mp' J2 (O' n ltac:(lia) ltac:(lia)) J1) as (xs & E & S & P). rewrite E. cbn [bind]. eexists. split; [reflexivity|]. split; [cbn [Rsum fold_right row_duration]; fold (Rsum row_duration xs); lra|]. constructor; [cbn [row_duration]; lra|exact P].
    + assert (L' : match pre ++ [b] with [] => True | c :: _ => last <= begin_of c end) by (destruct (pre ++ [b]); [exact I|lra]). destruct (IH cur last (x + get_block_travel (num_block a)) Mp' J2 (O' cur ltac:(lia) Q) L') as (xs & E & SP). exists xs. split; [|exact SP].
      destruct (map num_block (pre ++ [b])) as [|y r] eqn:Em; [destruct pre; discriminate|exact E].
Qed.
(** If the blocks begin one after the other, and the last one does not open a
    layer, the durations are together the print time, to one rounding. *)
Theorem C119_time pre b : Forall measurable (pre ++ [b]) -> INR (length (pre ++ [b])) <= 1000000000 ->
  joined (fun a b => begin_of a <= begin_of b) (pre ++ [b]) -> begin_of b <= end_of b -> last_in_old_layer pre b ->
  exists rows, gsave_layer_metrics Fk true (pre ++ [b]) = Ok (Some rows) /\ Rabs (Rsum (fun r => fval (grow_duration Fk r)) rows - end_of b) <= uu * end_of b.
Proof.
  intros M N J E O. destruct (C119_rows _ M N) as (rows & xs & E1 & E2 & F). exists rows. split; [exact E1|]. apply Forall_app in M as [Mp Mb]. apply Forall_inv in Mb.
  assert (L0 : match pre ++ [b] with [] => True | a :: _ => 0 <= begin_of a end).
  { assert (B0 : forall c, measurable c -> 0 <= begin_of c) by (intros c (_ & _ & C & _); unfold begin_of; destruct C as [|s r [C _] _]; [lra|exact (proj1 (clock_range _ C))]). destruct pre as [|a pre]; cbn [app]; [apply B0; exact Mb|apply B0; exact (Forall_inv Mp)]. }
  destruct (time_sum b Mb E pre 0 0 0 Mp J O L0) as (xs' & E3 & S & P). unfold save_layer_metrics in E2. rewrite E3 in E2. cbn [bind] in E2. injection E2 as ->. rewrite Rminus_0_r in S. rewrite <- S. clear - F P.
  induction F as [|r x rows xs (_ & _ & D & _) F IH]; [cbn; rewrite Rminus_0_r, Rabs_R0; lra|]. specialize (IH (Forall_inv_tail P)). pose proof (Forall_inv P) as P0. cbv beta in P0. cbn [Rsum fold_right]. fold (Rsum row_duration xs). fold (Rsum (fun r => fval (grow_duration Fk r)) rows).
  rewrite (Rabs_right (row_duration x)) in D by lra. apply abs_le_inv in D. apply abs_le_inv in IH. apply Rabs_le. lra.
Qed.

(** * The file *)
Definition float_body (ints : nat -> nat -> bool) (c : ascii) (i : nat) (r : glayer_row Fk) : str :=
  join (c :: S_ " ") [int_text (grow_layer Fk r); number_text ints i 1 (grow_duration Fk r); number_text ints i 2 (grow_travel Fk r);
                      match grow_speed Fk r with Some v => py_repr v | None => S_ "NaN" end].
Fixpoint float_bodies (ints : nat -> nat -> bool) (c : ascii) (i : nat) (rows : list (glayer_row Fk)) : list str :=
  match rows with [] => [] | r :: rows' => float_body ints c i r :: float_bodies ints c (S i) rows' end.
Lemma float_rows_concat ints c rows : forall i, float_rows ints [c] i rows = concat (map (fun l => l ++ newline) (float_bodies ints c i rows)).
Proof. induction rows as [|r rows IH]; intros i; [reflexivity|]. cbn [float_rows float_bodies map concat]. rewrite IH. reflexivity. Qed.
Lemma float_bodies_length ints c rows : forall i, length (float_bodies ints c i rows) = length rows.
Proof. induction rows as [|r rows IH]; intros i; [reflexivity|]. cbn. rewrite IH. reflexivity. Qed.
Lemma float_bodies_nth ints c rows : forall i j r, nth_error rows j = Some r -> nth_error (float_bodies ints c i rows) j = Some (float_body ints c (i + j) r).
Proof.
  induction rows as [|x rows IH]; intros i [|j] r H; try discriminate H.
  - injection H as ->. rewrite Nat.add_0_r. reflexivity.
  - cbn [float_bodies nth_error]. rewrite (IH (S i) j r H). do 2 f_equal. lia.
Qed.
Lemma number_reads ints i j x : proper x -> reads_back (number_text ints i j x) (fval x) /\ forall c, In c (number_text ints i j x) -> In c (S_ "0123456789.e+-").
Proof.
  intros P. assert (G : reads_back (py_repr x) (fval x) /\ forall c, In c (py_repr x) -> In c (S_ "0123456789.e+-")).
  { split; [destruct (C117_read_back x P) as (y & E & Py & V & _); exists y; auto|]. intros c. apply C117_characters. exact P. }
  unfold number_text. destruct x as [[|]|s| |s m e]; try exact G. destruct (ints i j); [|exact G]. split; [|intros c [<-|[]]; left; reflexivity]. exists (S754_zero false). split; [vm_compute; reflexivity|]. split; [split; [exact I|reflexivity]|reflexivity].
Qed.
Definition proper_row (r : glayer_row Fk) : Prop := proper (grow_duration Fk r) /\ proper (grow_travel Fk r) /\ match grow_speed Fk r with Some v => proper v | None => True end.
(** Every number in the file reads back as the returned number. *)
Theorem C119_file ints c bl : separator c -> ~ In c (S_ ".+-") -> Forall measurable bl -> INR (length bl) <= 1000000000 ->
  exists rows text h ls, float_layer_metrics ints true true [c] bl = Ok (Some (Some text, rows)) /\ gsave_layer_metrics Fk true bl = Ok (Some rows) /\ lines text = Some (h :: ls) /\ length ls = length rows /\
    map SpecTexts.unindent (split c h) = [S_ "layer"; S_ "layer time in s"; S_ "travel distance in mm"; S_ "avg speed in mm/s"] /\
    forall i r, nth_error rows i = Some r -> exists l a b d e, nth_error ls i = Some l /\ map SpecTexts.unindent (split c l) = [a; b; d; e] /\
      a = S_ (NilEmpty.string_of_uint (Nat.to_uint (grow_layer Fk r))) /\ reads_back b (fval (grow_duration Fk r)) /\ reads_back d (fval (grow_travel Fk r)) /\
      match grow_speed Fk r with Some v => reads_back e (fval v) | None => e = S_ "NaN" end.
Proof.
  intros Hc Hp M N. destruct (C119_rows bl M N) as (rows & xs & E1 & _ & F). assert (PR : Forall proper_row rows).
  { clear - F. induction F as [|r x rows xs (_ & P1 & _ & P2 & _ & P3) F IH]; constructor; [|exact IH]. split; [exact P1|]. split; [exact P2|]. destruct (grow_speed Fk r), (row_speed x); try contradiction; [apply P3|exact I]. }
  assert (Hpc : c <> "%"%char) by (intros ->; apply Hc; right; left; reflexivity). assert (Hc10 : c <> "010"%char) by (intros ->; apply Hc; left; reflexivity). assert (Hcb : c <> " "%char) by (intros ->; apply Hc; right; vm_compute; tauto).
  assert (Hdig : forall n, ~ In c (int_text n)) by (intros n Hi; apply int_text_digits in Hi; apply Hc; right; vm_compute in Hi; vm_compute; tauto).
  assert (Hnum : forall t, (forall x, In x t -> In x (S_ "0123456789.e+-")) -> ~ In c t /\ ~ In "010"%char t /\ ~ In " "%char t).
  { intros t Ht. split; [intros Hi|split; intros Hi; apply Ht in Hi; cbn in Hi; intuition discriminate]. apply Ht in Hi. cbn in Hi. repeat (destruct Hi as [<-|Hi]; [first [apply Hc; right; vm_compute; tauto|apply Hp; vm_compute; tauto]|]). exact Hi. }
  assert (Cell : forall i r, In r rows -> let cells := [number_text ints i 1 (grow_duration Fk r); number_text ints i 2 (grow_travel Fk r); match grow_speed Fk r with Some v => py_repr v | None => S_ "NaN" end] in
    Forall (fun t => ~ In c t /\ ~ In "010"%char t /\ ~ In " "%char t) cells).
  { intros i r Ir cells. rewrite Forall_forall in PR. destruct (PR r Ir) as (P1 & P2 & P3). constructor; [apply Hnum; apply number_reads; exact P1|]. constructor; [apply Hnum; apply number_reads; exact P2|]. constructor; [|constructor].
    destruct (grow_speed Fk r) as [v|]; [apply Hnum; intros x; apply C117_characters; exact P3|]. split; [intros Hi; apply Hc; right; cbn in Hi; vm_compute; tauto|]. split; cbn; intuition discriminate. }
  exists rows, (csv_header [c] ++ newline ++ float_rows ints [c] 0 rows), (csv_header [c]), (float_bodies ints c 0 rows). split; [|split; [exact E1|split; [|split; [apply float_bodies_length|split]]]].
  - unfold float_layer_metrics. rewrite E1. cbn [bind]. unfold float_csv_file. cbn [existsb]. destruct (aeqb_spec "%"%char c) as [Q|Q]; [congruence|]. reflexivity.
  - rewrite float_rows_concat. assert (Hls : Forall (fun t => ~ In "010"%char t) (csv_header [c] :: float_bodies ints c 0 rows)).
    { constructor.
      - intros Hi. unfold csv_header in Hi. cbn in Hi. repeat (destruct Hi as [Hi|Hi]; [try discriminate Hi; exact (Hc10 Hi)|]). exact Hi.
      - apply Forall_forall. intros t Ht. destruct (In_nth_error (A:=str) _ _ Ht) as (i & Hi). destruct (nth_error rows i) as [r|] eqn:Er.
        + pose proof (eq_trans (eq_sym Hi) (float_bodies_nth ints c rows 0 i r Er)) as X. injection X as ->. unfold float_body. apply join_not_in.
          * cbn. intros [H|[H|[]]]; [exact (Hc10 H)|discriminate H].
          * constructor; [intros H; apply int_text_digits in H; cbn in H; intuition discriminate|]. eapply Forall_impl; [|exact (Cell (0 + i)%nat r (nth_error_In _ _ Er))]. cbv beta. tauto.
        + apply nth_error_None in Er. rewrite <- (float_bodies_length ints c rows 0) in Er. apply nth_error_None in Er. congruence. }
    refine (eq_trans _ (lines_concat _ Hls)). cbn [map concat]. rewrite <- app_assoc. reflexivity.
  - replace (csv_header [c]) with (join (c :: S_ " ") [S_ "layer"; S_ "layer time in s"; S_ "travel distance in mm"; S_ "avg speed in mm/s"]) by reflexivity.
    rewrite split_join; [reflexivity|intros [Hi|[]]; congruence|]. repeat constructor; intros Hi; apply Hc; cbn in Hi; vm_compute; tauto.
  - intros i r Hr. pose proof (nth_error_In _ _ Hr) as Ir. specialize (Cell (0 + i)%nat r Ir). cbv zeta in Cell. rewrite Forall_forall in PR. destruct (PR r Ir) as (P1 & P2 & P3).
    change (0 + i)%nat with i in Cell. exists (float_body ints c i r), (int_text (grow_layer Fk r)), (number_text ints i 1 (grow_duration Fk r)), (number_text ints i 2 (grow_travel Fk r)), (match grow_speed Fk r with Some v => py_repr v | None => S_ "NaN" end).
    split; [exact (float_bodies_nth ints c rows 0 i r Hr)|]. split; [|split; [reflexivity|split; [exact (proj1 (number_reads ints i 1 _ P1))|split; [exact (proj1 (number_reads ints i 2 _ P2))|]]]].
    + unfold float_body. rewrite split_join; [|intros [Hi|[]]; congruence|constructor; [apply Hdig|eapply Forall_impl; [|exact Cell]; cbv beta; tauto]].
      assert (Hu : forall t, ~ In " "%char t -> SpecTexts.unindent t = t). { intros t Ht. destruct t as [|x t]; [reflexivity|]. cbn [SpecTexts.unindent]. destruct (aeqb_spec x " "%char); [destruct Ht; left; assumption|reflexivity]. }
      assert (Hsp : forall t, ~ In " "%char t -> SpecTexts.unindent (S_ " " ++ t) = t) by (intros t Ht; change (SpecTexts.unindent (S_ " " ++ t)) with (SpecTexts.unindent t); apply Hu, Ht).
      pose proof (Forall_inv Cell) as C1. pose proof (Forall_inv (Forall_inv_tail Cell)) as C2. pose proof (Forall_inv (Forall_inv_tail (Forall_inv_tail Cell))) as C3. cbn [map].
      refine (f_equal2 cons (Hu _ _) (f_equal2 cons (Hsp _ (proj2 (proj2 C1))) (f_equal2 cons (Hsp _ (proj2 (proj2 C2))) (f_equal2 cons (Hsp _ (proj2 (proj2 C3))) eq_refl)))).
      intros Hi. apply int_text_digits in Hi. cbn in Hi. intuition discriminate.
    + cbv beta. destruct (grow_speed Fk r) as [v|]; [|reflexivity]. destruct (C117_read_back v P3) as (y & Q & Py & V & _). exists y. auto.
Qed.

(** * The other cases *)
(** Without a layer cue nothing is computed; the file is written only if wanted,
    and the returned rows are the same; a trajectory that begins with a block
    without a layer is refused. *)
Theorem C119_other_cases ints delimiter bl :
  (forall f, float_layer_metrics ints false f delimiter bl = Ok None) /\
  (forall rows, gsave_layer_metrics Fk true bl = Ok (Some rows) -> float_layer_metrics ints true false delimiter bl = Ok (Some (None, rows))) /\
  (forall b r f, bl = b :: r -> gk_layer Fk (gb_B Fk b) = None -> float_layer_metrics ints true f delimiter bl = Err TypeError).
Proof.
  split; [|split].
  - intros f. reflexivity.
  - intros rows E. unfold float_layer_metrics. rewrite E. reflexivity.
  - intros b r f -> L. unfold float_layer_metrics, gsave_layer_metrics. cbn [glayer_loop]. rewrite L. reflexivity.
Qed.

(** * Simulated programs *)
Lemma tame_place s s' : BridgePlanProofs.strong s s' -> place (gk_pos Fk s).
Proof.
  intros H. apply strong_sst in H. destruct H as [P _ _ _ _]. split; [exact (same_proper _ _ (sv_same _ _ _ P))|]. eapply sv_moderate, sv_weaken; [exact P|reflexivity].
Qed.
Lemma tame_measurable fw ss rs bl w : Forall2 same_state ss rs -> SpecBridge.tame_program rs -> INR (length rs) <= 1000000000 -> gsimulate Fk fw ss = Ok (bl, w) ->
  Forall (fun b => gk_layer Fk (gb_B Fk b) <> None) bl -> Forall (fun s => not_early (gt_begin Fk s) /\ not_early (gt_end Fk s)) (gunpack_blocklist Fk bl) -> Forall measurable bl /\ INR (length bl) <= 1000000000.
Proof.
  intros S T N E Hl Ht. destruct ss as [|s0 ss]; [injection E as <- _; split; [constructor|cbn; lra]|]. destruct (C120_blocks Fk _ _ _ _ _ E) as [Len Hs].
  assert (Q := simulation_strong fw (s0 :: ss) rs S T N). rewrite E in Q. destruct (gsimulate D64 fw _) as [[bl' w']|]; [|contradiction]. destruct Q as [Q _]. cbn [fst] in Q. split.
  2:{ apply Rle_trans with (INR (length rs)); [|exact N]. apply le_INR. assert (L : length (s0 :: ss) = length rs) by (clear - S; induction S; [reflexivity|cbn [length]; congruence]). cbn [length] in L. lia. }
  clear - Q Hl Hs Ht. unfold gunpack_blocklist in Ht. revert Hs. generalize (s0 :: ss) as all. intros all. induction Q as [|b b' r r' B Q IH]; intros Hs; [constructor|]. cbn [map concat] in Ht. apply Forall_app in Ht as [Tb Tr].
  constructor; [|exact (IH (Forall_inv_tail Hl) Tr (Forall_inv_tail Hs))]. destruct (Forall_inv Hs) as (_ & _ & Ne & _). destruct B as [RA RB _ RS _ _ _].
  split; [exact (Forall_inv Hl)|]. split; [exact Ne|]. split; [|split; [exact (tame_place _ _ RA)|exact (tame_place _ _ RB)]].
  clear - Tb RS. induction RS as [|x x' l l' X RS IH]; [constructor|]. destruct (Forall_inv Tb) as [A B]. constructor; [|exact (IH (Forall_inv_tail Tb))]. destruct X as [[[P0 T0] B0] [[P1 T1] B1] _ _ _ _].
  rewrite <- T0, <- p100 in B0. rewrite <- T1, <- p100 in B1. apply abs_le_inv in B0, B1. split; (split; [assumption|]).
  - destruct A as [A|A]; [left; exact A|right; lra].
  - destruct B as [A'|A']; [left; exact A'|right; lra].
Qed.
(** The rows of a tame program.  Of the result only this is asked: layers are
    counted, and no segment begins or ends within the first 10^-27 s other than
    at the start. *)
Theorem C119_simulated fw ss bl w :
  Forall proper_state ss -> tame_program (map value_state ss) -> INR (length ss) <= 1000000000 -> gsimulate Fk fw ss = Ok (bl, w) ->
  Forall (fun s => gk_layer Fk s <> None) (tl ss) -> Forall (fun s => not_early (gt_begin Fk s) /\ not_early (gt_end Fk s)) (gunpack_blocklist Fk bl) ->
  exists rows xs, gsave_layer_metrics Fk true bl = Ok (Some rows) /\ save_layer_metrics true (map num_block bl) = Ok (Some xs) /\ Forall2 (row_near (length bl)) rows xs.
Proof.
  intros P T N E Hl Ht. destruct (tame_measurable fw ss (map value_state ss) bl w (values_same ss P) T) as [M L]; [rewrite map_length; exact N|exact E| |exact Ht|exact (C119_rows bl M L)].
  destruct ss as [|s0 ss]; [injection E as <- _; constructor|]. destruct (C120_blocks Fk _ _ _ _ _ E) as [_ Hs]. eapply Forall_impl; [|exact Hs]. intros b (I & _). rewrite Forall_forall in Hl. exact (Hl _ I).
Qed.
(** The same from the text of a program, with a layer cue set. *)
Theorem C119_text fw lines su bl w : proper_setup su -> modest lines -> INR (length lines) <= 999999999 ->
  (forall rs, asked D64 lines (value_setup su) = Ok rs -> tame_program rs) -> s_layer_cue (knum Fk) su <> None -> grun Fk fw lines su = Ok (bl, w) ->
  Forall (fun s => not_early (gt_begin Fk s) /\ not_early (gt_end Fk s)) (gunpack_blocklist Fk bl) ->
  exists rows xs, gsave_layer_metrics Fk true bl = Ok (Some rows) /\ save_layer_metrics true (map num_block bl) = Ok (Some xs) /\ Forall2 (row_near (length bl)) rows xs.
Proof.
  intros P M N T C E Ht. pose proof (C120_layers Fk fw lines su bl w E) as L. destruct (s_layer_cue (knum Fk) su) as [c|]; [|congruence]. pose proof (asked_same lines su P M ltac:(lra)) as R.
  assert (G : grun Fk fw lines su = bind (asked Fk lines su) (gsimulate Fk fw)) by (unfold grun, asked; destruct (generate_states (knum Fk) lines su); reflexivity). rewrite G in E.
  destruct (asked Fk lines su) as [ss|e]; [|discriminate E]. destruct (asked D64 lines (value_setup su)) as [rs|e'] eqn:Ea; cbn [rr] in R; [|contradiction]. cbn [bind] in E.
  assert (Lr : INR (length rs) <= 1000000000) by (rewrite (asked_length _ _ _ Ea), S_INR; lra).
  destruct (tame_measurable fw ss rs bl w R (T rs eq_refl) Lr E) as [Me Le]; [|exact Ht|exact (C119_rows bl Me Le)].
  assert (K : forall l n, rising n (map (fun x => gk_layer Fk (gb_B Fk x)) l) -> Forall (fun b => gk_layer Fk (gb_B Fk b) <> None) l).
  { clear. induction l as [|b l IH]; intros n H; constructor; cbn [map rising] in H; destruct (gk_layer Fk (gb_B Fk b)) as [m|]; try contradiction; [discriminate|exact (IH m (proj2 H))]. }
  exact (K bl _ L).
Qed.

(** * A program and its metrics *)
Definition layer_setup : setup_values (knum Fk) :=
  let m := mini Fk in Build_setup_values (knum Fk) (s_p_vel _ m) (s_p_acc _ m) (s_jerk _ m) (s_vX _ m) (s_vY _ m) (s_vZ _ m) (s_vE _ m) (s_X _ m) (s_Y _ m) (s_Z _ m) (s_E _ m) (Some (S_ "LAYER")).
Definition layer_program : list str := map S_ ["G1 X10 Y3.7 E0.5 F1800"; "G0 Z0.3"; ";LAYER"; "G1 X20 E1.25"; "G1 X20 Y13.3 E2"; "G0 Z0.6"; "; LAYER "; "G1 X10 E2.7"; "G1 Y3.7"]%string.
Definition layer_trajectory : list (gblock Fk) := Eval vm_compute in match grun Fk MarlinJerk layer_program layer_setup with Ok (bl, _) => bl | Err _ => [] end.
Definition layer_text (delimiter : str) : res (option str) := r <- float_layer_metrics (fun i j => false) true true delimiter layer_trajectory ;; Ok (match r with Some (t, _) => t | None => None end).
Example C119_case : grun Fk MarlinJerk layer_program layer_setup = Ok (layer_trajectory, false) /\
  layer_text (S_ ";") = Ok (Some (text_lines ["layer; layer time in s; travel distance in mm; avg speed in mm/s"; "0; 0.3898564009710752; 10.96255128944288; 28.11945952955183"; "1; 0.6897384575920826; 19.900000000000002; 28.85151578972712"; "2; 0.6699137662691035; 10.0; 14.927294382517605"]%string)).
Proof. split; [vm_cast_no_check (eq_refl (@Ok (list (gblock Fk) * bool) (layer_trajectory, false)))|]. vm_compute. reflexivity. Qed.
(** The trajectory meets the conditions of C119_rows, C119_time and C119_file. *)
Definition checked_clock (t : spec_float) : bool := checked (S754_finite false 4503599627370496 (-32)) t && (k_eqb Fk t (k0 Fk) || k_leb Fk (S754_finite false 4503599627370496 (-137)) t).
Definition checked_block (b : gblock Fk) : bool :=
  match gk_layer Fk (gb_B Fk b), gb_segs Fk b with Some _, _ :: _ => true | _, _ => false end && forallb (fun s => checked_clock (gt_begin Fk s) && checked_clock (gt_end Fk s)) (gb_segs Fk b) &&
  checked_vec (S754_finite false 4503599627370496 (-32)) (gk_pos Fk (gb_A Fk b)) && checked_vec (S754_finite false 4503599627370496 (-32)) (gk_pos Fk (gb_B Fk b)).
Lemma checked_bound : proper (S754_finite false 4503599627370496 (-32)) /\ fval (S754_finite false 4503599627370496 (-32)) <= 2 ^ 100.
Proof. split; [split; [exact I|vm_compute; reflexivity]|]. cbn [fval]. change 4503599627370496%Z with (2 ^ 52)%Z. rewrite p100, <- p2_Z by lia. rewrite <- RoundingProofs.pow2_add. apply pow2_mono. lia. Qed.
Lemma checked_clock_ok t : checked_clock t = true -> clock t.
Proof.
  destruct checked_bound as [B V]. unfold checked_clock. intros H. apply andb_true_iff in H as [C D]. apply (checked_ok _ _ B) in C as [P L]. split; [exact P|]. apply orb_true_iff in D as [D|D].
  - left. destruct t as [s|s| |s m e]; [reflexivity|destruct P as [[] _]|destruct P as [[] _]|destruct s; discriminate D].
  - right. apply PropertiesGenericQuery.num_le in D; [|split; [exact I|vm_compute; reflexivity]|exact P]. split; [|apply abs_le_inv in L; lra]. eapply Rle_trans; [|exact D]. cbn [fval]. change 4503599627370496%Z with (2 ^ 52)%Z. rewrite <- p2_Z by lia. rewrite <- RoundingProofs.pow2_add.
    change (p2 (52 + -137)) with (/ 2 ^ Pos.to_nat 85). apply Rinv_le_contravar; [apply pow_lt; lra|]. rewrite !pow_IZR. apply IZR_le. vm_compute. discriminate.
Qed.
Lemma checked_place v : checked_vec (S754_finite false 4503599627370496 (-32)) v = true -> place v.
Proof. destruct checked_bound as [B V]. intros H. apply (checked_vec_ok _ _ B) in H as (P & X & Y & Z & E). split; [exact P|]. unfold moderate_vec. cbn [num_vec vx vy vz ve]. repeat (constructor; [lra|]). constructor. Qed.
Lemma checked_block_ok b : checked_block b = true -> measurable b.
Proof.
  unfold checked_block. intros H. apply andb_true_iff in H as [H B]. apply andb_true_iff in H as [H A]. apply andb_true_iff in H as [H C]. rewrite forallb_forall in C. split; [|split; [|split; [|split; apply checked_place; assumption]]].
  - revert H. destruct (gk_layer Fk (gb_B Fk b)); intros H; discriminate || discriminate H.
  - revert H. destruct (gk_layer Fk (gb_B Fk b)), (gb_segs Fk b); intros H; discriminate || discriminate H.
  - apply Forall_forall. intros s Is. specialize (C s Is). apply andb_true_iff in C as [C D]. split; apply checked_clock_ok; assumption.
Qed.
Example C119_case_met : Forall measurable layer_trajectory /\ length layer_trajectory = 7%nat /\ separator ";"%char /\ ~ In ";"%char (S_ ".+-") /\
  match rev layer_trajectory with
  | [] => False
  | b :: pre => joined (fun a b => begin_of a <= begin_of b) (rev pre ++ [b]) /\ begin_of b <= end_of b /\ last_in_old_layer (rev pre) b
  end.
Proof.
  assert (M : Forall measurable layer_trajectory).
  { assert (C : forallb checked_block layer_trajectory = true) by (vm_compute; reflexivity). rewrite forallb_forall in C. apply Forall_forall. intros b Ib. apply checked_block_ok, C, Ib. }
  split; [exact M|]. split; [reflexivity|]. split; [unfold separator; repeat split; vm_compute; intuition discriminate|]. split; [vm_compute; intuition discriminate|].
  assert (L : forall x y, proper x -> proper y -> k_leb Fk x y = true -> fval x <= fval y) by (intros x y Px Py; apply PropertiesGenericQuery.num_le; assumption).
  cbn [rev layer_trajectory app]. split; [|split].
  - cbn [joined]. repeat split; unfold begin_of; cbn [gb_segs gt_begin]; (apply L; [split; [exact I|vm_compute; reflexivity]|split; [exact I|vm_compute; reflexivity]|vm_compute; reflexivity]).
  - unfold begin_of, end_of. cbn [gb_segs gt_begin gt_end rev app]. apply L; [split; [exact I|vm_compute; reflexivity]|split; [exact I|vm_compute; reflexivity]|vm_compute; reflexivity].
  - intros n E _. cbn [gb_B gk_layer] in E. injection E as <-. eexists. exists 2%nat. split; [do 5 right; left; reflexivity|]. split; [reflexivity|lia].
Qed.

Print Assumptions C119_exact_numbers.
Print Assumptions C119_rows.
Print Assumptions C119_time.
Print Assumptions C119_file.
Print Assumptions C119_other_cases.
Print Assumptions C119_simulated.
Print Assumptions C119_text.
