(** The operations of Coq.Floats.SpecFloat round to the nearest double. *)
From Coq Require Import Reals ZArith Lra Lia SpecFloat Bool.
From Verif Require Import Py Vec StateGen Texts RealFacts TextsProofs Rounding SpecRounding RoundingProofs Generic SpecIEEE.
Open Scope R_scope.
Notation fx := (SpecFloat.fexp 53 1024).
Notation p2 := (powerRZ 2).

Lemma fexp_is e : fx e = Z.max (e - 53) (-1074).
Proof. reflexivity. Qed.
Lemma digits_pos p : (2 ^ (Zpos (digits2_pos p) - 1) <= Zpos p < 2 ^ Zpos (digits2_pos p))%Z.
Proof.
  induction p as [p IH|p IH|]; cbn [digits2_pos]; [| |cbn; lia]; rewrite Pos2Z.inj_succ;
    replace (Z.succ (Zpos (digits2_pos p)) - 1)%Z with (Z.succ (Zpos (digits2_pos p) - 1)) by lia;
    rewrite !Z.pow_succ_r by lia; rewrite ?(Pos2Z.inj_xI p), ?(Pos2Z.inj_xO p); lia.
Qed.
Lemma digits_bounds m : (0 < m)%Z -> (0 < Zdigits2 m /\ 2 ^ (Zdigits2 m - 1) <= m < 2 ^ Zdigits2 m)%Z.
Proof. destruct m as [|p|p]; try lia. intros _. split; [reflexivity|apply digits_pos]. Qed.
Lemma digits_nonneg m : (0 <= m)%Z -> (0 <= Zdigits2 m)%Z.
Proof. destruct m; cbn; lia. Qed.
Lemma digits_at_least m k : (0 <= k)%Z -> (2 ^ k <= m)%Z -> (k < Zdigits2 m)%Z.
Proof.
  intros K H. assert (0 < 2 ^ k)%Z by (apply Z.pow_pos_nonneg; lia). destruct (digits_bounds m ltac:(lia)) as (D & _ & B).
  apply (Z.pow_lt_mono_r_iff 2); lia.
Qed.
Lemma digits_at_most m k : (0 <= k)%Z -> (0 <= m < 2 ^ k)%Z -> (Zdigits2 m <= k)%Z.
Proof.
  intros K H. destruct (Z.eq_dec m 0) as [->|N]; [cbn; lia|]. destruct (digits_bounds m ltac:(lia)) as (D & B & _).
  assert (Zdigits2 m - 1 < k)%Z; [|lia]. apply (Z.pow_lt_mono_r_iff 2); lia.
Qed.

(** * Where a number lies above an integer *)
Definition inb (mrs : shr_record) (y : R) : Prop :=
  let m := IZR (shr_m mrs) in
  match shr_r mrs, shr_s mrs with
  | false, false => y = m
  | false, true => m < y < m + / 2
  | true, false => y = m + / 2
  | true, true => m + / 2 < y < m + 1
  end.
Lemma IZR_xO p : IZR (Zpos (xO p)) = 2 * IZR (Zpos p).
Proof. rewrite (Pos2Z.inj_xO p), mult_IZR. reflexivity. Qed.
Lemma IZR_xI p : IZR (Zpos (xI p)) = 2 * IZR (Zpos p) + 1.
Proof. rewrite (Pos2Z.inj_xI p), plus_IZR, mult_IZR. reflexivity. Qed.
Lemma shr_1_ok mrs y : (0 <= shr_m mrs)%Z -> inb mrs y -> (0 <= shr_m (shr_1 mrs))%Z /\ inb (shr_1 mrs) (y / 2).
Proof.
  destruct mrs as [m r s]. cbn [shr_m]. intros H I. destruct m as [|[p|p|]|p]; try lia; (split; [cbn; lia|]);
    revert I; unfold inb; destruct r, s; cbn [shr_m shr_r shr_s shr_1 orb]; try (pose proof (IZR_xO p); pose proof (IZR_xI p)); lra.
Qed.
Fixpoint rep {A} (n : nat) (f : A -> A) (x : A) : A := match n with O => x | S n' => f (rep n' f x) end.
Lemma rep_in {A} (f : A -> A) n x : rep n f (f x) = f (rep n f x).
Proof. induction n as [|n IH]; cbn [rep]; [reflexivity|rewrite IH; reflexivity]. Qed.
Lemma rep_add {A} (f : A -> A) a b x : rep a f (rep b f x) = rep (a + b) f x.
Proof. induction a as [|a IH]; cbn [rep Nat.add]; [reflexivity|rewrite IH; reflexivity]. Qed.
Lemma iter_is {A} (f : A -> A) p : forall x, SpecFloat.iter_pos f p x = rep (Pos.to_nat p) f x.
Proof.
  induction p as [p IH|p IH|]; intros x; cbn [SpecFloat.iter_pos].
  - rewrite !IH, rep_add, rep_in, Pos2Nat.inj_xI. replace (S (2 * Pos.to_nat p)) with (S (Pos.to_nat p + Pos.to_nat p)) by lia. reflexivity.
  - rewrite !IH, rep_add, Pos2Nat.inj_xO. f_equal. lia.
  - reflexivity.
Qed.
Lemma iter_ok n : forall mrs y, (0 <= shr_m mrs)%Z -> inb mrs y -> (0 <= shr_m (rep n shr_1 mrs))%Z /\ inb (rep n shr_1 mrs) (y / 2 ^ n).
Proof.
  induction n as [|n IH]; intros mrs y H I; cbn [rep].
  - split; [exact H|]. cbn. unfold Rdiv. rewrite Rinv_1, Rmult_1_r. exact I.
  - destruct (IH mrs y H I) as [A B]. replace (y / 2 ^ S n) with (y / 2 ^ n / 2) by (cbn [pow]; field; apply pow_nonzero; lra). apply shr_1_ok; assumption.
Qed.
Lemma shr_ok mrs e n y : (0 <= n)%Z -> (0 <= shr_m mrs)%Z -> inb mrs y ->
  exists mrs', shr mrs e n = (mrs', (e + n)%Z) /\ (0 <= shr_m mrs')%Z /\ inb mrs' (y * p2 (- n)).
Proof.
  intros N H I. destruct n as [|p|p]; [| |lia].
  - exists mrs. cbn [shr]. rewrite Z.add_0_r. split; [reflexivity|]. split; [exact H|]. cbn. rewrite Rmult_1_r. exact I.
  - exists (SpecFloat.iter_pos shr_1 p mrs). split; [reflexivity|]. rewrite iter_is. cbn [Z.opp powerRZ]. apply iter_ok; assumption.
Qed.
Lemma round_is mrs y : inb mrs y -> round_nearest_even (shr_m mrs) (loc_of_shr_record mrs) = round_half_even y.
Proof.
  destruct mrs as [m r s]. unfold inb. cbn [shr_m shr_r shr_s]. intros I.
  assert (P : Int_part y = m).
  { unfold Int_part. enough (up y = (m + 1)%Z) by lia. symmetry. apply tech_up; rewrite plus_IZR; destruct r, s; lra. }
  unfold round_half_even. rewrite P. destruct r, s; cbn [loc_of_shr_record round_nearest_even].
  - rewrite Rltb_false, Rltb_true by lra. reflexivity.
  - rewrite !Rltb_false by lra. reflexivity.
  - rewrite Rltb_true by lra. reflexivity.
  - rewrite Rltb_true by lra. reflexivity.
Qed.

(** * The exponent of a number of which the leading digits are known *)
Lemma p2_Z k : (0 <= k)%Z -> p2 k = IZR (2 ^ k).
Proof. apply pow2_Z. Qed.
Lemma p2_1 : p2 1 = 2.
Proof. rewrite p2_Z by lia. reflexivity. Qed.
Lemma p2_lt a b : p2 a < p2 b -> (a < b)%Z.
Proof. intros H. destruct (Z_lt_le_dec a b) as [L|L]; [exact L|]. apply pow2_mono in L. lra. Qed.
Lemma exponent_is x k : p2 k <= Rabs x < p2 (k + 1) -> exponent x = k.
Proof.
  intros H. pose proof (pow2_pos k) as P. assert (X : x <> 0) by (intros ->; rewrite Rabs_R0 in H; lra).
  destruct (exponent_spec x X) as [A B]. assert (p2 (exponent x) < p2 (k + 1)) by lra. assert (p2 k < p2 (exponent x + 1)) by lra.
  apply p2_lt in H0, H1. lia.
Qed.
(** the digits of [m] are the leading ones of [x] *)
Lemma ulp_is m e x y mrs : (0 <= m)%Z -> mrs = Build_shr_record m (shr_r mrs) (shr_s mrs) -> inb mrs y -> x = y * p2 e -> 0 < x ->
  (e <= fx (Zdigits2 m + e))%Z -> ulp x = p2 (fx (Zdigits2 m + e)).
Proof.
  intros H Em I X Hx Le. pose proof (pow2_pos e) as Pe. unfold ulp. rewrite fexp_is in *.
  assert (Y : IZR m <= y < IZR m + 1).
  { revert I. rewrite Em. unfold inb. cbn [shr_m shr_r shr_s]. destruct (shr_r mrs), (shr_s mrs); lra. }
  destruct (Z.eq_dec m 0) as [->|Nz].
  - cbn [Zdigits2] in *. replace (Z.max (-1074) (exponent x - 52)) with (Z.max (0 + e - 53) (-1074)); [reflexivity|].
    assert (exponent x < e)%Z; [|lia]. destruct (exponent_spec x ltac:(lra)) as [A _]. rewrite Rabs_right in A by lra. apply p2_lt.
    apply Rle_lt_trans with x; [exact A|]. rewrite X. rewrite <- (Rmult_1_l (p2 e)) at 2. apply Rmult_lt_compat_r; lra.
  - destruct (digits_bounds m ltac:(lia)) as (D & B1 & B2). set (d := Zdigits2 m) in *.
    assert (E : exponent x = (d - 1 + e)%Z); [|rewrite E; f_equal; lia]. apply exponent_is. rewrite Rabs_right by lra.
    replace (d - 1 + e + 1)%Z with (d + e)%Z by lia. rewrite !pow2_add, X.
    assert (L1 : p2 (d - 1) <= IZR m) by (rewrite p2_Z by lia; apply IZR_le; exact B1).
    assert (L2 : IZR m + 1 <= p2 d) by (rewrite p2_Z by lia; rewrite <- plus_IZR; apply IZR_le; lia).
    split; [apply Rmult_le_compat_r|apply Rmult_lt_compat_r]; lra.
Qed.

Lemma p2_inj a b : p2 a = p2 b -> a = b.
Proof.
  intros H. destruct (Z.lt_trichotomy a b) as [L|[L|L]]; [|exact L|]; exfalso.
  - assert (p2 (a + 1) <= p2 b) by (apply pow2_mono; lia). rewrite pow2_add in H0. rewrite p2_1 in H0. pose proof (pow2_pos a). lra.
  - assert (p2 (b + 1) <= p2 a) by (apply pow2_mono; lia). rewrite pow2_add in H0. rewrite p2_1 in H0. pose proof (pow2_pos b). lra.
Qed.
Lemma cancel_up x f : x * p2 (- f) * p2 f = x.
Proof. rewrite Rmult_assoc, <- pow2_add, Z.add_opp_diag_l. cbn. ring. Qed.
Lemma scale_lt x k f : x < p2 (k + f) -> x * p2 (- f) < p2 k.
Proof. intros H. apply Rmult_lt_reg_r with (p2 f); [apply pow2_pos|]. rewrite cancel_up, <- pow2_add. exact H. Qed.
Lemma scale_le x k f : p2 (k + f) <= x -> p2 k <= x * p2 (- f).
Proof. intros H. apply Rmult_le_reg_r with (p2 f); [apply pow2_pos|]. rewrite cancel_up, <- pow2_add. exact H. Qed.
Lemma abs_le_inv x y : Rabs x <= y -> - y <= x <= y.
Proof. unfold Rabs. destruct (Rcase_abs x); lra. Qed.

(** * Rounding *)
Definition signed (s : bool) (r : R) : R := if s then - r else r.
(** * The sign *)
Lemma rhe_unique y n : Rabs (y - IZR n) <= 1 / 2 -> (Rabs (y - IZR n) = 1 / 2 -> Z.even n = true) -> round_half_even y = n.
Proof.
  intros A B. destruct (round_half_even_spec y) as [C D]. set (k := round_half_even y) in *. destruct (Z.eq_dec k n) as [E|N]; [exact E|exfalso].
  pose proof (abs_le_inv _ _ A) as A'. pose proof (abs_le_inv _ _ C) as C'.
  assert (L1 : IZR (k - n) <= IZR 1) by (rewrite minus_IZR; lra). assert (L2 : IZR (-1) <= IZR (k - n)) by (rewrite minus_IZR; lra).
  apply le_IZR in L1, L2. assert (K : k = (n + 1)%Z \/ k = (n - 1)%Z) by lia.
  assert (T : Rabs (y - IZR n) = 1 / 2 /\ Rabs (y - IZR k) = 1 / 2).
  { destruct K as [-> | ->]; rewrite ?plus_IZR, ?minus_IZR in *; split; unfold Rabs in *; repeat destruct (Rcase_abs _); lra. }
  destruct T as [T1 T2]. specialize (B T1). specialize (D T2). destruct K as [-> | ->]; [rewrite Z.even_add, B in D|rewrite Z.even_sub, B in D]; discriminate D.
Qed.
Lemma rhe_opp y : round_half_even (- y) = (- round_half_even y)%Z.
Proof.
  destruct (round_half_even_spec y) as [A B]. apply rhe_unique; rewrite opp_IZR; replace (- y - - IZR (round_half_even y)) with (- (y - IZR (round_half_even y))) by ring; rewrite Rabs_Ropp; [exact A|].
  rewrite Z.even_opp. exact B.
Qed.
Lemma binary64_opp x : binary64 (- x) = - binary64 x.
Proof.
  unfold binary64. replace (ulp (- x)) with (ulp x) by (unfold ulp, exponent; rewrite Rabs_Ropp; reflexivity).
  replace (- x / ulp x) with (- (x / ulp x)) by (unfold Rdiv; ring). rewrite rhe_opp, opp_IZR. ring.
Qed.
Lemma binary64_signed s x : binary64 (signed s x) = signed s (binary64 x).
Proof. destruct s; [apply binary64_opp|reflexivity]. Qed.
Lemma signed_abs s x : 0 <= x -> Rabs (signed s x) = x.
Proof. intros H. destruct s; cbn [signed]; [rewrite Rabs_Ropp|]; apply Rabs_right; lra. Qed.
Lemma binary64_nonneg x : 0 <= x -> 0 <= binary64 x.
Proof.
  intros H. assert (D : double 0) by (rewrite <- binary64_0; apply binary64_double). pose proof (binary64_nearest x 0 D) as N.
  rewrite Rminus_0_r, (Rabs_right x) in N by lra. pose proof (Rle_abs (x - binary64 x)). lra.
Qed.
Lemma fval_finite s m e : fval (S754_finite s m e) = signed s (IZR (Zpos m) * p2 e).
Proof. unfold fval, signed. destruct s; ring. Qed.

Lemma too_large_pos : 0 < too_large.
Proof. apply pow2_pos. Qed.
Lemma p2_le_mult m e : 0 <= IZR (Zpos m) * p2 e.
Proof. apply Rmult_le_pos; [apply IZR_le; lia|left; apply pow2_pos]. Qed.
(** what is proper is a double below the bound *)
Lemma proper_double x : proper x -> double (fval x) /\ Rabs (fval x) < too_large.
Proof.
  intros [F V]. destruct x as [s|s| |s m e]; try contradiction.
  - cbn [fval]. rewrite Rabs_R0. split; [rewrite <- binary64_0; apply binary64_double|apply too_large_pos].
  - cbn [valid_binary] in V. unfold SpecFloat.bounded, canonical_mantissa in V. apply andb_true_iff in V as [V1 V2]. apply Zeq_bool_eq in V1. apply Z.leb_le in V2.
    rewrite fexp_is in V1. destruct (digits_pos m) as [_ D]. rewrite fval_finite.
    assert (B : (Zpos m < 2 ^ 53)%Z). { eapply Z.lt_le_trans; [exact D|]. apply Z.pow_le_mono_r; lia. }
    split.
    + exists (if s then Zneg m else Zpos m), e. split; [destruct s; cbn [Z.abs]; exact B|]. split; [lia|]. destruct s; cbn [signed]; [change (IZR (Zneg m)) with (- IZR (Zpos m)); ring|reflexivity].
    + rewrite signed_abs by apply p2_le_mult. unfold too_large. replace 1024%Z with (53 + 971)%Z by reflexivity. rewrite pow2_add. pose proof (pow2_pos e).
      assert (IZR (Zpos m) < p2 53) by (rewrite p2_Z by lia; apply IZR_lt; exact B). assert (p2 e <= p2 971) by (apply pow2_mono; lia).
      assert (0 < IZR (Zpos m)) by (apply IZR_lt; lia). apply Rlt_le_trans with (p2 53 * p2 e); [apply Rmult_lt_compat_r; lra|apply Rmult_le_compat_l; lra].
Qed.
Lemma rounds_signed x s v : 0 <= v -> (binary64 v < too_large -> stands x (signed s (binary64 v))) -> (too_large <= binary64 v -> x = S754_infinity s) -> rounds x (signed s v).
Proof.
  intros V A B. pose proof (binary64_nonneg v V) as N. pose proof too_large_pos as T. unfold rounds. rewrite binary64_signed. rewrite (signed_abs s (binary64 v) N). split; [exact A|].
  destruct s; cbn [signed]; split; intros H; [lra|apply B; lra|apply B; lra|lra].
Qed.
Lemma round_aux_ok s m e l x : (0 <= m)%Z -> 0 <= x -> inb (shr_record_of_loc m l) (x * p2 (- e)) -> (e <= fx (Zdigits2 m + e))%Z ->
  rounds (binary_round_aux 53 1024 s m e l) (signed s x).
Proof.
  intros H Hx I Le. unfold binary_round_aux, shr_fexp.
  assert (Em : shr_m (shr_record_of_loc m l) = m) by (destruct l as [|[| |]]; reflexivity).
  set (mrs := shr_record_of_loc m l) in *. set (f := fx (Zdigits2 m + e)) in *.
  destruct (shr_ok mrs e (f - e) _ ltac:(lia) ltac:(rewrite Em; exact H) I) as (mrs' & E1 & H1 & I1). rewrite E1.
  replace (e + (f - e))%Z with f by lia. replace (x * p2 (- e) * p2 (- (f - e))) with (x * p2 (- f)) in I1.
  2:{ rewrite Rmult_assoc, <- pow2_add. f_equal. f_equal. lia. }
  rewrite (round_is _ _ I1). set (M := round_half_even (x * p2 (- f))).
  assert (F : (-1074 <= f)%Z) by (unfold f; rewrite fexp_is; lia).
  assert (U : x <> 0 -> ulp x = p2 f).
  { intros Nx. unfold f. apply (ulp_is m e x (x * p2 (- e)) mrs); try assumption; try lra.
    - destruct mrs as [a b c]. cbn in *. subst. reflexivity.
    - rewrite Rmult_assoc, <- pow2_add, Z.add_opp_diag_l. cbn. ring. }
  assert (Ef : x <> 0 -> Z.max (-1074) (exponent x - 52) = f) by (intros Nx; apply p2_inj, (U Nx)).
  assert (V : binary64 x = IZR M * p2 f).
  { destruct (Req_dec x 0) as [->|Nx].
    - unfold M. rewrite Rmult_0_l, binary64_0. replace 0 with (IZR 0) by reflexivity. rewrite round_integer. ring.
    - unfold binary64. rewrite (U Nx). unfold M. f_equal. f_equal. f_equal. unfold Rdiv. f_equal. symmetry. apply powerRZ_neg'. }
  assert (M0 : (0 <= M)%Z).
  { unfold M. rewrite <- (round_is _ _ I1). destruct (loc_of_shr_record mrs') as [|[| |]]; cbn; try lia. destruct (Z.even (shr_m mrs')); lia. }
  destruct (round_half_even_spec (x * p2 (- f))) as [R _]. fold M in R. apply abs_le_inv in R.
  assert (M53 : (M <= 2 ^ 53)%Z).
  { assert (X53 : x * p2 (- f) < p2 53).
    { apply scale_lt. destruct (Req_dec x 0) as [->|Nx]; [apply pow2_pos|]. destruct (exponent_spec x Nx) as [_ B]. rewrite Rabs_right in B by lra.
      eapply Rlt_le_trans; [exact B|]. apply pow2_mono. specialize (Ef Nx). lia. }
    rewrite (p2_Z 53) in X53 by lia. assert (L : IZR M < IZR (2 ^ 53 + 1)) by (rewrite plus_IZR; lra). apply lt_IZR in L. lia. }
  assert (M52 : (-1074 < f)%Z -> (0 < M)%Z -> (2 ^ 52 <= M)%Z).
  { intros Hf Mp. assert (Nx : x <> 0). { intros ->. rewrite binary64_0 in V. pose proof (pow2_pos f) as Pf. symmetry in V. apply Rmult_integral in V as [V|V]; [apply eq_IZR in V; lia|lra]. }
    destruct (exponent_spec x Nx) as [A _]. rewrite Rabs_right in A by lra. specialize (Ef Nx). replace (exponent x) with (52 + f)%Z in A by lia.
    assert (X52 : p2 52 <= x * p2 (- f)) by (apply scale_le; exact A). rewrite (p2_Z 52) in X52 by lia.
    assert (L : IZR (2 ^ 52 - 1) < IZR M) by (rewrite minus_IZR; lra). apply lt_IZR in L. lia. }
  set (d := Zdigits2 M).
  assert (Q : exists N g, shr (shr_record_of_loc M loc_Exact) f (fx (d + f) - f) = (Build_shr_record N false false, g) /\ (0 <= N)%Z /\
            IZR N * p2 g = IZR M * p2 f /\ (-1074 <= g)%Z /\ (0 < N -> fx (Zdigits2 N + g) = g)%Z /\ (971 < g -> 0 < N -> 2 ^ 52 <= N)%Z).
  { destruct (Z.eq_dec M (2 ^ 53)) as [EM|NM].
    - unfold d. rewrite EM. exists (2 ^ 52)%Z, (f + 1)%Z. replace (fx (Zdigits2 (2 ^ 53) + f) - f)%Z with 1%Z by (rewrite fexp_is; change (Zdigits2 (2 ^ 53)) with 54%Z; lia).
      split; [reflexivity|]. split; [lia|]. split; [|split; [lia|split; [|lia]]].
      + rewrite pow2_add. replace (IZR (2 ^ 53)) with (IZR (2 ^ 52) * 2) by (rewrite <- mult_IZR; reflexivity). rewrite p2_1. ring.
      + intros _. rewrite fexp_is. change (Zdigits2 (2 ^ 52)) with 53%Z. lia.
    - exists M, f. assert (Dd : (d <= 53)%Z) by (apply digits_at_most; lia).
      assert (Z0 : (fx (d + f) - f <= 0)%Z) by (rewrite fexp_is; lia).
      split; [cbn [shr_record_of_loc]; destruct (fx (d + f) - f)%Z; [reflexivity|lia|reflexivity]|]. split; [exact M0|]. split; [reflexivity|]. split; [exact F|]. split.
      + intros Mp. fold d. rewrite fexp_is. destruct (Z.eq_dec f (-1074)) as [->|Nf]; [lia|].
        assert (52 < d)%Z by (apply digits_at_least; [lia|apply M52; lia]). lia.
      + intros Hf Mp. apply M52; lia. }
  destruct Q as (N & g & -> & N0 & Vn & G & Can & Top). cbn [shr_m]. rewrite <- Vn in V. destruct N as [|p|p]; [| |lia].
  - apply rounds_signed; [exact Hx| |].
    + intros _. split; [split; [exact Logic.I|reflexivity]|]. cbn [fval]. rewrite V. unfold signed. destruct s; ring.
    + intros T. pose proof too_large_pos. rewrite V, Rmult_0_l in T. lra.
  - change (1024 - 53)%Z with 971%Z. destruct (g <=? 971)%Z eqn:G971; [apply Z.leb_le in G971|apply Z.leb_gt in G971].
    + assert (St : stands (S754_finite s p g) (signed s (binary64 x))).
      { split; [split; [exact Logic.I|]|].
        - cbn [valid_binary]. unfold SpecFloat.bounded, canonical_mantissa. specialize (Can ltac:(lia)). cbn [Zdigits2] in Can. rewrite Can. change (1024 - 53)%Z with 971%Z.
          apply andb_true_iff. split; [apply Zeq_is_eq_bool; reflexivity|apply Z.leb_le; exact G971].
        - cbn [fval]. rewrite V. unfold signed. destruct s; ring. }
      apply rounds_signed; [exact Hx|intros _; exact St|]. intros T. exfalso. destruct (proper_double _ (proj1 St)) as [_ B]. rewrite (proj2 St) in B.
      rewrite (signed_abs s _ (binary64_nonneg _ Hx)) in B. lra.
    + apply rounds_signed; [exact Hx| |intros _; reflexivity]. intros Big. exfalso. specialize (Top ltac:(lia) ltac:(lia)). apply IZR_le in Top. rewrite <- p2_Z in Top by lia.
      assert (L1 : p2 972 <= p2 g) by (apply pow2_mono; lia). unfold too_large in Big. replace 1024%Z with (52 + 972)%Z in Big by reflexivity. rewrite pow2_add in Big.
      pose proof (pow2_pos 52). pose proof (pow2_pos 972). assert (p2 52 * p2 972 <= IZR (Z.pos p) * p2 g) by (apply Rmult_le_compat; lra). lra.
Qed.

(** * Aligning *)
Lemma digits_unique m k : (0 < m)%Z -> (2 ^ (k - 1) <= m < 2 ^ k)%Z -> (0 < k)%Z -> Zdigits2 m = k.
Proof.
  intros M [A B] K. assert (k - 1 < Zdigits2 m)%Z by (apply digits_at_least; [lia|exact A]). assert (Zdigits2 m <= k)%Z by (apply digits_at_most; lia). lia.
Qed.
Lemma digits_shift m n : (0 < m)%Z -> (0 <= n)%Z -> Zdigits2 (m * 2 ^ n) = (Zdigits2 m + n)%Z.
Proof.
  intros M N. destruct (digits_bounds m M) as (D & A & B). assert (P : (0 < 2 ^ n)%Z) by (apply Z.pow_pos_nonneg; lia).
  apply digits_unique; [apply Z.mul_pos_pos; lia| |lia]. replace (Zdigits2 m + n - 1)%Z with (Zdigits2 m - 1 + n)%Z by lia. rewrite !Z.pow_add_r by lia.
  split; [apply Z.mul_le_mono_nonneg_r; lia|apply Z.mul_lt_mono_pos_r; lia].
Qed.
Lemma align_ok m e e' : let r := shl_align m e e' in
  snd r = Z.min e e' /\ (Zpos (fst r) = Zpos m * 2 ^ (e - Z.min e e'))%Z /\ IZR (Zpos (fst r)) * p2 (snd r) = IZR (Zpos m) * p2 e.
Proof.
  cbn zeta. unfold shl_align. assert (G : forall n, (0 <= n)%Z -> IZR (Zpos m * 2 ^ n) * p2 (e - n) = IZR (Zpos m) * p2 e).
  { intros n N. rewrite mult_IZR, <- p2_Z by exact N. rewrite Rmult_assoc, <- pow2_add. f_equal. f_equal. lia. }
  destruct (e' - e)%Z as [|d|d] eqn:E.
  - cbn [fst snd]. replace (Z.min e e') with e by lia. rewrite Z.sub_diag. change (2 ^ 0)%Z with 1%Z. split; [reflexivity|]. split; [lia|reflexivity].
  - cbn [fst snd]. replace (Z.min e e') with e by lia. rewrite Z.sub_diag. change (2 ^ 0)%Z with 1%Z. split; [reflexivity|]. split; [lia|reflexivity].
  - cbn [fst snd]. replace (Z.min e e') with e' by lia. split; [reflexivity|].
    assert (S : Zpos (shift_pos d m) = (Zpos m * 2 ^ (e - e'))%Z) by (rewrite shift_pos_correct; replace (e - e')%Z with (Zpos d) by lia; rewrite Z.mul_comm; reflexivity).
    split; [exact S|]. rewrite S. replace (p2 e') with (p2 (e - (e - e'))) by (f_equal; lia). apply G. lia.
Qed.
Lemma exact_inb m e x : x = IZR m * p2 e -> inb (shr_record_of_loc m loc_Exact) (x * p2 (- e)).
Proof. intros ->. unfold inb. cbn. rewrite Rmult_assoc, <- pow2_add, Z.add_opp_diag_r. cbn. ring. Qed.
Lemma round_ok s m e : rounds (binary_round 53 1024 s m e) (signed s (IZR (Zpos m) * p2 e)).
Proof.
  unfold binary_round. pose proof (align_ok m e (fx (Zpos (digits2_pos m) + e))) as (A & B & C).
  destruct (shl_align m e (fx (Zpos (digits2_pos m) + e))) as [mz ez]. cbn [fst snd] in *. rewrite <- C in *.
  apply round_aux_ok; [lia|apply p2_le_mult|apply exact_inb; reflexivity|].
  rewrite B, digits_shift by lia. cbn [Zdigits2]. replace (Zpos (digits2_pos m) + (e - Z.min e (fx (Zpos (digits2_pos m) + e))) + ez)%Z with (Zpos (digits2_pos m) + e)%Z by lia. lia.
Qed.
Lemma stands_rounds x v : proper x -> fval x = v -> rounds x v.
Proof.
  intros P E. destruct (proper_double x P) as [D B]. rewrite E in *. pose proof (Rle_abs v). pose proof (Rle_abs (- v)) as L. rewrite Rabs_Ropp in L.
  unfold rounds. rewrite (binary64_fix v D). split; [intros _; split; assumption|]. split; intros; lra.
Qed.
Lemma zero_rounds s : rounds (S754_zero s) 0.
Proof. apply stands_rounds; [split; [exact Logic.I|reflexivity]|reflexivity]. Qed.
Lemma normalize_ok m e z : rounds (binary_normalize 53 1024 m e z) (IZR m * p2 e).
Proof.
  destruct m as [|p|p]; cbn [binary_normalize].
  - rewrite Rmult_0_l. apply zero_rounds.
  - exact (round_ok false p e).
  - change (IZR (Zneg p)) with (- IZR (Zpos p)). rewrite <- Ropp_mult_distr_l. exact (round_ok true p e).
Qed.
Lemma proper_fix x : proper x -> binary64 (fval x) = fval x.
Proof. intros P. apply binary64_fix, proper_double, P. Qed.

(** * Operations *)
Lemma mul_ok x y : proper x -> proper y -> rounds (SFmul 53 1024 x y) (fval x * fval y).
Proof.
  intros [Fx Vx] [Fy Vy]. destruct x as [sx|sx| |sx mx ex], y as [sy|sy| |sy my ey]; try contradiction; cbn [SFmul].
  1-3: cbn [fval]; rewrite ?Rmult_0_l, ?Rmult_0_r; apply zero_rounds.
  cbn [valid_binary] in *. unfold SpecFloat.bounded, canonical_mantissa in *. apply andb_true_iff in Vx as [Cx _], Vy as [Cy _]. apply Zeq_bool_eq in Cx, Cy. rewrite fexp_is in Cx, Cy.
  assert (E : fval (S754_finite sx mx ex) * fval (S754_finite sy my ey) = signed (xorb sx sy) (IZR (Zpos (mx * my)) * p2 (ex + ey))).
  { rewrite !fval_finite. rewrite Pos2Z.inj_mul, mult_IZR, pow2_add. destruct sx, sy; cbn [signed xorb]; ring. }
  rewrite E. apply round_aux_ok; [lia|apply p2_le_mult|apply exact_inb; reflexivity|].
  rewrite fexp_is. destruct (digits_pos mx) as [Dx _]. destruct (digits_pos my) as [Dy _].
  assert (D : (Zpos (digits2_pos mx) + Zpos (digits2_pos my) - 2 < Zdigits2 (Zpos (mx * my)))%Z).
  { apply digits_at_least; [lia|]. replace (Zpos (digits2_pos mx) + Zpos (digits2_pos my) - 2)%Z with (Zpos (digits2_pos mx) - 1 + (Zpos (digits2_pos my) - 1))%Z by lia.
    rewrite Z.pow_add_r by lia. rewrite Pos2Z.inj_mul. apply Z.mul_le_mono_nonneg; try lia; apply Z.pow_nonneg; lia. }
  lia.
Qed.
Lemma add_ok x y : proper x -> proper y -> rounds (SFadd 53 1024 x y) (fval x + fval y).
Proof.
  intros Px Py. pose proof Px as [Fx Vx]. pose proof Py as [Fy Vy]. destruct x as [sx|sx| |sx mx ex], y as [sy|sy| |sy my ey]; try contradiction; cbn [SFadd].
  - cbn [fval]. rewrite Rplus_0_l. destruct (eqb sx sy); apply zero_rounds.
  - change (fval (S754_zero sx)) with 0. rewrite Rplus_0_l. apply stands_rounds; [exact Py|reflexivity].
  - change (fval (S754_zero sy)) with 0. rewrite Rplus_0_r. apply stands_rounds; [exact Px|reflexivity].
  - set (ez := Z.min ex ey). destruct (align_ok mx ex ez) as (Ax & _ & Cx). destruct (align_ok my ey ez) as (Ay & _ & Cy).
    assert (E : fval (S754_finite sx mx ex) + fval (S754_finite sy my ey) =
      IZR (cond_Zopp sx (Zpos (fst (shl_align mx ex ez))) + cond_Zopp sy (Zpos (fst (shl_align my ey ez)))) * p2 ez).
    { rewrite !fval_finite, <- Cx, <- Cy, Ax, Ay, plus_IZR. replace (Z.min ex ez) with ez by lia. replace (Z.min ey ez) with ez by lia.
      destruct sx, sy; cbn [signed cond_Zopp]; rewrite ?opp_IZR; ring. }
    rewrite E. apply normalize_ok.
Qed.
Lemma sub_ok x y : proper x -> proper y -> rounds (SFsub 53 1024 x y) (fval x - fval y).
Proof.
  intros Px Py. pose proof Px as [Fx Vx]. pose proof Py as [Fy Vy]. destruct x as [sx|sx| |sx mx ex], y as [sy|sy| |sy my ey]; try contradiction; cbn [SFsub].
  - cbn [fval]. rewrite Rminus_0_r. destruct (eqb sx (negb sy)); apply zero_rounds.
  - change (fval (S754_zero sx)) with 0. rewrite Rminus_0_l. apply stands_rounds; [exact Py|]. rewrite !fval_finite. destruct sy; cbn; ring.
  - change (fval (S754_zero sy)) with 0. rewrite Rminus_0_r. apply stands_rounds; [exact Px|reflexivity].
  - set (ez := Z.min ex ey). destruct (align_ok mx ex ez) as (Ax & _ & Cx). destruct (align_ok my ey ez) as (Ay & _ & Cy).
    assert (E : fval (S754_finite sx mx ex) - fval (S754_finite sy my ey) =
      IZR (cond_Zopp sx (Zpos (fst (shl_align mx ex ez))) - cond_Zopp sy (Zpos (fst (shl_align my ey ez)))) * p2 ez).
    { rewrite !fval_finite, <- Cx, <- Cy, Ax, Ay, minus_IZR. replace (Z.min ex ez) with ez by lia. replace (Z.min ey ez) with ez by lia.
      destruct sx, sy; cbn [signed cond_Zopp]; rewrite ?opp_IZR; ring. }
    rewrite E. apply normalize_ok.
Qed.

(** * Quotients *)
Lemma location_ok q m r : (0 < m)%Z -> (0 <= r < m)%Z -> inb (shr_record_of_loc q (new_location m r)) (IZR q + IZR r / IZR m).
Proof.
  intros M [R0 R1]. assert (M' : 0 < IZR m) by (apply IZR_lt; lia). unfold new_location.
  assert (Z0 : r = 0%Z -> IZR q + IZR r / IZR m = IZR q) by (intros ->; unfold Rdiv; ring).
  assert (Pr : (0 < r)%Z -> 0 < IZR r / IZR m) by (intros; apply Rdiv_lt_0_compat; [apply IZR_lt; lia|exact M']).
  assert (Lt1 : IZR r / IZR m < 1) by (apply (Rmult_lt_reg_r (IZR m)); [exact M'|]; unfold Rdiv; rewrite Rmult_assoc, Rinv_l, Rmult_1_r, Rmult_1_l by lra; apply IZR_lt; lia).
  assert (Lo : (2 * r < m)%Z -> IZR r / IZR m < 1 / 2).
  { intros H. apply IZR_lt in H. rewrite mult_IZR in H. apply (Rmult_lt_reg_r (IZR m)); [exact M'|]. unfold Rdiv at 1. rewrite Rmult_assoc, Rinv_l by lra. lra. }
  assert (Hi : (m < 2 * r)%Z -> 1 / 2 < IZR r / IZR m).
  { intros H. apply IZR_lt in H. rewrite mult_IZR in H. apply (Rmult_lt_reg_r (IZR m)); [exact M'|]. unfold Rdiv at 2. rewrite Rmult_assoc, Rinv_l by lra. lra. }
  assert (Mid : (2 * r = m)%Z -> IZR r / IZR m = 1 / 2).
  { intros H. rewrite <- H, mult_IZR. assert (0 < IZR r) by (apply IZR_lt; lia). field. lra. }
  destruct (Z.even m) eqn:Ev.
  - unfold new_location_even. destruct (Zeq_bool r 0) eqn:E0.
    + apply Zeq_bool_eq in E0. unfold inb; cbn. rewrite (Z0 E0). reflexivity.
    + apply Zeq_bool_neq in E0. assert (P : (0 < r)%Z) by lia. specialize (Pr P). destruct (Z.compare_spec (2 * r) m) as [E|E|E]; unfold inb; cbn.
      * specialize (Mid E). lra.
      * specialize (Lo E). lra.
      * specialize (Hi ltac:(lia)). lra.
  - unfold new_location_odd. destruct (Zeq_bool r 0) eqn:E0.
    + apply Zeq_bool_eq in E0. unfold inb; cbn. rewrite (Z0 E0). reflexivity.
    + apply Zeq_bool_neq in E0. assert (P : (0 < r)%Z) by lia. specialize (Pr P).
      assert (Od : (2 * r <> m)%Z) by (intros H; rewrite <- H, Z.even_mul in Ev; discriminate Ev).
      destruct (Z.compare_spec (2 * r + 1) m) as [E|E|E]; unfold inb; cbn.
      * specialize (Lo ltac:(lia)). lra.
      * specialize (Lo ltac:(lia)). lra.
      * specialize (Hi ltac:(lia)). lra.
Qed.
Lemma fx_mono a b : (a <= b)%Z -> (fx a <= fx b)%Z.
Proof. rewrite !fexp_is. lia. Qed.
(** of any two finite numbers, canonical or not *)
Lemma div_any sx mx ex sy my ey :
  rounds (SFdiv 53 1024 (S754_finite sx mx ex) (S754_finite sy my ey)) (signed (xorb sx sy) (IZR (Zpos mx) * p2 ex / (IZR (Zpos my) * p2 ey))).
Proof.
  cbn [SFdiv]. unfold SFdiv_core_binary.
  set (d1 := Zdigits2 (Zpos mx)) in *. set (d2 := Zdigits2 (Zpos my)) in *. set (e' := Z.min (fx (d1 + ex - (d2 + ey))) (ex - ey)).
  set (s := (ex - ey - e')%Z). assert (S0 : (0 <= s)%Z) by (unfold s, e'; lia).
  replace (match s with Zpos _ => Z.shiftl (Zpos mx) s | 0%Z => Zpos mx | Zneg _ => 0%Z end) with (Zpos mx * 2 ^ s)%Z.
  2: { destruct s as [|p|p]; [change (2 ^ 0)%Z with 1%Z; lia|rewrite Z.shiftl_mul_pow2 by lia; reflexivity|lia]. }
  pose proof (Z_div_mod (Zpos mx * 2 ^ s) (Zpos my) ltac:(lia)) as DM. destruct (Z.div_eucl (Zpos mx * 2 ^ s) (Zpos my)) as [q r]. destruct DM as [Eq Rr].
  destruct (digits_bounds (Zpos mx) ltac:(lia)) as (D1 & A1 & B1). destruct (digits_bounds (Zpos my) ltac:(lia)) as (D2 & A2 & B2). fold d1 in D1, A1, B1. fold d2 in D2, A2, B2.
  assert (Ps : (0 < 2 ^ s)%Z) by (apply Z.pow_pos_nonneg; lia).
  assert (Q0 : (0 <= q)%Z). { destruct (Z_lt_le_dec q 0); [exfalso|assumption]. assert (Zpos my * q + r < 0)%Z. { assert (Zpos my * q <= Zpos my * (-1))%Z by (apply Z.mul_le_mono_nonneg_l; lia). lia. } assert (0 < Zpos mx * 2 ^ s)%Z by (apply Z.mul_pos_pos; lia). lia. }
  assert (Py : 0 < IZR (Zpos my)) by (apply IZR_lt; lia). assert (Px : 0 < IZR (Zpos mx)) by (apply IZR_lt; lia). pose proof (pow2_pos ex). pose proof (pow2_pos ey).
  apply round_aux_ok; [exact Q0| | |].
  - left. apply Rdiv_lt_0_compat; apply Rmult_lt_0_compat; assumption.
  - replace (IZR (Zpos mx) * p2 ex / (IZR (Zpos my) * p2 ey) * p2 (- e')) with (IZR q + IZR r / IZR (Zpos my)); [apply location_ok; lia|].
    assert (N : IZR (Zpos mx) * p2 s = IZR (Zpos my) * IZR q + IZR r) by (rewrite p2_Z by exact S0; rewrite <- !mult_IZR, <- plus_IZR; f_equal; exact Eq).
    apply (Rmult_eq_reg_l (IZR (Zpos my))); [|lra]. transitivity (IZR (Zpos mx) * p2 s); [rewrite N; field; lra|].
    replace s with (ex + (- ey + - e'))%Z by (unfold s; lia). rewrite !pow2_add. rewrite (powerRZ_neg' 2 ey). field. lra.
  - assert (Dq : (d1 + s - d2 <= Zdigits2 q)%Z).
    { destruct (Z_lt_le_dec (d1 + s - d2 - 1) 0) as [Ng|Nn]; [pose proof (digits_nonneg q Q0); lia|].
      assert (d1 + s - d2 - 1 < Zdigits2 q)%Z; [|lia]. apply digits_at_least; [lia|]. destruct (Z_le_gt_dec (2 ^ (d1 + s - d2 - 1)) q) as [L|L]; [exact L|exfalso].
      assert (U : (Zpos mx * 2 ^ s < Zpos my * 2 ^ (d1 + s - d2 - 1))%Z). { rewrite Eq. assert (Zpos my * (q + 1) <= Zpos my * 2 ^ (d1 + s - d2 - 1))%Z by (apply Z.mul_le_mono_nonneg_l; lia). lia. }
      assert (V : (2 ^ (d1 - 1) * 2 ^ s <= Zpos mx * 2 ^ s)%Z) by (apply Z.mul_le_mono_nonneg_r; lia).
      assert (W : (Zpos my * 2 ^ (d1 + s - d2 - 1) <= 2 ^ d2 * 2 ^ (d1 + s - d2 - 1))%Z) by (apply Z.mul_le_mono_nonneg_r; [apply Z.pow_nonneg; lia|lia]).
      rewrite <- Z.pow_add_r in V, W by lia. replace (d2 + (d1 + s - d2 - 1))%Z with (d1 - 1 + s)%Z in W by lia. lia. }
    apply Z.le_trans with (fx (d1 + ex - (d2 + ey))); [unfold e'; lia|]. apply fx_mono. unfold s in Dq. lia.
Qed.
Lemma div_ok x y : proper x -> proper y -> fval y <> 0 -> rounds (SFdiv 53 1024 x y) (fval x / fval y).
Proof.
  intros [Fx Vx] [Fy Vy] Ny. destruct y as [sy|sy| |sy my ey]; try contradiction. destruct x as [sx|sx| |sx mx ex]; try contradiction.
  - cbn [SFdiv fval]. unfold Rdiv. rewrite Rmult_0_l. apply zero_rounds.
  - assert (E : fval (S754_finite sx mx ex) / fval (S754_finite sy my ey) = signed (xorb sx sy) (IZR (Zpos mx) * p2 ex / (IZR (Zpos my) * p2 ey))).
    { assert (0 < IZR (Zpos my) * p2 ey) by (apply Rmult_lt_0_compat; [apply IZR_lt; lia|apply pow2_pos]). rewrite !fval_finite. set (b := IZR (Zpos my) * p2 ey) in *. destruct sx, sy; cbn [signed xorb]; field; lra. }
    rewrite E. apply div_any.
Qed.

(** * Roots *)
Lemma sqrt_loc n q r : (n = q * q + r)%Z -> (0 <= q)%Z -> (0 <= r <= 2 * q)%Z ->
  inb (shr_record_of_loc q (if Zeq_bool r 0 then loc_Exact else loc_Inexact (if Zle_bool r q then Lt else Gt))) (sqrt (IZR n)).
Proof.
  intros E Q [R0 R1]. assert (Q' : 0 <= IZR q) by (apply IZR_le; exact Q). rewrite E, plus_IZR, mult_IZR. destruct (Zeq_bool r 0) eqn:E0.
  - apply Zeq_bool_eq in E0. subst r. unfold inb; cbn. rewrite Rplus_0_r. apply sqrt_square. exact Q'.
  - apply Zeq_bool_neq in E0. assert (P : 1 <= IZR r) by (apply IZR_le; lia). assert (U : IZR r <= 2 * IZR q) by (rewrite <- mult_IZR; apply IZR_le; lia).
    assert (A : IZR q < sqrt (IZR q * IZR q + IZR r)). { rewrite <- (sqrt_square (IZR q)) at 1 by exact Q'. apply sqrt_lt_1; [apply Rmult_le_pos; exact Q'| |]; pose proof (Rle_0_sqr (IZR q)); unfold Rsqr in *; lra. }
    assert (B : forall c, 0 <= c -> 2 * IZR q * c + c * c > IZR r -> sqrt (IZR q * IZR q + IZR r) < IZR q + c).
    { intros c C H. rewrite <- (sqrt_square (IZR q + c)) by lra. pose proof (Rle_0_sqr (IZR q)); unfold Rsqr in *. apply sqrt_lt_1; [lra|apply Rmult_le_pos; lra|]. replace ((IZR q + c) * (IZR q + c)) with (IZR q * IZR q + 2 * IZR q * c + c * c) by ring. lra. }
    destruct (Zle_bool r q) eqn:L.
    + apply Zle_bool_imp_le, IZR_le in L. specialize (B (1 / 2) ltac:(lra) ltac:(lra)). unfold inb; cbn. lra.
    + assert (L' : (q + 1 <= r)%Z) by (apply Z.leb_gt in L; lia). apply IZR_le in L'. rewrite plus_IZR in L'. specialize (B 1 ltac:(lra) ltac:(lra)).
      assert (C : IZR q + 1 / 2 < sqrt (IZR q * IZR q + IZR r)).
      { rewrite <- (sqrt_square (IZR q + 1 / 2)) by lra. pose proof (Rle_0_sqr (IZR q)); unfold Rsqr in *. apply sqrt_lt_1; [apply Rmult_le_pos; lra|lra|]. replace ((IZR q + 1 / 2) * (IZR q + 1 / 2)) with (IZR q * IZR q + IZR q + 1 / 4) by field. lra. }
      unfold inb; cbn. lra.
Qed.
Lemma sqrt_p2 e : sqrt (p2 (2 * e)) = p2 e.
Proof. replace (2 * e)%Z with (e + e)%Z by lia. rewrite pow2_add. apply sqrt_square. left. apply pow2_pos. Qed.
Lemma sqrt_ok x : proper x -> 0 <= fval x -> rounds (SFsqrt 53 1024 x) (sqrt (fval x)).
Proof.
  intros [Fx Vx] Nx. destruct x as [sx|sx| |sx mx ex]; try contradiction.
  - cbn [SFsqrt fval]. rewrite sqrt_0. apply zero_rounds.
  - assert (Pm : 0 < IZR (Zpos mx)) by (apply IZR_lt; lia). pose proof (pow2_pos ex) as Pe. assert (Pv : 0 < IZR (Zpos mx) * p2 ex) by (apply Rmult_lt_0_compat; assumption).
    destruct sx; [rewrite fval_finite in Nx; cbn [signed] in Nx; lra|]. rewrite fval_finite in *. cbn [signed] in *. clear Nx.
    cbn [SFsqrt]. unfold SFsqrt_core_binary. set (d := Zdigits2 (Zpos mx)) in *. set (e' := Z.min (fx (Z.div2 (d + ex + 1))) (Z.div2 ex)). set (s := (ex - 2 * e')%Z).
    assert (H2 : (2 * Z.div2 ex <= ex)%Z) by (rewrite Z.div2_div; pose proof (Z.mul_div_le ex 2 ltac:(lia)); lia).
    assert (S0 : (0 <= s)%Z) by (unfold s, e'; lia).
    replace (match s with Zpos _ => Z.shiftl (Zpos mx) s | 0%Z => Zpos mx | Zneg _ => 0%Z end) with (Zpos mx * 2 ^ s)%Z.
    2: { destruct s as [|p|p]; [change (2 ^ 0)%Z with 1%Z; lia|rewrite Z.shiftl_mul_pow2 by lia; reflexivity|lia]. }
    assert (Ps : (0 < 2 ^ s)%Z) by (apply Z.pow_pos_nonneg; lia). set (n := (Zpos mx * 2 ^ s)%Z). assert (Pn : (0 < n)%Z) by (apply Z.mul_pos_pos; lia).
    pose proof (Z.sqrtrem_spec n ltac:(lia)) as SR. destruct (Z.sqrtrem n) as [q r]. destruct SR as [Eq Rr]. assert (Q0 : (0 <= q)%Z) by lia.
    change (sqrt (IZR (Zpos mx) * p2 ex)) with (signed false (sqrt (IZR (Zpos mx) * p2 ex))).
    apply round_aux_ok; [exact Q0|apply sqrt_pos| |].
    + replace (sqrt (IZR (Zpos mx) * p2 ex) * p2 (- e')) with (sqrt (IZR n)); [apply sqrt_loc; assumption|].
      rewrite <- (sqrt_p2 (- e')), <- sqrt_mult by (left; (apply Rmult_lt_0_compat || idtac); auto using pow2_pos). f_equal. unfold n. rewrite mult_IZR, <- p2_Z by exact S0.
      rewrite Rmult_assoc, <- pow2_add. f_equal. f_equal. unfold s. lia.
    + assert (Dq : (Z.div2 (d + s + 1) <= Zdigits2 q)%Z).
      { destruct (digits_bounds (Zpos mx) ltac:(lia)) as (D1 & A1 & B1). fold d in D1, A1, B1. set (k := ((d + s - 1) / 2)%Z). assert (K0 : (0 <= k)%Z) by (apply Z.div_pos; lia).
        assert (K2 : (2 * k <= d + s - 1)%Z) by (unfold k; apply Z.mul_div_le; lia). replace (Z.div2 (d + s + 1)) with (k + 1)%Z.
        2: { rewrite Z.div2_div. unfold k. replace (d + s + 1)%Z with (d + s - 1 + 1 * 2)%Z by lia. rewrite Z.div_add by lia. reflexivity. }
        assert (k < Zdigits2 q)%Z; [|lia]. apply digits_at_least; [lia|]. destruct (Z_le_gt_dec (2 ^ k) q) as [L|L]; [exact L|exfalso].
        assert (V : (2 ^ (d - 1) * 2 ^ s <= n)%Z) by (apply Z.mul_le_mono_nonneg_r; lia). rewrite <- Z.pow_add_r in V by lia.
        assert (W : (2 ^ (2 * k) <= 2 ^ (d - 1 + s))%Z) by (apply Z.pow_le_mono_r; lia). replace (2 * k)%Z with (k + k)%Z in W by lia. rewrite Z.pow_add_r in W by lia.
        assert (X : ((q + 1) * (q + 1) <= 2 ^ k * 2 ^ k)%Z) by (apply Z.mul_le_mono_nonneg; lia). assert (Y : ((q + 1) * (q + 1) = q * q + 2 * q + 1)%Z) by ring. lia. }
      apply Z.le_trans with (fx (Z.div2 (d + ex + 1))); [unfold e'; lia|]. apply fx_mono.
      replace (Z.div2 (d + ex + 1)) with (Z.div2 (d + s + 1) + e')%Z; [lia|]. rewrite !Z.div2_div. replace (d + ex + 1)%Z with (d + s + 1 + e' * 2)%Z by (unfold s; lia). rewrite Z.div_add by lia. reflexivity.
Qed.

(** * Signs and comparisons *)
Lemma opp_ok x : proper x -> stands (SFopp x) (- fval x).
Proof. intros [F V]. destruct x as [s|s| |s m e]; try contradiction; (split; [split; [exact Logic.I|exact V]|]); cbn; [ring|]. destruct s; cbn; ring. Qed.
Lemma abs_ok x : proper x -> stands (SFabs x) (Rabs (fval x)).
Proof.
  intros [F V]. destruct x as [s|s| |s m e]; try contradiction; (split; [split; [exact Logic.I|exact V]|]).
  - cbn. symmetry. apply Rabs_R0.
  - rewrite (fval_finite s), signed_abs by apply p2_le_mult. reflexivity.
Qed.
Lemma canon_lt m1 e1 m2 e2 : SpecFloat.bounded 53 1024 m1 e1 = true -> SpecFloat.bounded 53 1024 m2 e2 = true -> (e1 < e2)%Z ->
  IZR (Zpos m1) * p2 e1 < IZR (Zpos m2) * p2 e2.
Proof.
  unfold SpecFloat.bounded, canonical_mantissa. intros B1 B2 L. apply andb_true_iff in B1 as [B1 _], B2 as [B2 _]. apply Zeq_bool_eq in B1, B2. rewrite fexp_is in B1, B2.
  destruct (digits_pos m1) as [_ U]. destruct (digits_pos m2) as [Lo _].
  assert (A : IZR (Zpos m1) < p2 53) by (rewrite p2_Z by lia; apply IZR_lt; eapply Z.lt_le_trans; [exact U|apply Z.pow_le_mono_r; lia]).
  assert (B : p2 52 <= IZR (Zpos m2)) by (rewrite p2_Z by lia; apply IZR_le; eapply Z.le_trans; [|exact Lo]; apply Z.pow_le_mono_r; lia).
  pose proof (pow2_pos e1). pose proof (pow2_pos e2). apply Rlt_le_trans with (p2 53 * p2 e1); [apply Rmult_lt_compat_r; assumption|].
  apply Rle_trans with (p2 52 * p2 e2); [|apply Rmult_le_compat_r; lra]. rewrite <- !pow2_add. apply pow2_mono. lia.
Qed.
Lemma compare_ok x y : proper x -> proper y ->
  (SFcompare x y = Some Lt /\ fval x < fval y) \/ (SFcompare x y = Some Eq /\ fval x = fval y) \/ (SFcompare x y = Some Gt /\ fval y < fval x).
Proof.
  intros [Fx Vx] [Fy Vy]. assert (P : forall m e, 0 < IZR (Zpos m) * p2 e) by (intros; apply Rmult_lt_0_compat; [apply IZR_lt; lia|apply pow2_pos]).
  destruct x as [sx|sx| |sx mx ex], y as [sy|sy| |sy my ey]; try contradiction; rewrite ?fval_finite; cbn [SFcompare].
  - right. left. split; reflexivity.
  - change (fval (S754_zero sx)) with 0. specialize (P my ey). destruct sy; cbn [signed]; [right; right|left]; (split; [reflexivity|lra]).
  - change (fval (S754_zero sy)) with 0. specialize (P mx ex). destruct sx; cbn [signed]; [left|right; right]; (split; [reflexivity|lra]).
  - cbn [valid_binary] in Vx, Vy. pose proof (P mx ex) as Px. pose proof (P my ey) as Py.
    assert (C : ((ex ?= ey)%Z = Lt /\ IZR (Zpos mx) * p2 ex < IZR (Zpos my) * p2 ey) \/ ((ex ?= ey)%Z = Gt /\ IZR (Zpos my) * p2 ey < IZR (Zpos mx) * p2 ex) \/ (ex ?= ey)%Z = Eq /\ ex = ey).
    { destruct (Z.compare_spec ex ey) as [E|E|E]; [right; right|left|right; left]; (split; [reflexivity|]); [exact E|exact (canon_lt _ _ _ _ Vx Vy E)|exact (canon_lt _ _ _ _ Vy Vx E)]. }
    destruct sx, sy; cbn [signed].
    + destruct C as [[-> C]|[[-> C]|[-> ->]]]; [right; right; split; [reflexivity|lra]|left; split; [reflexivity|lra]|].
      pose proof (pow2_pos ey). change (Pos.compare_cont Eq mx my) with (Pos.compare mx my). destruct (Pos.compare_spec mx my) as [E|E|E]; cbn [CompOpp].
      * subst. right. left. split; reflexivity.
      * right. right. split; [reflexivity|]. apply Ropp_lt_contravar, Rmult_lt_compat_r; [assumption|apply IZR_lt; lia].
      * left. split; [reflexivity|]. apply Ropp_lt_contravar, Rmult_lt_compat_r; [assumption|apply IZR_lt; lia].
    + left. split; [reflexivity|lra].
    + right. right. split; [reflexivity|lra].
    + destruct C as [[-> C]|[[-> C]|[-> ->]]]; [left; split; [reflexivity|lra]|right; right; split; [reflexivity|lra]|].
      pose proof (pow2_pos ey). change (Pos.compare_cont Eq mx my) with (Pos.compare mx my). destruct (Pos.compare_spec mx my) as [E|E|E].
      * subst. right. left. split; reflexivity.
      * left. split; [reflexivity|]. apply Rmult_lt_compat_r; [assumption|apply IZR_lt; lia].
      * right. right. split; [reflexivity|]. apply Rmult_lt_compat_r; [assumption|apply IZR_lt; lia].
Qed.

(** * Numbers in a text *)
Lemma int_ok m : rounds (f_int m) (IZR m).
Proof. unfold f_int. replace (IZR m) with (IZR m * p2 0) by (cbn; ring). apply normalize_ok. Qed.
Lemma dec_ok m e : rounds (f_dec m e) (r_of_dec m e).
Proof.
  destruct e as [|p|p]; cbn [f_dec r_of_dec]; [apply int_ok|apply int_ok|]. destruct m as [|q|q].
  - unfold Rdiv. rewrite Rmult_0_l. apply zero_rounds.
  - pose proof (div_any false q 0 false (10 ^ p) 0) as D. change (p2 0) with 1 in D. rewrite !Rmult_1_r in D. exact D.
  - pose proof (div_any true q 0 false (10 ^ p) 0) as D. change (p2 0) with 1 in D. rewrite !Rmult_1_r in D. cbn [signed xorb] in D.
    change (IZR (Zneg q)) with (- IZR (Zpos q)). unfold Rdiv in *. rewrite <- Ropp_mult_distr_l. exact D.
Qed.
Lemma p2_up a b : (a < b)%Z -> p2 a < p2 b.
Proof. intros H. apply Rlt_le_trans with (p2 (a + 1)); [rewrite pow2_add, p2_1; pose proof (pow2_pos a); lra|apply pow2_mono; lia]. Qed.
(** roots never overflow *)
Lemma root_fits x : proper x -> 0 <= fval x -> Rabs (binary64 (sqrt (fval x))) < too_large.
Proof.
  intros P N. destruct (proper_double x P) as [_ B]. rewrite Rabs_right in B by lra. pose proof (sqrt_pos (fval x)) as S.
  assert (L : sqrt (fval x) <= p2 512). { rewrite <- sqrt_p2. apply sqrt_le_1; [exact N|left; apply pow2_pos|]. change (2 * 512)%Z with 1024%Z. left. exact B. }
  assert (D : double (p2 512)) by (exists 1%Z, 512%Z; split; [reflexivity|split; [lia|ring]]).
  pose proof (binary64_nearest (sqrt (fval x)) (p2 512) D) as H. rewrite (Rabs_left1 (sqrt (fval x) - p2 512)) in H by lra. pose proof (Rle_abs (- (sqrt (fval x) - binary64 (sqrt (fval x))))) as A. rewrite Rabs_Ropp in A.
  rewrite Rabs_right by (apply Rle_ge, binary64_nonneg, S). apply Rle_lt_trans with (p2 512); [lra|]. apply p2_up. lia.
Qed.
Lemma bool_same a b : (a = true <-> b = true) -> a = b.
Proof. destruct a, b; intros [A B]; try reflexivity; [symmetry; apply A; reflexivity|apply B; reflexivity]. Qed.
