(** Lemmas for C117: what the digits of a written float are. *)
From Coq Require Import Reals ZArith SpecFloat List Lia Lra.
From Verif Require Import Py Vec StateGen Rounding SpecRounding RoundingProofs Generic SpecIEEE IEEEProofs BridgeProofs RealFacts Texts TextsProofs Repr.
Import ListNotations.
Open Scope R_scope.
Notation t10 := (powerRZ 10).

(** * Doubles are apart *)
Lemma multiples_apart u a b : 0 < u -> IZR a * u < IZR b * u -> IZR a * u + u <= IZR b * u.
Proof. intros U H. apply Rmult_lt_reg_r in H; [|exact U]. apply lt_IZR in H. assert (L : IZR a + 1 <= IZR b) by (rewrite <- plus_IZR; apply IZR_le; lia). apply (Rmult_le_compat_r u) in L; lra. Qed.
Lemma apart X B : double X -> double B -> 0 < X -> Rabs (B - X) < p2 (-53) * X -> B = X.
Proof.
  intros DX DB P H. set (q := exponent X). assert (X0 : X <> 0) by lra. destruct (exponent_spec X X0) as [E1 E2]. fold q in E1, E2. rewrite (Rabs_right X) in E1, E2 by lra.
  pose proof (ulp_pos X) as U. pose proof (pow2_pos q) as Pq. pose proof (pow2_pos (-53)) as P53.
  assert (UL : p2 (q - 52) <= ulp X) by (apply pow2_mono; unfold q; lia).
  assert (T : p2 (-53) * X < p2 (q - 52)). { replace (q - 52)%Z with (-53 + (q + 1))%Z by lia. rewrite RoundingProofs.pow2_add. apply Rmult_lt_compat_l; [exact P53|exact E2]. }
  destruct (double_near X X X0 DX) as [[n HX]|[HX _]]; [|rewrite Rabs_right in HX by lra; fold q in HX; lra].
  apply Rabs_def2 in H. destruct H as [H1 H2].
  destruct (double_near X B X0 DB) as [[k HB]|[HB HU]].
  - destruct (Rtotal_order B X) as [L|[L|L]]; [|exact L|].
    + exfalso. assert (Q : IZR k * ulp X < IZR n * ulp X) by (rewrite <- HB, <- HX; exact L). apply multiples_apart in Q; [|exact U]. rewrite <- HB, <- HX in Q. lra.
    + exfalso. assert (Q : IZR n * ulp X < IZR k * ulp X) by (rewrite <- HB, <- HX; exact L). apply multiples_apart in Q; [|exact U]. rewrite <- HB, <- HX in Q. lra.
  - exfalso. fold q in HB, HU. apply Rabs_def2 in HB. destruct HB as [B1 B2].
    assert (Z1 : p2 q = 2 * p2 (q - 1)) by (replace q with (1 + (q - 1))%Z at 1 by lia; rewrite RoundingProofs.pow2_add, p2_1; reflexivity). pose proof (pow2_pos (q - 1)) as Pq1.
    assert (Y0 : p2 (q - 1) <> 0) by lra. assert (Ex : exponent (p2 (q - 1)) = (q - 1)%Z).
    { apply exponent_is. rewrite Rabs_right by lra. replace (q - 1 + 1)%Z with q by lia. lra. }
    assert (G : p2 (q - 53) <= p2 q - B).
    { destruct (double_near (p2 (q - 1)) B Y0 DB) as [[k HB]|[HB _]].
      - assert (Q1 : (-1074 <= q)%Z). { apply Z.nlt_ge. intros L. assert (exponent X - 52 < -1074)%Z by (fold q; lia). unfold ulp in HU. rewrite Z.max_l in HU by lia. fold q in HU. apply p2_inj in HU. lia. }
        unfold ulp in HB. rewrite Ex in HB. set (E := Z.max (-1074) (q - 1 - 52)) in *. assert (M : p2 q = IZR (2 ^ (q - E)) * p2 E) by (rewrite <- p2_Z by lia; rewrite <- RoundingProofs.pow2_add; f_equal; lia).
        rewrite HB, M in B1. apply multiples_apart in B1; [|apply pow2_pos]. rewrite <- HB, <- M in B1. assert (p2 (q - 53) <= p2 E) by (apply pow2_mono; lia). lra.
      - rewrite Ex in HB. apply Rabs_def2 in HB. assert (p2 (q - 53) <= p2 (q - 1)) by (apply pow2_mono; lia). lra. }
    assert (D : p2 (q - 53) = p2 (-53) * p2 q) by (rewrite <- RoundingProofs.pow2_add; f_equal; lia).
    assert (p2 (-53) <= 1) by (change 1 with (p2 0); apply pow2_mono; lia). assert (p2 (-53) * (X - p2 q) <= 1 * (X - p2 q)) by (apply Rmult_le_compat_r; lra). lra.
Qed.
Lemma close_reads X d : double X -> 0 < X -> Rabs (d - X) < p2 (-54) * X -> binary64 d = X.
Proof.
  intros D P H. apply apart; [exact D|apply binary64_double|exact P|]. pose proof (binary64_nearest d X D) as N. rewrite Rabs_minus_sym in N.
  replace (binary64 d - X) with ((binary64 d - d) + (d - X)) by ring. eapply Rle_lt_trans; [apply Rabs_triang|].
  assert (E : p2 (-53) = 2 * p2 (-54)) by (change (-53)%Z with (1 + -54)%Z; rewrite RoundingProofs.pow2_add, p2_1; reflexivity). rewrite E. lra.
Qed.

(** * Powers of ten *)
Lemma t10_pos z : 0 < t10 z. Proof. apply powerRZ_lt; lra. Qed.
Lemma t10_add a b : t10 (a + b) = t10 a * t10 b. Proof. apply powerRZ_add; lra. Qed.
Lemma t10_Z k : (0 <= k)%Z -> t10 k = IZR (10 ^ k).
Proof. intros H. destruct k as [|p|p]; [reflexivity| |lia]. cbn [powerRZ]. rewrite pow_IZR, positive_nat_Z. reflexivity. Qed.
Lemma t10_inv k : t10 (- k) * t10 k = 1. Proof. rewrite <- t10_add. replace (- k + k)%Z with 0%Z by lia. reflexivity. Qed.
Lemma t10_mono a b : (a <= b)%Z -> t10 a <= t10 b.
Proof. intros H. replace b with (a + (b - a))%Z by lia. rewrite t10_add, (t10_Z (b - a)) by lia. pose proof (t10_pos a). rewrite <- (Rmult_1_r (t10 a)) at 1. apply Rmult_le_compat_l; [lra|]. apply IZR_le. pose proof (Z.pow_pos_nonneg 10 (b - a)). lia. Qed.
Lemma dec_t10 m e : r_of_dec m e = IZR m * t10 e.
Proof.
  destruct e as [|p|p]; cbn [r_of_dec]; [change (t10 0) with 1; ring| |].
  - rewrite mult_IZR. f_equal. rewrite t10_Z by lia. reflexivity.
  - rewrite Pos2Z.inj_pow. unfold Rdiv. f_equal. pose proof (t10_inv (Zpos p)) as I. rewrite (t10_Z (Zpos p)) in I by lia. cbn [Z.opp] in I. assert (IZR (10 ^ Zpos p) <> 0) by (apply not_0_IZR; pose proof (Z.pow_pos_nonneg 10 (Zpos p)); lia).
    apply Rmult_eq_reg_r with (IZR (10 ^ Zpos p)); [|assumption]. rewrite Rinv_l by assumption. symmetry. exact I.
Qed.

(** * Numbers of digits *)
Lemma count_spec : forall f n, (1 <= n)%Z -> (n < 10 ^ (Z.of_nat f + 1))%Z -> let c := count_digits f n in (1 <= c /\ 10 ^ (c - 1) <= n < 10 ^ c)%Z.
Proof.
  induction f as [|f IH]; intros n N H; cbn [count_digits].
  - change (10 ^ (Z.of_nat 0 + 1))%Z with 10%Z in H. cbn. change (10 ^ 1)%Z with 10%Z. lia.
  - destruct (Z.ltb_spec n 10) as [L|L]; [cbn; lia|]. rewrite Nat2Z.inj_succ in H. replace (Z.succ (Z.of_nat f) + 1)%Z with (1 + (Z.of_nat f + 1))%Z in H by lia. rewrite Z.pow_add_r in H by lia. change (10 ^ 1)%Z with 10%Z in H.
    assert (N1 : (1 <= n / 10)%Z) by (apply Z.div_le_lower_bound; lia). assert (H1 : (n / 10 < 10 ^ (Z.of_nat f + 1))%Z) by (apply Z.div_lt_upper_bound; lia).
    destruct (IH (n / 10)%Z N1 H1) as (C & C1 & C2). set (c := count_digits f (n / 10)) in *. cbv zeta. split; [lia|].
    replace (1 + c - 1)%Z with (1 + (c - 1))%Z by lia. rewrite !Z.pow_add_r by lia. change (10 ^ 1)%Z with 10%Z. pose proof (Z.div_mod n 10). pose proof (Z.mod_pos_bound n 10). lia.
Qed.
Lemma digit_number_spec n : (1 <= n)%Z -> let c := digit_number n in (1 <= c /\ 10 ^ (c - 1) <= n < 10 ^ c)%Z.
Proof.
  intros N. apply count_spec; [exact N|]. pose proof (Z.log2_nonneg n). rewrite Z2Nat.id by assumption. destruct (Z.log2_spec n) as [_ L]; [lia|]. eapply Z.lt_le_trans; [exact L|].
  replace (Z.succ (Z.log2 n)) with (Z.log2 n + 1)%Z by lia. apply Z.pow_le_mono_l. lia.
Qed.
Lemma frac_lt a b c : 0 < b -> a < c * b -> a / b < c.
Proof. intros B H. apply Rmult_lt_reg_r with b; [exact B|]. unfold Rdiv. rewrite Rmult_assoc, Rinv_l, Rmult_1_r by lra. exact H. Qed.
Lemma frac_ge a b c : 0 < b -> c * b <= a -> c <= a / b.
Proof. intros B H. apply Rmult_le_reg_r with b; [exact B|]. unfold Rdiv. rewrite Rmult_assoc, Rinv_l, Rmult_1_r by lra. exact H. Qed.
Lemma decimal_exponent_spec a b : (0 < a)%Z -> (0 < b)%Z -> let k := decimal_exponent a b in t10 k <= IZR a / IZR b < t10 (k + 1).
Proof.
  intros A B. unfold decimal_exponent. assert (Rb : 0 < IZR b) by (apply IZR_lt; exact B). destruct (Z.leb_spec b a) as [L|L]; cbv zeta.
  - assert (V : (1 <= a / b)%Z) by (apply Z.div_le_lower_bound; lia). destruct (digit_number_spec _ V) as (C & C1 & C2). set (c := digit_number (a / b)) in *.
    replace (c - 1 + 1)%Z with c by lia. rewrite !t10_Z by lia. pose proof (Z.div_mod a b). pose proof (Z.mod_pos_bound a b). set (v := (a / b)%Z) in *.
    split; [apply frac_ge|apply frac_lt]; try assumption; rewrite <- mult_IZR; [apply IZR_le|apply IZR_lt].
    + apply Z.le_trans with (v * b)%Z; [apply Z.mul_le_mono_nonneg_r; lia|lia].
    + apply Z.lt_le_trans with ((v + 1) * b)%Z; [lia|apply Z.mul_le_mono_nonneg_r; lia].
  - assert (V : (1 <= (b - 1) / a)%Z) by (apply Z.div_le_lower_bound; lia). destruct (digit_number_spec _ V) as (C & C1 & C2). set (c := digit_number ((b - 1) / a)) in *.
    pose proof (Z.div_mod (b - 1) a). pose proof (Z.mod_pos_bound (b - 1) a). set (v := ((b - 1) / a)%Z) in *.
    split.
    + apply frac_ge; [exact Rb|]. apply Rmult_le_reg_r with (t10 c); [apply t10_pos|]. replace (t10 (- c) * IZR b * t10 c) with (t10 (- c) * t10 c * IZR b) by ring. rewrite t10_inv, Rmult_1_l, t10_Z by lia. rewrite <- mult_IZR. apply IZR_le.
      apply Z.le_trans with (a * (v + 1))%Z; [lia|apply Z.mul_le_mono_nonneg_l; lia].
    + apply frac_lt; [exact Rb|]. replace (- c + 1)%Z with (- (c - 1))%Z by lia. apply Rmult_lt_reg_r with (t10 (c - 1)); [apply t10_pos|].
      replace (t10 (- (c - 1)) * IZR b * t10 (c - 1)) with (t10 (- (c - 1)) * t10 (c - 1) * IZR b) by ring. rewrite t10_inv, Rmult_1_l, t10_Z by lia. rewrite <- mult_IZR. apply IZR_lt.
      apply Z.le_lt_trans with (a * v)%Z; [apply Z.mul_le_mono_nonneg_l; lia|lia].
Qed.

(** * The two numbers with [n] digits around a double *)
Lemma scaled_spec a b q : (0 < a)%Z -> (0 < b)%Z -> let (n, d) := scaled a b q in (0 < n /\ 0 < d)%Z /\ IZR n / IZR d = IZR a / IZR b * t10 (- q).
Proof.
  intros A B. assert (Rb : 0 < IZR b) by (apply IZR_lt; exact B). unfold scaled. destruct (Z.leb_spec 0 q) as [L|L].
  - pose proof (Z.pow_pos_nonneg 10 q). split; [split; [exact A|apply Z.mul_pos_pos; lia]|]. rewrite mult_IZR, <- t10_Z by lia. pose proof (t10_pos q) as P. pose proof (t10_inv q) as I.
    replace (IZR a / (IZR b * t10 q)) with (IZR a / IZR b * (t10 (- q) * t10 q) / t10 q) by (rewrite I; field; lra). field. lra.
  - pose proof (Z.pow_pos_nonneg 10 (- q)). split; [split; [apply Z.mul_pos_pos; lia|exact B]|]. rewrite mult_IZR, <- t10_Z by lia. field. lra.
Qed.
Lemma int_part_is y n : IZR n <= y < IZR n + 1 -> Int_part y = n.
Proof. intros H. destruct (base_Int_part y) as [H1 H2]. assert (A : IZR (Int_part y) < IZR (n + 1)) by (rewrite plus_IZR; lra). assert (B : IZR n < IZR (Int_part y + 1)) by (rewrite plus_IZR; lra). apply lt_IZR in A, B. lia. Qed.
Lemma candidates_spec a b q : (0 < a)%Z -> (0 < b)%Z -> let y := IZR a / IZR b * t10 (- q) in let (c1, c2) := candidates a b q in
  exists lo, IZR lo <= y < IZR lo + 1 /\ c1 = round_half_even y /\ (c1 = lo /\ c2 = lo + 1 \/ c1 = lo + 1 /\ c2 = lo)%Z.
Proof.
  intros A B y. unfold candidates. pose proof (scaled_spec a b q A B) as S. destruct (scaled a b q) as [n d]. destruct S as [[N D] S]. fold y in S.
  pose proof (Z.div_mod n d). pose proof (Z.mod_pos_bound n d D) as M. set (lo := (n / d)%Z) in *. set (r := (n mod d)%Z) in *. assert (Rd : 0 < IZR d) by (apply IZR_lt; exact D).
  assert (Y : y = IZR lo + IZR r / IZR d). { rewrite <- S. replace n with (d * lo + r)%Z by lia. rewrite plus_IZR, mult_IZR. field. lra. }
  assert (F0 : 0 <= IZR r / IZR d) by (apply frac_ge; [exact Rd|]; rewrite Rmult_0_l; apply IZR_le; lia). assert (F1 : IZR r / IZR d < 1) by (apply frac_lt; [exact Rd|]; rewrite Rmult_1_l; apply IZR_lt; lia).
  assert (I : Int_part y = lo) by (apply int_part_is; lra).
  assert (C1 : Rltb (y - IZR lo) (1 / 2) = (2 * r <? d)%Z).
  { replace (y - IZR lo) with (IZR r / IZR d) by lra. destruct (Z.ltb_spec (2 * r) d) as [L|L].
    - apply Rltb_iff. apply frac_lt; [exact Rd|]. apply IZR_lt in L. rewrite mult_IZR in L. lra.
    - apply Rltb_false. apply frac_ge; [exact Rd|]. apply IZR_le in L. rewrite mult_IZR in L. lra. }
  assert (C2 : Rltb (1 / 2) (y - IZR lo) = negb (2 * r <? d)%Z && negb (2 * r =? d)%Z).
  { replace (y - IZR lo) with (IZR r / IZR d) by lra. destruct (Z.ltb_spec (2 * r) d) as [L|L]; [|destruct (Z.eqb_spec (2 * r) d) as [E|E]]; cbn [negb andb].
    - apply Rltb_false. left. apply frac_lt; [exact Rd|]. apply IZR_lt in L. rewrite mult_IZR in L. lra.
    - apply Rltb_false. right. rewrite <- E, mult_IZR. assert (0 < IZR r) by (apply IZR_lt; lia). field. lra.
    - apply Rltb_iff. apply Rmult_lt_reg_r with (IZR d); [exact Rd|]. unfold Rdiv at 2. rewrite Rmult_assoc, Rinv_l, Rmult_1_r by lra. assert (G : (d < 2 * r)%Z) by lia. apply IZR_lt in G. rewrite mult_IZR in G. lra. }
  assert (H0 : round_half_even y = if ((2 * r <? d) || ((2 * r =? d) && Z.even lo))%Z then lo else (lo + 1)%Z).
  { unfold round_half_even. rewrite I, C1, C2. destruct (Z.ltb_spec (2 * r) d) as [L|L]; cbn [negb andb orb]; [reflexivity|]. destruct (Z.eqb_spec (2 * r) d); cbn [negb andb]; [|reflexivity]. destruct (Z.even lo); reflexivity. }
  destruct ((2 * r <? d) || ((2 * r =? d) && Z.even lo))%Z; (exists lo; split; [lra|]; split; [symmetry; exact H0|]); auto.
Qed.

(** * Reading *)
Lemma finite_unique s m e s' m' e' : proper (S754_finite s m e) -> proper (S754_finite s' m' e') -> fval (S754_finite s m e) = fval (S754_finite s' m' e') -> S754_finite s m e = S754_finite s' m' e'.
Proof.
  intros P P' E. destruct (compare_ok _ _ P P') as [[H L]|[[H _]|[H L]]]; try lra. cbn [SFcompare] in H.
  change (Pos.compare_cont Eq m m') with (Pos.compare m m') in H.
  destruct s, s'; try discriminate H; destruct (Z.compare_spec e e') as [->|L'|L']; try discriminate H; destruct (Pos.compare_spec m m') as [->|L'|L']; try discriminate H; reflexivity.
Qed.
Section Positive.
Variable m : positive. Variable e : Z.
Let x : spec_float := S754_finite false m e.
Hypothesis Px : proper x.
Let X : R := fval x.
Let a : Z := numer m e. Let b : Z := denom e. Let k : Z := decimal_exponent a b.
Lemma X_pos : 0 < X. Proof. unfold X, x. cbn [fval]. apply Rmult_lt_0_compat; [apply IZR_lt; lia|apply pow2_pos]. Qed.
Lemma X_double : double X /\ Rabs X < too_large. Proof. apply proper_double. exact Px. Qed.
Lemma ab_pos : (0 < a)%Z /\ (0 < b)%Z.
Proof. unfold a, b, numer, denom. pose proof (Z.pow_pos_nonneg 2 (Z.max 0 e)). pose proof (Z.pow_pos_nonneg 2 (Z.max 0 (- e))). split; [apply Z.mul_pos_pos; lia|lia]. Qed.
Lemma X_frac : X = IZR a / IZR b.
Proof.
  unfold X, x, a, b, numer, denom. cbn [fval]. rewrite mult_IZR, <- !p2_Z by lia. pose proof (pow2_pos (Z.max 0 (- e))). replace e with (Z.max 0 e + - Z.max 0 (- e))%Z at 1 by lia. rewrite RoundingProofs.pow2_add.
  assert (I : p2 (- Z.max 0 (- e)) * p2 (Z.max 0 (- e)) = 1) by (rewrite <- RoundingProofs.pow2_add; replace (- Z.max 0 (- e) + Z.max 0 (- e))%Z with 0%Z by lia; reflexivity).
  apply Rmult_eq_reg_r with (p2 (Z.max 0 (- e))); [|lra]. unfold Rdiv. rewrite !Rmult_assoc, I, Rinv_l by lra. ring.
Qed.
Lemma reads_iff c q : reads_as m e c q = true <-> binary64 (IZR c * t10 q) = X.
Proof.
  unfold reads_as. pose proof (dec_ok c q) as (R1 & R2 & R3). rewrite dec_t10 in R1, R2, R3. set (v := IZR c * t10 q) in *. destruct X_double as [_ B]. pose proof X_pos as P. split; intros H.
  - destruct (Rlt_le_dec (Rabs (binary64 v)) too_large) as [L|L].
    + destruct (R1 L) as [Q V]. destruct (f_dec c q) as [| | |[] m' e'] eqn:E; try discriminate H. apply andb_prop in H. destruct H as [H1 H2]. apply Pos.eqb_eq in H1. apply Z.eqb_eq in H2. subst m' e'. symmetry. exact V.
    + exfalso. destruct (Rle_lt_dec 0 (binary64 v)) as [Z|Z]; [rewrite Rabs_right in L by lra; rewrite (R2 L) in H; discriminate H|]. rewrite Rabs_left in L by lra. rewrite R3 in H by lra. discriminate H.
  - assert (L : Rabs (binary64 v) < too_large) by (rewrite H; exact B). destruct (R1 L) as [Q V]. rewrite H in V.
    destruct (f_dec c q) as [z|z| |s' m' e']; [cbn [fval] in V; lra|destruct Q as [[] _]|destruct Q as [[] _]|].
    apply (finite_unique s' m' e' false m e Q Px) in V. injection V as -> -> ->. rewrite Pos.eqb_refl, Z.eqb_refl. reflexivity.
Qed.
(** Whatever lies on the other side of a number between does no better. *)
Lemma between v w : binary64 v = X -> v <= w <= X \/ X <= w <= v -> binary64 w = X.
Proof. intros V [[H1 H2]|[H1 H2]]; apply b64_mono in H1, H2; rewrite V in *; rewrite (binary64_fix X) in * by apply X_double; lra. Qed.
Lemma k_spec : t10 k <= X < t10 (k + 1). Proof. rewrite X_frac. apply decimal_exponent_spec; apply ab_pos. Qed.
(** the two numbers with [n] digits *)
Lemma around n : let q := (k - n + 1)%Z in let (c1, c2) := candidates a b q in
  exists lo, IZR lo * t10 q <= X < (IZR lo + 1) * t10 q /\ (c1 = lo /\ c2 = lo + 1 \/ c1 = lo + 1 /\ c2 = lo)%Z /\
    Rabs (IZR c1 * t10 q - X) <= t10 q / 2 /\ Rabs (IZR c1 * t10 q - X) <= Rabs (IZR c2 * t10 q - X) /\
    ((1 <= n)%Z -> (10 ^ (n - 1) <= lo < 10 ^ n)%Z).
Proof.
  cbv zeta. set (q := (k - n + 1)%Z). destruct ab_pos as [A B]. pose proof (candidates_spec a b q A B) as C. cbv zeta in C. rewrite <- X_frac in C. destruct (candidates a b q) as [c1 c2]. destruct C as (lo & R & E & C). exists lo.
  pose proof (t10_pos q) as T. pose proof (t10_inv q) as I. set (y := X * t10 (- q)) in *. assert (Y : y * t10 q = X) by (unfold y; rewrite Rmult_assoc, I; ring).
  destruct (round_half_even_spec y) as [N _]. rewrite <- E in N.
  assert (D : forall c, Rabs (IZR c * t10 q - X) = Rabs (y - IZR c) * t10 q). { intros c. rewrite <- Y. replace (IZR c * t10 q - y * t10 q) with ((- (y - IZR c)) * t10 q) by ring. rewrite Rabs_mult, Rabs_Ropp, (Rabs_right (t10 q)) by lra. reflexivity. }
  split; [rewrite <- Y; split; [apply Rmult_le_compat_r; lra|apply Rmult_lt_compat_r; lra]|]. split; [exact C|]. rewrite !D.
  split; [apply (Rmult_le_compat_r (t10 q)) in N; lra|]. split.
  { apply Rmult_le_compat_r; [lra|]. rewrite E. apply round_nearest. }
  intros Hn. destruct k_spec as [K1 K2]. assert (Ek : t10 k = IZR (10 ^ (n - 1)) * t10 q) by (rewrite <- t10_Z by lia; rewrite <- t10_add; f_equal; unfold q; lia). assert (Ek1 : t10 (k + 1) = IZR (10 ^ n) * t10 q) by (rewrite <- t10_Z by lia; rewrite <- t10_add; f_equal; unfold q; lia).
  rewrite Ek, <- Y in K1. rewrite Ek1, <- Y in K2. apply Rmult_le_reg_r in K1; [|exact T]. apply Rmult_lt_reg_r in K2; [|exact T]. split.
  - assert (G : IZR (10 ^ (n - 1)) < IZR (lo + 1)) by (rewrite plus_IZR; lra). apply lt_IZR in G. lia.
  - assert (G : IZR lo < IZR (10 ^ n)) by lra. apply lt_IZR in G. lia.
Qed.
(** None of the two is read as the double. *)
Definition bad (n : Z) : Prop := let q := (k - n + 1)%Z in let (c1, c2) := candidates a b q in binary64 (IZR c1 * t10 q) <> X /\ binary64 (IZR c2 * t10 q) <> X.
Definition good (n c : Z) : Prop := let q := (k - n + 1)%Z in let (c1, c2) := candidates a b q in
  binary64 (IZR c * t10 q) = X /\ (c = c1 \/ c = c2 /\ binary64 (IZR c1 * t10 q) <> X).
Lemma seventeen : let q := (k - 17 + 1)%Z in binary64 (IZR (fst (candidates a b q)) * t10 q) = X.
Proof.
  cbv zeta. pose proof (around 17) as H. cbv zeta in H. set (q := (k - 17 + 1)%Z) in *. destruct (candidates a b q) as [c1 c2]. destruct H as (lo & _ & _ & H & _). cbn [fst]. apply close_reads; [apply X_double|exact X_pos|]. eapply Rle_lt_trans; [exact H|].
  destruct k_spec as [K _]. assert (E : t10 k = IZR (10 ^ 16) * t10 q) by (rewrite <- t10_Z by lia; rewrite <- t10_add; f_equal; unfold q; lia). rewrite E in K.
  assert (P : p2 (-54) * IZR (2 ^ 54) = 1) by (rewrite <- p2_Z by lia; rewrite <- RoundingProofs.pow2_add; reflexivity). pose proof (pow2_pos (-54)) as P0. pose proof (t10_pos q) as T.
  change (10 ^ 16)%Z with 10000000000000000%Z in K. change (2 ^ 54)%Z with 18014398509481984%Z in P.
  apply Rlt_le_trans with (p2 (-54) * (10000000000000000 * t10 q)); [|apply Rmult_le_compat_l; lra].
  replace (p2 (-54) * (10000000000000000 * t10 q)) with ((p2 (-54) * 10000000000000000) * t10 q) by ring. unfold Rdiv. rewrite (Rmult_comm (t10 q)). apply Rmult_lt_compat_r; lra.
Qed.
Lemma shortest_spec : forall todo n, (n + Z.of_nat todo = 17)%Z ->
  let (c, q) := shortest todo m e k n in exists j, (n <= j <= 17)%Z /\ q = (k - j + 1)%Z /\ good j c /\ forall i, (n <= i < j)%Z -> bad i.
Proof.
  induction todo as [|todo IH]; intros n N; cbn [shortest]; fold a b.
  - assert (n = 17)%Z by lia. subst n. pose proof seventeen as S. cbv zeta in S. destruct (candidates a b (k - 17 + 1)) as [c1 c2] eqn:C. exists 17%Z. split; [lia|]. split; [reflexivity|]. split; [|lia]. unfold good. rewrite C. split; [exact S|left; reflexivity].
  - destruct (candidates a b (k - n + 1)) as [c1 c2] eqn:C. destruct (reads_as m e c1 (k - n + 1)) eqn:R1; [|destruct (reads_as m e c2 (k - n + 1)) eqn:R2].
    + exists n. split; [lia|]. split; [reflexivity|]. split; [|lia]. unfold good. rewrite C. split; [apply reads_iff, R1|left; reflexivity].
    + exists n. split; [lia|]. split; [reflexivity|]. split; [|lia]. unfold good. rewrite C. split; [apply reads_iff, R2|right; split; [reflexivity|]]. intros H. apply reads_iff in H. congruence.
    + assert (N' : (n + 1 + Z.of_nat todo = 17)%Z) by lia. specialize (IH (n + 1)%Z N'). destruct (shortest todo m e k (n + 1)) as [c q]. destruct IH as (j & J & Q & G & B). exists j. split; [lia|]. split; [exact Q|]. split; [exact G|].
      intros i I. destruct (Z.eq_dec i n) as [->|D]; [|apply B; lia]. unfold bad. rewrite C. split; intros H; apply reads_iff in H; congruence.
Qed.
(** A number with at most [n] digits is not between the two. *)
Lemma outside n d p : (1 <= n)%Z -> (d < 10 ^ n)%Z -> let q := (k - n + 1)%Z in forall lo, (10 ^ (n - 1) <= lo)%Z ->
  IZR d * t10 p <= IZR lo * t10 q \/ (IZR lo + 1) * t10 q <= IZR d * t10 p.
Proof.
  intros N D q lo L. pose proof (t10_pos q) as T. pose proof (t10_pos p) as Tp. destruct (Z_le_gt_dec q p) as [H|H].
  - replace (t10 p) with (IZR (10 ^ (p - q)) * t10 q) by (rewrite <- t10_Z by lia; rewrite <- t10_add; f_equal; lia). rewrite <- Rmult_assoc, <- mult_IZR. destruct (Z_le_gt_dec (d * 10 ^ (p - q)) lo) as [G|G].
    + left. apply Rmult_le_compat_r; [lra|apply IZR_le, G].
    + right. apply Rmult_le_compat_r; [lra|]. rewrite <- plus_IZR. apply IZR_le. lia.
  - left. apply Rle_trans with (t10 k).
    + apply Rle_trans with (t10 (n + p)); [|apply t10_mono; unfold q in H; lia]. rewrite t10_add, (t10_Z n) by lia. apply Rmult_le_compat_r; [lra|]. apply IZR_le. lia.
    + replace (t10 k) with (IZR (10 ^ (n - 1)) * t10 q) by (rewrite <- t10_Z by lia; rewrite <- t10_add; f_equal; unfold q; lia). apply Rmult_le_compat_r; [lra|apply IZR_le, L].
Qed.
Lemma bad_none n d p : (1 <= n)%Z -> bad n -> (d < 10 ^ n)%Z -> binary64 (IZR d * t10 p) <> X.
Proof.
  intros N Bd D H. unfold bad in Bd. pose proof (around n) as A. cbv zeta in A. destruct (candidates a b (k - n + 1)) as [c1 c2]. destruct A as (lo & R & C & _ & _ & L). specialize (L N). destruct Bd as [B1 B2].
  assert (Q : forall c, c = c1 \/ c = c2 -> binary64 (IZR c * t10 (k - n + 1)) <> X) by (intros c [->| ->]; assumption).
  destruct (outside n d p N D lo) as [G|G]; [apply L| |].
  - apply (Q lo); [lia|]. apply (between _ _ H). left. lra.
  - apply (Q (lo + 1)%Z); [lia|]. rewrite plus_IZR. apply (between _ _ H). right. lra.
Qed.
Lemma good_nearest n c d p : (1 <= n)%Z -> good n c -> (d < 10 ^ n)%Z -> binary64 (IZR d * t10 p) = X -> Rabs (IZR c * t10 (k - n + 1) - X) <= Rabs (IZR d * t10 p - X).
Proof.
  intros N G D H. unfold good in G. pose proof (around n) as A. cbv zeta in A. set (q := (k - n + 1)%Z) in *. destruct (candidates a b q) as [c1 c2]. destruct A as (lo & R & C & _ & Nr & L). specialize (L N). destruct G as [G1 G2].
  assert (O := outside n d p N D lo (proj1 L)). fold q in O. cbv zeta in O.
  assert (Far : forall c', c' = lo /\ IZR d * t10 p <= IZR lo * t10 q \/ c' = (lo + 1)%Z /\ (IZR lo + 1) * t10 q <= IZR d * t10 p -> Rabs (IZR c' * t10 q - X) <= Rabs (IZR d * t10 p - X) /\ binary64 (IZR c' * t10 q) = X).
  { intros c' [[-> F]|[-> F]]; rewrite ?plus_IZR.
    - split; [rewrite !Rabs_left1 by lra; lra|]. apply (between _ _ H). left. lra.
    - split; [rewrite !Rabs_right by lra; lra|]. apply (between _ _ H). right. lra. }
  assert (W : exists c', (c' = c1 \/ c' = c2) /\ Rabs (IZR c' * t10 q - X) <= Rabs (IZR d * t10 p - X) /\ binary64 (IZR c' * t10 q) = X).
  { destruct O as [O|O]; [exists lo|exists (lo + 1)%Z]; (split; [lia|]); apply Far; auto. }
  destruct W as (c' & E & W1 & W2). destruct G2 as [->|[-> G2]]; destruct E as [->| ->]; lra || contradiction.
Qed.
(** The digits that are written *)
Lemma written : let (c, q) := shortest_digits m e in exists j, (1 <= j <= 17)%Z /\ (0 < c < 10 ^ j)%Z /\ (k - 17 <= q <= k + 1)%Z /\ binary64 (IZR c * t10 q) = X /\
  (forall i d p, (i < j)%Z -> (d < 10 ^ i)%Z -> binary64 (IZR d * t10 p) <> X) /\
  (forall d p, (d < 10 ^ j)%Z -> binary64 (IZR d * t10 p) = X -> Rabs (IZR c * t10 q - X) <= Rabs (IZR d * t10 p - X)).
Proof.
  unfold shortest_digits. fold a b k. pose proof (shortest_spec 16 1 eq_refl) as S. destruct (shortest 16 m e k 1) as [c q]. destruct S as (j & J & Q & G & B).
  assert (None : forall i d p, (i < j)%Z -> (d < 10 ^ i)%Z -> binary64 (IZR d * t10 p) <> X).
  { intros i d p I D. destruct (Z_le_gt_dec 1 i) as [L|L]; [apply (bad_none i); [exact L|apply B; lia|exact D]|].
    intros H. assert (D0 : (d <= 0)%Z) by (destruct (Z.eq_dec i 0) as [->|Z]; [cbn in D; lia|rewrite Z.pow_neg_r in D by lia; lia]). assert (V : IZR d * t10 p <= 0) by (pose proof (t10_pos p); apply IZR_le in D0; apply (Rmult_le_compat_r (t10 p)) in D0; lra).
    apply b64_mono in V. rewrite H, binary64_0 in V. pose proof X_pos. lra. }
  assert (Near : forall d p, (d < 10 ^ j)%Z -> binary64 (IZR d * t10 p) = X -> Rabs (IZR c * t10 q - X) <= Rabs (IZR d * t10 p - X)) by (intros d p D H; rewrite Q; apply good_nearest; [lia|exact G|exact D|exact H]).
  assert (Bc : (0 < c <= 10 ^ j)%Z /\ binary64 (IZR c * t10 q) = X).
  { unfold good in G. pose proof (around j) as A. cbv zeta in A. rewrite <- Q in *. destruct (candidates a b q) as [c1 c2]. destruct A as (lo & _ & C & _ & _ & L). destruct G as [G1 G2]. split; [|exact G1]. assert (L' := L ltac:(lia)). pose proof (Z.pow_pos_nonneg 10 (j - 1)). lia. }
  destruct Bc as [[C0 C1] Rc].
  destruct (Z.eqb_spec c 10) as [->|N].
  - assert (E : IZR 10 * t10 q = IZR 1 * t10 (q + 1)) by (rewrite t10_add; change (t10 1) with (10 * 1); ring). rewrite E in *. exists j. split; [lia|]. split; [|split; [lia|split; [exact Rc|split; assumption]]]. split; [lia|]. apply Z.lt_le_trans with (10 ^ 1)%Z; [reflexivity|apply Z.pow_le_mono_r; lia].
  - exists j. split; [lia|]. split; [|split; [lia|split; [exact Rc|split; assumption]]]. split; [exact C0|]. destruct (Z.eq_dec c (10 ^ j)) as [E|E]; [|lia]. exfalso.
    destruct (Z.eq_dec j 1) as [->|J1]; [apply N; exact E|]. apply (None 1%Z 1%Z (q + j)%Z); [lia|reflexivity|]. rewrite <- Rc, E. f_equal. rewrite t10_add, (t10_Z j) by lia. ring.
Qed.
Lemma k_bound : (-400 <= k <= 400)%Z.
Proof.
  destruct k_spec as [K1 K2]. destruct X_double as [(n & f & _ & F & E) B]. pose proof X_pos as P. rewrite Rabs_right in B by lra. split.
  - apply Z.nlt_ge. intros L. assert (Low : p2 (-1074) <= X).
    { rewrite E in *. pose proof (pow2_pos f) as Pf. assert (N : (1 <= n)%Z). { apply Z.nlt_ge. intros N. assert (N0 : IZR n <= 0) by (apply IZR_le; lia). apply (Rmult_le_compat_r (p2 f)) in N0; lra. }
      apply IZR_le in N. apply Rle_trans with (p2 f); [apply pow2_mono; exact F|]. apply (Rmult_le_compat_r (p2 f)) in N; lra. }
    assert (U : t10 (k + 1) <= t10 (-399)) by (apply t10_mono; lia).
    assert (W : t10 (-399) < p2 (-1074)). { pose proof (t10_inv 399) as I1. assert (I2 : p2 (-1074) * p2 1074 = 1) by (rewrite <- RoundingProofs.pow2_add; reflexivity).
      rewrite (t10_Z 399) in I1 by lia. rewrite (p2_Z 1074) in I2 by lia. assert (V : IZR (2 ^ 1074) < IZR (10 ^ 399)) by (apply IZR_lt; vm_compute; reflexivity). cbn [Z.opp] in I1. pose proof (t10_pos (-399)). pose proof (pow2_pos (-1074)).
      apply Rnot_le_lt. intros H1. assert (p2 (-1074) * IZR (2 ^ 1074) < t10 (-399) * IZR (10 ^ 399)); [|lra]. apply Rlt_le_trans with (p2 (-1074) * IZR (10 ^ 399)); [apply Rmult_lt_compat_l; assumption|].
      apply Rmult_le_compat_r; [apply IZR_le; apply Z.pow_nonneg; lia|exact H1]. }
    lra.
  - apply Z.nlt_ge. intros L. assert (U : t10 401 <= t10 k) by (apply t10_mono; lia). unfold too_large in B. rewrite p2_Z in B by lia. rewrite t10_Z in U by lia. assert (V : IZR (2 ^ 1024) < IZR (10 ^ 401)) by (apply IZR_lt; vm_compute; reflexivity). lra.
Qed.
End Positive.
