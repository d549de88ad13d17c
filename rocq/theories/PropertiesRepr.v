(** C117: how floats are written.  Vocabulary: SpecRepr.v. *)
From Coq Require Import Reals ZArith SpecFloat List Lia Lra.
From Verif Require Import Py PyFloat Vec StateGen Rounding SpecRounding RoundingProofs Generic SpecIEEE IEEEProofs BridgeProofs RealFacts Texts TextsProofs Repr SpecRepr ReprProofs ReprTextProofs.
From Verif Require SpecRead.
Import ListNotations.
Open Scope R_scope.

Lemma proper_abs s m e : proper (S754_finite s m e) -> proper (S754_finite false m e).
Proof. intros [F V]. split; [exact I|exact V]. Qed.
Lemma fval_sign s m e : fval (S754_finite s m e) = IZR (if s then -1 else 1) * fval (S754_finite false m e).
Proof. destruct s; cbn [fval]; ring. Qed.
Lemma repr_text s m e : proper (S754_finite s m e) -> exists j M E c q,
  py_float (py_repr (S754_finite s m e)) = Some (Dec ((if s then -1 else 1) * M) E) /\ IZR M * t10 E = IZR c * t10 q /\ (1 <= j <= 17)%Z /\ (0 < c < 10 ^ j)%Z /\
  binary64 (IZR c * t10 q) = fval (S754_finite false m e) /\
  (forall i d p, (i < j)%Z -> (d < 10 ^ i)%Z -> binary64 (IZR d * t10 p) <> fval (S754_finite false m e)) /\
  (forall d p, (d < 10 ^ j)%Z -> binary64 (IZR d * t10 p) = fval (S754_finite false m e) -> Rabs (IZR c * t10 q - fval (S754_finite false m e)) <= Rabs (IZR d * t10 p - fval (S754_finite false m e))).
Proof.
  intros P. apply proper_abs in P. pose proof (written m e P) as W. pose proof (k_bound m e P) as K. cbn [py_repr]. destruct (shortest_digits m e) as [c q]. destruct W as (j & J & C & Q & B & N1 & N2).
  assert (C18 : (0 <= c < 10 ^ Z.of_nat 18)%Z). { split; [lia|]. apply Z.lt_le_trans with (10 ^ j)%Z; [lia|]. apply Z.pow_le_mono_r; lia. }
  destruct (digit_list_spec 18 c [] ltac:(lia) C18) as (ds & E & D & S & L). rewrite app_nil_r in E. rewrite E.
  destruct (format_value s ds (q + Z.of_nat (length ds)) S) as (M & e' & T & V); [destruct ds; [cbn in L; lia|discriminate]|lia|].
  replace (q + Z.of_nat (length ds) - Z.of_nat (length ds))%Z with q in V by lia. rewrite D in V. exists j, M, e', c, q. split; [exact T|]. split; [exact V|]. split; [exact J|]. split; [exact C|]. split; [exact B|]. split; assumption.
Qed.
(** * Written and read *)
(** Written and read again a float is the same, but for the sign of a zero,
    which the model of reading (PyFloat.v) does not keep. *)
Theorem C117_read_back x : proper x -> exists y, read_float (py_repr x) = Some y /\ proper y /\ fval y = fval x /\ (fval x <> 0 -> y = x).
Proof.
  intros P. destruct x as [s|s| |s m e]; [|destruct P as [[] _]|destruct P as [[] _]|].
  - exists (S754_zero false). split; [destruct s; vm_compute; reflexivity|]. split; [split; [exact I|reflexivity]|]. split; [reflexivity|]. intros H. destruct H. reflexivity.
  - destruct (repr_text s m e P) as (j & M & E & c & q & T & V & _ & _ & B & _). unfold read_float. rewrite T. exists (k_dec Fk ((if s then -1 else 1) * M) E). split; [reflexivity|].
    pose proof (dec_ok ((if s then -1 else 1) * M) E) as (R & _). rewrite dec_t10, mult_IZR, Rmult_assoc, V in R.
    assert (B' : binary64 (IZR (if s then -1 else 1) * (IZR c * t10 q)) = fval (S754_finite s m e)).
    { rewrite fval_sign, <- B. destruct s; [replace (IZR (-1) * (IZR c * t10 q)) with (- (IZR c * t10 q)) by ring; rewrite binary64_opp; ring|rewrite !Rmult_1_l; reflexivity]. }
    rewrite B' in R. destruct (proper_double _ P) as [_ F]. destruct (R F) as [Q W]. split; [exact Q|]. split; [exact W|]. intros _. cbn [k_dec Fk].
    destruct (f_dec _ E) as [z|z| |s' m' e'].
    + exfalso. rewrite fval_sign in W. cbn [fval] in W. assert (0 < IZR (Zpos m) * p2 e) by (apply Rmult_lt_0_compat; [apply IZR_lt; lia|apply pow2_pos]). destruct s; lra.
    + destruct Q as [[] _].
    + destruct Q as [[] _].
    + exact (finite_unique _ _ _ _ _ _ Q P W).
Qed.
(** No decimal number with fewer digits is read as this float, and none with as
    many digits that is read as it is nearer to it.  17 digits are enough. *)
Theorem C117_shortest x : proper x -> fval x <> 0 -> exists r j, text_means (py_repr x) r /\ (1 <= j <= 17)%Z /\ few_digits j r /\ binary64 r = fval x /\
  (forall i r', (i < j)%Z -> few_digits i r' -> binary64 r' <> fval x) /\
  (forall r', few_digits j r' -> binary64 r' = fval x -> Rabs (r - fval x) <= Rabs (r' - fval x)).
Proof.
  intros P N. destruct x as [s|s| |s m e]; [destruct N; reflexivity|destruct P as [[] _]|destruct P as [[] _]|].
  destruct (repr_text s m e P) as (j & M & E & c & q & T & V & J & C & B & N1 & N2). rewrite (fval_sign s m e) in N |- *. set (X := fval (S754_finite false m e)) in *. set (g := (if s then -1 else 1)%Z) in *.
  assert (G : (g * g = 1)%Z /\ Z.abs g = 1%Z) by (unfold g; destruct s; split; reflexivity). destruct G as [G G1].
  assert (Gb : forall v, binary64 (IZR g * v) = IZR g * binary64 v). { intros v. unfold g. destruct s; [replace (IZR (-1) * v) with (- v) by ring; rewrite binary64_opp; ring|rewrite !Rmult_1_l; reflexivity]. }
  assert (Ga : forall v, Rabs (IZR g * v) = Rabs v) by (intros v; rewrite Rabs_mult, <- abs_IZR, G1; ring).
  assert (GG : forall v w, v = IZR g * w -> IZR g * v = w) by (intros v w ->; rewrite <- Rmult_assoc, <- mult_IZR, G; ring).
  exists (IZR g * (IZR c * t10 q)), j. split; [exists (g * M)%Z, E; split; [exact T|rewrite mult_IZR, Rmult_assoc, V; reflexivity]|]. split; [exact J|].
  split; [exists (g * c)%Z, q; split; [rewrite Z.abs_mul, G1; lia|rewrite mult_IZR; ring]|]. split; [rewrite Gb, B; reflexivity|]. split.
  - intros i r' I (d & p & D & ->) H. apply (N1 i (g * d)%Z p I).
    + assert (A : (g * d <= Z.abs (g * d))%Z) by (generalize (g * d)%Z; intros; lia). rewrite Z.abs_mul, G1 in A. lia.
    + rewrite mult_IZR, Rmult_assoc, Gb. apply GG, H.
  - intros r' (d & p & D & ->) H. rewrite <- Rmult_minus_distr_l, Ga.
    assert (D' : (g * d < 10 ^ j)%Z) by (assert (A : (g * d <= Z.abs (g * d))%Z) by (generalize (g * d)%Z; intros; lia); rewrite Z.abs_mul, G1 in A; lia).
    assert (H' : binary64 (IZR (g * d) * t10 p) = X) by (rewrite mult_IZR, Rmult_assoc, Gb; apply GG, H).
    pose proof (N2 _ _ D' H') as F. eapply Rle_trans; [exact F|]. right. rewrite <- (Ga (IZR d * t10 p - _)). f_equal. rewrite mult_IZR, Rmult_minus_distr_l, <- Rmult_assoc. f_equal. symmetry. apply GG. reflexivity.
Qed.
(** * The characters *)
Lemma digit_in d : (d < 10)%nat -> In (digit_text d) (S_ "0123456789.e+-").
Proof. intros H. do 10 (destruct d as [|d]; [vm_compute; tauto|]). lia. Qed.
Lemma text_in ds c : Forall (fun d => (d < 10)%nat) ds -> In c (text_of ds) -> In c (S_ "0123456789.e+-").
Proof. intros S I. apply in_map_iff in I. destruct I as (d & <- & I). rewrite Forall_forall in S. apply digit_in, S, I. Qed.
Lemma exponent_in x c : (-9999 <= x <= 9999)%Z -> In c (exponent_text x) -> In c (S_ "0123456789.e+-").
Proof.
  intros R I. unfold exponent_text in I. apply in_app_iff in I. destruct I as [I|I]; [destruct (x <? 0)%Z; destruct I as [<-|[]]; vm_compute; tauto|].
  assert (A : (0 <= Z.abs x < 10 ^ Z.of_nat 4)%Z) by (change (10 ^ Z.of_nat 4)%Z with 10000%Z; lia). destruct (digit_list_spec 4 (Z.abs x) [] ltac:(lia) A) as (ds & E & _ & S & _). rewrite app_nil_r in E. rewrite E in I. cbv zeta in I.
  apply (text_in (match ds with [d] => [0%nat; d] | _ => ds end)); [|exact I]. destruct ds as [|d [|d' r]]; try exact S. constructor; [lia|exact S].
Qed.
(** A finite float is written with these characters only, so without blanks,
    commas, semicolons and line ends. *)
Theorem C117_characters x c : proper x -> In c (py_repr x) -> In c (S_ "0123456789.e+-").
Proof.
  intros P I. destruct x as [s|s| |s m e]; [|destruct P as [[] _]|destruct P as [[] _]|].
  - cbn [py_repr] in I. destruct s; vm_compute in I; vm_compute; tauto.
  - apply proper_abs in P. pose proof (written m e P) as W. pose proof (k_bound m e P) as K. cbn [py_repr] in I. destruct (shortest_digits m e) as [n q]. destruct W as (j & J & C & Q & _).
    assert (C18 : (0 <= n < 10 ^ Z.of_nat 18)%Z). { split; [lia|]. apply Z.lt_le_trans with (10 ^ j)%Z; [lia|]. apply Z.pow_le_mono_r; lia. }
    destruct (digit_list_spec 18 n [] ltac:(lia) C18) as (ds & E & _ & S & L). rewrite app_nil_r in E. rewrite E in I. apply in_app_iff in I. destruct I as [I|I]; [destruct s; [destruct I as [<-|[]]; vm_compute; tauto|destruct I]|].
    assert (Z0 : forall n, Forall (fun d => (d < 10)%nat) (zeros n)) by (intros z; unfold zeros; apply Forall_forall; intros d H; apply repeat_spec in H; subst; lia).
    unfold format_short in I. destruct ((_ <=? -4)%Z || _)%bool.
    + destruct ds as [|d r]; [destruct I|]. inversion S; subst. destruct I as [<-|I]; [apply digit_in; assumption|]. apply in_app_iff in I. destruct I as [I|I].
      * destruct r as [|d' r]; [destruct I|]. destruct I as [<-|I]; [vm_compute; tauto|]. exact (text_in _ _ H2 I).
      * destruct I as [<-|I]; [vm_compute; tauto|]. eapply exponent_in; [|exact I]. lia.
    + destruct (_ <=? 0)%Z; [|destruct (_ <? _)%Z].
      * apply in_app_iff in I. destruct I as [I|I]; [vm_compute in I; vm_compute; tauto|]. eapply text_in; [|exact I]. apply Forall_app. split; [apply Z0|exact S].
      * rewrite <- (firstn_skipn (Z.to_nat (q + Z.of_nat (length ds))) ds) in S. apply Forall_app in S. destruct S as [S1 S2]. apply in_app_iff in I. destruct I as [I|[<-|I]]; [exact (text_in _ _ S1 I)|vm_compute; tauto|exact (text_in _ _ S2 I)].
      * apply in_app_iff in I. destruct I as [I|I]; [|vm_compute in I; vm_compute; tauto]. eapply text_in; [|exact I]. apply Forall_app. split; [exact S|apply Z0].
Qed.
(** Infinities and NaN are written as words, which are read as such. *)
Theorem C117_not_finite x : ~ finite x -> py_float (py_repr x) = Some NonFinite /\ In (py_repr x) [S_ "inf"; S_ "-inf"; S_ "nan"].
Proof. destruct x as [s|[]| |s m e]; intros H; try (destruct H; exact I); (split; [vm_compute; reflexivity|cbn [In py_repr]; tauto]). Qed.

(** * round(x, n) *)
Lemma canonical_small m e : SpecFloat.bounded 53 1024 m e = true -> (Zpos m < 2 ^ 53)%Z.
Proof.
  intros V. unfold SpecFloat.bounded, canonical_mantissa in V. apply andb_true_iff in V as [V1 _]. apply Zeq_bool_eq in V1. rewrite fexp_is in V1. pose proof (digits_pos m) as D.
  assert (L : (Zpos (digits2_pos m) <= 53)%Z) by lia. eapply Z.lt_le_trans; [apply D|]. apply Z.pow_le_mono_r; lia.
Qed.
Lemma round_pos n m e : let x := S754_finite false m e in proper x -> exists z, fst (candidates (numer m e) (denom e) (- Zpos n)) = z /\ (0 <= z)%Z /\
  Rabs (fval x - IZR z * t10 (- Zpos n)) <= t10 (- Zpos n) / 2 /\ (Rabs (fval x - IZR z * t10 (- Zpos n)) = t10 (- Zpos n) / 2 -> Z.even z = true) /\
  stands (f_dec z (- Zpos n)) (binary64 (IZR z * t10 (- Zpos n))).
Proof.
  intros x P. destruct (ab_pos m e) as [A B]. pose proof (candidates_spec _ _ (- Zpos n) A B) as C. cbv zeta in C. rewrite <- X_frac in C. fold x in C. pose proof (X_pos m e) as P0. fold x in P0. set (X := fval x) in *.
  destruct (candidates (numer m e) (denom e) (- Zpos n)) as [c1 c2]. cbn [fst]. destruct C as (lo & R & E & C). exists c1. split; [reflexivity|].
  set (u := t10 (- Zpos n)) in *. set (w := t10 (- - Zpos n)) in *. assert (U : u * w = 1) by (unfold u, w; rewrite Z.opp_involutive; apply (t10_inv (Zpos n))). assert (U0 : 0 < u) by apply t10_pos. assert (W0 : 0 < w) by apply t10_pos.
  assert (Y0 : 0 < X * w) by (apply Rmult_lt_0_compat; assumption).
  assert (L0 : (0 <= lo)%Z). { assert (H : IZR (-1) < IZR lo) by lra. apply lt_IZR in H. lia. }
  destruct (round_half_even_spec (X * w)) as [N1 N2]. rewrite <- E in N1, N2.
  assert (Dt : Rabs (X - IZR c1 * u) = Rabs (X * w - IZR c1) * u). { replace (X - IZR c1 * u) with ((X * w - IZR c1) * u) by (rewrite Rmult_minus_distr_r, Rmult_assoc, (Rmult_comm w), U; ring). rewrite Rabs_mult, (Rabs_right u) by lra. reflexivity. }
  split; [lia|]. rewrite Dt. split; [apply (Rmult_le_compat_r u) in N1; lra|]. split.
  { intros H. apply N2. apply Rmult_eq_reg_r with u; lra. }
  assert (F : Rabs (binary64 (IZR c1 * u)) < too_large); [|pose proof (dec_ok c1 (- Zpos n)) as [D _]; rewrite dec_t10 in D; apply D, F].
  destruct (proper_double x P) as [Dx Bx]. fold X in Dx, Bx. destruct (Z_le_gt_dec 0 e) as [G|G].
  - assert (I : X * w = IZR (Zpos m * 2 ^ e * 10 ^ Zpos n)). { unfold X, x, w. cbn [fval]. rewrite Z.opp_involutive, !mult_IZR, <- p2_Z, <- t10_Z by lia. reflexivity. }
    assert (Ec : IZR c1 * u = X). { rewrite E, I, round_integer. rewrite <- I. rewrite Rmult_assoc, (Rmult_comm w), U. ring. } rewrite Ec, binary64_fix by exact Dx. exact Bx.
  - apply Rle_lt_trans with (p2 54); [|apply p2_up; lia]. apply round_le; [lia|].
    assert (V : X < p2 53). { unfold X, x. cbn [fval]. destruct P as [_ V]. cbn [valid_binary] in V. destruct Dx as (m' & e' & M' & _ & Q). clear Q.
      assert (H : IZR (Zpos m) < p2 53). { rewrite p2_Z by lia. apply IZR_lt. exact (canonical_small _ _ V). }
      apply Rle_lt_trans with (IZR (Zpos m)); [|exact H]. rewrite <- (Rmult_1_r (IZR (Zpos m))) at 2. apply Rmult_le_compat_l; [apply IZR_le; lia|]. change 1 with (p2 0). apply pow2_mono. lia. }
    assert (u <= 1) by (change 1 with (t10 0); apply t10_mono; lia). assert (0 <= IZR c1 * u) by (apply Rmult_le_pos; [apply IZR_le; lia|lra]). apply (Rmult_le_compat_r u) in N1; [|lra]. rewrite <- Dt in N1. apply abs_le_inv in N1. rewrite Rabs_right by lra.
    assert (p2 54 = 2 * p2 53) by (change 54%Z with (1 + 53)%Z; rewrite RoundingProofs.pow2_add, p2_1; reflexivity). assert (1 <= p2 53) by (change 1 with (p2 0); apply pow2_mono; lia). lra.
Qed.
(** round(x, n) is the double nearest to [x] rounded to [n] decimals. *)
Theorem C117_round n x : proper x -> exists r, to_decimals (Zpos n) (fval x) r /\ stands (py_round n x) (binary64 r).
Proof.
  intros P. pose proof (t10_pos (- Zpos n)) as T. destruct x as [s|s| |s m e]; [|destruct P as [[] _]|destruct P as [[] _]|].
  - exists 0. split; [|rewrite binary64_0; split; [exact P|reflexivity]]. exists 0%Z. split; [ring|]. change (fval (S754_zero s)) with 0. rewrite Rminus_0_r, Rabs_R0. split; [lra|reflexivity].
  - destruct (round_pos n m e (proper_abs _ _ _ P)) as (z & E & Z0 & H1 & H2 & S). cbn [py_round]. rewrite E. rewrite (fval_sign s). set (X := fval (S754_finite false m e)) in *. set (u := t10 (- Zpos n)) in *.
    exists (IZR ((if s then -1 else 1) * z) * u). split.
    + exists ((if s then -1 else 1) * z)%Z. split; [reflexivity|]. rewrite mult_IZR, Rmult_assoc, <- Rmult_minus_distr_l, Rabs_mult. replace (Rabs (IZR (if s then -1 else 1))) with 1 by (destruct s; [rewrite <- abs_IZR; reflexivity|rewrite Rabs_R1; reflexivity]). rewrite Rmult_1_l. split; [exact H1|].
      intros H. specialize (H2 H). destruct s; [|rewrite Z.mul_1_l; exact H2]. rewrite Z.even_mul, H2. reflexivity.
    + rewrite mult_IZR, Rmult_assoc. destruct S as [Q V]. destruct (f_dec z (- Zpos n)) as [g|g| |g m' e'] eqn:F; [|destruct Q as [[] _]|destruct Q as [[] _]|].
      * split; [split; [exact I|reflexivity]|]. destruct s; [replace (IZR (-1) * (IZR z * u)) with (- (IZR z * u)) by ring; rewrite binary64_opp, <- V|rewrite Rmult_1_l, <- V]; cbn [fval]; ring.
      * destruct s.
        -- replace (IZR (-1) * (IZR z * u)) with (- (IZR z * u)) by ring. rewrite binary64_opp, <- V. split; [exact Q|]. cbn [SFopp fval]. destruct g; cbn [negb]; ring.
        -- rewrite Rmult_1_l, <- V. split; [exact Q|reflexivity].
Qed.
(** * Up to 15 digits nothing is lost *)
Lemma exponent_ex d p : (0 < d)%Z -> exists k, t10 k <= IZR d * t10 p < t10 (k + 1).
Proof.
  intros D. destruct (Z_le_gt_dec 0 p) as [G|G].
  - pose proof (Z.pow_pos_nonneg 10 p). pose proof (decimal_exponent_spec (d * 10 ^ p) 1 ltac:(apply Z.mul_pos_pos; lia) ltac:(lia)) as K. cbv zeta in K. eexists. rewrite mult_IZR, <- t10_Z in K by lia. unfold Rdiv in K. rewrite Rinv_1, Rmult_1_r in K. exact K.
  - pose proof (Z.pow_pos_nonneg 10 (- p)). pose proof (decimal_exponent_spec d (10 ^ (- p)) D ltac:(lia)) as K. cbv zeta in K. eexists. rewrite <- t10_Z in K by lia.
    replace (IZR d * t10 p) with (IZR d / t10 (- p)); [exact K|]. pose proof (t10_inv p). pose proof (t10_pos (- p)). apply Rmult_eq_reg_r with (t10 (- p)); [|lra]. unfold Rdiv. rewrite !Rmult_assoc, Rinv_l, (Rmult_comm (t10 p)), H0 by lra. ring.
Qed.
Lemma few_multiple r k : few_digits 15 r -> 0 < r -> t10 k <= r -> exists n, r = IZR n * t10 (k - 14).
Proof.
  intros (d & p & D & ->) P K. assert (p >= k - 14)%Z.
  { apply Z.le_ge, Z.nlt_ge. intros L. assert (U : IZR d * t10 p < t10 (15 + p)) by (rewrite t10_add, (t10_Z 15) by lia; apply Rmult_lt_compat_r; [apply t10_pos|apply IZR_lt; lia]).
    assert (t10 (15 + p) <= t10 k) by (apply t10_mono; lia). lra. }
  exists (d * 10 ^ (p - (k - 14)))%Z. rewrite mult_IZR, <- t10_Z by lia. rewrite Rmult_assoc, <- t10_add. do 2 f_equal. lia.
Qed.
Lemma unique_le r s : few_digits 15 r -> few_digits 15 s -> 0 < r <= s -> t10 (-100) <= r -> binary64 r = binary64 s -> r = s.
Proof.
  intros Fr Fs [P L] Low E. destruct Fr as (d & p & D & Er). assert (D0 : (0 < d)%Z). { apply Z.nle_gt. intros H. apply IZR_le in H. pose proof (t10_pos p). apply (Rmult_le_compat_r (t10 p)) in H; lra. }
  destruct (exponent_ex d p D0) as (k & K1 & K2). rewrite <- Er in K1, K2. destruct (few_multiple r k) as [a Ha]; [exists d, p; auto|exact P|exact K1|]. destruct (few_multiple s k Fs) as [b Hb]; [lra|lra|].
  destruct (Rle_lt_or_eq_dec _ _ L) as [H|H]; [exfalso|exact H]. set (g := t10 (k - 14)) in *. assert (G : 0 < g) by apply t10_pos.
  rewrite Ha, Hb in H. apply multiples_apart in H; [|exact G]. rewrite <- Ha, <- Hb in H.
  assert (K3 : t10 (k + 1) = 1000000000000000 * g). { unfold g. replace (k + 1)%Z with (15 + (k - 14))%Z by lia. rewrite t10_add, (t10_Z 15) by lia. reflexivity. } rewrite K3 in K2.
  destruct binary64_rounds as (_ & _ & B). pose proof (B r) as Br. pose proof (B s) as Bs. rewrite E in Br. rewrite (Rabs_right r) in Br by lra. rewrite (Rabs_right s) in Bs by lra. apply abs_le_inv in Br, Bs.
  assert (U : p2 (-53) * 9007199254740992 = 1) by (change 9007199254740992 with (IZR (2 ^ 53)); rewrite <- p2_Z by lia; rewrite <- RoundingProofs.pow2_add; reflexivity). set (u := p2 (-53)) in *. pose proof (pow2_pos (-53)) as U0. fold u in U0.
  assert (Eta : p2 (-1075) <= g / 100).
  { apply Rle_trans with (t10 (-120)).
    - pose proof (t10_inv 120) as I1. assert (I2 : p2 (-1075) * p2 1075 = 1) by (rewrite <- RoundingProofs.pow2_add; reflexivity). rewrite (t10_Z 120) in I1 by lia. rewrite (p2_Z 1075) in I2 by lia. cbn [Z.opp] in I1.
      assert (V : IZR (10 ^ 120) <= IZR (2 ^ 1075)) by (apply IZR_le; vm_compute; discriminate). assert (V0 : 0 < IZR (10 ^ 120)) by (apply IZR_lt; vm_compute; reflexivity). pose proof (t10_pos (-120)). pose proof (pow2_pos (-1075)).
      apply Rmult_le_reg_r with (IZR (10 ^ 120)); [exact V0|]. rewrite I1, <- I2. apply Rmult_le_compat_l; lra.
    - assert (t10 (-100) = 1000000000000000 * 100000 * t10 (-120)) by (change (-100)%Z with (20 + -120)%Z; rewrite t10_add, (t10_Z 20) by lia; rewrite <- mult_IZR; reflexivity). pose proof (t10_pos (-120)). lra. }
  assert (u * r <= u * (1000000000000000 * g)) by (apply Rmult_le_compat_l; lra). set (w := s - r). assert (W : g <= w) by (unfold w; lra). assert (u * w <= w / 100) by (unfold Rdiv; rewrite Rmult_comm; apply Rmult_le_compat_l; lra).
  assert (Eu : u * s = u * r + u * w) by (unfold w; ring). assert (u * (1000000000000000 * g) <= g * (2 / 10)) by (replace (u * (1000000000000000 * g)) with (g * (u * 1000000000000000)) by ring; apply Rmult_le_compat_l; lra). unfold w in *. lra.
Qed.
Lemma few_opp n r : few_digits n r -> few_digits n (- r).
Proof. intros (d & p & D & ->). exists (- d)%Z, p. split; [lia|rewrite opp_IZR; ring]. Qed.
Lemma unique r s : few_digits 15 r -> few_digits 15 s -> t10 (-100) <= Rabs r -> t10 (-100) <= Rabs s -> binary64 r = binary64 s -> r = s.
Proof.
  assert (A : forall r s, few_digits 15 r -> few_digits 15 s -> 0 < r -> 0 < s -> t10 (-100) <= r -> t10 (-100) <= s -> binary64 r = binary64 s -> r = s).
  { intros a b Fa Fb Pa Pb La Lb E. destruct (Rle_lt_dec a b) as [L|L]; [apply unique_le; auto; lra|]. symmetry. apply unique_le; auto; lra. }
  assert (S : forall r, t10 (-100) <= r -> 0 < binary64 r).
  { intros a H. apply b64_mono in H. eapply Rlt_le_trans; [|exact H]. apply Rlt_le_trans with (p2 (-400)); [apply pow2_pos|]. rewrite <- (binary64_fix (p2 (-400))) by (apply p2_double; lia). apply b64_mono.
    pose proof (t10_inv 100) as I1. assert (I2 : p2 (-400) * p2 400 = 1) by (rewrite <- RoundingProofs.pow2_add; reflexivity). rewrite (t10_Z 100) in I1 by lia. rewrite (p2_Z 400) in I2 by lia. cbn [Z.opp] in I1.
    assert (V : IZR (10 ^ 100) <= IZR (2 ^ 400)) by (apply IZR_le; vm_compute; discriminate). assert (V0 : 0 < IZR (10 ^ 100)) by (apply IZR_lt; vm_compute; reflexivity). pose proof (pow2_pos (-400)).
    apply Rmult_le_reg_r with (IZR (10 ^ 100)); [exact V0|]. rewrite I1, <- I2. apply Rmult_le_compat_l; lra. }
  pose proof (t10_pos (-100)) as T. intros Fr Fs Lr Ls E. destruct (Rle_lt_dec 0 r) as [Hr|Hr], (Rle_lt_dec 0 s) as [Hs|Hs].
  - rewrite Rabs_right in Lr, Ls by lra. apply A; auto; lra.
  - rewrite Rabs_right in Lr by lra. rewrite Rabs_left in Ls by lra. pose proof (S _ Lr). pose proof (S _ Ls) as X. rewrite binary64_opp in X. lra.
  - rewrite Rabs_left in Lr by lra. rewrite Rabs_right in Ls by lra. pose proof (S _ Ls). pose proof (S _ Lr) as X. rewrite binary64_opp in X. lra.
  - rewrite Rabs_left in Lr, Ls by lra. assert (- r = - s); [|lra]. apply A; auto using few_opp; try lra. rewrite !binary64_opp, E. reflexivity.
Qed.
(** Decimals with up to 15 digits are written as they are. *)
Lemma shown n z y : stands y (binary64 (IZR z * t10 (- Zpos n))) -> (Zpos n <= 90)%Z -> (Z.abs z < 10 ^ 15)%Z -> text_means (py_repr y) (IZR z * t10 (- Zpos n)).
Proof.
  intros [Py V] N Zb. pose proof (t10_pos (- Zpos n)) as T. set (r := IZR z * t10 (- Zpos n)) in *. assert (Er : r = IZR z * t10 (- Zpos n)) by reflexivity. clearbody r.
  assert (Fr : few_digits 15 r) by (exists z, (- Zpos n)%Z; auto).
  assert (Low : forall k v, (Zpos n <= 90)%Z -> v = IZR k * t10 (- Zpos n) -> k <> 0%Z -> 100000 * t10 (-100) <= Rabs v).
  { intros k v _ -> K. rewrite Rabs_mult, <- abs_IZR, (Rabs_right (t10 _)) by lra. assert (K1 : 1 <= IZR (Z.abs k)) by (apply IZR_le; lia). assert (100000 * t10 (-100) <= t10 (- Zpos n)).
    { apply Rle_trans with (t10 (-90)); [|apply t10_mono; lia]. change (-90)%Z with (10 + -100)%Z. rewrite t10_add, (t10_Z 10) by lia. change (IZR (10 ^ 10)) with 10000000000. pose proof (t10_pos (-100)). lra. }
    apply (Rmult_le_compat_r (t10 (- Zpos n))) in K1; lra. }
  destruct (Z.eq_dec z 0) as [->|Z0].
  - rewrite Rmult_0_l in Er. subst r. rewrite binary64_0 in V. destruct y as [s|s| |s m e]; [|destruct Py as [[] _]|destruct Py as [[] _]|].
    + destruct s; (exists 0%Z, (-1)%Z; split; [vm_compute; reflexivity|ring]).
    + exfalso. rewrite fval_sign in V. cbn [fval] in V. assert (0 < IZR (Zpos m) * p2 e) by (apply Rmult_lt_0_compat; [apply IZR_lt; lia|apply pow2_pos]). destruct s; lra.
  - pose proof (Low z r N Er Z0) as Lr. pose proof (t10_pos (-100)) as T1.
    assert (By : 10 * t10 (-100) <= Rabs (fval y)).
    { rewrite V. destruct binary64_rounds as (_ & _ & Br). specialize (Br r). assert (U : p2 (-53) <= / 10) by (pose proof (pow2_pos (-53)); assert (U : p2 (-53) * 9007199254740992 = 1) by (change 9007199254740992 with (IZR (2 ^ 53)); rewrite <- p2_Z by lia; rewrite <- RoundingProofs.pow2_add; reflexivity); lra).
      assert (Et : p2 (-1075) <= t10 (-100)). { pose proof (t10_inv 100) as I1. assert (I2 : p2 (-1075) * p2 1075 = 1) by (rewrite <- RoundingProofs.pow2_add; reflexivity). rewrite (t10_Z 100) in I1 by lia. rewrite (p2_Z 1075) in I2 by lia. cbn [Z.opp] in I1.
        assert (W : IZR (10 ^ 100) <= IZR (2 ^ 1075)) by (apply IZR_le; vm_compute; discriminate). assert (W0 : 0 < IZR (10 ^ 100)) by (apply IZR_lt; vm_compute; reflexivity). pose proof (pow2_pos (-1075)).
        apply Rmult_le_reg_r with (IZR (10 ^ 100)); [exact W0|]. rewrite I1, <- I2. apply Rmult_le_compat_l; lra. }
      pose proof (Rabs_triang_inv r (r - binary64 r)) as Tr. replace (r - (r - binary64 r)) with (binary64 r) in Tr by ring. rewrite Rabs_minus_sym in Br. assert (p2 (-53) * Rabs r <= / 10 * Rabs r) by (apply Rmult_le_compat_r; [apply Rabs_pos|exact U]). lra. }
    assert (Ny : fval y <> 0) by (intros E; rewrite E, Rabs_R0 in By; lra).
    destruct (C117_shortest y Py Ny) as (r2 & j & Tx & J & F2 & B2 & None & _). replace r with r2; [exact Tx|].
    assert (J15 : (j <= 15)%Z) by (apply Z.nlt_ge; intros L; apply (None 15%Z r L Fr); symmetry; exact V).
    assert (F2' : few_digits 15 r2). { destruct F2 as (d & p & D & ->). exists d, p. split; [|reflexivity]. eapply Z.lt_le_trans; [exact D|]. apply Z.pow_le_mono_r; lia. }
    apply unique; [exact F2'|exact Fr| |lra|rewrite B2, V; reflexivity].
    destruct binary64_rounds as (_ & _ & Br). specialize (Br r2). rewrite B2 in Br. assert (Et : p2 (-1075) <= t10 (-100)). { pose proof (t10_inv 100) as I1. assert (I2 : p2 (-1075) * p2 1075 = 1) by (rewrite <- RoundingProofs.pow2_add; reflexivity). rewrite (t10_Z 100) in I1 by lia. rewrite (p2_Z 1075) in I2 by lia. cbn [Z.opp] in I1.
        assert (W : IZR (10 ^ 100) <= IZR (2 ^ 1075)) by (apply IZR_le; vm_compute; discriminate). assert (W0 : 0 < IZR (10 ^ 100)) by (apply IZR_lt; vm_compute; reflexivity). pose proof (pow2_pos (-1075)).
        apply Rmult_le_reg_r with (IZR (10 ^ 100)); [exact W0|]. rewrite I1, <- I2. apply Rmult_le_compat_l; lra. }
    assert (U : p2 (-53) <= 1) by (change 1 with (p2 0); apply pow2_mono; lia). pose proof (Rabs_triang_inv (fval y) (fval y - r2)) as Tr. replace (fval y - (fval y - r2)) with r2 in Tr by ring.
    assert (p2 (-53) * Rabs r2 <= 1 * Rabs r2) by (apply Rmult_le_compat_r; [apply Rabs_pos|exact U]). lra.
Qed.
(** Rounded to [n] decimals and written a number shows these decimals, if it has
    no more than 15 digits then. *)
Theorem C117_decimals n x : proper x -> (Zpos n <= 90)%Z -> Rabs (fval x) <= t10 (14 - Zpos n) -> exists r, to_decimals (Zpos n) (fval x) r /\ text_means (py_repr (py_round n x)) r.
Proof.
  intros P N B. destruct (C117_round n x P) as (r & Tr & S). exists r. split; [exact Tr|]. destruct Tr as (z & Er & H & _). set (y := py_round n x) in *. destruct S as [Py V].
  pose proof (t10_pos (- Zpos n)) as T. assert (E14 : t10 (14 - Zpos n) = 100000000000000 * t10 (- Zpos n)) by (replace (14 - Zpos n)%Z with (14 + - Zpos n)%Z by lia; rewrite t10_add, (t10_Z 14) by lia; reflexivity).
  assert (Zb : (Z.abs z < 10 ^ 15)%Z).
  { apply lt_IZR. rewrite abs_IZR. change (IZR (10 ^ 15)) with 1000000000000000. apply Rmult_lt_reg_r with (t10 (- Zpos n)); [exact T|]. rewrite <- (Rabs_right (t10 (- Zpos n))) at 1 by lra. rewrite <- Rabs_mult, <- Er.
    replace r with (fval x - (fval x - r)) by ring. eapply Rle_lt_trans; [apply Rabs_triang|]. rewrite Rabs_Ropp. lra. }
  rewrite Er. apply shown; [rewrite <- Er; split; [exact Py|exact V]|exact N|exact Zb].
Qed.
(** * The form of the text *)
Lemma digit_list_head : forall f n acc, (1 <= f)%nat -> (0 < n < 10 ^ Z.of_nat f)%Z -> exists d r, digit_list f n acc = d :: r /\ d <> 0%nat.
Proof.
  induction f as [|f IH]; intros n acc F N; [lia|]. cbn [digit_list]. destruct (Z.ltb_spec n 10) as [L|L]; [exists (Z.to_nat n), acc; split; [reflexivity|lia]|].
  rewrite Nat2Z.inj_succ, Z.pow_succ_r in N by lia. apply IH; [destruct f; [cbn in N; lia|lia]|]. split; [apply Z.div_str_pos; lia|apply Z.div_lt_upper_bound; lia].
Qed.
Lemma decimal_range ds : Forall (fun d => (d < 10)%nat) ds -> (0 <= SpecRead.decimal ds < 10 ^ Z.of_nat (length ds))%Z.
Proof.
  induction 1 as [|d ds D S IH]; [cbn; lia|]. change (d :: ds) with ([d] ++ ds). rewrite decimal_app. change (SpecRead.decimal [d]) with (10 * 0 + Z.of_nat d)%Z. cbn [app length]. rewrite Nat2Z.inj_succ, Z.pow_succ_r by lia.
  pose proof (Z.pow_pos_nonneg 10 (Z.of_nat (length ds))). assert (0 <= (10 * 0 + Z.of_nat d) * 10 ^ Z.of_nat (length ds) <= 9 * 10 ^ Z.of_nat (length ds))%Z by (split; [apply Z.mul_nonneg_nonneg|apply Z.mul_le_mono_nonneg_r]; lia). lia.
Qed.
Lemma digit_texts d : (d < 10)%nat -> In (digit_text d) (S_ "0123456789") /\ (d <> 0%nat -> In (digit_text d) (S_ "123456789")) /\ (digit_text d = "0"%char -> d = 0%nat).
Proof. intros H. do 10 (destruct d as [|d]; [cbn; intuition (congruence || discriminate)|]). lia. Qed.
Lemma text_digits_only ds : Forall (fun d => (d < 10)%nat) ds -> ds <> [] -> digits_only (text_of ds).
Proof.
  intros S N. split; [destruct ds; [congruence|discriminate]|]. intros c I. apply in_map_iff in I. destruct I as (d & <- & Id). rewrite Forall_forall in S. exact (proj1 (digit_texts d (S d Id))).
Qed.
Lemma text_begin d r : (d < 10)%nat -> d <> 0%nat -> ~ begins_with_0 (text_of (d :: r)).
Proof. intros D N (t & E). apply N. injection E as E _. exact (proj2 (proj2 (digit_texts d D)) E). Qed.
Lemma text_end l x : (x < 10)%nat -> x <> 0%nat -> ~ ends_with_0 (text_of (l ++ [x])).
Proof. intros D N (t & E). apply N. unfold text_of in E. rewrite map_app in E. cbn [map] in E. apply app_inj_tail in E. exact (proj2 (proj2 (digit_texts x D)) (proj2 E)). Qed.
Lemma text_of_app a b : text_of (a ++ b) = text_of a ++ text_of b.
Proof. apply map_app. Qed.
Lemma zeros_small n : Forall (fun d => (d < 10)%nat) (zeros n).
Proof. apply Forall_forall. intros d I. apply repeat_spec in I. lia. Qed.
Lemma format_form d r l x decpt : Forall (fun d => (d < 10)%nat) (d :: r) -> d <> 0%nat -> d :: r = l ++ [x] -> x <> 0%nat -> (-9000 <= decpt <= 9000)%Z ->
  (((decpt <= -4 \/ 16 < decpt)%Z -> power_form (format_short (d :: r) decpt)) /\ ((-4 < decpt <= 16)%Z -> plain_form (format_short (d :: r) decpt))).
Proof.
  intros S D E X R. assert (Sx : (x < 10)%nat) by (rewrite E in S; apply Forall_app in S as [_ S]; inversion S; assumption). assert (Sd : (d < 10)%nat) by (inversion S; assumption). unfold format_short. split; intros H.
  - replace ((decpt <=? -4)%Z || (16 <? decpt)%Z) with true by (symmetry; apply Bool.orb_true_iff; rewrite Z.leb_le, Z.ltb_lt; exact H).
    set (y := (decpt - 1)%Z). assert (Y : exists s e, exponent_text y = s :: e /\ (s = "+"%char \/ s = "-"%char) /\ digits_only e /\ (2 <= length e)%nat /\ ((2 < length e)%nat -> ~ begins_with_0 e)).
    { unfold exponent_text. assert (A : (0 <= Z.abs y < 10 ^ Z.of_nat 4)%Z) by (change (10 ^ Z.of_nat 4)%Z with 10000%Z; lia). destruct (digit_list_spec 4 (Z.abs y) [] ltac:(lia) A) as (ds & E0 & _ & S0 & Ln). rewrite app_nil_r in E0.
      set (ds' := match digit_list 4 (Z.abs y) [] with [d0] => [0%nat; d0] | _ => _ end). exists (if (y <? 0)%Z then "-"%char else "+"%char), (text_of ds'). split; [destruct (y <? 0)%Z; reflexivity|]. split; [destruct (y <? 0)%Z; auto|].
      assert (Q : Forall (fun d => (d < 10)%nat) ds' /\ (2 <= length ds')%nat /\ ((2 < length ds')%nat -> ds' = ds)).
      { unfold ds'. rewrite E0. destruct ds as [|a [|b t]]; [cbn in Ln; lia| |split; [exact S0|split; [cbn; lia|reflexivity]]]. split; [constructor; [lia|exact S0]|split; [cbn; lia|cbn; lia]]. }
      destruct Q as (Q1 & Q2 & Q3). split; [apply text_digits_only; [exact Q1|destruct ds'; [cbn in Q2; lia|discriminate]]|]. unfold text_of. rewrite map_length. split; [exact Q2|]. intros G. specialize (Q3 G). rewrite Q3 in *. fold (text_of ds).
      assert (Pos : (0 < Z.abs y < 10 ^ Z.of_nat 4)%Z). { split; [|apply A]. destruct (Z.eq_dec (Z.abs y) 0) as [Z0|Z0]; [|lia]. rewrite Z0 in E0. change (digit_list 4 0 []) with [0%nat] in E0. subst ds. cbn in G. lia. }
      destruct (digit_list_head 4 (Z.abs y) [] ltac:(lia) Pos) as (a & t & Ea & Na). rewrite Ea in E0. subst ds. apply text_begin; [inversion S0; assumption|exact Na]. }
    destruct Y as (s & e & Ey & Y). exists (digit_text d), (match r with [] => [] | _ => "."%char :: text_of r end), s, e. rewrite Ey. split; [reflexivity|]. split; [exact (proj1 (proj2 (digit_texts d Sd)) D)|]. split; [|exact Y].
    destruct r as [|d' r']; [left; reflexivity|right]. exists (text_of (d' :: r')). split; [reflexivity|]. split; [apply text_digits_only; [inversion S; assumption|discriminate]|].
    destruct l as [|b l]; [discriminate|]. injection E as _ E. rewrite E. apply text_end; assumption.
  - replace ((decpt <=? -4)%Z || (16 <? decpt)%Z) with false by (symmetry; apply Bool.orb_false_iff; rewrite Z.leb_gt, Z.ltb_ge; lia).
    destruct (Z.leb_spec decpt 0) as [L|L].
    + exists (S_ "0"), (text_of (zeros (- decpt) ++ d :: r)). split; [reflexivity|]. split; [split; [discriminate|intros c [<-|[]]; cbn; auto]|]. split; [apply text_digits_only; [apply Forall_app; split; [apply zeros_small|exact S]|destruct (zeros (- decpt)); discriminate]|].
      split; [left; reflexivity|right]. rewrite E, app_assoc. apply text_end; assumption.
    + destruct (Z.ltb_spec decpt (Z.of_nat (length (d :: r)))) as [G|G].
      * set (n := Z.to_nat decpt). assert (Nn : (0 < n < length (d :: r))%nat) by (unfold n; lia). exists (text_of (firstn n (d :: r))), (text_of (skipn n (d :: r))). split; [reflexivity|].
        assert (S2 := S). rewrite <- (firstn_skipn n (d :: r)) in S2. apply Forall_app in S2 as [S1 S2]. assert (Nf : firstn n (d :: r) = d :: firstn (n - 1) r) by (destruct n; [lia|cbn; rewrite Nat.sub_0_r; reflexivity]).
        assert (Ns : skipn n (d :: r) <> []) by (intros Q; apply (f_equal (@length nat)) in Q; rewrite skipn_length in Q; cbn [length] in *; lia).
        split; [apply text_digits_only; [exact S1|rewrite Nf; discriminate]|]. split; [apply text_digits_only; [exact S2|exact Ns]|]. split; [right; rewrite Nf; apply text_begin; assumption|right].
        destruct (exists_last Ns) as (l' & x' & El). rewrite El. assert (Ex : x' = x). { rewrite <- (firstn_skipn n (d :: r)), El, app_assoc in E. apply app_inj_tail in E. exact (proj2 E). } rewrite Ex. apply text_end; assumption.
      * exists (text_of ((d :: r) ++ zeros (decpt - Z.of_nat (length (d :: r))))), (S_ "0"). split; [reflexivity|]. split; [apply text_digits_only; [apply Forall_app; split; [exact S|apply zeros_small]|discriminate]|]. split; [split; [discriminate|intros c [<-|[]]; cbn; auto]|].
        split; [right; cbn [app]; apply text_begin; assumption|left; reflexivity].
Qed.
(** Numbers from 0.0001 to 10^16 are written with a point and no exponent,
    without needless zeros; others with one digit in front of the point, if
    there is one, and an exponent of at least two digits. *)
Theorem C117_form x : proper x -> fval x <> 0 -> exists r sign body, text_means (py_repr x) r /\ py_repr x = sign ++ body /\ sign = (if Rltb (fval x) 0 then S_ "-" else []) /\
  (/ 10000 <= Rabs r < 10000000000000000 -> plain_form body) /\ (Rabs r < / 10000 \/ 10000000000000000 <= Rabs r -> power_form body).
Proof.
  intros P Nz. destruct x as [s|s| |s m e]; [destruct Nz; reflexivity|destruct P as [[] _]|destruct P as [[] _]|]. pose proof (proper_abs _ _ _ P) as P'. pose proof (written m e P') as W. pose proof (k_bound m e P') as K. pose proof (X_pos m e) as X0.
  cbn [py_repr]. destruct (shortest_digits m e) as [c q]. destruct W as (j & J & C & Q & B & N1 & _). set (X := fval (S754_finite false m e)) in *.
  assert (C18 : (0 < c < 10 ^ Z.of_nat 18)%Z). { split; [lia|]. apply Z.lt_le_trans with (10 ^ j)%Z; [lia|]. apply Z.pow_le_mono_r; lia. }
  destruct (digit_list_spec 18 c [] ltac:(lia) ltac:(lia)) as (ds & E & D & S & L). rewrite app_nil_r in E. destruct (digit_list_head 18 c [] ltac:(lia) C18) as (d & t & Ed & Nd). rewrite Ed in *. subst ds.
  destruct (exists_last (l := d :: t) ltac:(discriminate)) as (l & x & El). set (n := length (d :: t)) in *. set (decpt := (q + Z.of_nat n)%Z).
  assert (Sx : (x < 10)%nat) by (rewrite El in S; apply Forall_app in S as [_ S']; inversion S'; assumption).
  assert (Dl : SpecRead.decimal (d :: t) = (SpecRead.decimal l * 10 + Z.of_nat x)%Z) by (rewrite El, decimal_app; change (SpecRead.decimal [x]) with (10 * 0 + Z.of_nat x)%Z; cbn [length]; change (10 ^ Z.of_nat 1)%Z with 10%Z; ring). rewrite D in Dl.
  assert (Nx : x <> 0%nat).
  { intros Zx. assert (Cl : c = (SpecRead.decimal l * 10)%Z) by lia. destruct (Z_le_gt_dec j 1) as [J1|J1]; [replace j with 1%Z in C by lia; change (10 ^ 1)%Z with 10%Z in C; lia|].
    apply (N1 (j - 1)%Z (SpecRead.decimal l) (q + 1)%Z); [lia| |].
    - replace j with (Z.succ (j - 1)) in C by lia. rewrite Z.pow_succ_r in C by lia. lia.
    - rewrite <- B. f_equal. rewrite Cl, mult_IZR, t10_add, (t10_Z 1) by lia. change (IZR (10 ^ 1)) with 10. ring. }
  assert (R : IZR (10 ^ Z.of_nat (n - 1)) <= IZR c < IZR (10 ^ Z.of_nat n)).
  { rewrite <- D. change (d :: t) with ([d] ++ t). rewrite decimal_app. assert (Ht : (0 <= SpecRead.decimal t < 10 ^ Z.of_nat (length t))%Z) by (apply decimal_range; inversion S; assumption). change (SpecRead.decimal [d]) with (10 * 0 + Z.of_nat d)%Z. unfold n. cbn [length]. rewrite Nat.sub_succ, Nat.sub_0_r.
    assert (Sd : (d < 10)%nat) by (inversion S; assumption). pose proof (Z.pow_pos_nonneg 10 (Z.of_nat (length t))). split; [apply IZR_le|apply IZR_lt; rewrite Nat2Z.inj_succ, Z.pow_succ_r by lia].
    - assert (1 * 10 ^ Z.of_nat (length t) <= (10 * 0 + Z.of_nat d) * 10 ^ Z.of_nat (length t))%Z by (apply Z.mul_le_mono_nonneg_r; lia). lia.
    - assert ((10 * 0 + Z.of_nat d) * 10 ^ Z.of_nat (length t) <= 9 * 10 ^ Z.of_nat (length t))%Z by (apply Z.mul_le_mono_nonneg_r; lia). lia. }
  assert (Rg : t10 (decpt - 1) <= IZR c * t10 q < t10 decpt).
  { unfold decpt. replace (q + Z.of_nat n - 1)%Z with (Z.of_nat (n - 1) + q)%Z by (unfold n; cbn [length]; lia). rewrite (Z.add_comm q), !t10_add, !t10_Z by lia. pose proof (t10_pos q). split; [apply Rmult_le_compat_r; [lra|exact (proj1 R)]|apply Rmult_lt_compat_r; [lra|rewrite t10_Z by lia; exact (proj2 R)]]. }
  destruct (format_form d t l x decpt S Nd El Nx) as [F1 F2]; [unfold decpt, n; lia|].
  destruct (format_value s (d :: t) decpt S) as (M & e' & T & V); [discriminate|unfold decpt, n; lia|]. fold n in V. replace (decpt - Z.of_nat n)%Z with q in V by (unfold decpt; lia). rewrite D in V.
  exists (IZR ((if s then -1 else 1) * M) * t10 e'), (sgn s), (format_short (d :: t) decpt). split; [exists ((if s then -1 else 1) * M)%Z, e'; split; [exact T|reflexivity]|]. split; [reflexivity|].
  split. { unfold Rltb, sgn. rewrite fval_sign. fold X. destruct s; destruct (Rlt_dec _ 0); try reflexivity; exfalso; lra. }
  assert (Ar : Rabs (IZR ((if s then -1 else 1) * M) * t10 e') = IZR c * t10 q).
  { rewrite mult_IZR, Rmult_assoc, V, Rabs_mult, (Rabs_right (IZR c * t10 q)). - destruct s; [rewrite <- abs_IZR|rewrite Rabs_R1]; cbn; ring. - pose proof (t10_pos (decpt - 1)). lra. } rewrite Ar.
  assert (T16 : t10 16 = 10000000000000000) by (rewrite t10_Z by lia; reflexivity). assert (T4 : t10 (-4) = / 10000) by (pose proof (t10_inv 4) as I4; rewrite (t10_Z 4) in I4 by lia; cbn [Z.opp] in I4; change (IZR (10 ^ 4)) with 10000 in I4; lra).
  split.
  - intros [A1 A2]. apply F2. rewrite <- T16 in A2. rewrite <- T4 in A1. split.
    + apply Z.nle_gt. intros G. assert (t10 decpt <= t10 (-4)) by (apply t10_mono; exact G). lra.
    + apply Z.nlt_ge. intros G. assert (t10 16 <= t10 (decpt - 1)) by (apply t10_mono; lia). lra.
  - intros A. apply F1. rewrite <- T16, <- T4 in A. destruct A as [A|A].
    + left. apply Z.nlt_ge. intros G. assert (t10 (-4) <= t10 (decpt - 1)) by (apply t10_mono; lia). lra.
    + right. apply Z.nle_gt. intros G. assert (t10 decpt <= t10 16) by (apply t10_mono; exact G). lra.
Qed.
(** Zeros keep their sign. *)
Theorem C117_zero s : py_repr (S754_zero s) = (if s then S_ "-0.0" else S_ "0.0") /\ plain_form (S_ "0.0").
Proof.
  assert (Z : digits_only (S_ "0")) by (split; [discriminate|intros c [<-|[]]; left; reflexivity]).
  split; [destruct s; reflexivity|]. exists (S_ "0"), (S_ "0"). split; [reflexivity|]. split; [exact Z|]. split; [exact Z|]. split; left; reflexivity.
Qed.
(** Rounding keeps the sign, also of a number that is rounded to zero: round(-1e-9, 8) is -0.0. *)
Definition negative (x : spec_float) : bool := match x with S754_zero s | S754_infinity s | S754_finite s _ _ => s | S754_nan => false end.
Theorem C117_round_sign n x : proper x -> negative (py_round n x) = negative x.
Proof.
  intros P. destruct x as [s|s| |s m e]; try reflexivity. destruct (round_pos n m e (proper_abs _ _ _ P)) as (z & E & Z0 & _ & _ & Q & V). cbn [py_round]. rewrite E.
  destruct (f_dec z (- Zpos n)) as [g|g| |g m' e']; [reflexivity|destruct Q as [[] _]|destruct Q as [[] _]|]. destruct g; [|destruct s; reflexivity]. exfalso.
  assert (0 <= binary64 (IZR z * t10 (- Zpos n))) by (apply binary64_nonneg, Rmult_le_pos; [apply IZR_le; exact Z0|apply Rlt_le, t10_pos]). rewrite <- V, fval_sign in H. assert (0 < fval (S754_finite false m' e')) by (cbn [fval]; apply Rmult_lt_0_compat; [apply IZR_lt; reflexivity|apply pow2_pos]). cbn iota in H. lra.
Qed.
(** * Concrete numbers *)
(** What CPython writes for 0.1 + 0.2, 1e23, 2**-44, the least and the greatest double, -3.0, 1e-05, 0.0001, 123456.789 and 1e16. *)
Example C117_case_texts : map py_repr [SFadd 53 1024 (f_dec 1 (-1)) (f_dec 2 (-1)); f_dec 1 23; S754_finite false 4503599627370496 (-96); S754_finite false 1 (-1074); S754_finite false 9007199254740991 971;
    f_dec (-3) 0; f_dec 1 (-5); f_dec 1 (-4); f_dec 123456789 (-3); f_dec 1 16; S754_zero true] =
  [S_ "0.30000000000000004"; S_ "1e+23"; S_ "5.684341886080802e-14"; S_ "5e-324"; S_ "1.7976931348623157e+308"; S_ "-3.0"; S_ "1e-05"; S_ "0.0001"; S_ "123456.789"; S_ "1e+16"; S_ "-0.0"].
Proof. vm_compute. reflexivity. Qed.
(** round(2.675, 2) is 2.67: the double below 2.675; round(0.125, 2) and round(-0.375, 2): halves; round(x, 8) as in the Abaqus file. *)
Example C117_case_rounds : map (fun x => py_repr (py_round (fst x) (snd x))) [(2%positive, f_dec 2675 (-3)); (2%positive, f_dec 125 (-3)); (2%positive, f_dec (-375) (-3)); (8%positive, SFadd 53 1024 (f_dec 1 (-1)) (f_dec 2 (-1))); (8%positive, f_dec (-1) (-9))] =
  [S_ "2.67"; S_ "0.12"; S_ "-0.38"; S_ "0.3"; S_ "-0.0"].
Proof. vm_compute. reflexivity. Qed.
Example C117_case_proper : proper (f_dec 2675 (-3)) /\ fval (f_dec 2675 (-3)) <> 0 /\ Rabs (fval (f_dec 2675 (-3))) <= t10 (14 - 8).
Proof.
  assert (E : f_dec 2675 (-3) = S754_finite false 6023564501608038 (-51)) by (vm_compute; reflexivity). rewrite E. split; [split; [exact I|vm_compute; reflexivity]|]. cbn [fval].
  assert (p2 (-51) * IZR (2 ^ 51) = 1) by (rewrite <- p2_Z by lia; rewrite <- RoundingProofs.pow2_add; reflexivity). change (IZR (2 ^ 51)) with 2251799813685248 in H. pose proof (pow2_pos (-51)).
  split; [lra|]. rewrite (t10_Z (14 - 8)) by lia. change (IZR (10 ^ (14 - 8))) with 1000000. rewrite Rabs_right; lra.
Qed.

Print Assumptions C117_read_back.
Print Assumptions C117_shortest.
Print Assumptions C117_characters.
Print Assumptions C117_not_finite.
Print Assumptions C117_round.
Print Assumptions C117_decimals.
Print Assumptions C117_form.
Print Assumptions C117_zero.
Print Assumptions C117_round_sign.
