(** C118: the Abaqus file written with doubles.  Vocabulary: SpecGenericTexts.v. *)
From Coq Require Import Reals ZArith SpecFloat List Lia Lra.
From Verif Require Import Py PyFloat Vec Segment StateGen Junction Planner Interp Query Abaqus Rounding SpecRounding RoundingProofs Generic SpecGeneric GenericProofs SpecKin SpecQuery SpecIEEE IEEEProofs PropertiesIEEE SpecBridge GenericQuery SpecGenericQuery
  PropertiesFloat BridgeProofs StrFacts RealFacts QueryFloatProofs BridgeRunProofs PropertiesBridge Texts SpecTexts TextsProofs Repr SpecRepr ReprProofs ReprTextProofs PropertiesRepr PropertiesGenericQuery GenericTexts SpecGenericTexts.
Import ListNotations.
Open Scope R_scope.

(** * With exact numbers it is the series of Abaqus.v *)
Definition toevent (e : gevent Rk) : event := Event (gev_t Rk e) (gev_x Rk e) (gev_y Rk e) (gev_z Rk e) (gev_flag Rk e).
Lemma flags_R tol : forall es, gextrusion_flags Rk tol es = extrusion_flags tol es.
Proof. induction es as [|e [|e' es] IH]; [reflexivity|reflexivity|]. change (gextrusion_flags Rk tol (e :: e' :: es)) with ((if Rltb tol (e' - e) then 1%nat else 0%nat) :: gextrusion_flags Rk tol (e' :: es)). rewrite IH. reflexivity. Qed.
Lemma events_R c : forall ts ps fs, map toevent (gmake_events Rk c ts (combine ps fs)) = make_events c ts (combine (map to4 ps) fs).
Proof. induction ts as [|t ts IH]; intros [|p ps] [|f fs]; try reflexivity. cbn [combine gmake_events make_events map]. rewrite IH. reflexivity. Qed.
Theorem C118_exact_numbers s tol unit : rmap (map toevent) (ggenerate_abaqus_event_series Rk s tol unit) = generate_abaqus_event_series (tosim s) tol unit.
Proof.
  unfold ggenerate_abaqus_event_series, generate_abaqus_event_series. cbn [tosim blocklist]. rewrite <- unpack_R. destruct (gunpack_blocklist Rk (gblocklist Rk s)) as [|g path]; [reflexivity|]. cbn [map first_seg bind].
  rewrite <- factor_R. destruct (gget_scaling_factor Rk s unit) as [c|]; [|reflexivity]. cbn [bind rmap]. f_equal. rewrite events_R, flags_R. cbn [map]. rewrite !map_map. reflexivity.
Qed.

(** * Coordinates *)
Lemma eta_tiny : eta <= tiny / 10.
Proof.
  unfold tiny. pose proof eta_bound as Q. pose proof eta_pos. assert (10 ^ 101 <= 10 ^ 225) by (apply Rle_pow; [lra|lia]). assert (T : 0 < 10 ^ 100) by (apply pow_lt; lra).
  assert (E : 10 ^ 101 = 10 * 10 ^ 100) by (rewrite <- tech_pow_Rmult; reflexivity). apply Rmult_le_reg_r with (10 * 10 ^ 100); [lra|]. unfold Rdiv. replace (/ 10 ^ 100 * / 10 * (10 * 10 ^ 100)) with 1 by (field; lra). rewrite <- E.
  eapply Rle_trans; [|exact Q]. apply Rmult_le_compat_l; lra.
Qed.
Lemma scaled_one k c r x : 0 < k -> sb 1 c r -> Rabs (r - / k) <= 2 * uu * / k + uu / 1000 * / k -> sb 800 x (fval x) ->
  proper (k_mul Fk c x) /\ Rabs (fval (k_mul Fk c x) - fval x / k) <= 4 * uu * Rabs (fval x / k) + eta.
Proof.
  intros K C Hr X. destruct (sb_mul 1 800 c x r (fval x) C X eq_refl) as [[P E] _]. split; [exact P|]. rewrite E. cbn [Bk k_mul]. pose proof (b64_err (r * fval x)) as B. rewrite (Rmult_comm r) in *.
  assert (u0 : 0 < uu < / 1000) by (unfold uu; lra). assert (I0 : 0 < / k) by (apply Rinv_0_lt_compat; lra).
  assert (M : Rabs (fval x * r - fval x / k) <= (2 * uu + uu / 1000) * Rabs (fval x / k)).
  { replace (fval x * r - fval x / k) with (fval x * (r - / k)) by (unfold Rdiv; ring). unfold Rdiv. rewrite !Rabs_mult, (Rabs_right (/ k)) by lra.
    eapply Rle_trans; [apply Rmult_le_compat_l; [apply Rabs_pos|exact Hr]|]. right. unfold Rdiv. ring. }
  pose proof (Rabs_pos (fval x / k)) as Z. 
  assert (N : Rabs (fval x * r) <= (1 + 3 * uu) * Rabs (fval x / k)).
  { replace (fval x * r) with ((fval x * r - fval x / k) + fval x / k) by ring. eapply Rle_trans; [apply Rabs_triang|]. assert (0 <= uu * Rabs (fval x / k)) by (apply Rmult_le_pos; lra). lra. }
  replace (binary64 (fval x * r) - fval x / k) with ((binary64 (fval x * r) - fval x * r) + (fval x * r - fval x / k)) by ring. eapply Rle_trans; [apply Rabs_triang|].
  assert (uu * Rabs (fval x * r) <= uu * ((1 + 3 * uu) * Rabs (fval x / k))) by (apply Rmult_le_compat_l; lra).
  assert (uu * (3 * uu * Rabs (fval x / k)) <= uu * (/ 100 * Rabs (fval x / k))) by (apply Rmult_le_compat_l; [lra|]; apply Rmult_le_compat_r; lra). assert (0 <= uu * Rabs (fval x / k)) by (apply Rmult_le_pos; lra). lra.
Qed.
Lemma int_double z : (Z.abs z < 2 ^ 53)%Z -> binary64 (IZR z) = IZR z.
Proof. intros H. apply binary64_fix. exists z, 0%Z. split; [lia|]. split; [lia|]. cbn. lra. Qed.
Lemma int_fits z : (Z.abs z < 2 ^ 53)%Z -> Rabs (IZR z) < too_large.
Proof. intros H. apply Rlt_le_trans with (IZR (2 ^ 53)); [rewrite <- abs_IZR; apply IZR_lt; exact H|]. rewrite <- p2_Z by lia. left. apply p2_up. lia. Qed.
Lemma rint_spec x : proper x -> Rabs (fval x) <= 1000000000000000 -> exists z, stands (rint x) (IZR z) /\ Rabs (fval x - IZR z) <= / 2 /\ (Z.abs z < 2 ^ 51)%Z.
Proof.
  intros P B. assert (Small : forall z, Rabs (fval x - IZR z) <= / 2 -> (Z.abs z < 2 ^ 51)%Z).
  { intros z H. apply lt_IZR. rewrite abs_IZR. replace (IZR z) with (fval x - (fval x - IZR z)) by ring. eapply Rle_lt_trans; [apply Rabs_triang|]. rewrite Rabs_Ropp. change (IZR (2 ^ 51)) with 2251799813685248. lra. }
  assert (A : exists z, stands (rint x) (IZR z) /\ Rabs (fval x - IZR z) <= / 2); [|destruct A as (z & S & H); exists z; auto].
  destruct x as [s|s| |s m e]; [exists 0%Z; split; [split; [exact P|reflexivity]|]; cbn [fval]; rewrite Rminus_0_r, Rabs_R0; lra|destruct P as [[] _]|destruct P as [[] _]|].
  cbn [rint]. destruct (Z.leb_spec 0 e) as [G|G].
  - exists ((if s then -1 else 1) * (Zpos m * 2 ^ e))%Z. assert (E : fval (S754_finite s m e) = IZR ((if s then -1 else 1) * (Zpos m * 2 ^ e))) by (rewrite fval_sign, !mult_IZR, <- p2_Z by lia; cbn [fval]; ring).
    split; [split; [exact P|exact E]|]. rewrite E, Rminus_eq_0, Rabs_R0. lra.
  - destruct (ab_pos m e) as [A1 A2]. pose proof (candidates_spec _ _ 0 A1 A2) as C. cbv zeta in C. rewrite <- X_frac in C. cbn [Z.opp] in C. change (t10 0) with 1 in C. rewrite Rmult_1_r in C. pose proof (X_pos m e) as P0.
    set (X := fval (S754_finite false m e)) in *. destruct (candidates (numer m e) (denom e) 0) as [c1 c2]. cbn [fst]. destruct C as (lo & R & E & _). destruct (round_half_even_spec X) as [N1 _]. rewrite <- E in N1.
    assert (Bx : Rabs (fval (S754_finite s m e)) = X) by (rewrite fval_sign; fold X; rewrite Rabs_mult, (Rabs_right X) by lra; destruct s; [rewrite <- abs_IZR|rewrite Rabs_R1]; cbn; ring). rewrite Bx in B.
    assert (C0 : (Z.abs c1 < 2 ^ 53)%Z). { apply lt_IZR. rewrite abs_IZR. replace (IZR c1) with (X - (X - IZR c1)) by ring. eapply Rle_lt_trans; [apply Rabs_triang|]. rewrite Rabs_Ropp, (Rabs_right X) by lra. change (IZR (2 ^ 53)) with 9007199254740992. lra. }
    assert (S : stands (f_dec c1 0) (IZR c1)). { pose proof (dec_ok c1 0) as [D _]. rewrite dec_t10 in D. change (t10 0) with 1 in D. rewrite Rmult_1_r, int_double in D by exact C0. apply D. apply int_fits, C0. }
    exists ((if s then -1 else 1) * c1)%Z. split.
    + rewrite mult_IZR. destruct S as [Q V]. destruct (f_dec c1 0) as [g|g| |g m' e'] eqn:F; [|destruct Q as [[] _]|destruct Q as [[] _]|].
      * split; [split; [exact I|reflexivity]|]. rewrite <- V. cbn [fval]. ring.
      * destruct s; [|rewrite Rmult_1_l; split; assumption]. rewrite <- V. split; [exact Q|]. cbn [SFopp fval]. destruct g; cbn [negb]; ring.
    + rewrite fval_sign, mult_IZR. fold X. rewrite <- Rmult_minus_distr_l, Rabs_mult. replace (Rabs (IZR (if s then -1 else 1))) with 1 by (destruct s; [rewrite <- abs_IZR; reflexivity|rewrite Rabs_R1; reflexivity]). lra.
Qed.
Lemma hundred : k_dec D64 1 8 = 100000000.
Proof. cbn [Bk k_dec]. rewrite dec_t10, (t10_Z 8), <- mult_IZR by lia. apply int_double. reflexivity. Qed.
Lemma t8 z : IZR z * t10 (-8) = IZR z / 100000000.
Proof. pose proof (t10_inv 8) as I. rewrite (t10_Z 8) in I by lia. change (IZR (10 ^ 8)) with 100000000 in I. cbn [Z.opp] in I. unfold Rdiv. f_equal. apply Rmult_eq_reg_r with 100000000; lra. Qed.
Lemma np_spec x : proper x -> Rabs (fval x) <= 1000000 -> exists z, stands (np_round8 x) (binary64 (IZR z * t10 (-8))) /\ (Z.abs z < 10 ^ 15)%Z /\ Rabs (IZR z / 100000000 - fval x) <= / 200000000 + uu * Rabs (fval x) + eta.
Proof.
  intros P B. assert (X : sb 20 x (fval x)) by (constructor; [split; [exact P|reflexivity]|]; rewrite p2_Z by lia; change (IZR (2 ^ 20)) with 1048576; lra).
  assert (H : sb 27 (k_dec Fk 1 8) (k_dec D64 1 8)) by (apply sb_dec; [|reflexivity]; rewrite dec_t10, (t10_Z 8), <- mult_IZR, p2_Z by lia; rewrite <- abs_IZR; apply IZR_le; vm_compute; discriminate).
  pose proof (sb_mul 20 27 _ _ _ _ X H eq_refl) as Y. rewrite hundred in *. set (y := k_mul Fk x (k_dec Fk 1 8)) in *. destruct Y as [[Py V] _]. cbn [Bk k_mul] in V. pose proof (b64_err (fval x * 100000000)) as Br. rewrite <- V in Br.
  rewrite Rabs_mult, (Rabs_right 100000000) in Br by lra. pose proof (Rabs_pos (fval x)). pose proof eta_tiny as Et. assert (tiny <= 1) by (unfold tiny; rewrite <- Rinv_1; apply Rinv_le_contravar; [lra|apply pow_R1_Rle; lra]). assert (U : 0 < uu < / 1000000000) by (unfold uu; lra).
  assert (U1 : uu * (Rabs (fval x) * 100000000) <= / 1000000000 * (Rabs (fval x) * 100000000)) by (apply Rmult_le_compat_r; lra).
  assert (By : Rabs (fval y) <= 1000000000000000 / 2). { replace (fval y) with ((fval y - fval x * 100000000) + fval x * 100000000) by ring. eapply Rle_trans; [apply Rabs_triang|]. rewrite Rabs_mult, (Rabs_right 100000000) by lra. lra. }
  destruct (rint_spec y Py) as (z & [Pz Vz] & Nz & Bz); [lra|]. exists z.
  assert (Z51 : sb 51 (rint y) (IZR z)) by (constructor; [split; assumption|rewrite <- abs_IZR, p2_Z by lia; apply IZR_le; lia]).
  pose proof (sb_div 51 27 26 _ _ _ _ Z51 H) as D. destruct D as [D _]; [constructor; rewrite p2_Z, Rabs_right by (lia || lra); change (IZR (2 ^ 26)) with 67108864; lra|reflexivity|].
  split; [rewrite t8; exact D|]. split.
  - apply lt_IZR. rewrite abs_IZR. replace (IZR z) with (fval y - (fval y - IZR z)) by ring. eapply Rle_lt_trans; [apply Rabs_triang|]. rewrite Rabs_Ropp. change (IZR (10 ^ 15)) with 1000000000000000. lra.
  - apply Rmult_le_reg_r with 100000000; [lra|]. rewrite <- (Rabs_right 100000000) at 2 by lra. rewrite <- Rabs_mult. replace ((IZR z / 100000000 - fval x) * 100000000) with (- (fval y - IZR z) + (fval y - fval x * 100000000)) by field.
    eapply Rle_trans; [apply Rabs_triang|]. rewrite Rabs_Ropp. pose proof eta_pos. lra.
Qed.
Lemma coordinate np i j k c r x : 0 < k -> sb 1 c r -> Rabs (r - / k) <= 2 * uu * / k + uu / 1000 * / k -> proper x -> Rabs (fval x) <= 999999 * k -> k <= 1000000 ->
  shows (py_repr (round_8 np i j (k_mul Fk c x))) (fval x / k) /\ proper (round_8 np i j (k_mul Fk c x)) /\ proper (k_mul Fk c x) /\ Rabs (fval (k_mul Fk c x) - fval x / k) <= 4 * uu * Rabs (fval x / k) + tiny.
Proof.
  intros K C Hr P B K1. assert (X : sb 800 x (fval x)).
  { constructor; [split; [exact P|reflexivity]|]. apply Rle_trans with (p2 100); [|apply pow2_mono; lia]. rewrite p2_Z by lia. assert (IZR (10 ^ 30) <= IZR (2 ^ 100)) by (apply IZR_le; vm_compute; discriminate). change (IZR (10 ^ 30)) with 1000000000000000000000000000000 in *. lra. }
  destruct (scaled_one k c r x K C Hr X) as [Py E]. set (y := k_mul Fk c x) in *. set (a := fval x / k) in *. pose proof eta_tiny as Et. pose proof eta_pos as E0. assert (U : 0 < uu < / 1000000000) by (unfold uu; lra).
  assert (T1 : 0 < tiny <= / 1000000000). { unfold tiny. split; [apply Rinv_0_lt_compat, pow_lt; lra|]. apply Rinv_le_contravar; [lra|]. apply Rle_trans with (10 ^ 9); [lra|apply Rle_pow; [lra|lia]]. }
  assert (A : Rabs a <= 999999). { unfold a, Rdiv. rewrite Rabs_mult, (Rabs_right (/ k)) by (apply Rle_ge; left; apply Rinv_0_lt_compat; exact K). apply Rmult_le_reg_r with k; [exact K|]. rewrite Rmult_assoc, Rinv_l by lra. lra. }
  pose proof (Rabs_pos a) as A0. assert (UA : uu * Rabs a <= / 1000000000 * Rabs a) by (apply Rmult_le_compat_r; lra).
  assert (Y : Rabs (fval y) <= Rabs a + 4 * uu * Rabs a + eta). { replace (fval y) with ((fval y - a) + a) by ring. eapply Rle_trans; [apply Rabs_triang|]. lra. }
  assert (Y1 : Rabs (fval y) <= 1000000) by lra.
  split; [|split; [|split; [exact Py|lra]]].
  - unfold round_8. destruct (np i j).
    + destruct (np_spec y Py Y1) as (z & S & Zb & D). exists z. split; [rewrite <- t8; apply (shown 8 z); [exact S|lia|exact Zb]|].
      replace (IZR z / 100000000 - a) with ((IZR z / 100000000 - fval y) + (fval y - a)) by ring. eapply Rle_trans; [apply Rabs_triang|]. assert (uu * Rabs (fval y) <= uu * (2 * Rabs a + eta)) by (apply Rmult_le_compat_l; lra). assert (uu * eta <= eta) by (rewrite <- (Rmult_1_l eta) at 2; apply Rmult_le_compat_r; lra). lra.
    + destruct (C117_decimals 8 y Py) as (q & (z & Ez & D & _) & T); [lia|rewrite (t10_Z (14 - 8)) by lia; exact Y1|].
      change (powerRZ 10 (- Zpos 8)) with (t10 (-8)) in *. rewrite t8 in Ez. exists z. rewrite <- Ez. split; [exact T|].
      replace (q - a) with (- (fval y - q) + (fval y - a)) by ring. eapply Rle_trans; [apply Rabs_triang|]. rewrite Rabs_Ropp. pose proof (t8 1) as T8. rewrite Rmult_1_l in T8. rewrite T8 in D. assert (0 <= uu * Rabs a) by (apply Rmult_le_pos; lra). lra.
  - unfold round_8. destruct (np i j); [destruct (np_spec y Py Y1) as (z & [S _] & _); exact S|]. destruct (C117_round 8 y Py) as (q & _ & S & _). exact S.
Qed.

(** * Flags *)
Lemma flag_one tol e e' : proper tol -> proper e -> proper e' -> Rabs (fval e) <= 2 ^ 100 -> Rabs (fval e') <= 2 ^ 100 ->
  if k_ltb Fk tol (k_sub Fk e' e) then fval tol < fval e' - fval e else fval e' - fval e <= fval tol + 2 * uu * Rabs (fval tol) + tiny.
Proof.
  intros Pt P P' B B'. assert (W : forall x, proper x -> Rabs (fval x) <= 2 ^ 100 -> sb 100 x (fval x)) by (intros x Px Bx; constructor; [split; [exact Px|reflexivity]|rewrite <- p100; exact Bx]).
  destruct (sb_sub 100 100 e' e _ _ (W _ P' B') (W _ P B) eq_refl) as [[Q V] _]. cbn [Bk k_sub] in V. rewrite ltb_num by assumption. rewrite V. set (d := fval e' - fval e) in *. set (t := fval tol) in *.
  destruct (proper_double tol Pt) as [Dt _]. fold t in Dt. assert (Ft : binary64 t = t) by (apply binary64_fix; exact Dt). pose proof (b64_err d) as Er. apply abs_le_inv in Er. pose proof eta_tiny. pose proof eta_pos. assert (U : 0 < uu < / 1000) by (unfold uu; lra).
  assert (T0 : 0 < tiny) by (unfold tiny; apply Rinv_0_lt_compat, pow_lt; lra). pose proof (Rabs_pos t).
  unfold Rltb. destruct (Rlt_dec t (binary64 d)) as [L|L].
  - destruct (Rlt_le_dec t d) as [G|G]; [exact G|]. apply b64_mono in G. lra.
  - apply Rnot_lt_le in L. destruct (Rle_lt_dec d t) as [G|G]; [assert (0 <= uu * Rabs t) by (apply Rmult_le_pos; lra); lra|]. destruct (Rle_lt_dec 0 d) as [Z|Z].
    + assert (Z' : 0 <= binary64 d) by (rewrite <- binary64_0; apply b64_mono; exact Z). rewrite (Rabs_right d) in Er by lra. rewrite (Rabs_right t) by lra.
      assert (uu * d <= / 1000 * d) by (apply Rmult_le_compat_r; lra). assert (D2 : d <= 2 * t + 2 * eta) by lra. assert (uu * d <= uu * (2 * t + 2 * eta)) by (apply Rmult_le_compat_l; lra). assert (uu * eta <= / 1000 * eta) by (apply Rmult_le_compat_r; lra). lra.
    + rewrite (Rabs_left d) in Er by lra. rewrite (Rabs_left t) by lra. assert (uu * - d <= uu * - t) by (apply Rmult_le_compat_l; lra). assert (0 <= uu * - t) by (apply Rmult_le_pos; lra). lra.
Qed.

(** * The file *)
Definition point : Type := (spec_float * gvec Fk)%type.
Definition num_point (q : point) : R * vec4 := (fval (fst q), num_vec (snd q)).
Definition written_events (c tol : spec_float) (ps : list point) : list (gevent Fk) :=
  gmake_events Fk c (map fst ps) (combine (map snd ps) (gextrusion_flags Fk tol (map (ge Fk) (map snd ps)))).
Definition good_point (k : R) (q : point) : Prop := proper (fst q) /\ proper_vec (snd q) /\ reachable k (num_vec (snd q)).
Definition event_says (k : R) (e : gevent Fk) (q : point) (f : str) : Prop :=
  gev_t Fk e = fst q /\ let near b a := Rabs (fval b - a / k) <= 4 * uu * Rabs (a / k) + tiny in
  near (gev_x Fk e) (vx (num_vec (snd q))) /\ near (gev_y Fk e) (vy (num_vec (snd q))) /\ near (gev_z Fk e) (vz (num_vec (snd q))) /\ f = int_text (gev_flag Fk e).
Lemma repr_free x c : proper x -> In c (S_ ",") \/ c = "010"%char -> ~ In c (py_repr x).
Proof. intros P H I. apply C117_characters in I; [|exact P]. destruct H as [[<-|[]]| ->]; cbn in I; intuition discriminate. Qed.
Lemma all_lines np k c r tol : 0 < k <= 1000000 -> sb 1 c r -> Rabs (r - / k) <= 2 * uu * / k + uu / 1000 * / k -> proper tol -> forall ps i, Forall (good_point k) ps ->
  (i = 0%nat -> match ps with [] => True | q :: _ => fval (fst q) = 0 end) ->
  exists ls, float_lines np i (written_events c tol ps) = concat (map (fun l => l ++ newline) ls) /\ Forall (fun t => ~ In "010"%char t) ls /\ length ls = length ps /\ length (written_events c tol ps) = length ps /\
    forall j q, nth_error ps j = Some q -> exists l e, nth_error ls j = Some l /\ nth_error (written_events c tol ps) j = Some e /\
      exists a b x d f, split ","%char l = [a; b; x; d; f] /\ reads_back a (fval (fst q)) /\ shows b (vx (num_vec (snd q)) / k) /\ shows x (vy (num_vec (snd q)) / k) /\ shows d (vz (num_vec (snd q)) / k) /\
        flag_right (fval tol) f (ve (num_vec (snd q))) (option_map num_point (nth_error ps (S j))) /\ event_says k e q f.
Proof.
  intros K C Hr Pt. induction ps as [|q ps IH]; intros i G Z.
  - exists []. split; [reflexivity|]. split; [constructor|]. split; [reflexivity|]. split; [reflexivity|]. intros [|j] q; discriminate.
  - inversion_clear G as [|? ? Gq Gs]. destruct (IH (S i) Gs ltac:(discriminate)) as (ls & E & N & L & L' & H). clear IH.
    destruct q as [t p]. destruct Gq as (Ptm & (P1 & P2 & P3 & P4) & (B1 & B2 & B3 & B4)). cbn [fst snd] in *.
    set (fl := match ps with [] => 0%nat | (_, p') :: _ => if k_ltb Fk tol (k_sub Fk (ge Fk p') (ge Fk p)) then 1%nat else 0%nat end).
    assert (W : written_events c tol (@cons point (@pair spec_float (gvec Fk) t p) ps) = gmake_event Fk c t (p, fl) :: written_events c tol ps).
    { unfold written_events, fl. destruct ps as [|[t' p'] ps]; reflexivity. }
    destruct (coordinate np i 1 k c r (gx Fk p) (proj1 K) C Hr P1 B1 (proj2 K)) as (X1 & X2 & X3 & X4). destruct (coordinate np i 2 k c r (gy Fk p) (proj1 K) C Hr P2 B2 (proj2 K)) as (Y1 & Y2 & Y3 & Y4). destruct (coordinate np i 3 k c r (gz Fk p) (proj1 K) C Hr P3 B3 (proj2 K)) as (Z1 & Z2 & Z3 & Z4).
    set (tt := match i with O => S_ "0" | _ => py_repr t end). set (e := gmake_event Fk c t (p, fl)).
    set (l := join (S_ ",") [tt; py_repr (round_8 np i 1 (gev_x Fk e)); py_repr (round_8 np i 2 (gev_y Fk e)); py_repr (round_8 np i 3 (gev_z Fk e)); int_text fl]).
    assert (Ff : (fl = 0 \/ fl = 1)%nat) by (unfold fl; destruct ps as [|[t' p'] ps']; [auto|destruct (k_ltb Fk _ _); auto]).
    assert (Free : forall ch, In ch (S_ ",") \/ ch = "010"%char -> Forall (fun s => ~ In ch s) [tt; py_repr (round_8 np i 1 (gev_x Fk e)); py_repr (round_8 np i 2 (gev_y Fk e)); py_repr (round_8 np i 3 (gev_z Fk e)); int_text fl]).
    { intros ch Hc. constructor; [unfold tt; destruct i; [destruct Hc as [[<-|[]]| ->]; cbn; intuition discriminate|apply repr_free; assumption]|].
      constructor; [apply repr_free; assumption|]. constructor; [apply repr_free; assumption|]. constructor; [apply repr_free; assumption|]. constructor; [|constructor].
      destruct Ff as [-> | ->]; destruct Hc as [[<-|[]]| ->]; cbn; intuition discriminate. }
    exists (l :: ls). rewrite W. split; [|split; [|split; [|split]]].
    + cbn [float_lines map concat]. rewrite E. reflexivity.
    + constructor; [|exact N]. unfold l. intros I. pose proof (Free "010"%char (or_intror eq_refl)) as F. revert I F. generalize [tt; py_repr (round_8 np i 1 (gev_x Fk e)); py_repr (round_8 np i 2 (gev_y Fk e)); py_repr (round_8 np i 3 (gev_z Fk e)); int_text fl].
      intros fs I F. revert I. induction F as [|x fs Hx F IHf]; [intros []|]. cbn [join]. destruct fs as [|x' fs']; [exact Hx|]. rewrite !in_app_iff. intros [I|[I|I]]; [exact (Hx I)|cbn in I; destruct I as [I|[]]; discriminate|exact (IHf I)].
    + cbn [length]. rewrite L. reflexivity.
    + cbn [length]. rewrite L'. reflexivity.
    + intros [|j] q Hq; [|exact (H j q Hq)]. injection Hq as <-. exists l, e. split; [reflexivity|]. split; [reflexivity|].
      exists tt, (py_repr (round_8 np i 1 (gev_x Fk e))), (py_repr (round_8 np i 2 (gev_y Fk e))), (py_repr (round_8 np i 3 (gev_z Fk e))), (int_text fl).
      split; [unfold l; rewrite (split_join ","%char [] (fun x => x)); [cbn [map app]; reflexivity|apply Free; left; left; reflexivity]|].
      cbn [fst snd]. split.
      { unfold tt. destruct i; [|destruct (C117_read_back t Ptm) as (y & R & Py & V & _); exists y; auto]. specialize (Z eq_refl). cbn [fst] in Z. rewrite Z. exists (S754_zero false). split; [vm_compute; reflexivity|]. split; [split; [exact I|reflexivity]|reflexivity]. }
      split; [exact X1|]. split; [exact Y1|]. split; [exact Z1|]. split; [|unfold event_says; cbn [e gmake_event gev_t gev_x gev_y gev_z gev_flag fst snd]; auto].
      unfold flag_right. cbn [nth_error]. destruct ps as [|[t' p'] ps']; [reflexivity|]. cbn [nth_error option_map num_point fst snd]. inversion_clear Gs as [|? ? (_ & (_ & _ & _ & P4') & (_ & _ & _ & B4')) _]. cbn [fst snd] in *.
      pose proof (flag_one tol (ge Fk p) (ge Fk p') Pt P4 P4' B4 B4') as Fo. unfold fl. destruct (k_ltb Fk tol _); [left|right]; split; try reflexivity; exact Fo.
Qed.
(** A line for every corner of the trajectory: its time is the double of the
    trajectory, its coordinates are right to half of the 8th decimal and a few
    roundings. *)
Theorem C118_file np s tol unit u k : let path := gunpack_blocklist Fk (gblocklist Fk s) in let points := corners (map num_seg path) in
  path <> [] -> Forall proper_seg path -> Forall (fun q => reachable k (snd q)) points -> proper tol ->
  u = match unit with Some v => v | None => goutput_unit_system Fk s end -> unit_length u k ->
  exists text evs ls, float_abaqus_file np s tol unit = Ok (text, evs) /\ lines text = Some ls /\ length ls = S (length path) /\ length evs = S (length path) /\
    forall j t p, nth_error points j = Some (t, p) -> exists l e, nth_error ls j = Some l /\ nth_error evs j = Some e /\
      line_says k (fval tol) l t p (nth_error points (S j)) /\ event_right k (fval tol) e t p (nth_error points (S j)).
Proof.
  intros path points Ne F Rb Pt Hu U. destruct path as [|g rest] eqn:Ep; [congruence|]. clear Ne.
  destruct (unit_factor u k U) as (c & r & Dc & C & Hr). assert (K : 0 < k <= 1000000) by (destruct U; lra).
  set (ps := (k0 Fk, gpos_begin Fk g) :: map (fun x => (gt_end Fk x, gpos_end Fk x)) (g :: rest) : list point).
  assert (Np : map num_point ps = points). { unfold points, ps, corners. cbn [map]. f_equal. f_equal. rewrite !map_map. apply map_ext. reflexivity. }
  assert (G : Forall (good_point k) ps).
  { rewrite <- Np in Rb. rewrite Forall_map in Rb. cbn [num_point snd] in Rb. inversion_clear Rb as [|? ? R0 Rs]. constructor.
    - split; [split; [exact I|reflexivity]|]. inversion_clear F as [|? ? (_ & _ & Pb & _) _]. split; [exact Pb|exact R0].
    - apply Forall_forall. intros y Iy. rewrite Forall_forall in F, Rs. specialize (Rs y Iy). apply in_map_iff in Iy. destruct Iy as (x & <- & Ix). destruct (F x Ix) as (_ & Te & _ & Pe & _). split; [exact Te|]. split; [exact Pe|exact Rs]. }
  destruct (all_lines np k c r tol K C Hr Pt ps 0 G ltac:(intros _; reflexivity)) as (ls & E & N & L & L' & H).
  exists (float_lines np 0 (written_events c tol ps)), (written_events c tol ps), ls.
  split. { unfold float_abaqus_file, ggenerate_abaqus_event_series. fold path. rewrite Ep. unfold gget_scaling_factor. rewrite <- Hu, Dc. cbn [bind].
    replace (gmake_events Fk c _ _) with (written_events c tol ps); [reflexivity|]. unfold written_events, ps. cbn [map fst snd]. rewrite !map_map. cbn [fst snd]. reflexivity. }
  split; [rewrite E; apply lines_concat, N|]. assert (Lp : length ps = S (length (g :: rest))) by (unfold ps; cbn [length map]; rewrite map_length; reflexivity). split; [exact (eq_trans L Lp)|]. split; [exact (eq_trans L' Lp)|].
  intros j t p Hj. rewrite <- Np, nth_error_map in Hj. destruct (nth_error ps j) as [q|] eqn:Eq; [|discriminate]. cbn [option_map] in Hj. assert (Q1 : fval (fst q) = t) by (unfold num_point in Hj; congruence). assert (Q2 : num_vec (snd q) = p) by (unfold num_point in Hj; congruence).
  destruct (H j q Eq) as (l & e & El & Ee & a & b & x & d & f & Sp & Ra & S1 & S2 & S3 & Fl & T & N1 & N2 & N3 & Ef). exists l, e. split; [exact El|]. split; [exact Ee|]. rewrite Q1 in Ra. rewrite Q2 in *.
  rewrite <- Np, nth_error_map. split; [exists a, b, x, d, f; exact (conj Sp (conj Ra (conj S1 (conj S2 (conj S3 Fl)))))|]. split; [exact (eq_trans (f_equal fval T) Q1)|]. split; [exact (conj N1 (conj N2 N3))|]. exists f. split; [exact Fl|].
  subst f. assert (B : gev_flag Fk e = 0%nat \/ gev_flag Fk e = 1%nat).
  { clear - Fl. unfold flag_right in Fl. destruct (option_map num_point _) as [[t' p']|]; [destruct Fl as [[F _]|[F _]]|rename Fl into F]; destruct (gev_flag Fk e) as [|[|n]] eqn:En; auto; exfalso; revert F; clear.
    all: change (S_ "1") with (int_text 1); change (S_ "0") with (int_text 0); intros F; apply int_text_inj in F; lia. }
  destruct B as [-> | ->]; cbn; split; split; intros; congruence.
Qed.
(** Nothing is written for an empty trajectory or in an unknown unit system. *)
Theorem C118_refused np s tol unit : let path := gunpack_blocklist Fk (gblocklist Fk s) in let u := match unit with Some v => v | None => goutput_unit_system Fk s end in
  (path = [] -> float_abaqus_file np s tol unit = Err IndexError) /\
  (path <> [] -> (forall k, ~ unit_length u k) -> float_abaqus_file np s tol unit = Err KeyError).
Proof.
  intros path u. split; intros H; unfold float_abaqus_file, ggenerate_abaqus_event_series; fold path.
  - rewrite H. reflexivity.
  - intros U. destruct path; [congruence|]. unfold gget_scaling_factor. fold u. unfold goutput_units. cbn [dget].
    destruct (str_eqb u (S_ "SI")) eqn:E1; [apply str_eqb_true in E1; rewrite E1 in U; destruct (U _ u_SI)|]. destruct (str_eqb u (S_ "SImm")) eqn:E2; [apply str_eqb_true in E2; rewrite E2 in U; destruct (U _ u_SImm)|].
    destruct (str_eqb u (S_ "inch")) eqn:E3; [apply str_eqb_true in E3; rewrite E3 in U; destruct (U _ u_inch)|]. reflexivity.
Qed.
(** The file of a simulated program whose numbers stay far from the ends of the
    doubles. *)
Theorem C118_simulated np fw ss bl w u0 last tol unit u k : let path := gunpack_blocklist Fk bl in let points := corners (map num_seg path) in
  Forall proper_state ss -> tame_program (map value_state ss) -> INR (length ss) <= 1000000000 -> gsimulate Fk fw ss = Ok (bl, w) -> path <> [] -> proper tol ->
  Forall (fun q => Rabs (vx (snd q)) <= 999999 * k /\ Rabs (vy (snd q)) <= 999999 * k /\ Rabs (vz (snd q)) <= 999999 * k) points ->
  u = match unit with Some v => v | None => u0 end -> unit_length u k ->
  exists text evs ls, float_abaqus_file np (GSim Fk bl u0 last) tol unit = Ok (text, evs) /\ lines text = Some ls /\ length ls = S (length path) /\ length evs = S (length path) /\
    forall j t p, nth_error points j = Some (t, p) -> exists l e, nth_error ls j = Some l /\ nth_error evs j = Some e /\
      line_says k (fval tol) l t p (nth_error points (S j)) /\ event_right k (fval tol) e t p (nth_error points (S j)).
Proof.
  intros path points P T N E Ne Pt Rb Hu U. apply (C118_file np (GSim Fk bl u0 last) tol unit u k); [exact Ne| | |exact Pt|exact Hu|exact U].
  - eapply Forall_impl; [|exact (C115_simulated fw ss bl w P T N E)]. intros s [H _]. exact H.
  - cbn [gblocklist]. fold path points. assert (B : Forall (fun s => Rabs (ve (pos_begin s)) <= 2 ^ 100 /\ Rabs (ve (pos_end s)) <= 2 ^ 100) (map num_seg path)).
    { apply Forall_forall. intros x Ix. apply in_map_iff in Ix. destruct Ix as (s & <- & Is). unfold path, gunpack_blocklist in Is. apply in_concat in Is. destruct Is as (l & Il & Is). apply in_map_iff in Il. destruct Il as (b & <- & Ib).
      assert (Q := simulation_strong fw ss (map value_state ss) (values_same ss P) T). rewrite map_length in Q. specialize (Q N). rewrite E in Q. destruct (gsimulate D64 fw _) as [[bl' w']|]; [|contradiction]. destruct Q as [Q _]. cbn [fst] in Q.
      clear - Q Ib Is. induction Q as [|c c' r r' H Q IH]; [contradiction|]. destruct Ib as [->|Ib]; [|exact (IH Ib)]. apply r_segs in H. clear - H Is.
      induction H as [|x x' l l' H S IH]; [contradiction|]. destruct Is as [->|Is]; [|exact (IH Is)]. destruct H as [_ _ P0 P1 _ _]. apply sv_moderate in P0, P1. unfold moderate_vec in P0, P1. rewrite Forall_forall in P0, P1.
      cbn [num_seg pos_begin pos_end]. split; [apply P0|apply P1]; cbn; tauto. }
    assert (C : Forall (fun q => Rabs (ve (snd q)) <= 2 ^ 100) points).
    { unfold points, corners. destruct (map num_seg path) as [|s r]; [constructor|]. constructor; [inversion_clear B as [|? ? [B0 _] _]; exact B0|]. apply Forall_forall. intros y Iy. apply in_map_iff in Iy. destruct Iy as (x & <- & Ix). rewrite Forall_forall in B. exact (proj2 (B x Ix)). }
    rewrite Forall_forall in *. intros q Iq. destruct (Rb q Iq) as (A1 & A2 & A3). split; [exact A1|]. split; [exact A2|]. split; [exact A3|exact (C q Iq)].
Qed.

(** * A program and its file *)
Definition case_program : list str := map S_ ["G1 X10 Y3.7 E0.5 F1800"; "G1 X20 E1.25"; "G0 Z0.3"]%string.
Definition case_trajectory : list (gblock Fk) := Eval vm_compute in match grun Fk MarlinJerk case_program (mini Fk) with Ok (bl, _) => bl | Err _ => [] end.
Definition case_np (i j : nat) : bool := Nat.eqb j 1.
Definition file_text (unit : option str) : res str := r <- float_abaqus_file case_np (GSim Fk case_trajectory (S_ "SImm") None) (k_dec Fk 1 (-12)) unit ;; Ok (fst r).
Definition text_lines (l : list String.string) : str := concat (map (fun t => S_ t ++ newline) l).
Example C118_case : grun Fk MarlinJerk case_program (mini Fk) = Ok (case_trajectory, false) /\
  file_text None = Ok (text_lines ["0,0.0,0.0,0.0,1"; "0.024,0.33763026,0.1249232,0.0,1"; "0.36741837631476265,10.0,3.7,0.0,1"; "0.6904583763147627,19.6912,3.7,0.0,1"; "0.7054074095155749,20.0,3.7,0.0,0"; "0.7154058521560521,20.0,3.7,0.1756,0"; "0.7216552615957171,20.0,3.7,0.3,0"]%string) /\
  file_text (Some (S_ "inch")) = Ok (text_lines ["0,0.0,0.0,0.0,1"; "0.024,0.01329253,0.00491824,0.0,1"; "0.36741837631476265,0.39370079,0.14566929,0.0,1"; "0.6904583763147627,0.77524409,0.14566929,0.0,1"; "0.7054074095155749,0.78740157,0.14566929,0.0,0"; "0.7154058521560521,0.78740157,0.14566929,0.00691339,0"; "0.7216552615957171,0.78740157,0.14566929,0.01181102,0"]%string).
Proof. split; [vm_cast_no_check (eq_refl (@Ok (list (gblock Fk) * bool) (case_trajectory, false)))|]. split; vm_compute; reflexivity. Qed.
Definition checked (b x : spec_float) : bool := match x with S754_infinity _ | S754_nan => false | _ => valid_binary 53 1024 x && k_leb Fk x b && k_leb Fk (SFopp b) x end.
Definition checked_vec (b : spec_float) (v : gvec Fk) : bool := checked b (gx Fk v) && checked b (gy Fk v) && checked b (gz Fk v) && checked b (ge Fk v).
Definition checked_seg (b : spec_float) (s : gsegment Fk) : bool :=
  checked b (gt_begin Fk s) && checked b (gt_end Fk s) && checked_vec b (gpos_begin Fk s) && checked_vec b (gpos_end Fk s) && checked_vec b (gvel_begin Fk s) && checked_vec b (gvel_end Fk s).
Lemma checked_ok b x : proper b -> checked b x = true -> proper x /\ Rabs (fval x) <= fval b.
Proof.
  intros B H. assert (H' : valid_binary 53 1024 x && k_leb Fk x b && k_leb Fk (SFopp b) x = true) by (destruct x; try discriminate H; exact H). apply andb_true_iff in H' as [H' L]. apply andb_true_iff in H' as [V U].
  assert (P : proper x) by (split; [destruct x; try discriminate H; exact I|exact V]). split; [exact P|].
  assert (O : proper (SFopp b) /\ fval (SFopp b) = - fval b) by (destruct b as [s|s| |s m e]; [split; [split; [exact I|reflexivity]|cbn; ring]|destruct B as [[] _]|destruct B as [[] _]|split; [exact B|destruct s; cbn; ring]]). destruct O as [Pb Vb].
  apply num_le in U; [|exact P|exact B]. apply num_le in L; [|exact Pb|exact P]. rewrite Vb in L. apply Rabs_le. lra.
Qed.
Lemma checked_vec_ok b v : proper b -> checked_vec b v = true -> proper_vec v /\ Rabs (fval (gx Fk v)) <= fval b /\ Rabs (fval (gy Fk v)) <= fval b /\ Rabs (fval (gz Fk v)) <= fval b /\ Rabs (fval (ge Fk v)) <= fval b.
Proof. intros B H. unfold checked_vec in H. repeat (apply andb_true_iff in H as [H ?]). repeat match goal with K : checked b _ = true |- _ => apply checked_ok in K; [|exact B] end. unfold proper_vec. tauto. Qed.
(** The two ways of rounding differ: 5e-09 is a little more than a half, its product with 1e8 is a half. *)
Example C118_case_roundings : py_repr (py_round 8 (f_dec 5 (-9))) = S_ "1e-08" /\ py_repr (np_round8 (f_dec 5 (-9))) = S_ "0.0".
Proof. split; vm_compute; reflexivity. Qed.
(** The trajectory meets the conditions of C118_file. *)
Example C118_case_met : let path := gunpack_blocklist Fk case_trajectory in
  path <> [] /\ length path = 6%nat /\ Forall proper_seg path /\ Forall (fun q => reachable 1 (snd q)) (corners (map num_seg path)) /\ proper (k_dec Fk 1 (-12)) /\ unit_length (S_ "SImm") 1.
Proof.
  intros path. set (b := S754_finite false 7881291301453824 (-53 + 17)). assert (B : proper b) by (split; [exact I|vm_compute; reflexivity]).
  assert (Vb : fval b <= 999999). { cbn [b fval]. change (powerRZ 2 (-53 + 17)) with (p2 (-36)). assert (p2 (-36) * IZR (2 ^ 36) = 1) by (rewrite <- p2_Z by lia; rewrite <- RoundingProofs.pow2_add; reflexivity). change (IZR (2 ^ 36)) with 68719476736 in H. pose proof (pow2_pos (-36)). lra. }
  assert (C : forallb (checked_seg b) path = true) by (vm_compute; reflexivity). rewrite forallb_forall in C.
  assert (S : forall s, In s path -> proper_seg s /\ reachable 1 (num_vec (gpos_begin Fk s)) /\ reachable 1 (num_vec (gpos_end Fk s))).
  { intros s Is. specialize (C s Is). unfold checked_seg in C. repeat (apply andb_true_iff in C as [C ?]). repeat match goal with K : checked b _ = true |- _ => apply checked_ok in K; [|exact B] end. repeat match goal with K : checked_vec b _ = true |- _ => apply checked_vec_ok in K; [|exact B] end.
    assert (P : fval b <= 2 ^ 100) by (rewrite p100, p2_Z by lia; assert (IZR 999999 <= IZR (2 ^ 100)) by (apply IZR_le; vm_compute; discriminate); lra).
    unfold proper_seg, reachable. cbn [num_vec vx vy vz ve]. split; [tauto|]. destruct H1 as (_ & ? & ? & ? & ?). destruct H2 as (_ & ? & ? & ? & ?). split; repeat split; lra. }
  split; [discriminate|]. split; [reflexivity|]. split; [apply Forall_forall; intros s Is; exact (proj1 (S s Is))|]. split; [|split; [split; vm_compute; auto|constructor]].
  apply Forall_forall. intros q Iq. unfold corners in Iq. destruct (map num_seg path) as [|s0 r] eqn:Em; [destruct Iq|]. destruct Iq as [<-|Iq].
  - destruct path as [|g rest] eqn:Ep; [discriminate|]. injection Em as <- _. exact (proj1 (proj2 (S g (or_introl eq_refl)))).
  - rewrite <- Em in Iq. rewrite map_map in Iq. apply in_map_iff in Iq. destruct Iq as (g & <- & Ig). exact (proj2 (proj2 (S g Ig))).
Qed.

Print Assumptions C118_exact_numbers.
Print Assumptions C118_file.
Print Assumptions C118_refused.
Print Assumptions C118_simulated.
