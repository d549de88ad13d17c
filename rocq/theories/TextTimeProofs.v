(** The times of a program whose numbers are slightly off. *)
From Coq Require Import Reals Lra Lia.
From Verif Require Import Py StateGen SpecMachine SpecRead SpecSlicer Vec Segment Junction Planner Generic SpecGeneric SpecDrift SpecStop RealFacts SpecKin SpecTime
  SpecStopText FloatMoveProofs FloatDriftProofs FloatPlanProofs StopTimeFacts FloatStopProofs FloatTextProofs SlicerProofs.
Open Scope R_scope.

(** * The time from rest to rest is the best over all top speeds *)
Lemma stop_best l v a u : 0 < l -> 0 < v -> 0 < a -> 0 < u <= v -> stop_in l v a <= u / a + l / u.
Proof.
  intros L V A U. assert (Iu : 0 < / (a * u)) by (apply Rinv_0_lt_compat, Rmult_lt_0_compat; lra). unfold stop_in. destruct (Rlt_dec _ _) as [C|C].
  - assert (E : v * v = v * v / a * a) by (field; lra). assert (G : v * v < l * a) by (rewrite E; apply Rmult_lt_compat_r; lra).
    assert (G2 : v * u <= v * v) by (apply Rmult_le_compat_l; lra).
    assert (D : u / a + l / u - (v / a + l / v) = (v - u) * (l * a - v * u) * (/ (a * u) * / v)) by (field; lra).
    assert (0 <= (v - u) * (l * a - v * u) * (/ (a * u) * / v)); [|lra].
    apply Rmult_le_pos; [apply Rmult_le_pos; lra|apply Rmult_le_pos; [lra|left; apply Rinv_0_lt_compat; lra]].
  - set (q := sqrt (l / a)). assert (Q : l = q * q * a). { unfold q. rewrite sqrt_sqrt; [field; lra|apply Rmult_le_pos; [lra|left; apply Rinv_0_lt_compat; lra]]. }
    assert (D : u / a + l / u - 2 * q = (u - q * a) * (u - q * a) * / (a * u)) by (rewrite Q at 1; field; lra).
    assert (0 <= (u - q * a) * (u - q * a) * / (a * u)); [|lra]. apply Rmult_le_pos; [apply Rle_0_sqr|lra].
Qed.
Lemma stop_attained l v a : 0 < l -> 0 < v -> 0 < a -> exists u, 0 < u <= v /\ stop_in l v a = u / a + l / u.
Proof.
  intros L V A. unfold stop_in. destruct (Rlt_dec _ _) as [C|C]; [exists v; split; [lra|reflexivity]|].
  set (q := sqrt (l / a)). assert (P : 0 < l / a) by (apply Rmult_lt_0_compat; [lra|apply Rinv_0_lt_compat; lra]).
  assert (Q0 : 0 < q) by (apply sqrt_lt_R0; exact P). assert (Q : l = q * q * a) by (unfold q; rewrite sqrt_sqrt; [field|]; lra).
  assert (QA : 0 < q * a) by (apply Rmult_lt_0_compat; lra). exists (q * a). split; [split; [exact QA|]|rewrite Q; field; lra].
  destruct (Rle_or_lt (q * a) v) as [G|G]; [exact G|]. exfalso. apply C. apply Rmult_lt_reg_r with a; [exact A|].
  replace (v * v / a * a) with (v * v) by (field; lra). rewrite Q. replace (q * q * a * a) with (q * a * (q * a)) by ring. apply Rmult_le_0_lt_compat; lra.
Qed.
Lemma stop_in_pos l v a : 0 < l -> 0 < v -> 0 < a -> 0 < stop_in l v a.
Proof.
  intros L V A. destruct (stop_attained l v a L V A) as (u & U & ->).
  apply Rplus_lt_0_compat; apply Rmult_lt_0_compat; try lra; apply Rinv_0_lt_compat; lra.
Qed.
Lemma stop_scaled m l v a l' v' a' : 1 <= m -> 0 < l -> 0 < v -> 0 < a -> 0 < l' -> 0 < v' -> 0 < a' ->
  l' <= m * l -> v <= m * v' -> a <= m * a' -> stop_in l' v' a' <= m * m * stop_in l v a.
Proof.
  intros M L V A L' V' A' HL HV HA. destruct (stop_attained l v a L V A) as (u & U & ->).
  assert (Im : 0 < / m) by (apply Rinv_0_lt_compat; lra). assert (Um : 0 < u * / m) by (apply Rmult_lt_0_compat; lra).
  eapply Rle_trans; [apply (stop_best l' v' a' (u * / m)); try lra|].
  - split; [exact Um|]. apply Rmult_le_reg_l with m; [lra|]. replace (m * (u * / m)) with u by (field; lra). lra.
  - assert (X : u * / m / a' <= u / a).
    { apply Rmult_le_reg_r with (a * a'); [apply Rmult_lt_0_compat; lra|]. replace (u * / m / a' * (a * a')) with (u * (/ m * a)) by (field; lra).
      replace (u / a * (a * a')) with (u * a') by (field; lra). apply Rmult_le_compat_l; [lra|]. apply Rmult_le_reg_l with m; [lra|]. replace (m * (/ m * a)) with a by (field; lra). lra. }
    assert (Y : l' / (u * / m) <= m * m * (l / u)).
    { replace (l' / (u * / m)) with (l' * (m * / u)) by (field; lra). replace (m * m * (l / u)) with (m * l * (m * / u)) by (field; lra).
      apply Rmult_le_compat_r; [apply Rmult_le_pos; [lra|left; apply Rinv_0_lt_compat; lra]|exact HL]. }
    assert (Z : 0 <= u / a) by (apply Rmult_le_pos; [lra|left; apply Rinv_0_lt_compat; lra]).
    assert (MM : 1 * 1 <= m * m) by (apply Rmult_le_compat; lra).
    assert (W : 1 * (u / a) <= m * m * (u / a)) by (apply Rmult_le_compat_r; lra). lra.
Qed.
Lemma stop_close e l v a l' v' a' : 0 <= e <= / 1000 -> 0 < l -> 0 < v -> 0 < a ->
  Rabs (l' - l) <= e * l -> Rabs (v' - v) <= e * v -> Rabs (a' - a) <= e * a -> Rabs (stop_in l' v' a' - stop_in l v a) <= 21 / 10 * (e * stop_in l v a).
Proof.
  intros E L V A HL HV HA. apply abs_inv in HL, HV, HA.
  assert (S0 : forall x, 0 < x -> 0 <= e * x <= / 1000 * x) by (intros x X; split; [apply Rmult_le_pos; lra|apply Rmult_le_compat_r; lra]).
  pose proof (S0 l L) as SL. pose proof (S0 v V) as SV. pose proof (S0 a A) as SA.
  set (m := 1 + 102 / 100 * e).
  assert (up : forall x x' : R, 0 < x -> - (e * x) <= x' - x <= e * x -> 0 < x' /\ x' <= m * x /\ x <= m * x').
  { intros x x' X B. pose proof (S0 x X) as SX. split; [lra|]. unfold m. split; [lra|].
    assert (Q : 102 / 100 * e * (x - e * x) <= 102 / 100 * e * x') by (apply Rmult_le_compat_l; lra).
    assert (Q2 : e * (e * x) <= / 1000 * (e * x)) by (apply Rmult_le_compat_r; lra). lra. }
  destruct (up l l' L HL) as (L0 & L1 & L2). destruct (up v v' V HV) as (V0 & V1 & V2). destruct (up a a' A HA) as (A0 & A1 & A2).
  assert (M : 1 <= m) by (unfold m; lra).
  pose proof (stop_scaled m l v a l' v' a' M L V A L0 V0 A0 L1 V2 A2) as B1.
  pose proof (stop_scaled m l' v' a' l v a M L0 V0 A0 L V A L2 V1 A1) as B2.
  pose proof (stop_in_pos l v a L V A) as P. pose proof (stop_in_pos l' v' a' L0 V0 A0) as P'.
  set (s := stop_in l v a) in *. set (s' := stop_in l' v' a') in *. clearbody s s'.
  assert (MM : m * m <= 1 + 21 / 10 * e). { unfold m. assert (e * e <= / 1000 * e) by (apply Rmult_le_compat_r; lra). lra. }
  assert (C1 : m * m * s <= (1 + 21 / 10 * e) * s) by (apply Rmult_le_compat_r; lra).
  assert (C2 : m * m * s' <= (1 + 21 / 10 * e) * s') by (apply Rmult_le_compat_r; lra).
  apply Rabs_le. split; [|lra].
  destruct (Rle_or_lt s' s) as [G|G]; [|assert (0 <= e * s) by (apply Rmult_le_pos; lra); lra].
  assert (C3 : e * s' <= e * s) by (apply Rmult_le_compat_l; lra). lra.
Qed.
(** at least 0.02 mm/s and 2 mm/s^2 over at least two micrometres *)
Lemma stop_rate l v a : 2 / 1000 <= l -> 2 / 100 <= v -> 2 <= a -> stop_in l v a <= 100 * l.
Proof.
  intros L V A. unfold stop_in. destruct (Rlt_dec _ _) as [C|C].
  - assert (I : / v <= 50) by (replace 50 with (/ (2 / 100)) by lra; apply Rinv_le_contravar; lra). assert (I0 : 0 < / v) by (apply Rinv_0_lt_compat; lra).
    assert (v / a < l / v). { replace (v / a) with (v * v / a * / v) by (field; lra). apply Rmult_lt_compat_r; lra. }
    assert (l / v <= l * 50) by (apply Rmult_le_compat_l; lra). lra.
  - assert (Ia : 0 < / a <= / 2) by (split; [apply Rinv_0_lt_compat; lra|apply Rinv_le_contravar; lra]).
    assert (sqrt (l / a) <= 50 * l); [|lra]. apply sqrt_le_; [lra|]. assert (l * / a <= l * / 2) by (apply Rmult_le_compat_l; lra).
    assert (2 / 1000 * l <= l * l) by (apply Rmult_le_compat_r; lra). unfold Rdiv in *. lra.
Qed.

Section Times.
Variables (rnd : R -> R) (eta : R).
Hypothesis eta0 : 0 <= eta.
Hypothesis err : forall x, Rabs (rnd x - x) <= uu * Rabs x + eta.
Hypothesis pos : forall x, 0 <= x -> 0 <= rnd x.
Hypothesis eta_lt : eta <= uu * uu / 1000000000000000000.
Notation k := (Bk rnd).
Notation reads := (reads rnd).
Variable dl : R.
Hypothesis Hdl : 0 <= dl <= 225 / 100000000000000.

Lemma once x : 0 <= x -> Rabs (rnd x - x) <= 3 * (uu * x) + 3 * eta.
Proof. intros X. pose proof (err x) as E. rewrite (Rabs_right x) in E by lra. assert (0 <= uu * x) by (apply Rmult_le_pos; [unfold uu|]; lra). lra. Qed.
Lemma twice c x : 1 <= c -> 0 <= x -> Rabs (rnd (rnd (x * c) / c) - x) <= 3 * (uu * x) + 3 * eta.
Proof.
  intros C X. assert (XC : 0 <= x * c) by (apply Rmult_le_pos; lra). assert (Ic : 0 < / c <= 1) by (split; [apply Rinv_0_lt_compat; lra|rewrite <- Rinv_1; apply Rinv_le_contravar; lra]).
  pose proof (err (x * c)) as E1. rewrite (Rabs_right (x * c)) in E1 by lra. set (y := rnd (x * c)) in *. apply abs_inv in E1.
  assert (U : 0 < uu) by (unfold uu; lra). assert (UX : 0 <= uu * x) by (apply Rmult_le_pos; lra).
  assert (Y : Rabs (y / c - x) <= uu * x + eta).
  { apply Rabs_le. replace (y / c - x) with ((y - x * c) * / c) by (field; lra). replace (uu * x + eta) with ((uu * (x * c) + eta * c) * / c) by (field; lra).
    assert (eta * 1 <= eta * c) by (apply Rmult_le_compat_l; lra).
    split; [rewrite <- Ropp_mult_distr_l_reverse|]; apply Rmult_le_compat_r; lra. }
  assert (Y0 : 0 <= y / c) by (apply Rmult_le_pos; [apply pos; exact XC|lra]).
  pose proof (err (y / c)) as E2. rewrite (Rabs_right (y / c)) in E2 by lra. apply abs_inv in Y, E2.
  assert (uu * (y / c) <= uu * (x + uu * x + eta)) by (apply Rmult_le_compat_l; lra).
  assert (uu * (uu * x) <= / 100 * (uu * x)) by (apply Rmult_le_compat_r; [lra|unfold uu; lra]).
  assert (uu * eta <= / 100 * eta) by (apply Rmult_le_compat_r; [lra|unfold uu; lra]).
  apply Rabs_le. lra.
Qed.
Lemma feed_near v f : 2 / 100 <= f -> feed_like rnd v f -> Rabs (v - f) <= 4 * (uu * f).
Proof.
  intros F [-> | ->]; (eapply Rle_trans; [first [apply once|apply twice]; lra|]); assert (3 * eta <= uu * f); try (unfold uu in *; lra).
Qed.
Lemma coord x : Rabs x <= 9000 -> Rabs (rnd x - x) <= / 1000000000000.
Proof. intros X. eapply Rle_trans; [apply err|]. assert (uu * Rabs x <= uu * 9000) by (apply Rmult_le_compat_l; [unfold uu|]; lra). unfold uu in *. lra. Qed.
Lemma state_read s t : tame_state s -> reads s t -> e_near rnd 1 s t -> ordinary_state t /\ Rabs (gk_speed k t - k_speed s) <= 4 * (uu * k_speed s) /\ Rabs (gk_acc k t - k_acc s) <= 4 * (uu * k_acc s).
Proof.
  intros (Hv & Ha & Hj & Hx & Hy & Hz & He) ((Ex & Ey & Ez) & Fv & Ea & Ej & _) En.
  pose proof (feed_near _ _ (proj1 Hv) Fv) as V.
  assert (A : Rabs (gk_acc k t - k_acc s) <= 4 * (uu * k_acc s)).
  { rewrite Ea. eapply Rle_trans; [apply once; lra|]. assert (3 * eta <= uu * k_acc s); unfold uu in *; lra. }
  split; [|split; assumption].
  assert (UV : uu * k_speed s <= uu * 900) by (apply Rmult_le_compat_l; [unfold uu|]; lra). assert (UA : uu * k_acc s <= uu * 90000) by (apply Rmult_le_compat_l; [unfold uu|]; lra).
  assert (UV0 : 0 <= uu * k_speed s) by (apply Rmult_le_pos; [unfold uu|]; lra). assert (UA0 : 0 <= uu * k_acc s) by (apply Rmult_le_pos; [unfold uu|]; lra).
  apply abs_inv in V, A. unfold ordinary_state. split; [unfold uu in *; lra|]. split; [unfold uu in *; lra|]. split; [rewrite Ej; apply pos; exact Hj|].
  rewrite Ex, Ey, Ez.
  assert (X : forall x, Rabs x <= 9000 -> Rabs (rnd x) <= 10000). { intros x X. pose proof (coord x X) as C. apply abs_inv in X, C. apply Rabs_le. lra. }
  split; [apply X; assumption|]. split; [apply X; assumption|]. split; [apply X; assumption|]. unfold e_near in En. apply abs_inv in En, He. apply Rabs_le. lra.
Qed.
Definition step_off : R := 19 / 10000000000.
Definition turns (A B : kstate) (A' B' : gkstate k) : Prop :=
  Rabs (ge k (gk_pos k B') - ge k (gk_pos k A') - (ve (k_pos B) - ve (k_pos A))) <= 4 * dl /\ (k_pos B = k_pos A -> ge k (gk_pos k B') = ge k (gk_pos k A')).
Lemma gap_read A B A' B' : tame_state A -> tame_state B -> reads A A' -> reads B B' -> turns A B A' B' ->
  Rabs (length3 A' B' - gap A B) <= 4 / 1000000000000 /\ Rabs (extruded A' B' - turn A B) <= 9 / 1000000000000.
Proof.
  intros (_ & _ & _ & Ax & Ay & Az & Ae) (_ & _ & _ & Bx & By & Bz & Be) ((AX & AY & AZ) & _) ((BX & BY & BZ) & _) [Tu _].
  assert (D : forall x y, Rabs x <= 9000 -> Rabs y <= 9000 -> Rabs (rnd y - rnd x - (y - x)) <= 2 / 1000000000000).
  { intros x y X Y. pose proof (coord x X) as CX. pose proof (coord y Y) as CY. apply abs_inv in CX, CY. apply Rabs_le. lra. }
  split.
  - unfold length3, gap, norm3, vsub. cbv zeta. rewrite AX, AY, AZ, BX, BY, BZ. cbn [vx vy vz].
    eapply Rle_trans; [apply (norm_near _ _ _ _ _ _ (2 / 1000000000000)); apply D; assumption|lra].
  - unfold extruded, turn. eapply Rle_trans; [apply Rabs_triang_inv2|]. lra.
Qed.
Lemma gap_zero A B : gap A B = 0 -> vx (k_pos B) = vx (k_pos A) /\ vy (k_pos B) = vy (k_pos A) /\ vz (k_pos B) = vz (k_pos A).
Proof.
  unfold gap, norm3, vsub. cbn [vx vy vz]. set (x := vx (k_pos B) - vx (k_pos A)). set (y := vy (k_pos B) - vy (k_pos A)). set (z := vz (k_pos B) - vz (k_pos A)). intros E.
  pose proof (Rle_0_sqr x) as X. pose proof (Rle_0_sqr y) as Y. pose proof (Rle_0_sqr z) as Z. unfold Rsqr in *.
  apply sqrt_eq_0 in E; [|lra]. assert (x * x = 0) by lra. assert (y * y = 0) by lra. assert (z * z = 0) by lra.
  assert (Q : forall q, q * q = 0 -> q = 0) by (intros q G; apply Rmult_integral in G as [G|G]; exact G).
  assert (x = 0) by (apply Q; assumption). assert (y = 0) by (apply Q; assumption). assert (z = 0) by (apply Q; assumption). unfold x, y, z in *. lra.
Qed.
Lemma stop_is A B : k_pause B = None -> stop_time A B = stop_in (if Req_EM_T (gap A B) 0 then turn A B else gap A B) (k_speed B) (k_acc B).
Proof. intros P. unfold stop_time, move_length, gap, turn. rewrite P. reflexivity. Qed.
Lemma step_read A B A' B' : tame_state A -> tame_state B -> tame_step A B -> (forall p, k_pause B = Some p -> 0 <= p /\ k_pos B = k_pos A) -> reads A A' -> reads B B' -> e_near rnd 1 A A' -> e_near rnd 1 B B' -> turns A B A' B' ->
  ordinary_step A' B' /\ (k_pos B <> k_pos A -> gk_pos k B' <> gk_pos k A') /\
  line_time A' B' <= 101 / 100 * ((gap A B + turn A B) / k_speed B + 2 * (k_speed B / k_acc B) + match k_pause B with Some p => p | None => 0 end) + / 1000000000000 /\
  0 <= stop_time A B /\ Rabs (stop_time (exact_state A') (exact_state B') - stop_time A B) <= step_off + / 1000000000000000 * stop_time A B.
Proof.
  intros TA TB St Hp RA RB NA NB Tu. destruct (state_read _ _ TA RA NA) as (OA & _ & _). destruct (state_read _ _ TB RB NB) as (OB & V & Acc).
  destruct (gap_read A B A' B' TA TB RA RB Tu) as [GL GE]. pose proof (gap_zero A B) as GZ.
  destruct TB as (Hv & Ha & _). destruct RA as ((AX & AY & AZ) & _). destruct RB as ((BX & BY & BZ) & _ & _ & _ & W).
  assert (Same : k_pos B = k_pos A -> gk_pos k B' = gk_pos k A') by (intros E; pose proof (proj2 Tu E) as Te; rewrite <- E in AX, AY, AZ; destruct (gk_pos k A'), (gk_pos k B'); cbn in *; congruence).
  assert (G0 : 0 <= gap A B) by (apply sqrt_pos). assert (T0 : 0 <= turn A B) by apply Rabs_pos.
  assert (Flat : gap A B = 0 -> near 0 (gk_pos k B') (gk_pos k A')).
  { intros E. destruct (GZ E) as (X & Y & Z). unfold near. rewrite AX, AY, AZ, BX, BY, BZ, X, Y, Z, !Rminus_eq_0, Rabs_R0. lra. }
  assert (Flat' : gap A B = 0 -> length3 A' B' = 0) by (intros E; apply length3_still, Flat, E).
  assert (Still : k_pos B = k_pos A -> gap A B = 0 /\ turn A B = 0 /\ extruded A' B' = 0).
  { intros E. unfold extruded. rewrite (Same E), Rminus_eq_0, Rabs_R0. unfold gap, turn, norm3, vsub. rewrite E. cbn [vx vy vz]. rewrite !Rminus_eq_0, Rabs_R0, !Rmult_0_l, !Rplus_0_r, sqrt_0. auto. }
  assert (Uv : 0 <= uu * k_speed B <= / 1000000 * k_speed B) by (split; [apply Rmult_le_pos; [unfold uu|]; lra|apply Rmult_le_compat_r; [lra|unfold uu; lra]]).
  assert (Ua : 0 <= uu * k_acc B <= / 1000000 * k_acc B) by (split; [apply Rmult_le_pos; [unfold uu|]; lra|apply Rmult_le_compat_r; [lra|unfold uu; lra]]).
  pose proof V as V2. pose proof Acc as Acc2. apply abs_inv in V2, Acc2.
  assert (Sum : length3 A' B' + extruded A' B' <= 1001 / 1000 * (gap A B + turn A B)).
  { pose proof GL as GL2. pose proof GE as GE2. apply abs_inv in GL2, GE2. destruct St as [E|(_ & [[E L]|[L T]])].
    - destruct (Still E) as (E1 & E2 & E3). rewrite (Flat' E1), E3. lra.
    - rewrite (Flat' E). lra.
    - lra. }
  assert (IV : / gk_speed k B' <= 1001 / 1000 * / k_speed B).
  { replace (1001 / 1000 * / k_speed B) with (/ (1000 / 1001 * k_speed B)) by (field; lra). apply Rinv_le_contravar; lra. }
  assert (IA : / gk_acc k B' <= 1001 / 1000 * / k_acc B).
  { replace (1001 / 1000 * / k_acc B) with (/ (1000 / 1001 * k_acc B)) by (field; lra). apply Rinv_le_contravar; lra. }
  assert (IV0 : 0 < / gk_speed k B') by (apply Rinv_0_lt_compat; lra). assert (IA0 : 0 < / gk_acc k B') by (apply Rinv_0_lt_compat; lra).
  assert (P : match k_pause B with
              | None => gk_pause k B' = None
              | Some x => exists y : R, gk_pause k B' = Some y /\ 0 <= y /\ Rabs (y - x) <= 3 * (uu * x) + 3 * eta end).
  { destruct (k_pause B) as [x|]; [|exact W]. destruct (Hp x eq_refl) as [X _]. destruct W as (y & Y & Q). exists y. split; [exact Y|].
    destruct Q as [-> | ->]; (split; [apply pos|]).
    - exact X. - apply once, X.
    - apply Rmult_le_pos; [apply pos; lra|lra]. - apply twice; lra. }
  clear W. assert (Ue : eta <= / 1000000000000000) by (unfold uu in *; lra).
  split; [|split; [|split; [|]]].
  - unfold ordinary_step. destruct (k_pause B) as [x|].
    + destruct P as (y & -> & Y & _). split; [exact Y|]. apply Same, (Hp x eq_refl).
    + rewrite P. pose proof GL as GL2. pose proof GE as GE2. apply abs_inv in GL2, GE2. destruct St as [E|(_ & [[E L]|[L T]])].
      * left. apply Same, E.
      * right. left. split; [apply Flat, E|lra].
      * right. right. lra.
  - intros N E. pose proof GL as GL2. pose proof GE as GE2. apply abs_inv in GL2, GE2.
    assert (Z1 : length3 A' B' = 0) by (apply length3_still, near_same, E). assert (Z2 : extruded A' B' = 0) by (unfold extruded; rewrite E, Rminus_eq_0, Rabs_R0; reflexivity).
    destruct St as [C|(_ & [[_ L]|[L T]])]; [contradiction|lra|lra].
  - unfold line_time.
    assert (L0 : 0 <= length3 A' B' + extruded A' B') by (apply Rplus_le_le_0_compat; [apply sqrt_pos|apply Rabs_pos]).
    assert (X1 : (length3 A' B' + extruded A' B') / gk_speed k B' <= 1001 / 1000 * (gap A B + turn A B) * (1001 / 1000 * / k_speed B)) by (apply Rmult_le_compat; lra).
    assert (X2 : gk_speed k B' / gk_acc k B' <= 1001 / 1000 * k_speed B * (1001 / 1000 * / k_acc B)) by (apply Rmult_le_compat; lra).
    assert (Y1 : 0 <= (gap A B + turn A B) / k_speed B) by (apply Rmult_le_pos; [lra|left; apply Rinv_0_lt_compat; lra]).
    assert (Y2 : 0 <= k_speed B / k_acc B) by (apply Rmult_le_pos; [lra|left; apply Rinv_0_lt_compat; lra]).
    assert (Z1 : 1001 / 1000 * (gap A B + turn A B) * (1001 / 1000 * / k_speed B) = 1002001 / 1000000 * ((gap A B + turn A B) / k_speed B)) by (field; lra).
    assert (Z2 : 1001 / 1000 * k_speed B * (1001 / 1000 * / k_acc B) = 1002001 / 1000000 * (k_speed B / k_acc B)) by (field; lra).
    destruct (k_pause B) as [x|].
    + destruct P as (y & -> & Y & D). apply abs_inv in D. destruct (Hp x eq_refl) as [X _].
      assert (uu * x <= / 1000 * x) by (apply Rmult_le_compat_r; [exact X|unfold uu; lra]). lra.
    + rewrite P. lra.
  - destruct (k_pause B) as [x|] eqn:EP.
    + destruct P as (y & Py & Y & D). unfold stop_time. rewrite EP. change (k_pause (exact_state B')) with (gk_pause k B'). rewrite Py. destruct (Hp x eq_refl) as [X _]. split; [exact X|].
      eapply Rle_trans; [exact D|]. assert (3 * (uu * x) <= / 1000000000000000 * x) by (rewrite <- Rmult_assoc; apply Rmult_le_compat_r; [exact X|unfold uu; lra]). unfold step_off. lra.
    + rewrite (stop_is A B EP).
      assert (Main : forall l l' : R, 2 / 1000 <= l -> Rabs (l' - l) <= 9 / 1000000000000 ->
        0 <= stop_in l (k_speed B) (k_acc B) /\
        Rabs (stop_in l' (gk_speed k B') (gk_acc k B') - stop_in l (k_speed B) (k_acc B)) <= step_off + / 1000000000000000 * stop_in l (k_speed B) (k_acc B)).
      { intros l l' L D. assert (Il : 0 < / l <= 500) by (split; [apply Rinv_0_lt_compat; lra|replace 500 with (/ (2 / 1000)) by lra; apply Rinv_le_contravar; lra]).
        pose proof (stop_in_pos l (k_speed B) (k_acc B) ltac:(lra) ltac:(lra) ltac:(lra)) as SP. split; [lra|].
        assert (E : 0 <= 9 / 1000000000000 * / l + 4 * uu <= / 1000) by (unfold uu; lra).
        eapply Rle_trans; [apply (stop_close (9 / 1000000000000 * / l + 4 * uu)); try lra|].
        - rewrite Rmult_plus_distr_r. replace (9 / 1000000000000 * / l * l) with (9 / 1000000000000) by (field; lra). assert (0 <= 4 * uu * l) by (apply Rmult_le_pos; unfold uu; lra). lra.
        - eapply Rle_trans; [exact V|]. rewrite <- Rmult_assoc. apply Rmult_le_compat_r; lra.
        - eapply Rle_trans; [exact Acc|]. rewrite <- Rmult_assoc. apply Rmult_le_compat_r; lra.
        - pose proof (stop_rate l (k_speed B) (k_acc B) L ltac:(lra) ltac:(lra)) as R. set (S := stop_in l (k_speed B) (k_acc B)) in *.
          assert (RS : / l * S <= 100) by (apply Rmult_le_reg_l with l; [lra|]; replace (l * (/ l * S)) with S by (field; lra); lra).
          replace (21 / 10 * ((9 / 1000000000000 * / l + 4 * uu) * S)) with (189 / 10000000000000 * (/ l * S) + 84 / 10 * uu * S) by (field; lra).
          assert (84 / 10 * uu * S <= / 1000000000000000 * S) by (apply Rmult_le_compat_r; [lra|unfold uu; lra]). unfold step_off. lra. }
      destruct St as [E|(_ & [[E L]|[L T]])].
      * rewrite (stop_still rnd A' B' P OB (Same E)). destruct (Still E) as (E1 & E2 & _). destruct (Req_EM_T (gap A B) 0) as [_|C]; [|contradiction]. rewrite E2.
        assert (Z : stop_in 0 (k_speed B) (k_acc B) = 0).
        { unfold stop_in. destruct (Rlt_dec _ 0) as [C|_]; [|unfold Rdiv; rewrite Rmult_0_l, sqrt_0; ring]. exfalso.
          assert (0 <= k_speed B * k_speed B / k_acc B); [|lra]. apply Rmult_le_pos; [apply Rle_0_sqr|left; apply Rinv_0_lt_compat; lra]. }
        rewrite Z, Rminus_eq_0, Rabs_R0. unfold step_off. lra.
      * rewrite (stop_turning rnd A' B' P (Flat' E)). destruct (Req_EM_T (gap A B) 0) as [_|C]; [|contradiction]. apply Main; [exact L|]. eapply Rle_trans; [exact GE|lra].
      * assert (Z : length3 A' B' <> 0) by (apply abs_inv in GL; lra). rewrite (stop_moving rnd A' B' P Z). destruct (Req_EM_T (gap A B) 0) as [C|_]; [lra|]. apply Main; [exact L|]. eapply Rle_trans; [exact GL|lra].
Qed.
Fixpoint calm_waits (A : kstate) (states : list kstate) : Prop :=
  match states with [] => True | B :: rest => (forall p, k_pause B = Some p -> 0 <= p /\ k_pos B = k_pos A) /\ calm_waits B rest end.
Lemma program_read D states : D <= 1 -> forall A A' ts (M : Prop), Forall tame_state (A :: states) -> tame_steps A states -> calm_waits A states -> M \/ moves_first A states ->
  reads A A' -> e_near rnd 1 A A' -> reads_on rnd dl D A A' states ts ->
  length ts = length states /\ Forall ordinary_state (A' :: ts) /\ ordinary_steps M A' ts /\ program_time A' ts <= 101 / 100 * most_sum A states + INR (length states) * / 1000000000000 /\
  0 <= stop_sum A states /\ Rabs (stop_times A' ts - stop_sum A states) <= INR (length states) * step_off + / 1000000000000000 * stop_sum A states.
Proof.
  intros HD. induction states as [|B states IH]; intros A A' ts M F St Cw Mv RA NA Rs; (destruct ts as [|B' ts']; try contradiction Rs); inversion F as [|? ? FA F']; subst.
  - split; [reflexivity|]. split; [constructor; [exact (proj1 (state_read _ _ FA RA NA))|constructor]|]. cbn [ordinary_steps program_time most_sum stop_sum stop_times length INR]. split; [exact I|]. rewrite Rminus_eq_0, Rabs_R0. lra.
  - inversion F' as [|? ? FB _]; subst. destruct St as [S1 S2]. destruct Cw as [C1 C2]. destruct Rs as (RB & NB & Tu1 & Tu2 & Rs').
    assert (NB' : e_near rnd 1 B B') by (unfold e_near in *; lra).
    destruct (step_read A B A' B' FA FB S1 C1 RA RB NA NB' (conj Tu1 Tu2)) as (O & Df & L & T0 & T).
    assert (Mv' : (M \/ gk_pos k B' <> gk_pos k A') \/ moves_first B states). { destruct Mv as [Q|[_ [Q|Q]]]; [left; left; exact Q|left; right; apply Df, Q|right; exact Q]. }
    destruct (IH B B' ts' _ F' S2 C2 Mv' RB NB' Rs') as (Len & OF & OS & LL & TT0 & TT).
    split; [cbn [length]; rewrite Len; reflexivity|]. split; [constructor; [exact (proj1 (state_read _ _ FA RA NA))|exact OF]|]. cbn [ordinary_steps program_time most_sum stop_sum stop_times]. cbn [length]. rewrite S_INR.
    split; [|split; [|split]].
    + split; [exact O|]. split; [|exact OS]. intros N. destruct Mv as [Q|[Q _]]; [exact Q|]. exfalso. apply N. destruct RB as (_ & _ & _ & _ & W). rewrite Q in W. exact W.
    + lra.
    + lra.
    + replace (stop_time (exact_state A') (exact_state B') + stop_times B' ts' - (stop_time A B + stop_sum B states))
        with ((stop_time (exact_state A') (exact_state B') - stop_time A B) + (stop_times B' ts' - stop_sum B states)) by ring.
      eapply Rle_trans; [apply Rabs_triang|]. lra.
Qed.
End Times.
Lemma waits_calm cs : Forall sensible cs -> forall h w, calm_waits (request h w) (requests h cs).
Proof.
  induction 1 as [|c cs Hc _ IH]; intros h w; [exact I|]. cbn [requests calm_waits]. split; [|apply IH]. cbn [request k_pause k_pos]. intros p E.
  split; [exact (rest_ok c Hc p E)|]. rewrite (rest_still c h p E). reflexivity.
Qed.
