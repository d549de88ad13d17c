(** Lemmas on the print time. *)
From Coq Require Import Reals Lra.
From Verif Require Import Py Vec Segment Junction Planner RealFacts SpecKin SpecJunction SpecQuery SpecTime MoveProofs SegProofs
     JunctionProofs CorrectProofs PlannerProofs TrajProofs PlanFacts FirmwareProofs.
Open Scope R_scope.

Lemma rising f f' x y : x <= y -> (forall c, x <= c <= y -> derivable_pt_lim f c (f' c) /\ 0 <= f' c) -> f x <= f y.
Proof.
  intros Hxy H. destruct (Rle_lt_or_eq_dec _ _ Hxy) as [Hlt| ->]; [|lra].
  destruct (MVT_cor2 f f' x y Hlt) as (c & E & Hc); [intros c Hc; apply H; exact Hc|].
  destruct (H c) as [_ Hp]; [lra|]. assert (0 <= f' c * (y - x)) by (apply Rmult_le_pos; lra). lra.
Qed.
Lemma quad_derive p q r t : derivable_pt_lim (fun t => p + q * t + r * (t * t)) t (q + 2 * r * t).
Proof.
  replace (q + 2 * r * t) with (0 + q * 1 + r * (1 * t + t * 1)) by ring.
  apply (derivable_pt_lim_plus (fun t => p + q * t) (fun t => r * (t * t))).
  - apply (derivable_pt_lim_plus (fun _ => p) (fun t => q * t)); [apply derivable_pt_lim_const|].
    apply (derivable_pt_lim_scal (fun t => t)). apply derivable_pt_lim_id.
  - apply (derivable_pt_lim_scal (fun t => t * t)).
    apply (derivable_pt_lim_mult (fun t => t) (fun t => t)); apply derivable_pt_lim_id.
Qed.

(** Below a parabola: the distance driven with a speed below a line. *)
Lemma below g s p q r x y : x <= y ->
  (forall t, x <= t <= y -> derivable_pt_lim g t (s t) /\ s t <= q + 2 * r * t) ->
  g y - g x <= (p + q * y + r * (y * y)) - (p + q * x + r * (x * x)).
Proof.
  intros Hxy H.
  pose proof (rising (fun t => (p + q * t + r * (t * t)) - g t) (fun t => (q + 2 * r * t) - s t) x y Hxy) as R.
  cbv beta in R. cut ((p + q * x + r * (x * x)) - g x <= (p + q * y + r * (y * y)) - g y); [lra|].
  apply R. intros c Hc. destruct (H c Hc) as [H1 H2]. split; [|lra].
  apply (derivable_pt_lim_minus (fun t => p + q * t + r * (t * t)) g); [apply quad_derive | exact H1].
Qed.
Lemma above g s p q r x y : x <= y ->
  (forall t, x <= t <= y -> derivable_pt_lim g t (s t) /\ q + 2 * r * t <= s t) ->
  (p + q * y + r * (y * y)) - (p + q * x + r * (x * x)) <= g y - g x.
Proof.
  intros Hxy H.
  pose proof (rising (fun t => g t - (p + q * t + r * (t * t))) (fun t => s t - (q + 2 * r * t)) x y Hxy) as R.
  cbv beta in R. cut (g x - (p + q * x + r * (x * x)) <= g y - (p + q * y + r * (y * y))); [lra|].
  apply R. intros c Hc. destruct (H c Hc) as [H1 H2]. split; [|lra].
  apply (derivable_pt_lim_minus g (fun t => p + q * t + r * (t * t))); [exact H1 | apply quad_derive].
Qed.

Section Drive.
Variables (a vm L u0 u1 T : R) (g s : R -> R).
Hypothesis (Ha : 0 < a) (D : drive a vm L u0 u1 T g s).

Lemma drive_lip t : 0 <= t <= T -> u0 - a * t <= s t <= u0 + a * t /\ u1 - a * (T - t) <= s t <= u1 + a * (T - t).
Proof.
  intros Ht. destruct D as [H0 _ _ Hb He _ _ Hl].
  pose proof (Hl 0 t ltac:(lra) Ht) as H1. pose proof (Hl t T Ht ltac:(lra)) as H2. rewrite Hb in H1. rewrite He in H2.
  rewrite (Rabs_right (t - 0)) in H1 by lra. rewrite (Rabs_right (T - t)) in H2 by lra.
  unfold Rabs in H1, H2. destruct (Rcase_abs (s t - u0)), (Rcase_abs (u1 - s t)); lra.
Qed.
Lemma drive_first t : 0 <= t <= T -> g t <= u0 * t + a * (t * t) / 2.
Proof.
  intros Ht. pose proof (below g s 0 u0 (a / 2) 0 t (proj1 Ht)) as H. rewrite (dr_from _ _ _ _ _ _ _ _ D) in H.
  cut (g t - 0 <= 0 + u0 * t + a / 2 * (t * t) - (0 + u0 * 0 + a / 2 * (0 * 0))); [lra|]. apply H.
  intros c Hc. split; [apply (dr_moves _ _ _ _ _ _ _ _ D); lra|]. destruct (drive_lip c) as [[_ H1] _]; lra.
Qed.
Lemma drive_mid t t' : 0 <= t -> t <= t' -> t' <= T -> g t' - g t <= vm * (t' - t).
Proof.
  intros H0 H1 H2. pose proof (below g s 0 vm 0 t t' H1) as H.
  cut (g t' - g t <= 0 + vm * t' + 0 * (t' * t') - (0 + vm * t + 0 * (t * t))); [lra|]. apply H.
  intros c Hc. split; [apply (dr_moves _ _ _ _ _ _ _ _ D); lra|]. pose proof (dr_speed _ _ _ _ _ _ _ _ D c). lra.
Qed.
Lemma drive_last t : 0 <= t <= T -> L - g t <= u1 * (T - t) + a * ((T - t) * (T - t)) / 2.
Proof.
  intros Ht. pose proof (below g s 0 (u1 + a * T) (- (a / 2)) t T (proj2 Ht)) as H. rewrite (dr_to _ _ _ _ _ _ _ _ D) in H.
  cut (L - g t <= 0 + (u1 + a * T) * T + - (a / 2) * (T * T) - (0 + (u1 + a * T) * t + - (a / 2) * (t * t))); [lra|]. apply H.
  intros c Hc. split; [apply (dr_moves _ _ _ _ _ _ _ _ D); lra|]. destruct (drive_lip c) as [_ [_ H1]]; lra.
Qed.
Lemma drive_reach : 0 <= u0 /\ 0 <= u1 /\ u0 <= vm /\ u1 <= vm /\ Rabs (u1 * u1 - u0 * u0) <= 2 * a * L.
Proof.
  pose proof D as [H0 Hf Ht Hb He Hm Hs _].
  pose proof (Hs 0 ltac:(lra)) as S0. pose proof (Hs T ltac:(lra)) as S1. rewrite Hb in S0. rewrite He in S1.
  split; [lra|]. split; [lra|]. split; [lra|]. split; [lra|].
  assert (Mono : forall x y, 0 <= x -> x <= y -> y <= T -> g x <= g y).
  { intros x y Hx Hxy Hy. apply (rising g s); [exact Hxy|]. intros c Hc. split; [apply Hm; lra|]. apply Hs; lra. }
  destruct (drive_lip T ltac:(lra)) as [[L1 L2] _]. rewrite He in L1, L2.
  assert (Div : forall x, 0 <= x -> x <= a * T -> 0 <= x / a /\ x / a <= T /\ a * (x / a) = x).
  { intros x Hx Hx'. assert (E : a * (x / a) = x) by (field; lra). split; [apply Rdiv_nonneg; lra|]. split; [|exact E].
    apply Rmult_le_reg_l with a; [exact Ha|]. rewrite E. exact Hx'. }
  unfold Rabs. destruct (Rcase_abs (u1 * u1 - u0 * u0)) as [G|G].
  - assert (u1 < u0) by nra. destruct (Div (u0 - u1) ltac:(lra) ltac:(lra)) as (T0 & T1 & E). set (tau := (u0 - u1) / a) in *.
    pose proof (above g s 0 u0 (- (a / 2)) 0 tau T0) as Q. rewrite Hf in Q.
    assert (Q' : 0 + u0 * tau + - (a / 2) * (tau * tau) - (0 + u0 * 0 + - (a / 2) * (0 * 0)) <= g tau - 0).
    { apply Q. intros c Hc. split; [apply Hm; lra|]. destruct (drive_lip c) as [[H1 _] _]; lra. }
    pose proof (Mono tau T T0 T1 ltac:(lra)). rewrite Ht in *.
    assert (X : 2 * a * (u0 * tau - a / 2 * (tau * tau)) = u0 * u0 - u1 * u1).
    { replace (2 * a * (u0 * tau - a / 2 * (tau * tau))) with (2 * u0 * (a * tau) - (a * tau) * (a * tau)) by field. rewrite E. ring. }
    assert (0 <= 2 * a * (L - (u0 * tau - a / 2 * (tau * tau)))) by (apply Rmult_le_pos; lra). lra.
  - assert (u0 <= u1) by nra. destruct (Div (u1 - u0) ltac:(lra) ltac:(lra)) as (T0 & T1 & E). set (tau := (u1 - u0) / a) in *.
    pose proof (above g s 0 (u1 - a * T) (a / 2) (T - tau) T ltac:(lra)) as Q. rewrite Ht in Q.
    assert (Q' : 0 + (u1 - a * T) * T + a / 2 * (T * T) - (0 + (u1 - a * T) * (T - tau) + a / 2 * ((T - tau) * (T - tau))) <= L - g (T - tau)).
    { apply Q. intros c Hc. split; [apply Hm; lra|]. destruct (drive_lip c) as [_ [H1 _]]; lra. }
    pose proof (Mono 0 (T - tau) ltac:(lra) ltac:(lra) ltac:(lra)). rewrite Hf in *.
    assert (X : 2 * a * (u1 * tau - a / 2 * (tau * tau)) = u1 * u1 - u0 * u0).
    { replace (2 * a * (u1 * tau - a / 2 * (tau * tau))) with (2 * u1 * (a * tau) - (a * tau) * (a * tau)) by field. rewrite E. ring. }
    assert (0 <= 2 * a * (L - (u1 * tau - a / 2 * (tau * tau)))) by (apply Rmult_le_pos; nra). lra.
Qed.

Lemma swift_least v0 v1 T0 : swift a vm L v0 v1 T0 -> 0 <= v0 -> 0 <= v1 -> u0 <= v0 -> u1 <= v1 -> T0 <= T.
Proof.
  intros (vp & c & H0 & H1 & Hc & Hvp & Hvm & Hor & EL & ->) P0 P1 Q0 Q1.
  set (tu := (vp - v0) / a) in *. set (td := (vp - v1) / a) in *.
  assert (Eu : a * tu = vp - v0) by (unfold tu; field; lra). assert (Ed : a * td = vp - v1) by (unfold td; field; lra).
  assert (Hu : 0 <= tu) by (apply Rdiv_nonneg; lra). assert (Hd : 0 <= td) by (apply Rdiv_nonneg; lra).
  assert (Hcv : 0 <= c / vp) by (apply Rdiv_nonneg; lra). assert (Ecv : vp * (c / vp) = c) by (field; lra).
  assert (EL' : L = v0 * tu + a * (tu * tu) / 2 + c + v1 * td + a * (td * td) / 2).
  { rewrite EL. unfold tu, td. field. lra. }
  pose proof (dr_time _ _ _ _ _ _ _ _ D) as HT.
  destruct (Rle_lt_dec (tu + td) T) as [Hl|Hl].
  - pose proof (drive_first tu ltac:(lra)) as F. pose proof (drive_mid tu (T - td) ltac:(lra) ltac:(lra) ltac:(lra)) as M.
    pose proof (drive_last (T - td) ltac:(lra)) as E. replace (T - (T - td)) with td in E by ring.
    assert (u0 * tu <= v0 * tu) by (apply Rmult_le_compat_r; lra). assert (u1 * td <= v1 * td) by (apply Rmult_le_compat_r; lra).
    assert (K : c <= vm * (T - td - tu)) by lra.
    destruct Hor as [-> | ->].
    + assert (vm * (c / vm) <= vm * (T - td - tu)) by lra. assert (c / vm <= T - td - tu) by (apply Rmult_le_reg_l with vm; lra). lra.
    + replace (0 / vp) with 0 by (field; lra). lra.
  - exfalso. set (t1 := Rmin tu T).
    assert (T1 : 0 <= t1 <= T) by (unfold t1; split; [apply Rmin_glb; lra | apply Rmin_r]).
    assert (T2 : t1 <= tu) by apply Rmin_l. assert (T3 : T - t1 <= td) by (unfold t1, Rmin; destruct (Rle_dec tu T); lra).
    pose proof (drive_first t1 T1) as F. pose proof (drive_last t1 T1) as E.
    set (t2 := T - t1) in *. assert (T4 : 0 <= t2) by (unfold t2; lra). assert (T5 : t1 + t2 < tu + td) by (unfold t2; lra). clearbody t1 t2.
    assert (A1 : u0 * t1 <= v0 * tu) by (apply Rle_trans with (v0 * t1); [apply Rmult_le_compat_r | apply Rmult_le_compat_l]; lra).
    assert (A2 : u1 * t2 <= v1 * td) by (apply Rle_trans with (v1 * t2); [apply Rmult_le_compat_r | apply Rmult_le_compat_l]; lra).
    assert (A3 : t1 * t1 + t2 * t2 < tu * tu + td * td).
    { clear - T1 T2 T3 T4 T5. assert (Le : forall x y, 0 <= x -> x <= y -> x * x <= y * y) by (intros; nra).
      assert (Lt : forall x y, 0 <= x -> x < y -> x * x < y * y) by (intros; nra).
      destruct (Rlt_le_dec t1 tu); [pose proof (Lt t1 tu); pose proof (Le t2 td) | pose proof (Le t1 tu); pose proof (Lt t2 td)]; lra. }
    assert (A4 : a * (t1 * t1 + t2 * t2) < a * (tu * tu + td * td)) by (apply Rmult_lt_compat_l; assumption). lra.
Qed.
End Drive.

(** ** Drives exist: the profile of a swift move is one *)
Definition pos (x : R) : R := Rmax 0 x.
Lemma pos_cases x : (0 <= x /\ pos x = x) \/ (x <= 0 /\ pos x = 0).
Proof. unfold pos, Rmax. destruct (Rle_dec 0 x); [left | right]; lra. Qed.
Lemma pos_sq_derive k x : derivable_pt_lim (fun t => pos (t - k) * pos (t - k)) x (2 * pos (x - k)).
Proof.
  intros eps He. exists (mkposreal eps He). cbn [pos]. intros h Hh Hlt. cbn in Hlt.
  assert (B : Rabs (pos (x + h - k) * pos (x + h - k) - pos (x - k) * pos (x - k) - 2 * pos (x - k) * h) <= h * h).
  { replace (x + h - k) with ((x - k) + h) by ring. set (y := x - k). clearbody y.
    destruct (pos_cases y) as [[G ->]|[G ->]], (pos_cases (y + h)) as [[G' ->]|[G' ->]]; apply Rabs_le; split; nra. }
  replace ((pos (x + h - k) * pos (x + h - k) - pos (x - k) * pos (x - k)) / h - 2 * pos (x - k))
    with ((pos (x + h - k) * pos (x + h - k) - pos (x - k) * pos (x - k) - 2 * pos (x - k) * h) / h) by (field; exact Hh).
  unfold Rdiv. rewrite Rabs_mult, Rabs_inv. assert (Hp : 0 < Rabs h) by (apply Rabs_pos_lt; exact Hh).
  apply Rle_lt_trans with (h * h * / Rabs h); [apply Rmult_le_compat_r; [left; apply Rinv_0_lt_compat; exact Hp | exact B]|].
  replace (h * h) with (Rabs h * Rabs h) by (rewrite <- Rabs_mult; apply Rabs_right; nra).
  replace (Rabs h * Rabs h * / Rabs h) with (Rabs h) by (field; lra). exact Hlt.
Qed.

Lemma swift_drive a vm L v0 v1 T : 0 < a -> 0 <= v0 -> 0 <= v1 -> swift a vm L v0 v1 T -> exists g s, drive a vm L v0 v1 T g s.
Proof.
  intros Ha P0 P1 (vp & c & H0 & H1 & Hc & Hvp & Hvm & _ & EL & ET).
  set (tu := (vp - v0) / a) in *. set (td := (vp - v1) / a) in *. set (tc := c / vp) in *.
  assert (Eu : a * tu = vp - v0) by (unfold tu; field; lra). assert (Ed : a * td = vp - v1) by (unfold td; field; lra).
  assert (Ec : vp * tc = c) by (unfold tc; field; lra).
  assert (Hu : 0 <= tu) by (apply Rdiv_nonneg; lra). assert (Hd : 0 <= td) by (apply Rdiv_nonneg; lra).
  assert (Ht : 0 <= tc) by (apply Rdiv_nonneg; lra).
  assert (EL' : L = v0 * tu + a * (tu * tu) / 2 + c + v1 * td + a * (td * td) / 2) by (rewrite EL; unfold tu, td; field; lra).
  clearbody tu td tc. clear EL.
  exists (fun t => 0 + v0 * t + a / 2 * (t * t) - a / 2 * (pos (t - tu) * pos (t - tu)) - a / 2 * (pos (t - (tu + tc)) * pos (t - (tu + tc)))),
         (fun t => v0 + 2 * (a / 2) * t - a / 2 * (2 * pos (t - tu)) - a / 2 * (2 * pos (t - (tu + tc)))).
  constructor.
  - lra.
  - assert (E : pos (0 - tu) = 0) by (destruct (pos_cases (0 - tu)) as [[G E]|[G E]]; rewrite E; lra).
    assert (E' : pos (0 - (tu + tc)) = 0) by (destruct (pos_cases (0 - (tu + tc))) as [[G E']|[G E']]; rewrite E'; lra).
    rewrite E, E'. field.
  - assert (E : pos (T - tu) = tc + td) by (destruct (pos_cases (T - tu)) as [[G E]|[G E]]; rewrite E; lra).
    assert (E' : pos (T - (tu + tc)) = td) by (destruct (pos_cases (T - (tu + tc))) as [[G E']|[G E']]; rewrite E'; lra).
    rewrite E, E', ET, EL', <- Ec. assert (Q0 : v0 = vp - a * tu) by lra. assert (Q1 : v1 = vp - a * td) by lra. rewrite Q0, Q1. field.
  - assert (E : pos (0 - tu) = 0) by (destruct (pos_cases (0 - tu)) as [[G E]|[G E]]; rewrite E; lra).
    assert (E' : pos (0 - (tu + tc)) = 0) by (destruct (pos_cases (0 - (tu + tc))) as [[G E']|[G E']]; rewrite E'; lra).
    rewrite E, E'. field.
  - assert (E : pos (T - tu) = tc + td) by (destruct (pos_cases (T - tu)) as [[G E]|[G E]]; rewrite E; lra).
    assert (E' : pos (T - (tu + tc)) = td) by (destruct (pos_cases (T - (tu + tc))) as [[G E']|[G E']]; rewrite E'; lra).
    rewrite E, E', ET. assert (Q0 : v0 = vp - a * tu) by lra. assert (Q1 : v1 = vp - a * td) by lra. rewrite Q0, Q1. field.
  - intros t _.
    apply (derivable_pt_lim_minus (fun t => 0 + v0 * t + a / 2 * (t * t) - a / 2 * (pos (t - tu) * pos (t - tu)))
                                  (fun t => a / 2 * (pos (t - (tu + tc)) * pos (t - (tu + tc))))).
    + apply (derivable_pt_lim_minus (fun t => 0 + v0 * t + a / 2 * (t * t)) (fun t => a / 2 * (pos (t - tu) * pos (t - tu)))); [apply quad_derive|].
      apply (derivable_pt_lim_scal (fun t => pos (t - tu) * pos (t - tu))). apply pos_sq_derive.
    + apply (derivable_pt_lim_scal (fun t => pos (t - (tu + tc)) * pos (t - (tu + tc)))). apply pos_sq_derive.
  - intros t Hb. assert (X : a * t <= a * T) by (apply Rmult_le_compat_l; lra). rewrite ET in X.
    assert (Y : 0 <= a * t) by (apply Rmult_le_pos; lra).
    destruct (pos_cases (t - tu)) as [[G E]|[G E]], (pos_cases (t - (tu + tc))) as [[G' E']|[G' E']]; rewrite E, E'.
    + assert (a * (t - (tu + tc)) <= a * td) by (apply Rmult_le_compat_l; lra). assert (0 <= a * (t - (tu + tc))) by (apply Rmult_le_pos; lra). lra.
    + lra.
    + assert (0 <= a * tc) by (apply Rmult_le_pos; lra). assert (tc = 0) by lra. assert (t = tu) by lra. subst. lra.
    + assert (a * t <= a * tu) by (apply Rmult_le_compat_l; lra). lra.
  - intros t t' _ _.
    replace (v0 + 2 * (a / 2) * t' - a / 2 * (2 * pos (t' - tu)) - a / 2 * (2 * pos (t' - (tu + tc)))
             - (v0 + 2 * (a / 2) * t - a / 2 * (2 * pos (t - tu)) - a / 2 * (2 * pos (t - (tu + tc)))))
      with (a * ((t' - pos (t' - tu) - pos (t' - (tu + tc))) - (t - pos (t - tu) - pos (t - (tu + tc))))) by field.
    rewrite Rabs_mult, (Rabs_right a) by lra. apply Rmult_le_compat_l; [lra|].
    destruct (pos_cases (t - tu)) as [[G1 ->]|[G1 ->]], (pos_cases (t - (tu + tc))) as [[G2 ->]|[G2 ->]],
             (pos_cases (t' - tu)) as [[G3 ->]|[G3 ->]], (pos_cases (t' - (tu + tc))) as [[G4 ->]|[G4 ->]];
      apply Rabs_le; unfold Rabs; destruct (Rcase_abs (t' - t)); lra.
Qed.
Lemma swift_stop a v L : 0 < a -> 0 < v -> 0 < L -> swift a v L 0 0 (if Rlt_dec (v * v / a) L then v / a + L / v else 2 * sqrt (L / a)).
Proof.
  intros Ha Hv HL. destruct (Rlt_dec (v * v / a) L) as [H|H].
  - exists v, (L - v * v / a). split; [lra|]. split; [lra|]. split; [lra|]. split; [lra|]. split; [lra|]. split; [left; reflexivity|].
    split; field; lra.
  - assert (HaL : 0 < a * L) by (apply Rmult_lt_0_compat; assumption).
    assert (E : sqrt (a * L) = a * sqrt (L / a)).
    { rewrite <- (sqrt_square a) at 2 by lra. rewrite <- sqrt_mult; [f_equal; field; lra | apply Rmult_le_pos; lra | apply Rdiv_nonneg; lra]. }
    assert (S : sqrt (a * L) * sqrt (a * L) = a * L) by (apply sqrt_sqrt; lra).
    assert (Hs : 0 < sqrt (a * L)) by (apply sqrt_lt_R0; exact HaL).
    exists (sqrt (a * L)), 0. split; [lra|]. split; [lra|]. split; [lra|]. split; [exact Hs|]. split.
    { apply Rnot_lt_le in H. assert (a * L <= v * v).
      { replace (v * v) with (a * (v * v / a)) by (field; lra). apply Rmult_le_compat_l; lra. }
      apply sqrt_le_sq; lra. }
    split; [right; reflexivity|]. split; [rewrite S; field; lra|].
    replace (sqrt (L / a)) with (sqrt (a * L) / a) by (rewrite E; field; lra). field. split; lra.
Qed.

(** ** The whole program *)
(** [driven] with the list of the corner speeds. *)
Inductive timed (fw : firmware) : R -> list item -> list R -> R -> Prop :=
| td_nil w : timed fw w [] [] 0
| td_dwell A B rest p items wl T :
    k_pause B = Some p -> timed fw 0 items wl T -> timed fw 0 ((A, B, rest) :: items) (0 :: wl) (p + T)
| td_move A B rest w w' T1 g s items wl T :
    k_pause B = None -> drive (k_acc B) (k_speed B) (move_length A B) w w' T1 g s ->
    (norm3 (vsub (k_pos B) (k_pos A)) = 0 -> w = 0 /\ w' = 0) ->
    timed fw w' items wl T -> timed fw w ((A, B, rest) :: items) (w' :: wl) (T1 + T).
Lemma driven_timed fw w items T : Forall (fun i => 0 < k_acc (snd (fst i))) items -> driven fw w items T -> 0 <= w ->
  (forall A B rest, In (A, B, rest) items -> 0 <= corner_speed fw A B rest) ->
  exists wl, feasible fw w items wl /\ timed fw w items wl T.
Proof.
  intros Ha Hd. induction Hd as [w | A B rest p items T Hp Hd IH | A B rest w w' T1 g s items T Hp Hdr Hc Hz Hd IH]; intros Hw Hj.
  - exists []. split; constructor.
  - inversion Ha as [|? ? _ Ha']; subst. destruct IH as (wl & Hf & Ht); [assumption | lra | intros; apply Hj; right; assumption |].
    exists (0 :: wl). split; constructor; try assumption; [|apply Hj; left; reflexivity]. split; [lra|]. split; [lra|]. left; split; reflexivity.
  - inversion Ha as [|? ? HaB Ha']; subst. cbn in HaB. pose proof (drive_reach _ _ _ _ _ _ _ _ HaB Hdr) as (R1 & R2 & R3 & R4 & R5).
    destruct IH as (wl & Hf & Ht); [assumption | lra | intros; apply Hj; right; assumption |].
    assert (Hz' : norm3 (vsub (k_pos B) (k_pos A)) = 0 -> w = 0 /\ w' = 0).
    { intros E. apply norm3_zero_inv in E. destruct E as (E1 & E2 & E3). simpl in E1, E2, E3. apply Hz; lra. }
    exists (w' :: wl). split; [|econstructor; eassumption]. constructor; [|exact Hc | exact Hf]. split; [lra|]. split; [lra|].
    unfold move_length in R5. destruct (Req_EM_T (norm3 (vsub (k_pos B) (k_pos A))) 0) as [E|E].
    + left. apply Hz'. exact E.
    + right. pose proof (norm3_nonneg (vsub (k_pos B) (k_pos A))). repeat split; try assumption. lra.
Qed.

(** The end of the last segment. *)
Lemma fchain_end (P : R -> Prop) t p e w bl wl : fchain t p e w bl wl -> 
  match bl with [] => P t | _ => ends (fun s => P (t_end s)) (unpack_blocklist bl) end ->
  forall b t0 p0 s0 e0, wf_block b t0 p0 t p s0 e0 -> ends (fun s => P (t_end s)) (unpack_blocklist (b :: bl)).
Proof.
  intros Hf H b t0 p0 s0 e0 Hwf. destruct (wf_last _ _ _ _ _ _ _ Hwf) as (l & Hl & Hlt & _).
  unfold unpack_blocklist in *. cbn [flat_map]. destruct bl as [|b' bl'].
  - cbn [flat_map]. rewrite app_nil_r. apply (ends_of_last _ _ Hl). rewrite Hlt. exact H.
  - set (r := flat_map b_segs (b' :: bl')) in *. assert (Hr : r <> []).
    { inversion Hf; subst. unfold r. cbn [flat_map]. intros E. apply app_eq_nil in E. destruct E as [E _]. eapply wf_nonempty; eassumption. }
    unfold ends in *. rewrite rev_app_distr. destruct (rev r) as [|y q] eqn:E; [|exact H].
    exfalso. apply Hr. rewrite <- (rev_involutive r), E. reflexivity.
Qed.
Lemma fchain_timed fw t p e w bl wl : fchain t p e w bl wl -> forall items T,
  Forall2 (item_block fw) bl items -> timed fw w items wl T ->
  match bl with [] => t <= t + T | _ => ends (fun s => t_end s <= t + T) (unpack_blocklist bl) end.
Proof.
  induction 1 as [|t p e w b t' p' s e' w' bl wl Hwf Hs Htol Hfe Hw Hw2 Hf IH]; intros items T Hb Ht.
  - inversion Hb; subst. inversion Ht; subst. lra.
  - inversion Hb as [|? i ? items' Hi Hb']; subst. destruct i as [[A B] rest]. destruct Hi as (EA & EB & _).
    assert (Hstep : exists T1 T2, timed fw w' items' wl T2 /\ T = T1 + T2 /\ t' - t <= T1).
    { inversion Ht as [|A' B' rest' q items2 wl2 T2 Hp Ht2 | A' B' rest' w1 w1' T1 g s1 items2 wl2 T2 Hp Hdr Hz Ht2]; subst.
      - exists q, T2. split; [assumption|]. split; [reflexivity|]. inversion Hwf as [? ? ? ? ? ? ? ? Hpa|? ? dt Hpa]; subst; [congruence|].
        assert (dt = q) by congruence. lra.
      - exists T1, T2. split; [assumption|]. split; [reflexivity|].
        inversion Hwf as [t2 p2 t2' v0 v1 d eo dist Hpa Hdr' Hdir Hmd Hpos Hsc Ha Hsp Hne Hm Hsw Hcap E1 E2 E3 E4 E5 E6|? ? dt Hpa]; [|congruence].
        destruct (motion_speed_range _ _ _ _ _ _ _ _ _ _ Hm Hne) as [R0 R1].
        rewrite (move_distance_length _ _ _ _ Hmd) in Hsw.
        apply (swift_least _ _ _ _ _ _ _ _ Ha Hdr v0 v1 (t' - t)); [|lra | lra | |].
        + subst. exact Hsw.
        + destruct eo; [|subst; lra]. destruct Hz as [-> _]; [|lra].
          unfold move_distance in Hmd. destruct (Reqb_spec (t_distance (k_pos (b_B b)) (k_pos (b_A b)) false) 0) as [E|E]; [exact E|discriminate].
        + destruct eo; [|subst; lra]. destruct Hz as [_ ->]; [|lra].
          unfold move_distance in Hmd. destruct (Reqb_spec (t_distance (k_pos (b_B b)) (k_pos (b_A b)) false) 0) as [E|E]; [exact E|discriminate]. }
    destruct Hstep as (T1 & T2 & Ht2 & -> & Hle). specialize (IH _ _ Hb' Ht2).
    refine (fchain_end (fun x => x <= t + (T1 + T2)) _ _ _ _ _ _ Hf _ _ _ _ _ _ Hwf).
    destruct bl as [|b2 bl2]; [lra|]. unfold ends, starts in *. destruct (rev (unpack_blocklist (b2 :: bl2))); [exact I|lra].
Qed.

(** * Whole programs *)
Lemma move_length_positive A B : k_pos B <> k_pos A -> 0 < move_length A B.
Proof.
  intros Hn. unfold move_length. destruct (Req_EM_T (norm3 (vsub (k_pos B) (k_pos A))) 0) as [E|E].
  - apply Rabs_pos_lt. intros Ev. apply Hn. apply norm3_zero_inv in E. destruct E as (E1 & E2 & E3). simpl in *. apply vec4_ext; lra.
  - pose proof (norm3_nonneg (vsub (k_pos B) (k_pos A))). lra.
Qed.
Definition good_item (i : item) : Prop :=
  let '(A, B, _) := i in valid_state B /\ (k_pause B = None -> 0 < move_length A B).
Lemma items_good A states items : plan_items A states items -> Forall valid_state states -> Forall good_item items.
Proof.
  induction 1 as [A | A B rest l Hp Hw Hi IH | A B rest l Hor Hi IH]; intros Hv; [constructor| |]; inversion Hv as [|? ? HB Hv']; subst; [auto|].
  constructor; [|auto]. split; [exact HB|]. intros E. apply move_length_positive. destruct Hor as [H|H]; [exact H|contradiction].
Qed.

Section Whole.
Variables (fw : firmware) (s0 : kstate) (states : list kstate) (bl : list block) (wn : bool) (items : list item).
Hypothesis Hv : valid_program s0 states.
Hypothesis Hsim : simulate fw (s0 :: states) = Ok (bl, wn).
Hypothesis Hi : plan_items s0 states items.
Lemma whole_good : Forall good_item items.
Proof. apply (items_good _ _ _ Hi). destruct Hv as [H _]. inversion H; assumption. Qed.
Lemma whole_blocks : Forall2 (item_block fw) bl items.
Proof.
  destruct (simulate_inv _ _ _ _ _ Hv Hsim) as (_ & items' & Hi' & Hb & _). rewrite (plan_items_fun _ _ _ _ Hi Hi'). exact Hb.
Qed.
Lemma whole_corner A B rest : In (A, B, rest) items -> 0 <= corner_speed fw A B rest.
Proof.
  intros H. pose proof whole_good as G. rewrite Forall_forall in G. specialize (G _ H). destruct G as [(H1 & H2 & H3 & _) _].
  apply junction_vel_bounds; lra.
Qed.
Lemma whole_fastest T T' : print_time bl T -> driven fw 0 items T' -> T <= T'.
Proof.
  intros HT Hd. destruct (simulate_inv _ _ _ _ _ Hv Hsim) as (_ & items' & Hi' & Hb & Hf). rewrite <- (plan_items_fun _ _ _ _ Hi Hi') in *. clear items' Hi'.
  destruct (driven_timed fw 0 items T') as (wl & Hfe & Ht); [|exact Hd|lra|exact whole_corner|].
  { pose proof whole_good as G. eapply Forall_impl; [|exact G]. intros [[A B] r] [(H1 & H2 & H3 & _) _]. cbn. lra. }
  pose proof (fchain_timed _ _ _ _ _ _ _ (Hf _ Hfe) _ _ Hb Ht) as H. destruct HT as (pre & l & E & ->).
  destruct bl as [|b bl']; [exfalso; destruct pre; discriminate|]. unfold ends in H. rewrite E, rev_app_distr in H. simpl in H. lra.
Qed.
End Whole.

(** Stopping after every move is a way to drive the program. *)
Lemma stop_driven fw items : Forall good_item items -> (forall A B rest, In (A, B, rest) items -> 0 <= corner_speed fw A B rest) ->
  driven fw 0 items (Rsum item_stop items).
Proof.
  induction items as [|[[A B] r] items IH]; intros Hg Hc; [constructor|]. inversion Hg as [|? ? Hgi Hg']; subst. destruct Hgi as [(H1 & H2 & H3 & H4) Hl].
  assert (IH' : driven fw 0 items (Rsum item_stop items)) by (apply IH; [assumption|intros; apply Hc; right; assumption]).
  cbn [Rsum fold_right item_stop]. unfold stop_time. destruct (k_pause B) as [p|] eqn:Ep; [constructor; assumption|].
  specialize (Hl eq_refl). pose proof (swift_stop (k_acc B) (k_speed B) (move_length A B) H2 H1 Hl) as Hs.
  destruct (swift_drive _ _ _ _ _ _ H2 (Rle_refl 0) (Rle_refl 0) Hs) as (g & s & Hd).
  eapply dn_move; [exact Ep|exact Hd|apply Hc; left; reflexivity|auto|exact IH'].
Qed.

(** Blocks that begin and end at rest. *)
Lemma fchain_stop t p e w bl wl : fchain t p e w bl wl -> Forall at_rest bl ->
  match bl with [] => True | _ => ends (fun s => t_end s = t + Rsum (fun b => stop_time (b_A b) (b_B b)) bl) (unpack_blocklist bl) end.
Proof.
  induction 1 as [|t p e w b t' p' s e' w' bl wl Hwf Hs Htol Hfe Hw Hw2 Hf IH]; intros Hr; [exact I|].
  inversion Hr as [|? ? Hb Hr']; subst. specialize (IH Hr').
  assert (E : t' - t = stop_time (b_A b) (b_B b)).
  { destruct Hb as (f & l & F1 & F2 & V1 & V2). unfold stop_time.
    inversion Hwf as [t2 p2 t2' v0 v1 d eo dist Hpa Hdr' Hdir Hmd Hpos Hsc Ha Hsp Hne Hm Hsw Hcap E1 E2 E3 E4 E5 E6|? ? dt Hpa]; subst; rewrite Hpa; [|ring].
    destruct (motion_first _ _ _ _ _ _ _ _ _ _ Hm Hne) as (m & M1 & _ & _ & M2).
    destruct (motion_last _ _ _ _ _ _ _ _ _ _ Hm Hne) as (m' & M3 & _ & _ & M4).
    assert (m = f) by congruence. assert (m' = l) by congruence. subst m m'.
    assert (Z : forall v, vscale v d = vzero -> v = 0).
    { intros v E. apply (is_dir_inj d eo vzero); [exact Hdir|]. rewrite E. vec. }
    assert (v0 = 0) by (apply Z; congruence). assert (v1 = 0) by (apply Z; congruence). subst v0 v1.
    rewrite (move_distance_length _ _ _ _ Hmd) in Hsw, Hpos.
    pose proof (swift_stop _ _ _ Ha Hsp Hpos) as Hst.
    destruct (swift_drive _ _ _ _ _ _ Ha (Rle_refl 0) (Rle_refl 0) Hsw) as (g1 & s1 & D1).
    destruct (swift_drive _ _ _ _ _ _ Ha (Rle_refl 0) (Rle_refl 0) Hst) as (g2 & s2 & D2).
    apply Rle_antisym; [eapply swift_least; [exact Ha|exact D2|exact Hsw|lra..] | eapply swift_least; [exact Ha|exact D1|exact Hst|lra..]]. }
  refine (fchain_end (fun x => x = t + Rsum (fun b => stop_time (b_A b) (b_B b)) (b :: bl)) _ _ _ _ _ _ Hf _ _ _ _ _ _ Hwf).
  cbn [Rsum fold_right]. rewrite <- E. destruct bl as [|b2 bl2]; [cbn; ring|].
  unfold ends, starts in *. destruct (rev (unpack_blocklist (b2 :: bl2))); [exact I|]. rewrite IH. unfold Rsum. ring.
Qed.
Lemma blocks_sum fw (f : kstate -> kstate -> R) bl items : Forall2 (item_block fw) bl items ->
  Rsum (fun b => f (b_A b) (b_B b)) bl = Rsum (fun i : item => let '(A, B, _) := i in f A B) items.
Proof.
  induction 1 as [|b [[A B] r] bl items (EA & EB & _) _ IH]; [reflexivity|]. unfold Rsum in *. cbn [fold_right]. rewrite IH, EA, EB. reflexivity.
Qed.
Lemma feasible_exists fw s0 states items : valid_program s0 states -> plan_items s0 states items -> exists wl, feasible fw 0 items wl.
Proof. intros [Hv _] Hi. eexists. eapply feasible_zero; [|exact Hi]. inversion Hv; assumption. Qed.
Lemma whole_full_stop s0 states bl wn items T : valid_program s0 states -> simulate FullStop (s0 :: states) = Ok (bl, wn) ->
  plan_items s0 states items -> print_time bl T -> T = Rsum item_stop items.
Proof.
  intros Hv Hsim Hi HT. pose proof (full_stop_rest _ _ _ _ Hv Hsim) as Hr. pose proof (whole_blocks _ _ _ _ _ _ Hv Hsim Hi) as Hb.
  destruct (simulate_inv _ _ _ _ _ Hv Hsim) as (_ & items' & Hi' & _ & Hf). destruct (feasible_exists FullStop _ _ _ Hv Hi') as (wl & Hfe).
  pose proof (fchain_stop _ _ _ _ _ _ (Hf _ Hfe) Hr) as H. destruct HT as (pre & l & E & ->).
  rewrite (blocks_sum _ stop_time _ _ Hb) in H.
  destruct bl as [|b bl']; [exfalso; destruct pre; discriminate|]. unfold ends in H. rewrite E, rev_app_distr in H. simpl in H.
  rewrite H. rewrite Rplus_0_l. reflexivity.
Qed.
Lemma whole_least fw s0 states bl wn items T : valid_program s0 states -> simulate fw (s0 :: states) = Ok (bl, wn) ->
  plan_items s0 states items -> print_time bl T -> Rsum item_least items <= T.
Proof.
  intros Hv Hsim Hi HT. pose proof (sim_min_time _ _ _ _ _ Hv Hsim) as H. rewrite (blocks_sum _ least_time _ _ (whole_blocks _ _ _ _ _ _ Hv Hsim Hi)) in H.
  destruct HT as (pre & l & E & ->). unfold ends in H. rewrite E, rev_app_distr in H. simpl in H. exact H.
Qed.
Lemma whole_most fw s0 states bl wn items T : valid_program s0 states -> simulate fw (s0 :: states) = Ok (bl, wn) ->
  plan_items s0 states items -> print_time bl T -> T <= Rsum item_stop items.
Proof.
  intros Hv Hsim Hi HT. apply (whole_fastest _ _ _ _ _ _ Hv Hsim Hi _ _ HT).
  exact (stop_driven _ _ (whole_good _ _ _ Hv Hi) (whole_corner _ _ _ _ Hv Hi)).
Qed.

(** Equal commands. *)
Lemma driven_same fw items items' w T : Forall2 same_item items items' -> driven fw w items T -> driven fw w items' T.
Proof.
  intros H Hd. revert items' H. induction Hd as [w | A B rest p items T Hp Hd IH | A B rest w w' T1 g s items T Hp Hdr Hc Hz Hd IH]; intros items' H;
    inversion H as [|? i ? items2 Hi H2]; subst; [constructor| |]; destruct i as [[A' B'] r']; destruct Hi as (HA & HB & HR).
  - constructor; [|auto]. destruct HB as (_ & _ & _ & _ & <-). exact Hp.
  - rewrite (corner_same_command fw _ _ _ _ _ _ HA HB HR) in Hc. destruct HA as (PA & _). destruct HB as (PB & S & Ac & _ & W).
    unfold move_length in Hdr. rewrite PA, PB, S, Ac in Hdr. rewrite PA, PB in Hz.
    eapply dn_move; [congruence|exact Hdr|exact Hc|exact Hz|auto].
Qed.
Lemma stop_same items items' : Forall2 same_item items items' ->
  Rsum item_stop items = Rsum item_stop items' /\ Rsum item_least items = Rsum item_least items'.
Proof.
  induction 1 as [|[[A B] r] [[A' B'] r'] items items' (HA & HB & HR) _ [IH1 IH2]]; [split; reflexivity|].
  unfold Rsum in *. cbn [fold_right item_stop item_least]. rewrite IH1, IH2. unfold stop_time, least_time, move_length.
  destruct HA as (-> & _). destruct HB as (-> & -> & -> & _ & ->). split; reflexivity.
Qed.
