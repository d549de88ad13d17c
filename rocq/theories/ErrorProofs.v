(** Lemmas on the speed error of a segment. *)
From Coq Require Import Reals Lra.
From Verif Require Import Py Vec Segment VecOps RealFacts SpecKin SpecQuery SpecError MoveProofs PlotProofs DriveProofs SetupProofs.
Open Scope R_scope.

Lemma cubic_derive p q r c t : derivable_pt_lim (fun t => p + q * t + r * (t * t) + c * (t * t * t)) t (q + 2 * r * t + 3 * c * (t * t)).
Proof.
  replace (q + 2 * r * t + 3 * c * (t * t)) with ((q + 2 * r * t) + c * ((1 * t + t * 1) * t + (t * t) * 1)) by ring.
  apply (derivable_pt_lim_plus (fun t => p + q * t + r * (t * t)) (fun t => c * (t * t * t))); [apply quad_derive|].
  apply (derivable_pt_lim_scal (fun t => t * t * t)).
  apply (derivable_pt_lim_mult (fun t => t * t) (fun t => t)); [|apply derivable_pt_lim_id].
  apply (derivable_pt_lim_mult (fun t => t) (fun t => t)); apply derivable_pt_lim_id.
Qed.
(** The cubic in [t - t0]. *)
Lemma cubic_from q r c t0 t :
  derivable_pt_lim (fun t => q * (t - t0) + r * ((t - t0) * (t - t0)) + c * ((t - t0) * (t - t0) * (t - t0))) t
                   (q + 2 * r * (t - t0) + 3 * c * ((t - t0) * (t - t0))).
Proof.
  pose proof (cubic_derive (- q * t0 + r * (t0 * t0) - c * (t0 * t0 * t0)) (q - 2 * r * t0 + 3 * c * (t0 * t0)) (r - 3 * c * t0) c t) as H.
  replace (q + 2 * r * (t - t0) + 3 * c * ((t - t0) * (t - t0)))
    with (q - 2 * r * t0 + 3 * c * (t0 * t0) + 2 * (r - 3 * c * t0) * t + 3 * c * (t * t)) by ring.
  intros eps Heps. destruct (H eps Heps) as (delta & Hd). exists delta. intros h Hh Hl. specialize (Hd h Hh Hl).
  match goal with |- Rabs (?x / h - _) < _ => match type of Hd with Rabs (?y / h - _) < _ => replace x with y by ring end end. exact Hd.
Qed.

Lemma not_close x : 1 / 100000000 < Rabs x -> isclose x 0 = false.
Proof. intros H. unfold isclose. apply Rleb_false. rewrite Rminus_0_r, Rabs_R0. lra. Qed.
Lemma close_zero : isclose 0 0 = true.
Proof. unfold isclose. apply Rleb_true. rewrite Rminus_0_r, Rabs_R0. lra. Qed.

Lemma integral_unique s v e e' : t_begin s <= t_end s -> integrated_error s v e -> integrated_error s v e' -> e = e'.
Proof.
  intros Ht (F & HF & EF) (G & HG & EG). destruct (Rle_lt_or_eq_dec _ _ Ht) as [Hlt|E]; [|rewrite <- E in *; lra].
  assert (M : forall t, t_begin s <= t <= t_end s -> exists w p, moves_through s t w p).
  { intros t Hb. do 2 eexists. unfold moves_through. split; [exact Hb|]. split; reflexivity. }
  assert (L : forall f g, (forall t, t_begin s <= t <= t_end s -> exists l, derivable_pt_lim f t l /\ derivable_pt_lim g t l) ->
              f (t_end s) - f (t_begin s) <= g (t_end s) - g (t_begin s)).
  { intros f g H. cut ((fun t => g t - f t) (t_begin s) <= (fun t => g t - f t) (t_end s)); [cbv beta; lra|].
    apply (rising (fun t => g t - f t) (fun _ => 0)); [exact Ht|]. intros c Hc. destruct (H c Hc) as (l & Hf & Hg). split; [|lra].
    replace 0 with (l - l) by ring. apply (derivable_pt_lim_minus g f); assumption. }
  apply Rle_antisym; rewrite <- EF, <- EG; apply L; intros t Hb; destruct (M t Hb) as (w & p & Hm); eexists; split; eauto.
Qed.

(** Uniformly accelerated along a direction from speed [k0] to speed [k1]. *)
Lemma ramp_error s v d k0 k1 : norm3 d = 1 -> consistent s -> 0 <= k0 -> 0 <= k1 ->
  vel_begin s = vscale k0 d -> vel_end s = vscale k1 d -> v <> 0 ->
  integrated_error s v ((k0 + k1) / 2 * (t_end s - t_begin s) - (k0 * k0 + k0 * k1 + k1 * k1) / 3 * (t_end s - t_begin s) / v).
Proof.
  intros Hd (Ht & _) H0 H1 Hb He Hv. set (T := t_end s - t_begin s). assert (HT : 0 < T) by (unfold T; lra). set (a := (k1 - k0) / T).
  exists (fun t => (k0 - k0 * k0 / v) * (t - t_begin s) + (a / 2 - k0 * a / v) * ((t - t_begin s) * (t - t_begin s))
                   + (- (a * a) / (3 * v)) * ((t - t_begin s) * (t - t_begin s) * (t - t_begin s))). split.
  - intros t w p (Hr & -> & _). set (u := t - t_begin s).
    assert (Hu : 0 <= u / T <= 1).
    { split; [unfold Rdiv; apply Rmult_le_pos; [unfold u; lra | left; apply Rinv_0_lt_compat; exact HT]|].
      apply (Rmult_le_reg_r T); [exact HT|]. unfold Rdiv. rewrite Rmult_assoc, Rinv_l by lra. unfold u, T. lra. }
    assert (En : norm3 (vadd (vel_begin s) (vscale (u / T) (vsub (vel_end s) (vel_begin s)))) = k0 + a * u).
    { rewrite Hb, He. replace (vadd (vscale k0 d) (vscale (u / T) (vsub (vscale k1 d) (vscale k0 d)))) with (vscale (k0 + u / T * (k1 - k0)) d)
        by (apply vec4_ext; simpl; ring).
      rewrite norm3_scale_pos, Hd.
      - unfold a. field. lra.
      - replace (k0 + u / T * (k1 - k0)) with ((1 - u / T) * k0 + u / T * k1) by ring. apply Rplus_le_le_0_compat; apply Rmult_le_pos; lra. }
    fold u T. rewrite En.
    replace ((v - (k0 + a * u)) / v * (k0 + a * u)) with ((k0 - k0 * k0 / v) + 2 * (a / 2 - k0 * a / v) * u + 3 * (- (a * a) / (3 * v)) * (u * u)) by (field; exact Hv).
    unfold u. apply cubic_from.
  - fold T. replace (t_begin s - t_begin s) with 0 by ring. unfold a. field. split; lra.
Qed.

(** The number calc_results computes there. *)
Lemma ramp_integral s v d k0 k1 : norm3 d = 1 -> consistent s -> 0 <= k0 -> 0 <= k1 ->
  vel_begin s = vscale k0 d -> vel_end s = vscale k1 d -> 0 < v -> k0 <> k1 -> vel_end s = vzero \/ 1 / 100000000 < norm3 (vel_end s) ->
  error_integral s ((k1 - k0) / (t_end s - t_begin s)) k0 v (get_segm_len s) =
  Ok ((k0 + k1) / 2 * (t_end s - t_begin s) - (k0 * k0 + k0 * k1 + k1 * k1) / 3 * (t_end s - t_begin s) / v).
Proof.
  intros Hd (Ht & Hp) H0 H1 Hb He Hv Hne Hz. set (T := t_end s - t_begin s) in *. assert (HT : 0 < T) by (unfold T; lra).
  assert (El : get_segm_len s = (k0 + k1) / 2 * T).
  { unfold get_segm_len. rewrite Hp, Hb, He. replace (vsub (vadd (pos_begin s) (vscale (T / 2) (vadd (vscale k0 d) (vscale k1 d)))) (pos_begin s))
      with (vscale ((k0 + k1) / 2 * T) d) by (apply vec4_ext; simpl; field).
    rewrite norm3_scale_pos, Hd; [ring|]. apply Rmult_le_pos; [|lra]. lra. }
  assert (Eq : 2 * ((k1 - k0) / T) * get_segm_len s + k0 * k0 = k1 * k1) by (rewrite El; field; lra).
  assert (En : norm3 (vel_end s) = k1) by (rewrite He, norm3_scale_pos, Hd by exact H1; ring).
  unfold error_integral. rewrite Eq.
  assert (Es : (if isclose (norm3 (vel_end s)) 0 then 0 else k1 * k1) = k1 * k1).
  { destruct Hz as [Hz|Hz].
    - rewrite Hz, norm3_vzero in En. rewrite <- En. destruct (isclose _ 0); ring.
    - rewrite not_close; [reflexivity|]. rewrite Rabs_right; [exact Hz | rewrite En; lra]. }
  rewrite Es. rewrite Rltb_false by (apply Rmult_le_pos; lra). rewrite sqrt_square by exact H1. f_equal. rewrite El. field. repeat split; lra.
Qed.
