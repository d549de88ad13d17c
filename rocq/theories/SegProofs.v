(** Proofs about single segments. *)
From Coq Require Import Lra Psatz.
From Verif Require Import Py Vec Segment Junction Planner RealFacts SpecKin MoveProofs.
Open Scope R_scope.

Lemma in_range s t : t_begin s <= t <= t_end s -> out_of_range s t = false.
Proof. intros H. unfold out_of_range. rewrite !Rltb_false by lra. reflexivity. Qed.

Lemma vel_at_linear s t : t_begin s < t_end s ->
  vel_at s t = vadd (vel_begin s) (vscale ((t - t_begin s) / (t_end s - t_begin s)) (vsub (vel_end s) (vel_begin s))).
Proof.
  intros H. unfold vel_at. rewrite Rltb_true by lra.
  apply vec4_ext; cbn [vx vy vz ve vadd vscale vdiv vsub]; field; lra.
Qed.

Lemma quad_derivative p v0 v1 t0 t1 t : t0 < t1 ->
  derivable_pt_lim (fun u => p + (v0 + (v0 + (v1 - v0) / (t1 - t0) * (u - t0))) * (u - t0) / 2) t
                   (v0 + (v1 - v0) / (t1 - t0) * (t - t0)).
Proof.
  intros H. set (k := (v1 - v0) / (t1 - t0)).
  assert (D0 : derivable_pt_lim (fun u => u - t0) t 1).
  { replace 1 with (1 - 0) by ring. apply (derivable_pt_lim_minus id (fct_cte t0)).
    - apply derivable_pt_lim_id. - apply derivable_pt_lim_const. }
  assert (D1 : derivable_pt_lim (fun u => v0 + (v0 + k * (u - t0))) t (0 + (0 + k * 1))).
  { apply (derivable_pt_lim_plus (fct_cte v0) (fun u => v0 + k * (u - t0))); [apply derivable_pt_lim_const|].
    apply (derivable_pt_lim_plus (fct_cte v0) (fun u => k * (u - t0))); [apply derivable_pt_lim_const|].
    apply (derivable_pt_lim_scal (fun u => u - t0)). exact D0. }
  replace (0 + (0 + k * 1)) with k in D1 by ring.
  assert (D2 := derivable_pt_lim_mult _ _ _ _ _ D1 D0).
  assert (D3 := derivable_pt_lim_scal _ (/ 2) _ _ D2).
  assert (D4 := derivable_pt_lim_plus (fct_cte p) _ _ _ _ (derivable_pt_lim_const p t) D3).
  unfold plus_fct, mult_real_fct, mult_fct, fct_cte in D4.
  match type of D4 with derivable_pt_lim ?f ?x ?l =>
    replace (v0 + k * (t - t0)) with l by field;
    apply (derivable_pt_lim_locally_ext f _ x (t - 1) (t + 1)); [lra| |exact D4] end.
  intros z _. field.
Qed.

Lemma pos_at_derivative s t : t_begin s < t_end s -> derivative4 (pos_at s) t (vel_at s t).
Proof.
  intros H. unfold derivative4, pos_at, vel_at. rewrite Rltb_true by lra.
  cbn [vx vy vz ve vadd vscale vdiv vsub].
  repeat split; apply quad_derivative; assumption.
Qed.

Lemma derivative4_ext f g a b t v : a < t < b -> (forall u, a < u < b -> f u = g u) ->
  derivative4 f t v -> derivative4 g t v.
Proof.
  intros H He (D1 & D2 & D3 & D4).
  repeat split; eapply derivable_pt_lim_locally_ext; try eassumption; intros z Hz; simpl; rewrite He by assumption; reflexivity.
Qed.

Lemma position_is_integral s : consistent s ->
  get_position s (t_begin s) = Ok (pos_begin s) /\ get_position s (t_end s) = Ok (pos_end s) /\
  get_velocity s (t_begin s) = Ok (vel_begin s) /\ get_velocity s (t_end s) = Ok (vel_end s) /\
  forall t, t_begin s <= t <= t_end s ->
    exists v, get_velocity s t = Ok v /\
      v = vadd (vel_begin s) (vscale ((t - t_begin s) / (t_end s - t_begin s)) (vsub (vel_end s) (vel_begin s))) /\
      (exists p, get_position s t = Ok p) /\
      (t_begin s < t < t_end s -> forall pos, (forall u, t_begin s <= u <= t_end s -> get_position s u = Ok (pos u)) ->
         derivative4 pos t v).
Proof.
  intros [Ht Hp]. unfold get_position, get_velocity. rewrite !in_range by lra.
  split; [|split; [|split; [|split]]].
  - f_equal. unfold pos_at. rewrite vel_at_linear by assumption.
    apply vec4_ext; cbn [vx vy vz ve vadd vscale vdiv vsub]; field; lra.
  - f_equal. unfold pos_at. rewrite vel_at_linear by assumption. rewrite Hp.
    apply vec4_ext; cbn [vx vy vz ve vadd vscale vdiv vsub]; field; lra.
  - f_equal. rewrite vel_at_linear by assumption.
    apply vec4_ext; cbn [vx vy vz ve vadd vscale vdiv vsub]; field; lra.
  - f_equal. rewrite vel_at_linear by assumption.
    apply vec4_ext; cbn [vx vy vz ve vadd vscale vdiv vsub]; field; lra.
  - intros t Hr. rewrite in_range by assumption. exists (vel_at s t).
    split; [reflexivity|]. split; [apply vel_at_linear; assumption|].
    split; [eexists; reflexivity|].
    intros Hin pos Hpos. apply (derivative4_ext (pos_at s) pos (t_begin s) (t_end s)); [assumption| |apply pos_at_derivative; assumption].
    intros u Hu. specialize (Hpos u). rewrite in_range in Hpos by lra.
    assert (Hok : Ok (pos_at s u) = Ok (pos u)) by (apply Hpos; lra). congruence.
Qed.

Lemma ramp_consistent d a vm s v0 v1 : ramp d a vm s v0 v1 -> consistent s.
Proof.
  unfold ramp, consistent. intros (Ht & Hb & He & Hp & _). split; [lra|]. rewrite Hp, Hb, He. f_equal.
  apply vec4_ext; cbn [vx vy vz ve vadd vscale]; field.
Qed.

Lemma ramp_limits d eo a vm s v0 v1 : is_dir d eo -> 0 < a -> ramp d a vm s v0 v1 -> within_limits d a vm s.
Proof.
  intros Hd Ha (Ht & Hb & He & Hp & Hv0 & Hv1 & Hacc & _).
  set (dt := t_end s - t_begin s) in *.
  exists ((v1 - v0) / dt). split.
  - destruct Hacc as [H|[H|H]].
    + left. rewrite H. field. lra.
    + right; left. rewrite H. field. lra.
    + right; right. replace (v1 - v0) with (- (a * dt)) by lra. field. lra.
  - intros t Hr. unfold get_velocity. rewrite in_range by assumption. eexists. split; [reflexivity|].
    set (k := v0 + (v1 - v0) / dt * (t - t_begin s)).
    assert (Hk : 0 <= k <= vm).
    { assert (Hx : 0 <= (t - t_begin s) / dt <= 1).
      { split; [apply Rdiv_nonneg; lra|]. apply Rmult_le_reg_r with dt; [lra|].
        unfold Rdiv. rewrite Rmult_assoc, Rinv_l by lra. unfold dt. lra. }
      replace k with (v0 * (1 - (t - t_begin s) / dt) + v1 * ((t - t_begin s) / dt)) by (unfold k; field; lra).
      set (x := (t - t_begin s) / dt) in *.
      assert (0 <= v0 * (1 - x)) by (apply Rmult_le_pos; lra).
      assert (0 <= v1 * x) by (apply Rmult_le_pos; lra).
      assert (v0 * (1 - x) <= vm * (1 - x)) by (apply Rmult_le_compat_r; lra).
      assert (v1 * x <= vm * x) by (apply Rmult_le_compat_r; lra).
      split; lra. }
    assert (Hvk : vel_at s t = vscale k d).
    { rewrite vel_at_linear by (unfold dt in Ht; lra). fold dt. rewrite Hb, He.
      apply vec4_ext; cbn [vx vy vz ve vadd vscale vdiv vsub]; unfold k; field; lra. }
    split; [|split].
    + rewrite Hvk, Hb. apply vec4_ext; cbn [vx vy vz ve vadd vscale vdiv vsub]; unfold k; ring.
    + exists k. split; assumption.
    + rewrite Hvk, norm3_scale_pos by tauto.
      destruct eo; simpl in Hd; [destruct Hd as [-> _]; lra | rewrite Hd; lra].
Qed.

(** The check in the constructor: the end position is right up to 1e-6. *)
Lemma self_check_bound s : t_begin s < t_end s -> self_check s = Ok tt ->
  norm3 (vsub (pos_end s) (pos_at s (t_end s))) <= 1 / 1000000.
Proof.
  intros Ht H. unfold self_check in H.
  destruct (Rltb_spec (1 / 1000000) (norm3 (vsub (pos_end s) (predicted_end s)))) as [H1|H1]; [discriminate|].
  replace (pos_at s (t_end s)) with (predicted_end s); [lra|].
  unfold pos_at, predicted_end. rewrite vel_at_linear by assumption.
  apply vec4_ext; cbn [vx vy vz ve vadd vscale vdiv vsub]; field; lra.
Qed.
