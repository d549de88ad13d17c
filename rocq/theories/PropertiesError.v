(** The speed error of a segment, see properties.jsonl. *)
From Coq Require Import Reals Lra.
From Verif Require Import Py StrFacts Vec Segment Junction Planner VecOps RealFacts SpecKin SpecQuery SpecError MoveProofs PlannerProofs PlotProofs ErrorProofs PlanRefute OneMove SetupProofs.
Open Scope R_scope.

(** * C94: the error of a segment *)
(** While a print speeds up or brakes, the stored error is the integral over
    the distance of the relative speed error. *)
Theorem C94_changing_speed_partial fw s0 states bl wn s v d :
  valid_program s0 states -> simulate fw (s0 :: states) = Ok (bl, wn) -> In s (unpack_blocklist bl) ->
  1 / 100000000 < v -> 1 / 100000000 < t_end s - t_begin s -> 1 / 100000000 < Rabs (norm3 (vel_end s) - norm3 (vel_begin s)) ->
  vel_end s = vzero \/ 1 / 100000000 < norm3 (vel_end s) ->
  exists r e, calc_results (Some d) s v = Ok r /\ get_result (Some r) (S_ "segm_error") = Ok (Some [e; e]) /\ integrated_error s v e.
Proof.
  intros Hv Hs Hin H1 H2 H3 H4.
  destruct (sim_along _ _ _ _ _ _ Hv Hs Hin) as [(_ & Hb & He & _)|(Hc & dir & eo & k0 & k1 & Hd & Hk0 & Hk1 & Hb & He)].
  - exfalso. rewrite Hb, He, Rminus_diag_eq, Rabs_R0 in H3 by reflexivity. lra.
  - assert (Hd1 : norm3 dir = 1).
    { destruct eo; simpl in Hd; [|exact Hd]. exfalso. rewrite Hb, He, !norm3_scale_pos, (proj1 Hd) in H3 by assumption.
      replace (k1 * 0 - k0 * 0) with 0 in H3 by ring. rewrite Rabs_R0 in H3. lra. }
    assert (E0 : norm3 (vel_begin s) = k0) by (rewrite Hb, norm3_scale_pos, Hd1 by exact Hk0; ring).
    assert (E1 : norm3 (vel_end s) = k1) by (rewrite He, norm3_scale_pos, Hd1 by exact Hk1; ring).
    assert (Hne : k0 <> k1).
    { intros E. rewrite E0, E1, E, Rminus_diag_eq, Rabs_R0 in H3 by reflexivity. lra. }
    eexists. exists ((k0 + k1) / 2 * (t_end s - t_begin s) - (k0 * k0 + k0 * k1 + k1 * k1) / 3 * (t_end s - t_begin s) / v).
    split; [|split].
    + unfold calc_results, get_segm_duration. rewrite (not_close v) by (rewrite Rabs_right; lra). rewrite (not_close (t_end s - t_begin s)) by (rewrite Rabs_right; lra).
      rewrite (not_close (norm3 (vel_end s) - norm3 (vel_begin s))) by exact H3. cbn [negb andb]. rewrite E0, E1, (ramp_integral s v dir k0 k1) by (try assumption; lra). cbn [bind]. reflexivity.
    + unfold get_result. rewrite !dget_dset. cbn -[Rplus]. reflexivity.
    + apply (ramp_error s v dir); try assumption. lra.
Qed.
(** There is only one such integral. *)
Theorem C94_integral_unique s v e e' : t_begin s <= t_end s -> integrated_error s v e -> integrated_error s v e' -> e = e'.
Proof. exact (integral_unique s v e e'). Qed.
(** At the target speed and at rest it is 0, as stored. *)
Theorem C94_steady_partial fw s0 states bl wn s v d :
  valid_program s0 states -> simulate fw (s0 :: states) = Ok (bl, wn) -> In s (unpack_blocklist bl) -> 0 < v ->
  norm3 (vel_end s) = norm3 (vel_begin s) -> norm3 (vel_begin s) = v \/ norm3 (vel_begin s) = 0 ->
  exists r, calc_results (Some d) s v = Ok r /\ get_result (Some r) (S_ "segm_error") = Ok (Some [0; 0]) /\ integrated_error s v 0.
Proof.
  intros Hv Hs Hin Hv0 He Hw. eexists. split; [|split].
  - unfold calc_results. rewrite He, Rminus_diag_eq, close_zero by reflexivity. rewrite !andb_false_r. cbn [bind]. reflexivity.
  - unfold get_result. rewrite !dget_dset. cbn -[Rplus]. reflexivity.
  - exists (fun _ => 0). split; [|ring]. intros t w p (Hr & Ew & _).
    assert (En : norm3 w = norm3 (vel_begin s)).
    { destruct (sim_along _ _ _ _ _ _ Hv Hs Hin) as [(_ & Eb & Ee & _)|(Hc & dir & eo & k0 & k1 & Hd & Hk0 & Hk1 & Eb & Ee)].
      - rewrite Ew, Eb, Ee. f_equal. apply vec4_ext; simpl; ring.
      - assert (K : norm3 (vel_begin s) = k0 * norm3 dir /\ norm3 (vel_end s) = k1 * norm3 dir) by (rewrite Eb, Ee, !norm3_scale_pos by assumption; auto).
        set (u := (t - t_begin s) / (t_end s - t_begin s)) in *. destruct Hc as [Ht _].
        assert (Hu : 0 <= u <= 1).
        { unfold u, Rdiv. split; [apply Rmult_le_pos; [lra | left; apply Rinv_0_lt_compat; lra]|].
          apply (Rmult_le_reg_r (t_end s - t_begin s)); [lra|]. rewrite Rmult_assoc, Rinv_l by lra. lra. }
        assert (Hk : 0 <= (1 - u) * k0 + u * k1) by (apply Rplus_le_le_0_compat; apply Rmult_le_pos; lra).
        replace w with (vscale ((1 - u) * k0 + u * k1) dir) by (rewrite Ew, Eb, Ee; apply vec4_ext; simpl; ring).
        rewrite norm3_scale_pos by exact Hk. destruct K as [K0 K1]. rewrite K0. rewrite K0, K1 in He.
        replace (((1 - u) * k0 + u * k1) * norm3 dir) with ((1 - u) * (k0 * norm3 dir) + u * (k1 * norm3 dir)) by ring. rewrite He. ring. }
    rewrite En. replace ((v - norm3 (vel_begin s)) / v * norm3 (vel_begin s)) with 0 by (destruct Hw as [-> | ->]; field; lra).
    apply derivable_pt_lim_const.
Qed.
(** C94 is false in general: 1 s at 5 mm/s instead of 10 mm/s is stored as no
    error. *)
Theorem C94_constant_refuted : exists s v d r, mk_segment (t_begin s) (t_end s) (pos_begin s) (pos_end s) (vel_begin s) (vel_end s) = Ok s /\
  norm3 (vel_begin s) = 5 /\ norm3 (vel_end s) = 5 /\ v = 10 /\
  calc_results (Some d) s v = Ok r /\ get_result (Some r) (S_ "segm_error") = Ok (Some [0; 0]) /\ integrated_error s v (5 / 2) /\ ~ integrated_error s v 0.
Proof.
  set (s := Seg 0 1 (X 0) (X 5) (X 5) (X 5)).
  assert (E5 : norm3 (X 5) = 5) by (apply norm3_X; lra). assert (E1 : norm3 (X 1) = 1) by (apply norm3_X; lra).
  assert (Hp : predicted_end s = X 5) by (unfold predicted_end, s, X; cbn; apply vec4_ext; cbn; field).
  assert (Hi : integrated_error s 10 (5 / 2)).
  { pose proof (ramp_error s 10 (X 1) 5 5 E1) as H. cbn [t_begin t_end s] in H.
    replace (5 / 2) with ((5 + 5) / 2 * (1 - 0) - (5 * 5 + 5 * 5 + 5 * 5) / 3 * (1 - 0) / 10) by field.
    apply H; try lra.
    - split; [cbn; lra|]. cbn. apply vec4_ext; cbn; field.
    - cbn. apply vec4_ext; cbn; ring.
    - cbn. apply vec4_ext; cbn; ring. }
  exists s, 10, []. eexists. split; [|split; [exact E5|split; [exact E5|split; [reflexivity|split; [|split; [|split; [exact Hi|]]]]]]].
  - unfold mk_segment, self_check. change (Seg _ _ _ _ _ _) with s. rewrite Hp. cbn [pos_end s t_end t_begin].
    replace (norm3 (vsub (X 5) (X 5))) with 0 by (replace (vsub (X 5) (X 5)) with (X 0) by (apply vec4_ext; cbn; ring); rewrite norm3_X; lra).
    rewrite !Rltb_false by lra. reflexivity.
  - unfold calc_results. cbn [vel_end vel_begin s]. rewrite Rminus_diag_eq, close_zero by reflexivity. rewrite !andb_false_r. cbn [bind]. reflexivity.
  - unfold get_result. rewrite !dget_dset. cbn -[Rplus]. reflexivity.
  - intros H0. pose proof (integral_unique s 10 _ _ ltac:(cbn; lra) Hi H0). lra.
Qed.
(** The first ramp of a move of 10 mm at 10 mm/s: an error of 1/6 mm. *)
Example C94_case : exists bl r, valid_program (xstate 0 10 100 5 None) (tl (one_move 5)) /\ simulate FullStop (one_move 5) = Ok (bl, false) /\
  In first_ramp (unpack_blocklist bl) /\ calc_results (Some []) first_ramp 10 = Ok r /\
  get_result (Some r) (S_ "segm_error") = Ok (Some [1 / 6; 1 / 6]) /\ integrated_error first_ramp 10 (1 / 6).
Proof.
  destruct full_stop_move as (b & Hs & Hb). assert (Hv : valid_program (xstate 0 10 100 5 None) (tl (one_move 5))) by (apply one_move_valid; lra).
  assert (Hin : In first_ramp (unpack_blocklist [b])) by (unfold unpack_blocklist; cbn; rewrite Hb; left; reflexivity).
  assert (E0 : norm3 (X 0) = 0) by (apply norm3_X; lra). assert (E10 : norm3 (X 10) = 10) by (apply norm3_X; lra). assert (E1 : norm3 (X 1) = 1) by (apply norm3_X; lra).
  destruct (C94_changing_speed_partial FullStop _ _ _ _ first_ramp 10 [] Hv Hs Hin) as (r & e & Hr & He & Hi); cbn [vel_begin vel_end t_begin t_end first_ramp]; try lra.
  - rewrite E0, E10. rewrite Rabs_right; lra.
  - assert (Hk : integrated_error first_ramp 10 (1 / 6)).
    { pose proof (ramp_error first_ramp 10 (X 1) 0 10 E1) as H. cbn [t_begin t_end first_ramp] in H.
      replace (1 / 6) with ((0 + 10) / 2 * (1 / 10 - 0) - (0 * 0 + 0 * 10 + 10 * 10) / 3 * (1 / 10 - 0) / 10) by field.
      apply H; try lra.
      - split; [cbn; lra|]. cbn. apply vec4_ext; cbn; field.
      - cbn. apply vec4_ext; cbn; ring.
      - cbn. apply vec4_ext; cbn; ring. }
    assert (Ee : e = 1 / 6) by (apply (C94_integral_unique first_ramp 10); [cbn; lra | exact Hi | exact Hk]). rewrite Ee in He.
    exists [b], r. split; [exact Hv|]. split; [exact Hs|]. split; [exact Hin|]. split; [exact Hr|]. split; [exact He|exact Hk].
Qed.

Print Assumptions C94_changing_speed_partial.
Print Assumptions C94_integral_unique.
Print Assumptions C94_steady_partial.
Print Assumptions C94_constant_refuted.
