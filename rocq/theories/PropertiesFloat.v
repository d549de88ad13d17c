(** C105: rounding never makes a simulation fail.  It does (C105_refuted), but
    only through moves no printer can see (C105_partial). *)
From Coq Require Import Reals Lra Lia.
From Verif Require Import Py Vec Segment StateGen Junction Planner Interp Texts Rounding SpecRounding Generic SpecGeneric SpecKin RealFacts
  RoundingProofs GenericProofs PropertiesPlan FloatMoveProofs.
Open Scope R_scope.

(** On the real numbers the generic planner is the model the other theorems
    speak of. *)
Theorem C105_exact_numbers fw lines su :
  rmap tores2 (grun Rk fw lines su) = (sts <- generate_states Rops lines su ;; ks <- to_kstates sts ;; simulate fw ks).
Proof. apply run_R. Qed.

(** * A program that only exact numbers can simulate *)
(** 0.03 and 0.29 mm to the right, then to x = 0.32 mm: the last line is no move,
    but in doubles 0.03 + 0.29 is not 0.32. *)
Definition residual_move : list str := map S_ ["G91"; "G1 X0.03"; "G1 X0.29"; "G90"; "G1 X0.32"]%string.
Lemma residual_states : exists k0 ks, (sts <- generate_states Rops residual_move (mini Rk) ;; to_kstates sts) = Ok (k0 :: ks) /\ valid_program k0 ks.
Proof.
  eexists _, _. split; [cbv -[r_of_dec Rplus Rdiv]; reflexivity|]. split; [|split].
  - repeat (apply Forall_cons || apply Forall_nil); unfold valid_state; cbn [k_speed k_acc k_jerk k_pause]; unfold r_of_dec; cbn;
      (split; [lra|split; [lra|split; [lra|discriminate]]]).
  - reflexivity.
  - cbn [moves_first k_pause k_pos]. split; [reflexivity|]. right. split; [reflexivity|]. left. intros E. apply (f_equal vx) in E. cbn [vx] in E.
    unfold r_of_dec in E. cbn in E. lra.
Qed.
Definition outcome {A} (r : res (list A * bool)) : res (nat * bool) := rmap (fun x => (length (fst x), snd x)) r.
Lemma residual_doubles : grun Fk MarlinJerk residual_move (mini Fk) = Err NameError.
Proof.
  assert (H : outcome (grun Fk MarlinJerk residual_move (mini Fk)) = Err NameError) by (vm_compute; reflexivity).
  destruct (grun Fk MarlinJerk residual_move (mini Fk)) as [x|e]; [discriminate|injection H as ->; reflexivity].
Qed.
Theorem C105_refuted : exists lines bl, grun Rk MarlinJerk lines (mini Rk) = Ok (bl, false) /\ grun Fk MarlinJerk lines (mini Fk) = Err NameError.
Proof.
  exists residual_move. destruct residual_states as (k0 & ks & E & V). destruct (C26_simulation_succeeds MarlinJerk k0 ks V) as [bl S].
  pose proof (C105_exact_numbers MarlinJerk residual_move (mini Rk)) as H.
  destruct (generate_states Rops residual_move (mini Rk)) as [sts|e]; [|discriminate]. cbn [bind] in E, H. rewrite E in H. cbn [bind] in H. rewrite S in H.
  destruct (grun Rk MarlinJerk residual_move (mini Rk)) as [(bl', w)|e]; [|discriminate]. cbn in H. injection H as _ ->.
  exists bl'. split; [reflexivity|exact residual_doubles].
Qed.
(** The same way to the same places in absolute coordinates is no trouble. *)
Example absolute_way : exists bl, grun Fk MarlinJerk (map S_ ["G1 X0.03"; "G1 X0.32"; "G1 X0.32"]%string) (mini Fk) = Ok (bl, false) /\ length bl = 2%nat.
Proof.
  assert (H : outcome (grun Fk MarlinJerk (map S_ ["G1 X0.03"; "G1 X0.32"; "G1 X0.32"]%string) (mini Fk)) = Ok (2%nat, false)) by (vm_compute; reflexivity).
  destruct (grun Fk _ _ _) as [(bl, w)|e]; [|discriminate]. cbn in H. injection H as H ->. exists bl. split; [reflexivity|exact H].
Qed.

(** * Which moves doubles can plan *)
Lemma sqrt_tiny x : tiny * tiny <= x -> tiny <= sqrt x.
Proof. intros H. apply le_sqrt; [left; apply Rinv_0_lt_compat, pow_lt; lra|exact H]. Qed.
Lemma eta_tiny : powerRZ 2 (-1075) <= uu * uu * uu * (tiny * tiny) / 1000000.
Proof.
  unfold uu, tiny. change (powerRZ 2 (-1075)) with (/ (2 ^ Pos.to_nat 1075)).
  replace (/ 9007199254740992 * / 9007199254740992 * / 9007199254740992 * (/ 10 ^ 100 * / 10 ^ 100) / 1000000)
    with (/ (9007199254740992 * 9007199254740992 * 9007199254740992 * (10 ^ 100 * 10 ^ 100) * 1000000))
    by (rewrite !Rinv_mult; unfold Rdiv; ring).
  assert (P : 0 < 10 ^ 100) by (apply pow_lt; lra).
  apply Rinv_le_contravar; [repeat (apply Rmult_lt_0_compat; [|lra || exact P || (apply Rmult_lt_0_compat; exact P)]); lra|].
  rewrite !pow_IZR, <- !mult_IZR. apply IZR_le. vm_compute. discriminate.
Qed.
Lemma tiny_small : 0 < tiny <= / 1000000000000.
Proof.
  unfold tiny. assert (P : 0 < 10 ^ 100) by (apply pow_lt; lra). split; [apply Rinv_0_lt_compat, P|]. apply Rinv_le_contravar; [lra|].
  rewrite pow_IZR. apply IZR_le. vm_compute. discriminate.
Qed.
Lemma binary64_pos x : 0 <= x -> 0 <= binary64 x.
Proof.
  intros H. assert (D : double 0) by (rewrite <- binary64_0; apply binary64_double). pose proof (binary64_nearest x 0 D) as N. rewrite Rminus_0_r, (Rabs_right x) in N by lra. pose proof (Rle_abs (x - binary64 x)). lra.
Qed.
Lemma binary64_neg x : x <= 0 -> binary64 x <= 0.
Proof.
  intros H. assert (D : double 0) by (rewrite <- binary64_0; apply binary64_double). pose proof (binary64_nearest x 0 D) as N. rewrite Rminus_0_r, (Rabs_left1 x) in N by lra. pose proof (Rle_abs (- (x - binary64 x))) as G. rewrite Rabs_Ropp in G. lra.
Qed.
(** A move can be planned with doubles unless its length [d] is less than about
    4e-15 * v^2 / a.  No number may be absurdly small, and the way from rest to
    the speed must be less than half a kilometre. *)
Theorem C105_partial A B dir pv v_end :
  let acc := gk_acc (Bk binary64) B in let v := gk_speed (Bk binary64) B in let d := fst (gmove_distance (Bk binary64) A B) in
  tiny <= acc -> tiny <= v -> tiny <= d -> v * v <= 1000000 * acc ->
  0 <= v_end <= (1 + 8 * uu) * v -> 32 * uu * (v * v) <= acc * d ->
  gmove_maker2 (Bk binary64) A B dir pv v_end <> Err NameError.
Proof.
  intros acc v d H1 H2 H3 H4 H5 H6. destruct binary64_rounds as (_ & E0 & E). pose proof tiny_small as T. pose proof eta_tiny as Et.
  assert (U : powerRZ 2 (-53) = uu). { unfold uu. change (powerRZ 2 (-53)) with (/ (2 ^ Pos.to_nat 53)). rewrite pow_IZR. f_equal. }
  rewrite U in E.
  assert (T2 : 0 < tiny * tiny) by (apply Rmult_lt_0_compat; lra). assert (T3 : tiny * tiny <= / 1000000000000 * tiny) by (apply Rmult_le_compat_r; lra).
  assert (VV : tiny * tiny <= v * v) by (apply sq_le; lra). assert (AD : tiny * tiny <= acc * d) by (apply Rmult_le_compat; lra).
  pose proof (sqrt_tiny _ AD) as SQ.
  apply (move_planned binary64 (powerRZ 2 (-1075)) A B dir pv v_end E0 E binary64_pos binary64_neg binary64_0); fold acc v d; try lra; try exact H5; try exact H6.
  - apply binary64_fix. exists 2%Z, 0%Z. split; [reflexivity|]. split; [lia|]. cbn. lra.
  - unfold uu in *. lra.
  - unfold uu in *. lra.
  - unfold uu in *. lra.
  - unfold uu in *. lra.
  - unfold uu in *. lra.
  - unfold uu in *. lra.
Qed.
(** prusa_mini at its highest speed: a tenth of a billionth of a millimetre is
    enough. *)
Theorem C105_prusa_mini A B dir pv v_end :
  let v := gk_speed (Bk binary64) B in
  gk_acc (Bk binary64) B = 1250 -> 1 <= v <= 180 -> 0 <= v_end <= v -> / 10000000000 <= fst (gmove_distance (Bk binary64) A B) ->
  gmove_maker2 (Bk binary64) A B dir pv v_end <> Err NameError.
Proof.
  intros v Ha Hv He Hd. pose proof tiny_small as T. assert (V : v * v <= 180 * 180) by (apply sq_le; lra).
  apply C105_partial; fold v; rewrite ?Ha; unfold uu; try split; lra.
Qed.
(** A case: one millimetre to the right from rest. *)
Example C105_case : exists A B, gk_acc (Bk binary64) B = 1250 /\ gk_speed (Bk binary64) B = 180 /\ / 10000000000 <= fst (gmove_distance (Bk binary64) A B).
Proof.
  assert (D : forall z, (Z.abs z < 2 ^ 53)%Z -> binary64 (IZR z) = IZR z).
  { intros z Hz. apply binary64_fix. exists z, 0%Z. split; [exact Hz|]. split; [lia|]. cbn. lra. }
  set (p x := GV (Bk binary64) x 0 0 0). exists (GKState (Bk binary64) (p 0) 180 1250 8 None None), (GKState (Bk binary64) (p 1) 180 1250 8 None None).
  split; [reflexivity|]. split; [reflexivity|].
  unfold gmove_distance, gt_distance, gvsub, gnorm3. cbn [gk_pos p gx gy gz Bk k_sub k_mul k_add k_sqrt k_eqb].
  rewrite !Rminus_0_r, (D 1%Z), (D 0%Z) by reflexivity. rewrite !Rmult_1_l, !Rmult_0_l, (D 1%Z), (D 0%Z) by reflexivity. rewrite !Rplus_0_r, !(D 1%Z), sqrt_1, (D 1%Z) by reflexivity.
  unfold k0. cbn [Bk k_dec]. replace (r_of_dec 0 0) with 0 by (unfold r_of_dec; cbn; lra). rewrite (D 0%Z) by reflexivity.
  replace (Reqb 1 0) with false. { cbn [fst]. lra. } symmetry. unfold Reqb. destruct (Req_EM_T 1 0); [lra|reflexivity].
Qed.

Print Assumptions C105_exact_numbers.
Print Assumptions C105_refuted.
Print Assumptions C105_partial.
Print Assumptions C105_prusa_mini.
