(** Lemmas for the rounding properties. *)
From Coq Require Import Reals Lra Lia.
From Verif Require Import Py PyFloat Parser Vec StateGen Texts RealFacts TextsProofs SpecRead SpecMachine ReadProofs ReadFacts ReadReals Rounding SpecRounding.
Open Scope R_scope.

(** * The rounding itself *)
Lemma pow2_pos z : 0 < powerRZ 2 z.
Proof. apply powerRZ_lt. lra. Qed.
Lemma pow2_mono a b : (a <= b)%Z -> powerRZ 2 a <= powerRZ 2 b.
Proof.
  intros H. rewrite !powerRZ_Rpower by lra. apply Rle_Rpower; [lra|]. apply IZR_le. exact H.
Qed.
Lemma pow2_add a b : powerRZ 2 (a + b) = powerRZ 2 a * powerRZ 2 b.
Proof. apply powerRZ_add. lra. Qed.
Lemma exponent_spec x : x <> 0 -> powerRZ 2 (exponent x) <= Rabs x < powerRZ 2 (exponent x + 1).
Proof.
  intros Hx. unfold exponent. destruct (base_Int_part (ln (Rabs x) / ln 2)) as [H1 H2]. set (k := Int_part _) in *.
  assert (Hl : 0 < ln 2) by (rewrite <- ln_1; apply ln_increasing; lra).
  assert (Ha : 0 < Rabs x) by (apply Rabs_pos_lt; exact Hx).
  assert (E : Rabs x = exp (ln (Rabs x))) by (symmetry; apply exp_ln; exact Ha).
  assert (D : ln (Rabs x) = ln (Rabs x) / ln 2 * ln 2) by (field; lra).
  rewrite !powerRZ_Rpower by lra. unfold Rpower. rewrite E, D. split.
  - destruct H1 as [H1|H1]; [left; apply exp_increasing; nra|right; rewrite H1; reflexivity].
  - apply exp_increasing. rewrite plus_IZR. nra.
Qed.
Lemma ulp_pos x : 0 < ulp x.
Proof. apply pow2_pos. Qed.
Lemma binary64_half x : Rabs (binary64 x - x) <= ulp x / 2.
Proof.
  unfold binary64. destruct (round_half_even_spec (x / ulp x)) as [H _]. set (n := round_half_even _) in *. pose proof (ulp_pos x) as U.
  replace (IZR n * ulp x - x) with (- (x / ulp x - IZR n) * ulp x) by (field; lra).
  rewrite Rabs_mult, Rabs_Ropp, (Rabs_right (ulp x)) by lra. nra.
Qed.
(** No integer is nearer. *)
Lemma round_nearest x (n : Z) : Rabs (x - IZR (round_half_even x)) <= Rabs (x - IZR n).
Proof.
  destruct (round_half_even_spec x) as [H _]. set (k := round_half_even x) in *.
  destruct (Z.eq_dec n k) as [->|D]; [lra|].
  assert (A : 1 <= Rabs (IZR n - IZR k)).
  { rewrite <- minus_IZR, <- abs_IZR. apply IZR_le. lia. }
  replace (IZR n - IZR k) with ((x - IZR k) - (x - IZR n)) in A by ring. pose proof (Rabs_triang (x - IZR k) (- (x - IZR n))) as T.
  rewrite Rabs_Ropp in T. unfold Rminus at 1 in A. lra.
Qed.
Lemma round_integer n : round_half_even (IZR n) = n.
Proof.
  pose proof (round_nearest (IZR n) n) as H. rewrite (Rminus_diag_eq (IZR n) (IZR n)), Rabs_R0 in H by reflexivity.
  rewrite <- minus_IZR, <- abs_IZR in H. apply le_IZR in H. lia.
Qed.
Lemma binary64_0 : binary64 0 = 0.
Proof.
  unfold binary64. replace (0 / ulp 0) with (IZR 0) by (field; pose proof (ulp_pos 0); lra). rewrite round_integer. ring.
Qed.
Lemma binary64_rounds : rounds (powerRZ 2 (-53)) (powerRZ 2 (-1075)) binary64.
Proof.
  pose proof (pow2_pos (-53)). pose proof (pow2_pos (-1075)). split; [lra|]. split; [lra|]. intros x.
  destruct (Req_dec x 0) as [->|Hx]; [rewrite binary64_0, Rminus_0_r, Rabs_R0; lra|].
  eapply Rle_trans; [apply binary64_half|]. unfold ulp. destruct (exponent_spec x Hx) as [H1 _]. pose proof (Rabs_pos x).
  destruct (Z.max_spec (-1074) (exponent x - 52)) as [[_ ->]|[_ ->]].
  - replace (exponent x - 52)%Z with (exponent x + (-53 + 1))%Z by lia. rewrite !pow2_add. change (powerRZ 2 1) with (2 * 1). nra.
  - replace (-1074)%Z with (-1075 + 1)%Z by lia. rewrite pow2_add. change (powerRZ 2 1) with (2 * 1). nra.
Qed.
Lemma pow2_Z k : (0 <= k)%Z -> powerRZ 2 k = IZR (2 ^ k).
Proof.
  intros H. destruct k as [|p|p]; [reflexivity| |lia]. cbn [powerRZ]. rewrite pow_IZR, positive_nat_Z. reflexivity.
Qed.
(** Every double is a multiple of the distance at [x], or smaller than [x] by
    more than a power of two. *)
Lemma double_near x f : x <> 0 -> double f ->
  (exists n, f = IZR n * ulp x) \/ Rabs f < powerRZ 2 (exponent x) /\ ulp x = powerRZ 2 (exponent x - 52).
Proof.
  intros Hx (m & e & Hm & He & ->). unfold ulp. set (E := Z.max (-1074) (exponent x - 52)).
  destruct (Z_le_gt_dec E e) as [L|G].
  - left. exists (m * 2 ^ (e - E))%Z. rewrite mult_IZR, <- pow2_Z by lia. rewrite Rmult_assoc, <- pow2_add. do 2 f_equal. lia.
  - right. assert (EE : E = (exponent x - 52)%Z) by lia. split; [|rewrite EE; reflexivity].
    rewrite Rabs_mult, (Rabs_right (powerRZ 2 e)) by (pose proof (pow2_pos e); lra). rewrite <- abs_IZR.
    apply Rlt_le_trans with (powerRZ 2 53 * powerRZ 2 e).
    + apply Rmult_lt_compat_r; [apply pow2_pos|]. rewrite pow2_Z by lia. apply IZR_lt. exact Hm.
    + rewrite <- pow2_add. apply pow2_mono. lia.
Qed.
Lemma near_multiple x n : Rabs (x - binary64 x) <= Rabs (x - IZR n * ulp x).
Proof.
  unfold binary64. pose proof (ulp_pos x) as U. pose proof (round_nearest (x / ulp x) n) as H.
  set (k := round_half_even _) in *.
  replace (x - IZR k * ulp x) with ((x / ulp x - IZR k) * ulp x) by (field; lra).
  replace (x - IZR n * ulp x) with ((x / ulp x - IZR n) * ulp x) by (field; lra).
  rewrite !Rabs_mult, (Rabs_right (ulp x)) by lra. apply Rmult_le_compat_r; lra.
Qed.
(** A double smaller than the power of two below [x] is further away. *)
Lemma small_far x f : x <> 0 -> Rabs f < powerRZ 2 (exponent x) -> ulp x = powerRZ 2 (exponent x - 52) -> Rabs (x - binary64 x) < Rabs (x - f).
Proof.
  intros Hx Hs HU. destruct (exponent_spec x Hx) as [H1 _]. set (p := powerRZ 2 (exponent x)) in *.
  assert (P : p = IZR (2 ^ 52) * ulp x) by (unfold p; rewrite HU, <- pow2_Z by lia; rewrite <- pow2_add; f_equal; lia).
  apply Rabs_def2 in Hs as [Hs1 Hs2]. destruct (Rle_lt_dec 0 x) as [X|X].
  - rewrite (Rabs_right x) in H1 by lra. pose proof (near_multiple x (2 ^ 52)%Z) as M. rewrite <- P in M. eapply Rle_lt_trans; [exact M|].
    rewrite !Rabs_right by lra. lra.
  - rewrite (Rabs_left x) in H1 by lra. pose proof (near_multiple x (- 2 ^ 52)%Z) as M. rewrite opp_IZR, <- Ropp_mult_distr_l, <- P in M. eapply Rle_lt_trans; [exact M|].
    rewrite !Rabs_left1 by lra. lra.
Qed.
Lemma binary64_nearest x f : double f -> Rabs (x - binary64 x) <= Rabs (x - f).
Proof.
  intros Hf. destruct (Req_dec x 0) as [->|Hx].
  { rewrite binary64_0, Rminus_0_r, Rabs_R0. apply Rabs_pos. }
  destruct (double_near x f Hx Hf) as [[n ->]|[Hs HU]]; [apply near_multiple|]. left. apply small_far; assumption.
Qed.
Lemma binary64_double x : double (binary64 x).
Proof.
  destruct (Req_dec x 0) as [->|Hx].
  { rewrite binary64_0. exists 0%Z, 0%Z. split; [reflexivity|]. split; [lia|]. simpl. ring. }
  unfold binary64. set (n := round_half_even (x / ulp x)). destruct (exponent_spec x Hx) as [_ H2].
  assert (B : (Z.abs n <= 2 ^ 53)%Z).
  { apply le_IZR. rewrite abs_IZR. pose proof (ulp_pos x) as U.
    assert (Q : Rabs (x / ulp x) < IZR (2 ^ 53)).
    { unfold Rdiv. rewrite Rabs_mult, (Rabs_right (/ ulp x)) by (left; apply Rinv_0_lt_compat; exact U).
      apply Rmult_lt_reg_r with (ulp x); [exact U|]. rewrite Rmult_assoc, Rinv_l, Rmult_1_r by lra. rewrite <- pow2_Z by lia.
      unfold ulp. rewrite <- pow2_add. eapply Rlt_le_trans; [exact H2|]. apply pow2_mono. lia. }
    assert (Hn : (Z.abs n < 2 ^ 53 + 1)%Z); [|rewrite <- abs_IZR; apply IZR_le; lia].
    apply lt_IZR. rewrite abs_IZR, plus_IZR. destruct (round_half_even_spec (x / ulp x)) as [H _]. fold n in H.
    pose proof (Rabs_triang (x / ulp x) (- (x / ulp x - IZR n))) as T. rewrite Rabs_Ropp in T.
    replace (x / ulp x + - (x / ulp x - IZR n)) with (IZR n) in T by ring. lra. }
  unfold ulp. set (E := Z.max (-1074) (exponent x - 52)).
  destruct (Z.eq_dec (Z.abs n) (2 ^ 53)) as [Q|Q].
  - exists (Z.sgn n * 2 ^ 52)%Z, (E + 1)%Z. split; [|split; [lia|]].
    + rewrite Z.abs_mul. destruct n; simpl Z.sgn; lia.
    + rewrite pow2_add. assert (En : n = (Z.sgn n * 2 ^ 52 * 2)%Z) by (pose proof (Z.sgn_abs n); lia). rewrite En at 1. rewrite (mult_IZR _ 2). change (powerRZ 2 1) with (2 * 1). ring.
  - exists n, E. split; [lia|]. split; [lia|reflexivity].
Qed.
Lemma binary64_fix f : double f -> binary64 f = f.
Proof.
  intros H. pose proof (binary64_nearest f f H) as L. rewrite (Rminus_diag_eq f f), Rabs_R0 in L by reflexivity.
  pose proof (Rabs_pos (f - binary64 f)). assert (E : Rabs (f - binary64 f) = 0) by lra. destruct (Req_dec (f - binary64 f) 0) as [D|D]; [lra|].
  apply Rabs_no_R0 in D. contradiction.
Qed.

(** * What does not depend on the numbers *)
Section Shape.
Variables N N' : numops.
Definition rr {A B} (R : A -> B -> Prop) (x : res A) (y : res B) : Prop :=
  match x, y with Ok a, Ok b => R a b | Err e, Err e' => e = e' | _, _ => False end.
Lemma rr_bind {A B A' B'} (R : A -> B -> Prop) (S : A' -> B' -> Prop) x y f g : rr R x y -> (forall a b, R a b -> rr S (f a) (g b)) -> rr S (bind x f) (bind y g).
Proof. destruct x, y; cbn; intros H K; try contradiction; auto. Qed.
Definition vmr (m : vm N) (m' : vm N') : Prop :=
  absolute_position N m = absolute_position N' m' /\ absolute_extrusion N m = absolute_extrusion N' m' /\ vm_units N m = vm_units N' m' /\
  same_kind (vm_p_vel N m) (vm_p_vel N' m') /\ same_kind (vm_p_acc N m) (vm_p_acc N' m') /\ same_kind (vm_jerk N m) (vm_jerk N' m') /\
  same_kind (vm_vX N m) (vm_vX N' m') /\ same_kind (vm_vY N m) (vm_vY N' m') /\ same_kind (vm_vZ N m) (vm_vZ N' m') /\ same_kind (vm_vE N m) (vm_vE N' m').
Lemma need_num_rr l : rr (fun _ _ => True) (need_num N l) (need_num N' l).
Proof. destruct l as [[|]|]; cbn; auto. Qed.
Lemma as_sval_rr l : rr same_kind (as_sval N l) (as_sval N' l).
Proof. destruct l as [[|]|]; cbn; auto. Qed.
Lemma set_c_rr a x x' m m' : vmr m m' -> vmr (set_c N a x m) (set_c N' a x' m').
Proof. intros H. exact H. Qed.
Lemma set_o_rr a x x' m m' : vmr m m' -> vmr (set_o N a x m) (set_o N' a x' m').
Proof. intros H. exact H. Qed.
Lemma set_v_rr a x x' m m' : same_kind x x' -> vmr m m' -> vmr (set_v N a x m) (set_v N' a x' m').
Proof. intros K H. unfold vmr, set_v in *. cbn [absolute_position absolute_extrusion vm_units vm_p_vel vm_p_acc vm_jerk vm_vX vm_vY vm_vZ vm_vE] in *. destruct a; tauto. Qed.
Lemma set_dyn_rr a b c a' b' c' m m' : same_kind a a' -> same_kind b b' -> same_kind c c' -> vmr m m' -> vmr (set_dyn N a b c m) (set_dyn N' a' b' c' m').
Proof. intros ? ? ? H. unfold vmr, set_dyn in *. cbn [absolute_position absolute_extrusion vm_units vm_p_vel vm_p_acc vm_jerk vm_vX vm_vY vm_vZ vm_vE] in *. tauto. Qed.
Lemma do_modes_rr d m m' : vmr m m' -> vmr (do_modes N d m) (do_modes N' d m').
Proof.
  intros (A & B & C & H). unfold do_modes. cbn zeta. rewrite A, B, C. split; [reflexivity|]. split; [reflexivity|]. split; [reflexivity|]. exact H.
Qed.
Lemma do_axis_rr b a s m m' : vmr m m' -> rr vmr (do_axis N b a s m) (do_axis N' b a s m').
Proof.
  intros H. unfold do_axis. destruct (dget (axis_key a) s) as [l|]; [|exact H]. apply (rr_bind _ _ _ _ _ _ (need_num_rr l)). intros. apply set_c_rr, H.
Qed.
Lemma vmr_abs m m' : vmr m m' -> absolute_position N m = absolute_position N' m' /\ absolute_extrusion N m = absolute_extrusion N' m'.
Proof. intros H. split; apply H. Qed.
Lemma do_move_rr cmd d m m' : vmr m m' -> rr vmr (do_move N cmd d m) (do_move N' cmd d m').
Proof.
  intros H. unfold do_move. destruct (sub_dict cmd d) as [s|]; [|exact H].
  rewrite (proj1 (vmr_abs _ _ H)). apply (rr_bind vmr _ _ _ _ _ (do_axis_rr _ AX s m m' H)). clear m m' H. intros m m' H.
  rewrite (proj1 (vmr_abs _ _ H)). apply (rr_bind vmr _ _ _ _ _ (do_axis_rr _ AY s m m' H)). clear m m' H. intros m m' H.
  rewrite (proj1 (vmr_abs _ _ H)). apply (rr_bind vmr _ _ _ _ _ (do_axis_rr _ AZ s m m' H)). clear m m' H. intros m m' H.
  rewrite (proj2 (vmr_abs _ _ H)). apply (rr_bind vmr _ _ _ _ _ (do_axis_rr _ AE s m m' H)). clear m m' H. intros m m' H.
  destruct (dget (S_ "F") s) as [l|]; [|exact H]. apply (rr_bind _ _ _ _ _ _ (need_num_rr l)). intros. cbn [rr].
  pose proof H as (_ & _ & _ & _ & K1 & K2 & _). apply set_dyn_rr; [exact I|exact K1|exact K2|exact H].
Qed.
Lemma do_g92_rr s : forall m m', vmr m m' -> rr vmr (do_g92 N s m) (do_g92 N' s m').
Proof.
  induction s as [|[k l] s IH]; intros m m' H; [exact H|]. cbn [do_g92]. destruct (axis_of_key k) as [a|]; [|apply IH, H].
  apply (rr_bind _ _ _ _ _ _ (need_num_rr l)). intros. apply IH. apply set_c_rr, set_o_rr, H.
Qed.
Lemma do_m203_rr s : forall m m', vmr m m' -> rr vmr (do_m203 N s m) (do_m203 N' s m').
Proof.
  induction s as [|[k l] s IH]; intros m m' H; [exact H|]. cbn [do_m203]. destruct (axis_of_key k) as [a|]; [|apply IH, H].
  apply (rr_bind _ _ _ _ _ _ (as_sval_rr l)). intros. apply IH. apply set_v_rr; assumption.
Qed.
Lemma do_sub_rr cmd d f f' m m' : (forall s m m', vmr m m' -> rr vmr (f s m) (f' s m')) -> vmr m m' -> rr vmr (do_sub N cmd d f m) (do_sub N' cmd d f' m').
Proof. intros F H. unfold do_sub. destruct (sub_dict cmd d); [apply F, H|exact H]. Qed.
Lemma do_m204_rr s m m' : vmr m m' -> rr vmr (do_m204 N s m) (do_m204 N' s m').
Proof.
  intros H. unfold do_m204. destruct (dget (S_ "P") s) as [l|]; [|exact H]. apply (rr_bind _ _ _ _ _ _ (as_sval_rr l)). intros. cbn [rr].
  pose proof H as (_ & _ & _ & K0 & K1 & K2 & _). apply set_dyn_rr; assumption.
Qed.
Lemma do_m205_rr s m m' : vmr m m' -> rr vmr (do_m205 N s m) (do_m205 N' s m').
Proof.
  intros H. unfold do_m205. destruct (dget (S_ "X") s) as [l|]; [|exact H]. apply (rr_bind _ _ _ _ _ _ (as_sval_rr l)). intros. cbn [rr].
  pose proof H as (_ & _ & _ & K0 & K1 & K2 & _). apply set_dyn_rr; assumption.
Qed.
Definition opr (p : option (sval N)) (p' : option (sval N')) : Prop :=
  match p, p' with None, None => True | Some v, Some v' => same_kind v v' | _, _ => False end.
Lemma do_dwell_rr d : rr opr (do_dwell N d) (do_dwell N' d).
Proof.
  unfold do_dwell. destruct (sub_dict (S_ "G4") d) as [s|]; [|exact I]. apply (rr_bind opr).
  - destruct (dget (S_ "P") s) as [l|]; [|exact I]. apply (rr_bind _ _ _ _ _ _ (need_num_rr l)). intros. exact I.
  - intros p p' Hp. destruct (dget (S_ "S") s) as [l|]; [|exact Hp]. apply (rr_bind _ _ _ _ _ _ (as_sval_rr l)). intros. assumption.
Qed.
Lemma step_rr d m m' : vmr m m' -> rr (fun x y => vmr (fst x) (fst y) /\ opr (snd x) (snd y)) (step_vm N d m) (step_vm N' d m').
Proof.
  intros H. unfold step_vm. cbn zeta. apply do_modes_rr with (d := d) in H.
  apply (rr_bind vmr _ _ _ _ _ (do_move_rr _ d _ _ H)). clear m m' H. intros m m' H.
  apply (rr_bind vmr _ _ _ _ _ (do_move_rr _ d _ _ H)). clear m m' H. intros m m' H.
  apply (rr_bind vmr _ _ _ _ _ (do_sub_rr _ d _ _ _ _ do_g92_rr H)). clear m m' H. intros m m' H.
  apply (rr_bind vmr _ _ _ _ _ (do_sub_rr _ d _ _ _ _ do_m204_rr H)). clear m m' H. intros m m' H.
  apply (rr_bind vmr _ _ _ _ _ (do_sub_rr _ d _ _ _ _ do_m203_rr H)). clear m m' H. intros m m' H.
  apply (rr_bind vmr _ _ _ _ _ (do_sub_rr _ d _ _ _ _ do_m205_rr H)). clear m m' H. intros m m' H.
  apply (rr_bind opr _ _ _ _ _ (do_dwell_rr d)). intros p p' Hp. split; assumption.
Qed.
Lemma shape_state cue l m m' p p' n : vmr m m' -> opr p p' -> same_words (line_state N cue l m p n) (line_state N' cue l m' p' n).
Proof.
  intros H Hp. unfold same_words, line_state, vm_settings. cbn [line_number comment layer state_p_settings units speed p_acc jerk pause].
  pose proof H as (_ & _ & K & K0 & K1 & K2 & Kx & Ky & Kz & Ke). split; [reflexivity|]. split; [reflexivity|]. split; [reflexivity|].
  split; [|exact Hp]. split; [exact K|]. split; [exact K0|]. split; [exact K1|]. split; [exact K2|]. intros []; assumption.
Qed.
Lemma travel_rr cue ls : forall m m' n, vmr m m' -> rr (Forall2 same_words) (travel N cue ls m n) (travel N' cue ls m' n).
Proof.
  induction ls as [|l ls IH]; intros m m' n H; [constructor|]. cbn [travel].
  apply (rr_bind _ _ _ _ _ _ (step_rr (ld l) m m' H)). intros [a p] [b p'] [K Hp]. cbn [fst snd] in K, Hp.
  apply (rr_bind _ _ _ _ _ _ (IH a b _ K)). intros x y Hxy. constructor; [apply shape_state; assumption|exact Hxy].
Qed.
Lemma traveler_rr ls su su' : s_layer_cue N su = s_layer_cue N' su' -> rr (Forall2 same_words) (dict_list_traveler N ls su) (dict_list_traveler N' ls su').
Proof.
  intros H. unfold dict_list_traveler. rewrite H.
  assert (V : vmr (init_vm N su) (init_vm N' su')) by (unfold vmr, init_vm; cbn; tauto).
  apply (rr_bind _ _ _ _ _ _ (travel_rr _ ls _ _ 0%nat V)). intros x y Hxy. constructor; [|exact Hxy].
  unfold same_words, initial_state. cbn [line_number comment layer state_p_settings pause]. split; [reflexivity|]. split; [reflexivity|]. split; [reflexivity|].
  split; [|exact I]. unfold vm_settings, init_vm. cbn. split; [reflexivity|]. split; [exact I|]. split; [exact I|]. split; [exact I|]. intros []; exact I.
Qed.
End Shape.

(** * Errors of the coordinates *)
Section Errors.
Variables (rnd : R -> R) (u eta M : R).
Hypothesis Hr : rounds u eta rnd.
Hypothesis Hu : u <= 1 / 100.
Hypothesis HM : 0 <= M.
Let D := u * M + eta.
Lemma u0 : 0 <= u. Proof. apply Hr. Qed.
Lemma eta0 : 0 <= eta. Proof. apply Hr. Qed.
Lemma D0 : 0 <= D. Proof. pose proof u0. pose proof eta0. unfold D. nra. Qed.
Lemma rnd_err x y e k : Rabs (y - x) <= e -> Rabs x <= k * M -> 1 <= k -> Rabs (rnd y - x) <= e + u * e + k * D.
Proof.
  intros H1 H2 Hk. destruct Hr as (A & B & C). specialize (C y).
  assert (E : Rabs y <= k * M + e).
  { replace y with ((y - x) + x) by ring. pose proof (Rabs_triang (y - x) x). lra. }
  assert (T : Rabs (rnd y - x) <= Rabs (rnd y - y) + Rabs (y - x)).
  { replace (rnd y - x) with ((rnd y - y) + (y - x)) by ring. apply Rabs_triang. }
  assert (F : u * Rabs y <= u * (k * M + e)) by (apply Rmult_le_compat_l; assumption).
  unfold D. nra.
Qed.
Lemma scale e0 e c d : 0 <= e0 -> 0 <= c -> 0 <= d -> e <= e0 + c * (u * e0) + d * D -> u * e <= u * e0 + c / 100 * (u * e0) + d / 100 * D.
Proof.
  intros H0 Hc Hd H. pose proof u0. pose proof D0.
  assert (A : u * e <= u * (e0 + c * (u * e0) + d * D)) by (apply Rmult_le_compat_l; assumption).
  assert (B : u * (u * e0) <= 1 / 100 * (u * e0)) by (apply Rmult_le_compat_r; [apply Rmult_le_pos; assumption|assumption]).
  assert (C : u * D <= 1 / 100 * D) by (apply Rmult_le_compat_r; assumption).
  assert (B' : c * (u * (u * e0)) <= c * (1 / 100 * (u * e0))) by (apply Rmult_le_compat_l; assumption).
  assert (C' : d * (u * D) <= d * (1 / 100 * D)) by (apply Rmult_le_compat_l; assumption).
  lra.
Qed.
(** One of the commands G0 and G1. *)
Lemma move_err (w : option leaf) (ab : bool) (x x' xf xf' : R) k e :
  match w with None => x' = x | Some lf => exists v, meansR lf v /\ x' = if ab then v else x + v end ->
  match w with None => xf' = xf | Some lf => exists v, means (N := Fops rnd) lf v /\ xf' = if ab then v else rnd (xf + v) end ->
  (forall lf v, w = Some lf -> meansR lf v -> Rabs v <= M) -> Rabs x' <= k * M -> 1 <= k -> Rabs (xf - x) <= e ->
  Rabs (xf' - x') <= (e + D) + u * (e + D) + k * D.
Proof.
  intros H Hf Hw Hx Hk He. pose proof u0. pose proof D0. pose proof (Rabs_pos (xf - x)) as P.
  assert (Q : 0 <= u * (e + D)) by (apply Rmult_le_pos; lra). assert (Q' : D <= k * D) by nra.
  destruct w as [lf|]; [|subst; lra].
  destruct H as (v & (m & x0 & -> & ->) & ->). destruct Hf as (v & (m' & x0' & E & ->) & ->). injection E as <- <-.
  cbn [n_of_dec Fops Rops]. set (y := r_of_dec m x0) in *.
  assert (Ey : Rabs (rnd y - y) <= D).
  { assert (Hy : Rabs y <= M) by (apply (Hw _ _ eq_refl); exists m, x0; split; reflexivity).
    destruct Hr as (A & B & C). specialize (C y). unfold D. assert (u * Rabs y <= u * M) by (apply Rmult_le_compat_l; assumption). lra. }
  destruct ab; [lra|].
  apply (rnd_err (x + y) (xf + rnd y) (e + D) k); [|exact Hx|exact Hk].
  replace (xf + rnd y - (x + y)) with ((xf - x) + (rnd y - y)) by ring. eapply Rle_trans; [apply Rabs_triang|]. lra.
Qed.
Definition cF (a : axis) (m : vm (Fops rnd)) : R := get_c (Fops rnd) a m.
Definition oF (a : axis) (m : vm (Fops rnd)) : R := get_o (Fops rnd) a m.
Lemma line_err a l m m' n n' p q :
  proper_line l -> g92_zero l -> words_within M l -> vmr Rops (Fops rnd) m' n' ->
  step_vm Rops (ld l) m = Ok (m', p) -> step_vm (Fops rnd) (ld l) n = Ok (n', q) ->
  Rabs (cR a m + oR a m) <= M -> Rabs (oR a m) <= M -> Rabs (cR a m' + oR a m') <= M ->
  Rabs (oR a m') <= M /\
  forall ec eo, Rabs (cF a n - cR a m) <= ec -> Rabs (oF a n - oR a m) <= eo ->
  exists ec' eo', Rabs (cF a n' - cR a m') <= ec' /\ Rabs (oF a n' - oR a m') <= eo' /\ ec' + eo' <= (1 + 5 * u) * (ec + eo) + 13 * D.
Proof.
  intros Hp Hz Hw Hv H Hf Hc Ho Hc'.
  destruct (le_coord _ _ _ _ _ (step_effect Rops l m m' p Hp H) a) as (x0 & x1 & A & B & C).
  destruct (le_coord _ _ _ _ _ (step_effect (Fops rnd) l n n' q Hp Hf) a) as (y0 & y1 & A' & B' & C').
  assert (Hab : abs_of Rops a m' = abs_of (Fops rnd) a n') by (destruct Hv as (V1 & V2 & _); destruct a; [exact V1|exact V1|exact V1|exact V2]).
  unfold cR, oR, cF, oF in *. cbn [n_add Rops Fops num] in *. rewrite <- Hab in A', B'. specialize (Hz a).
  set (c := get_c Rops a m : R) in *. set (o := get_o Rops a m : R) in *. set (c' := get_c Rops a m' : R) in *. set (o' := get_o Rops a m' : R) in *.
  set (d := get_c (Fops rnd) a n : R) in *. set (r := get_o (Fops rnd) a n : R) in *. set (d' := get_c (Fops rnd) a n' : R) in *. set (r' := get_o (Fops rnd) a n' : R) in *.
  assert (W : forall cmd, In cmd [S_ "G0"; S_ "G1"] -> forall lf v, word cmd (name a) l = Some lf -> meansR lf v -> Rabs v <= M) by (intros cmd Hi lf v; apply (Hw cmd a lf v Hi)).
  assert (X1 : x1 + o = c' + o').
  { destruct (word (S_ "G92") (name a) l) as [lf|]; [|destruct C as [-> ->]; reflexivity].
    destruct (Hz lf eq_refl) as (e & ->). destruct C as (x & (m1 & e1 & E & ->) & C1 & C2). injection E as <- <-. rewrite C1, C2.
    cbn [n_of_dec Rops]. rewrite r_of_dec_0. ring. }
  assert (B1 : Rabs x1 <= 2 * M).
  { replace x1 with ((c' + o') + - o) by lra. eapply Rle_trans; [apply Rabs_triang|]. rewrite Rabs_Ropp. lra. }
  assert (B0 : Rabs x0 <= 3 * M).
  { assert (Rabs c <= 2 * M) by (replace c with ((c + o) + - o) by ring; eapply Rle_trans; [apply Rabs_triang|]; rewrite Rabs_Ropp; lra).
    destruct (word (S_ "G0") (name a) l) as [lf|] eqn:E0; [|rewrite A; lra]. destruct A as (v & V & ->).
    pose proof (W (S_ "G0") (or_introl eq_refl) lf v E0 V). destruct (abs_of Rops a m'); [lra|]. eapply Rle_trans; [apply Rabs_triang|]. lra. }
  split.
  { destruct (word (S_ "G92") (name a) l) as [lf|]; [|destruct C as [_ ->]; exact Ho].
    destruct (Hz lf eq_refl) as (e & ->). destruct C as (x & (m1 & e1 & E & ->) & C1 & C2). injection E as <- <-.
    cbn [n_of_dec Rops] in C1. rewrite r_of_dec_0 in C1. rewrite C1, Rplus_0_l in Hc'. exact Hc'. }
  intros ec eo Hec Heo. pose proof u0. pose proof D0. pose proof (Rabs_pos (d - c)). pose proof (Rabs_pos (r - o)).
  assert (E1 := move_err _ _ c x0 d y0 3 ec A A' (W _ (or_introl eq_refl)) B0 ltac:(lra) Hec).
  set (P := u * ec) in *. assert (P0 : 0 <= P) by (apply Rmult_le_pos; lra).
  assert (UD : u * D <= 1 / 100 * D) by (apply Rmult_le_compat_r; assumption).
  assert (F1 : Rabs (y0 - x0) <= ec + 1 * P + (401 / 100) * D) by (unfold P in *; lra).
  assert (E2 := move_err _ _ x0 x1 y0 y1 2 _ B B' (W _ (or_intror (or_introl eq_refl))) B1 ltac:(lra) F1).
  assert (S1 := scale ec _ 1 (401 / 100) ltac:(lra) ltac:(lra) ltac:(lra) (Rle_refl _)). fold P in S1.
  assert (F2 : Rabs (y1 - x1) <= ec + (201 / 100) * P + (71 / 10) * D) by (eapply Rle_trans; [exact E2|]; rewrite Rmult_plus_distr_l; lra).
  assert (UE : 0 <= u * eo) by (apply Rmult_le_pos; lra).
  destruct (word (S_ "G92") (name a) l) as [lf|].
  2:{ destruct C as [-> ->], C' as [-> ->]. exists (ec + (201 / 100) * P + (71 / 10) * D), eo. split; [exact F2|]. split; [exact Heo|]. unfold P in *. nra. }
  destruct (Hz lf eq_refl) as (e & ->). destruct C as (x & (m1 & e1 & E & ->) & C1 & C2). injection E as <- <-.
  destruct C' as (y & (m2 & e2 & E & ->) & C1' & C2'). injection E as <- <-. cbn [n_of_dec Rops Fops] in *. rewrite r_of_dec_0 in *.
  assert (Hz0 : Rabs (rnd 0 - 0) <= D).
  { destruct Hr as (R1 & R2 & R3). specialize (R3 0). rewrite Rabs_R0 in R3. unfold D. assert (0 <= u * M) by (apply Rmult_le_pos; assumption). lra. }
  assert (E3 := rnd_err (x1 + 0) (y1 + rnd 0) (ec + (201 / 100) * P + (71 / 10) * D + D) 2).
  assert (F3 : Rabs (rnd (y1 + rnd 0) - (x1 + 0)) <= ec + (304 / 100) * P + (1027 / 100) * D).
  { eapply Rle_trans.
    - apply E3; [|rewrite Rplus_0_r; exact B1|lra]. replace (y1 + rnd 0 - (x1 + 0)) with ((y1 - x1) + (rnd 0 - 0)) by ring. eapply Rle_trans; [apply Rabs_triang|]. lra.
    - assert (S2 := scale ec (ec + (201 / 100) * P + (71 / 10) * D + D) (201 / 100) (81 / 10) ltac:(lra) ltac:(lra) ltac:(lra) ltac:(unfold P; lra)). fold P in S2. lra. }
  assert (O' : x1 + 0 + o = o') by (rewrite C2; reflexivity).
  assert (E4 := rnd_err o' (rnd (y1 + rnd 0) + r) (ec + (304 / 100) * P + (1027 / 100) * D + eo) 1).
  exists D, (ec + (304 / 100) * P + (1027 / 100) * D + eo + (P + (304 / 10000) * P + (1027 / 10000) * D + u * eo) + D).
  split; [rewrite C1', C1; exact Hz0|]. split.
  - rewrite C2'. eapply Rle_trans.
    + apply E4; [| |lra].
      * rewrite <- O'. replace (rnd (y1 + rnd 0) + r - (x1 + 0 + o)) with ((rnd (y1 + rnd 0) - (x1 + 0)) + (r - o)) by ring. eapply Rle_trans; [apply Rabs_triang|]. lra.
      * replace o' with (c' + o') by (rewrite C1; ring). lra.
    + assert (S3 := scale ec (ec + (304 / 100) * P + (1027 / 100) * D) (304 / 100) (1027 / 100) ltac:(lra) ltac:(lra) ltac:(lra) (Rle_refl _)). fold P in S3.
      rewrite Rmult_plus_distr_l. lra.
  - unfold P in *. nra.
Qed.
Lemma run_err a : forall ls m n mk nk ec eo,
  Forall proper_line ls -> Forall g92_zero ls -> Forall (words_within M) ls -> vmr Rops (Fops rnd) m n ->
  Rabs (oR a m) <= M -> (forall i mi, (i <= length ls)%nat -> vm_after Rops (firstn i ls) m = Ok mi -> Rabs (cR a mi + oR a mi) <= M) ->
  vm_after Rops ls m = Ok mk -> vm_after (Fops rnd) ls n = Ok nk ->
  Rabs (cF a n - cR a m) <= ec -> Rabs (oF a n - oR a m) <= eo ->
  exists ec' eo', Rabs (cF a nk - cR a mk) <= ec' /\ Rabs (oF a nk - oR a mk) <= eo' /\
    ec' + eo' <= (1 + 5 * u) ^ length ls * (ec + eo + 13 * INR (length ls) * D).
Proof.
  induction ls as [|l ls IH]; intros m n mk nk ec eo Hp Hz Hw Hv Ho Hc H Hf He1 He2.
  - injection H as <-. injection Hf as <-. exists ec, eo. split; [exact He1|]. split; [exact He2|]. simpl. lra.
  - inversion Hp as [|? ? P1 P2]; subst. inversion Hz as [|? ? Z1 Z2]; subst. inversion Hw as [|? ? W1 W2]; subst.
    cbn [vm_after] in H, Hf. pose proof (step_rr Rops (Fops rnd) (ld l) m n Hv) as S.
    destruct (step_vm Rops (ld l) m) as [[m1 p]|] eqn:E1; cbn [bind] in H; [|discriminate].
    destruct (step_vm (Fops rnd) (ld l) n) as [[n1 q]|] eqn:E2; cbn [bind] in Hf; [|discriminate].
    cbn [rr fst snd] in S. destruct S as [V1 _].
    assert (C0 := Hc 0%nat m (Nat.le_0_l _) eq_refl).
    assert (C1 : Rabs (cR a m1 + oR a m1) <= M).
    { apply (Hc 1%nat m1); [simpl; lia|]. cbn [firstn vm_after]. rewrite E1. reflexivity. }
    destruct (line_err a l m m1 n n1 p q P1 Z1 W1 V1 E1 E2 C0 Ho C1) as [O1 K].
    destruct (K ec eo He1 He2) as (ec1 & eo1 & K1 & K2 & K3).
    destruct (IH m1 n1 mk nk ec1 eo1 P2 Z2 W2 V1 O1) as (ec' & eo' & I1 & I2 & I3); [|exact H|exact Hf|exact K1|exact K2|].
    { intros i mi Hi Hmi. apply (Hc (S i) mi); [simpl; lia|]. cbn [firstn vm_after]. rewrite E1. exact Hmi. }
    exists ec', eo'. split; [exact I1|]. split; [exact I2|]. eapply Rle_trans; [exact I3|].
    cbn [length pow]. rewrite S_INR. pose proof u0. pose proof D0. set (k := INR (length ls)). assert (Kp : 0 <= k) by apply pos_INR.
    assert (0 < (1 + 5 * u) ^ length ls) by (apply pow_lt; lra).
    apply Rle_trans with ((1 + 5 * u) ^ length ls * ((1 + 5 * u) * (ec + eo + 13 * (k + 1) * D))); [|right; ring].
    apply Rmult_le_compat_l; [lra|].
    assert (0 <= u * (13 * (k + 1) * D)) by (apply Rmult_le_pos; [assumption|]; apply Rmult_le_pos; [lra|assumption]). nra.
Qed.
End Errors.
Lemma pow_le_2 x k : 0 <= x -> 2 * (INR k * x) <= 1 -> (1 + x) ^ k <= 2.
Proof.
  intros Hx. assert (B : forall k, 0 <= 1 - INR k * x -> (1 + x) ^ k * (1 - INR k * x) <= 1).
  { clear k. induction k as [|k IH]; intros H; [simpl; lra|]. rewrite S_INR in *. assert (Hk : 0 <= INR k) by apply pos_INR.
    assert (Hp : 0 < (1 + x) ^ k) by (apply pow_lt; lra).
    assert (I := IH ltac:(nra)). cbn [pow]. replace ((1 + x) * (1 + x) ^ k * (1 - (INR k + 1) * x)) with ((1 + x) ^ k * ((1 + x) * (1 - (INR k + 1) * x))) by ring.
    eapply Rle_trans; [|exact I]. apply Rmult_le_compat_l; [lra|]. assert (0 <= INR k * (x * x)) by (apply Rmult_le_pos; [assumption|nra]). nra. }
  intros H. assert (C := B k ltac:(lra)). assert (Hp : 0 < (1 + x) ^ k) by (apply pow_lt; lra). nra.
Qed.
