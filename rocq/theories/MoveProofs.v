(** Proofs about move_maker2: every case builds a gap-free motion. *)
From Coq Require Import Lra Psatz.
From Verif Require Import Py Vec Segment Junction Planner RealFacts SpecKin.
Open Scope R_scope.

Lemma mk_segment_ok t0 t1 p0 p1 v0 v1 :
  t0 <= t1 ->
  p1 = vadd p0 (vdiv (vscale (t1 - t0) (vadd v0 v1)) 2) ->
  mk_segment t0 t1 p0 p1 v0 v1 = Ok (Seg t0 t1 p0 p1 v0 v1).
Proof.
  intros Ht Hp. unfold mk_segment, self_check, predicted_end; simpl.
  rewrite <- Hp, vsub_self, norm3_vzero.
  rewrite (Rltb_false (1 / 1000000) 0) by lra.
  rewrite (Rltb_false t1 t0) by lra. reflexivity.
Qed.

(** Direction of a move: unit in space, or unit along the extrusion axis. *)
Definition is_dir (d : vec4) (eo : bool) : Prop :=
  if eo then norm3 d = 0 /\ norm4 d = 1 else norm3 d = 1.

Lemma is_dir_norm4 d eo : is_dir d eo -> norm4 d > 0.
Proof.
  destruct eo; simpl; [lra|]. intros H. pose proof (norm3_le_norm4 d); lra.
Qed.
Lemma is_dir_const d eo k : is_dir d eo -> 0 <= k ->
  (if eo then norm4 (vscale k d) else norm3 (vscale k d)) = k.
Proof.
  destruct eo; simpl; intros H Hk.
  - rewrite norm4_scale_pos by assumption. destruct H as [_ ->]; ring.
  - rewrite norm3_scale_pos by assumption. rewrite H; ring.
Qed.

Lemma keep_seg_yes s d k :
  pos_end s = vadd (pos_begin s) (vscale k d) -> norm4 d > 0 -> k <> 0 -> keep_seg s = [s].
Proof.
  intros Hp Hd Hk. unfold keep_seg, is_travel, pos_is_extruding. rewrite Hp; simpl.
  pose proof (norm4_sq d) as Hsq.
  replace (vx (pos_begin s) - (vx (pos_begin s) + vx d * k)) with (- (vx d * k)) by ring.
  replace (vy (pos_begin s) - (vy (pos_begin s) + vy d * k)) with (- (vy d * k)) by ring.
  replace (vz (pos_begin s) - (vz (pos_begin s) + vz d * k)) with (- (vz d * k)) by ring.
  replace (ve (pos_begin s) - (ve (pos_begin s) + ve d * k)) with (- (ve d * k)) by ring.
  rewrite !Rabs_Ropp, !Rabs_mult.
  assert (Hk' : Rabs k > 0) by (apply Rabs_pos_lt; assumption).
  assert (Hge : forall x, 0 <= Rabs x * Rabs k) by
    (intros x; apply Rmult_le_pos; [apply Rabs_pos | lra]).
  assert (Hgt : forall x, x <> 0 -> 0 < Rabs x * Rabs k) by
    (intros x Hx; apply Rmult_lt_0_compat; [apply Rabs_pos_lt; assumption | lra]).
  destruct (Req_EM_T (vx d) 0) as [Ex|Ex];
    [destruct (Req_EM_T (vy d) 0) as [Ey|Ey];
     [destruct (Req_EM_T (vz d) 0) as [Ez|Ez];
      [destruct (Req_EM_T (ve d) 0) as [Ee|Ee]|]|]|].
  - rewrite Ex, Ey, Ez, Ee in Hsq. exfalso; nra.
  - rewrite (Rltb_true 0 (Rabs (ve d) * Rabs k)) by auto. rewrite orb_true_r; reflexivity.
  - rewrite Rltb_true; [reflexivity|].
    pose proof (Hge (vx d)); pose proof (Hge (vy d)); pose proof (Hgt _ Ez); lra.
  - rewrite Rltb_true; [reflexivity|].
    pose proof (Hge (vx d)); pose proof (Hge (vz d)); pose proof (Hgt _ Ey); lra.
  - rewrite Rltb_true; [reflexivity|].
    pose proof (Hge (vy d)); pose proof (Hge (vz d)); pose proof (Hgt _ Ex); lra.
Qed.

Lemma keep_seg_no s : pos_end s = pos_begin s -> keep_seg s = [].
Proof.
  intros Hp. unfold keep_seg, is_travel, pos_is_extruding. rewrite Hp.
  rewrite !Rminus_diag_eq by reflexivity. rewrite Rabs_R0.
  rewrite (Rltb_false 0 0) by lra. rewrite (Rltb_false 0 (0 + 0 + 0)) by lra. reflexivity.
Qed.

(** A motion piece that may be empty. *)
Lemma motion_app d a vm t p v l1 t1 p1 v1 l2 t2 p2 v2 :
  motion d a vm t p v l1 t1 p1 v1 -> motion d a vm t1 p1 v1 l2 t2 p2 v2 ->
  motion d a vm t p v (l1 ++ l2) t2 p2 v2.
Proof.
  induction 1 as [|t p v s w segs t' p' v' Ht Hp Hr Hm IH]; intros H2; [exact H2|].
  simpl. econstructor; eauto.
Qed.

(** Accelerating piece of length (v1^2-v0^2)/2a *)
Lemma up_piece d eo a vm t p v0 v1 :
  is_dir d eo -> 0 < a -> 0 <= v0 <= v1 -> v1 <= vm ->
  let k := (v1 - v0) * (v0 + v1) / (2 * a) in
  let s := Seg t (t + (v1 - v0) / a) p (vadd p (vscale k d)) (vscale v0 d) (vscale v1 d) in
  mk_segment t (t + (v1 - v0) / a) p (vadd p (vscale k d)) (vscale v0 d) (vscale v1 d) = Ok s /\
  motion d a vm t p v0 (keep_seg s) (t + (v1 - v0) / a) (vadd p (vscale k d)) v1 /\
  (v0 < v1 -> keep_seg s = [s]) /\ (v0 = v1 -> keep_seg s = []).
Proof.
  intros Hd Ha Hv Hm k s.
  assert (Hdt : 0 <= (v1 - v0) / a).
  { apply Rmult_le_pos; [lra | apply Rlt_le, Rinv_0_lt_compat; assumption]. }
  assert (Hk : vadd p (vscale k d) =
               vadd p (vscale ((v0 + v1) / 2 * (t + (v1 - v0) / a - t)) d)).
  { f_equal. f_equal. unfold k. field. lra. }
  assert (Hyes : v0 < v1 -> keep_seg s = [s]).
  { intros Hlt. apply keep_seg_yes with (d := d) (k := k); [reflexivity | eapply is_dir_norm4; eauto |].
    unfold k. apply Rgt_not_eq. apply Rdiv_lt_0_compat; [|lra]. apply Rmult_lt_0_compat; lra. }
  assert (Hno : v0 = v1 -> keep_seg s = []).
  { intros ->. apply keep_seg_no. simpl. unfold k.
    replace ((v1 - v1) * (v1 + v1) / (2 * a)) with 0 by (field; lra). vec. }
  repeat split; auto.
  - apply mk_segment_ok; [lra|]. rewrite Hk. vec.
  - destruct (Rle_lt_or_eq_dec v0 v1) as [Hlt|Heq]; [lra| |].
    + rewrite Hyes by assumption. apply motion_cons with (v1 := v1); [reflexivity | reflexivity | | constructor].
      unfold ramp; simpl.
      assert (0 < (v1 - v0) / a) by (apply Rdiv_lt_0_compat; lra).
      repeat split; try reflexivity; try lra; [exact Hk|].
      left. field. lra.
    + rewrite Hno by assumption.
      assert (Hz : k = 0). { unfold k. rewrite Heq. field. lra. }
      rewrite Hz, vscale_0, vadd_vzero_r, Heq.
      replace (t + (v1 - v1) / a) with t by (field; lra). constructor.
Qed.

(** Decelerating piece *)
Lemma down_piece d eo a vm t p v0 v1 :
  is_dir d eo -> 0 < a -> 0 <= v1 <= v0 -> v0 <= vm ->
  let k := (v0 - v1) * (v0 + v1) / (2 * a) in
  let s := Seg t (t + (v0 - v1) / a) p (vadd p (vscale k d)) (vscale v0 d) (vscale v1 d) in
  mk_segment t (t + (v0 - v1) / a) p (vadd p (vscale k d)) (vscale v0 d) (vscale v1 d) = Ok s /\
  motion d a vm t p v0 (keep_seg s) (t + (v0 - v1) / a) (vadd p (vscale k d)) v1 /\
  (v1 < v0 -> keep_seg s = [s]) /\ (v0 = v1 -> keep_seg s = []).
Proof.
  intros Hd Ha Hv Hm k s.
  assert (Hdt : 0 <= (v0 - v1) / a).
  { apply Rmult_le_pos; [lra | apply Rlt_le, Rinv_0_lt_compat; assumption]. }
  assert (Hk : vadd p (vscale k d) =
               vadd p (vscale ((v0 + v1) / 2 * (t + (v0 - v1) / a - t)) d)).
  { f_equal. f_equal. unfold k. field. lra. }
  assert (Hyes : v1 < v0 -> keep_seg s = [s]).
  { intros Hlt. apply keep_seg_yes with (d := d) (k := k); [reflexivity | eapply is_dir_norm4; eauto |].
    unfold k. apply Rgt_not_eq. apply Rdiv_lt_0_compat; [|lra]. apply Rmult_lt_0_compat; lra. }
  assert (Hno : v0 = v1 -> keep_seg s = []).
  { intros ->. apply keep_seg_no. simpl. unfold k.
    replace ((v1 - v1) * (v1 + v1) / (2 * a)) with 0 by (field; lra). vec. }
  repeat split; auto.
  - apply mk_segment_ok; [lra|]. rewrite Hk. vec.
  - destruct (Rle_lt_or_eq_dec v1 v0) as [Hlt|Heq]; [lra| |].
    + rewrite Hyes by assumption. apply motion_cons with (v1 := v1); [reflexivity | reflexivity | | constructor].
      unfold ramp; simpl.
      assert (0 < (v0 - v1) / a) by (apply Rdiv_lt_0_compat; lra).
      repeat split; try reflexivity; try lra; [exact Hk|].
      right; right. field. lra.
    + rewrite Hno by lra.
      assert (Hz : k = 0). { unfold k. rewrite Heq. field. lra. }
      rewrite Hz, vscale_0, vadd_vzero_r, Heq.
      replace (t + (v0 - v0) / a) with t by (field; lra). constructor.
Qed.

(** Constant speed piece of length L > 0 *)
Lemma const_piece d eo a vm t p v L :
  is_dir d eo -> 0 < v <= vm -> 0 < L ->
  let s := Seg t (t + L / v) p (vadd p (vscale L d)) (vscale v d) (vscale v d) in
  mk_segment t (t + L / v) p (vadd p (vscale L d)) (vscale v d) (vscale v d) = Ok s /\
  motion d a vm t p v (keep_seg s) (t + L / v) (vadd p (vscale L d)) v /\
  keep_seg s = [s].
Proof.
  intros Hd Hv HL s.
  assert (Hdt : 0 < L / v) by (apply Rdiv_lt_0_compat; lra).
  assert (Hk : vadd p (vscale L d) = vadd p (vscale ((v + v) / 2 * (t + L / v - t)) d)).
  { f_equal. f_equal. field. lra. }
  assert (Hyes : keep_seg s = [s]).
  { apply keep_seg_yes with (d := d) (k := L); [reflexivity | eapply is_dir_norm4; eauto | lra]. }
  repeat split; auto.
  - apply mk_segment_ok; [lra|]. rewrite Hk. vec.
  - rewrite Hyes. apply motion_cons with (v1 := v); [reflexivity | reflexivity | | constructor].
    unfold ramp; simpl.
    repeat split; try reflexivity; try lra; [exact Hk]. 
Qed.

(** What the plan of one move is: the entry and exit speeds, the shape and its motion. *)
Definition entry_speed (a d vb ve : R) : R := Rmin vb (sqrt (ve * ve + 2 * a * d)).
Definition exit_speed (a d vb ve : R) : R := Rmin ve (sqrt (vb * vb + 2 * a * d)).


(** The move takes the time [T] of the profile that speeds up from [v0], keeps
    the target speed if it is reached, and slows down to [v1]. *)
Definition swift (a vt L v0 v1 T : R) : Prop := exists vp c,
  v0 <= vp /\ v1 <= vp /\ 0 <= c /\ 0 < vp /\ vp <= vt /\ (vp = vt \/ c = 0) /\
  L = (vp * vp - v0 * v0) / (2 * a) + c + (vp * vp - v1 * v1) / (2 * a) /\
  T = (vp - v0) / a + c / vp + (vp - v1) / a.

Lemma swift_reach a vt L v0 v1 T : 0 < a -> 0 <= v1 -> swift a vt L v0 v1 T -> v1 * v1 <= v0 * v0 + 2 * a * L.
Proof.
  intros Ha Hv (vp & c & _ & H1 & Hc & _ & _ & _ & -> & _).
  replace (2 * a * ((vp * vp - v0 * v0) / (2 * a) + c + (vp * vp - v1 * v1) / (2 * a)))
    with (2 * (vp * vp) - v0 * v0 - v1 * v1 + 2 * (a * c)) by (field; lra).
  assert (v1 * v1 <= vp * vp) by nra. assert (0 <= a * c) by (apply Rmult_le_pos; lra). lra.
Qed.

Record move_plan (dir : vec4) (a vt d t : R) (p : vec4) (vb ve : R)
       (segs : list segment) (ty : btype) (T : R) : Prop := {
  mp_nonempty : segs <> [];
  mp_motion : motion dir a vt t p (entry_speed a d vb ve) segs T (vadd p (vscale d dir)) (exit_speed a d vb ve);
  mp_single : ty = Single <-> 2 * a * d <= Rabs (vb * vb - ve * ve);
  mp_trapezoid : ty = Trapezoid <-> (vt * vt - vb * vb) / (2 * a) + (vt * vt - ve * ve) / (2 * a) < d;
  mp_trapezoid_time : ty = Trapezoid ->
    T = t + (vt - vb) / a + (d - (vt * vt - vb * vb) / (2 * a) - (vt * vt - ve * ve) / (2 * a)) / vt + (vt - ve) / a;
  mp_triangle_time : ty = Triangle ->
    let vp := sqrt (a * d + vb * vb / 2 + ve * ve / 2) in
    T = t + (vp - vb) / a + (vp - ve) / a;
  mp_swift : swift a vt d (entry_speed a d vb ve) (exit_speed a d vb ve) (T - t) }.

Lemma entry_speed_full a d vb ve : 0 <= vb -> vb * vb <= ve * ve + 2 * a * d -> entry_speed a d vb ve = vb.
Proof. intros H1 H2. unfold entry_speed. apply Rmin_left. apply le_sqrt_sq; assumption. Qed.
Lemma exit_speed_full a d vb ve : 0 <= ve -> ve * ve <= vb * vb + 2 * a * d -> exit_speed a d vb ve = ve.
Proof. intros H1 H2. unfold exit_speed. apply Rmin_left. apply le_sqrt_sq; assumption. Qed.
Lemma entry_speed_red a d vb ve : 0 <= vb -> 0 < a * d -> ve * ve + 2 * a * d <= vb * vb ->
  entry_speed a d vb ve = sqrt (ve * ve + 2 * a * d).
Proof. intros H1 H0 H2. unfold entry_speed. apply Rmin_right. apply sqrt_le_sq; assumption. Qed.
Lemma exit_speed_red a d vb ve : 0 <= ve -> 0 < a * d -> vb * vb + 2 * a * d <= ve * ve ->
  exit_speed a d vb ve = sqrt (vb * vb + 2 * a * d).
Proof. intros H1 H0 H2. unfold exit_speed. apply Rmin_right. apply sqrt_le_sq; assumption. Qed.

Lemma clamp_Rmin x y : (if Rltb x y then x else y) = Rmin x y.
Proof.
  destruct (Rltb_spec x y) as [H|H].
  - rewrite Rmin_left; lra.
  - rewrite Rmin_right; lra.
Qed.

Lemma Rdiv_nonneg x y : 0 <= x -> 0 < y -> 0 <= x / y.
Proof. intros; apply Rmult_le_pos; [assumption | apply Rlt_le, Rinv_0_lt_compat; assumption]. Qed.

Lemma div_lt x y z : 0 < y -> x / y < z <-> x < z * y.
Proof.
  intros Hy. split; intros H.
  - apply Rmult_lt_compat_r with (r := y) in H; [|assumption].
    unfold Rdiv in H. rewrite Rmult_assoc, Rinv_l in H by lra. lra.
  - apply Rmult_lt_reg_r with y; [assumption|]. unfold Rdiv. rewrite Rmult_assoc, Rinv_l by lra. lra.
Qed.

Lemma move_maker2_spec A B dir pv v_end d eo :
  move_distance A B = (d, eo) -> is_dir dir eo ->
  0 < d -> 0 < k_acc B -> 0 < k_speed B -> 0 <= v_end <= k_speed B ->
  exists segs ty T,
    move_maker2 A B dir pv v_end = Ok (segs, ty) /\
    move_plan dir (k_acc B) (k_speed B) d (t_end pv) (pos_end pv)
              (Rmin (norm3 (vel_end pv)) (k_speed B)) v_end segs ty T.
Proof.
  intros Hmd Hdir Hd Ha Hvt Hve.
  unfold move_maker2. rewrite Hmd. rewrite clamp_Rmin.
  set (vb := Rmin (norm3 (vel_end pv)) (k_speed B)).
  set (a := k_acc B) in *. set (vt := k_speed B) in *.
  assert (Hvb : 0 <= vb <= vt).
  { unfold vb. split; [apply Rmin_glb; [apply norm3_nonneg | lra] | apply Rmin_r]. }
  clearbody vb. rewrite (Rleb_false a 0) by assumption.
  set (t := t_end pv). set (p := pos_end pv).
  assert (Eup : (vt - vb) * (vb + vt) / (2 * a) = (vt * vt - vb * vb) / (2 * a)) by (field; lra).
  assert (Edn : (v_end - vt) * (v_end + vt) / (2 * - a) = (vt * vt - v_end * v_end) / (2 * a)) by (field; lra).
  assert (Hup : 0 <= (vt - vb) * (vb + vt) / (2 * a)).
  { apply Rdiv_nonneg; [|lra]. apply Rmult_le_pos; lra. }
  assert (Hdn : 0 <= (v_end - vt) * (v_end + vt) / (2 * - a)).
  { rewrite Edn. apply Rdiv_nonneg; [|lra]. nra. }
  assert (Hcl : forall x, 0 <= x -> Rltb 0 x || isclose x 0 = true).
  { intros x Hx. destruct (Rle_lt_or_eq_dec 0 x Hx) as [H|H].
    - rewrite Rltb_true by assumption. reflexivity.
    - rewrite <- H, isclose_refl, orb_true_r. reflexivity. }
  rewrite (Hcl _ Hup), (Hcl _ Hdn), !andb_true_r.
  assert (Had : 0 < a * d) by (apply Rmult_lt_0_compat; assumption).
  assert (Hcond : (vt - vb) * (vb + vt) / (2 * a) + (v_end - vt) * (v_end + vt) / (2 * - a) < d
                  <-> 2 * (vt * vt) - vb * vb - v_end * v_end < 2 * a * d).
  { rewrite Edn. replace ((vt - vb) * (vb + vt) / (2 * a) + (vt * vt - v_end * v_end) / (2 * a))
      with ((2 * (vt * vt) - vb * vb - v_end * v_end) / (2 * a)) by (field; lra).
    rewrite div_lt by lra. lra. }
  assert (Hcond' : (vt * vt - vb * vb) / (2 * a) + (vt * vt - v_end * v_end) / (2 * a) < d
                  <-> 2 * (vt * vt) - vb * vb - v_end * v_end < 2 * a * d).
  { rewrite <- Eup, <- Edn. exact Hcond. }
  assert (Hsq : forall x y, 0 <= x -> 0 <= y -> x <= y -> x * x <= y * y) by (intros; nra).
  pose proof (Hsq vb vt) as Hvbvt. pose proof (Hsq v_end vt) as Hvevt.
  assert (Hvb2 : vb * vb <= vt * vt) by (apply Hvbvt; lra).
  assert (Hve2 : v_end * v_end <= vt * vt) by (apply Hvevt; lra).
  clear Hvbvt Hvevt.
  assert (Hb2 : 0 <= vb * vb) by nra. assert (He2 : 0 <= v_end * v_end) by nra.
  match goal with |- context [try_runtime (if Rltb ?x d then _ else _)] =>
    destruct (Rltb_spec x d) as [Htrap|Htrap] end.
  - (* trapezoid *)
    apply Hcond in Htrap.
    pose proof (up_piece dir eo a vt t p vb vt Hdir Ha) as HA.
    destruct HA as (HA1 & HA2 & _ & _); [lra | lra |].
    set (up := (vt - vb) * (vb + vt) / (2 * a)) in *.
    set (dn := (v_end - vt) * (v_end + vt) / (2 * - a)) in *.
    set (L := d - dn - up).
    assert (HL : 0 < L). { unfold L. apply Hcond in Htrap. lra. }
    pose proof (const_piece dir eo a vt (t + (vt - vb) / a) (vadd p (vscale up dir)) vt L Hdir) as HB.
    destruct HB as (HB1 & HB2 & HB3); [lra | assumption |].
    pose proof (down_piece dir eo a vt (t + (vt - vb) / a + L / vt)
                           (vadd (vadd p (vscale up dir)) (vscale L dir)) vt v_end Hdir Ha) as HC.
    destruct HC as (HC1 & HC2 & _ & _); [lra | lra |].
    assert (Edn' : (vt - v_end) * (vt + v_end) / (2 * a) = dn) by (unfold dn; field; lra).
    rewrite Edn' in HC1, HC2.
    unfold trapezoid. fold a t p up dn.
    rewrite (is_dir_const dir eo vt Hdir) by lra. fold L.
    rewrite HA1; cbn [bind]. rewrite HB1; cbn [bind]. rewrite HC1; cbn [bind].
    simpl try_runtime.
    do 3 eexists. split; [reflexivity|].
    constructor.
    + rewrite HB3. intros E. apply app_eq_nil in E. destruct E as [_ E]. discriminate.
    + rewrite entry_speed_full, exit_speed_full by nra.
      replace (vadd p (vscale d dir)) with
        (vadd (vadd (vadd p (vscale up dir)) (vscale L dir)) (vscale dn dir)).
      2:{ unfold L. vec. }
      eapply motion_app; [exact HA2|]. eapply motion_app; [exact HB2 | exact HC2].
    + split; [discriminate|]. intros H. exfalso.
      unfold Rabs in H; destruct (Rcase_abs (vb * vb - v_end * v_end)); nra.
    + split; [|reflexivity]. intros _. apply Hcond'. assumption.
    + intros _. rewrite <- Eup, <- Edn. fold up dn. unfold L. field. lra.
    + discriminate.
    + rewrite entry_speed_full, exit_speed_full by nra. exists vt, L. rewrite <- Eup, <- Edn. fold up dn.
      split; [lra|]. split; [lra|]. split; [lra|]. split; [lra|]. split; [lra|]. split; [left; reflexivity|].
      unfold L. split; [ring | field; lra].
  - assert (Hge : 2 * a * d <= 2 * (vt * vt) - vb * vb - v_end * v_end).
    { destruct (Rlt_le_dec (2 * (vt * vt) - vb * vb - v_end * v_end) (2 * a * d)) as [Hlt|Hle];
        [exfalso; apply Htrap, Hcond; assumption | assumption]. }
    set (pk := a * d + vb * vb / 2 + v_end * v_end / 2).
    assert (Hpk0 : 0 <= pk) by (unfold pk; lra).
    assert (Hpk : sqrt pk <= vt) by (apply sqrt_le_sq; unfold pk; lra).
    replace (Rltb (sqrt pk) vt || isclose (sqrt pk) vt) with true.
    2:{ destruct (Rle_lt_or_eq_dec _ _ Hpk) as [H|H].
        - rewrite Rltb_true by assumption. reflexivity.
        - rewrite H, isclose_refl, orb_true_r. reflexivity. }
    rewrite andb_true_r.
    destruct (Rlt_le_dec (Rabs (vb * vb - v_end * v_end)) (2 * a * d)) as [Htri|Hsing].
    + (* triangle *)
      apply Rabs_def2 in Htri.
      assert (He : v_end < sqrt pk) by (apply lt_sqrt_sq; unfold pk; lra).
      assert (Hb : vb < sqrt pk) by (apply lt_sqrt_sq; unfold pk; lra).
      rewrite (Rltb_true _ _ He), (Rltb_true _ _ Hb); simpl andb; cbn [andb].
      pose proof (up_piece dir eo a vt t p vb (sqrt pk) Hdir Ha) as HA.
      destruct HA as (HA1 & HA2 & HA3 & _); [lra | lra |].
      set (up := (sqrt pk - vb) * (vb + sqrt pk) / (2 * a)) in *.
      pose proof (down_piece dir eo a vt (t + (sqrt pk - vb) / a) (vadd p (vscale up dir))
                             (sqrt pk) v_end Hdir Ha) as HC.
      destruct HC as (HC1 & HC2 & _ & _); [lra | lra |].
      set (dn := (sqrt pk - v_end) * (sqrt pk + v_end) / (2 * a)) in *.
      unfold triang. fold a t p. fold up.
      replace ((sqrt pk - v_end) * (v_end + sqrt pk) / (2 * a)) with dn by (unfold dn; f_equal; ring).
      rewrite HA1; cbn [bind]. rewrite HC1; cbn [bind].
      simpl try_runtime.
      do 3 eexists. split; [reflexivity|].
      assert (Hlen : up + dn = d).
      { unfold up, dn.
        replace ((sqrt pk - vb) * (vb + sqrt pk) / (2 * a) + (sqrt pk - v_end) * (sqrt pk + v_end) / (2 * a))
          with ((2 * (sqrt pk * sqrt pk) - vb * vb - v_end * v_end) / (2 * a)) by (field; lra).
        rewrite sq_sqrt by assumption. unfold pk. field. lra. }
      constructor.
      * rewrite (HA3 Hb). discriminate.
      * rewrite entry_speed_full, exit_speed_full by nra.
        replace (vadd p (vscale d dir)) with (vadd (vadd p (vscale up dir)) (vscale dn dir)).
        2:{ rewrite <- Hlen. vec. }
        eapply motion_app; [exact HA2 | exact HC2].
      * split; [discriminate|]. intros H. exfalso.
        unfold Rabs in H; destruct (Rcase_abs (vb * vb - v_end * v_end)); lra.
      * split; [discriminate|]. intros H. exfalso. apply Hcond' in H. lra.
      * discriminate.
      * intros _. simpl. reflexivity.
      * rewrite entry_speed_full, exit_speed_full by nra. exists (sqrt pk), 0.
        split; [lra|]. split; [lra|]. split; [lra|]. split; [lra|]. split; [lra|]. split; [right; reflexivity|].
        split; [rewrite <- Hlen; unfold up, dn; field; lra | field; lra].
    + replace (Rltb v_end (sqrt pk) && Rltb vb (sqrt pk)) with false.
      2:{ symmetry. apply andb_false_iff.
          unfold Rabs in Hsing; destruct (Rcase_abs (vb * vb - v_end * v_end)).
          - left. apply Rltb_false. apply sqrt_le_sq; unfold pk; lra.
          - right. apply Rltb_false. apply sqrt_le_sq; unfold pk; lra. }
      assert (Hcases : vb * vb + 2 * a * d <= v_end * v_end \/ v_end * v_end + 2 * a * d <= vb * vb).
      { unfold Rabs in Hsing; destruct (Rcase_abs (vb * vb - v_end * v_end)); lra. }
      destruct Hcases as [Hupc|Hdnc].
      * (* single ramp up *)
        assert (Hlt : vb < v_end) by (apply sq_lt; lra).
        rewrite (Rltb_false v_end vb) by lra.
        set (q := vb * vb + 2 * a * d) in *.
        assert (Hq : 0 <= q) by (unfold q; lra).
        rewrite (Rleb_true 0 q Hq).
        assert (Hs1 : vb < sqrt q) by (apply lt_sqrt_sq; unfold q; lra).
        assert (Hs2 : sqrt q <= v_end) by (apply sqrt_le_sq; lra).
        rewrite (Rltb_true _ _ Hs1).
        replace (Rltb (sqrt q) vt || isclose (sqrt q) vt) with true.
        2:{ destruct (Rle_lt_or_eq_dec (sqrt q) vt) as [H|H]; [lra| |].
            - rewrite Rltb_true by assumption. reflexivity.
            - rewrite H, isclose_refl, orb_true_r. reflexivity. }
        cbn [andb].
        pose proof (up_piece dir eo a vt t p vb (sqrt q) Hdir Ha) as HA.
        destruct HA as (HA1 & HA2 & HA3 & _); [lra | lra |].
        set (up := (sqrt q - vb) * (vb + sqrt q) / (2 * a)) in *.
        unfold singl_up. fold a t p up. rewrite HA1; cbn [bind]. simpl try_runtime.
        do 3 eexists. split; [reflexivity|].
        assert (Hlen : up = d).
        { unfold up. replace ((sqrt q - vb) * (vb + sqrt q)) with (sqrt q * sqrt q - vb * vb) by ring.
          rewrite sq_sqrt by assumption. unfold q. field. lra. }
        constructor.
        -- rewrite (HA3 Hs1). discriminate.
        -- rewrite entry_speed_full by nra. rewrite exit_speed_red by (unfold q in *; lra).
           fold q. rewrite <- Hlen. exact HA2.
        -- split; [intros _; assumption | reflexivity].
        -- split; [discriminate|]. intros H. exfalso. apply Hcond' in H. lra.
        -- discriminate.
        -- discriminate.
        -- rewrite entry_speed_full by nra. rewrite exit_speed_red by (unfold q in *; lra). fold q. exists (sqrt q), 0.
           split; [lra|]. split; [lra|]. split; [lra|]. split; [lra|]. split; [lra|]. split; [right; reflexivity|].
           split; [rewrite <- Hlen; unfold up; field; lra | field; lra].
      * (* single ramp down *)
        assert (Hlt : v_end < vb) by (apply sq_lt; lra).
        rewrite (Rltb_true v_end vb) by lra.
        set (q := vb * vb - 2 * a * d) in *.
        assert (Hq : 0 <= q) by (unfold q; lra).
        rewrite (Rleb_true 0 q Hq).
        assert (Hs1 : sqrt q < vb) by (apply sqrt_lt_sq; unfold q; lra).
        rewrite (Rltb_false vb (sqrt q)) by lra. cbn [andb].
        rewrite (Rltb_true _ _ Hs1).
        set (r := v_end * v_end + 2 * a * d) in *.
        replace (2 * a * d + v_end * v_end) with r by (unfold r; ring).
        assert (Hr : 0 <= r) by (unfold r; lra).
        assert (Hr1 : v_end < sqrt r) by (apply lt_sqrt_sq; unfold r; lra).
        assert (Hr2 : sqrt r <= vb) by (apply sqrt_le_sq; lra).
        pose proof (down_piece dir eo a vt t p (sqrt r) v_end Hdir Ha) as HC.
        destruct HC as (HC1 & HC2 & HC3 & _); [lra | lra |].
        set (dn := (sqrt r - v_end) * (sqrt r + v_end) / (2 * a)) in *.
        unfold singl_dwn. fold a t p dn. rewrite HC1; cbn [bind]. simpl try_runtime.
        do 3 eexists. split; [reflexivity|].
        assert (Hlen : dn = d).
        { unfold dn. replace ((sqrt r - v_end) * (sqrt r + v_end)) with (sqrt r * sqrt r - v_end * v_end) by ring.
          rewrite sq_sqrt by assumption. unfold r. field. lra. }
        constructor.
        -- rewrite (HC3 Hr1). discriminate.
        -- rewrite exit_speed_full by nra. rewrite entry_speed_red by (unfold r in *; lra).
           fold r. rewrite <- Hlen. exact HC2.
        -- split; [intros _; assumption | reflexivity].
        -- split; [discriminate|]. intros H. exfalso. apply Hcond' in H. lra.
        -- discriminate.
        -- discriminate.
        -- rewrite exit_speed_full by nra. rewrite entry_speed_red by (unfold r in *; lra). fold r. exists (sqrt r), 0.
           split; [lra|]. split; [lra|]. split; [lra|]. split; [lra|]. split; [lra|]. split; [right; reflexivity|].
           split; [rewrite <- Hlen; unfold dn; field; lra | field; lra].
Qed.
