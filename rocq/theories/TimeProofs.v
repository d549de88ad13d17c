(** Lemmas about planner_block.inverse_time_at_pos. *)
From Coq Require Import Lra Psatz.
From Verif Require Import Py Vec Segment Junction Planner Query Tools RealFacts SpecKin SpecQuery SpecTools MoveProofs
  JunctionProofs CorrectProofs SegProofs PlannerProofs TrajProofs PlanFacts QueryProofs.
Open Scope R_scope.

Section Motion.
Variables (d : vec4) (a vmax : R).
Hypothesis Hd : norm3 d = 1.

Lemma dir_len k : 0 <= k -> norm3 (vscale k d) = k.
Proof. intros H. rewrite norm3_scale_pos, Hd by assumption. ring. Qed.
Lemma ramp_len s v0 v1 : ramp d a vmax s v0 v1 -> seg_travel s = (v0 + v1) / 2 * (t_end s - t_begin s) /\ 0 <= seg_travel s /\
  pos_end s = vadd (pos_begin s) (vscale (seg_travel s) d).
Proof.
  intros (Ht & Hb & He & Hp & H0 & H1 & _). assert (L : 0 <= (v0 + v1) / 2 * (t_end s - t_begin s)) by nra.
  assert (E : seg_travel s = (v0 + v1) / 2 * (t_end s - t_begin s)).
  { unfold seg_travel. rewrite Hp. transitivity (norm3 (vscale ((v0 + v1) / 2 * (t_end s - t_begin s)) d)); [f_equal; vec|exact (dir_len _ L)]. }
  rewrite E. auto.
Qed.
Lemma motion_len t p v segs t' p' v' : motion d a vmax t p v segs t' p' v' ->
  t <= t' /\ 0 <= travelled segs /\ p' = vadd p (vscale (travelled segs) d).
Proof.
  induction 1 as [t p v|t p v s v1 segs t' p' v' E1 E2 Hr Hm (I1 & I2 & I3)]; unfold travelled in *; simpl.
  - split; [lra|]. split; [lra|]. rewrite vscale_0, vadd_vzero_r. reflexivity.
  - destruct (ramp_len _ _ _ Hr) as (L1 & L2 & L3). destruct Hr as (Ht & _). split; [lra|]. split; [lra|].
    rewrite I3, L3, E2. vec.
Qed.
Lemma motion_split : forall pre s post t p v t' p' v', motion d a vmax t p v (pre ++ s :: post) t' p' v' ->
  exists v0 v1, motion d a vmax t p v pre (t_begin s) (pos_begin s) v0 /\ ramp d a vmax s v0 v1 /\
    motion d a vmax (t_end s) (pos_end s) v1 post t' p' v'.
Proof.
  induction pre as [|x pre IH]; intros s post t p v t' p' v' H; simpl in H;
    inversion H as [|? ? ? ? v1 ? ? ? ? E1 E2 Hr Hm]; subst.
  - exists v, v1. split; [constructor|]. split; assumption.
  - destruct (IH _ _ _ _ _ _ _ _ Hm) as (w0 & w1 & M1 & M2 & M3). exists w0, w1. split; [|split; assumption].
    econstructor; eauto.
Qed.
Lemma ramp_at s v0 v1 t v q : ramp d a vmax s v0 v1 -> moves_through s t v q ->
  let u := t - t_begin s in let y := u * (v0 + u / (t_end s - t_begin s) / 2 * (v1 - v0)) in
  q = vadd (pos_begin s) (vscale y d) /\ 0 <= y <= seg_travel s.
Proof.
  intros Hr (Ht & _ & ->) u y. destruct (ramp_len _ _ _ Hr) as (L1 & _). destruct Hr as (Hdt & Hb & He & _ & H0 & H1 & _). split.
  - rewrite Hb, He. unfold y, u. vec.
  - rewrite L1. unfold y. set (dt := t_end s - t_begin s) in *. set (r := u / dt).
    assert (Er : u = r * dt) by (unfold r; field; lra).
    assert (0 <= r <= 1).
    { unfold r, u. split; [apply Rmult_le_pos; [lra|]; apply Rlt_le, Rinv_0_lt_compat; exact Hdt|].
      apply (Rmult_le_reg_r dt); [exact Hdt|]. unfold Rdiv. rewrite Rmult_assoc, Rinv_l by lra. unfold dt in *. lra. }
    rewrite Er. assert (E1 : v0 + r / 2 * (v1 - v0) = v0 * (1 - r / 2) + v1 * (r / 2)) by field. rewrite E1.
    assert (0 <= v0 * (1 - r / 2)) by (apply Rmult_le_pos; lra). assert (0 <= v1 * (r / 2)) by (apply Rmult_le_pos; lra).
    split; [apply Rmult_le_pos; [apply Rmult_le_pos|]; lra|].
    replace ((v0 + v1) / 2 * dt) with (dt * ((v0 + v1) / 2)) by ring. replace (r * dt * (v0 * (1 - r / 2) + v1 * (r / 2))) with
      (dt * (r * (v0 * (1 - r / 2) + v1 * (r / 2)))) by ring.
    apply Rmult_le_compat_l; [lra|].
    assert (v0 * (r * (1 - r / 2)) <= v0 * (1 / 2)) by (apply Rmult_le_compat_l; [lra|]; pose proof (Rle_0_sqr (1 - r)) as Q; unfold Rsqr in Q; lra).
    assert (v1 * (r * (r / 2)) <= v1 * (1 / 2)) by (apply Rmult_le_compat_l; [lra|]; nra).
    lra.
Qed.

(** The loop stops at the segment the distance falls into. *)
Lemma loop_finds : forall pre s post t p v t' p' v' c x,
  motion d a vmax t p v (pre ++ s :: post) t' p' v' -> c + travelled pre < x <= c + travelled (pre ++ [s]) ->
  inverse_time_loop (pre ++ s :: post) c x = interpolate_time_to_space s (t_begin s) (t_end s) (x - c - travelled pre).
Proof.
  induction pre as [|y pre IH]; intros s post t p v t' p' v' c x H Hx; simpl app; cbn [inverse_time_loop].
  - unfold travelled in Hx; simpl in Hx. change (get_segm_len s) with (seg_travel s). rewrite Rleb_true by lra.
    f_equal. unfold travelled. simpl. ring.
  - simpl in H. inversion H as [|? ? ? ? v1 ? ? ? ? E1 E2 Hr Hm]; subst. change (get_segm_len y) with (seg_travel y).
    destruct (motion_split _ _ _ _ _ _ _ _ _ Hm) as (w0 & w1 & M1 & _). pose proof (motion_len _ _ _ _ _ _ _ M1) as (_ & L & _).
    unfold travelled in *. simpl in Hx |- *. rewrite Rleb_false by lra.
    rewrite (IH _ _ _ _ _ _ _ _ (c + seg_travel y) x Hm) by (unfold travelled; lra). f_equal. unfold travelled. ring.
Qed.
Lemma loop_beyond : forall segs c x, (forall s, In s segs -> 0 <= seg_travel s) -> c + travelled segs < x ->
  inverse_time_loop segs c x = Err ValueError.
Proof.
  induction segs as [|s segs IH]; intros c x Hs Hx; [reflexivity|]. cbn [inverse_time_loop]. change (get_segm_len s) with (seg_travel s).
  unfold travelled in *. simpl in Hx.
  assert (0 <= Rsum seg_travel segs).
  { clear -Hs. assert (H : forall s, In s segs -> 0 <= seg_travel s) by (intros; apply Hs; right; assumption). clear Hs.
    induction segs as [|y segs IH]; simpl; [lra|]. pose proof (H y (or_introl eq_refl)). assert (0 <= Rsum seg_travel segs) by (apply IH; intros; apply H; right; assumption). lra. }
  rewrite Rleb_false by lra. apply IH; [intros; apply Hs; right; assumption|]. lra.
Qed.

(** The interpolation on a segment that does not lose speed... *)
Lemma interpolate_up s v0 v1 x : ramp d a vmax s v0 v1 -> v0 <= v1 -> 0 <= x <= seg_travel s -> (0 < x \/ 0 < v0) ->
  exists u, interpolate_time_to_space s (t_begin s) (t_end s) x = Ok (t_begin s + u) /\ 0 <= u <= t_end s - t_begin s /\
    u * (v0 + u / (t_end s - t_begin s) / 2 * (v1 - v0)) = x.
Proof.
  intros Hr Hle Hx Hpos. destruct (ramp_len _ _ _ Hr) as (L & _). destruct Hr as (Hdt & Hb & He & _ & H0 & H1 & _).
  unfold interpolate_time_to_space. set (dt := t_end s - t_begin s) in *.
  rewrite (proj2 (Reqb_neq dt 0)) by lra. rewrite Hb, He.
  replace (vsub (vscale v1 d) (vscale v0 d)) with (vscale (v1 - v0) d) by vec. rewrite !dir_len by lra.
  destruct (Rle_lt_or_eq_dec _ _ Hle) as [Lt|Eq].
  - assert (Ha : 0 < (v1 - v0) / dt) by (apply Rdiv_lt_0_compat; lra). set (ac := (v1 - v0) / dt) in *.
    assert (Eac : v1 - v0 = ac * dt) by (unfold ac; field; lra).
    rewrite (Rltb_true 0 ac Ha). assert (Hsq : 0 < 2 * ac * x + v0 * v0) by nra. rewrite Rleb_false by exact Hsq. cbn [bind].
    set (w := sqrt (2 * ac * x + v0 * v0)). assert (Hw : w * w = 2 * ac * x + v0 * v0) by (apply sq_sqrt; lra).
    assert (Hw0 : 0 <= w) by apply sqrt_pos. exists ((w - v0) / ac). split; [f_equal; field; lra|].
    assert (Hmul : forall y, y / ac * ac = y) by (intros; field; lra).
    assert (V0 : v0 <= w) by (apply le_sqrt_sq; [lra|nra]).
    assert (V1 : w <= v1). { apply sqrt_le_sq; [lra|]. assert (v1 = v0 + ac * dt) by lra. nra. }
    split; [split|].
    + apply (Rmult_le_reg_r ac); [exact Ha|]. rewrite Hmul. lra.
    + apply (Rmult_le_reg_r ac); [exact Ha|]. rewrite Hmul. lra.
    + replace (v1 - v0) with (ac * dt) by lra. set (u := (w - v0) / ac). assert (Eu : u * ac = w - v0) by apply Hmul.
      apply (Rmult_eq_reg_r (2 * ac)); [|lra].
      transitivity (2 * (u * ac) * v0 + (u * ac) * (u * ac)); [field; lra|]. rewrite Eu. nra.
  - subst v1. replace ((v0 - v0) / dt) with 0 by (field; lra). rewrite (Rltb_false 0 0) by lra. rewrite Reqb_refl.
    assert (Hv : 0 < v0). { destruct Hpos as [Hpos|Hpos]; [|exact Hpos]. destruct (Req_dec v0 0) as [Z|Z]; [|lra]. rewrite L, Z in Hx. lra. }
    rewrite (proj2 (Reqb_neq v0 0)) by lra. cbn [bind]. exists (x / v0). split; [f_equal; field; lra|].
    split; [split|field; lra].
    + apply Rmult_le_pos; [lra|]. apply Rlt_le, Rinv_0_lt_compat, Hv.
    + apply (Rmult_le_reg_r v0); [exact Hv|]. replace (x / v0 * v0) with x by (field; lra). lra.
Qed.
(** ... and on one that does: too early. *)
Lemma interpolate_down s v0 v1 x : ramp d a vmax s v0 v1 -> v1 < v0 -> 0 < x <= seg_travel s ->
  exists u, interpolate_time_to_space s (t_begin s) (t_end s) x = Ok (t_begin s + u) /\ 0 < u < t_end s - t_begin s /\
    forall u', 0 <= u' <= t_end s - t_begin s -> x <= u' * (v0 + u' / (t_end s - t_begin s) / 2 * (v1 - v0)) -> u < u'.
Proof.
  intros Hr Hlt Hx. destruct (ramp_len _ _ _ Hr) as (L & _). destruct Hr as (Hdt & Hb & He & _ & H0 & H1 & _).
  unfold interpolate_time_to_space. set (dt := t_end s - t_begin s) in *.
  rewrite (proj2 (Reqb_neq dt 0)) by lra. rewrite Hb, He.
  replace (norm3 (vsub (vscale v1 d) (vscale v0 d))) with (v0 - v1)
    by (rewrite norm3_sym; replace (vsub (vscale v0 d) (vscale v1 d)) with (vscale (v0 - v1) d) by vec; rewrite dir_len; lra).
  rewrite !dir_len by lra.
  assert (Ha : 0 < (v0 - v1) / dt) by (apply Rdiv_lt_0_compat; lra). set (ac := (v0 - v1) / dt) in *.
  assert (Eac : v0 - v1 = ac * dt) by (unfold ac; field; lra).
  rewrite (Rltb_true 0 ac Ha). assert (Hsq : 0 < 2 * ac * x + v0 * v0) by nra. rewrite Rleb_false by exact Hsq. cbn [bind].
  set (w := sqrt (2 * ac * x + v0 * v0)). assert (Hw : w * w = 2 * ac * x + v0 * v0) by (apply sq_sqrt; lra).
  assert (Hw0 : 0 <= w) by apply sqrt_pos. exists ((w - v0) / ac). split; [f_equal; field; lra|].
  assert (Hmul : forall y, y / ac * ac = y) by (intros; field; lra).
  assert (V0 : v0 < w) by (apply lt_sqrt_sq; [lra|nra]).
  assert (K : forall u', 0 <= u' <= dt -> x <= u' * (v0 + u' / dt / 2 * (v1 - v0)) -> (w - v0) / ac < u').
  { intros u' Hu' Hx'. apply (Rmult_lt_reg_r ac); [exact Ha|]. rewrite Hmul.
    replace (v1 - v0) with (- (ac * dt)) in Hx' by lra. replace (u' * (v0 + u' / dt / 2 * - (ac * dt))) with (u' * v0 - ac * u' * u' / 2) in Hx' by (field; lra).
    assert (0 < u'). { destruct (Req_dec u' 0) as [Z|Z]; [rewrite Z in Hx'; lra|lra]. }
    assert (w < v0 + ac * u'); [|lra]. apply sq_lt; [exact Hw0| |].
    - assert (0 <= ac * u') by (apply Rmult_le_pos; lra). lra.
    - rewrite Hw. assert (0 < ac * u') by (apply Rmult_lt_0_compat; lra).
      assert (Q : 2 * ac * x <= 2 * ac * (u' * v0 - ac * u' * u' / 2)) by (apply Rmult_le_compat_l; lra). nra. }
  split; [split|exact K].
  - apply Rdiv_lt_0_compat; lra.
  - apply K; [lra|]. rewrite L in Hx. replace (dt / dt) with 1 by (field; lra). lra.
Qed.

(** Distances along the motion. *)
Lemma motion_at t p v segs t' p' v' s q w u : motion d a vmax t p v segs t' p' v' -> In s segs -> moves_through s u w q ->
  exists pre post, segs = pre ++ s :: post /\ travelled pre <= norm3 (vsub q p) <= travelled (pre ++ [s]).
Proof.
  intros H Hin Hm. destruct (in_split _ _ Hin) as (pre & post & E). exists pre, post. split; [exact E|]. subst segs.
  destruct (motion_split _ _ _ _ _ _ _ _ _ H) as (v0 & v1 & M1 & Hr & _). destruct (motion_len _ _ _ _ _ _ _ M1) as (_ & L & P).
  destruct (ramp_at _ _ _ _ _ _ Hr Hm) as [-> Hy]. set (y := _ * _) in *. rewrite P.
  replace (vsub (vadd (vadd p (vscale (travelled pre) d)) (vscale y d)) p) with (vscale (travelled pre + y) d) by vec.
  rewrite dir_len by lra. unfold travelled in *. replace (Rsum seg_travel (pre ++ [s])) with (Rsum seg_travel pre + seg_travel s); [lra|].
  clear. induction pre as [|x pre IH]; simpl; [ring|]. rewrite <- IH. ring.
Qed.
End Motion.

Lemma block_motion fw s0 states bl wn b : valid_program s0 states -> simulate fw (s0 :: states) = Ok (bl, wn) ->
  In b bl -> k_pause (b_B b) = None -> travels b ->
  exists d t p v t' v', norm3 d = 1 /\ b_segs b <> [] /\ vscale (norm3 (vsub (k_pos (b_B b)) (k_pos (b_A b)))) d = vsub (k_pos (b_B b)) (k_pos (b_A b)) /\
    motion d (k_acc (b_B b)) (k_speed (b_B b)) t p v (b_segs b) t'
           (vadd p (vscale (norm3 (vsub (k_pos (b_B b)) (k_pos (b_A b)))) d)) v'.
Proof.
  intros Hv Hs Hb Hp Ht. destruct (simulate_fchain _ _ _ _ _ Hv Hs) as (wl & Hf).
  destruct (fchain_in _ _ _ _ _ _ Hf b Hb) as (t & p & t' & p' & s & e & Hwf).
  inversion Hwf as [t1 p1 t1' v0 v1 d eo dist Hpa Hdr Hdir Hmd Hpos Hsc Ha Hsp Hne Hm | t1 p1 dt Hpa]; subst; [|congruence].
  unfold move_distance, t_distance in Hmd. rewrite (proj2 (Reqb_neq (norm3 _) 0)) in Hmd by (unfold travels in Ht; lra).
  injection Hmd as Ed Ee. subst eo dist. exists d, t, p, v0, t', v1. split; [exact Hdir|]. auto.
Qed.
Lemma travelled_app l1 l2 : travelled (l1 ++ l2) = travelled l1 + travelled l2.
Proof. unfold travelled. induction l1 as [|x l1 IH]; simpl; [ring|]. rewrite IH. ring. Qed.
Lemma motion_all d a vm t p v segs t' p' v' : norm3 d = 1 -> motion d a vm t p v segs t' p' v' ->
  forall s, In s segs -> 0 <= seg_travel s /\ t <= t_begin s /\ t_end s <= t'.
Proof.
  intros Hd H s Hs. destruct (in_split _ _ Hs) as (pre & post & ->). destruct (motion_split d a vm _ _ _ _ _ _ _ _ _ H) as (v0 & v1 & M1 & Hr & M2).
  destruct (motion_len d a vm Hd _ _ _ _ _ _ _ M1) as (A1 & _). destruct (motion_len d a vm Hd _ _ _ _ _ _ _ M2) as (A2 & _).
  destruct (ramp_len d a vm Hd _ _ _ Hr) as (_ & L & _). auto.
Qed.

(** Blocks that move: the time for a distance. *)
Lemma inverse_up b d a vm t p v t' p' v' s x : norm3 d = 1 -> motion d a vm t p v (b_segs b) t' p' v' ->
  falls_into b s x -> ~ braking s -> exists u, inverse_time_at_pos b x = Ok u /\ reached b u x.
Proof.
  intros Hd Hm (pre & post & E & Hx) Hnb. unfold inverse_time_at_pos. rewrite E in *.
  rewrite (loop_finds d a vm Hd _ _ _ _ _ _ _ _ _ 0 x Hm) by (rewrite travelled_app in *; lra).
  destruct (motion_split d a vm _ _ _ _ _ _ _ _ _ Hm) as (v0 & v1 & M1 & Hr & M2).
  destruct (motion_len d a vm Hd _ _ _ _ _ _ _ M1) as (_ & L & P).
  assert (Hv01 : v0 <= v1).
  { destruct Hr as (_ & Hb & He & _ & H0 & H1 & _). unfold braking in Hnb. rewrite Hb, He, !(dir_len d Hd) in Hnb by lra. lra. }
  rewrite travelled_app in Hx. unfold travelled at 3 in Hx; simpl in Hx.
  destruct (interpolate_up d a vm Hd s v0 v1 (x - 0 - travelled pre) Hr Hv01 ltac:(lra) ltac:(left; lra)) as (u & Eu & Hu & Ex).
  exists (t_begin s + u). split; [exact Eu|].
  exists s, (vel_at s (t_begin s + u)), (pos_at s (t_begin s + u)). split; [rewrite E; apply in_or_app; right; left; reflexivity|].
  assert (Hmt : moves_through s (t_begin s + u) (vel_at s (t_begin s + u)) (pos_at s (t_begin s + u))) by (apply at_moves; lra).
  split; [exact Hmt|]. destruct (ramp_at d a vm Hd _ _ _ _ _ _ Hr Hmt) as [-> Hy].
  replace (t_begin s + u - t_begin s) with u in * by ring. rewrite Ex in *.
  rewrite E. assert (Hf : starts (fun f => pos_begin f = p) (pre ++ s :: post)).
  { destruct (pre ++ s :: post) as [|f l] eqn:El; [exact I|]. inversion Hm; subst. reflexivity. }
  destruct (pre ++ s :: post) as [|f l]; [exact I|]. simpl in *. rewrite Hf, P.
  replace (vsub (vadd (vadd p (vscale (travelled pre) d)) (vscale (x - 0 - travelled pre) d)) p) with (vscale x d) by vec.
  apply (dir_len d Hd). lra.
Qed.
Lemma inverse_down b d a vm t p v t' p' v' s x : norm3 d = 1 -> motion d a vm t p v (b_segs b) t' p' v' ->
  falls_into b s x -> braking s -> exists u, inverse_time_at_pos b x = Ok u /\ t_begin s < u < t_end s /\ forall u', reached b u' x -> u < u'.
Proof.
  intros Hd Hm (pre & post & E & Hx) Hbr. unfold inverse_time_at_pos. rewrite E in *.
  rewrite (loop_finds d a vm Hd _ _ _ _ _ _ _ _ _ 0 x Hm) by (rewrite travelled_app in *; lra).
  destruct (motion_split d a vm _ _ _ _ _ _ _ _ _ Hm) as (v0 & v1 & M1 & Hr & M2).
  destruct (motion_len d a vm Hd _ _ _ _ _ _ _ M1) as (_ & L & P).
  assert (Hv01 : v1 < v0).
  { destruct Hr as (_ & Hb & He & _ & H0 & H1 & _). unfold braking in Hbr. rewrite Hb, He, !(dir_len d Hd) in Hbr by lra. exact Hbr. }
  rewrite travelled_app in Hx. unfold travelled at 3 in Hx; simpl in Hx.
  destruct (interpolate_down d a vm Hd s v0 v1 (x - 0 - travelled pre) Hr Hv01 ltac:(lra)) as (u & Eu & Hu & Ex).
  exists (t_begin s + u). split; [exact Eu|]. split; [lra|].
  intros u' (s' & w & q & Hin & Hmt & Hst). rewrite E in Hin, Hst.
  assert (Hf : starts (fun f => pos_begin f = p) (pre ++ s :: post)).
  { destruct (pre ++ s :: post) as [|f l] eqn:El; [exact I|]. inversion Hm; subst. reflexivity. }
  assert (Hq : norm3 (vsub q p) = x) by (destruct (pre ++ s :: post) as [|f l]; [destruct Hin|]; simpl in *; congruence). clear Hst Hf.
  apply in_app_or in Hin as [Hin|[<-|Hin]].
  - exfalso. destruct (motion_at d a vm Hd _ _ _ _ _ _ _ _ _ _ _ M1 Hin Hmt) as (p1 & p2 & Ep & _ & Hle). rewrite Hq in Hle.
    assert (0 <= travelled p2).
    { rewrite Ep in M1. replace (p1 ++ s' :: p2) with ((p1 ++ [s']) ++ p2) in Ep by (rewrite <- app_assoc; reflexivity).
      destruct (motion_split d a vm _ _ _ _ _ _ _ _ _ M1) as (? & ? & _ & _ & M3). apply (motion_len d a vm Hd _ _ _ _ _ _ _ M3). }
    replace (p1 ++ s' :: p2) with ((p1 ++ [s']) ++ p2) in Ep by (rewrite <- app_assoc; reflexivity).
    rewrite Ep, travelled_app in Hx. lra.
  - destruct (ramp_at d a vm Hd _ _ _ _ _ _ Hr Hmt) as [Eq Hy]. destruct Hmt as (Hrange & _).
    assert (u < u' - t_begin s); [|lra]. apply Ex; [lra|]. set (y := (u' - t_begin s) * _) in *.
    rewrite Eq, P in Hq. replace (vsub (vadd (vadd p (vscale (travelled pre) d)) (vscale y d)) p) with (vscale (travelled pre + y) d) in Hq by vec.
    rewrite (dir_len d Hd) in Hq by lra. lra.
  - destruct (motion_all d a vm _ _ _ _ _ _ _ Hd M2 s' Hin) as (_ & T & _). destruct Hmt as (Hrange & _). lra.
Qed.
Lemma inverse_start b d a vm t p v t' p' v' s segs : norm3 d = 1 -> motion d a vm t p v (b_segs b) t' p' v' -> b_segs b = s :: segs ->
  (~ braking s -> 0 < norm3 (vel_begin s) -> inverse_time_at_pos b 0 = Ok (t_begin s)) /\
  (norm3 (vel_begin s) = 0 -> 0 < seg_travel s -> inverse_time_at_pos b 0 = Err ValueError).
Proof.
  intros Hd Hm E. rewrite E in Hm. inversion Hm as [|? ? ? ? v1 ? ? ? ? E1 E2 Hr Hm']; subst.
  destruct (ramp_len d a vm Hd _ _ _ Hr) as (L1 & L2 & _).
  assert (Hi : inverse_time_at_pos b 0 = interpolate_time_to_space s (t_begin s) (t_end s) 0).
  { unfold inverse_time_at_pos. rewrite E. cbn [inverse_time_loop]. change (get_segm_len s) with (seg_travel s).
    rewrite Rleb_true by lra. f_equal. ring. }
  rewrite Hi. assert (H0 : norm3 (vel_begin s) = v /\ norm3 (vel_end s) = v1).
  { destruct Hr as (_ & -> & -> & _ & H0 & H1 & _). split; apply (dir_len d Hd); lra. }
  destruct H0 as [E0 E1]. split.
  - intros Hb Hv. unfold braking in Hb. destruct (interpolate_up d a vm Hd s v v1 0 Hr ltac:(lra) ltac:(lra) ltac:(right; lra)) as (u & Eu & Hu & Ex).
    rewrite Eu. f_equal. destruct Hr as (Hdt & _). assert (u = 0); [|lra].
    destruct (Req_dec u 0) as [Z|Z]; [exact Z|]. exfalso. assert (0 < u) by lra.
    assert (0 <= u / (t_end s - t_begin s)) by (apply Rmult_le_pos; [lra|apply Rlt_le, Rinv_0_lt_compat, Hdt]).
    assert (0 < u * (v + u / (t_end s - t_begin s) / 2 * (v1 - v))); [|lra]. apply Rmult_lt_0_compat; [lra|].
    assert (0 <= u / (t_end s - t_begin s) / 2 * (v1 - v)) by (apply Rmult_le_pos; lra). lra.
  - intros Hv Hl. unfold interpolate_time_to_space. destruct Hr as (Hdt & Hb & He & _ & H0 & H1 & _).
    rewrite (proj2 (Reqb_neq _ 0)) by lra. rewrite Hv.
    assert (0 < v1) by nra.
    assert (Ha : 0 < norm3 (vsub (vel_end s) (vel_begin s)) / (t_end s - t_begin s)).
    { apply Rdiv_lt_0_compat; [|exact Hdt]. rewrite Hb, He. replace (vsub (vscale v1 d) (vscale v d)) with (vscale (v1 - v) d) by vec.
      rewrite (dir_len d Hd) by lra. lra. }
    rewrite (Rltb_true _ _ Ha). rewrite Rleb_true by lra. reflexivity.
Qed.
