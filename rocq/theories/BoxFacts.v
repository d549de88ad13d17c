(** Lemmas about crossings of the control volume by simulated moves. *)
From Coq Require Import Lra Psatz Permutation.
From Verif Require Import Py Vec Segment Junction Planner Query Tools RealFacts SpecKin SpecQuery SpecTools MoveProofs
  JunctionProofs CorrectProofs SegProofs PlannerProofs TrajProofs PlanFacts QueryProofs QueryFacts TimeProofs LayerProofs BoxProofs.
Open Scope R_scope.

(** ** Geometry *)
Lemma convex a b r : 0 <= r <= 1 -> a <= 0 -> b <= 0 -> a + r * (b - a) <= 0.
Proof.
  intros Hr Ha Hb. assert (0 <= (1 - r) * - a) by (apply Rmult_le_pos; lra). assert (0 <= r * - b) by (apply Rmult_le_pos; lra). lra.
Qed.
Lemma frac a b : 0 < a -> b <= 0 -> 0 <= a / (a - b) <= 1 /\ a + a / (a - b) * (b - a) = 0.
Proof.
  intros Ha Hb. split; [split|field; lra].
  - apply Rmult_le_pos; [lra|]. apply Rlt_le, Rinv_0_lt_compat. lra.
  - apply (Rmult_le_reg_r (a - b)); [lra|]. unfold Rdiv. rewrite Rmult_assoc, Rinv_l by lra. lra.
Qed.
Lemma last_violation : forall l : list (R * R), Forall (fun x => snd x <= 0) l -> Exists (fun x => 0 < fst x) l ->
  exists a b, In (a, b) l /\ 0 < a /\ forall a' b', In (a', b') l -> a' + a / (a - b) * (b' - a') <= 0.
Proof.
  induction l as [|[a b] l IH]; intros HF HE; [inversion HE|]. inversion HF as [|? ? Hb HF']; subst. simpl in Hb.
  assert (H0 : Forall (fun x => fst x <= 0) l \/ Exists (fun x => 0 < fst x) l).
  { clear. induction l as [|x l IH]; [left; constructor|]. destruct (Rlt_dec 0 (fst x)); [right; left; assumption|].
    destruct IH; [left; constructor; [lra|assumption]|right; right; assumption]. }
  destruct H0 as [H0|H0].
  - inversion HE as [? ? Ha|? ? HE']; subst; simpl in *.
    + exists a, b. split; [left; reflexivity|]. split; [exact Ha|]. destruct (frac a b Ha Hb) as [F1 F2]. intros a' b' [E|Hin].
      * injection E as <- <-. lra.
      * rewrite Forall_forall in H0, HF'. apply convex; [exact F1|exact (H0 _ Hin)|exact (HF' _ Hin)].
    + exfalso. rewrite Forall_forall in H0. apply Exists_exists in HE' as (x & Hx & Hpos). specialize (H0 x Hx). lra.
  - destruct (IH HF' H0) as (a1 & b1 & Hin & Ha1 & Hall). assert (Hb1 : b1 <= 0) by (rewrite Forall_forall in HF'; exact (HF' _ Hin)).
    destruct (frac a1 b1 Ha1 Hb1) as [F1 F2]. set (r1 := a1 / (a1 - b1)) in *.
    destruct (Rle_dec (a + r1 * (b - a)) 0) as [L|L].
    + exists a1, b1. split; [right; exact Hin|]. split; [exact Ha1|]. intros a' b' [E|H]; [injection E as <- <-; exact L|apply Hall, H].
    + assert (Ha : 0 < a). { destruct (Rlt_dec 0 a); [assumption|]. exfalso. apply L, convex; lra. }
      destruct (frac a b Ha Hb) as [G1 G2]. exists a, b. split; [left; reflexivity|]. split; [exact Ha|]. set (r := a / (a - b)) in *.
      assert (r1 < r) by nra. intros a' b' [E|H']; [injection E as <- <-; lra|].
      specialize (Hall _ _ H'). rewrite Forall_forall in HF'. specialize (HF' _ H'). simpl in HF'. assert (r1 < 1) by lra.
      (* between r1, where the value is at most 0, and 1 *)
      assert (E : a' + r * (b' - a') = (1 - r) / (1 - r1) * (a' + r1 * (b' - a')) + (r - r1) / (1 - r1) * b') by (field; lra). rewrite E.
      assert (0 <= (1 - r) / (1 - r1)) by (apply Rmult_le_pos; [lra|apply Rlt_le, Rinv_0_lt_compat; lra]).
      assert (0 <= (r - r1) / (1 - r1)) by (apply Rmult_le_pos; [lra|apply Rlt_le, Rinv_0_lt_compat; lra]). nra.
Qed.
(** How far outside of the face a point is. *)
Definition outside (c : cube) (p : vec3) : list (vec3 * R) :=
  [(V3 1 0 0, c0 p - c0 (origin c) - c0 (side_len c) / 2); (V3 (-1) 0 0, c0 (origin c) - c0 p - c0 (side_len c) / 2);
   (V3 0 1 0, c1 p - c1 (origin c) - c1 (side_len c) / 2); (V3 0 (-1) 0, c1 (origin c) - c1 p - c1 (side_len c) / 2);
   (V3 0 0 1, c2 p - c2 (origin c) - c2 (side_len c) / 2); (V3 0 0 (-1), c2 (origin c) - c2 p - c2 (side_len c) / 2)].
Lemma box_outside c p : in_box c p <-> Forall (fun x => snd x <= 0) (outside c p).
Proof.
  unfold in_box, outside. rewrite !abs_le. split.
  - intros H. repeat (apply Forall_cons; [simpl; lra|]). apply Forall_nil.
  - intros H. repeat match goal with HF : Forall _ (_ :: _) |- _ => inversion HF; clear HF; subst end. simpl in *. repeat split; lra.
Qed.
Lemma enters_somewhere c a b : ~ in_box c a -> in_box c b -> exists n p, meets c a b n p /\ dot3 n (sub3 b a) < 0.
Proof.
  intros Ha Hb. set (l := combine (map snd (outside c a)) (map snd (outside c b))).
  assert (HF : Forall (fun x => snd x <= 0) l).
  { apply box_outside in Hb. unfold l, outside in *. simpl. repeat match goal with HF : Forall _ (_ :: _) |- _ => inversion HF; clear HF; subst end.
    simpl in *. repeat (apply Forall_cons; [simpl; lra|]). apply Forall_nil. }
  assert (HE : Exists (fun x => 0 < fst x) l).
  { destruct (Exists_dec (fun x => 0 < fst x) l) as [H|H]; [intros x; destruct (Rlt_dec 0 (fst x)); [left|right]; assumption|exact H|].
    exfalso. apply Ha. apply box_outside. rewrite Exists_exists in H. apply Forall_forall. intros x Hx. apply Rnot_lt_le. intros Hpos. apply H.
    unfold l, outside in *. simpl in Hx |- *. destruct Hx as [<-|[<-|[<-|[<-|[<-|[<-|[]]]]]]]; simpl in Hpos; eexists (_, _); (split; [|exact Hpos]); repeat (first [left; reflexivity|right]). }
  destruct (last_violation l HF HE) as (x & y & Hin & Hx & Hall). set (r := x / (x - y)) in *.
  assert (Hy : y <= 0) by (rewrite Forall_forall in HF; exact (HF _ Hin)). destruct (frac x y Hx Hy) as [Hr Hz]. fold r in Hr, Hz.
  assert (Hbox : in_box c (on_way a b r)).
  { apply box_outside. unfold l, outside in *. simpl in *.
    pose proof (Hall _ _ (or_introl eq_refl)). pose proof (Hall _ _ (or_intror (or_introl eq_refl))).
    pose proof (Hall _ _ (or_intror (or_intror (or_introl eq_refl)))). pose proof (Hall _ _ (or_intror (or_intror (or_intror (or_introl eq_refl))))).
    pose proof (Hall _ _ (or_intror (or_intror (or_intror (or_intror (or_introl eq_refl)))))).
    pose proof (Hall _ _ (or_intror (or_intror (or_intror (or_intror (or_intror (or_introl eq_refl))))))). clear Hall Hin.
    repeat (apply Forall_cons; [simpl; lra|]). apply Forall_nil. }
  unfold l, outside in Hin. simpl in Hin.
  destruct Hin as [E|[E|[E|[E|[E|[E|[]]]]]]]; injection E as <- <-.
  - exists (V3 1 0 0), (on_way a b r). split; [|unfold dot3; simpl; lra]. eexists _, r. split; [apply f_x1|]. split; [exact Hr|]. split; [reflexivity|]. split; [simpl; lra|exact Hbox].
  - exists (V3 (-1) 0 0), (on_way a b r). split; [|unfold dot3; simpl; lra]. eexists _, r. split; [apply f_x0|]. split; [exact Hr|]. split; [reflexivity|]. split; [simpl; lra|exact Hbox].
  - exists (V3 0 1 0), (on_way a b r). split; [|unfold dot3; simpl; lra]. eexists _, r. split; [apply f_y1|]. split; [exact Hr|]. split; [reflexivity|]. split; [simpl; lra|exact Hbox].
  - exists (V3 0 (-1) 0), (on_way a b r). split; [|unfold dot3; simpl; lra]. eexists _, r. split; [apply f_y0|]. split; [exact Hr|]. split; [reflexivity|]. split; [simpl; lra|exact Hbox].
  - exists (V3 0 0 1), (on_way a b r). split; [|unfold dot3; simpl; lra]. eexists _, r. split; [apply f_z1|]. split; [exact Hr|]. split; [reflexivity|]. split; [simpl; lra|exact Hbox].
  - exists (V3 0 0 (-1)), (on_way a b r). split; [|unfold dot3; simpl; lra]. eexists _, r. split; [apply f_z0|]. split; [exact Hr|]. split; [reflexivity|]. split; [simpl; lra|exact Hbox].
Qed.
Lemma leaves_somewhere c a b : in_box c a -> ~ in_box c b -> exists n p, meets c a b n p /\ 0 < dot3 n (sub3 b a).
Proof.
  intros Ha Hb. destruct (enters_somewhere c b a Hb Ha) as (n & p & (pl & r & Hf & Hr & -> & Hp & Hbox) & Hd). exists n, (on_way b a r).
  split; [|unfold dot3 in *; simpl in *; lra]. exists pl, (1 - r). split; [exact Hf|]. split; [lra|]. split; [|auto]. apply vec3_ext; simpl; ring.
Qed.
(** Two entries of a move are at the same point. *)
Lemma face_lin c n pl : face c n pl -> exists k, (forall p, pl p <-> dot3 n p = k) /\ forall p, in_box c p -> dot3 n p <= k.
Proof.
  unfold in_box. destruct 1;
    [exists (c0 (origin c) + c0 (side_len c) / 2)|exists (c0 (side_len c) / 2 - c0 (origin c))|exists (c1 (origin c) + c1 (side_len c) / 2)
    |exists (c1 (side_len c) / 2 - c1 (origin c))|exists (c2 (origin c) + c2 (side_len c) / 2)|exists (c2 (side_len c) / 2 - c2 (origin c))];
    (split; [intros p; unfold dot3; simpl; split; intros; lra|intros p; rewrite !abs_le; unfold dot3; simpl; intros; lra]).
Qed.
Lemma entry_unique c a b n p n' p' : meets c a b n p -> meets c a b n' p' -> dot3 n (sub3 b a) < 0 -> dot3 n' (sub3 b a) < 0 -> p = p'.
Proof.
  intros (pl & r & Hf & Hr & -> & Hp & Hb) (pl' & r' & Hf' & Hr' & -> & Hp' & Hb') Hd Hd'.
  destruct (face_lin _ _ _ Hf) as (k & Hk & Hkb). destruct (face_lin _ _ _ Hf') as (k' & Hk' & Hkb').
  apply Hk in Hp. apply Hk' in Hp'. specialize (Hkb _ Hb'). specialize (Hkb' _ Hb).
  assert (L : forall m q, dot3 m (on_way a b q) = dot3 m a + q * dot3 m (sub3 b a)) by (intros; unfold dot3, on_way; simpl; ring).
  rewrite L in *. assert (r = r'); [|congruence]. nra.
Qed.
Lemma exit_unique c a b n p n' p' : meets c a b n p -> meets c a b n' p' -> 0 < dot3 n (sub3 b a) -> 0 < dot3 n' (sub3 b a) -> p = p'.
Proof.
  intros (pl & r & Hf & Hr & -> & Hp & Hb) (pl' & r' & Hf' & Hr' & -> & Hp' & Hb') Hd Hd'.
  destruct (face_lin _ _ _ Hf) as (k & Hk & Hkb). destruct (face_lin _ _ _ Hf') as (k' & Hk' & Hkb').
  apply Hk in Hp. apply Hk' in Hp'. specialize (Hkb _ Hb'). specialize (Hkb' _ Hb).
  assert (L : forall m q, dot3 m (on_way a b q) = dot3 m a + q * dot3 m (sub3 b a)) by (intros; unfold dot3, on_way; simpl; ring).
  rewrite L in *. assert (r = r'); [|congruence]. nra.
Qed.

(** ** Lengths *)
Lemma len3_way b r : 0 <= r -> len3 (sub3 (on_way (from_of b) (to_of b) r) (from_of b)) = r * block_travel b.
Proof.
  intros Hr. unfold len3. transitivity (sqrt ((r * block_travel b) * (r * block_travel b))).
  - f_equal. replace (r * block_travel b * (r * block_travel b)) with (r * r * (block_travel b * block_travel b)) by ring.
    unfold block_travel. rewrite norm3_sq. unfold dot3, from_of, to_of, vec3_of. simpl. ring.
  - apply sqrt_sq. apply Rmult_le_pos; [exact Hr|apply norm3_nonneg].
Qed.
Lemma falls_somewhere : forall segs k x, k < x <= k + travelled segs ->
  exists pre s post, segs = pre ++ s :: post /\ k + travelled pre < x <= k + travelled (pre ++ [s]).
Proof.
  induction segs as [|s segs IH]; intros k x H; unfold travelled in H; simpl in H; [lra|].
  destruct (Rle_dec x (k + seg_travel s)) as [L|L].
  - exists [], s, segs. unfold travelled. simpl. split; [reflexivity|lra].
  - destruct (IH (k + seg_travel s) x) as (pre & g & post & E & Hx); [unfold travelled; lra|].
    exists (s :: pre), g, post. split; [simpl; congruence|]. unfold travelled in *. simpl. lra.
Qed.
Lemma block_travelled fw s0 states bl wn b : valid_program s0 states -> simulate fw (s0 :: states) = Ok (bl, wn) ->
  In b bl -> k_pause (b_B b) = None -> travels b -> travelled (b_segs b) = block_travel b.
Proof.
  intros Hv Hs Hb Hp Ht. destruct (block_motion _ _ _ _ _ _ Hv Hs Hb Hp Ht) as (d & t & p & v & t' & v' & Hd & _ & Hsc & Hm).
  destruct (motion_len _ _ _ Hd _ _ _ _ _ _ _ Hm) as (_ & L & E). unfold block_travel.
  set (X := norm3 (vsub (k_pos (b_B b)) (k_pos (b_A b)))) in *. assert (H : vscale X d = vscale (travelled (b_segs b)) d).
  { assert (E' : forall u w, vadd p u = vadd p w -> u = w) by (intros u w K; apply vec4_ext; [apply (f_equal vx) in K|apply (f_equal vy) in K|apply (f_equal vz) in K|apply (f_equal ve) in K]; simpl in K; lra).
    exact (E' _ _ E). }
  apply (f_equal norm3) in H. rewrite !(dir_len d Hd) in H; [lra|exact L|apply norm3_nonneg].
Qed.
Lemma inverse_defined fw s0 states bl wn b x : valid_program s0 states -> simulate fw (s0 :: states) = Ok (bl, wn) ->
  In b bl -> k_pause (b_B b) = None -> 0 < x <= block_travel b -> exists t, inverse_time_at_pos b x = Ok t.
Proof.
  intros Hv Hs Hb Hp Hx. assert (Ht : travels b) by (unfold travels; fold (block_travel b); lra).
  pose proof (block_travelled _ _ _ _ _ _ Hv Hs Hb Hp Ht) as El.
  destruct (block_motion _ _ _ _ _ _ Hv Hs Hb Hp Ht) as (d & t & p & v & t' & v' & Hd & _ & _ & Hm).
  destruct (falls_somewhere (b_segs b) 0 x ltac:(lra)) as (pre & s & post & E & Hf).
  assert (HF : falls_into b s x) by (exists pre, post; split; [exact E|lra]).
  destruct (Rlt_dec (norm3 (vel_end s)) (norm3 (vel_begin s))) as [B|B].
  - destruct (inverse_down _ _ _ _ _ _ _ _ _ _ _ _ Hd Hm HF B) as (u & Eu & _). eauto.
  - destruct (inverse_up _ _ _ _ _ _ _ _ _ _ _ _ Hd Hm HF B) as (u & Eu & _). eauto.
Qed.
(** The position at the time a distance is reached. *)
Lemma reached_position fw s0 states bl wn b t r : valid_program s0 states -> no_moving_pause s0 states -> simulate fw (s0 :: states) = Ok (bl, wn) ->
  In b bl -> 0 <= r -> travels b -> reached b t (r * block_travel b) ->
  exists v q, on_path (unpack_blocklist bl) t v q /\ vec3_of q = on_way (from_of b) (to_of b) r.
Proof.
  intros Hv Hn Hs Hb Hr Ht (s & v & q & Hin & Hm & Hst). exists v, q. split.
  - exists s. split; [|exact Hm]. unfold unpack_blocklist. apply in_flat_map. eauto.
  - destruct (sim_positions _ _ _ _ _ Hv Hs Hn b Hb) as [P0 _].
    assert (E : norm3 (vsub q (k_pos (b_A b))) = r * block_travel b) by (destruct (b_segs b); [destruct Hin|]; simpl in *; congruence).
    assert (Eq : q = pos_at s t).
    { pose proof (at_moves s t (proj1 Hm)) as (_ & _ & K). rewrite (proj2 (proj2 Hm)), K. reflexivity. }
    destruct (sim_block_line _ _ _ _ _ _ _ t Hv Hn Hs Hb Hin (proj1 Hm)) as (x & Hx & El). rewrite <- Eq in El.
    rewrite El in E. replace (vsub _ (k_pos (b_A b))) with (vscale x (vsub (k_pos (b_B b)) (k_pos (b_A b)))) in E by vec.
    rewrite norm3_scale_pos in E by lra. fold (block_travel b) in E. unfold travels in Ht. fold (block_travel b) in Ht.
    assert (x = r) by (apply (Rmult_eq_reg_r (block_travel b)); lra). subst x. rewrite El. apply vec3_ext; simpl; ring.
Qed.
(** The table exists if no crossing is at the beginning of its move. *)
Lemma face_loop_defined b lim : forall os ns,
  (forall o n p l g, In (o, n) (combine os ns) -> isect_line_plane (from_of b) (to_of b) o n = Some (p, l, g) ->
     point_inside (point_eval p lim) = true -> exists t, inverse_time_at_pos b l = Ok t) ->
  exists table, face_loop b lim os ns = Ok table.
Proof.
  induction os as [|o os IH]; intros [|n ns] H; try (eexists; reflexivity). cbn [face_loop]. fold (from_of b) (to_of b).
  destruct (IH ns) as (rest & Er); [intros; eapply H; [right; eassumption|eassumption|assumption]|].
  destruct (isect_line_plane (from_of b) (to_of b) o n) as [[[p l] g]|] eqn:Ei; [|rewrite Er; eauto].
  destruct (point_inside (point_eval p lim)) eqn:Ep; [|rewrite Er; eauto].
  destruct (H o n p l g (or_introl eq_refl) Ei Ep) as (t & ->). cbn [bind]. rewrite Er. cbn [bind]. eauto.
Qed.
Lemma table_defined c : forall bl,
  (forall b n p, In b bl -> ~ (in_box c (from_of b) /\ in_box c (to_of b)) -> meets c (from_of b) (to_of b) n p ->
     1 / 1000000 < Rabs (dot3 n (sub3 (to_of b) (from_of b))) -> exists t, inverse_time_at_pos b (len3 (sub3 p (from_of b))) = Ok t) ->
  exists table, timetable_loop c bl = Ok table.
Proof.
  induction bl as [|b bl IH]; intros H; [eexists; reflexivity|]. cbn [timetable_loop]. fold (from_of b) (to_of b).
  destruct IH as (rest & Er); [intros; eapply H; eauto; right; assumption|].
  destruct (intersect_possible _ _) eqn:Eip.
  - destruct (face_loop_defined b (get_plane_lim c) (get_plane_orig c) get_plane_normals) as (now & En).
    { intros o n p l g Ho Hi Hp. apply inside_box in Hp.
      destruct (proj1 (meets_isect c _ _ n p l g) (ex_intro _ o (conj Ho (conj Hi Hp)))) as (Hm & L & -> & _).
      apply (H b n p (or_introl eq_refl)); [|exact Hm|exact L]. intros [Ha Hb]. rewrite (impossible c _ _ Ha Hb) in Eip. discriminate. }
    rewrite En. cbn [bind]. rewrite Er. cbn [bind]. eauto.
  - cbn [bind]. rewrite Er. cbn [bind]. eauto.
Qed.
(** If there is a table, every crossing has a time. *)
Lemma face_times b lim : forall os ns table, face_loop b lim os ns = Ok table ->
  forall o n p l g, In (o, n) (combine os ns) -> isect_line_plane (from_of b) (to_of b) o n = Some (p, l, g) ->
     point_inside (point_eval p lim) = true -> exists t, inverse_time_at_pos b l = Ok t.
Proof.
  induction os as [|o os IH]; intros [|n ns] table H o' n' p l g Hin Hi Hp; try contradiction. cbn [face_loop] in H. fold (from_of b) (to_of b) in H.
  destruct Hin as [E|Hin].
  - injection E as -> ->. rewrite Hi, Hp in H. destruct (inverse_time_at_pos b l) as [t|]; [eauto|discriminate].
  - destruct (isect_line_plane (from_of b) (to_of b) o n) as [[[q k] h]|]; [|eauto]. destruct (point_inside (point_eval q lim)); [|eauto].
    destruct (inverse_time_at_pos b k) as [t|]; [|discriminate]. cbn [bind] in H. destruct (face_loop b lim os ns) as [rest|] eqn:E; [|discriminate]. eauto.
Qed.
Lemma table_times c : forall bl table, timetable_loop c bl = Ok table ->
  forall b n p, In b bl -> ~ (in_box c (from_of b) /\ in_box c (to_of b)) -> meets c (from_of b) (to_of b) n p ->
     1 / 1000000 < Rabs (dot3 n (sub3 (to_of b) (from_of b))) -> exists t, inverse_time_at_pos b (len3 (sub3 p (from_of b))) = Ok t.
Proof.
  induction bl as [|b bl IH]; intros table H b' n p Hb N M L; [destruct Hb|]. cbn [timetable_loop] in H. fold (from_of b) (to_of b) in H.
  destruct (if intersect_possible _ _ then _ else _) as [now|] eqn:En in H; [|discriminate]. cbn [bind] in H.
  destruct (timetable_loop c bl) as [rest|] eqn:Er; [|discriminate]. destruct Hb as [->|Hb]; [|eauto].
  assert (M' := M). destruct M' as (pl & r & _ & Hr & Ep & _ & Hbox). rewrite (possible c _ _ p r Hr Ep Hbox N) in En.
  destruct (proj2 (meets_isect c _ _ n p _ _) (conj M (conj L (conj eq_refl eq_refl)))) as (o & Ho & Hi & Hp).
  eapply face_times; [exact En|exact Ho|exact Hi|apply inside_box, Hp].
Qed.
Lemma face_hit b lim o n os ns p l g table : isect_line_plane (from_of b) (to_of b) o n = Some (p, l, g) -> point_inside (point_eval p lim) = true ->
  face_loop b lim (o :: os) (n :: ns) = Ok table -> exists t rest, inverse_time_at_pos b l = Ok t /\ face_loop b lim os ns = Ok rest /\ table = (t, g) :: rest.
Proof.
  intros Hi Hp H. cbn [face_loop] in H. fold (from_of b) (to_of b) in H. rewrite Hi, Hp in H. destruct (inverse_time_at_pos b l) as [t|]; [|discriminate]. cbn [bind] in H.
  destruct (face_loop b lim os ns) as [rest|]; [|discriminate]. cbn [bind] in H. exists t, rest. split; [reflexivity|]. split; [reflexivity|]. congruence.
Qed.
Lemma face_skip b lim o n os ns : isect_line_plane (from_of b) (to_of b) o n = None -> face_loop b lim (o :: os) (n :: ns) = face_loop b lim os ns.
Proof. intros Hi. cbn [face_loop]. fold (from_of b) (to_of b). rewrite Hi. reflexivity. Qed.
