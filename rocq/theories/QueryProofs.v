(** Proofs about the queries. *)
From Coq Require Import Lra Psatz.
From Verif Require Import Py Vec Segment Junction Planner Query RealFacts SpecKin SpecQuery MoveProofs JunctionProofs CorrectProofs SegProofs PlannerProofs TrajProofs PlanFacts.
Open Scope R_scope.

(** * Segments *)
Lemma vel_at_moves s t : t_begin s <= t <= t_end s ->
  vel_at s t = vadd (vel_begin s) (vscale ((t - t_begin s) / (t_end s - t_begin s)) (vsub (vel_end s) (vel_begin s))).
Proof.
  intros H. unfold vel_at, Rltb. destruct (Rlt_dec 0 (t_end s - t_begin s)) as [Hd|Hd].
  - apply vec4_ext; simpl; field; lra.
  - assert (E : t - t_begin s = 0) by lra. rewrite E.
    replace (0 / (t_end s - t_begin s)) with 0 by (unfold Rdiv; ring).
    apply vec4_ext; simpl; ring.
Qed.
Lemma pos_at_moves s t : t_begin s <= t <= t_end s ->
  pos_at s t = vadd (pos_begin s) (vscale (t - t_begin s) (vadd (vel_begin s)
     (vscale ((t - t_begin s) / (t_end s - t_begin s) / 2) (vsub (vel_end s) (vel_begin s))))).
Proof.
  intros H. unfold pos_at. rewrite (vel_at_moves s t H).
  generalize ((t - t_begin s) / (t_end s - t_begin s)). intros u.
  apply vec4_ext; simpl; field.
Qed.
Lemma get_in_range s t : t_begin s <= t <= t_end s ->
  get_velocity s t = Ok (vel_at s t) /\ get_position s t = Ok (pos_at s t).
Proof.
  intros H. unfold get_velocity, get_position, out_of_range.
  rewrite (Rltb_false t (t_begin s)) by lra. rewrite (Rltb_false (t_end s) t) by lra. split; reflexivity.
Qed.
Lemma at_moves s t : t_begin s <= t <= t_end s -> moves_through s t (vel_at s t) (pos_at s t).
Proof. intros H. unfold moves_through. rewrite vel_at_moves, pos_at_moves by assumption. auto. Qed.
Lemma moves_at s t v p : moves_through s t v p -> v = vel_at s t /\ p = pos_at s t.
Proof. intros (H & -> & ->). rewrite vel_at_moves, pos_at_moves by assumption. auto. Qed.

Definition covers (s : segment) : Prop :=
  t_begin s <= t_end s /\
  pos_end s = vadd (pos_begin s) (vscale ((t_end s - t_begin s) / 2) (vadd (vel_begin s) (vel_end s))).
Lemma pos_at_begin s : pos_at s (t_begin s) = pos_begin s.
Proof.
  unfold pos_at. replace (t_begin s - t_begin s) with 0 by ring.
  apply vec4_ext; simpl; unfold Rdiv; ring.
Qed.
Lemma vel_at_begin s : vel_at s (t_begin s) = vel_begin s.
Proof.
  unfold vel_at. replace (t_begin s - t_begin s) with 0 by ring.
  apply vec4_ext; simpl; ring.
Qed.
Lemma pos_at_end s : covers s -> pos_at s (t_end s) = pos_end s.
Proof.
  intros [Ht ->]. rewrite pos_at_moves by lra.
  destruct (Req_dec (t_end s - t_begin s) 0) as [E|E].
  - rewrite E. apply vec4_ext; simpl; unfold Rdiv; ring.
  - apply vec4_ext; simpl; field; assumption.
Qed.
Lemma vel_at_end s : t_begin s < t_end s -> vel_at s (t_end s) = vel_end s.
Proof. intros H. rewrite vel_at_moves by lra. apply vec4_ext; simpl; field; lra. Qed.

(** * Paths *)
Lemma cpath_cons s path : contiguous_path (s :: path) -> covers s /\ contiguous_path path.
Proof. intros [[H1 H2] H3]. inversion H3; subst. split; [assumption|]. split; assumption. Qed.
Lemma cpath_next s n path : contiguous_path (s :: n :: path) -> t_end s = t_begin n /\ pos_end s = pos_begin n.
Proof. intros [[H _] _]. exact H. Qed.
Lemma cpath_skipn path : contiguous_path path -> forall i, contiguous_path (skipn i path).
Proof.
  intros H i. revert path H. induction i as [|i IH]; intros path H; [exact H|].
  destruct path as [|s path]; [exact H|]. apply (IH path). apply cpath_cons in H. apply H.
Qed.
Lemma cpath_after : forall path s, contiguous_path (s :: path) -> forall n, In n path -> t_end s <= t_begin n.
Proof.
  induction path as [|m path IH]; intros s H n Hn; [contradiction|].
  destruct (cpath_next _ _ _ H) as [E _]. apply cpath_cons in H. destruct H as [_ H].
  destruct Hn as [<-|Hn]; [lra|]. pose proof (IH _ H n Hn). apply cpath_cons in H. destruct H as [[Hm _] _]. lra.
Qed.
Lemma cpath_in path s : contiguous_path path -> In s path -> covers s.
Proof. intros [_ H] Hs. rewrite Forall_forall in H. exact (H s Hs). Qed.

Lemma last_seg_cons s n path : last_seg (s :: n :: path) = last_seg (n :: path).
Proof. change (s :: n :: path) with ([s] ++ n :: path). apply last_seg_app. discriminate. Qed.
Lemma last_seg_some s path : exists l, last_seg (s :: path) = Ok l.
Proof.
  revert s. induction path as [|n path IH]; intros s; [exists s; reflexivity|].
  rewrite last_seg_cons. apply IH.
Qed.
Lemma last_seg_in l : forall path, last_seg path = Ok l -> In l path.
Proof.
  intros path H. unfold last_seg in H. destruct (rev path) as [|x r] eqn:E; [discriminate H|].
  injection H as ->. apply in_rev. rewrite E. left. reflexivity.
Qed.
Lemma last_seg_skipn l : forall path i s, nth_error path i = Some s -> last_seg path = Ok l -> last_seg (skipn i path) = Ok l.
Proof.
  induction path as [|x path IH]; intros [|i] s Hs Hl; try discriminate Hs; [exact Hl|].
  simpl. destruct path as [|y path]; [destruct i; discriminate Hs|]. rewrite last_seg_cons in Hl. exact (IH _ _ Hs Hl).
Qed.
Lemma cpath_last_end : forall path l, contiguous_path path -> last_seg path = Ok l ->
  forall s, In s path -> t_end s <= t_end l.
Proof.
  induction path as [|x path IH]; intros l H Hl s Hs; [contradiction|].
  destruct path as [|y path].
  - destruct Hs as [<-|[]]. injection Hl as <-. lra.
  - rewrite last_seg_cons in Hl. pose proof H as H'. apply cpath_cons in H'. destruct H' as [_ H'].
    destruct Hs as [<-|Hs]; [|exact (IH l H' Hl s Hs)].
    pose proof (cpath_after _ _ H l (last_seg_in _ _ Hl)).
    pose proof (cpath_in _ _ H' (last_seg_in _ _ Hl)) as [Hc _]. lra.
Qed.

(** * The two searches *)
Lemma scan_from_ok : forall path l t i, contiguous_path path -> last_seg path = Ok l ->
  starts (fun s => t_begin s <= t) path -> t <= t_end l ->
  exists s j, scan_from path t i = At s (i + j) /\ nth_error path j = Some s /\ t_begin s <= t <= t_end s.
Proof.
  induction path as [|s path IH]; intros l t i H Hl Hs Ht; [discriminate Hl|]. simpl in Hs. cbn [scan_from].
  rewrite (Rleb_true (t_begin s) t) by assumption. destruct (Rleb_spec t (t_end s)) as [Hle|Hgt]; simpl.
  - exists s, 0%nat. rewrite Nat.add_0_r. auto.
  - destruct path as [|n path]; [injection Hl as ->; lra|].
    rewrite last_seg_cons in Hl. destruct (cpath_next _ _ _ H) as [E _]. apply cpath_cons in H. destruct H as [_ H].
    destruct (IH l t (S i) H Hl) as (s' & j & H1 & H2 & H3); [simpl; lra | assumption|].
    exists s', (S j). rewrite H1. rewrite Nat.add_succ_r. auto.
Qed.
Lemma scan_fresh_ok : forall path l t i, contiguous_path path -> last_seg path = Ok l ->
  starts (fun s => t_begin s <= t) path -> t < t_end l ->
  exists s j, scan_fresh path t i = At s (i + j) /\ nth_error path j = Some s /\ t_begin s <= t < t_end s.
Proof.
  induction path as [|s path IH]; intros l t i H Hl Hs Ht; [discriminate Hl|]. simpl in Hs. cbn [scan_fresh].
  rewrite (Rleb_true (t_begin s) t) by assumption. destruct (Rltb_spec t (t_end s)) as [Hle|Hgt]; simpl.
  - exists s, 0%nat. rewrite Nat.add_0_r. auto.
  - destruct path as [|n path]; [injection Hl as ->; lra|].
    rewrite last_seg_cons in Hl. destruct (cpath_next _ _ _ H) as [E _]. apply cpath_cons in H. destruct H as [_ H].
    destruct (IH l t (S i) H Hl) as (s' & j & H1 & H2 & H3); [simpl; lra | assumption|].
    exists s', (S j). rewrite H1. rewrite Nat.add_succ_r. auto.
Qed.
Lemma scan_fresh_end : forall path t i, (forall s, In s path -> t_end s <= t) -> scan_fresh path t i = Nothing.
Proof.
  induction path as [|s path IH]; intros t i H; [reflexivity|]. cbn [scan_fresh].
  rewrite (Rltb_false t (t_end s)) by (apply H; left; reflexivity). rewrite andb_false_r.
  apply IH. intros n Hn. apply H. right. exact Hn.
Qed.
Lemma scan_from_first path t s k i : (forall n m, (n < k)%nat -> nth_error path n = Some m -> t_end m < t) ->
  nth_error path k = Some s -> t_begin s <= t <= t_end s -> scan_from path t i = At s (i + k).
Proof.
  revert path i. induction k as [|k IH]; intros path i H Hs Ht.
  - destruct path as [|x path]; [discriminate Hs|]. injection Hs as ->. cbn [scan_from].
    rewrite (Rleb_true (t_begin s) t), (Rleb_true t (t_end s)) by lra. simpl. rewrite Nat.add_0_r. reflexivity.
  - destruct path as [|x path]; [discriminate Hs|]. cbn [scan_from].
    rewrite (Rleb_false t (t_end x)) by (apply (H 0%nat); [lia | reflexivity]). rewrite andb_false_r.
    rewrite (IH path (S i)); [rewrite Nat.add_succ_r; reflexivity | | exact Hs | exact Ht].
    intros n m Hn Hm. apply (H (S n)); [lia | exact Hm].
Qed.

(** The search succeeds wherever the last index stands. *)
Lemma find_ok path l t li : contiguous_path path -> last_seg path = Ok l ->
  starts (fun s => t_begin s <= t) path -> t < t_end l ->
  exists s j, find_current_segment path t li = Ok (At s j) /\ nth_error path j = Some s /\ t_begin s <= t <= t_end s.
Proof.
  intros H Hl Hs Ht. unfold find_current_segment. rewrite Hl. simpl. rewrite (Rltb_false (t_end l) t) by lra.
  destruct (search_anew path t li) eqn:E.
  - destruct (scan_fresh_ok path l t 0 H Hl Hs Ht) as (s & j & H1 & H2 & H3).
    exists s, j. rewrite H1. simpl. repeat split; (assumption || lra).
  - unfold search_anew in E. destruct li as [i|]; [|discriminate E]. destruct (nth_error path i) as [x|] eqn:Ex; [|discriminate E].
    apply Rltb_nlt in E.
    destruct (scan_from_ok (skipn i path) l t i) as (s & j & H1 & H2 & H3).
    + apply cpath_skipn. exact H.
    + exact (last_seg_skipn _ _ _ _ Ex Hl).
    + clear -Ex E. revert i Ex. induction path as [|y path IH]; intros [|i] Ex; try discriminate Ex; simpl.
      * injection Ex as ->. exact E.
      * apply IH. exact Ex.
    + lra.
    + exists s, (i + j)%nat. rewrite H1. split; [reflexivity|]. split; [|exact H3].
      clear -H2. revert i H2. induction path as [|y path IH]; intros [|i] H2; simpl in *; auto.
      destruct j; discriminate H2.
Qed.
Lemma nth_skipn {X} (l : list X) i j : nth_error (skipn i l) j = nth_error l (i + j).
Proof. revert i. induction l as [|x l IH]; intros [|i]; simpl; auto. destruct j; reflexivity. Qed.
Lemma skipn_starts {X} (P : X -> Prop) (l : list X) i x : nth_error l i = Some x -> P x -> starts P (skipn i l).
Proof.
  revert i. induction l as [|y l IH]; intros [|i] Hx HP; try discriminate Hx; simpl.
  - injection Hx as ->. exact HP.
  - apply IH; assumption.
Qed.
(** With a usable last index, also at the very end. *)
Lemma find_ok_end path l t i x : contiguous_path path -> last_seg path = Ok l ->
  nth_error path i = Some x -> t_begin x <= t <= t_end l ->
  exists s j, find_current_segment path t (Some i) = Ok (At s j) /\ nth_error path j = Some s /\ t_begin s <= t <= t_end s.
Proof.
  intros H Hl Hx Ht. unfold find_current_segment. rewrite Hl. simpl. rewrite (Rltb_false (t_end l) t) by lra.
  rewrite Hx. rewrite (Rltb_false t (t_begin x)) by lra.
  destruct (scan_from_ok (skipn i path) l t i) as (s & j & H1 & H2 & H3).
  - apply cpath_skipn. exact H.
  - exact (last_seg_skipn _ _ _ _ Hx Hl).
  - apply (skipn_starts _ _ _ x); [assumption | lra].
  - lra.
  - exists s, (i + j)%nat. rewrite H1. split; [reflexivity|]. rewrite <- nth_skipn. auto.
Qed.

(** * Two segments at one time *)
Lemma joint_position : forall path a, contiguous_path (a :: path) -> forall j b, nth_error path j = Some b ->
  t_begin b <= t_end a -> t_end a = t_begin b /\ pos_end a = pos_begin b.
Proof.
  induction path as [|n path IH]; intros a H j b Hb Ht; [destruct j; discriminate Hb|].
  destruct (cpath_next _ _ _ H) as [E1 E2]. destruct j as [|j].
  - injection Hb as ->. auto.
  - pose proof (cpath_after _ _ H b) as Hab. apply cpath_cons in H. destruct H as [_ H].
    assert (Hb' : In b path) by (eapply nth_error_In; exact Hb).
    pose proof (cpath_after _ _ H b Hb') as Hnb.
    pose proof (cpath_in _ n H (or_introl eq_refl)) as [Hn1 Hn2].
    assert (Hz : t_end n - t_begin n = 0) by lra.
    rewrite Hz in Hn2. destruct (IH n H j b Hb) as [F1 F2]; [lra|]. split; [lra|].
    rewrite E2, <- F2, Hn2. apply vec4_ext; simpl; unfold Rdiv; ring.
Qed.
Lemma same_position_le : forall path, contiguous_path path -> forall i j a b t,
  nth_error path i = Some a -> nth_error path j = Some b -> (i <= j)%nat ->
  t_begin a <= t <= t_end a -> t_begin b <= t <= t_end b -> pos_at a t = pos_at b t.
Proof.
  induction path as [|x path IH]; intros H i j a b t Ha Hb Hij Hta Htb; [destruct i; discriminate Ha|].
  destruct i as [|i].
  - injection Ha as ->. destruct j as [|j]; [injection Hb as ->; reflexivity|]. simpl in Hb.
    assert (Hin : In b path) by (eapply nth_error_In; exact Hb).
    pose proof (cpath_after _ _ H b Hin).
    destruct (joint_position _ _ H j b Hb) as [E1 E2]; [lra|].
    replace t with (t_end a) at 1 by lra. replace t with (t_begin b) by lra.
    rewrite pos_at_end by (apply cpath_cons in H; apply H). rewrite pos_at_begin. exact E2.
  - destruct j as [|j]; [lia|]. apply cpath_cons in H. apply (IH (proj2 H) i j); auto. lia.
Qed.
Lemma same_position path : contiguous_path path -> forall i j a b t,
  nth_error path i = Some a -> nth_error path j = Some b ->
  t_begin a <= t <= t_end a -> t_begin b <= t <= t_end b -> pos_at a t = pos_at b t.
Proof.
  intros H i j a b t Ha Hb Hta Htb. destruct (le_lt_dec i j) as [L|L].
  - apply (same_position_le path H i j); assumption.
  - symmetry. apply (same_position_le path H j i); try assumption. lia.
Qed.
(** Away from the joints there is only one segment. *)
Lemma off_joint_le : forall path, contiguous_path path -> forall i j a b t,
  nth_error path i = Some a -> nth_error path j = Some b -> (i <= j)%nat -> not_a_joint path t ->
  t_begin a <= t <= t_end a -> t_begin b <= t <= t_end b -> a = b.
Proof.
  induction path as [|x path IH]; intros H i j a b t Ha Hb Hij Hn Hta Htb; [destruct i; discriminate Ha|].
  destruct i as [|i].
  - injection Ha as ->. destruct j as [|j]; [injection Hb as ->; reflexivity|]. simpl in Hb.
    assert (Hin : In b path) by (eapply nth_error_In; exact Hb).
    pose proof (cpath_after _ _ H b Hin). destruct (Hn a (or_introl eq_refl)). lra.
  - destruct j as [|j]; [lia|]. apply cpath_cons in H. apply (IH (proj2 H) i j a b t); auto; [lia|].
    intros s Hs. apply Hn. right. exact Hs.
Qed.
Lemma off_joint path : contiguous_path path -> forall i j a b t,
  nth_error path i = Some a -> nth_error path j = Some b -> not_a_joint path t ->
  t_begin a <= t <= t_end a -> t_begin b <= t <= t_end b -> a = b.
Proof.
  intros H i j a b t Ha Hb Hn Hta Htb. destruct (le_lt_dec i j) as [L|L].
  - apply (off_joint_le path H i j a b t); assumption.
  - symmetry. apply (off_joint_le path H j i b a t); try assumption. lia.
Qed.

(** Speeds agree up to the tolerance. *)
Definition rests (s : segment) : Prop := t_begin s < t_end s \/ (vel_begin s = vzero /\ vel_end s = vzero).
Definition speed_joined (eps : R) (path : list segment) : Prop :=
  joined (fun s n => Rabs (norm3 (vel_end s) - norm3 (vel_begin n)) <= eps) path.
Lemma joint_speed eps : forall path a, contiguous_path (a :: path) -> Forall rests path -> speed_joined eps (a :: path) ->
  forall j b, nth_error path j = Some b -> t_begin b <= t_end a ->
  Rabs (norm3 (vel_end a) - norm3 (vel_begin b)) <= eps.
Proof.
  induction path as [|n path IH]; intros a H Hr Hj j b Hb Ht; [destruct j; discriminate Hb|].
  destruct (cpath_next _ _ _ H) as [E1 E2]. destruct Hj as [Hj1 Hj2]. destruct j as [|j].
  - injection Hb as ->. exact Hj1.
  - assert (Hb' : In b path) by (eapply nth_error_In; exact Hb).
    apply cpath_cons in H. destruct H as [_ H].
    pose proof (cpath_after _ _ H b Hb') as Hnb.
    pose proof (cpath_in _ n H (or_introl eq_refl)) as [Hn1 Hn2].
    inversion Hr as [|? ? Hrn Hr']; subst. destruct Hrn as [Hrn | [Hv1 Hv2]]; [lra|].
    specialize (IH n H Hr' Hj2 j b Hb ltac:(lra)). rewrite Hv1, norm3_vzero in Hj1. rewrite Hv2, norm3_vzero in IH.
    pose proof (norm3_nonneg (vel_end a)). pose proof (norm3_nonneg (vel_begin b)).
    revert Hj1 IH. unfold Rabs.
    destruct (Rcase_abs _), (Rcase_abs _), (Rcase_abs _); lra.
Qed.
Lemma same_speed_le eps : 0 <= eps -> forall path, contiguous_path path -> Forall rests path -> speed_joined eps path ->
  forall i j a b t, nth_error path i = Some a -> nth_error path j = Some b -> (i <= j)%nat ->
  t_begin a <= t <= t_end a -> t_begin b <= t <= t_end b ->
  Rabs (norm3 (vel_at a t) - norm3 (vel_at b t)) <= eps.
Proof.
  intros He. induction path as [|x path IH]; intros H Hr Hj i j a b t Ha Hb Hij Hta Htb; [destruct i; discriminate Ha|].
  inversion Hr as [|? ? Hrx Hr']; subst.
  destruct i as [|i].
  - injection Ha as ->. destruct j as [|j].
    { injection Hb as ->. replace (norm3 (vel_at b t) - norm3 (vel_at b t)) with 0 by ring. rewrite Rabs_R0. exact He. }
    simpl in Hb.
    assert (Hin : In b path) by (eapply nth_error_In; exact Hb).
    pose proof (cpath_after _ _ H b Hin).
    assert (Ev : vel_at a t = vel_end a).
    { replace t with (t_end a) by lra. destruct Hrx as [Hrx | [Hv1 Hv2]]; [apply vel_at_end; exact Hrx|].
      destruct (Rle_lt_or_eq_dec (t_begin a) (t_end a)) as [L|L]; [lra | apply vel_at_end; exact L|].
      rewrite <- L, vel_at_begin. congruence. }
    rewrite Ev. replace t with (t_begin b) by lra. rewrite vel_at_begin.
    apply (joint_speed eps path a H Hr' Hj j b Hb). lra.
  - destruct j as [|j]; [lia|]. apply cpath_cons in H. destruct Hj as [_ Hj]. apply (IH (proj2 H) Hr' Hj i j); auto. lia.
Qed.
Lemma same_speed eps path : 0 <= eps -> contiguous_path path -> Forall rests path -> speed_joined eps path ->
  forall i j a b t, nth_error path i = Some a -> nth_error path j = Some b ->
  t_begin a <= t <= t_end a -> t_begin b <= t <= t_end b ->
  Rabs (norm3 (vel_at a t) - norm3 (vel_at b t)) <= eps.
Proof.
  intros He H Hr Hj i j a b t Ha Hb Hta Htb. destruct (le_lt_dec i j) as [L|L].
  - apply (same_speed_le eps He path H Hr Hj i j); assumption.
  - rewrite Rabs_minus_sym. apply (same_speed_le eps He path H Hr Hj j i); try assumption. lia.
Qed.

(** * Planned trajectories *)
Lemma ramp_covers d a vm s v0 v1 : ramp d a vm s v0 v1 -> covers s /\ rests s.
Proof.
  intros (Ht & Hb & He & Hp & _). split; [|left; lra]. split; [lra|].
  rewrite Hp, Hb, He. apply vec4_ext; simpl; field.
Qed.
Lemma fchain_covers t p e w bl wl : fchain t p e w bl wl -> Forall (fun s => covers s /\ rests s) (unpack_blocklist bl).
Proof.
  intros Hf. apply Forall_forall. intros s Hs. apply in_flat_map in Hs. destruct Hs as (b & Hb & Hs).
  destruct (fchain_in _ _ _ _ _ _ Hf b Hb) as (t1 & p1 & t2 & p2 & s1 & e1 & Hwf).
  destruct Hwf as [t0 p0 t' v0 v1 d eo dist Hp Hd Hdir Hmd Hpos Hsc Ha Hsp Hne Hm Hen Hcap | t0 p0 dt Hp Hdt Hsp Hsegs].
  - destruct (motion_forall _ _ _ _ _ _ _ _ _ _ Hm s Hs) as (u0 & u1 & Hr). eapply ramp_covers. exact Hr.
  - rewrite Hsegs in Hs. destruct Hs as [<-|[]]. split; [|right; split; reflexivity].
    split; simpl; [lra|]. apply vec4_ext; simpl; ring.
Qed.
Section Simulated.
Variables (fw : firmware) (s0 : kstate) (states : list kstate) (bl : list block) (wn : bool).
Hypothesis Hv : valid_program s0 states.
Hypothesis Hsim : simulate fw (s0 :: states) = Ok (bl, wn).
Lemma sim_cpath : contiguous_path (unpack_blocklist bl).
Proof.
  split; [exact (proj2 (sim_contiguous fw s0 states bl wn Hv Hsim))|].
  destruct (simulate_fchain _ _ _ _ _ Hv Hsim) as (wl & Hf).
  eapply Forall_impl; [|exact (fchain_covers _ _ _ _ _ _ Hf)]. intros s [H _]. exact H.
Qed.
Lemma sim_rests : Forall rests (unpack_blocklist bl).
Proof.
  destruct (simulate_fchain _ _ _ _ _ Hv Hsim) as (wl & Hf).
  eapply Forall_impl; [|exact (fchain_covers _ _ _ _ _ _ Hf)]. intros s [_ H]. exact H.
Qed.
Lemma sim_starts : starts (fun s => t_begin s = 0 /\ pos_begin s = k_pos s0) (unpack_blocklist bl).
Proof. exact (proj1 (sim_contiguous fw s0 states bl wn Hv Hsim)). Qed.
End Simulated.

Lemma print_time_last bl T : print_time bl T -> exists l, last_seg (unpack_blocklist bl) = Ok l /\ T = t_end l.
Proof.
  intros (pre & l & E & ->). exists l. split; [|reflexivity]. rewrite E. unfold last_seg. rewrite rev_app_distr. reflexivity.
Qed.
Lemma print_time_exists bl : unpack_blocklist bl <> [] -> exists T, print_time bl T.
Proof.
  intros H. destruct (exists_last H) as (pre & l & E). exists (t_end l), pre, l. auto.
Qed.

(** * get_values *)
Lemma unit_scale s u k : unit_length u k -> get_scaling_factor s (Some u) = Ok (/ k) /\ 0 < k.
Proof. intros H. destruct H; (split; [|lra]); unfold get_scaling_factor, dindex; simpl; f_equal; field. Qed.
Lemma unit_scale_own s unit u k :
  u = match unit with Some u => u | None => output_unit_system s end -> unit_length u k ->
  get_scaling_factor s unit = Ok (/ k) /\ 0 < k.
Proof.
  intros E Hu. destruct (unit_scale s u k Hu) as [H1 H2]. split; [|exact H2].
  unfold get_scaling_factor in *. rewrite <- E. exact H1.
Qed.
Definition unit_of (s : sim) (unit : option str) : str :=
  match unit with Some u => u | None => output_unit_system s end.

Lemma get_values_ok s t unit k l :
  contiguous_path (unpack_blocklist (blocklist s)) -> last_seg (unpack_blocklist (blocklist s)) = Ok l ->
  starts (fun s => t_begin s <= t) (unpack_blocklist (blocklist s)) -> t < t_end l ->
  unit_length (unit_of s unit) k ->
  exists g i, get_values s t unit = (Ok (vscale (/ k) (vel_at g t), vscale (/ k) (pos_at g t)), Some i) /\
    nth_error (unpack_blocklist (blocklist s)) i = Some g /\ t_begin g <= t <= t_end g.
Proof.
  intros H Hl Hs Ht Hu. destruct (find_ok _ l t (last_index s) H Hl Hs Ht) as (g & i & H1 & H2 & H3).
  exists g, i. split; [|split; assumption]. unfold get_values. rewrite H1.
  destruct (get_in_range g t H3) as [-> ->]. simpl.
  destruct (unit_scale_own s unit _ k eq_refl Hu) as [-> _]. reflexivity.
Qed.
Lemma get_values_ok_end s t unit k l i0 x :
  contiguous_path (unpack_blocklist (blocklist s)) -> last_seg (unpack_blocklist (blocklist s)) = Ok l ->
  last_index s = Some i0 -> nth_error (unpack_blocklist (blocklist s)) i0 = Some x ->
  t_begin x <= t <= t_end l -> unit_length (unit_of s unit) k ->
  exists g i, get_values s t unit = (Ok (vscale (/ k) (vel_at g t), vscale (/ k) (pos_at g t)), Some i) /\
    nth_error (unpack_blocklist (blocklist s)) i = Some g /\ t_begin g <= t <= t_end g.
Proof.
  intros H Hl Hli Hx Ht Hu. destruct (find_ok_end _ l t i0 x H Hl Hx Ht) as (g & i & H1 & H2 & H3).
  exists g, i. split; [|split; assumption]. unfold get_values. rewrite Hli, H1.
  destruct (get_in_range g t H3) as [-> ->]. simpl.
  destruct (unit_scale_own s unit _ k eq_refl Hu) as [-> _]. reflexivity.
Qed.
Lemma after_queries_blocks hist : forall s,
  blocklist (after_queries s hist) = blocklist s /\ output_unit_system (after_queries s hist) = output_unit_system s.
Proof.
  induction hist as [|q hist IH]; intros s; [split; reflexivity|]. simpl.
  destruct (IH (set_index s (snd (get_values s (fst q) (snd q))))) as [-> ->]. split; reflexivity.
Qed.
