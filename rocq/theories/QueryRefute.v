(** Programs on which the queries misbehave. *)
From Coq Require Import Lra Psatz.
From Verif Require Import Py Vec Segment Junction Planner Query RealFacts SpecKin SpecQuery MoveProofs JunctionProofs CorrectProofs SegProofs PlannerProofs TrajProofs PlanFacts PlanRefute QueryProofs QueryFacts.
Open Scope R_scope.

Section Corner.
(** A right-angled corner that classic jerk passes without slowing down. *)
Let s0 := KState (V4 0 0 0 0) 10 100 20 None None.
Let s1 := KState (V4 10 0 0 0) 10 100 20 None None.
Let s2 := KState (V4 10 10 0 0) 10 100 20 None None.
Definition corner_program : list kstate := [s1; s2].
Definition corner_start : kstate := s0.

Lemma corner_valid : valid_program s0 [s1; s2].
Proof.
  split; [|split].
  - repeat first [apply Forall_nil | apply Forall_cons]; (split; [simpl; lra|]; split; [simpl; lra|]; split; [simpl; lra|]);
      intros p Hp; discriminate Hp.
  - reflexivity.
  - simpl. split; [reflexivity|]. left. intros E. apply (f_equal vx) in E. simpl in E. lra.
Qed.
Let D1 : vsub (k_pos s1) (k_pos s0) = V4 10 0 0 0.
Proof. apply vec4_ext; simpl; ring. Qed.
Let D2 : vsub (k_pos s2) (k_pos s1) = V4 0 10 0 0.
Proof. apply vec4_ext; simpl; ring. Qed.
Let N1 : norm3 (V4 10 0 0 0) = 10.
Proof. rewrite (proj1 (norm3_x 10 0 0)). apply Rabs_right; lra. Qed.
Let N2 : norm3 (V4 0 10 0 0) = 10.
Proof. rewrite (proj2 (norm3_x 0 10 0)). apply Rabs_right; lra. Qed.
Let items : list item := [(s0, s1, [s2]); (s1, s2, [])].
Lemma corner_items : plan_items s0 [s1; s2] items.
Proof.
  apply pi_item; [left; intros E; apply (f_equal vx) in E; simpl in E; lra|].
  apply pi_item; [left; intros E; apply (f_equal vy) in E; simpl in E; lra | constructor].
Qed.
Lemma corner_feasible : feasible MarlinJerk 0 items [1; 0].
Proof.
  constructor; [| |constructor; [| |constructor]].
  - split; [lra|]. split; [lra|]. right. split; [reflexivity|]. rewrite D1, N1. simpl k_speed. simpl k_acc.
    split; [lra|]. split; [lra|]. split; [lra|]. rewrite Rabs_right; lra.
  - unfold junction_vel, mk_junction. cbn [target_vel vel_next connect_state_opt find_next_state].
    assert (C1 : connect_state s0 s1 = V4 10 0 0 0).
    { unfold connect_state. rewrite D1, N1. rewrite (Rabs_right 10) by lra. rewrite Rltb_true by lra.
      apply vec4_ext; simpl; field. }
    assert (C2 : connect_state s1 s2 = V4 0 10 0 0).
    { unfold connect_state. rewrite D2, N2. rewrite (Rabs_right 10) by lra. rewrite Rltb_true by lra.
      apply vec4_ext; simpl; field. }
    rewrite C1, C2. unfold calc_jerk. simpl k_jerk. rewrite (Rltb_true 0 (20 * 2)) by lra.
    set (n := norm3 (vsub (V4 10 0 0 0) (V4 0 10 0 0))).
    assert (Hn0 : 0 <= n) by apply norm3_nonneg.
    assert (Hn : n * n = 200) by (unfold n; rewrite norm3_sq; simpl; ring).
    assert (n < 40) by nra. rewrite Rleb_false by (apply (Rmult_lt_reg_r (20 * 2)); [lra|]; unfold Rdiv; rewrite Rmult_assoc, Rinv_l; lra).
    rewrite N1. lra.
  - split; [lra|]. split; [lra|]. right. split; [reflexivity|]. rewrite D2, N2. simpl k_speed. simpl k_acc.
    split; [lra|]. split; [lra|]. split; [lra|]. rewrite Rabs_left1; lra.
  - unfold junction_vel, mk_junction. cbn [target_vel vel_next connect_state_opt find_next_state].
    unfold calc_jerk. destruct (Rleb _ _); apply norm3_nonneg.
Qed.

(** All speeds of a block run along its direction. *)
Let along b s : forall bl, simulate MarlinJerk [s0; s1; s2] = Ok (bl, false) -> In b bl -> In s (b_segs b) ->
  k_pause (b_B b) = None -> t_begin s < t_end s /\
  exists d eo, is_dir d eo /\ vscale (move_length (b_A b) (b_B b)) d = vsub (k_pos (b_B b)) (k_pos (b_A b)) /\
    (exists k, vel_at s (t_begin s) = vscale k d) /\ (exists k, 0 <= k /\ vel_at s (t_end s) = vscale k d).
Proof.
  intros bl Hs Hb Hin Hp. destruct (sim_limits _ _ _ _ _ corner_valid Hs b s Hb Hin Hp) as ((Ht & _) & d & eo & Hd & Hl & a' & _ & Hw).
  split; [exact Ht|]. exists d, eo. split; [exact Hd|]. split; [exact Hl|].
  destruct (Hw (t_begin s) ltac:(lra)) as (v & Gv & _ & (k & Hk & Ek) & _).
  destruct (Hw (t_end s) ltac:(lra)) as (v' & Gv' & _ & (k' & Hk' & Ek') & _).
  rewrite (proj1 (get_in_range s (t_begin s) ltac:(lra))) in Gv. injection Gv as Gv.
  rewrite (proj1 (get_in_range s (t_end s) ltac:(lra))) in Gv'. injection Gv' as Gv'.
  split; [exists k; congruence | exists k'; split; [lra | congruence]].
Qed.

(** At the corner a first query and a later query see different velocities. *)
Lemma corner_velocity : exists bl T t v1 p1 v2 p2,
  simulate MarlinJerk (corner_start :: corner_program) = Ok (bl, false) /\ print_time bl T /\ 0 < t < T /\
  fst (get_values (Sim bl (S_ "SImm") None) t None) = Ok (v1, p1) /\
  fst (get_values (after_queries (Sim bl (S_ "SImm") None) [(0, None)]) t None) = Ok (v2, p2) /\
  vx v1 = 0 /\ 1 <= vx v2.
Proof.
  destruct (simulation_succeeds MarlinJerk _ _ corner_valid) as (bl & Hs).
  pose proof (sim_dominates _ _ _ _ _ corner_valid Hs _ _ corner_items corner_feasible) as Hdom.
  destruct (sim_blocks _ _ _ _ _ corner_valid Hs) as (items' & Hi' & Hmap).
  rewrite (plan_items_fun _ _ _ _ Hi' corner_items) in Hmap.
  inversion Hdom as [|b1 w1 bl1 wl1 Hb1 Hn E1 E2]; subst. inversion Hn as [|b2 w2 bl2 wl2 Hb2 Hn2 E1 E2]; subst.
  inversion Hn2; subst. clear Hdom Hn Hn2 Hb2. injection Hmap as A1 B1 _ A2 B2 _.
  pose proof (sim_cpath _ _ _ _ _ corner_valid Hs) as Hp. pose proof (sim_starts _ _ _ _ _ corner_valid Hs) as Hst.
  assert (Epath : unpack_blocklist [b1; b2] = b_segs b1 ++ b_segs b2) by (unfold unpack_blocklist; simpl; rewrite app_nil_r; reflexivity).
  destruct (simulate_fchain _ _ _ _ _ corner_valid Hs) as (wl & Hf).
  assert (Hne1 : b_segs b1 <> []).
  { destruct (fchain_in _ _ _ _ _ _ Hf b1 (or_introl eq_refl)) as (? & ? & ? & ? & ? & ? & Hwf). exact (wf_nonempty _ _ _ _ _ _ _ Hwf). }
  assert (Hne2 : b_segs b2 <> []).
  { destruct (fchain_in _ _ _ _ _ _ Hf b2 (or_intror (or_introl eq_refl))) as (? & ? & ? & ? & ? & ? & Hwf). exact (wf_nonempty _ _ _ _ _ _ _ Hwf). }
  destruct (exists_last Hne1) as (pre & l & El). destruct (b_segs b2) as [|f post] eqn:E2; [contradiction Hne2; reflexivity|].
  assert (Hl : In l (b_segs b1)) by (rewrite El; apply in_or_app; right; left; reflexivity).
  assert (Hfi : In f (b_segs b2)) by (rewrite E2; left; reflexivity).
  assert (Hin1 : In b1 [b1; b2]) by (left; reflexivity). assert (Hin2 : In b2 [b1; b2]) by (right; left; reflexivity).
  assert (Pb1 : k_pause (b_B b1) = None) by (rewrite B1; reflexivity).
  assert (Pb2 : k_pause (b_B b2) = None) by (rewrite B2; reflexivity).
  assert (Hpos : forall s, In s (unpack_blocklist [b1; b2]) -> t_begin s < t_end s).
  { intros s Hx. rewrite Epath in Hx. apply in_app_or in Hx. destruct Hx as [Hx|Hx].
    - exact (proj1 (along b1 s _ Hs Hin1 Hx Pb1)).
    - rewrite <- E2 in Hx. exact (proj1 (along b2 s _ Hs Hin2 Hx Pb2)). }
  set (path := unpack_blocklist [b1; b2]) in *. rewrite El in Epath. rewrite <- app_assoc in Epath. simpl in Epath.
  (* order of the segments around the corner *)
  assert (Hsk : skipn (length pre) path = l :: f :: post).
  { rewrite Epath. rewrite skipn_app, skipn_all, Nat.sub_diag. reflexivity. }
  assert (Hc2 : contiguous_path (l :: f :: post)) by (rewrite <- Hsk; apply cpath_skipn; exact Hp).
  destruct (cpath_next _ _ _ Hc2) as [Etf _].
  assert (Hnl : nth_error path (length pre) = Some l).
  { rewrite Epath, nth_error_app2, Nat.sub_diag by lia. reflexivity. }
  assert (Hnf : nth_error path (S (length pre)) = Some f).
  { rewrite Epath, nth_error_app2 by lia. replace (S (length pre) - length pre)%nat with 1%nat by lia. reflexivity. }
  assert (Hbefore : forall n m, (n < length pre)%nat -> nth_error path n = Some m -> t_end m <= t_begin l).
  { clear -Hp Hnl. revert Hnl. generalize (length pre). revert Hp. induction path as [|x pa IH]; intros Hp k Hk n m Hn Hm; [destruct n; discriminate Hm|].
    destruct k as [|k]; [lia|]. destruct n as [|n].
    - injection Hm as ->. apply (cpath_after _ _ Hp). eapply nth_error_In. exact Hk.
    - apply cpath_cons in Hp. apply (IH (proj2 Hp) k Hk n m); [lia | exact Hm]. }
  pose proof (Hpos l (nth_error_In _ _ Hnl)) as Hlt. pose proof (Hpos f (nth_error_In _ _ Hnf)) as Hft.
  assert (Hne : path <> []) by (rewrite Epath; destruct pre; discriminate).
  destruct (print_time_exists [b1; b2] Hne) as (T & HT). destruct (print_time_last _ _ HT) as (z & Hz & ->).
  fold path in Hz.
  pose proof (cpath_last_end path z Hp Hz f (nth_error_In _ _ Hnf)) as Hfz.
  assert (Ht0 : 0 <= t_begin l).
  { destruct path as [|x pa] eqn:Ep; [contradiction|]. destruct Hst as [Hst _]. destruct pre as [|y pre].
    - simpl in Epath. injection Epath as -> _. lra.
    - pose proof (Hbefore 0%nat x ltac:(simpl; lia) eq_refl). pose proof (Hpos x (or_introl eq_refl)). lra. }
  assert (Huse : forall s, In s (b_segs b2) -> vx (vel_at s (t_begin s)) = 0).
  { intros s Hx. destruct (along b2 s _ Hs Hin2 Hx Pb2) as (_ & d & eo & _ & Hd & (k & Hk) & _).
    rewrite Hk. rewrite A2, B2 in Hd. unfold move_length in Hd. rewrite D2, N2 in Hd.
    destruct (Req_EM_T 10 0) as [E|_]; [lra|]. apply (f_equal vx) in Hd. simpl in Hd |- *.
    assert (Hd0 : vx d = 0) by lra. rewrite Hd0. ring. }
  assert (HvL : 1 <= vx (vel_at l (t_end l))).
  { destruct (along b1 l _ Hs Hin1 Hl Pb1) as (_ & d & eo & Hdir & Hd & _ & (k & Hk0 & Hk)).
    rewrite A1, B1 in Hd. unfold move_length in Hd. rewrite D1, N1 in Hd.
    destruct (Req_EM_T 10 0) as [E|_]; [lra|].
    assert (Ed : d = V4 1 0 0 0).
    { apply vec4_ext; simpl; [apply (f_equal vx) in Hd | apply (f_equal vy) in Hd | apply (f_equal vz) in Hd | apply (f_equal ve) in Hd]; simpl in Hd; lra. }
    unfold ends in Hb1. rewrite El, rev_app_distr in Hb1. simpl in Hb1.
    rewrite <- (vel_at_end l Hlt), Hk, norm3_scale_pos in Hb1 by exact Hk0. rewrite Hk, Ed in *. simpl.
    rewrite (proj1 (norm3_x 1 0 0)), Rabs_right in Hb1 by lra. lra. }
  set (t := t_end l) in *.
  (* the fresh query *)
  assert (F1 : find_current_segment path t None = Ok (At f (S (length pre)))).
  { unfold find_current_segment. rewrite Hz. simpl. rewrite (Rltb_false (t_end z) t) by lra. f_equal.
    destruct (scan_fresh_ok path z t 0 Hp Hz) as (g & j & H1 & H2 & H3).
    { destruct path as [|x pa] eqn:Ep; [exact I|]. destruct Hst as [Hst _]. simpl. lra. }
    { lra. }
    rewrite H1. simpl.
    assert (Ej : j = S (length pre)).
    { destruct (lt_eq_lt_dec j (S (length pre))) as [[L|L]|L]; [|exact L|].
      - exfalso. destruct (Nat.eq_dec j (length pre)) as [->|N].
        + rewrite Hnl in H2. injection H2 as <-. unfold t in *; lra.
        + pose proof (Hbefore j g ltac:(lia) H2). unfold t in *; lra.
      - exfalso. assert (Hg : In g post).
        { replace j with (length pre + S (S (j - S (S (length pre)))))%nat in H2 by lia.
          rewrite <- nth_skipn, Hsk in H2. simpl in H2. eapply nth_error_In. exact H2. }
        apply cpath_cons in Hc2. pose proof (cpath_after _ _ (proj2 Hc2) g Hg). unfold t in *; lra. }
    subst j. rewrite Hnf in H2. injection H2 as <-. reflexivity. }
  (* the query at 0 and the one after it *)
  assert (Hpx : exists x pa, path = x :: pa /\ t_begin x = 0).
  { clear -Hst Hne. destruct path as [|x pa]; [contradiction|]. exists x, pa. split; [reflexivity | apply Hst]. }
  destruct Hpx as (x & pa & Ep & Hx0).
  assert (Hx : nth_error path 0 = Some x) by (rewrite Ep; reflexivity).
  pose proof (Hpos x (nth_error_In _ _ Hx)) as Hxt.
  assert (F0 : find_current_segment path 0 None = Ok (At x 0)).
  { unfold find_current_segment. rewrite Hz. simpl. rewrite (Rltb_false (t_end z) 0) by (unfold t in *; lra).
    rewrite Ep. cbn [scan_fresh]. rewrite (Rleb_true (t_begin x) 0), (Rltb_true 0 (t_end x)) by lra. reflexivity. }
  assert (F2 : find_current_segment path t (Some 0%nat) = Ok (At l (length pre))).
  { unfold find_current_segment. rewrite Hz. cbn [bind]. rewrite (Rltb_false (t_end z) t) by lra.
    unfold search_anew. rewrite Hx. rewrite (Rltb_false t (t_begin x)) by (unfold t in *; lra).
    cbn [skipn].
    rewrite (scan_from_first path t l (length pre) 0); [reflexivity | | exact Hnl | unfold t in *; lra].
    intros n m Hn Hm. pose proof (Hbefore n m Hn Hm). unfold t in *; lra. }
  exists [b1; b2], (t_end z), t, (vscale 1 (vel_at f t)), (vscale 1 (pos_at f t)), (vscale 1 (vel_at l t)), (vscale 1 (pos_at l t)).
  split; [exact Hs|]. split; [exact HT|]. split; [unfold t in *; lra|].
  assert (V1 : forall v, vscale 1 v = v) by (intros v; apply vec4_ext; simpl; ring).
  assert (Gf : get_scaling_factor (Sim [b1; b2] (S_ "SImm") None) None = Ok 1) by reflexivity.
  split; [|split; [|split]].
  - unfold get_values. cbn [blocklist last_index]. fold path. rewrite F1. cbn [fst].
    destruct (get_in_range f t ltac:(unfold t in *; lra)) as [-> ->]. reflexivity.
  - unfold after_queries. cbn [fold_left fst snd]. unfold get_values at 2. cbn [blocklist last_index]. fold path. rewrite F0. cbn [snd].
    unfold get_values, set_index. cbn [blocklist last_index]. fold path. rewrite F2. cbn [fst].
    destruct (get_in_range l t ltac:(unfold t in *; lra)) as [-> ->]. reflexivity.
  - rewrite V1. rewrite Etf. apply Huse. rewrite E2. left. reflexivity.
  - rewrite V1. exact HvL.
Qed.
End Corner.
