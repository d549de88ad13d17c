(** What the invariant of the planner says about the simulated trajectory. *)
From Coq Require Import Lra Psatz.
From Verif Require Import Py Vec Segment Junction Planner RealFacts SpecKin MoveProofs JunctionProofs CorrectProofs PlannerProofs.
Open Scope R_scope.

(** ** Lists *)
Lemma joined_app {X} (P : X -> X -> Prop) : forall l1 l2,
  joined P l1 -> joined P l2 ->
  (forall x y, ends (eq x) l1 -> l1 <> [] -> starts (eq y) l2 -> l2 <> [] -> P x y) ->
  joined P (l1 ++ l2).
Proof.
  induction l1 as [|x l1 IH]; intros l2 H1 H2 H; [assumption|].
  destruct H1 as [Hx H1]. simpl. split.
  - destruct l1 as [|y l1]; simpl; [|assumption].
    destruct l2 as [|y l2]; [trivial|].
    apply H; first [reflexivity | intros Habs; discriminate Habs].
  - apply IH; try assumption. intros a b Ha Hne. apply H; [|intros Habs; discriminate Habs].
    unfold ends in *. cbn [rev]. destruct (rev l1) eqn:E; [|exact Ha].
    exfalso. apply Hne. rewrite <- (rev_involutive l1), E. reflexivity.
Qed.

Lemma first_seg_starts segs m : first_seg segs = Ok m -> forall y, starts (eq y) segs -> y = m.
Proof. destruct segs as [|s segs]; intros H; [discriminate|]. injection H as ->. intros y Hy. exact Hy. Qed.
Lemma last_seg_ends segs m : last_seg segs = Ok m -> forall y, ends (eq y) segs -> y = m.
Proof.
  unfold last_seg, ends. destruct (rev segs) as [|s l]; intros H; [discriminate|].
  injection H as ->. intros y Hy. exact Hy.
Qed.

(** ** The chain in program order *)
Inductive fchain : R -> vec4 -> R -> R -> list block -> list R -> Prop :=
| f_nil t p e w : fchain t p e w [] []
| f_cons t p e w b t' p' s e' w' bl wl :
    wf_block b t p t' p' s e' -> s <= e -> e - s <= tol ->
    feas b w w' -> w <= s -> w' <= e' ->
    fchain t' p' e' w' bl wl ->
    fchain t p e w (b :: bl) (w' :: wl).

Lemma done_fchain p0 : forall l wl t p e, done_chain p0 l wl t p e ->
  forall bl' wl', fchain t p e (hd 0 wl) bl' wl' -> fchain 0 p0 0 0 (rev l ++ bl') (rev wl ++ wl').
Proof.
  induction 1 as [|b prevs w wl t p e0 t' p' s e Hd IH Hp0 Hwf Hle Htol Hfe Hw Hw2]; intros bl' wl' Hf.
  - exact Hf.
  - simpl. rewrite <- !app_assoc. apply IH. simpl. econstructor; try eassumption.
Qed.

Lemma simulate_inv fw s0 states bl wn :
  valid_program s0 states -> simulate fw (s0 :: states) = Ok (bl, wn) ->
  wn = false /\ exists items, plan_items s0 states items /\ Forall2 (item_block fw) bl items /\
    forall wl, feasible fw 0 items wl -> fchain 0 (k_pos s0) 0 0 bl wl.
Proof.
  intros Hv Hsim. destruct (plan_items_total states s0) as (items & Hi).
  assert (Hvs : Forall valid_state states) by (destruct Hv as [Hv _]; inversion Hv; assumption).
  destruct (simulate_ok fw s0 states items _ Hv Hi (feasible_zero fw _ _ _ Hvs Hi))
    as (bl' & t & p & e & Hs & _ & Hib).
  rewrite Hsim in Hs. injection Hs as <- ->. split; [reflexivity|].
  exists items. split; [assumption|]. split; [assumption|].
  intros wl Hf. destruct (simulate_ok fw s0 states items wl Hv Hi Hf) as (bl2 & t2 & p2 & e2 & Hs2 & Hd & _).
  rewrite Hsim in Hs2. injection Hs2 as <-.
  pose proof (done_fchain _ _ _ _ _ _ Hd [] [] (f_nil _ _ _ _)) as H.
  rewrite !rev_involutive, !app_nil_r in H. exact H.
Qed.

Lemma simulate_fchain fw s0 states bl wn :
  valid_program s0 states -> simulate fw (s0 :: states) = Ok (bl, wn) ->
  exists wl, fchain 0 (k_pos s0) 0 0 bl wl.
Proof.
  intros Hv Hsim. destruct (simulate_inv _ _ _ _ _ Hv Hsim) as (_ & items & Hi & _ & Hf).
  assert (Hvs : Forall valid_state states) by (destruct Hv as [Hv _]; inversion Hv; assumption).
  eexists. apply Hf. eapply feasible_zero; eassumption.
Qed.

Lemma fchain_in t p e w bl wl : fchain t p e w bl wl ->
  forall b, In b bl -> exists t p t' p' s e, wf_block b t p t' p' s e.
Proof.
  induction 1 as [|t p e w b t' p' s e' w' bl wl Hwf _ _ _ _ _ _ IH]; intros b0 Hin; [contradiction|]; destruct Hin as [<-|Hin].
  - eauto 10.
  - auto.
Qed.

(** ** C24: no gaps *)
Definition contiguous (s n : segment) : Prop := t_end s = t_begin n /\ pos_end s = pos_begin n.

Lemma motion_joined d a vm t p v segs t' p' v' :
  motion d a vm t p v segs t' p' v' ->
  joined (fun s n => contiguous s n /\ vel_end s = vel_begin n) segs.
Proof.
  induction 1 as [|t p v s v1 segs t' p' v' Ht Hp Hr Hm IH]; simpl; [trivial|].
  split; [|assumption]. inversion Hm as [|? ? ? n ? ? ? ? ? Ht2 Hp2 Hr2 _]; subst; [trivial|].
  unfold ramp in *. destruct Hr as (_ & _ & He & _). destruct Hr2 as (_ & Hb & _).
  repeat split; congruence.
Qed.
Lemma joined_weaken {X} (P Q : X -> X -> Prop) l : (forall x y, P x y -> Q x y) -> joined P l -> joined Q l.
Proof.
  intros H. induction l as [|x l IH]; simpl; [trivial|]. intros [H1 H2]. split; [|auto].
  destruct l; [trivial|auto].
Qed.

Lemma wf_joined b t p t' p' s e : wf_block b t p t' p' s e ->
  joined (fun s n => contiguous s n /\ vel_end s = vel_begin n) (b_segs b).
Proof.
  intros H. destruct H as [t p t' v0 v1 d eo dist Hp Hd Hdir Hmd Hpos Hsc Ha Hs Hne Hm Hen Hcap | t p dt Hp Hdt Hs Hsegs].
  - eapply motion_joined; eassumption.
  - rewrite Hsegs. simpl. auto.
Qed.

(** All segments: time and position exactly, speed up to the tolerance. *)
Definition smooth (s n : segment) : Prop :=
  contiguous s n /\ norm3 (vel_begin n) <= norm3 (vel_end s) <= norm3 (vel_begin n) + tol.

Lemma fchain_segs t p e w bl wl : fchain t p e w bl wl ->
  joined smooth (unpack_blocklist bl) /\
  starts (fun s => t_begin s = t /\ pos_begin s = p /\ norm3 (vel_begin s) <= e <= norm3 (vel_begin s) + tol)
         (unpack_blocklist bl).
Proof.
  induction 1 as [|t p e w b t' p' s e' w' bl wl Hwf Hs Htol Hfe Hw Hw2 Hf [IH1 IH2]]; [simpl; auto|].
  unfold unpack_blocklist in *. cbn [flat_map].
  destruct (wf_first _ _ _ _ _ _ _ Hwf) as (m & Hm & Hmt & Hmp & Hms).
  destruct (wf_last _ _ _ _ _ _ _ Hwf) as (l & Hl & Hlt & Hlp & Hle).
  split.
  - apply joined_app.
    + eapply joined_weaken; [|eapply wf_joined; eassumption]. intros x y [H1 H2]. split; [assumption|].
      rewrite H2. lra.
    + assumption.
    + intros x y Hx _ Hy Hne. rewrite (last_seg_ends _ _ Hl _ Hx).
      destruct (flat_map b_segs bl) as [|y' rest]; [contradiction|]. simpl in Hy, IH2. subst y'.
      destruct IH2 as (H1 & H2 & H3). unfold smooth, contiguous. rewrite Hlt, Hlp, Hle.
      repeat split; try congruence; lra.
  - destruct (b_segs b) as [|m' segs]; [discriminate|]. injection Hm as ->. simpl.
    repeat split; try assumption; lra.
Qed.

(** Blocks start and end at the positions of their states. *)
Lemma fchain_positions fw : forall states A items t p e w bl wl,
  fchain t p e w bl wl -> plan_items A states items -> Forall2 (item_block fw) bl items ->
  no_moving_pause A states -> p = k_pos A ->
  forall b, In b bl ->
    exists t1 t2 s e1, wf_block b t1 (k_pos (b_A b)) t2 (k_pos (b_B b)) s e1.
Proof.
  induction states as [|B rest IH]; intros A items t p e w bl wl Hf Hi Hib Hn Hp b Hb.
  - inversion Hi; subst. inversion Hib; subst. contradiction.
  - destruct Hn as [Hn0 Hn].
    inversion Hi as [|? ? ? ? E' Ep' H1|? ? ? l Hor H1]; subst.
    + eapply IH; try eassumption. congruence.
    + inversion Hib as [|b' i' bl' items' Hb1 Hib']; subst. destruct Hb1 as (HA & HB & _).
      inversion Hf as [|? ? ? ? ? t' p' s e' w' ? wl' Hwf Hs Htol Hfe Hw Hw2 Hf']; subst.
      assert (Ep : p' = k_pos (b_B b')).
      { inversion Hwf; subst.
        - rewrite H5. vec.
        - destruct Hn0 as [Hn0|Hn0]; [congruence|]. symmetry. assumption. }
      destruct Hb as [<-|Hb].
      * rewrite Ep in Hwf. eauto 10.
      * eapply IH; try eassumption.
Qed.

(** ** C29: nothing left to correct *)
Lemma timeshift_0 b : timeshift 0 b = b.
Proof.
  unfold timeshift, set_segs. destruct b; simpl. f_equal.
  induction b_segs as [|s segs IH]; simpl; [reflexivity|]. rewrite IH. f_equal.
  destruct s; unfold move_segment_time; simpl. f_equal; ring.
Qed.

Lemma fchain_correct : forall bl prevs b t p e t0 p0 s0 w wl,
  wf_block b t0 p0 t p s0 e ->
  fchain t p e w bl wl ->
  correct_from prevs b bl = Ok (rev prevs ++ b :: bl, false).
Proof.
  induction bl as [|n bl IH]; intros prevs b t p e t0 p0 s0 w wl Hb Hf.
  - simpl. rewrite (wf_no_warning _ _ _ _ _ _ _ Hb). reflexivity.
  - inversion Hf as [|? ? ? ? ? t' p' s e' w' ? wl' Hwf Hs Htol Hfe Hw Hw2 Hf']; subst.
    destruct (wf_last _ _ _ _ _ _ _ Hb) as (l & Hl & Hlt & Hlp & Hle).
    destruct (wf_first _ _ _ _ _ _ _ Hwf) as (m & Hm & Hmt & Hmp & Hms).
    cbn [correct_from].
    assert (Hsc : self_correction prevs b n = Ok (prevs, b, n, false)).
    { destruct prevs; cbn [self_correction]; rewrite Hl; cbn [bind]; rewrite Hm; cbn [bind];
        rewrite (flag_correct_false l m e s) by assumption; cbn [bind]; rewrite Hl; cbn [bind];
        (replace (t_end l - t_begin m) with 0 by lra);
        rewrite timeshift_0, Hm; cbn [bind]; (rewrite check_continuity_ok by congruence); cbn [bind];
        rewrite (wf_no_warning _ _ _ _ _ _ _ Hb); reflexivity. }
    rewrite Hsc. cbn [bind]. erewrite IH; try eassumption. cbn [bind]. simpl. rewrite <- app_assoc. reflexivity.
Qed.

(** ** Lengths and times *)
Lemma motion_length d a vm t p v segs t' p' v' :
  motion d a vm t p v segs t' p' v' ->
  exists L, p' = vadd p (vscale L d) /\ 0 <= L <= vm * (t' - t) /\ t <= t'.
Proof.
  induction 1 as [|t p v s v1 segs t' p' v' Ht Hp Hr Hm (L & HL & HL2 & Ht')].
  - exists 0. repeat split; try lra. vec.
  - unfold ramp in Hr. destruct Hr as (Hdt & _ & _ & Hpe & Hv & Hv1 & _).
    exists ((v + v1) / 2 * (t_end s - t_begin s) + L). subst t. split.
    + rewrite HL, Hpe, Hp. vec.
    + split; [|lra]. split; nra.
Qed.

Lemma is_dir_inj d eo p k l : is_dir d eo -> vadd p (vscale k d) = vadd p (vscale l d) -> k = l.
Proof.
  intros Hd E. apply is_dir_norm4 in Hd.
  assert (E1 : vx p + vx d * k = vx p + vx d * l) by (exact (f_equal vx E)).
  assert (E2 : vy p + vy d * k = vy p + vy d * l) by (exact (f_equal vy E)).
  assert (E3 : vz p + vz d * k = vz p + vz d * l) by (exact (f_equal vz E)).
  assert (E4 : ve p + ve d * k = ve p + ve d * l) by (exact (f_equal ve E)).
  destruct (Req_dec k l) as [?|Hkl]; [assumption|]. exfalso.
  assert (H0 : forall x q, q + x * k = q + x * l -> x = 0) by (intros; nra).
  apply H0 in E1, E2, E3, E4.
  assert (norm4 d = 0) by (replace d with vzero by (apply vec4_ext; simpl; auto); apply norm4_vzero).
  lra.
Qed.
