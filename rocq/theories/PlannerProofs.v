(** Proofs about the whole planner: block generation followed by correction. *)
From Coq Require Import Lra Psatz.
From Verif Require Import Py Vec Segment Junction Planner RealFacts SpecKin MoveProofs JunctionProofs CorrectProofs.
Open Scope R_scope.

(** ** plan_items is a function *)
Lemma vec4_eq_dec (a b : vec4) : {a = b} + {a <> b}.
Proof. decide equality; apply Req_EM_T. Qed.

Lemma plan_items_total : forall states A, exists l, plan_items A states l.
Proof.
  induction states as [|B rest IH]; intros A; [exists []; constructor|].
  destruct (IH B) as (l & Hl).
  destruct (vec4_eq_dec (k_pos B) (k_pos A)) as [E|E]; [destruct (k_pause B) eqn:Ep|].
  - eexists; apply pi_item; [right; congruence | eassumption].
  - eexists; apply pi_skip; eassumption.
  - eexists; apply pi_item; [left; assumption | eassumption].
Qed.
Lemma plan_items_fun : forall states A l l', plan_items A states l -> plan_items A states l' -> l = l'.
Proof.
  intros states A l l' H. revert l'. induction H as [A|A B rest l E Ep H IH|A B rest l Hor H IH]; intros l' H'.
  - inversion H'; reflexivity.
  - inversion H' as [|? ? ? ? ? ? H1|? ? ? ? Hor H1]; subst; [auto|]. destruct Hor; congruence.
  - inversion H' as [|? ? ? ? E Ep H1|? ? ? ? _ H1]; subst; [destruct Hor; congruence|].
    f_equal; auto.
Qed.

(** Standing still is a feasible profile. *)
Lemma feasible_zero fw : forall states A l, Forall valid_state states -> plan_items A states l ->
  feasible fw 0 l (map (fun _ => 0) l).
Proof.
  induction states as [|B rest IH]; intros A l Hv H.
  - inversion H; subst. constructor.
  - inversion Hv as [|? ? HB Hrest]; subst. destruct HB as (Hs & _ & Hj & _).
    inversion H as [|? ? ? ? E Ep H1|? ? ? ? Hor H1]; subst.
    + eauto.
    + simpl. constructor; [|apply junction_vel_bounds; assumption|eauto].
      split; [lra|]. split; [lra|]. left; split; reflexivity.
Qed.

(** ** Fresh plans *)

(** What a block has to do with its item. *)
Definition item_block (fw : firmware) (b : block) (i : item) : Prop :=
  let '(A, B, rest) := i in
  b_A b = A /\ b_B b = B /\
  b_extr b = pos_is_extruding (k_pos A) (k_pos B) true /\
  norm3 (b_JD b) <= junction_vel fw (mk_junction (Some A) B rest) B /\
  b_JD b = match k_pause B, b_dir b with
           | None, Some d => vscale (junction_vel fw (mk_junction (Some A) B rest) B) d
           | _, _ => vzero
           end.
Lemma item_block_st fw b b' i : st b = st b' -> item_block fw b i -> item_block fw b' i.
Proof.
  unfold st, item_block. destruct i as [[A B] rest]. intros E. injection E as -> -> -> -> ->. auto.
Qed.
Lemma item_blocks_st fw : forall bl bl' items, map st bl = map st bl' ->
  Forall2 (item_block fw) bl items -> Forall2 (item_block fw) bl' items.
Proof.
  induction bl as [|b bl IH]; intros bl' items E H; destruct bl' as [|b' bl']; try discriminate.
  - assumption.
  - inversion H; subst. cbn [map] in E. assert (E1 : st b = st b') by congruence.
    assert (E2 : map st bl = map st bl') by congruence.
    constructor; [eapply item_block_st; eassumption | eauto].
Qed.

Inductive plan_chain (p0 : vec4) : list block -> R -> vec4 -> R -> R -> list block -> list R -> Prop :=
| plan_nil done t p e w : plan_chain p0 done t p e w [] []
| plan_cons done t p e w b t' p' s e' w' bl wl :
    (done = [] -> k_pos (b_A b) = p0) ->
    wf_block b t p t' p' s e' -> s <= e -> feas b w w' -> w <= s -> w' <= e' ->
    plan_chain p0 (b :: done) t' p' e' w' bl wl ->
    plan_chain p0 done t p e w (b :: bl) (w' :: wl).

Lemma plan_raw p0 done t p e w bl wl : plan_chain p0 done t p e w bl wl -> raw_chain p e w bl wl.
Proof. induction 1; econstructor; eassumption. Qed.

(** Where the last block ends. *)
Definition ends_at (done : list block) (t : R) (p : vec4) (e : R) : Prop :=
  match done with
  | [] => t = 0 /\ e = 0
  | b :: _ => exists m, last_seg (b_segs b) = Ok m /\ t_end m = t /\ pos_end m = p /\ norm3 (vel_end m) = e
  end.

Lemma move_step A B d eo dist pv vJ :
  move_distance A B = (dist, eo) -> is_dir d eo -> 0 < dist ->
  vscale dist d = vsub (k_pos B) (k_pos A) ->
  0 < k_acc B -> 0 < k_speed B -> 0 <= vJ <= (if eo then 0 else k_speed B) ->
  exists segs ty,
    move_maker2 A B d pv vJ = Ok (segs, ty) /\
    forall extr jd, k_pause B = None -> vJ <= norm3 jd ->
    let b := Block A B (Some d) segs (Some ty) extr jd in
    exists t' s e', wf_block b (t_end pv) (pos_end pv) t' (vadd (pos_end pv) (vscale dist d)) s e' /\
      s <= norm3 (vel_end pv) /\
      (forall w w', profile_step A B w w' -> w <= norm3 (vel_end pv) -> w' <= vJ -> w <= s /\ w' <= e').
Proof.
  intros Hmd Hdir Hd Hsc Ha Hs HvJ.
  destruct (move_maker2_spec A B d pv vJ dist eo Hmd Hdir Hd Ha Hs) as (segs & ty & T & Hmm & Hplan);
    [destruct eo; lra|].
  exists segs, ty. split; [exact Hmm|]. intros extr jd Hpa Hjd b.
  set (vb := Rmin (norm3 (vel_end pv)) (k_speed B)) in *.
  assert (Hn : 0 <= norm3 (vel_end pv)) by apply norm3_nonneg.
  assert (Hvb : 0 <= vb <= k_speed B) by (unfold vb; split; [apply Rmin_glb; lra | apply Rmin_r]).
  assert (Hvbe : vb <= norm3 (vel_end pv)) by apply Rmin_l.
  assert (Had : 0 < k_acc B * dist) by (apply Rmult_lt_0_compat; assumption).
  destruct Hplan as [Hne Hmo _ _ _ _].
  set (s := entry_speed (k_acc B) dist vb vJ) in *.
  set (e := exit_speed (k_acc B) dist vb vJ) in *.
  exists T, (if eo then 0 else s), (if eo then 0 else e).
  assert (HvJ0 : 0 <= vJ) by tauto.
  assert (Hen : e * e <= s * s + 2 * k_acc B * dist).
  { unfold e, s, exit_speed, entry_speed.
    set (x := sqrt (vb * vb + 2 * k_acc B * dist)). set (y := sqrt (vJ * vJ + 2 * k_acc B * dist)).
    assert (Hx : x * x = vb * vb + 2 * k_acc B * dist) by (apply sq_sqrt; nra).
    assert (Hy : y * y = vJ * vJ + 2 * k_acc B * dist) by (apply sq_sqrt; nra).
    assert (Hx0 : 0 <= x) by apply sqrt_pos. assert (Hy0 : 0 <= y) by apply sqrt_pos.
    apply (Rmin_case vb y (fun m => Rmin vJ x * Rmin vJ x <= m * m + 2 * k_acc B * dist)).
    - assert (Rmin vJ x <= x) by apply Rmin_r.
      assert (0 <= Rmin vJ x) by (apply Rmin_glb; assumption). nra.
    - assert (Rmin vJ x <= vJ) by apply Rmin_l.
      assert (0 <= Rmin vJ x) by (apply Rmin_glb; assumption). nra. }
  split; [|split].
  - apply (wf_move b _ _ _ _ _ d eo); unfold b; cbn [b_A b_B b_dir b_segs b_JD]; try first [assumption | reflexivity].
    eapply Rle_trans; [apply Rmin_l | exact Hjd].
  - destruct eo; [assumption|]. unfold s, entry_speed.
    pose proof (Rmin_l vb (sqrt (vJ * vJ + 2 * k_acc B * dist))). lra.
  - intros w w' (Hw & Hw' & [[-> ->]|(_ & Hdi & Hsw & Hsw' & Hab)]) Hwe HwJ.
    + destruct eo; split; try lra; [apply Rmin_glb; [lra|apply sqrt_pos] | apply Rmin_glb; [lra|apply sqrt_pos]].
    + unfold move_distance in Hmd.
      destruct (Reqb_spec (t_distance (k_pos B) (k_pos A) false) 0) as [E|E].
      { exfalso. unfold t_distance in E. lra. }
      assert (E1 : t_distance (k_pos B) (k_pos A) false = dist) by congruence.
      assert (E2 : eo = false) by congruence. subst eo.
      unfold t_distance in E1. rewrite E1 in Hab.
      assert (Hwvb : w <= vb) by (unfold vb; apply Rmin_glb; assumption).
      assert (w * w <= vb * vb) by nra. assert (w' * w' <= vJ * vJ) by nra.
      split; (apply Rmin_glb; [assumption|]); apply le_sqrt_sq; try assumption;
        unfold Rabs in Hab; destruct (Rcase_abs (w' * w' - w * w)); lra.
Qed.

Lemma gen_blocks_ok fw p0 : forall states A done t p e w items wl,
  Forall valid_state states ->
  (done = [] -> moves_first A states /\ k_pos A = p0 /\ p = p0) ->
  ends_at done t p e -> plan_items A states items -> feasible fw w items wl -> w <= e ->
  exists bl, gen_blocks fw (Some A) states done = Ok (rev done ++ bl) /\
             plan_chain p0 done t p e w bl wl /\
             Forall2 (item_block fw) bl items.
Proof.
  induction states as [|B rest IH]; intros A done t p e w items wl Hv Hm He Hi Hf Hw.
  { inversion Hi; subst. inversion Hf; subst. exists []. simpl. rewrite app_nil_r.
    split; [reflexivity|]. split; constructor. }
  inversion Hv as [|? ? HB Hrest]; subst. destruct HB as (Hs & Ha & Hj & Hpz).
  cbn [gen_blocks].
  pose proof (junction_vel_bounds fw A B rest Hs Hj) as HJ.
  assert (Hcont : forall ob done' t' p' e' w' items' wl',
    planner_block fw (Some A) B rest (hd_error done) = Ok ob ->
    done' = add_block ob done ->
    (done' = [] -> moves_first B rest /\ k_pos B = p0 /\ p' = p0) ->
    ends_at done' t' p' e' -> plan_items B rest items' -> feasible fw w' items' wl' -> w' <= e' ->
    exists bl, (ob <- planner_block fw (Some A) B rest (hd_error done) ;;
                gen_blocks fw (Some B) rest (add_block ob done))
               = Ok (rev done' ++ bl) /\
      plan_chain p0 done' t' p' e' w' bl wl' /\
      Forall2 (item_block fw) bl items').
  { intros ob done' t' p' e' w' items' wl' Hob -> H1 H2 H3 H4 H5.
    rewrite Hob. cbn [bind]. eapply IH; eassumption. }
  assert (Hacc : Rleb (k_acc B) 0 = false) by (apply Rleb_false; lra).
  assert (Hjt : target_vel (mk_junction (Some A) B rest) = connect_state A B) by reflexivity.
  destruct (vec4_eq_dec (k_pos B) (k_pos A)) as [E|E].
  - (* no move *)
    assert (Hnz : get_norm_dir (connect_state A B) = None).
    { rewrite connect_same by congruence. unfold get_norm_dir.
      rewrite norm3_vzero, norm4_vzero, (Rltb_false 0 0) by lra. reflexivity. }
    destruct (k_pause B) as [dt|] eqn:Ep.
    + (* dwell *)
      inversion Hi as [|? ? ? ? E' Ep' H1|? ? ? ? Hor H1]; subst; [congruence|].
      inversion Hf as [|? ? ? ? w' ? wl' Hst Hcap Hf']; subst.
      destruct done as [|pb done].
      { exfalso. destruct (Hm eq_refl) as [Hm1 _]. simpl in Hm1. destruct Hm1; congruence. }
      destruct He as (m & Hl & Ht & Hp & Hve).
      specialize (Hpz dt eq_refl).
      set (sg := Seg t (t + dt) p p vzero vzero).
      assert (Hmk : mk_segment (t_end m) (t_end m + dt) (pos_end m) (pos_end m) vzero vzero = Ok sg).
      { rewrite Ht, Hp. unfold mk_segment. rewrite self_check_ok; [reflexivity | simpl; lra | simpl; vec]. }
      set (b := Block A B None [sg] None false vzero).
      assert (Hib : item_block fw b (A, B, rest)).
      { split; [reflexivity|]. split; [reflexivity|]. split.
        - unfold pos_is_extruding. rewrite E. symmetry. apply Rltb_false. lra.
        - simpl b_JD. rewrite norm3_vzero. split; [tauto|]. rewrite Ep. reflexivity. }
      assert (Hob : planner_block fw (Some A) B rest (hd_error (pb :: done)) = Ok (Some b)).
      { unfold planner_block. rewrite Hacc, Hjt, Hnz. cbn [bind]. rewrite Ep. simpl hd_error.
        cbn iota beta. rewrite Hl. cbn [bind]. rewrite Hmk. reflexivity. }
      destruct Hst as (Hw0 & Hw1 & [[Hz1 Hz2]|(Hpn & _)]); [|congruence].
      destruct (Hcont (Some b) (b :: pb :: done) (t + dt) p 0 w' l wl' Hob eq_refl) as (bl & Hg & Hc & Hmap).
      * discriminate.
      * exists sg. simpl. repeat split. apply norm3_vzero.
      * assumption.
      * assumption.
      * lra.
      * exists (b :: bl). rewrite Hg. split; [simpl; rewrite <- app_assoc; reflexivity|].
        split; [|constructor; [exact Hib|exact Hmap]].
        eapply plan_cons with (b := b) (s := 0) (e' := 0); [discriminate | | | | | | exact Hc]; try lra.
        -- apply wf_dwell; simpl; auto.
        -- split; [assumption|]. split; [assumption|]. left; split; assumption.
    + (* nothing *)
      inversion Hi as [|? ? ? ? E' Ep' H1|? ? ? ? Hor H1]; subst; [|destruct Hor; congruence].
      assert (Hob : planner_block fw (Some A) B rest (hd_error done) = Ok None).
      { unfold planner_block. rewrite Hacc, Hjt, Hnz. cbn [bind]. rewrite Ep. reflexivity. }
      apply (Hcont None done t p e w items wl Hob eq_refl); auto.
      intros Hdn. destruct (Hm Hdn) as (Hm1 & Hm2 & Hm3). simpl in Hm1.
      destruct Hm1 as [_ [Hm1|Hm1]]; [congruence|]. repeat split; congruence || assumption.
  - (* a move *)
    destruct (connect_moves A B E Hs) as (d & eo & dist & Hmd & Hd & Hdir & Hsc & Hcs & Hnd & Hnz).
    inversion Hi as [|? ? ? ? E' Ep' H1|? ? ? ? Hor H1]; subst; [congruence|].
    inversion Hf as [|? ? ? ? w' ? wl' Hst Hcap Hf']; subst.
    rewrite Hcs, (dir_norm3 d eo) in HJ by (assumption || lra).
    set (vJ := junction_vel fw (mk_junction (Some A) B rest) B) in *.
    assert (Hpv : exists pv, previous_segment A (hd_error done) = Ok pv /\
                             t_end pv = t /\ pos_end pv = p /\ norm3 (vel_end pv) = e).
    { destruct done as [|pb done].
      - destruct (Hm eq_refl) as (_ & Hm2 & Hm3). destruct He as [-> ->].
        simpl. eexists; split; [reflexivity|]. simpl. repeat split; [congruence|apply norm3_vzero].
      - exact He. }
    destruct Hpv as (pv & Hpv & Hpt & Hpp & Hpe).
    destruct (move_step A B d eo dist pv vJ Hmd Hdir Hd Hsc Ha Hs HJ) as (segs & ty & Hmm & Hwf).
    set (extr := pos_is_extruding (k_pos A) (k_pos B) true).
    set (b := Block A B (Some d) segs (Some ty) extr (vscale vJ d)).
    destruct (k_pause B) as [dt|] eqn:Ep.
    + (* the pause replaces the move *)
      destruct done as [|pb done].
      { exfalso. destruct (Hm eq_refl) as [Hm1 _]. simpl in Hm1. destruct Hm1; congruence. }
      destruct He as (m & Hl & Ht & Hp & Hve).
      specialize (Hpz dt eq_refl).
      set (sg := Seg t (t + dt) p p vzero vzero).
      assert (Hmk : mk_segment (t_end m) (t_end m + dt) (pos_end m) (pos_end m) vzero vzero = Ok sg).
      { rewrite Ht, Hp. unfold mk_segment. rewrite self_check_ok; [reflexivity | simpl; lra | simpl; vec]. }
      set (b' := Block A B (Some d) [sg] (Some ty) extr vzero).
      assert (Hib : item_block fw b' (A, B, rest)).
      { split; [reflexivity|]. split; [reflexivity|]. split; [reflexivity|].
        simpl b_JD. rewrite norm3_vzero. split; [tauto|]. rewrite Ep. reflexivity. }
      assert (Hob : planner_block fw (Some A) B rest (hd_error (pb :: done)) = Ok (Some b')).
      { unfold planner_block. rewrite Hacc, Hjt, Hnd, Hnz. cbn beta iota zeta. rewrite Hpv. cbn [bind].
        fold vJ. rewrite Hmm. cbn [bind]. rewrite Ep. simpl hd_error.
        cbn iota beta. rewrite Hl. cbn [bind]. rewrite Hmk. reflexivity. }
      destruct Hst as (Hw0 & Hw1 & [[Hz1 Hz2]|(Hpn & _)]); [|congruence].
      destruct (Hcont (Some b') (b' :: pb :: done) (t + dt) p 0 w' l wl' Hob eq_refl) as (bl & Hg & Hc & Hmap).
      * discriminate.
      * exists sg. simpl. repeat split. apply norm3_vzero.
      * assumption.
      * assumption.
      * lra.
      * exists (b' :: bl). rewrite Hg. split; [simpl; rewrite <- app_assoc; reflexivity|].
        split; [|constructor; [exact Hib|exact Hmap]].
        eapply plan_cons with (b := b') (s := 0) (e' := 0); [discriminate | | | | | | exact Hc]; try lra.
        -- apply wf_dwell; simpl; auto.
        -- split; [assumption|]. split; [assumption|]. left; split; assumption.
    + assert (Hob : planner_block fw (Some A) B rest (hd_error done) = Ok (Some b)).
      { unfold planner_block. rewrite Hacc, Hjt, Hnd, Hnz. cbn beta iota zeta. rewrite Hpv. cbn [bind].
        fold vJ. rewrite Hmm. cbn [bind]. rewrite Ep. reflexivity. }
      assert (Hjd : norm3 (vscale vJ d) = if eo then 0 else vJ) by (apply dir_norm3; tauto).
      assert (Hib : item_block fw b (A, B, rest)).
      { split; [reflexivity|]. split; [reflexivity|]. split; [reflexivity|].
        simpl b_JD. simpl b_dir. fold vJ. rewrite Hjd, Ep. split; [destruct eo; tauto || lra | reflexivity]. }
      destruct (Hwf extr (vscale vJ d) eq_refl) as (t' & s & e' & Hwfb & Hsle & Hprof); [rewrite Hjd; destruct eo; lra|].
      fold b in Hwfb. rewrite Hpt, Hpp in Hwfb. rewrite Hpe in Hsle.
      destruct (Hprof w w' Hst) as [Hws Hwe]; [lra | assumption |].
      assert (Hadd : b :: done = add_block (Some b) done).
      { unfold add_block. destruct (wf_last _ _ _ _ _ _ _ Hwfb) as (m & Hl & _). destruct (b_segs b); [discriminate|reflexivity]. }
      destruct (Hcont (Some b) (b :: done) t' (vadd p (vscale dist d)) e' w' l wl' Hob Hadd) as (bl & Hg & Hc & Hmap).
      * discriminate.
      * exact (wf_last _ _ _ _ _ _ _ Hwfb).
      * assumption.
      * assumption.
      * assumption.
      * exists (b :: bl). rewrite Hg. split; [simpl; rewrite <- app_assoc; reflexivity|].
        split; [|constructor; [exact Hib|exact Hmap]].
        eapply plan_cons with (b := b); [ | exact Hwfb | assumption | exact Hst | assumption | assumption | exact Hc].
        intros Hdn. destruct (Hm Hdn) as (_ & Hm2 & _). exact Hm2.
Qed.

(** ** The result of the simulation *)
Theorem simulate_ok fw s0 states items wl :
  valid_program s0 states -> plan_items s0 states items -> feasible fw 0 items wl ->
  exists bl t p e,
    simulate fw (s0 :: states) = Ok (bl, false) /\
    done_chain (k_pos s0) (rev bl) (rev wl) t p e /\
    Forall2 (item_block fw) bl items.
Proof.
  intros (Hv & Hp & Hm) Hi Hf. inversion Hv as [|? ? H0 Hv']; subst.
  destruct H0 as (Hs & Ha & Hj & _).
  assert (H0 : planner_block fw None s0 states (hd_error []) = Ok None).
  { unfold planner_block. rewrite Rleb_false by lra. rewrite Hp. reflexivity. }
  destruct (gen_blocks_ok fw (k_pos s0) states s0 [] 0 (k_pos s0) 0 0 items wl Hv') as (bl & Hg & Hc & Hmap);
    [auto | simpl; auto | assumption | assumption | lra |].
  unfold simulate, generate_planner_blocks. cbn [gen_blocks]. rewrite H0. cbn [bind add_block].
  rewrite Hg. cbn [bind rev app].
  inversion Hc as [|? ? ? ? ? b t' p' s e' w' bl' wl' Hp0 Hwf Hse Hfe Hw Hw' Hc']; subst.
  - simpl. inversion Hf; subst.
    exists [], 0, (k_pos s0), 0. split; [reflexivity|]. split; constructor.
  - pose proof (wf_nonneg _ _ _ _ _ _ _ Hwf) as [Hs0 _].
    assert (Hd : done_chain (k_pos s0) [b] [w'] t' p' e').
    { eapply done_cons with (prevs := []) (wl := []) (s := s); [constructor | auto | eassumption | lra | lra | exact Hfe | simpl; lra | assumption]. }
    destruct (correct_from_ok (k_pos s0) bl' wl' [] [] b w' t' p' e' Hd (plan_raw _ _ _ _ _ _ _ _ Hc'))
      as (bl2 & tf & pf & ef & Hcf & Hd2 & Hst2).
    exists bl2, tf, pf, ef. cbn [trajectory_self_correct]. split; [exact Hcf|]. split; [exact Hd2|].
    eapply item_blocks_st; [symmetry; exact Hst2 | exact Hmap].
Qed.
