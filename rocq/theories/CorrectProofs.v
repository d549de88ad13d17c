(** Proofs about self_correction: it never fails on a planned list of blocks
    and establishes the trajectory invariant. *)
From Coq Require Import Lra Psatz.
From Verif Require Import Py Vec Segment Junction Planner RealFacts SpecKin MoveProofs JunctionProofs.
Open Scope R_scope.

Notation tol := (1 / 1000000000000).

(** ** Segments of a motion *)
Lemma motion_first d a vm t p v segs t' p' v' :
  motion d a vm t p v segs t' p' v' -> segs <> [] ->
  exists m, first_seg segs = Ok m /\ t_begin m = t /\ pos_begin m = p /\ vel_begin m = vscale v d.
Proof.
  intros H Hne. destruct H as [|t p v s v1 segs t' p' v' Ht Hp Hr _]; [contradiction|].
  exists s. simpl. unfold ramp in Hr. repeat split; tauto.
Qed.

Lemma last_seg_cons s segs : segs <> [] -> last_seg (s :: segs) = last_seg segs.
Proof.
  intros H. unfold last_seg. simpl. destruct (rev segs) eqn:E; [|reflexivity].
  exfalso. apply H. rewrite <- (rev_involutive segs), E. reflexivity.
Qed.

Lemma motion_last d a vm t p v segs t' p' v' :
  motion d a vm t p v segs t' p' v' -> segs <> [] ->
  exists m, last_seg segs = Ok m /\ t_end m = t' /\ pos_end m = p' /\ vel_end m = vscale v' d.
Proof.
  induction 1 as [|t p v s v1 segs t' p' v' Ht Hp Hr Hm IH]; intros Hne; [contradiction|].
  destruct segs as [|s2 segs].
  - inversion Hm; subst. exists s. unfold ramp in Hr. repeat split; tauto.
  - rewrite last_seg_cons by discriminate. apply IH; discriminate.
Qed.

Lemma motion_shift d a vm t p v segs t' p' v' dt :
  motion d a vm t p v segs t' p' v' ->
  motion d a vm (t + dt) p v (map (move_segment_time dt) segs) (t' + dt) p' v'.
Proof.
  induction 1 as [|t p v s v1 segs t' p' v' Ht Hp Hr Hm IH]; simpl; [constructor|].
  apply motion_cons with (v1 := v1); simpl.
  - rewrite Ht; reflexivity.
  - exact Hp.
  - unfold ramp in *; simpl. replace (t_end s + dt - (t_begin s + dt)) with (t_end s - t_begin s) by ring. exact Hr.
  - exact IH.
Qed.

Lemma motion_speed_range d a vm t p v segs t' p' v' :
  motion d a vm t p v segs t' p' v' -> segs <> [] -> 0 <= v <= vm /\ 0 <= v' <= vm.
Proof.
  induction 1 as [|t p v s v1 segs t' p' v' Ht Hp Hr Hm IH]; intros Hne; [contradiction|].
  unfold ramp in Hr. destruct Hr as (_ & _ & _ & _ & Hv & Hv1 & _).
  split; [assumption|].
  destruct segs as [|s2 segs].
  - inversion Hm; subst; assumption.
  - apply IH; discriminate.
Qed.

(** ** Well-formed blocks: [wf_block b t p t' p' s e] *)
Inductive wf_block (b : block) : R -> vec4 -> R -> vec4 -> R -> R -> Prop :=
| wf_move t p t' v0 v1 d eo dist :
    k_pause (b_B b) = None ->
    b_dir b = Some d -> is_dir d eo -> move_distance (b_A b) (b_B b) = (dist, eo) ->
    0 < dist -> vscale dist d = vsub (k_pos (b_B b)) (k_pos (b_A b)) ->
    0 < k_acc (b_B b) -> 0 < k_speed (b_B b) ->
    b_segs b <> [] ->
    motion d (k_acc (b_B b)) (k_speed (b_B b)) t p v0 (b_segs b) t' (vadd p (vscale dist d)) v1 ->
    swift (k_acc (b_B b)) (k_speed (b_B b)) dist v0 v1 (t' - t) ->
    v1 <= norm3 (b_JD b) ->
    wf_block b t p t' (vadd p (vscale dist d)) (if eo then 0 else v0) (if eo then 0 else v1)
| wf_dwell t p dt :
    k_pause (b_B b) = Some dt -> 0 <= dt -> 0 < k_speed (b_B b) ->
    b_segs b = [Seg t (t + dt) p p vzero vzero] ->
    wf_block b t p (t + dt) p 0 0.

Lemma dir_norm3 d eo v : is_dir d eo -> 0 <= v -> norm3 (vscale v d) = if eo then 0 else v.
Proof.
  intros Hd Hv. rewrite norm3_scale_pos by assumption.
  destruct eo; simpl in Hd; [destruct Hd as [-> _] | rewrite Hd]; ring.
Qed.

Lemma wf_first b t p t' p' s e : wf_block b t p t' p' s e ->
  exists m, first_seg (b_segs b) = Ok m /\ t_begin m = t /\ pos_begin m = p /\ norm3 (vel_begin m) = s.
Proof.
  intros H. destruct H as [t p t' v0 v1 d eo dist Hp Hd Hdir Hmd Hpos Hsc Ha Hs Hne Hm Hen Hcap | t p dt Hp Hdt Hs Hsegs].
  - destruct (motion_first _ _ _ _ _ _ _ _ _ _ Hm Hne) as (m & H1 & H2 & H3 & H4).
    destruct (motion_speed_range _ _ _ _ _ _ _ _ _ _ Hm Hne) as [Hr _].
    exists m. repeat split; try assumption. rewrite H4. apply dir_norm3; tauto.
  - rewrite Hsegs. eexists; split; [reflexivity|]. simpl. repeat split. apply norm3_vzero.
Qed.

Lemma wf_last b t p t' p' s e : wf_block b t p t' p' s e ->
  exists m, last_seg (b_segs b) = Ok m /\ t_end m = t' /\ pos_end m = p' /\ norm3 (vel_end m) = e.
Proof.
  intros H. destruct H as [t p t' v0 v1 d eo dist Hp Hd Hdir Hmd Hpos Hsc Ha Hs Hne Hm Hen Hcap | t p dt Hp Hdt Hs Hsegs].
  - destruct (motion_last _ _ _ _ _ _ _ _ _ _ Hm Hne) as (m & H1 & H2 & H3 & H4).
    destruct (motion_speed_range _ _ _ _ _ _ _ _ _ _ Hm Hne) as [_ Hr].
    exists m. repeat split; try assumption. rewrite H4. apply dir_norm3; tauto.
  - rewrite Hsegs. eexists; split; [reflexivity|]. simpl. repeat split. apply norm3_vzero.
Qed.

Lemma wf_nonneg b t p t' p' s e : wf_block b t p t' p' s e -> 0 <= s /\ 0 <= e.
Proof.
  intros H. destruct (wf_first _ _ _ _ _ _ _ H) as (m & _ & _ & _ & <-).
  destruct (wf_last _ _ _ _ _ _ _ H) as (m' & _ & _ & _ & <-).
  split; apply norm3_nonneg.
Qed.

Lemma wf_shift b t p t' p' s e dt : wf_block b t p t' p' s e ->
  wf_block (timeshift dt b) (t + dt) p (t' + dt) p' s e.
Proof.
  intros H. destruct H as [t p t' v0 v1 d eo dist Hp Hd Hdir Hmd Hpos Hsc Ha Hs Hne Hm Hen Hcap | t p x Hp Hdt Hs Hsegs].
  - apply wf_move with (d := d); simpl; try assumption.
    + intros E. apply map_eq_nil in E. contradiction.
    + apply motion_shift; assumption.
    + replace (t' + dt - (t + dt)) with (t' - t) by ring. assumption.
  - replace (t + x + dt) with (t + dt + x) by ring.
    apply wf_dwell; simpl; try assumption. rewrite Hsegs. simpl. f_equal.
    unfold move_segment_time; simpl. f_equal. ring.
Qed.

(** ** No limit violation is printed for a well-formed block *)
Lemma exceeds_false v speed : v <= speed -> exceeds v speed = false.
Proof. intros H. unfold exceeds. rewrite Rltb_false by assumption. reflexivity. Qed.

Lemma self_check_ok s :
  t_begin s <= t_end s ->
  pos_end s = vadd (pos_begin s) (vdiv (vscale (t_end s - t_begin s) (vadd (vel_begin s) (vel_end s))) 2) ->
  self_check s = Ok tt.
Proof.
  intros Ht Hp. unfold self_check, predicted_end. rewrite <- Hp, vsub_self, norm3_vzero.
  rewrite (Rltb_false (1 / 1000000) 0) by lra. rewrite (Rltb_false (t_end s) (t_begin s)) by lra. reflexivity.
Qed.

Lemma ramp_self_check d a vm s v0 v1 : ramp d a vm s v0 v1 -> self_check s = Ok tt.
Proof.
  unfold ramp. intros (Ht & Hb & He & Hp & _). apply self_check_ok; [lra|].
  rewrite Hp, Hb, He. f_equal. vec.
Qed.

Lemma motion_no_warning d eo a vm t p v segs t' p' v' :
  is_dir d eo -> 0 < vm ->
  motion d a vm t p v segs t' p' v' ->
  existsb (fun s => match self_check_settings vm s with Ok _ => false | Err _ => true end) segs = false.
Proof.
  intros Hd Hvm. induction 1 as [|t p v s v1 segs t' p' v' Ht Hp Hr Hm IH]; [reflexivity|].
  simpl. rewrite IH, orb_false_r. unfold self_check_settings.
  rewrite (ramp_self_check _ _ _ _ _ _ Hr); cbn [bind].
  unfold ramp in Hr. destruct Hr as (_ & Hb & He & _ & Hv & Hv1 & _).
  rewrite Hb, He, !(dir_norm3 d eo) by tauto.
  rewrite !exceeds_false; [reflexivity | destruct eo; lra | destruct eo; lra].
Qed.

Lemma wf_no_warning b t p t' p' s e : wf_block b t p t' p' s e -> adherence_warning b = false.
Proof.
  intros H. destruct H as [t p t' v0 v1 d eo dist Hp Hd Hdir Hmd Hpos Hsc Ha Hs Hne Hm Hen Hcap | t p x Hp Hdt Hs Hsegs].
  - eapply motion_no_warning; eassumption.
  - unfold adherence_warning. rewrite Hsegs. simpl. unfold self_check_settings.
    rewrite self_check_ok; cbn [bind].
    + simpl. rewrite norm3_vzero, !exceeds_false by lra. reflexivity.
    + simpl; lra.
    + simpl. vec.
Qed.

(** ** Competing speed profiles *)
Definition feas (b : block) (w0 w1 : R) : Prop := profile_step (b_A b) (b_B b) w0 w1.

Lemma feas_bound b w0 w1 sn dist eo : eo = false ->
  move_distance (b_A b) (b_B b) = (dist, eo) -> feas b w0 w1 ->
  w1 <= sn -> 0 < k_acc (b_B b) -> 0 < k_speed (b_B b) -> 0 < dist ->
  w1 <= k_speed (b_B b) /\ w0 * w0 <= sn * sn + 2 * k_acc (b_B b) * dist.
Proof.
  intros -> Hmd (Hw0 & Hw1 & [[Hz1 Hz2]|(_ & Hdi & Hv & Hv' & Hab)]) Hw Ha Hs Hd.
  - assert (0 < k_acc (b_B b) * dist) by (apply Rmult_lt_0_compat; assumption).
    subst. split; [lra|]. nra.
  - split; [assumption|]. unfold move_distance in Hmd.
    destruct (Reqb (t_distance (k_pos (b_B b)) (k_pos (b_A b)) false) 0); [discriminate|].
    assert (E : t_distance (k_pos (b_B b)) (k_pos (b_A b)) false = dist) by congruence.
    unfold t_distance in E. rewrite E in Hab.
    assert (w1 * w1 <= sn * sn) by nra.
    unfold Rabs in Hab; destruct (Rcase_abs (w1 * w1 - w0 * w0)); lra.
Qed.

(** Static part of a block. *)
Definition st (b : block) := (b_A b, b_B b, b_dir b, b_extr b, b_JD b).
Lemma feas_st b b' w0 w1 : st b = st b' -> feas b w0 w1 -> feas b' w0 w1.
Proof. unfold st, feas. intros E. injection E as -> -> _ _ _. auto. Qed.

Section Chain.
Variable p0 : vec4.

(** Blocks that are done, nearest first: joined in time and position, speeds
    matched to within the tolerance, and not slower than the profile. *)
Inductive done_chain : list block -> list R -> R -> vec4 -> R -> Prop :=
| done_nil : done_chain [] [] 0 p0 0
| done_cons b prevs w wl t p e0 t' p' s e :
    done_chain prevs wl t p e0 ->
    (prevs = [] -> k_pos (b_A b) = p0) ->
    wf_block b t p t' p' s e ->
    s <= e0 -> e0 - s <= tol ->
    feas b (hd 0 wl) w -> hd 0 wl <= s -> w <= e ->
    done_chain (b :: prevs) (w :: wl) t' p' e.

Lemma done_previous prevs wl t p e0 b :
  done_chain prevs wl t p e0 -> (prevs = [] -> k_pos (b_A b) = p0) ->
  exists pv, previous_segment (b_A b) (hd_error prevs) = Ok pv /\
             t_end pv = t /\ pos_end pv = p /\ norm3 (vel_end pv) = e0.
Proof.
  intros H Hp0. destruct H as [|b' prevs w wl t p e0 t' p' s e H1 H2 H3 _ _ _ _ _].
  - simpl. eexists; split; [reflexivity|]. simpl. rewrite Hp0 by reflexivity.
    repeat split. apply norm3_vzero.
  - simpl. exact (wf_last _ _ _ _ _ _ _ H3).
Qed.

Lemma done_last_w prevs wl t p e : done_chain prevs wl t p e -> hd 0 wl <= e.
Proof. intros H. destruct H; simpl; lra. Qed.

Lemma check_continuity_ok s n : pos_end s = pos_begin n -> check_continuity s n = Ok tt.
Proof. intros H. unfold check_continuity. rewrite H, veqb_refl. reflexivity. Qed.

Lemma flag_correct_false s n e b :
  norm3 (vel_end s) = e -> norm3 (vel_begin n) = b -> b <= e -> e - b <= tol -> flag_correct s n = false.
Proof.
  intros He Hb H1 H2. unfold flag_correct. rewrite He, Hb.
  rewrite (Rabs_right (e - b)) by lra. rewrite (Rltb_false tol (e - b)) by lra. apply andb_false_r.
Qed.
Lemma flag_correct_true s n e b :
  norm3 (vel_end s) = e -> norm3 (vel_begin n) = b -> e - b > tol -> flag_correct s n = true.
Proof.
  intros He Hb H1. unfold flag_correct. rewrite He, Hb.
  rewrite (Rabs_right (e - b)) by lra. rewrite (Rltb_true tol (e - b)) by lra.
  replace (Reqb e b) with false; [reflexivity|]. symmetry. apply Reqb_neq. lra.
Qed.

(** The tail of self_correction once the block is settled: shift the next one. *)
Lemma settle prevs wl b w t' p' e n wn tn tn' pn sn en s1 m :
  done_chain (b :: prevs) (w :: wl) t' p' e ->
  wf_block n tn p' tn' pn sn en ->
  sn <= e -> e - sn <= tol -> feas n w wn -> w <= sn -> wn <= en ->
  last_seg (b_segs b) = Ok s1 -> first_seg (b_segs n) = Ok m ->
  exists n' m1, timeshift (t_end s1 - t_begin m) n = n' /\
    first_seg (b_segs n') = Ok m1 /\ check_continuity s1 m1 = Ok tt /\
    done_chain (n' :: b :: prevs) (wn :: w :: wl) (tn' + (t' - tn)) pn en /\ st n' = st n.
Proof.
  intros Hd Hn Hs1 Hs2 Hf Hw1 Hw2 Hl Hm.
  eexists. 
  inversion Hd as [|b' prevs' w' wl' t p e0 t1 p1 s0 e1 Hd0 Hp0 Hwf Hle Htol Hfe Hw3 Hw4]; subst.
  destruct (wf_last _ _ _ _ _ _ _ Hwf) as (x & Hx & Hxt & Hxp & _).
  rewrite Hl in Hx; injection Hx as <-.
  destruct (wf_first _ _ _ _ _ _ _ Hn) as (y & Hy & Hyt & Hyp & _).
  rewrite Hm in Hy; injection Hy as <-.
  rewrite Hxt, Hyt.
  pose proof (wf_shift _ _ _ _ _ _ _ (t' - tn) Hn) as Hn'.
  replace (tn + (t' - tn)) with t' in Hn' by ring.
  destruct (wf_first _ _ _ _ _ _ _ Hn') as (z & Hz & Hzt & Hzp & _).
  exists z. split; [reflexivity|]. split; [exact Hz|]. split.
  - apply check_continuity_ok. rewrite Hxp, Hzp. reflexivity.
  - split; [|reflexivity].
    apply done_cons with (t := t') (p := p') (e0 := e) (s := sn); auto; try discriminate.
Qed.

Lemma self_correction_ok : forall prevs wl b w t' p' e n wn tn tn' pn sn en,
  done_chain (b :: prevs) (w :: wl) t' p' e ->
  wf_block n tn p' tn' pn sn en ->
  sn <= e -> feas n w wn -> w <= sn -> wn <= en ->
  exists prevs' b' n' tf,
    self_correction prevs b n = Ok (prevs', b', n', false) /\
    done_chain (n' :: b' :: prevs') (wn :: w :: wl) tf pn en /\
    map st (n' :: b' :: prevs') = map st (n :: b :: prevs).
Proof.
  induction prevs as [|pb ps IH]; intros wl b w t' p' e n wn tn tn' pn sn en Hd Hn Hse Hf Hw Hwn.
  all: inversion Hd as [|b' prevs' w' wl' t p e0 t1 p1 s0 e1 Hd0 Hp0 Hwf Hle Htol Hfe Hw3 Hw4]; subst.
  all: destruct (wf_last _ _ _ _ _ _ _ Hwf) as (sl & Hsl & Hslt & Hslp & Hsle).
  all: destruct (wf_first _ _ _ _ _ _ _ Hn) as (m & Hm & Hmt & Hmp & Hms).
  all: cbn [self_correction]; rewrite Hsl; cbn [bind]; rewrite Hm; cbn [bind].
  all: destruct (Rle_lt_dec (e - sn) tol) as [Hflag|Hflag].
  (* no correction needed *)
  1,3: rewrite (flag_correct_false sl m e sn) by assumption; cbn [bind]; rewrite Hsl; cbn [bind];
       destruct (settle _ _ _ _ _ _ _ _ _ _ _ _ _ _ sl m Hd Hn Hse Hflag Hf Hw Hwn Hsl Hm)
         as (n' & m1 & Hn' & Hm1 & Hc & Hd' & Hst);
       rewrite Hn', Hm1; cbn [bind]; rewrite Hc; cbn [bind];
       rewrite (wf_no_warning _ _ _ _ _ _ _ Hwf);
       do 4 eexists; split; [reflexivity|]; split; [exact Hd'|]; cbn [map]; rewrite Hst; reflexivity.
  (* correction: the block is a move *)
  all: rewrite (flag_correct_true sl m e sn) by (assumption || lra).
  all: pose proof (wf_nonneg _ _ _ _ _ _ _ Hn) as [Hsn0 _].
  all: destruct (done_previous _ _ _ _ _ b Hd0 Hp0) as (pv & Hpv & Hpvt & Hpvp & Hpve).
  all: pose proof (wf_nonneg _ _ _ _ _ _ _ Hwf) as [Hs00 He00].
  all: assert (He0 : 0 <= e0) by lra.
  all: inversion Hwf as [t2 p2 t2' v0 v1 d eo dist Hpa Hdr Hdir Hmd Hpos Hsc Ha Hs Hne Hmo Hen Hcap Ht2 Hp2 Ht2' Hp2' Hs2 He2
                        | t2 p2 x Hpa Hx Hs Hsegs Ht2 Hp2 Ht2' Hp2' Hs2 He2]; subst; [|exfalso; lra].
  all: destruct eo; [exfalso; lra|].
  all: apply swift_reach in Hen; [|assumption | lra].
  all: set (a := k_acc (b_B b)) in *; set (vt := k_speed (b_B b)) in *.
  all: destruct (motion_speed_range _ _ _ _ _ _ _ _ _ _ Hmo Hne) as [Hv0r Hv1r].
  all: destruct (move_maker2_spec (b_A b) (b_B b) d pv (norm3 (vel_begin m)) dist false Hmd Hdir Hpos Ha Hs)
         as (segs & ty & T & Hmm & Hplan); [fold vt; lra|].
  all: unfold remake; rewrite Hdr, Hpv; cbn [bind]; rewrite Hmm; cbn [bind b_type set_segs].
  all: set (sn := norm3 (vel_begin m)) in *; set (e0 := norm3 (vel_end pv)) in *;
       set (vb := Rmin e0 vt) in *.
  all: fold a vt vb in Hplan.
  all: assert (Hvb : 0 <= vb <= vt) by (unfold vb; split; [apply Rmin_glb; lra | apply Rmin_r]).
  all: assert (Hvbe : vb <= e0) by apply Rmin_l.
  all: assert (Hv0b : v0 <= vb) by (unfold vb; apply Rmin_glb; lra).
  all: assert (Had : 0 < a * dist) by (apply Rmult_lt_0_compat; assumption).
  all: assert (Hsnb : sn * sn < vb * vb + 2 * a * dist) by nra.
  all: destruct Hplan as [Hpne Hpmo Hpsi Hptr _ _ Hpsw].
  all: rewrite exit_speed_full in Hpmo, Hpsw by (assumption || lra).
  (* the profile stays below *)
  all: assert (Hfw : w <= vt /\ hd 0 wl * hd 0 wl <= sn * sn + 2 * a * dist).
  all: try (unfold a, vt; apply (feas_bound b _ _ _ _ false eq_refl Hmd Hfe); assumption).
  all: assert (Hw0n : 0 <= hd 0 wl) by (destruct Hfe; assumption).
  all: assert (Hwvb : hd 0 wl <= vb) by lra.
  all: set (b1 := set_segs b segs (Some ty)).
  all: assert (Hen1 : sn * sn <= entry_speed a dist vb sn * entry_speed a dist vb sn + 2 * a * dist).
  all: try (unfold entry_speed; apply Rmin_case; [lra|]; rewrite sq_sqrt by nra; lra).
  all: assert (Hwf1 : wf_block b1 (t_end pv) (pos_end pv) T (vadd (pos_end pv) (vscale dist d))
                               (entry_speed a dist vb sn) sn).
  all: try (apply wf_move with (eo := false) (d := d) (dist := dist) (b := b1); simpl; first [assumption | lra]).
  all: rewrite Hp2' in Hwf1.
  all: assert (Hwe : hd 0 wl <= entry_speed a dist vb sn).
  all: try (unfold entry_speed; apply Rmin_glb; [assumption | apply le_sqrt_sq; [assumption | apply Hfw]]).
  all: assert (Hve : vb = entry_speed a dist vb sn -> e0 - entry_speed a dist vb sn <= tol).
  all: try (intros <-; unfold vb, Rmin; destruct (Rle_dec e0 vt); lra).
  all: assert (Hnotsingle : ty <> Single -> entry_speed a dist vb sn = vb).
  all: try (intros Hty; apply entry_speed_full; [lra|];
            destruct (Rle_lt_dec (vb * vb) (sn * sn + 2 * a * dist)) as [Hok|Hbad]; [assumption|];
            exfalso; apply Hty, Hpsi; rewrite Rabs_right; lra).
  - (* no previous block: starts at rest, cannot be a single ramp *)
    assert (Hty : ty <> Single).
    { intros ->. inversion Hd0; subst. assert (E : e0 = 0) by congruence.
      destruct Hpsi as [Hpsi _]. specialize (Hpsi eq_refl).
      assert (vb = 0) by lra. 
      unfold Rabs in Hpsi; destruct (Rcase_abs (vb * vb - sn * sn)); nra. }
    destruct ty; [| |contradiction].
    all: cbn [bind].
    all: destruct (wf_last _ _ _ _ _ _ _ Hwf1) as (s1 & Hs1 & _ & _ & _).
    all: fold b1; rewrite Hs1; cbn [bind].
    all: assert (Hd1 : done_chain [b1] (w :: wl) T (pos_end sl) sn)
        by (econstructor; [exact Hd0 | exact Hp0 | exact Hwf1 | rewrite Hnotsingle by discriminate; assumption
                           | apply Hve; symmetry; apply Hnotsingle; discriminate
                           | exact (feas_st b b1 _ _ eq_refl Hfe) | exact Hwe | lra]).
    all: destruct (settle [] wl b1 w T (pos_end sl) sn n wn (t_begin m) tn' pn sn en s1 m
                          Hd1 Hn) as (n' & m1 & Hn' & Hm1 & Hc & Hd' & Hst); try assumption; try lra.
    all: rewrite Hn', Hm1; cbn [bind]; rewrite Hc; cbn [bind];
         fold b1; rewrite (wf_no_warning _ _ _ _ _ _ _ Hwf1);
         do 4 eexists; split; [reflexivity|]; split; [exact Hd'|]; cbn [map]; rewrite Hst; reflexivity.
  - destruct ty.
    1,2: cbn [bind];
         destruct (wf_last _ _ _ _ _ _ _ Hwf1) as (s1 & Hs1 & _ & _ & _);
         fold b1; rewrite Hs1; cbn [bind];
         assert (Hd1 : done_chain (b1 :: pb :: ps) (w :: wl) T (pos_end sl) sn)
        by (econstructor; [exact Hd0 | exact Hp0 | exact Hwf1 | rewrite Hnotsingle by discriminate; assumption
                           | apply Hve; symmetry; apply Hnotsingle; discriminate
                           | exact (feas_st b b1 _ _ eq_refl Hfe) | exact Hwe | lra]);
         destruct (settle (pb :: ps) wl b1 w T (pos_end sl) sn n wn (t_begin m) tn' pn sn en s1 m
                          Hd1 Hn) as (n' & m1 & Hn' & Hm1 & Hc & Hd' & Hst); try assumption; try lra;
         rewrite Hn', Hm1; cbn [bind]; rewrite Hc; cbn [bind];
         fold b1; rewrite (wf_no_warning _ _ _ _ _ _ _ Hwf1);
         do 4 eexists; (split; [reflexivity|]); (split; [exact Hd'|]); cbn [map]; rewrite Hst; reflexivity.
    (* single ramp: the previous block has to slow down *)
    assert (Hentry : entry_speed a dist vb sn <= e0).
    { unfold entry_speed. pose proof (Rmin_l vb (sqrt (sn * sn + 2 * a * dist))). lra. }
    inversion Hd0 as [|b'' prevs'' w'' wl'' t3 p3 e3 t3' p3' s3 e3' Hd3 Hp3 Hwf3 Hle3 Htol3 Hfe3 Hw33 Hw34]; subst.
    cbn [hd] in *.
    destruct (IH wl'' pb w'' (t_end pv) (pos_end pv) e0 b1 w (t_end pv) T
                 (pos_end sl) (entry_speed a dist vb sn) sn Hd0 Hwf1 Hentry
                 (feas_st b b1 _ _ eq_refl Hfe) Hwe Hw)
      as (ps' & p' & b2 & tf & Hsc2 & Hd2 & Hst2).
    fold b1. rewrite Hsc2. cbn [bind].
    inversion Hd2 as [|b4 prevs4 w4 wl4 t4 p4 e4 t4' p4' s4 e4' Hd4 Hp4 Hwf4 Hle4 Htol4 Hfe4 Hw43 Hw44]; subst.
    destruct (wf_last _ _ _ _ _ _ _ Hwf4) as (s1 & Hs1 & _ & _ & _).
    rewrite Hs1; cbn [bind].
    destruct (settle (p' :: ps') (w'' :: wl'') b2 w tf (pos_end sl) sn n wn (t_begin m) tn' pn sn en s1 m
                     Hd2 Hn) as (n' & m1 & Hn' & Hm1 & Hc & Hd' & Hst); try assumption; try lra.
    rewrite Hn', Hm1; cbn [bind]; rewrite Hc; cbn [bind].
    rewrite (wf_no_warning _ _ _ _ _ _ _ Hwf4).
    do 4 eexists. split; [reflexivity|]. split; [exact Hd'|].
    cbn [map] in Hst2 |- *. rewrite Hst. f_equal. exact Hst2.
Qed.

(** Blocks still to be done, in order; their times are arbitrary. *)
Inductive raw_chain : vec4 -> R -> R -> list block -> list R -> Prop :=
| raw_nil p e w : raw_chain p e w [] []
| raw_cons p e w b t t' p' s e' w' bl wl :
    wf_block b t p t' p' s e' -> s <= e -> feas b w w' -> w <= s -> w' <= e' ->
    raw_chain p' e' w' bl wl ->
    raw_chain p e w (b :: bl) (w' :: wl).

Lemma correct_from_ok : forall rest wr prevs wl b w t p e,
  done_chain (b :: prevs) (w :: wl) t p e ->
  raw_chain p e w rest wr ->
  exists bl tf pf ef,
    correct_from prevs b rest = Ok (bl, false) /\
    done_chain (rev bl) (rev wr ++ w :: wl) tf pf ef /\
    map st bl = map st (rev (b :: prevs) ++ rest).
Proof.
  induction rest as [|n rest IH]; intros wr prevs wl b w t p e Hd Hr.
  - inversion Hr; subst. simpl correct_from.
    inversion Hd as [|b' prevs' w' wl' t1 p1 e0 t1' p1' s0 e1 Hd0 Hp0 Hwf Hle Htol Hfe Hw3 Hw4]; subst.
    rewrite (wf_no_warning _ _ _ _ _ _ _ Hwf).
    do 4 eexists. split; [reflexivity|]. split.
    + change (rev prevs ++ [b]) with (rev (b :: prevs)). rewrite rev_involutive. exact Hd.
    + rewrite app_nil_r. reflexivity.
  - inversion Hr as [|p1 e1 w1 b1 t1 t1' p1' s1 e1' w1' bl1 wl1 Hwf Hse Hf Hw Hw' Hr']; subst.
    destruct (self_correction_ok _ _ _ _ _ _ _ _ _ _ _ _ _ _ Hd Hwf Hse Hf Hw Hw')
      as (prevs' & b' & n' & tf & Hsc & Hd' & Hst).
    cbn [correct_from]. rewrite Hsc; cbn [bind].
    destruct (IH wl1 (b' :: prevs') (w :: wl) n' w1' tf p1' e1' Hd' Hr') as (bl & tf2 & pf & ef & Hc & Hd2 & Hst2).
    rewrite Hc; cbn [bind].
    do 4 eexists. split; [reflexivity|]. split.
    + simpl. rewrite <- app_assoc. simpl. exact Hd2.
    + rewrite Hst2. rewrite !map_app, !map_rev.
      change (map st (n' :: b' :: prevs')) with (map st (n' :: b' :: prevs')).
      rewrite Hst. cbn [map rev]. rewrite <- !app_assoc. reflexivity.
Qed.

End Chain.
