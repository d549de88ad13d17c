(** The generic planner on the real numbers is the planner of Planner.v. *)
From Coq Require Import Reals Lra.
From Verif Require Import Py Vec Segment StateGen Junction Planner Interp Generic SpecGeneric.
Open Scope R_scope.

Lemma rmap_bind {A B C} (f : B -> C) (x : res A) (g : A -> res B) : rmap f (x <- x ;; g x) = (x <- x ;; rmap f (g x)).
Proof. destruct x; reflexivity. Qed.
Lemma bind_rmap {A B C} (f : A -> B) (x : res A) (g : B -> res C) : (y <- rmap f x ;; g y) = (x <- x ;; g (f x)).
Proof. destruct x; reflexivity. Qed.
Lemma bind_ext {A B} (x : res A) (f g : A -> res B) : (forall a, x = Ok a -> f a = g a) -> (a <- x ;; f a) = (a <- x ;; g a).
Proof. intros H. destruct x; [apply H|]; reflexivity. Qed.

Lemma kmax_R a b : kmax Rk a b = Rmax a b.
Proof. unfold kmax, Rmax, Rltb. cbn [k_ltb Rk]. unfold Rltb. destruct (Rlt_dec a b), (Rle_dec a b); cbn in *; lra. Qed.
Lemma kmin_R a b : kmin Rk a b = Rmin a b.
Proof. unfold kmin, Rmin. cbn [k_ltb Rk]. unfold Rltb. destruct (Rlt_dec b a), (Rle_dec a b); cbn in *; lra. Qed.

Lemma norm_dir_R v : option_map to4 (gget_norm_dir Rk v) = get_norm_dir (to4 v).
Proof.
  unfold gget_norm_dir, get_norm_dir. change (gnorm3 Rk v) with (norm3 (to4 v)). change (gnorm4 Rk v) with (norm4 (to4 v)).
  change (k_ltb Rk) with Rltb. change (k0 Rk) with 0. destruct (Rltb 0 (norm3 (to4 v))); [reflexivity|].
  destruct (Rltb 0 (norm4 (to4 v))); reflexivity.
Qed.
Lemma check_R s : gself_check Rk s = self_check (toseg s).
Proof. reflexivity. Qed.
Lemma mk_segment_R t0 t1 p0 p1 v0 v1 :
  rmap toseg (gmk_segment Rk t0 t1 p0 p1 v0 v1) = mk_segment t0 t1 (to4 p0) (to4 p1) (to4 v0) (to4 v1).
Proof. unfold gmk_segment, mk_segment. cbv zeta. rewrite check_R. unfold toseg. cbn [gt_begin gt_end gpos_begin gpos_end gvel_begin gvel_end].
  destruct (self_check _); reflexivity. Qed.
Lemma check_settings_R v s : gself_check_settings Rk v s = self_check_settings v (toseg s).
Proof. reflexivity. Qed.

Lemma connect_R A B : to4 (gconnect_state Rk A B) = connect_state (tok A) (tok B).
Proof.
  unfold gconnect_state, connect_state. cbv zeta. change (k_ltb Rk) with Rltb. change (k0 Rk) with 0. change (k_abs Rk) with Rabs.
  change (gnorm3 Rk (gvsub Rk (gk_pos Rk B) (gk_pos Rk A))) with (norm3 (vsub (k_pos (tok B)) (k_pos (tok A)))).
  change (ge Rk (gvsub Rk (gk_pos Rk B) (gk_pos Rk A))) with (ve (vsub (k_pos (tok B)) (k_pos (tok A)))).
  destruct (Rltb 0 _); [reflexivity|]. destruct (Rltb 0 _); reflexivity.
Qed.
Lemma connect_opt_R A B : to4 (gconnect_state_opt Rk A B) = connect_state_opt (option_map tok A) (tok B).
Proof. destruct A; [apply connect_R|reflexivity]. Qed.
Lemma next_R B rest : tok (gfind_next_state Rk B rest) = find_next_state (tok B) (map tok rest).
Proof.
  induction rest as [|s rest IH]; [reflexivity|]. destruct rest as [|s' rest']; [reflexivity|].
  change (tok (if Rltb 0 (t_distance (k_pos (tok B)) (k_pos (tok s)) true) then s else gfind_next_state Rk B (s' :: rest')) =
          if Rltb 0 (t_distance (k_pos (tok B)) (k_pos (tok s)) true) then tok s else find_next_state (tok B) (map tok (s' :: rest'))).
  rewrite <- IH. destruct (Rltb 0 (t_distance (k_pos (tok B)) (k_pos (tok s)) true)); reflexivity.
Qed.
Definition tojunction (j : gjunction Rk) : junction := Junction (to4 (gtarget_vel Rk j)) (to4 (gvel_next Rk j)) (gjt_distance Rk j).
Lemma junction_R A B rest : tojunction (gmk_junction Rk A B rest) = mk_junction (option_map tok A) (tok B) (map tok rest).
Proof.
  unfold gmk_junction, mk_junction, tojunction. cbn [gtarget_vel gvel_next gjt_distance]. rewrite connect_opt_R, connect_R, next_R.
  f_equal. rewrite <- next_R. reflexivity.
Qed.

Lemma calc_JD_R v0 v1 acc jerk speed : gcalc_JD Rk v0 v1 acc jerk speed = calc_JD (to4 v0) (to4 v1) acc jerk speed.
Proof. reflexivity. Qed.
Lemma calc_jerk_R v0 v1 jerk : gcalc_jerk Rk v0 v1 jerk = calc_jerk (to4 v0) (to4 v1) jerk.
Proof. reflexivity. Qed.
Lemma calc_klipper_R v0 v1 dist acc jerk speed :
  gcalc_klipper Rk v0 v1 dist acc jerk speed = calc_klipper (to4 v0) (to4 v1) dist acc jerk speed.
Proof. unfold gcalc_klipper. cbv zeta. rewrite !kmax_R, !kmin_R. reflexivity. Qed.
Lemma mka_jerk_R a b : gmka_jerk Rk a b = mka_jerk a b.
Proof. unfold gmka_jerk. rewrite !kmax_R. reflexivity. Qed.
Lemma mka_axis_R jerk fac st ax : gmka_axis Rk jerk fac st ax = mka_axis jerk fac st ax.
Proof. destruct st as ((vmax, vfac), lim), ax as (a, b). unfold gmka_axis, mka_axis. rewrite mka_jerk_R. reflexivity. Qed.
Lemma fold_ext {A B} (f g : A -> B -> A) : (forall a b, f a b = g a b) -> forall l a, fold_left f l a = fold_left g l a.
Proof. intros H l. induction l as [|b l IH]; intros a; [reflexivity|]. cbn [fold_left]. rewrite H. apply IH. Qed.
Lemma calc_mka_R v0 v1 jerk : gcalc_mka Rk v0 v1 jerk = calc_mka (to4 v0) (to4 v1) jerk.
Proof. unfold gcalc_mka. cbv zeta. rewrite kmin_R. rewrite (fold_ext _ (mka_axis jerk (if Rltb 0 (Rmin (norm3 (to4 v0)) (norm3 (to4 v1))) then Rmin (norm3 (to4 v0)) (norm3 (to4 v1)) / norm3 (to4 v0) else 0)));
  [reflexivity|]. intros. apply mka_axis_R. Qed.
Lemma junction_vel_R fw j B : gjunction_vel Rk fw j B = junction_vel fw (tojunction j) (tok B).
Proof.
  destruct fw; cbn [gjunction_vel junction_vel tojunction target_vel vel_next jt_distance tok k_acc k_jerk k_speed].
  - apply calc_JD_R. - apply calc_klipper_R. - apply calc_jerk_R. - apply calc_mka_R. - reflexivity.
Qed.

Lemma last_seg_R l : rmap toseg (glast_seg Rk l) = last_seg (map toseg l).
Proof. unfold glast_seg, last_seg. rewrite <- map_rev. destruct (rev l); reflexivity. Qed.
Lemma first_seg_R l : rmap toseg (gfirst_seg Rk l) = first_seg (map toseg l).
Proof. destruct l; reflexivity. Qed.
Lemma keep_seg_R s : map toseg (gkeep_seg Rk s) = keep_seg (toseg s).
Proof.
  unfold gkeep_seg, keep_seg. change (gis_travel Rk (gpos_end Rk s) (gpos_begin Rk s)) with (is_travel (pos_end (toseg s)) (pos_begin (toseg s))).
  change (gpos_is_extruding Rk (gpos_end Rk s) (gpos_begin Rk s) false) with (pos_is_extruding (pos_end (toseg s)) (pos_begin (toseg s)) false).
  destruct (_ || _); reflexivity.
Qed.
Definition tosegs (x : list (gsegment Rk) * btype) : list segment * btype := (map toseg (fst x), snd x).

Ltac one_segment :=
  match goal with
  | |- rmap _ (bind (gmk_segment Rk ?a ?b ?c ?d ?e ?f) _) = _ =>
    let H := fresh in pose proof (mk_segment_R a b c d e f) as H;
    match goal with |- _ = bind ?y _ => change y with (mk_segment a b (to4 c) (to4 d) (to4 e) (to4 f)) end;
    rewrite <- H, rmap_bind, bind_rmap; clear H; apply bind_ext; intros ? _
  end.
Lemma trapezoid_R dir pv acc d vb vt ve x :
  rmap tosegs (gtrapezoid Rk dir pv acc d vb vt ve x) = trapezoid (to4 dir) (toseg pv) acc d vb vt ve x.
Proof.
  unfold gtrapezoid, trapezoid. cbv zeta. do 3 one_segment. unfold tosegs. cbn [rmap fst snd]. rewrite !map_app, !keep_seg_R. reflexivity.
Qed.
Lemma triang_R dir pv acc vb vp ve : rmap tosegs (gtriang Rk dir pv acc vb vp ve) = triang (to4 dir) (toseg pv) acc vb vp ve.
Proof. unfold gtriang, triang. cbv zeta. do 2 one_segment. unfold tosegs. cbn [rmap fst snd]. rewrite !map_app, !keep_seg_R. reflexivity. Qed.
Lemma singl_up_R dir pv acc vb ve : rmap tosegs (gsingl_up Rk dir pv acc vb ve) = singl_up (to4 dir) (toseg pv) acc vb ve.
Proof. unfold gsingl_up, singl_up. cbv zeta. one_segment. unfold tosegs. cbn [rmap fst snd]. rewrite !keep_seg_R. reflexivity. Qed.
Lemma singl_dwn_R dir pv acc vb ve : rmap tosegs (gsingl_dwn Rk dir pv acc vb ve) = singl_dwn (to4 dir) (toseg pv) acc vb ve.
Proof. unfold gsingl_dwn, singl_dwn. cbv zeta. one_segment. unfold tosegs. cbn [rmap fst snd]. rewrite !keep_seg_R. reflexivity. Qed.
Lemma try_R {A B} (f : A -> B) x : rmap f (try_runtime x) = try_runtime (rmap f x).
Proof. destruct x as [|e]; [reflexivity|]. destruct e; reflexivity. Qed.
Lemma rmap_if {A B} (f : A -> B) (c : bool) x y : rmap f (if c then x else y) = if c then rmap f x else rmap f y.
Proof. destruct c; reflexivity. Qed.
Lemma move_distance_R A B : gmove_distance Rk A B = move_distance (tok A) (tok B).
Proof. reflexivity. Qed.
Lemma move_maker2_R A B dir pv ve : rmap tosegs (gmove_maker2 Rk A B dir pv ve) = move_maker2 (tok A) (tok B) (to4 dir) (toseg pv) ve.
Proof.
  unfold gmove_maker2, move_maker2. rewrite move_distance_R. destruct (move_distance (tok A) (tok B)) as (d, x). cbv zeta.
  rewrite rmap_if, try_R, !rmap_if, trapezoid_R, triang_R, singl_up_R, singl_dwn_R. reflexivity.
Qed.
Lemma previous_R A prev : rmap toseg (gprevious_segment Rk A prev) = previous_segment (tok A) (option_map toblock prev).
Proof. destruct prev; [apply last_seg_R|reflexivity]. Qed.

Lemma planner_block_R fw A B rest prev :
  rmap (option_map toblock) (gplanner_block Rk fw A B rest prev) =
  planner_block fw (option_map tok A) (tok B) (map tok rest) (option_map toblock prev).
Proof.
  unfold gplanner_block, planner_block. cbv zeta. rewrite rmap_if, rmap_bind. rewrite <- junction_R, <- junction_vel_R.
  change (k_leb Rk (gk_acc Rk B) (k0 Rk)) with (Rleb (k_acc (tok B)) 0). destruct (Rleb _ 0); [reflexivity|].
  set (j := gmk_junction Rk A B rest). cbn [tojunction target_vel]. rewrite <- norm_dir_R.
  change (not_zero (to4 (gtarget_vel Rk j))) with (gnot_zero Rk (gtarget_vel Rk j)).
  set (x := match A with Some a => _ | None => _ end). 
  set (y := match option_map tok A with Some a => _ | None => _ end).
  assert (E : y = rmap (option_map toblock) x).
  { subst x y. destruct A as [a|]; [|reflexivity]. cbn [option_map]. destruct (gget_norm_dir Rk (gtarget_vel Rk j)) as [d|]; [|reflexivity].
    cbn [option_map]. destruct (gnot_zero Rk (gtarget_vel Rk j)); [|reflexivity].
    rewrite rmap_bind, <- previous_R, bind_rmap. apply bind_ext. intros pv _. rewrite <- move_maker2_R, bind_rmap, rmap_bind.
    apply bind_ext. intros (segs, ty) _. reflexivity. }
  rewrite E, bind_rmap. apply bind_ext. intros b _. change (k_pause (tok B)) with (gk_pause Rk B).
  destruct (gk_pause Rk B) as [p|]; [|reflexivity]. destruct prev as [pb|]; [|reflexivity]. cbn [option_map].
  rewrite rmap_bind. change (b_segs (toblock pb)) with (map toseg (gb_segs Rk pb)). rewrite <- last_seg_R, bind_rmap. apply bind_ext.
  intros pv _. rewrite rmap_bind. change (mk_segment (t_end (toseg pv)) (t_end (toseg pv) + p) (pos_end (toseg pv)) (pos_end (toseg pv)) vzero vzero)
    with (mk_segment (gt_end Rk pv) (k_add Rk (gt_end Rk pv) p) (to4 (gpos_end Rk pv)) (to4 (gpos_end Rk pv)) (to4 (gzero Rk)) (to4 (gzero Rk))).
  rewrite <- mk_segment_R, bind_rmap. apply bind_ext. intros s _. destruct b as [b|]; [reflexivity|]. destruct A; reflexivity.
Qed.

Lemma add_block_R ob done : map toblock (gadd_block Rk ob done) = add_block (option_map toblock ob) (map toblock done).
Proof. destruct ob as [b|]; [|reflexivity]. unfold gadd_block. cbn [option_map add_block toblock b_segs]. destruct (gb_segs Rk b); reflexivity. Qed.
Lemma hd_map {A B} (f : A -> B) l : hd_error (map f l) = option_map f (hd_error l).
Proof. destruct l; reflexivity. Qed.
Lemma gen_blocks_R fw states : forall A done,
  rmap (map toblock) (ggen_blocks Rk fw A states done) = gen_blocks fw (option_map tok A) (map tok states) (map toblock done).
Proof.
  induction states as [|s rest IH]; intros A done; cbn [ggen_blocks map gen_blocks]; [cbn [rmap]; rewrite map_rev; reflexivity|].
  rewrite rmap_bind, hd_map, <- planner_block_R, bind_rmap. apply bind_ext. intros ob _. rewrite IH, add_block_R. reflexivity.
Qed.

Lemma remake_R prevs b v : rmap toblock (gremake Rk prevs b v) = remake (map toblock prevs) (toblock b) v.
Proof.
  unfold gremake, remake. cbn [toblock b_dir b_A b_B]. destruct (gb_dir Rk b) as [d|]; [|reflexivity]. cbn [option_map].
  rewrite rmap_bind, hd_map, <- previous_R, bind_rmap. apply bind_ext. intros pv _. rewrite <- move_maker2_R, bind_rmap, rmap_bind.
  apply bind_ext. intros (segs, ty) _. reflexivity.
Qed.
Lemma timeshift_R dt b : toblock (gtimeshift Rk dt b) = timeshift dt (toblock b).
Proof.
  unfold gtimeshift, timeshift, gset_segs, set_segs, toblock.
  cbn [gb_A gb_B gb_dir gb_segs gb_type gb_extr gb_JD b_A b_B b_dir b_segs b_type b_extr b_JD]. rewrite !map_map. reflexivity.
Qed.
Lemma warning_R b : gadherence_warning Rk b = adherence_warning (toblock b).
Proof.
  unfold gadherence_warning, adherence_warning. cbn [toblock b_segs]. induction (gb_segs Rk b) as [|s l IH]; [reflexivity|].
  cbn [existsb map]. rewrite IH, check_settings_R. reflexivity.
Qed.
Lemma flag_R s n : gflag_correct Rk s n = flag_correct (toseg s) (toseg n).
Proof. reflexivity. Qed.
Lemma continuity_R s n : gcheck_continuity Rk s n = check_continuity (toseg s) (toseg n).
Proof. reflexivity. Qed.
Definition tores4 (x : list (gblock Rk) * gblock Rk * gblock Rk * bool) : list block * block * block * bool :=
  let '(ps, b, n, w) := x in (map toblock ps, toblock b, toblock n, w).
Definition tores3 (x : list (gblock Rk) * gblock Rk * bool) : list block * block * bool :=
  let '(ps, b, w) := x in (map toblock ps, toblock b, w).
Lemma self_correction_R : forall prevs b n,
  rmap tores4 (gself_correction Rk prevs b n) = self_correction (map toblock prevs) (toblock b) (toblock n).
Proof.
  induction prevs as [|p ps IH]; intros b n; cbn [gself_correction map self_correction].
  all: rewrite rmap_bind; change (b_segs (toblock b)) with (map toseg (gb_segs Rk b)); change (b_segs (toblock n)) with (map toseg (gb_segs Rk n)).
  all: rewrite <- last_seg_R, bind_rmap; apply bind_ext; intros s _; rewrite rmap_bind, <- first_seg_R, bind_rmap; apply bind_ext; intros m _.
  all: rewrite rmap_bind, <- flag_R; change (norm3 (vel_begin (toseg m))) with (gnorm3 Rk (gvel_begin Rk m)).
  all: match goal with |- bind ?x _ = bind ?y _ =>
    assert (E : y = rmap tores3 x); [|rewrite E, bind_rmap; apply bind_ext; intros ((prevs1, b1), w1) _; cbn [tores3]] end.
  2, 4: rewrite rmap_bind; change (b_segs (toblock b1)) with (map toseg (gb_segs Rk b1)); rewrite <- last_seg_R, bind_rmap; apply bind_ext; intros s1 _;
    cbv zeta; change (t_end (toseg s1) - t_begin (toseg m)) with (k_sub Rk (gt_end Rk s1) (gt_begin Rk m)); rewrite <- timeshift_R;
    rewrite rmap_bind; change (b_segs (toblock ?z)) with (map toseg (gb_segs Rk z)); rewrite <- first_seg_R, bind_rmap; apply bind_ext; intros m1 _;
    rewrite rmap_bind, <- continuity_R; apply bind_ext; intros _ _; rewrite warning_R; reflexivity.
  all: destruct (gflag_correct Rk s m); [|reflexivity]; rewrite rmap_bind.
  - change (@nil block) with (map toblock []). rewrite <- remake_R, bind_rmap. apply bind_ext. intros b1 _. change (b_type (toblock b1)) with (gb_type Rk b1). destruct (gb_type Rk b1) as [[]|]; reflexivity.
  - change (toblock p :: map toblock ps) with (map toblock (p :: ps)). rewrite <- remake_R, bind_rmap. apply bind_ext. intros b1 _.
    change (b_type (toblock b1)) with (gb_type Rk b1). destruct (gb_type Rk b1) as [[]|]; try reflexivity.
    cbn [map]. rewrite rmap_bind, <- IH, bind_rmap. apply bind_ext. intros (((ps', p'), b2), w) _. reflexivity.
Qed.
Lemma correct_from_R rest : forall prevs b, rmap tores2 (gcorrect_from Rk prevs b rest) = correct_from (map toblock prevs) (toblock b) (map toblock rest).
Proof.
  induction rest as [|n rest IH]; intros prevs b; cbn [gcorrect_from map correct_from].
  - cbn [rmap]. unfold tores2. cbn [fst snd]. rewrite map_rev, warning_R. reflexivity.
  - rewrite rmap_bind, <- self_correction_R, bind_rmap. apply bind_ext. intros (((ps, b'), n'), w) _. cbn [tores4].
    change (toblock b' :: map toblock ps) with (map toblock (b' :: ps)). rewrite rmap_bind, <- IH, bind_rmap. apply bind_ext. intros (bl, w') _. reflexivity.
Qed.
Lemma simulate_R fw states : rmap tores2 (gsimulate Rk fw states) = simulate fw (map tok states).
Proof.
  unfold gsimulate, simulate, ggenerate_planner_blocks, generate_planner_blocks. rewrite rmap_bind. change (gen_blocks fw None (map tok states) []) with (gen_blocks fw (option_map tok None) (map tok states) (map toblock [])).
  rewrite <- gen_blocks_R, bind_rmap.
  apply bind_ext. intros bl _. destruct bl as [|b rest]; [reflexivity|]. exact (correct_from_R rest [] b).
Qed.
Lemma to_kstate_R (s : state Rops) : rmap tok (gto_kstate Rk s) = to_kstate s.
Proof.
  unfold gto_kstate, to_kstate. cbv zeta. rewrite rmap_bind. apply bind_ext. intros v _. rewrite rmap_bind. apply bind_ext. intros a _.
  rewrite rmap_bind. apply bind_ext. intros j _. rewrite rmap_bind. change (@pause (knum Rk) s) with (@pause Rops s). destruct (@pause Rops s) as [w|]; [|reflexivity]. destruct w; reflexivity.
Qed.
Lemma to_kstates_R (l : list (state Rops)) : rmap (map tok) (gto_kstates Rk l) = to_kstates l.
Proof.
  induction l as [|s l IH]; [reflexivity|]. cbn [gto_kstates to_kstates]. rewrite rmap_bind, <- to_kstate_R, bind_rmap. apply bind_ext.
  intros k _. rewrite rmap_bind, <- IH, bind_rmap. apply bind_ext. reflexivity.
Qed.
Lemma run_R fw lines (su : setup_values Rops) :
  rmap tores2 (grun Rk fw lines su) = (sts <- generate_states Rops lines su ;; ks <- to_kstates sts ;; simulate fw ks).
Proof.
  unfold grun. change (knum Rk) with Rops. rewrite rmap_bind. apply bind_ext. intros sts _. rewrite rmap_bind, <- to_kstates_R, bind_rmap.
  apply bind_ext. intros ks _. apply simulate_R.
Qed.
