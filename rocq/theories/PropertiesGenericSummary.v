(** C121: the extent, the greatest velocity and the summary computed with
    doubles.  Vocabulary: SpecGenericSummary.v. *)
From Coq Require Import String Bool Reals ZArith SpecFloat List Lia Lra.
From Verif Require Import Py PyFloat Vec Segment StateGen Junction Planner Interp Query Rounding SpecRounding RoundingProofs Generic SpecGeneric GenericProofs SpecKin SpecQuery SpecIEEE IEEEProofs PropertiesIEEE SpecBridge GenericQuery SpecGenericQuery
  PropertiesFloat BridgeProofs BridgePlanProofs RealFacts MoveProofs FloatDriftProofs QueryFloatProofs BridgeRunProofs PropertiesBridge PropertiesGenericQuery PropertiesGenericTexts SpecShape PropertiesShape GenericMetrics SpecGenericMetrics PropertiesGenericMetrics GenericSummary SpecGenericSummary Repr.
Import ListNotations.
Open Scope R_scope.

(** * With exact numbers they are those of Query.v *)
Lemma max_R x y : gmax Rk x y = Rmax x y.
Proof. unfold gmax. cbn [Rk k_ltb]. unfold Rltb. destruct (Rlt_dec x y); [rewrite Rmax_right by lra|rewrite Rmax_left by lra]; reflexivity. Qed.
Lemma min_R x y : gmin Rk x y = Rmin x y.
Proof. unfold gmin. cbn [Rk k_ltb]. unfold Rltb. destruct (Rlt_dec y x); [rewrite Rmin_right by lra|rewrite Rmin_left by lra]; reflexivity. Qed.
Lemma amax_R l : gamax Rk l = amax l.
Proof. destruct l as [|x l]; [reflexivity|]. cbn. f_equal. revert x. induction l as [|y l IH]; intros x; [reflexivity|]. cbn [fold_left]. rewrite max_R. apply IH. Qed.
Lemma amin_R l : gamin Rk l = amin l.
Proof. destruct l as [|x l]; [reflexivity|]. cbn. f_equal. revert x. induction l as [|y l IH]; intros x; [reflexivity|]. cbn [fold_left]. rewrite min_R. apply IH. Qed.
Lemma filter_R bl : map toblock (filter (gb_extr Rk) bl) = filter b_extr (map toblock bl).
Proof. induction bl as [|b bl IH]; [reflexivity|]. cbn [filter map]. change (b_extr (toblock b)) with (gb_extr Rk b). destruct (gb_extr Rk b); cbn [map]; rewrite IH; reflexivity. Qed.
Lemma points_R (f : vec4 -> R) (g : gvec Rk -> K Rk) bl : (forall v, g v = f (to4 v)) -> map g (gextruding_points Rk bl) = map f (extruding_points (map toblock bl)).
Proof. intros E. unfold gextruding_points, extruding_points. rewrite <- filter_R, !map_app, !map_map. f_equal; apply map_ext; intros b; apply E. Qed.
Lemma scaling_R s unit : gget_scaling_factor Rk s unit = get_scaling_factor (tosim s) unit.
Proof. apply factor_R. Qed.
Lemma speeds_R (f : vec4 -> R) (g : gvec Rk -> K Rk) segs : (forall v, g v = f (to4 v)) -> gaxis_speeds Rk g segs = axis_speeds f (map toseg segs).
Proof. intros E. unfold gaxis_speeds, axis_speeds. induction segs as [|s segs IH]; [reflexivity|]. cbn [flat_map map app]. rewrite IH, !E. reflexivity. Qed.
Lemma maxima_R bl : gblock_maxima Rk bl = block_maxima (map toblock bl).
Proof.
  induction bl as [|b bl IH]; [reflexivity|]. cbn [gblock_maxima block_maxima map]. unfold gextrusion_block_max_vel, extrusion_block_max_vel. change (b_segs (toblock b)) with (map toseg (gb_segs Rk b)).
  rewrite !amax_R, (speeds_R vx (gx Rk)), (speeds_R vy (gy Rk)), (speeds_R vz (gz Rk)) by reflexivity. destruct (amax (axis_speeds vx _)); [|reflexivity]. destruct (amax (axis_speeds vy _)); [|reflexivity]. destruct (amax (axis_speeds vz _)); [|reflexivity]. cbn [bind]. rewrite IH. destruct (block_maxima (map toblock bl)); reflexivity.
Qed.
Theorem C121_exact_numbers s unit :
  gextrusion_extent Rk s unit = extrusion_extent (tosim s) unit /\ gextrusion_max_vel Rk s unit = extrusion_max_vel (tosim s) unit /\ gsave_summary Rk s = save_summary (tosim s).
Proof.
  assert (A : forall unit, gextrusion_extent Rk s unit = extrusion_extent (tosim s) unit).
  { intros u. unfold gextrusion_extent, extrusion_extent. cbn [tosim blocklist]. rewrite !amax_R, !amin_R, !(points_R vx (gx Rk)), !(points_R vy (gy Rk)), !(points_R vz (gz Rk)), scaling_R by reflexivity. reflexivity. }
  assert (B : forall unit, gextrusion_max_vel Rk s unit = extrusion_max_vel (tosim s) unit).
  { intros u. unfold gextrusion_max_vel, extrusion_max_vel. cbn [tosim blocklist]. rewrite maxima_R, filter_R, scaling_R. destruct (block_maxima _); [|reflexivity]. cbn [bind]. rewrite amax_R. reflexivity. }
  split; [apply A|]. split; [apply B|]. unfold gsave_summary, save_summary. cbn [tosim blocklist]. rewrite <- map_rev. destruct (rev (gblocklist Rk s)) as [|b r]; [reflexivity|]. cbn [map]. change (b_segs (toblock b)) with (map toseg (gb_segs Rk b)).
  unfold glast_seg, last_seg. rewrite <- map_rev. destruct (rev (gb_segs Rk b)) as [|g l]; [reflexivity|]. cbn [map bind]. rewrite A, B. reflexivity.
Qed.

(** * Doubles *)
Lemma amax_num l : Forall proper l -> l <> [] -> exists x, gamax Fk l = Ok x /\ In x l /\ forall y, In y l -> fval y <= fval x.
Proof.
  intros P N. destruct l as [|x l]; [congruence|]. clear N. cbn [gamax]. eexists. split; [reflexivity|]. revert x P. induction l as [|y l IH]; intros x P; cbn [fold_left].
  - split; [left; reflexivity|]. intros y [<-|[]]. lra.
  - pose proof (Forall_inv P) as Px. pose proof (Forall_inv_tail P) as Pl. pose proof (Forall_inv Pl) as Py. unfold gmax at 2 4. rewrite ltb_num by assumption. unfold Rltb. destruct (Rlt_dec (fval x) (fval y)) as [L|L].
    + destruct (IH y Pl) as [I M]. split; [right; exact I|]. intros z [<-|Iz]; [|exact (M z Iz)]. pose proof (M y (or_introl eq_refl)). lra.
    + destruct (IH x (Forall_cons x Px (Forall_inv_tail Pl))) as [[E|I] M]; (split; [|intros z [<-|[<-|Iz]]]).
      all: try (rewrite <- E; left; reflexivity). all: try (right; right; exact I). all: try (apply M; left; reflexivity). all: try (apply M; right; exact Iz).
      all: pose proof (M x (or_introl eq_refl)); lra.
Qed.
Lemma amin_num l : Forall proper l -> l <> [] -> exists x, gamin Fk l = Ok x /\ In x l /\ forall y, In y l -> fval x <= fval y.
Proof.
  intros P N. destruct l as [|x l]; [congruence|]. clear N. cbn [gamin]. eexists. split; [reflexivity|]. revert x P. induction l as [|y l IH]; intros x P; cbn [fold_left].
  - split; [left; reflexivity|]. intros y [<-|[]]. lra.
  - pose proof (Forall_inv P) as Px. pose proof (Forall_inv_tail P) as Pl. pose proof (Forall_inv Pl) as Py. unfold gmin at 2 4. rewrite ltb_num by assumption. unfold Rltb. destruct (Rlt_dec (fval y) (fval x)) as [L|L].
    + destruct (IH y Pl) as [I M]. split; [right; exact I|]. intros z [<-|Iz]; [|exact (M z Iz)]. pose proof (M y (or_introl eq_refl)). lra.
    + destruct (IH x (Forall_cons x Px (Forall_inv_tail Pl))) as [[E|I] M]; (split; [|intros z [<-|[<-|Iz]]]).
      all: try (rewrite <- E; left; reflexivity). all: try (right; right; exact I). all: try (apply M; left; reflexivity). all: try (apply M; right; exact Iz).
      all: pose proof (M x (or_introl eq_refl)); lra.
Qed.
Lemma plain_sv v : plain_vec v -> sv 100 v (value_vec v).
Proof. exact (place_sv v). Qed.
(** An axis of the points, in doubles and as numbers *)
Definition axis_pair (g : gvec Fk -> K Fk) (f : vec4 -> R) : Prop := (forall v, fval (g v) = f (num_vec v)) /\ forall v, plain_vec v -> sb 100 (g v) (fval (g v)).
Lemma axis_x : axis_pair (gx Fk) vx. Proof. split; [reflexivity|]. intros v P. apply plain_sv in P. destruct P; assumption. Qed.
Lemma axis_y : axis_pair (gy Fk) vy. Proof. split; [reflexivity|]. intros v P. apply plain_sv in P. destruct P; assumption. Qed.
Lemma axis_z : axis_pair (gz Fk) vz. Proof. split; [reflexivity|]. intros v P. apply plain_sv in P. destruct P; assumption. Qed.
Lemma points_in bl p : In p (gextruding_points Fk bl) <-> exists b, In b bl /\ gb_extr Fk b = true /\ (p = gk_pos Fk (gb_A Fk b) \/ p = gk_pos Fk (gb_B Fk b)).
Proof.
  unfold gextruding_points. rewrite in_app_iff, !in_map_iff. split.
  - intros [(b & <- & I)|(b & <- & I)]; apply filter_In in I as [I E]; exists b; auto.
  - intros (b & I & E & [-> | ->]); [left|right]; exists b; (split; [reflexivity|apply filter_In; auto]).
Qed.
Section Points.
Variable bl : list (gblock Fk).
Hypothesis Plain : Forall plain_block bl.
Lemma points_plain : Forall plain_vec (gextruding_points Fk bl).
Proof. apply Forall_forall. intros p I. apply points_in in I as (b & I & _ & E). rewrite Forall_forall in Plain. destruct (Plain b I) as (A & B & _). destruct E as [-> | ->]; assumption. Qed.
Hypothesis Some_extr : exists b, In b bl /\ gb_extr Fk b = true.
Lemma points_some : gextruding_points Fk bl <> [].
Proof. destruct Some_extr as (b & I & E). intros Z. assert (J : In (gk_pos Fk (gb_A Fk b)) (gextruding_points Fk bl)) by (apply points_in; exists b; auto). rewrite Z in J. destruct J. Qed.
Lemma axis_max g f : axis_pair g f -> exists x, gamax Fk (map g (gextruding_points Fk bl)) = Ok x /\ sb 100 x (fval x) /\ greatest (corner bl f) (fval x).
Proof.
  intros [V B]. pose proof points_plain as P. destruct (amax_num (map g (gextruding_points Fk bl))) as (x & E & I & M).
  - rewrite Forall_map. eapply Forall_impl; [|exact P]. intros v Pv. apply B in Pv as [[Q _] _]. exact Q.
  - intros Z. apply map_eq_nil in Z. exact (points_some Z).
  - exists x. split; [exact E|]. apply in_map_iff in I as (p & <- & I). rewrite Forall_forall in P. split; [apply B, P, I|]. apply points_in in I as (b & Ib & Eb & Ep). split.
    + exists b. split; [exact Ib|]. split; [exact Eb|]. rewrite V. destruct Ep as [-> | ->]; auto.
    + intros y (b' & Ib' & Eb' & Ey). assert (G : forall q, In q (gextruding_points Fk bl) -> f (num_vec q) <= fval (g p)) by (intros q Iq; rewrite <- V; apply M, in_map, Iq). destruct Ey as [-> | ->]; apply G, points_in; exists b'; auto.
Qed.
Lemma axis_min g f : axis_pair g f -> exists x, gamin Fk (map g (gextruding_points Fk bl)) = Ok x /\ sb 100 x (fval x) /\ least (corner bl f) (fval x).
Proof.
  intros [V B]. pose proof points_plain as P. destruct (amin_num (map g (gextruding_points Fk bl))) as (x & E & I & M).
  - rewrite Forall_map. eapply Forall_impl; [|exact P]. intros v Pv. apply B in Pv as [[Q _] _]. exact Q.
  - intros Z. apply map_eq_nil in Z. exact (points_some Z).
  - exists x. split; [exact E|]. apply in_map_iff in I as (p & <- & I). rewrite Forall_forall in P. split; [apply B, P, I|]. apply points_in in I as (b & Ib & Eb & Ep). split.
    + exists b. split; [exact Ib|]. split; [exact Eb|]. rewrite V. destruct Ep as [-> | ->]; auto.
    + intros y (b' & Ib' & Eb' & Ey). assert (G : forall q, In q (gextruding_points Fk bl) -> fval (g p) <= f (num_vec q)) by (intros q Iq; rewrite <- V; apply M, in_map, Iq). destruct Ey as [-> | ->]; apply G, points_in; exists b'; auto.
Qed.
End Points.
Lemma scaled_in k c r x : 0 < k -> sb 1 c r -> Rabs (r - / k) <= 2 * uu * / k + uu / 1000 * / k -> sb 100 x (fval x) -> in_unit k (k_mul Fk c x) (fval x).
Proof.
  intros K C Hr X. destruct (scaled_one k c r x K C Hr) as [P E]; [eapply sb_weaken; [exact X|reflexivity]|]. split; [exact P|]. eapply Rle_trans; [exact E|]. pose proof eta_tiny. pose proof tiny_bound. lra.
Qed.
(** The box of the extrusion: each of its faces is at the least or greatest
    coordinate of the ends of extruding moves, exactly up to the conversion of
    the unit. *)
Theorem C121_extent s unit u k : Forall plain_block (gblocklist Fk s) -> (exists b, In b (gblocklist Fk s) /\ gb_extr Fk b = true) ->
  u = match unit with Some v => v | None => goutput_unit_system Fk s end -> unit_length u k ->
  exists x0 y0 z0 x1 y1 z1, gextrusion_extent Fk s unit = Ok ((x0, y0, z0), (x1, y1, z1)) /\
    (exists m, least (corner (gblocklist Fk s) vx) m /\ in_unit k x0 m) /\ (exists m, least (corner (gblocklist Fk s) vy) m /\ in_unit k y0 m) /\ (exists m, least (corner (gblocklist Fk s) vz) m /\ in_unit k z0 m) /\
    (exists m, greatest (corner (gblocklist Fk s) vx) m /\ in_unit k x1 m) /\ (exists m, greatest (corner (gblocklist Fk s) vy) m /\ in_unit k y1 m) /\ (exists m, greatest (corner (gblocklist Fk s) vz) m /\ in_unit k z1 m).
Proof.
  intros P Ex Hu U. destruct (unit_factor u k U) as (c & r & Dc & C & Hr). assert (K : 0 < k) by (destruct U; lra).
  destruct (axis_min _ P Ex _ _ axis_x) as (x0 & Ex0 & Bx0 & Lx0). destruct (axis_min _ P Ex _ _ axis_y) as (y0 & Ey0 & By0 & Ly0). destruct (axis_min _ P Ex _ _ axis_z) as (z0 & Ez0 & Bz0 & Lz0).
  destruct (axis_max _ P Ex _ _ axis_x) as (x1 & Ex1 & Bx1 & Gx1). destruct (axis_max _ P Ex _ _ axis_y) as (y1 & Ey1 & By1 & Gy1). destruct (axis_max _ P Ex _ _ axis_z) as (z1 & Ez1 & Bz1 & Gz1).
  do 6 eexists. split; [unfold gextrusion_extent; cbv zeta; rewrite Ex1; cbn [bind]; rewrite Ey1; cbn [bind]; rewrite Ez1; cbn [bind]; rewrite Ex0; cbn [bind]; rewrite Ey0; cbn [bind]; rewrite Ez0; cbn [bind]; unfold gget_scaling_factor; rewrite <- Hu, Dc; cbn [bind]; reflexivity|].
  repeat split; eexists; (split; [eassumption|]); apply (scaled_in k c r); assumption.
Qed.

(** * Velocities *)
Lemma greatest_one P a b : greatest P a -> greatest P b -> a = b.
Proof. intros [A M] [B N]. apply Rle_antisym; [apply N, A|apply M, B]. Qed.
Lemma speed_max b g f : plain_block b -> axis_pair g f -> exists x, gamax Fk (gaxis_speeds Fk g (gb_segs Fk b)) = Ok x /\ sb 100 x (fval x) /\ greatest (speed_along b f) (fval x).
Proof.
  intros (_ & _ & Ne & Ps) [V B]. set (l := gaxis_speeds Fk g (gb_segs Fk b)).
  assert (A : forall v, plain_vec v -> sb 100 (k_abs Fk (g v)) (fval (k_abs Fk (g v))) /\ fval (k_abs Fk (g v)) = Rabs (f (num_vec v))).
  { intros v Pv. pose proof (sb_abs _ _ _ (B v Pv)) as [[Q W] L]. rewrite W. cbn [Bk k_abs]. rewrite V. split; [split; [split; [exact Q|rewrite W; cbn [Bk k_abs]; rewrite V; reflexivity]|]|reflexivity]. cbn [Bk k_abs] in L. rewrite V in L. exact L. }
  assert (I : forall x, In x l <-> exists s, In s (gb_segs Fk b) /\ (x = k_abs Fk (g (gvel_begin Fk s)) \/ x = k_abs Fk (g (gvel_end Fk s)))).
  { intros x. unfold l, gaxis_speeds. rewrite in_flat_map. split; intros (s & Is & E); exists s; (split; [exact Is|]); [destruct E as [<-|[<-|[]]]; auto|destruct E as [-> | ->]; [left|right; left]; reflexivity]. }
  rewrite Forall_forall in Ps. assert (S : forall x, In x l -> sb 100 x (fval x) /\ speed_along b f (fval x)).
  { intros x Ix. apply I in Ix as (s & Is & E). destruct (Ps s Is) as [P0 P1]. destruct E as [-> | ->]; [destruct (A _ P0) as [S W]|destruct (A _ P1) as [S W]]; (split; [exact S|]); exists s; auto. }
  destruct (amax_num l) as (x & E & Ix & M).
  - apply Forall_forall. intros x Ix. apply S in Ix as [[[Q _] _] _]. exact Q.
  - intros Z. destruct (gb_segs Fk b) as [|s r] eqn:Es; [congruence|]. unfold l, gaxis_speeds in Z. discriminate Z.
  - exists x. split; [exact E|]. destruct (S x Ix) as [Sx Ax]. split; [exact Sx|]. split; [exact Ax|]. intros y (s & Is & Ey). destruct (Ps s Is) as [P0 P1].
    destruct Ey as [-> | ->]; [destruct (A _ P0) as [_ <-]|destruct (A _ P1) as [_ <-]]; apply M, I; exists s; auto.
Qed.
(** [v] is the speed of the extruding block [b], and [x] is it in doubles. *)
Definition speed_of (b : gblock Fk) (v : R) : Prop := exists x y z, greatest (speed_along b vx) x /\ greatest (speed_along b vy) y /\ greatest (speed_along b vz) z /\ v = norm3 (V4 x y z 0).
Definition speed_near (x : spec_float) (v : R) : Prop := sb 102 x (fval x) /\ Rabs (fval x - v) <= 6 * uu * v + tiny / 10.
Lemma speed_num b : plain_block b -> exists x y z v, gextrusion_block_max_vel Fk b = Ok (x, y, z) /\ speed_of b v /\ speed_near (gnorm3 Fk (GV Fk x y z (k0 Fk))) v.
Proof.
  intros P. destruct (speed_max b _ _ P axis_x) as (x & Ex & Sx & Gx). destruct (speed_max b _ _ P axis_y) as (y & Ey & Sy & Gy). destruct (speed_max b _ _ P axis_z) as (z & Ez & Sz & Gz).
  exists x, y, z, (norm3 (V4 (fval x) (fval y) (fval z) 0)). split; [unfold gextrusion_block_max_vel; rewrite Ex; cbn [bind]; rewrite Ey; cbn [bind]; rewrite Ez; reflexivity|]. split; [exists (fval x), (fval y), (fval z); auto|].
  assert (Sv : sv 100 (GV Fk x y z (k0 Fk)) (GV D64 (fval x) (fval y) (fval z) (k0 D64))) by (split; try assumption; eapply sb_weaken; [apply sb_0|reflexivity]). pose proof (sb_norm3 100 _ _ Sv eq_refl eq_refl) as [[Q V] L].
  split; [split; [split; [exact Q|reflexivity]|rewrite V; exact L]|]. rewrite V. change (gnorm3 D64 (GV D64 (fval x) (fval y) (fval z) (k0 D64))) with (rnorm binary64 (fval x) (fval y) (fval z)).
  apply norm_rounded; cbn [vx vy vz]; rewrite Rminus_diag_eq, Rabs_R0 by reflexivity; (apply Rmult_le_pos; [unfold uu; lra|apply Rabs_pos]).
Qed.
Lemma maxima_num L : Forall plain_block L -> exists ms vs, gblock_maxima Fk L = Ok ms /\ Forall2 speed_of L vs /\ Forall2 speed_near ms vs.
Proof.
  induction L as [|b L IH]; intros P; [exists [], []; repeat split; constructor|]. destruct (speed_num b (Forall_inv P)) as (x & y & z & v & E & S & N). destruct (IH (Forall_inv_tail P)) as (ms & vs & E' & S' & N').
  exists (gnorm3 Fk (GV Fk x y z (k0 Fk)) :: ms), (v :: vs). split; [cbn [gblock_maxima]; rewrite E; cbn [bind]; rewrite E'; reflexivity|]. split; constructor; assumption.
Qed.
Lemma speed_once b v w : speed_of b v -> speed_of b w -> v = w.
Proof. intros (x & y & z & A & B & C & ->) (x' & y' & z' & A' & B' & C' & ->). rewrite (greatest_one _ _ _ A A'), (greatest_one _ _ _ B B'), (greatest_one _ _ _ C C'). reflexivity. Qed.
Lemma real_max (l : list R) : l <> [] -> exists m, In m l /\ forall y, In y l -> y <= m.
Proof.
  induction l as [|x l IH]; [congruence|]. intros _. destruct l as [|y l]; [exists x; split; [left; reflexivity|intros y [<-|[]]; lra]|]. destruct IH as (m & I & M); [discriminate|]. destruct (Rle_lt_dec x m) as [Q|Q].
  - exists m. split; [right; exact I|]. intros z [<-|Iz]; [exact Q|exact (M z Iz)].
  - exists x. split; [left; reflexivity|]. intros z [<-|Iz]; [lra|]. specialize (M z Iz). lra.
Qed.
Lemma in_left {A B} (P : A -> B -> Prop) l m : Forall2 P l m -> forall x, In x l -> exists y, In y m /\ P x y.
Proof. induction 1 as [|a b l m H F IH]; intros x; [intros []|]. intros [<-|I]; [exists b; split; [left; reflexivity|exact H]|]. destruct (IH x I) as (y & Iy & Py). exists y. split; [right; exact Iy|exact Py]. Qed.
Lemma in_right {A B} (P : A -> B -> Prop) l m : Forall2 P l m -> forall y, In y m -> exists x, In x l /\ P x y.
Proof. induction 1 as [|a b l m H F IH]; intros y; [intros []|]. intros [<-|I]; [exists a; split; [left; reflexivity|exact H]|]. destruct (IH y I) as (x & Ix & Px). exists x. split; [right; exact Ix|exact Px]. Qed.
(** The greatest velocity: that of the fastest extruding block, where the
    greatest speeds of the three axes are taken together, to twelve roundings. *)
Theorem C121_max_vel s unit u k : Forall plain_block (gblocklist Fk s) -> (exists b, In b (gblocklist Fk s) /\ gb_extr Fk b = true) ->
  u = match unit with Some v => v | None => goutput_unit_system Fk s end -> unit_length u k ->
  exists m v, gextrusion_max_vel Fk s unit = Ok m /\ greatest (block_speed (gblocklist Fk s)) v /\ proper m /\ Rabs (fval m - v / k) <= 12 * uu * (v / k) + tiny.
Proof.
  intros P Ex Hu U. destruct (unit_factor u k U) as (c & r & Dc & C & Hr). assert (K : 1 <= k) by (destruct U; lra). set (bl := gblocklist Fk s) in *. set (L := filter (gb_extr Fk) bl).
  assert (PL : Forall plain_block L). { rewrite Forall_forall in *. intros b I. apply filter_In in I as [I _]. exact (P b I). }
  destruct (maxima_num L PL) as (ms & vs & E & S & N). assert (Ne : ms <> []). { destruct Ex as (b & I & Eb). assert (IL : In b L) by (apply filter_In; auto). destruct (in_left _ _ _ S b IL) as (v & Iv & _). destruct (in_right _ _ _ N v Iv) as (x & Ix & _). destruct ms; [destruct Ix|discriminate]. }
  destruct (amax_num ms) as (x & Ea & Ix & Mx); [apply Forall_forall; intros y Iy; destruct (in_left _ _ _ N y Iy) as (v & _ & [[[Q _] _] _]); exact Q|exact Ne|].
  assert (Nv : vs <> []) by (intros Z; rewrite Z in N; destruct ms; [exact (Ne eq_refl)|inversion N]). destruct (real_max vs Nv) as (v & Iv & Mv). exists (k_mul Fk c x), v.
  split; [unfold gextrusion_max_vel; fold bl; fold L; rewrite E; cbn [bind]; rewrite Ea; cbn [bind]; unfold gget_scaling_factor; rewrite <- Hu, Dc; reflexivity|].
  split. { split.
    - destruct (in_right _ _ _ S v Iv) as (b & Ib & (a1 & a2 & a3 & G1 & G2 & G3 & Ev)). apply filter_In in Ib as [Ib Eb]. exists b, a1, a2, a3. auto 10.
    - intros y (b & a1 & a2 & a3 & Ib & Eb & G1 & G2 & G3 & Ey). assert (IL : In b L) by (apply filter_In; auto). destruct (in_left _ _ _ S b IL) as (w & Iw & Sw). assert (y = w) as -> by (apply (speed_once b); [exists a1, a2, a3; auto 10|exact Sw]). exact (Mv w Iw). }
  assert (U0 : 0 < uu < / 1000) by (unfold uu; lra). pose proof tiny_bound as T. pose proof eta_tiny as Et. pose proof eta_pos as E0. assert (Hk : 0 < / k <= 1) by (split; [apply Rinv_0_lt_compat; lra|rewrite <- Rinv_1; apply Rinv_le_contravar; lra]).
  assert (V0 : forall w, In w vs -> 0 <= w) by (intros w Iw; destruct (in_right _ _ _ S w Iw) as (b & _ & (a1 & a2 & a3 & _ & _ & _ & ->)); apply norm3_nonneg). pose proof (V0 v Iv) as v0.
  assert (D : Rabs (fval x - v) <= 6 * uu * v + tiny / 10).
  { destruct (in_left _ _ _ N x Ix) as (w & Iw & [_ Hw]). destruct (in_right _ _ _ N v Iv) as (y & Iy & [_ Hy]). pose proof (Mx y Iy). pose proof (Mv w Iw). apply abs_le_inv in Hw, Hy. assert (6 * uu * w <= 6 * uu * v) by (apply Rmult_le_compat_l; lra). apply Rabs_le. lra. }
  destruct (in_left _ _ _ N x Ix) as (w & _ & [Sx _]). destruct (scaled_one k c r x ltac:(lra) C Hr) as [Q F]; [eapply sb_weaken; [exact Sx|reflexivity]|]. split; [exact Q|].
  assert (A : Rabs (fval x / k - v / k) <= (6 * uu * v + tiny / 10) / k). { replace (fval x / k - v / k) with ((fval x - v) * / k) by (field; lra). rewrite Rabs_mult, (Rabs_right (/ k)) by lra. apply Rmult_le_compat_r; [lra|exact D]. }
  set (q := v / k) in *. assert (q0 : 0 <= q) by (apply Rmult_le_pos; lra). assert (uq : 0 <= uu * q) by (apply Rmult_le_pos; lra). assert (Z : (6 * uu * v + tiny / 10) / k <= 6 * uu * q + tiny / 10). { replace ((6 * uu * v + tiny / 10) / k) with (6 * uu * q + tiny / 10 * / k) by (unfold q; field; lra). assert (tiny / 10 * / k <= tiny / 10 * 1) by (apply Rmult_le_compat_l; lra). lra. }
  assert (B : Rabs (fval x / k) <= (1 + 6 * uu) * q + tiny / 10). { replace (fval x / k) with ((fval x / k - q) + q) by ring. eapply Rle_trans; [apply Rabs_triang|]. rewrite (Rabs_right q) by lra. lra. }
  replace (fval (k_mul Fk c x) - q) with ((fval (k_mul Fk c x) - fval x / k) + (fval x / k - q)) by ring. eapply Rle_trans; [apply Rabs_triang|].
  assert (4 * uu * Rabs (fval x / k) <= 4 * uu * ((1 + 6 * uu) * q + tiny / 10)) by (apply Rmult_le_compat_l; lra). assert (uu * (uu * q) <= / 1000 * (uu * q)) by (apply Rmult_le_compat_r; lra). assert (uu * tiny <= / 1000 * tiny) by (apply Rmult_le_compat_r; lra). lra.
Qed.
(** Nothing extruded, or an unknown unit system *)
Theorem C121_refused s unit : let u := match unit with Some v => v | None => goutput_unit_system Fk s end in
  ((forall b, In b (gblocklist Fk s) -> gb_extr Fk b = false) -> gextrusion_extent Fk s unit = Err ValueError /\ gextrusion_max_vel Fk s unit = Err ValueError) /\
  (Forall plain_block (gblocklist Fk s) -> (exists b, In b (gblocklist Fk s) /\ gb_extr Fk b = true) -> (forall k, ~ unit_length u k) -> gextrusion_extent Fk s unit = Err KeyError /\ gextrusion_max_vel Fk s unit = Err KeyError).
Proof.
  intros u. split.
  - intros H. assert (E : filter (gb_extr Fk) (gblocklist Fk s) = []). { induction (gblocklist Fk s) as [|b l IH]; [reflexivity|]. cbn [filter]. rewrite (H b (or_introl eq_refl)). apply IH. intros c I. apply H. right. exact I. }
    split; [unfold gextrusion_extent, gextruding_points|unfold gextrusion_max_vel]; rewrite E; reflexivity.
  - intros P Ex Hu. assert (D : gget_scaling_factor Fk s unit = Err KeyError).
    { unfold gget_scaling_factor. fold u. unfold goutput_units. cbn [dget]. destruct (str_eqb u (S_ "SI")) eqn:E1; [apply StrFacts.str_eqb_true in E1; rewrite E1 in Hu; destruct (Hu _ u_SI)|]. destruct (str_eqb u (S_ "SImm")) eqn:E2; [apply StrFacts.str_eqb_true in E2; rewrite E2 in Hu; destruct (Hu _ u_SImm)|].
      destruct (str_eqb u (S_ "inch")) eqn:E3; [apply StrFacts.str_eqb_true in E3; rewrite E3 in Hu; destruct (Hu _ u_inch)|]. reflexivity. }
    split.
    + destruct (axis_min _ P Ex _ _ axis_x) as (x0 & Ex0 & _). destruct (axis_min _ P Ex _ _ axis_y) as (y0 & Ey0 & _). destruct (axis_min _ P Ex _ _ axis_z) as (z0 & Ez0 & _).
      destruct (axis_max _ P Ex _ _ axis_x) as (x1 & Ex1 & _). destruct (axis_max _ P Ex _ _ axis_y) as (y1 & Ey1 & _). destruct (axis_max _ P Ex _ _ axis_z) as (z1 & Ez1 & _).
      unfold gextrusion_extent. cbv zeta. rewrite Ex1; cbn [bind]; rewrite Ey1; cbn [bind]; rewrite Ez1; cbn [bind]; rewrite Ex0; cbn [bind]; rewrite Ey0; cbn [bind]; rewrite Ez0; cbn [bind]; rewrite D; reflexivity.
    + assert (PL : Forall plain_block (filter (gb_extr Fk) (gblocklist Fk s))). { rewrite Forall_forall in *. intros b I. apply filter_In in I as [I _]. exact (P b I). }
      destruct (maxima_num _ PL) as (ms & vs & E & S & N). unfold gextrusion_max_vel. rewrite E. cbn [bind]. destruct (amax_num ms) as (x & Ea & _).
      * apply Forall_forall; intros y Iy; destruct (in_left _ _ _ N y Iy) as (v & _ & [[[Q _] _] _]); exact Q.
      * destruct Ex as (b & I & Eb). assert (IL : In b (filter (gb_extr Fk) (gblocklist Fk s))) by (apply filter_In; auto). destruct (in_left _ _ _ S b IL) as (v & Iv & _). destruct (in_right _ _ _ N v Iv) as (x & Ix & _). destruct ms; [destruct Ix|discriminate].
      * rewrite Ea. cbn [bind]. rewrite D. reflexivity.
Qed.
(** The summary: the end of the last segment, not rounded again, and the answers
    above in the units of the simulation; nothing is written for an empty trajectory. *)
Theorem C121_summary s : (gblocklist Fk s = [] -> gsave_summary Fk s = Err IndexError) /\
  forall t ext m, gsave_summary Fk s = Ok (t, ext, m) <-> (exists pre b segs l, gblocklist Fk s = pre ++ [b] /\ gb_segs Fk b = segs ++ [l] /\ t = gt_end Fk l) /\ gextrusion_extent Fk s None = Ok ext /\ gextrusion_max_vel Fk s None = Ok m.
Proof.
  split; [intros E; unfold gsave_summary; rewrite E; reflexivity|]. intros t ext m. unfold gsave_summary. split.
  - destruct (rev (gblocklist Fk s)) as [|b r] eqn:Er; [discriminate|]. unfold glast_seg. destruct (rev (gb_segs Fk b)) as [|l sr] eqn:Es; cbn [bind]; [discriminate|]. destruct (gextrusion_extent Fk s None) as [e|]; cbn [bind]; [|discriminate]. destruct (gextrusion_max_vel Fk s None) as [v|]; cbn [bind]; [|discriminate]. intros [= <- <- <-].
    split; [|auto]. exists (rev r), b, (rev sr), l. split; [|split; [|reflexivity]].
    + rewrite <- (rev_involutive (gblocklist Fk s)), Er. reflexivity.
    + rewrite <- (rev_involutive (gb_segs Fk b)), Es. reflexivity.
  - intros ((pre & b & segs & l & -> & Es & ->) & -> & ->). rewrite rev_app_distr. cbn [rev app]. unfold glast_seg. rewrite Es, rev_app_distr. reflexivity.
Qed.
(** Simulated programs far from the ends of the doubles meet the conditions. *)
Theorem C121_simulated fw ss bl w : Forall proper_state ss -> tame_program (map value_state ss) -> INR (length ss) <= 1000000000 -> gsimulate Fk fw ss = Ok (bl, w) -> Forall plain_block bl.
Proof.
  intros P T N E. assert (Ne : Forall (fun x => gb_segs Fk x <> []) bl).
  { destruct ss as [|s0 ss]; [injection E as <- _; constructor|]. destruct (C120_blocks Fk _ _ _ _ _ E) as [_ H]. eapply Forall_impl; [|exact H]. intros b (_ & _ & H1 & _). exact H1. }
  assert (Q := simulation_strong fw ss (map value_state ss) (values_same ss P) T). rewrite map_length in Q. specialize (Q N). rewrite E in Q. destruct (gsimulate D64 fw _) as [[bl' w']|]; [|contradiction]. destruct Q as [Q _]. cbn [fst] in Q.
  clear - Q Ne. induction Q as [|b b' r r' B Q IH]; [constructor|]. constructor; [|exact (IH (Forall_inv_tail Ne))]. destruct B as [RA RB _ RS _ _ _]. split; [exact (tame_place _ _ RA)|]. split; [exact (tame_place _ _ RB)|]. split; [exact (Forall_inv Ne)|].
  clear - RS. induction RS as [|x x' l l' X RS IH]; [constructor|]. constructor; [|exact IH]. destruct X as [_ _ _ _ V0 V1]. split; [split; [exact (same_proper _ _ (sv_same _ _ _ V0))|exact (sv_moderate _ _ V0)]|split; [exact (same_proper _ _ (sv_same _ _ _ V1))|exact (sv_moderate _ _ V1)]].
Qed.

(** The difference of two doubles is positive exactly if the first is greater. *)
Lemma double_steps x : double x -> exists n : Z, x = IZR n * p2 (-1074).
Proof.
  intros (m & e & _ & E & ->). exists (m * 2 ^ (e + 1074))%Z. rewrite mult_IZR, <- (p2_Z (e + 1074)) by lia. rewrite Rmult_assoc, <- pow2_add. replace (e + 1074 + -1074)%Z with e by lia. reflexivity.
Qed.
Lemma push_num x y : sb 100 x (fval x) -> sb 100 y (fval y) -> (k_ltb Fk (k0 Fk) (k_sub Fk x y) = true <-> fval y < fval x).
Proof.
  intros Sx Sy. pose proof (sb_sub 100 100 x y _ _ Sx Sy eq_refl) as [St _]. rewrite (ltb_same _ _ _ _ (sb_stands _ _ _ sb_0) St). change (Rltb (binary64 0) (binary64 (fval x - fval y)) = true <-> fval y < fval x). rewrite binary64_0, Rltb_iff. split; intros H.
  - destruct (Rlt_or_le (fval y) (fval x)) as [L|L]; [exact L|]. pose proof (b64_mono (fval x - fval y) 0 ltac:(lra)) as M. rewrite binary64_0 in M. lra.
  - destruct Sx as [[Px _] _], Sy as [[Py _] _]. destruct (double_steps _ (proj1 (proper_double x Px))) as (n & En). destruct (double_steps _ (proj1 (proper_double y Py))) as (q & Eq). pose proof (pow2_pos (-1074)) as P0.
    assert (D : double (p2 (-1074))) by (exists 1%Z, (-1074)%Z; split; [reflexivity|split; [lia|ring]]). rewrite <- (binary64_fix _ D) in P0. eapply Rlt_le_trans; [exact P0|]. apply b64_mono. rewrite En, Eq in H |- *.
    assert (Z : (q < n)%Z). { apply lt_IZR. destruct (Rlt_or_le (IZR q) (IZR n)) as [L|L]; [exact L|]. pose proof (pow2_pos (-1074)) as P1. assert (IZR n * p2 (-1074) <= IZR q * p2 (-1074)) by (apply Rmult_le_compat_r; lra). lra. }
    assert (1 <= IZR n - IZR q) by (rewrite <- minus_IZR; apply IZR_le; lia). replace (IZR n * p2 (-1074) - IZR q * p2 (-1074)) with ((IZR n - IZR q) * p2 (-1074)) by ring. pose proof (pow2_pos (-1074)) as P1. assert (1 * p2 (-1074) <= (IZR n - IZR q) * p2 (-1074)) by (apply Rmult_le_compat_r; lra). lra.
Qed.
Lemma plain_e v : plain_vec v -> sb 100 (ge Fk v) (fval (ge Fk v)).
Proof. intros P. apply plain_sv in P. destruct P; assumption. Qed.
(** The blocks that the extent and the velocity are taken from: those whose line
    ends with more filament out than it began with, however little more.  Only
    lines that also ask for a dwell may be left out. *)
Theorem C121_extruding fw ss bl w : Forall proper_state ss -> tame_program (map value_state ss) -> INR (length ss) <= 1000000000 -> gsimulate Fk fw ss = Ok (bl, w) ->
  Forall (fun b => let e s := fval (ge Fk (gk_pos Fk s)) in (gb_extr Fk b = true -> e (gb_A Fk b) < e (gb_B Fk b)) /\ (e (gb_A Fk b) < e (gb_B Fk b) -> gk_pause Fk (gb_B Fk b) = None -> gb_extr Fk b = true)) bl.
Proof.
  intros P T N E. pose proof (C121_simulated fw ss bl w P T N E) as Q. destruct ss as [|s0 ss]; [injection E as <- _; constructor|]. pose proof (C120_extruding Fk _ _ _ _ _ E) as X.
  rewrite Forall_forall in *. intros b Ib. destruct (Q b Ib) as (A & B & _). pose proof (X b Ib) as Xb. cbv zeta. unfold pushes in Xb. rewrite push_num in Xb by (eapply plain_e; eassumption). exact Xb.
Qed.

(** * A concrete program *)
(** The program of C119 with its two layers: what the summary says, in
    millimetres and inches.  The greatest velocity, along a straight diagonal at
    30 mm/s, is a bit above 30. *)
Definition layer_sim (u : str) : gsim Fk := GSim Fk layer_trajectory u None.
Definition summary_texts (s : gsim Fk) : res (list str) :=
  r <- gsave_summary Fk s ;; match r with (t, ((x0, y0, z0), (x1, y1, z1)), m) => Ok (map py_repr [t; x0; y0; z0; x1; y1; z1; m]) end.
Example C121_case : summary_texts (layer_sim (S_ "SImm")) = Ok (map S_ ["1.7495086248322613"; "0.0"; "0.0"; "0.0"; "20.0"; "13.3"; "0.6"; "30.000000000000004"]%string) /\
  summary_texts (layer_sim (S_ "inch")) = Ok (map S_ ["1.7495086248322613"; "0.0"; "0.0"; "0.0"; "0.7874015748031495"; "0.5236220472440946"; "0.023622047244094488"; "1.1811023622047245"]%string) /\
  gsave_summary Fk (layer_sim (S_ "cm")) = Err KeyError /\ gsave_summary Fk (GSim Fk [] (S_ "SImm") None) = Err IndexError.
Proof. repeat split; vm_compute; reflexivity. Qed.
Example C121_case_met : Forall plain_block layer_trajectory /\ (exists b, In b layer_trajectory /\ gb_extr Fk b = true) /\ (exists b, In b layer_trajectory /\ gb_extr Fk b = false).
Proof.
  split.
  - set (vec := checked_vec (S754_finite false 4503599627370496 (-32))).
    assert (C : forallb (fun b => vec (gk_pos Fk (gb_A Fk b)) && vec (gk_pos Fk (gb_B Fk b)) && match gb_segs Fk b with [] => false | _ => true end && forallb (fun s => vec (gvel_begin Fk s) && vec (gvel_end Fk s)) (gb_segs Fk b))%bool layer_trajectory = true) by (vm_compute; reflexivity).
    rewrite forallb_forall in C. apply Forall_forall. intros b Ib. apply C in Ib. apply andb_true_iff in Ib as [Ib S]. apply andb_true_iff in Ib as [Ib N]. apply andb_true_iff in Ib as [A B].
    split; [exact (checked_place _ A)|]. split; [exact (checked_place _ B)|]. split; [destruct (gb_segs Fk b); [discriminate|congruence]|]. rewrite forallb_forall in S. apply Forall_forall. intros s Is. apply S, andb_true_iff in Is as [V W]. split; [exact (checked_place _ V)|exact (checked_place _ W)].
  - split; eexists; [split; [left; reflexivity|reflexivity]|split; [right; left; reflexivity|reflexivity]].
Qed.

Print Assumptions C121_exact_numbers.
Print Assumptions C121_extent.
Print Assumptions C121_max_vel.
Print Assumptions C121_refused.
Print Assumptions C121_summary.
Print Assumptions C121_simulated.
Print Assumptions C121_extruding.
