(** Whole simulations with doubles beside simulations with rounded real
    numbers: the lines planned one after the other, then corrected. *)
From Coq Require Import Reals ZArith SpecFloat List Bool Lia Lra.
From Verif Require Import Py Vec StateGen Junction Planner Rounding SpecRounding RoundingProofs Generic SpecGeneric SpecDrift SpecStop SpecIEEE IEEEProofs SpecBridge PropertiesIEEE RealFacts
  FloatMoveProofs FloatDriftProofs FloatPlanProofs FloatStopProofs PropertiesFloat BridgeProofs BridgeJunctionProofs BridgePlanProofs.
Import ListNotations.
Open Scope R_scope.
#[local] Hint Resolve sq_nonneg add_nonneg norm3_nonneg norm4_nonneg mul_nonneg half_nonneg two_nonneg : nn.

Lemma sbind_eq {A B C D} (Q : A -> B -> Prop) (P : C -> D -> Prop) a b f g :
  sres Q a b -> (forall x y, Q x y -> a = Ok x -> b = Ok y -> sres P (f x) (g y)) -> sres P (bind a f) (bind b g).
Proof. destruct a, b; cbn; intros H K; try contradiction; [apply K; auto|exact H]. Qed.
Lemma sres_imp {A B} (Q P : A -> B -> Prop) a b : sres Q a b -> (forall x y, Q x y -> P x y) -> sres P a b.
Proof. destruct a, b; cbn; intros H K; try contradiction; auto. Qed.
Lemma last_same (P : gsegment Fk -> gsegment D64 -> Prop) (Q : gsegment D64 -> Prop) s s' : Forall2 P s s' -> Forall Q s' -> sres (fun x y => P x y /\ Q y) (glast_seg Fk s) (glast_seg D64 s').
Proof.
  intros F G. unfold glast_seg. apply Forall2_rev_ in F. apply Forall_rev in G. destruct F as [|x y r r' H F]; [reflexivity|]. inversion G; subst. split; assumption.
Qed.
Lemma first_same (P : gsegment Fk -> gsegment D64 -> Prop) (Q : gsegment D64 -> Prop) s s' : Forall2 P s s' -> Forall Q s' -> sres (fun x y => P x y /\ Q y) (gfirst_seg Fk s) (gfirst_seg D64 s').
Proof. intros F G. destruct F as [|x y r r' H F]; [reflexivity|]. inversion G; subst. split; assumption. Qed.
Lemma Forall2_nil_iff_ {A B} (P : A -> B -> Prop) l m : Forall2 P l m -> (l = [] /\ m = []) \/ (l <> [] /\ m <> []).
Proof. intros []; [left; split; reflexivity|right; split; discriminate]. Qed.

(** * Times *)
Lemma tround x : Rabs x <= p2 76 -> Rabs (binary64 x - x) <= p2 36 / 2.
Proof.
  intros U. destruct binary64_rounds as (_ & E0 & Er). specialize (Er x).
  assert (E1 : p2 (-53) * Rabs x <= p2 23). { change (p2 23) with (p2 (-53 + 76)). rewrite pow2_add. apply Rmult_le_compat_l; [left; apply pow2_pos|exact U]. }
  assert (E2 : p2 23 <= p2 36 / 4). { change 36%Z with (34 + (1 + 1))%Z. rewrite !pow2_add, !p2_1. assert (p2 23 <= p2 34) by (apply pow2_mono; lia). lra. }
  assert (E3 : p2 (-1075) <= p2 36 / 8). { change 36%Z with (33 + (1 + (1 + 1)))%Z. rewrite !pow2_add, !p2_1. assert (p2 (-1075) <= p2 33) by (apply pow2_mono; lia). lra. }
  lra.
Qed.
Definition early (n : Z) (s : gsegment D64) : Prop := tnear n 0 (gt_begin D64 s) /\ tnear n 0 (gt_end D64 s).
Definition fresh (b : gblock D64) : Prop := exists t0, Forall (soon t0) (gb_segs D64 b).
Definition many : Z := 2 ^ 34.
Lemma many_p2 : IZR many * p2 36 = p2 70. Proof. rewrite (p2_gap 70) by lia. reflexivity. Qed.
Lemma tnear_add n m t0 t : tnear n 0 t0 -> tnear m t0 t -> tnear (n + m) 0 t.
Proof. unfold tnear. intros N M. rewrite plus_IZR, Rminus_0_r in *. replace t with (t0 + (t - t0)) by ring. eapply Rle_trans; [apply Rabs_triang|]. lra. Qed.
Lemma tnear_weak n m t0 t : tnear n t0 t -> (n <= m)%Z -> tnear m t0 t.
Proof. intros N L. apply (tnear_le n m _ _ N). apply Z.leb_le, L. Qed.
Lemma tnear_70 n t : tnear n 0 t -> (n <= many)%Z -> Rabs t <= p2 70.
Proof. intros N L. apply (tnear_weak _ _ _ _ N) in L. unfold tnear in L. rewrite Rminus_0_r, many_p2 in L. exact L. Qed.
Lemma early_weak n m s : early n s -> (n <= m)%Z -> early m s.
Proof. intros [A B] L. split; eapply tnear_weak; eassumption. Qed.
Lemma early_soon n t0 s : tnear n 0 t0 -> soon t0 s -> early (n + 3) s.
Proof. intros N [A B]. split; eapply tnear_add; eassumption. Qed.
Lemma shift_time n t0 te tb t : tnear n 0 te -> (0 <= n <= many)%Z -> tnear 3 t0 tb -> tnear 3 t0 t -> Rabs tb <= p2 70 -> Rabs t <= p2 70 ->
  tnear (n + 8) 0 (k_add D64 t (k_sub D64 te tb)).
Proof.
  intros N L B T Bb Bt. cbn [Bk k_add k_sub]. pose proof (tnear_70 n te N ltac:(lia)) as Be. pose proof (pow2_pos 36) as P36. pose proof (pow2_pos 70) as P70.
  assert (G : 64 * p2 70 = p2 76) by (rewrite (p2_gap 76), (p2_gap 70) by lia; cbn; ring). assert (P : p2 36 <= p2 70) by (apply pow2_mono; lia).
  assert (X1 : Rabs (te - tb) <= 2 * p2 70) by (replace (te - tb) with (te + - tb) by ring; eapply Rle_trans; [apply Rabs_triang|]; rewrite Rabs_Ropp; lra).
  pose proof (tround (te - tb) ltac:(lra)) as R1. set (d := binary64 (te - tb)) in *.
  assert (X2 : Rabs (t + d) <= 4 * p2 70). { replace (t + d) with (t + (te - tb) + (d - (te - tb))) by ring. eapply Rle_trans; [apply Rabs_triang|]. assert (Rabs (t + (te - tb)) <= 3 * p2 70) by (eapply Rle_trans; [apply Rabs_triang|]; lra). lra. }
  pose proof (tround (t + d) ltac:(lra)) as R2. set (r := binary64 (t + d)) in *. unfold tnear in *. rewrite Rminus_0_r in *. rewrite plus_IZR.
  apply abs_inv in N, B, T, R1, R2. apply Rabs_le. cbn in *. lra.
Qed.

(** * Blocks *)
Record rb (a : gblock Fk) (b : gblock D64) : Prop := Rb {
  r_A : strong (gb_A Fk a) (gb_A D64 b); r_B : strong (gb_B Fk a) (gb_B D64 b); r_dir : same_opt (sv 45) (gb_dir Fk a) (gb_dir D64 b);
  r_segs : Forall2 (sseg 100) (gb_segs Fk a) (gb_segs D64 b); r_ty : gb_type Fk a = gb_type D64 b; r_ex : gb_extr Fk a = gb_extr D64 b; r_JD : sv 100 (gb_JD Fk a) (gb_JD D64 b) }.
Definition num (l : list (gblock D64)) : Z := Z.of_nat (length l).
Fixpoint placed (l : list (gblock D64)) : Prop :=
  match l with
  | [] => True
  | b :: r => Forall (early (8 * num r + 8)) (gb_segs D64 b) /\ placed r
  end.
Lemma rb_same a b : rb a b -> same_block a b.
Proof.
  intros [[SA _] [SB _] D S T E J]. unfold same_block. split; [exact SA|]. split; [exact SB|]. split; [|split; [|split; [exact T|split; [exact E|apply (sv_same _ _ _ J)]]]].
  - destruct (gb_dir Fk a), (gb_dir D64 b); try contradiction; [apply (sv_same _ _ _ D)|exact I].
  - induction S as [|s s' r r' H S IH]; constructor; [|exact IH]. destruct H as [T0 T1 P0 P1 V0 V1]. unfold same_seg. split; [apply T0|]. split; [apply T1|]. split; [apply (sv_same _ _ _ P0)|]. split; [apply (sv_same _ _ _ P1)|]. split; [apply (sv_same _ _ _ V0)|apply (sv_same _ _ _ V1)].
Qed.
Lemma ready_lb A B dir : ordinary_state A -> ordinary_state B -> gap A B -> gget_norm_dir D64 (gconnect_state D64 A B) = Some dir ->
  lb (-8) (if snd (gmove_distance D64 A B) return K D64 then gnorm4 D64 (gvscale D64 (gk_speed D64 B) dir) else gnorm3 D64 (gvscale D64 (gk_speed D64 B) dir)).
Proof.
  intros OA OB G D. assert (Hv : 1 / 100 <= gk_speed D64 B <= 1000) by apply OB.
  assert (W : forall x, about 300 x (gk_speed D64 B) -> lb (-8) x).
  { intros x [_ X]. apply lb_ge. rewrite (p2_neg 8). change (2 ^ Zpos 8)%Z with 256%Z. apply abs_inv in X. unfold uu in X. lra. }
  destruct G as [E|[[N X]|[L X]]].
  - rewrite (still_none binary64 binary64_0 A B E) in D. discriminate D.
  - destruct (turning_ready binary64 eta64 ltac:(inst) ltac:(inst) ltac:(inst) ltac:(inst) ltac:(inst) A B dir OA OB N X D) as (d & Ed & _ & _ & _ & _ & _ & _ & Hn). rewrite Ed. apply W, Hn.
  - destruct (moving_ready binary64 eta64 ltac:(inst) ltac:(inst) ltac:(inst) ltac:(inst) ltac:(inst) ltac:(inst) ltac:(inst) A B dir OA OB L D) as (d & Ed & _ & _ & _ & _ & _ & _ & Hn). rewrite Ed. apply W, Hn. lra.
Qed.
Lemma flag_same s s' n n' : sseg 100 s s' -> sseg 100 n n' -> gflag_correct Fk s n = gflag_correct D64 s' n'.
Proof.
  intros [_ _ _ _ _ V1] [_ _ _ _ V0 _]. unfold gflag_correct. cbv zeta. f_equal; [f_equal|]; cmp.
Qed.
Lemma continuity_same s s' n n' : sseg 100 s s' -> sseg 100 n n' -> sres eq (gcheck_continuity Fk s n) (gcheck_continuity D64 s' n').
Proof.
  intros [_ _ _ P1 _ _] [_ _ P0 _ _ _]. unfold gcheck_continuity.
  rewrite (veqb_same _ (gpos_end D64 s') _ (gpos_begin D64 n')) by (eapply sv_weaken; [eassumption|reflexivity]). destruct (gveqb D64 _ _); [reflexivity|].
  replace (k_ltb Fk (k_dec Fk 1 (-12)) (gnorm3 Fk (gvsub Fk (gvsub Fk (gpos_end Fk s) (gpos_begin Fk n)) (gzero Fk))))
    with (k_ltb D64 (k_dec D64 1 (-12)) (gnorm3 D64 (gvsub D64 (gvsub D64 (gpos_end D64 s') (gpos_begin D64 n')) (gzero D64)))).
  - match goal with |- sres _ (if ?c then _ else _) _ => destruct c end; reflexivity.
  - symmetry. cmp.
Qed.
Lemma warning_same a b : rb a b -> gadherence_warning Fk a = gadherence_warning D64 b.
Proof.
  intros [_ SB _ S _ _ _]. unfold gadherence_warning. pose proof (strong_sst _ _ SB) as [_ V _ _ _]. revert V. generalize (gk_speed Fk (gb_B Fk a)) (gk_speed D64 (gb_B D64 b)). intros v v' V.
  induction S as [|s s' r r' H S IH]; [reflexivity|]. cbn [existsb]. rewrite IH. f_equal.
  pose proof (settings_same v v' s s' ltac:(eapply sb_weaken; [exact V|reflexivity]) H) as G. unfold sres in G. destruct (gself_check_settings Fk v s), (gself_check_settings D64 v' s'); try contradiction; reflexivity.
Qed.

(** * Lines planned one after the other *)
Section Run.
Variable rs : list (gkstate D64).
Hypothesis Hord : forall n A, nth_error rs n = Some A -> ordinary_state A.
Hypothesis Hstep : forall n A B, nth_error rs n = Some A -> nth_error rs (S n) = Some B -> ordinary_step A B.
Hypothesis HN : INR (length rs) <= 1000000000.
Notation bok := (block_ok binary64 1 1000 10000 True rs).
Notation lnk := (links_to binary64 1 1000 10000 True rs).
Notation lnkd := (linked binary64 1 1000 10000 True rs).
Notation ld := (laid binary64 1 1000 10000 True rs).
Notation fine1 := (Hfine_ binary64 tiny_small rs Hord).
Notation fine2 := (Hfstep_ binary64 tiny_small rs Hord Hstep).
Notation fine3 := (HfineE_ binary64 rs Hord).
Notation fine4 := (HstepE_ binary64 tiny_small rs Hord Hstep).
Notation fine5 := (HN_ binary64 rs HN).
Definition few (l : list (gblock D64)) : Prop := (8 * num l + 16 <= many)%Z.
Lemma tiny_1 : tiny <= 1. Proof. pose proof tiny_small. lra. Qed.
Lemma tiny_4 : tiny <= 10000. Proof. pose proof tiny_small. lra. Qed.
Lemma sv_inside p p' : sv 100 p p' -> inside binary64 10000 True p' -> sv 18 p p'.
Proof.
  intros [X Y Z E] (BX & BY & BZ & BE). specialize (BE I).
  constructor; (eapply sb_le; [eassumption|]); (apply (num_le 18 20000); [|lia|cbn; lia]); lra.
Qed.
Record sprev (n : Z) (pv : gsegment Fk) (pv' : gsegment D64) : Prop := Sprev {
  p_t : sb 70 (gt_end Fk pv) (gt_end D64 pv'); p_p : sv 18 (gpos_end Fk pv) (gpos_end D64 pv'); p_v : sv 100 (gvel_end Fk pv) (gvel_end D64 pv'); p_n : tnear n 0 (gt_end D64 pv') }.
Lemma prev_same n A A' done done' idx : strong A A' -> nth_error rs n = Some A' -> Forall2 rb done done' -> Forall2 bok idx done' -> lnk n idx -> placed done' -> few done' ->
  sres (sprev (8 * num done')) (gprevious_segment Fk A (hd_error done)) (gprevious_segment D64 A' (hd_error done')).
Proof.
  intros SA EA F O L P N. pose proof (prev_near binary64 1 1000 10000 True tiny_small tiny_1 tiny_4 rs n A' idx done') as PN. destruct F as [|b b' done done' H F].
  - cbn [hd_error gprevious_segment sres]. pose proof (strong_sst _ _ SA) as [PA _ _ _ _]. constructor; cbn [gcreate_initial gt_end gpos_end gvel_end num length].
    + eapply sb_weaken; [apply sb_0|reflexivity].
    + eapply sv_weaken; [exact PA|reflexivity].
    + eapply sv_weaken; [apply sv_zero|reflexivity].
    + rewrite k0_D. apply tnear_0.
  - cbn [hd_error gprevious_segment] in *. destruct P as [P _]. destruct H as [_ _ _ S _ _ _]. pose proof (last_same _ _ _ _ S P) as G. revert G PN.
    destruct (glast_seg Fk (gb_segs Fk b)) as [s|e]; destruct (glast_seg D64 (gb_segs D64 b')) as [s'|e']; cbn [sres]; intros G PN; try contradiction; [|exact G].
    specialize (PN s' EA O L eq_refl). pose proof (inside_near binary64 1 1000 10000 True tiny_small tiny_1 tiny_4 rs fine1 fine3 fine5 n A' _ EA PN) as In.
    destruct G as ([T0 T1 P0 P1 V0 V1] & E0 & E1). unfold few, num in *. cbn [length] in *. rewrite Nat2Z.inj_succ in *.
    constructor; [eapply sb_le; [exact T1|]; apply (tnear_70 _ _ E1); lia|apply sv_inside; assumption|exact V1|]. eapply tnear_weak; [exact E1|lia].
Qed.
Lemma maker_same n A B A' B' dir dir' pv pv' ve ve' m : strong A A' -> strong B B' -> nth_error rs n = Some A' -> nth_error rs (S n) = Some B' ->
  gget_norm_dir D64 (gconnect_state D64 A' B') = Some dir' -> sv 45 dir dir' -> sprev m pv pv' -> sb 11 ve ve' ->
  sres (smove (gt_end D64 pv')) (gmove_maker2 Fk A B dir pv ve) (gmove_maker2 D64 A' B' dir' pv' ve').
Proof.
  intros SA SB EA EB D Sd [T P V _] Ve. apply move_same; [exact (strong_sst _ _ SA)|exact (strong_sst _ _ SB)|exact Sd|exact T|exact P|exact V|exact Ve|].
  apply ready_lb; [exact (strong_ord _ _ SA)|exact (strong_ord _ _ SB)|exact (step_gap _ _ (Hstep _ _ _ EA EB))|exact D].
Qed.
(** a block made beside a block made *)
Definition made (m : Z) (b : gblock Fk) (b' : gblock D64) : Prop := rb b b' /\ fresh b' /\ Forall (early (m + 3)) (gb_segs D64 b').
Lemma pause_sb B B' p p' : strong B B' -> gk_pause Fk B = Some p -> gk_pause D64 B' = Some p' -> sb 35 p p'.
Proof.
  intros [(_ & _ & _ & _ & P & _) (_ & _ & Bp)] E E'. rewrite E, E' in P. rewrite E' in Bp. split; [exact P|]. apply (num_le 35 1000000); [apply Rabs_le; lra|lia|cbn; lia].
Qed.
Lemma extruding_sst A A' B B' i : sst A A' -> sst B B' -> gpos_is_extruding Fk (gk_pos Fk A) (gk_pos Fk B) i = gpos_is_extruding D64 (gk_pos D64 A') (gk_pos D64 B') i.
Proof. intros [PA _ _ _ _] [PB _ _ _ _]. apply extruding_same; (eapply sv_weaken; [eassumption|reflexivity]). Qed.
Lemma acc_test B B' : strong B B' -> k_leb Fk (gk_acc Fk B) (k0 Fk) = k_leb D64 (gk_acc D64 B') (k0 D64).
Proof. intros S. pose proof (strong_sst _ _ S) as [_ _ Q _ _]. cmp. Qed.
Lemma plan_same fw n A B A' B' rest rest' done done' idx : strong A A' -> strong B B' -> nth_error rs n = Some A' -> nth_error rs (S n) = Some B' ->
  Forall2 strong rest rest' -> tame_steps B' rest' -> Forall2 rb done done' -> ld n idx done' -> placed done' -> few done' ->
  sres (same_opt (made (8 * num done'))) (gplanner_block Fk fw (Some A) B rest (hd_error done)) (gplanner_block D64 fw (Some A') B' rest' (hd_error done')).
Proof.
  intros SA SB EA EB Fr Ts F (O & _ & L) P N. unfold gplanner_block. rewrite (acc_test _ _ SB). destruct (k_leb D64 (gk_acc D64 B') (k0 D64)); [reflexivity|]. cbv zeta.
  change (gtarget_vel Fk (gmk_junction Fk (Some A) B rest)) with (gconnect_state Fk A B). change (gtarget_vel D64 (gmk_junction D64 (Some A') B' rest')) with (gconnect_state D64 A' B').
  pose proof (Hstep _ _ _ EA EB) as St. pose proof (strong_sst _ _ SA) as TA. pose proof (strong_sst _ _ SB) as TB.
  pose proof (gap_facts _ _ (strong_ord _ _ SA) (strong_ord _ _ SB) (step_gap _ _ St)) as Fc. destruct (dir_same _ _ _ _ TA TB Fc) as [Sd Sz].
  pose proof (junction_same fw _ _ _ _ _ _ SA SB Fr St Ts) as Sj. pose proof (prev_same n A A' done done' idx SA EA F O L P N) as Pv.
  eapply (sbind (same_opt (made (8 * num done')))).
  - destruct (gget_norm_dir Fk (gconnect_state Fk A B)) as [d|] eqn:D; destruct (gget_norm_dir D64 (gconnect_state D64 A' B')) as [d'|] eqn:D'; try contradiction; [|exact I].
    cbn [same_opt] in Sd. rewrite Sz. destruct (gnot_zero D64 (gconnect_state D64 A' B')); [|exact I].
    eapply sbind; [exact Pv|]. intros pv pv' Hp. eapply sbind; [exact (maker_same n A B A' B' d d' pv pv' _ _ _ SA SB EA EB D' Sd Hp Sj)|]. intros [segs ty] [segs' ty'] ((K1 & K2) & K3). cbn [fst snd] in *. subst ty'.
    cbn [sres same_opt]. split; [|split].
    + constructor; cbn [gb_A gb_B gb_dir gb_segs gb_type gb_extr gb_JD]; [exact SA|exact SB|exact Sd|exact K1|reflexivity|apply extruding_sst; assumption|]. eapply sv_weaken; [exact (sv_scale 11 45 _ _ _ _ Sj Sd eq_refl)|reflexivity].
    + exists (gt_end D64 pv'). exact K2.
    + cbn [gb_segs]. eapply Forall_impl; [|exact K2]. intros s K. apply early_soon with (2 := K). apply Hp.
  - intros ob ob' Ho. assert (Sp := proj1 SB). destruct Sp as (_ & _ & _ & _ & Sp & _). destruct (gk_pause Fk B) as [p|] eqn:E; destruct (gk_pause D64 B') as [p'|] eqn:E'; try contradiction; [|exact Ho].
    destruct F as [|b b' done done' Hb F]; [reflexivity|]. cbn [hd_error] in *. cbn [gprevious_segment] in Pv. pose proof (pause_sb _ _ _ _ SB E E') as Sq.
    eapply sbind; [exact Pv|]. intros pv pv' [pt pp pvv pn].
    eapply sbind; [apply mk_same; first [eapply sb_weaken; [sbs|reflexivity]|eapply sv_weaken; [first [exact pp|apply sv_zero]|reflexivity]]|].
    intros s s' (Ss & S0 & S1).
    assert (K : soon (gt_end D64 pv') s').
    { split; [rewrite S0; apply (tnear_weak 0); [apply tnear_0|lia]|]. rewrite S1. apply (tnear_weak (0 + 1)); [|lia]. apply tstep; [|apply tnear_0|apply Sq]. destruct pt as [_ pt]. eapply Rle_trans; [exact pt|]. apply pow2_mono; lia. }
    assert (G : forall a a' c c' dir dir' ty x, strong a a' -> strong c c' -> same_opt (sv 45) dir dir' -> made (8 * num (b' :: done')) (GBlock Fk a c dir [s] ty x (gzero Fk)) (GBlock D64 a' c' dir' [s'] ty x (gzero D64))).
    { intros a a' c c' dir dir' ty x Sa Sc Sd'. split; [|split].
      - constructor; cbn [gb_A gb_B gb_dir gb_segs gb_type gb_extr gb_JD]; [exact Sa|exact Sc|exact Sd'|constructor; [exact Ss|constructor]|reflexivity|reflexivity|eapply sv_weaken; [apply sv_zero|reflexivity]].
      - exists (gt_end D64 pv'). constructor; [exact K|constructor].
      - constructor; [|constructor]. exact (early_soon _ _ _ pn K). }
    destruct ob as [o|], ob' as [o'|]; try contradiction; cbn [sres same_opt].
    + destruct Ho as ([oA oB oD _ oT oE _] & _). rewrite oT, oE. apply G; assumption.
    + apply G; [exact SA|exact SB|exact I].
Qed.
Lemma first_plan fw A A' rest rest' : strong A A' -> sres (fun a b => a = None /\ b = None) (gplanner_block Fk fw None A rest None) (gplanner_block D64 fw None A' rest' None).
Proof.
  intros SA. unfold gplanner_block. rewrite (acc_test _ _ SA). destruct (k_leb D64 (gk_acc D64 A') (k0 D64)); [reflexivity|]. cbn [bind].
  destruct SA as [(_ & _ & _ & _ & Sp & _) _]. destruct (gk_pause Fk A), (gk_pause D64 A'); try contradiction; [reflexivity|split; reflexivity].
Qed.
Definition todo (b : gblock D64) : Prop := fresh b /\ Forall (early many) (gb_segs D64 b).
Lemma gen_same fw states : forall states' n A A' idx done done', strong A A' -> nth_error rs n = Some A' -> (forall i, nth_error states' i = nth_error rs (S n + i)) -> Forall2 strong states states' -> tame_steps A' states' ->
  Forall2 rb done done' -> ld n idx done' -> placed done' -> Forall todo done' -> (8 * (num done' + Z.of_nat (length states')) + 16 <= many)%Z ->
  sres (fun bl bl' => Forall2 rb bl bl' /\ Forall todo bl' /\ placed (rev bl') /\ (length bl' <= length done' + length states')%nat /\ exists idx', ld (n + length states') idx' (rev bl'))
    (ggen_blocks Fk fw (Some A) states done) (ggen_blocks D64 fw (Some A') states' done').
Proof.
  induction states as [|B states IH]; intros states' n A A' idx done done' SA EA Ht F T R LD P W N; inversion F as [|? B' ? states'' SB F' Q1 Q2]; subst.
  - cbn [ggen_blocks sres]. rewrite rev_involutive. split; [apply Forall2_rev_, R|]. split; [apply Forall_rev, W|]. split; [exact P|]. split; [rewrite rev_length; lia|]. exists idx. cbn [length]. rewrite Nat.add_0_r. exact LD.
  - cbn [ggen_blocks]. assert (EB : nth_error rs (S n) = Some B') by (rewrite <- (Nat.add_0_r (S n)), <- Ht; reflexivity). destruct T as [T1 T2].
    cbn [length] in N. assert (Nf : few done') by (unfold few; lia).
    eapply sbind_eq; [exact (plan_same fw n A B A' B' states states'' done done' idx SA SB EA EB F' T2 R LD P Nf)|]. intros ob ob' Ho _ Eo.
    destruct (plan_step binary64 eta64 1 1000 10000 True eta64_0 err64 binary64_pos binary64_neg binary64_0 two64 tiny_small eta_tiny tiny_1 ltac:(lra) ltac:(lra) tiny_4 rs fine1 fine2 fine3 fine4 fine5 fw n A' B' states'' idx done' ob' EA EB LD Eo) as (idx' & LD').
    assert (G : Forall2 rb (gadd_block Fk ob done) (gadd_block D64 ob' done') /\ placed (gadd_block D64 ob' done') /\ Forall todo (gadd_block D64 ob' done') /\ (length (gadd_block D64 ob' done') <= S (length done'))%nat).
    { destruct ob as [b|], ob' as [b'|]; try contradiction; cbn [gadd_block]; [|split; [exact R|split; [exact P|split; [exact W|lia]]]].
      destruct Ho as (Hb & Hf & He). destruct (Forall2_nil_iff_ _ _ _ (r_segs _ _ Hb)) as [Z|[Z Z']].
      - destruct Z as [Z Z']. rewrite Z, Z'. split; [exact R|split; [exact P|split; [exact W|lia]]].
      - destruct (gb_segs Fk b) eqn:Q; [contradiction Z; reflexivity|]. destruct (gb_segs D64 b') eqn:Q'; [contradiction Z'; reflexivity|]. rewrite <- Q' in *. split; [|split; [|split]].
        + constructor; assumption.
        + split; [|exact P]. eapply Forall_impl; [|exact He]. intros x X. eapply early_weak; [exact X|lia].
        + constructor; [|exact W]. split; [exact Hf|]. eapply Forall_impl; [|exact He]. intros x X. eapply early_weak; [exact X|]. unfold few in Nf. lia.
        + cbn [length]. lia. }
    destruct G as (G1 & G2 & G3 & G4).
    eapply sres_imp; [apply (IH states'' (S n) B B' idx' (gadd_block Fk ob done) (gadd_block D64 ob' done')); try assumption|].
    + intros i. change (nth_error states'' i) with (nth_error (B' :: states'') (S i)). rewrite Ht. f_equal. lia.
    + unfold num in *. lia.
    + intros bl bl' (K1 & K2 & K3 & K4 & idx2 & K5). split; [exact K1|]. split; [exact K2|]. split; [exact K3|]. split; [cbn [length]; lia|]. exists idx2. cbn [length]. rewrite <- Nat.add_succ_comm. exact K5.
Qed.

(** * Blocks corrected *)
Lemma remake_same ib ip b b' prevs prevs' ve ve' : rb b b' -> bok ib b' -> Forall2 rb prevs prevs' -> Forall2 bok ip prevs' -> lnk ib ip -> placed prevs' -> few prevs' -> sb 11 ve ve' ->
  sres (made (8 * num prevs')) (gremake Fk prevs b ve) (gremake D64 prevs' b' ve').
Proof.
  intros [SA SB Sd _ _ Se Sj] (EA & EB & Dd & _) F O L P N Ve. unfold gremake.
  destruct (gb_dir Fk b) as [d|] eqn:D; destruct (gb_dir D64 b') as [d'|] eqn:D'; try contradiction; [|reflexivity]. cbn [same_opt] in Sd.
  eapply sbind; [exact (prev_same ib _ _ prevs prevs' ip SA EA F O L P N)|]. intros pv pv' Hp.
  eapply sbind; [exact (maker_same ib _ _ _ _ d d' pv pv' ve ve' _ SA SB EA EB (Dd _ eq_refl) Sd Hp Ve)|]. intros [segs ty] [segs' ty'] ((K1 & K2) & K3). cbn [fst snd] in *. subst ty'.
  cbn [sres]. unfold gset_segs. rewrite D, D'. split; [|split].
  - constructor; cbn [gb_A gb_B gb_dir gb_segs gb_type gb_extr gb_JD]; [exact SA|exact SB|exact Sd|exact K1|reflexivity|exact Se|exact Sj].
  - exists (gt_end D64 pv'). exact K2.
  - cbn [gb_segs]. eapply Forall_impl; [|exact K2]. intros s K. apply early_soon with (2 := K). apply Hp.
Qed.
Lemma Forall_two {X} (P Q : X -> Prop) l : Forall P l -> Forall Q l -> Forall (fun x => P x /\ Q x) l.
Proof. induction 1; intros G; inversion G; subst; constructor; auto. Qed.
Definition corrected (k : nat) (x : list (gblock Fk) * gblock Fk * gblock Fk * bool) (y : list (gblock D64) * gblock D64 * gblock D64 * bool) : Prop :=
  let '(ps, b, n, w) := x in let '(ps', b', n', w') := y in
  Forall2 rb ps ps' /\ rb b b' /\ rb n n' /\ placed (n' :: b' :: ps') /\ length ps' = k /\ w = w'.
Lemma finish_same prevs prevs' b b' n n' m m' w t0 : Forall2 rb prevs prevs' -> rb b b' -> rb n n' -> placed (b' :: prevs') -> few (b' :: prevs') -> Forall (soon t0) (gb_segs D64 n') -> Forall (early many) (gb_segs D64 n') ->
  sseg 100 m m' -> soon t0 m' -> early many m' ->
  sres (corrected (length prevs'))
    (s1 <- glast_seg Fk (gb_segs Fk b) ;; let n1 := gtimeshift Fk (k_sub Fk (gt_end Fk s1) (gt_begin Fk m)) n in
     m1 <- gfirst_seg Fk (gb_segs Fk n1) ;; _ <- gcheck_continuity Fk s1 m1 ;; Ok (prevs, b, n1, w || gadherence_warning Fk b))
    (s1 <- glast_seg D64 (gb_segs D64 b') ;; let n1 := gtimeshift D64 (k_sub D64 (gt_end D64 s1) (gt_begin D64 m')) n' in
     m1 <- gfirst_seg D64 (gb_segs D64 n1) ;; _ <- gcheck_continuity D64 s1 m1 ;; Ok (prevs', b', n1, w || gadherence_warning D64 b')).
Proof.
  intros F Rb' Rn P N Ns Ne Sm [Mb _] [Eb _]. assert (P' := P). destruct P' as [Pb _].
  eapply sbind; [exact (last_same _ _ _ _ (r_segs _ _ Rb') Pb)|]. intros s1 s1' (Ss & E1 & E2). cbv zeta.
  unfold few, num in N. cbn [length] in N. rewrite Nat2Z.inj_succ in N.
  pose proof Sm as [mT0 _ _ _ _ _]. pose proof Ss as [_ sT1 _ _ _ _].
  assert (sT : sb 70 (gt_end Fk s1) (gt_end D64 s1')) by (eapply sb_le; [exact sT1|]; apply (tnear_70 _ _ E2); unfold num; lia).
  assert (mB : Rabs (gt_begin D64 m') <= p2 70) by (apply (tnear_70 _ _ Eb); lia).
  assert (mT : sb 70 (gt_begin Fk m) (gt_begin D64 m')) by (eapply sb_le; [exact mT0|exact mB]).
  assert (dT : sb 72 (k_sub Fk (gt_end Fk s1) (gt_begin Fk m)) (k_sub D64 (gt_end D64 s1') (gt_begin D64 m'))) by wk.
  assert (Rn1 : rb (gtimeshift Fk (k_sub Fk (gt_end Fk s1) (gt_begin Fk m)) n) (gtimeshift D64 (k_sub D64 (gt_end D64 s1') (gt_begin D64 m')) n')).
  { destruct Rn as [nA nB nD nS nT nE nJ]. unfold gtimeshift, gset_segs. constructor; cbn [gb_A gb_B gb_dir gb_segs gb_type gb_extr gb_JD]; try assumption.
    clear - nS Ne dT. revert dT. generalize (k_sub Fk (gt_end Fk s1) (gt_begin Fk m)) (k_sub D64 (gt_end D64 s1') (gt_begin D64 m')). intros d d' dT.
    induction nS as [|s s' r r' H S IH]; [constructor|]. inversion Ne as [|? ? [Q1 Q2] Q3]; subst. cbn [map]. constructor; [|apply IH, Q3]. destruct H as [T0 T1 P0 P1 V0 V1].
    assert (T0' : sb 70 (gt_begin Fk s) (gt_begin D64 s')) by (eapply sb_le; [exact T0|]; apply (tnear_70 _ _ Q1); lia).
    assert (T1' : sb 70 (gt_end Fk s) (gt_end D64 s')) by (eapply sb_le; [exact T1|]; apply (tnear_70 _ _ Q2); lia).
    constructor; cbn [gmove_segment_time gt_begin gt_end gpos_begin gpos_end gvel_begin gvel_end]; try assumption; wk. }
  assert (Early : Forall (early (8 * num (b' :: prevs') + 8)) (gb_segs D64 (gtimeshift D64 (k_sub D64 (gt_end D64 s1') (gt_begin D64 m')) n'))).
  { unfold gtimeshift, gset_segs. cbn [gb_segs]. apply Forall_map. eapply Forall_impl; [|exact (Forall_two _ _ _ Ns Ne)]. intros s ((S0 & S1) & (Q0 & Q1)).
    assert (Z : forall x, tnear (8 * num prevs' + 8 + 8) 0 x -> tnear (8 * num (b' :: prevs') + 8) 0 x). { intros x X. eapply tnear_weak; [exact X|]. unfold num. cbn [length]. lia. }
    split; cbn [gmove_segment_time gt_begin gt_end]; apply Z; apply (shift_time _ t0); try assumption; try (unfold num; lia); [apply (tnear_70 _ _ Q0); lia|apply (tnear_70 _ _ Q1); lia]. }
  eapply sbind; [exact (first_same _ _ _ _ (r_segs _ _ Rn1) Early)|]. intros m1 m1' (Sm1 & _).
  eapply sbind; [exact (continuity_same _ _ _ _ Ss Sm1)|]. intros [] [] _. cbn [sres]. unfold corrected.
  split; [exact F|]. split; [exact Rb'|]. split; [exact Rn1|]. split; [split; [exact Early|exact P]|]. split; [reflexivity|]. rewrite (warning_same _ _ Rb'). reflexivity.
Qed.
Lemma nil_same prevs prevs' b b' n n' : rb b b' -> rb n n' -> gb_segs D64 n' = [] ->
  exists e, gself_correction Fk prevs b n = Err e /\ gself_correction D64 prevs' b' n' = Err e.
Proof.
  intros [_ _ _ S _ _ _] [_ _ _ T _ _ _] Z. rewrite Z in T. inversion T as [Z'|]; subst. pose proof (last_same _ (fun _ => True) _ _ S ltac:(clear; induction (gb_segs D64 b'); constructor; auto)) as G.
  exists IndexError. assert (E : glast_seg Fk (gb_segs Fk b) = Err IndexError \/ exists s, glast_seg Fk (gb_segs Fk b) = Ok s) by (unfold glast_seg; destruct (rev (gb_segs Fk b)); eauto).
  assert (E' : glast_seg D64 (gb_segs D64 b') = Err IndexError \/ exists s, glast_seg D64 (gb_segs D64 b') = Ok s) by (unfold glast_seg; destruct (rev (gb_segs D64 b')); eauto).
  split.
  - destruct prevs; cbn [gself_correction]; rewrite <- Z'; destruct E as [->|[s ->]]; reflexivity.
  - destruct prevs'; cbn [gself_correction]; rewrite Z; destruct E' as [->|[s ->]]; reflexivity.
Qed.
Lemma first_speed i n' m' m : bok i n' -> gfirst_seg D64 (gb_segs D64 n') = Ok m' -> sseg 100 m m' -> 0 <= gnorm3 D64 (gvel_begin D64 m') <= 2 * 1000 /\ sb 11 (gnorm3 Fk (gvel_begin Fk m)) (gnorm3 D64 (gvel_begin D64 m')).
Proof.
  intros (_ & _ & _ & f & l & Ef & _ & _ & _ & G) E [_ _ _ _ V0 _]. rewrite E in Ef. injection Ef as <-. split; [exact G|].
  assert (S : sb 102 (gnorm3 Fk (gvel_begin Fk m)) (gnorm3 D64 (gvel_begin D64 m'))) by wk. apply (sb_le _ _ _ _ S). apply (num_le 11 2000); [apply Rabs_le; lra|lia|cbn; lia].
Qed.
Lemma correction_same prevs : forall prevs' ip ib i b b' n n', Forall2 rb prevs prevs' -> rb b b' -> rb n n' -> Forall2 bok ip prevs' -> bok ib b' -> bok i n' -> lnkd (i :: ib :: ip) ->
  placed (b' :: prevs') -> few (b' :: prevs') -> todo n' ->
  sres (corrected (length prevs')) (gself_correction Fk prevs b n) (gself_correction D64 prevs' b' n').
Proof.
  induction prevs as [|p ps IH]; intros prevs' ip ib i b b' n n' F Rb' Rn O Ob On L P N ((t0 & Ns) & Ne); inversion F as [|? p' ? ps' Rp F' Q1 Q2]; subst; cbn [gself_correction]; pose proof P as (Pb & Pp).
  - eapply sbind; [exact (last_same _ _ _ _ (r_segs _ _ Rb') Pb)|]. intros s s' (Ss & _).
    eapply sbind_eq; [exact (first_same _ _ _ _ (r_segs _ _ Rn) (Forall_two _ _ _ Ns Ne))|]. intros m m' (Sm & Mn & Me) _ Em.
    destruct (first_speed i n' m' m On Em Sm) as [Ve Sv]. rewrite (flag_same _ _ _ _ Ss Sm).
    eapply (sbind (fun x y => let '(q, c, w) := x in let '(q', c', w') := y in q = [] /\ q' = [] /\ rb c c' /\ Forall (early 8) (gb_segs D64 c') /\ w = w')).
    + destruct (gflag_correct D64 s' m'); [|cbn [sres]; auto].
      assert (Lb : lnk ib ip) by (destruct L as (_ & L & _); exact L). assert (Nf : few []) by (unfold few, num in *; cbn [length] in *; lia).
      eapply sbind; [apply (remake_same ib ip b b' [] []); assumption|]. intros c c' (Rc & _ & Ec). rewrite (r_ty _ _ Rc).
      destruct (gb_type D64 c') as [[]|]; cbn [sres]; try reflexivity; (split; [reflexivity|]; split; [reflexivity|]; split; [exact Rc|]; split; [|reflexivity]; eapply Forall_impl; [|exact Ec]; intros x X; eapply early_weak; [exact X|unfold num; cbn [length]; lia]).
    + intros [[q c] w] [[q' c'] w'] (-> & -> & Rc & Ec & <-). apply (finish_same [] [] c c' n n' m m' w t0); try assumption. split; [exact Ec|exact I].
  - eapply sbind; [exact (last_same _ _ _ _ (r_segs _ _ Rb') Pb)|]. intros s s' (Ss & _).
    eapply sbind_eq; [exact (first_same _ _ _ _ (r_segs _ _ Rn) (Forall_two _ _ _ Ns Ne))|]. intros m m' (Sm & Mn & Me) _ Em.
    destruct (first_speed i n' m' m On Em Sm) as [Ve Sv]. rewrite (flag_same _ _ _ _ Ss Sm). unfold few, num in N. cbn [length] in N.
    eapply (sbind (fun x y => let '(q, c, w) := x in let '(q', c', w') := y in Forall2 rb q q' /\ rb c c' /\ placed (c' :: q') /\ length q' = S (length ps') /\ w = w')).
    + destruct (gflag_correct D64 s' m'); [|cbn [sres]; auto].
      assert (Lb : lnk ib ip) by (destruct L as (_ & L & _); exact L). assert (Nf : few (p' :: ps')) by (unfold few, num; cbn [length]; lia).
      eapply sbind_eq; [apply (remake_same ib ip); eassumption|]. intros c c' (Rc & Fc & Ec) _ Er. rewrite (r_ty _ _ Rc).
      assert (Ec' : forall z, (8 * num (p' :: ps') + 3 <= z)%Z -> Forall (early z) (gb_segs D64 c')). { intros z Hz. eapply Forall_impl; [|exact Ec]. intros x X. eapply early_weak; [exact X|exact Hz]. }
      assert (Keep : Forall2 rb (p :: ps) (p' :: ps') /\ rb c c' /\ placed (c' :: p' :: ps') /\ length (p' :: ps') = S (length ps') /\ false = false).
      { split; [exact F|]. split; [exact Rc|]. split; [split; [apply Ec'; lia|exact Pp]|]. split; reflexivity. }
      destruct (gb_type D64 c') as [[]|]; try exact Keep.
      inversion O as [|j ? ip' ? Op O' Q1 Q2]; subst.
      assert (NE : gb_segs D64 c' = [] \/ gb_segs D64 c' <> []) by (destruct (gb_segs D64 c'); [left; reflexivity|right; discriminate]). destruct NE as [NE|NE].
      * destruct (nil_same ps ps' p p' c c' Rp Rc NE) as (e & -> & ->). reflexivity.
      * pose proof (remade_ok binary64 eta64 1 1000 10000 True eta64_0 err64 binary64_pos binary64_neg binary64_0 two64 tiny_small eta_tiny tiny_1 ltac:(lra) ltac:(lra) tiny_4 rs fine1 fine2 fine3 fine4 fine5 ib b' (p' :: ps') (j :: ip') _ c' Ob O Lb Ve Er NE) as Oc.
        destruct L as (_ & L). eapply sbind; [apply (IH ps' ip' j ib p p' c c'); try assumption; split; [exact Fc|apply Ec'; unfold num; cbn [length]; lia]|].
        intros [[[q x] y] w] [[[q' x'] y'] w'] (K1 & K2 & K3 & (K4 & K5) & K6 & K7). cbn [sres]. split; [constructor; assumption|]. split; [exact K3|]. split; [split; [exact K4|exact K5]|]. split; [cbn [length]; rewrite K6; reflexivity|exact K7].
    + intros [[q c] w] [[q' c'] w'] (Fq & Rc & Pc & Lc & <-). cbn [length]. rewrite <- Lc. apply (finish_same q q' c c' n n' m m' w t0); try assumption. unfold few, num. cbn [length]. rewrite Lc. lia.
Qed.
Lemma correct_same rest : forall rest' ip ib ir prevs prevs' b b', Forall2 rb prevs prevs' -> rb b b' -> Forall2 rb rest rest' -> Forall2 bok ip prevs' -> bok ib b' -> Forall2 bok ir rest' -> lnkd (rev ir ++ ib :: ip) ->
  placed (b' :: prevs') -> Forall todo rest' -> (8 * (num (b' :: prevs') + num rest') + 16 <= many)%Z ->
  sres (fun x y => Forall2 rb (fst x) (fst y) /\ snd x = snd y) (gcorrect_from Fk prevs b rest) (gcorrect_from D64 prevs' b' rest').
Proof.
  induction rest as [|n rest IH]; intros rest' ip ib ir prevs prevs' b b' F Rb' Fr O Ob Or L P T N; inversion Fr as [|? n' ? rest'' Rn Fr' Q1 Q2]; subst.
  - cbn [gcorrect_from sres fst snd]. split; [apply Forall2_rev_; constructor; assumption|apply warning_same, Rb'].
  - cbn [gcorrect_from]. inversion Or as [|i ? ir' ? On Or' Q1 Q2]; subst. inversion T as [|? ? Tn T']; subst. cbn [rev] in L. rewrite <- app_assoc in L. cbn [app] in L.
    unfold num in N. cbn [length] in N.
    assert (Nf : few (b' :: prevs')) by (unfold few, num; cbn [length]; lia).
    pose proof (linked_app binary64 1 1000 10000 True rs _ _ L) as L1.
    eapply sbind_eq; [exact (correction_same prevs prevs' ip ib i b b' n n' F Rb' Rn O Ob On L1 P Nf Tn)|]. intros [[[ps c] d] w] [[[ps' c'] d'] w'] (K1 & K2 & K3 & K4 & K5 & <-) _ E.
    destruct (corrected_ok binary64 eta64 1 1000 10000 True eta64_0 err64 binary64_pos binary64_neg binary64_0 two64 tiny_small eta_tiny tiny_1 ltac:(lra) ltac:(lra) tiny_4 rs fine1 fine2 fine3 fine4 fine5 prevs' ip ib i b' n' ps' c' d' w O Ob On L1 E) as (O1 & O2 & O3).
    eapply sbind; [apply (IH rest'' (ib :: ip) i ir' (c :: ps) (c' :: ps') d d'); try assumption; [constructor; assumption|constructor; assumption|unfold num; cbn [length]; lia]|].
    intros [bl v] [bl' v'] (G1 & G2). cbn [fst snd sres] in *. split; [exact G1|]. rewrite G2. reflexivity.
Qed.
Lemma placed_last x b : placed (x ++ [b]) -> Forall (early 8) (gb_segs D64 b).
Proof. induction x as [|y x IH]; cbn [app placed]; intros [P Q]; [exact P|exact (IH Q)]. Qed.
Notation rresult := (sres (fun x y => Forall2 rb (fst x) (fst y) /\ snd x = snd y)).
Lemma all_same fw s0 r0 s0' r0' : rs = s0' :: r0' -> strong s0 s0' -> Forall2 strong r0 r0' -> tame_steps s0' r0' -> rresult (gsimulate Fk fw (s0 :: r0)) (gsimulate D64 fw rs).
Proof.
  intros K S0 Fr T.
  - assert (Nn : (Z.of_nat (length rs) <= 1000000000)%Z) by (apply le_IZR; rewrite <- INR_IZR_INZ; exact HN). rewrite K in Nn. cbn [length] in Nn.
    assert (Nm : (many = 17179869184)%Z) by reflexivity.
    unfold gsimulate, ggenerate_planner_blocks. rewrite K at 1. cbn [ggen_blocks]. eapply (sbind (fun bl bl' => Forall2 rb bl bl' /\ Forall todo bl' /\ placed (rev bl') /\ (length bl' <= length r0')%nat /\ exists idx', ld (length r0') idx' (rev bl'))).
    + eapply sbind; [exact (first_plan fw s0 s0' r0 r0' S0)|]. intros a b [-> ->]. cbn [gadd_block].
      apply (gen_same fw r0 r0' 0 s0 s0' [] [] []); try assumption; [rewrite K; reflexivity|intros i; rewrite K; reflexivity|constructor|split; [constructor|split; exact I]|exact I|constructor|unfold num; cbn [length]; lia].
    + clear K. intros bl bl' (K1 & K2 & K3 & K4 & idx & (O & L & _)). unfold gtrajectory_self_correct. destruct K1 as [|b b' bl bl' Rb' F]; [cbn [sres fst snd]; split; [constructor|reflexivity]|].
      inversion K2 as [|? ? Tb Tr]; subst. apply Forall2_rev_ in O. rewrite rev_involutive in O. cbn [rev] in K3. apply placed_last in K3. rewrite <- (rev_involutive idx) in L.
      inversion O as [|ib ? ir ? Ob Or Q1 Q2]; subst. rewrite <- Q1 in L. cbn [rev] in L.
      apply (correct_same bl bl' [] ib ir [] [] b b'); try assumption; [constructor|constructor|split; [exact K3|exact I]|]. unfold num. cbn [length] in *. lia.
Qed.
End Run.

Lemma steps_nth rest : forall A, tame_steps A rest -> forall n X Y, nth_error (A :: rest) n = Some X -> nth_error (A :: rest) (S n) = Some Y -> ordinary_step X Y.
Proof.
  induction rest as [|B rest IH]; intros A T n X Y EX EY; [destruct n as [|[]]; discriminate|]. destruct T as [T1 T2]. destruct n as [|n]; [|exact (IH B T2 n X Y EX EY)].
  cbn [nth_error] in EX, EY. injection EX as <-. injection EY as <-. exact T1.
Qed.
Lemma simulation_strong fw ss rs : Forall2 same_state ss rs -> tame_program rs -> INR (length rs) <= 1000000000 ->
  sres (fun x y => Forall2 rb (fst x) (fst y) /\ snd x = snd y) (gsimulate Fk fw ss) (gsimulate D64 fw rs).
Proof.
  intros F (T & S) N. assert (G : Forall2 strong ss rs) by (clear - F T; induction F; constructor; inversion T; subst; [split; assumption|auto]).
  destruct G as [|s s' r r' G0 G]; [split; [constructor|reflexivity]|].
  apply (all_same (s' :: r')) with (s0' := s') (r0' := r'); try assumption; [|exact (steps_nth r' s' S)|reflexivity].
  intros n A E. rewrite Forall_forall in T. apply (T A (nth_error_In _ _ E)).
Qed.
Lemma simulation_same fw ss rs : Forall2 same_state ss rs -> tame_program rs -> INR (length rs) <= 1000000000 -> same_result (gsimulate Fk fw ss) (gsimulate D64 fw rs).
Proof.
  intros F T N. pose proof (simulation_strong fw ss rs F T N) as G. unfold sres in G. unfold same_result. destruct (gsimulate Fk fw ss) as [[bl w]|e]; destruct (gsimulate D64 fw rs) as [[bl' w']|e']; try contradiction; [|exact G].
  destruct G as [G1 G2]. cbn [fst snd] in *. split; [|exact G2]. clear - G1. induction G1; constructor; [apply rb_same; assumption|assumption].
Qed.
