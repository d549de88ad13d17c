(** The planner with doubles beside the planner with rounded real numbers, line
    after line. *)
From Coq Require Import Reals ZArith SpecFloat List Lia Lra.
From Verif Require Import Py Vec StateGen Junction Planner Rounding SpecRounding RoundingProofs Generic SpecGeneric SpecDrift SpecStop SpecIEEE IEEEProofs SpecBridge PropertiesIEEE RealFacts
  FloatMoveProofs FloatDriftProofs FloatPlanProofs FloatStopProofs PropertiesFloat BridgeProofs BridgeJunctionProofs.
Import ListNotations.
Open Scope R_scope.

Notation eta64 := (p2 (-1075)).
Lemma u_uu : p2 (-53) = uu. Proof. unfold uu. rewrite (p2_neg 53). reflexivity. Qed.
Lemma err64 x : Rabs (binary64 x - x) <= uu * Rabs x + eta64.
Proof. rewrite <- u_uu. apply binary64_rounds. Qed.
Lemma eta64_0 : 0 <= eta64. Proof. left. apply pow2_pos. Qed.
Lemma two64 : binary64 2 = 2. Proof. apply k2_D. Qed.
Lemma idem64 x : binary64 (binary64 x) = binary64 x. Proof. apply binary64_fix, binary64_double. Qed.
Ltac inst := first [exact eta64_0|exact err64|exact binary64_pos|exact binary64_neg|exact binary64_0|exact two64|exact b64_mono|exact idem64|exact tiny_small|exact eta_tiny|eassumption|lra].

(** * Directions *)
(** what the positions of two lines may be to each other *)
Definition gap (A B : gkstate D64) : Prop :=
  gk_pos D64 B = gk_pos D64 A \/ near 0 (gk_pos D64 B) (gk_pos D64 A) /\ 1 / 1000 <= extruded A B \/
  1 / 1000 <= length3 A B /\ extruded A B <= length3 A B.
Lemma step_gap A B : ordinary_step A B -> gap A B.
Proof. unfold ordinary_step, gap. destruct (gk_pause D64 B); [intros [_ H]; left; exact H|tauto]. Qed.
Lemma norm4_norm3 v : gnorm3 D64 v <= gnorm4 D64 v.
Proof.
  unfold gnorm3, gnorm4. cbn [Bk k_sqrt k_add k_mul]. set (S := binary64 (binary64 (binary64 _ + _) + _)). apply b64_mono, sqrt_le_1_alt.
  assert (E : binary64 S = S) by apply idem64. rewrite <- E at 1. apply b64_mono. pose proof (binary64_pos (ge _ v * ge _ v) (Rle_0_sqr _)). lra.
Qed.
Lemma about_lb c x v : 0 <= c <= 1000 -> 1 / 100 <= v -> Rabs (x - v) <= c * (uu * v) -> lb (-7) x.
Proof.
  intros C V A. apply lb_ge. rewrite (p2_neg 7). change (2 ^ Zpos 7)%Z with 128%Z. apply abs_le_inv in A. assert (c * (uu * v) <= 1000 * (uu * v)) by (apply Rmult_le_compat_r; [|lra]; apply Rmult_le_pos; [unfold uu|]; lra).
  unfold uu in *. lra.
Qed.
Record facts (A B : gkstate D64) : Prop := Facts {
  f_dist : zlb (-11) (gnorm3 D64 (gvsub D64 (gk_pos D64 B) (gk_pos D64 A)));
  f_ext : gnorm3 D64 (gvsub D64 (gk_pos D64 B) (gk_pos D64 A)) = 0 -> zlb (-11) (ge D64 (gvsub D64 (gk_pos D64 B) (gk_pos D64 A)));
  f_n3 : zlb (-7) (gnorm3 D64 (gconnect_state D64 A B));
  f_n4 : gnorm3 D64 (gconnect_state D64 A B) = 0 -> zlb (-7) (gnorm4 D64 (gconnect_state D64 A B)) }.
Lemma lb_99 d : 99 / 100000 <= d -> lb (-11) d.
Proof. intros D. apply lb_ge. rewrite (p2_neg 11). change (2 ^ Zpos 11)%Z with 2048%Z. lra. Qed.
Lemma still_zero3 v : gx D64 v = 0 -> gy D64 v = 0 -> gz D64 v = 0 -> gnorm3 D64 v = 0.
Proof. intros X Y Z. unfold gnorm3. rewrite X, Y, Z. cbn [Bk k_sqrt k_add k_mul]. repeat (rewrite ?Rmult_0_l, ?Rplus_0_l, ?sqrt_0, ?binary64_0). reflexivity. Qed.
Lemma near_back (A B : gkstate D64) : near 0 (gk_pos D64 B) (gk_pos D64 A) -> near 0 (gk_pos D64 A) (gk_pos D64 B).
Proof. intros (X & Y & Z). unfold near. rewrite (Rabs_minus_sym (gx _ (gk_pos _ A))), (Rabs_minus_sym (gy _ (gk_pos _ A))), (Rabs_minus_sym (gz _ (gk_pos _ A))). auto. Qed.
Lemma gap_facts A B : ordinary_state A -> ordinary_state B -> gap A B -> facts A B.
Proof.
  intros OA OB G. pose proof (ordinary_fine binary64 tiny_small B OB) as FB. assert (Hv : 1 / 100 <= gk_speed D64 B) by apply OB. pose proof tiny_small as [t0 t1].
  assert (St : near 0 (gk_pos D64 B) (gk_pos D64 A) -> gnorm3 D64 (gvsub D64 (gk_pos D64 B) (gk_pos D64 A)) = 0 /\ gnorm3 D64 (gconnect_state D64 A B) = 0).
  { intros N. split.
    - destruct (still_moved binary64 binary64_0 A B N) as (X & Y & Z). apply still_zero3; assumption.
    - destruct (still_connect binary64 binary64_0 A B N) as (X & Y & Z). apply still_zero3; assumption. }
  destruct G as [E|[[N X]|[L X]]].
  - assert (N : near 0 (gk_pos D64 B) (gk_pos D64 A)) by (apply near_same; exact E). destruct (St N) as [S1 S2]. constructor.
    + left. exact S1.
    + intros _. left. cbn [gvsub ge Bk k_sub]. rewrite E, Rminus_diag_eq by reflexivity. apply binary64_0.
    + left. exact S2.
    + intros _. left. pose proof (still_none binary64 binary64_0 A B E) as D. unfold gget_norm_dir in D. rewrite S2, k0_D in D. cbn [Bk k_ltb] in D.
      replace (Rltb 0 0) with false in D by (unfold Rltb; destruct (Rlt_dec 0 0); [lra|reflexivity]).
      destruct (Rltb 0 (gnorm4 (Bk binary64) (gconnect_state (Bk binary64) A B))) eqn:C; [discriminate|]. pose proof (norm4_nonneg (gconnect_state D64 A B)) as P. unfold Rltb in C. destruct (Rlt_dec _ _) in C; [discriminate|]. apply Rle_antisym; [lra|exact P].
  - destruct (St N) as [S1 S2]. unfold extruded in X. constructor.
    + left. exact S1.
    + intros _. right. cbn [gvsub ge Bk k_sub]. apply lb_round; [lia|]. constructor. eapply Rle_trans; [|exact X]. rewrite (p2_neg 11). change (2 ^ Zpos 11)%Z with 2048%Z. lra.
    + left. exact S2.
    + intros _. right. eapply (about_lb 9); [lra|exact Hv|]. rewrite <- Rmult_assoc. eapply x_norm; inst.
  - constructor.
    + right. apply lb_99. pose proof (d_pos binary64 eta64 ltac:(inst) ltac:(inst) ltac:(inst) ltac:(inst) ltac:(inst) A B ltac:(lra)) as P. rewrite (d_moved binary64 A B). lra.
    + intros Z. exfalso. rewrite (d_moved binary64 A B) in Z. pose proof (d_pos binary64 eta64 ltac:(inst) ltac:(inst) ltac:(inst) ltac:(inst) ltac:(inst) A B ltac:(lra)) as P. lra.
    + right. rewrite (connect_norm binary64 eta64) by inst. eapply (about_lb 37); [lra|exact Hv|]. rewrite <- Rmult_assoc. eapply v_near; inst.
    + intros Z. exfalso. rewrite (connect_norm binary64 eta64) in Z by inst. pose proof (v_pos binary64 eta64 1 1000 10000 ltac:(inst) ltac:(inst) ltac:(inst) ltac:(inst) ltac:(inst) A B FB ltac:(lra)) as P. lra.
Qed.
Lemma p2_10 : p2 10 = 1024. Proof. rewrite p2_Z by lia. reflexivity. Qed.
Lemma num_le h n r : Rabs r <= IZR n -> (0 <= h)%Z -> (n <= 2 ^ h)%Z -> Rabs r <= p2 h.
Proof. intros R H N. eapply Rle_trans; [exact R|]. apply p2_num; assumption. Qed.
Lemma sst_of a b : same_state a b -> tame b -> sst a b.
Proof.
  intros S T. pose proof S as ((X & Y & Z & E) & V & A & J & P & _). destruct T as ((Hv & Ha & Hj & Bx & By & Bz & Be) & _).
  constructor; [constructor; (split; [assumption|apply (num_le 14 10000); [assumption|lia|cbn; lia]])| | |lra|exact S]; (split; [assumption|]).
  - apply (num_le 10 1000); [apply Rabs_le; lra|lia|cbn; lia].
  - apply (num_le 17 100000); [apply Rabs_le; lra|lia|cbn; lia].
Qed.
Lemma sj_of a b : same_state a b -> tame b -> sb 10 (gk_jerk Fk a) (gk_jerk D64 b).
Proof. intros (_ & _ & _ & J & _) (_ & H & _). split; [exact J|]. apply (num_le 10 1000); [apply Rabs_le; lra|lia|cbn; lia]. Qed.
Lemma connect_same A B A' B' : sst A A' -> sst B B' -> facts A' B' -> sv 36 (gconnect_state Fk A B) (gconnect_state D64 A' B').
Proof.
  intros [PA _ _ _ _] [PB VB _ _ _] [D E _ _]. unfold gconnect_state. cbv zeta.
  assert (Sd : sv 15 (gvsub Fk (gk_pos Fk B) (gk_pos Fk A)) (gvsub D64 (gk_pos D64 B') (gk_pos D64 A'))) by wk.
  revert Sd D E. generalize (gvsub Fk (gk_pos Fk B) (gk_pos Fk A)) (gvsub D64 (gk_pos D64 B') (gk_pos D64 A')). intros d d' Sd D E.
  assert (Sn : sb 17 (gnorm3 Fk d) (gnorm3 D64 d')) by wk.
  assert (Z : forall l x, zlb l x -> k_ltb D64 (k0 D64) (k_abs D64 x) = true -> lb l x).
  { intros l x [->|L] C; [|exact L]. rewrite k0_D in C. cbn [Bk k_ltb k_abs] in C. apply Rltb_iff in C. rewrite Rabs_R0 in C. lra. }
  assert (S : sv 26 (if k_ltb Fk (k0 Fk) (k_abs Fk (gnorm3 Fk d)) then gvdiv Fk d (gnorm3 Fk d) else if k_ltb Fk (k0 Fk) (k_abs Fk (ge Fk d)) then gvdiv Fk d (k_abs Fk (ge Fk d)) else gzero Fk)
                    (if k_ltb D64 (k0 D64) (k_abs D64 (gnorm3 D64 d')) then gvdiv D64 d' (gnorm3 D64 d') else if k_ltb D64 (k0 D64) (k_abs D64 (ge D64 d')) then gvdiv D64 d' (k_abs D64 (ge D64 d')) else gzero D64)).
  { rewrite (ltb_same (k0 Fk) (k_abs Fk (gnorm3 Fk d)) (k0 D64) (k_abs D64 (gnorm3 D64 d'))) by (eapply sb_stands; sbs). destruct (k_ltb D64 (k0 D64) (k_abs D64 (gnorm3 D64 d'))) eqn:C1.
    - pose proof (Z _ _ D C1) as L1. exact (sv_div 15 17 (-11) _ _ _ _ Sd Sn L1 eq_refl).
    - assert (Se : sb 15 (ge Fk d) (ge D64 d')) by (destruct Sd; assumption). rewrite (ltb_same (k0 Fk) (k_abs Fk (ge Fk d)) (k0 D64) (k_abs D64 (ge D64 d'))) by (eapply sb_stands; sbs).
      destruct (k_ltb D64 (k0 D64) (k_abs D64 (ge D64 d'))) eqn:C2; [|eapply sv_weaken; [apply sv_zero|reflexivity]].
      assert (N0 : gnorm3 D64 d' = 0). { rewrite k0_D in C1. cbn [Bk k_ltb k_abs] in C1. unfold Rltb in C1. destruct (Rlt_dec 0 _) as [|C] in C1; [discriminate|]. pose proof (Rabs_pos (gnorm3 D64 d')). destruct (Req_dec (gnorm3 D64 d') 0) as [Q|Q]; [exact Q|]. exfalso. apply C. apply Rabs_pos_lt, Q. }
      pose proof (Z _ _ (E N0) C2) as [L1]. apply (sv_div 15 15 (-11)); [exact Sd|apply sb_abs, Se| |reflexivity]. constructor. cbn [Bk k_abs]. rewrite Rabs_Rabsolu. exact L1. }
  revert S. match goal with |- sv _ ?a ?b -> _ => generalize a b end. intros q q' S. exact (sv_scale 10 26 _ _ _ _ VB S eq_refl).
Qed.
Lemma dir_same A B A' B' : sst A A' -> sst B B' -> facts A' B' ->
  same_opt (sv 45) (gget_norm_dir Fk (gconnect_state Fk A B)) (gget_norm_dir D64 (gconnect_state D64 A' B')) /\ gnot_zero Fk (gconnect_state Fk A B) = gnot_zero D64 (gconnect_state D64 A' B').
Proof.
  intros SA SB F. pose proof (connect_same _ _ _ _ SA SB F) as S. destruct F as [_ _ N3 N4]. revert S N3 N4. generalize (gconnect_state Fk A B) (gconnect_state D64 A' B'). intros c c' S N3 N4.
  assert (S3 : sb 38 (gnorm3 Fk c) (gnorm3 D64 c')) by wk. assert (S4 : sb 38 (gnorm4 Fk c) (gnorm4 D64 c')) by wk.
  assert (E4 : k_ltb Fk (k0 Fk) (gnorm4 Fk c) = k_ltb D64 (k0 D64) (gnorm4 D64 c')) by cmp. split; [|exact E4].
  unfold gget_norm_dir. rewrite (ltb_same (k0 Fk) (gnorm3 Fk c) (k0 D64) (gnorm3 D64 c')) by (eapply sb_stands; sbs). rewrite E4.
  destruct (k_ltb D64 (k0 D64) (gnorm3 D64 c')) eqn:C.
  - cbn [same_opt]. eapply sv_weaken; [exact (sv_div 36 38 (-7) _ _ _ _ S S3 (zlb_pos _ _ N3 C) eq_refl)|reflexivity].
  - assert (N0 : gnorm3 D64 c' = 0). { rewrite k0_D in C. cbn [Bk k_ltb] in C. unfold Rltb in C. destruct (Rlt_dec 0 _) as [|Q] in C; [discriminate|]. apply Rle_antisym; [lra|apply norm3_nonneg]. }
    destruct (k_ltb D64 (k0 D64) (gnorm4 D64 c')) eqn:C2; [|exact I]. cbn [same_opt]. eapply sv_weaken; [exact (sv_div 36 38 (-7) _ _ _ _ S S4 (zlb_pos _ _ (N4 N0) C2) eq_refl)|reflexivity].
Qed.
(** * The next line that moves *)
Definition strong (a : gkstate Fk) (b : gkstate D64) : Prop := same_state a b /\ tame b.
Lemma strong_sst a b : strong a b -> sst a b. Proof. intros [S T]. apply sst_of; assumption. Qed.
Lemma strong_ord a b : strong a b -> ordinary_state b. Proof. intros [_ [O _]]. exact O. Qed.
Lemma gap_moved (X B s : gkstate D64) : gk_pos D64 X = gk_pos D64 B -> gap X s -> gap B s.
Proof. unfold gap, extruded, length3, near. intros ->. exact (fun H => H). Qed.
Lemma gap_same (B : gkstate D64) : gap B B. Proof. left. reflexivity. Qed.
Lemma extruded_back (A B : gkstate D64) : extruded A B = extruded B A. Proof. unfold extruded. apply Rabs_minus_sym. Qed.
Lemma length_back (A B : gkstate D64) : length3 A B = length3 B A.
Proof. unfold length3. cbv zeta. f_equal. ring. Qed.
Lemma unseen B s : ordinary_state s -> ordinary_state B -> gap B s -> k_ltb D64 (k0 D64) (gt_distance D64 (gk_pos D64 B) (gk_pos D64 s) true) = false -> gk_pos D64 s = gk_pos D64 B.
Proof.
  intros Os OB G C. assert (Z : gnorm4 D64 (gvsub D64 (gk_pos D64 B) (gk_pos D64 s)) <= 0).
  { rewrite k0_D in C. cbn [Bk k_ltb] in C. unfold Rltb in C. destruct (Rlt_dec 0 _) as [|Q] in C; [discriminate|]. apply Rnot_lt_le in Q. exact Q. }
  clear C. pose proof tiny_small as [t0 t1]. destruct G as [E|[[N X]|[L X]]]; [exact E| |]; exfalso.
  - rewrite extruded_back in X. unfold extruded in X. destruct (x_d binary64 eta64 ltac:(inst) ltac:(inst) ltac:(inst) ltac:(inst) s B (near_back _ _ N) ltac:(lra)) as (d & Ed & Nd).
    assert (Ed' : gnorm4 D64 (gvsub D64 (gk_pos D64 B) (gk_pos D64 s)) = d). { unfold gmove_distance in Ed. cbv zeta in Ed. destruct (k_eqb _ _ _) in Ed; [|discriminate Ed]. apply (f_equal fst) in Ed. exact Ed. }
    rewrite Ed' in Z. apply abs_inv in Nd. unfold uu in *. lra.
  - rewrite length_back in L. pose proof (d_pos binary64 eta64 ltac:(inst) ltac:(inst) ltac:(inst) ltac:(inst) ltac:(inst) s B ltac:(lra)) as P. rewrite <- (d_moved binary64 s B) in P.
    pose proof (norm4_norm3 (gvsub D64 (gk_pos D64 B) (gk_pos D64 s))). lra.
Qed.
Lemma next_same rest : forall rest' B B' X', strong B B' -> Forall2 strong rest rest' -> gk_pos D64 X' = gk_pos D64 B' -> tame_steps X' rest' ->
  strong (gfind_next_state Fk B rest) (gfind_next_state D64 B' rest') /\ gap B' (gfind_next_state D64 B' rest').
Proof.
  induction rest as [|s rest IH]; intros rest' B B' X' SB F P T; inversion F as [|? s' ? r' Ss F' Q1 Q2]; subst; [split; [exact SB|apply gap_same]|].
  destruct T as [T1 T2]. pose proof (gap_moved _ _ _ P (step_gap _ _ T1)) as G.
  destruct F' as [|s2 s2' rest r' S2 F']; [split; [exact Ss|exact G]|]. cbn [gfind_next_state].
  pose proof (strong_sst _ _ SB) as [PB _ _ _ _]. pose proof (strong_sst _ _ Ss) as [Ps _ _ _ _].
  assert (E : k_ltb Fk (k0 Fk) (gt_distance Fk (gk_pos Fk B) (gk_pos Fk s) true) = k_ltb D64 (k0 D64) (gt_distance D64 (gk_pos D64 B') (gk_pos D64 s') true)) by (unfold gt_distance; cmp).
  rewrite E. clear E. destruct (k_ltb D64 (k0 D64) (gt_distance D64 (gk_pos D64 B') (gk_pos D64 s') true)) eqn:C; [split; [exact Ss|exact G]|].
  pose proof (unseen B' s' (strong_ord _ _ Ss) (strong_ord _ _ SB) G C) as Eq. apply (IH (s2' :: r') B B' s'); [exact SB|constructor; assumption|exact Eq|exact T2].
Qed.
Lemma junction_same fw A B A' B' rest rest' : strong A A' -> strong B B' -> Forall2 strong rest rest' -> ordinary_step A' B' -> tame_steps B' rest' ->
  sb 11 (gjunction_vel Fk fw (gmk_junction Fk (Some A) B rest) B) (gjunction_vel D64 fw (gmk_junction D64 (Some A') B' rest') B').
Proof.
  intros SA SB F St Ts. pose proof (strong_sst _ _ SA) as TA. pose proof (strong_sst _ _ SB) as TB.
  destruct (next_same rest rest' B B' B' SB F eq_refl Ts) as [Sn Gn]. pose proof (strong_sst _ _ Sn) as Tn.
  pose proof (gap_facts A' B' (strong_ord _ _ SA) (strong_ord _ _ SB) (step_gap _ _ St)) as F0.
  pose proof (gap_facts B' _ (strong_ord _ _ SB) (strong_ord _ _ Sn) Gn) as F1.
  pose proof (connect_same _ _ _ _ TA TB F0) as S0. pose proof (connect_same _ _ _ _ TB Tn F1) as S1.
  assert (Bd : 0 <= gjunction_vel D64 fw (gmk_junction D64 (Some A') B' rest') B' <= 2 * 1000).
  { pose proof tiny_small as [t0 t1]. eapply (junction_le binary64 eta64 1 1000 10000); try inst; [lra..|exact (ordinary_fine binary64 tiny_small B' (strong_ord _ _ SB))|].
    destruct (step_gap _ _ St) as [E|[[N _]|[L _]]]; [left; apply near_same; exact E|left; exact N|right; lra]. }
  assert (G : sb 200 (gjunction_vel Fk fw (gmk_junction Fk (Some A) B rest) B) (gjunction_vel D64 fw (gmk_junction D64 (Some A') B' rest') B')).
  { unfold gmk_junction. cbv zeta. cbn [gconnect_state_opt]. revert Sn Gn Tn F1 S1. generalize (gfind_next_state Fk B rest) (gfind_next_state D64 B' rest'). intros n n' Sn Gn Tn F1 S1.
    pose proof TB as [PB VB AB LB _]. pose proof Tn as [Pn _ _ _ _]. pose proof (sj_of _ _ (proj1 SB) (proj2 SB)) as J.
    assert (Pj : 0 <= gk_jerk D64 B') by apply (strong_ord _ _ SB). assert (Jz : gk_jerk D64 B' = 0 \/ 1 / 1000 <= gk_jerk D64 B') by (destruct SB as [_ (_ & [Q|Q] & _)]; [left; exact Q|right; apply Q]).
    assert (Sd : sb 17 (gnorm3 Fk (gvsub Fk (gk_pos Fk n) (gk_pos Fk B))) (gnorm3 D64 (gvsub D64 (gk_pos D64 n') (gk_pos D64 B')))) by wk.
    destruct F0 as [_ _ Z0 _], F1 as [_ _ Z1 _].
    destruct fw; cbn [gjunction_vel gtarget_vel gvel_next gjt_distance].
    - exact (JD_same _ _ _ _ _ _ _ _ _ _ S0 S1 Z0 Z1 AB LB J Pj VB).
    - exact (klipper_same _ _ _ _ _ _ _ _ _ _ _ _ S0 S1 Z0 Z1 AB LB J VB Sd (norm3_nonneg _)).
    - exact (jerk_same _ _ _ _ _ _ S0 S1 J Pj Jz).
    - exact (mka_same _ _ _ _ _ _ S0 S1 Z0 J Pj).
    - eapply sb_weaken; [apply sb_0|reflexivity]. }
  apply (sb_le _ _ _ _ G). apply (num_le 11 2000); [apply Rabs_le; lra|lia|cbn; lia].
Qed.
