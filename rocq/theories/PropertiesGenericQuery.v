(** C115: queries with doubles.  Vocabulary: SpecGenericQuery.v, SpecFind.v. *)
From Coq Require Import Reals ZArith SpecFloat List Lia Lra.
From Verif Require Import Py Vec Segment StateGen Junction Planner Interp Query Rounding SpecRounding RoundingProofs Generic SpecGeneric GenericProofs SpecKin SpecQuery SpecFind SpecIEEE IEEEProofs PropertiesIEEE SpecBridge GenericQuery SpecGenericQuery
  PropertiesFloat BridgeProofs RealFacts QueryFloatProofs BridgeRunProofs PropertiesBridge SpecSearch PropertiesFind Texts PropertiesPlan PropertiesQuery PropertiesFail.
Import ListNotations.
Open Scope R_scope.

(** * With exact numbers they are the queries of Query.v *)
Definition tosim (s : gsim Rk) : sim := Sim (map toblock (gblocklist Rk s)) (goutput_unit_system Rk s) (glast_index Rk s).
Definition tofound (f : gfound Rk) : found := match f with GAt _ s i => At (toseg s) i | GNoMovement _ => NoMovement | GNothing _ => Nothing end.
Lemma fresh_R path t : forall i, tofound (gscan_fresh Rk path t i) = scan_fresh (map toseg path) t i.
Proof. induction path as [|s path IH]; intros i; [reflexivity|]. cbn [gscan_fresh scan_fresh map]. change (k_leb Rk) with Rleb. change (k_ltb Rk) with Rltb. cbn [toseg t_begin t_end].
  destruct (Rleb (gt_begin Rk s) t && Rltb t (gt_end Rk s)); [reflexivity|apply IH]. Qed.
Lemma from_R path t : forall i, tofound (gscan_from Rk path t i) = scan_from (map toseg path) t i.
Proof. induction path as [|s path IH]; intros i; [reflexivity|]. cbn [gscan_from scan_from map]. change (k_leb Rk) with Rleb. cbn [toseg t_begin t_end].
  destruct (Rleb (gt_begin Rk s) t && Rleb t (gt_end Rk s)); [reflexivity|apply IH]. Qed.
Lemma anew_R path t last : gsearch_anew Rk path t last = search_anew (map toseg path) t last.
Proof. destruct last as [i|]; [|reflexivity]. unfold gsearch_anew, search_anew. rewrite nth_error_map. destruct (nth_error path i); reflexivity. Qed.
Lemma skipn_map_ {A B} (f : A -> B) : forall n l, skipn n (map f l) = map f (skipn n l).
Proof. induction n as [|n IH]; intros [|x l]; cbn; try reflexivity. apply IH. Qed.
Lemma find_R path t last : rmap tofound (gfind_current_segment Rk path t last) = find_current_segment (map toseg path) t last.
Proof.
  unfold gfind_current_segment, find_current_segment. rewrite rmap_bind. rewrite <- last_seg_R, bind_rmap. apply bind_ext. intros l _. change (k_ltb Rk) with Rltb. cbn [toseg t_end].
  destruct (Rltb (gt_end Rk l) t); [reflexivity|]. rewrite <- anew_R. destruct (gsearch_anew Rk path t last); [cbn [rmap]; rewrite fresh_R; reflexivity|].
  cbv zeta. rewrite skipn_map_, <- from_R. destruct (gscan_from Rk _ t _); reflexivity.
Qed.
Lemma unpack_R bl : map toseg (gunpack_blocklist Rk bl) = unpack_blocklist (map toblock bl).
Proof. unfold gunpack_blocklist, unpack_blocklist. induction bl as [|b bl IH]; [reflexivity|]. cbn [map concat flat_map]. rewrite map_app, IH. reflexivity. Qed.
Lemma factor_R s unit : gget_scaling_factor Rk s unit = get_scaling_factor (tosim s) unit.
Proof.
  unfold gget_scaling_factor, get_scaling_factor, dindex. set (u := match unit with Some u => u | None => _ end).
  change (match unit with Some u => u | None => output_unit_system (tosim s) end) with u. unfold goutput_units, output_units. cbn [dget].
  destruct (str_eqb u (S_ "SI")); [f_equal; cbn; lra|]. destruct (str_eqb u (S_ "SImm")); [reflexivity|]. destruct (str_eqb u (S_ "inch")); [f_equal; cbn; lra|reflexivity].
Qed.
Theorem C115_exact_numbers s t unit : let r := gget_values Rk s t unit in
  get_values (tosim s) t unit = (rmap (fun vp => (to4 (fst vp), to4 (snd vp))) (fst r), snd r).
Proof.
  unfold get_values, gget_values. cbn [tosim blocklist last_index]. rewrite <- unpack_R, <- find_R.
  destruct (gfind_current_segment Rk _ t _) as [f|e]; [|reflexivity]. cbn [rmap]. destruct f as [g i| |]; [|reflexivity|reflexivity]. cbn [tofound fst snd].
  f_equal. rewrite <- factor_R. unfold get_velocity, get_position, gget_velocity, gget_position.
  change (out_of_range (toseg g) t) with (gout_of_range Rk g t). destruct (gout_of_range Rk g t); [reflexivity|]. cbn [bind].
  destruct (gget_scaling_factor Rk s unit) as [c|]; [|reflexivity]. cbn [bind rmap fst snd]. unfold vel_at, pos_at, gvel_at, gpos_at, vel_at, gvel_at. cbv zeta. change (k_ltb Rk) with Rltb. change (k0 Rk) with 0.
  cbn [toseg t_end t_begin]. change (k_sub Rk) with Rminus. destruct (Rltb 0 (gt_end Rk g - gt_begin Rk g)); reflexivity.
Qed.

(** * With doubles: the search *)
Definition numfound (f : gfound Fk) : found := match f with GAt _ s i => At (num_seg s) i | GNoMovement _ => NoMovement | GNothing _ => Nothing end.
Definition timed (s : gsegment Fk) : Prop := proper (gt_begin Fk s) /\ proper (gt_end Fk s).
Lemma leb_num x y : proper x -> proper y -> k_leb Fk x y = Rleb (fval x) (fval y).
Proof. intros X Y. apply (leb_same x y (fval x) (fval y)); split; auto. Qed.
Lemma ltb_num x y : proper x -> proper y -> k_ltb Fk x y = Rltb (fval x) (fval y).
Proof. intros X Y. apply (ltb_same x y (fval x) (fval y)); split; auto. Qed.
Lemma fresh_num path t : proper t -> Forall timed path -> forall i, numfound (gscan_fresh Fk path t i) = scan_fresh (map num_seg path) (fval t) i.
Proof. intros T F. induction F as [|s path [A B] F IH]; intros i; [reflexivity|]. cbn [gscan_fresh scan_fresh map]. rewrite leb_num, ltb_num by assumption. cbn [num_seg t_begin t_end].
  destruct (Rleb (fval (gt_begin Fk s)) (fval t) && Rltb (fval t) (fval (gt_end Fk s))); [reflexivity|apply IH]. Qed.
Lemma from_num path t : proper t -> Forall timed path -> forall i, numfound (gscan_from Fk path t i) = scan_from (map num_seg path) (fval t) i.
Proof. intros T F. induction F as [|s path [A B] F IH]; intros i; [reflexivity|]. cbn [gscan_from scan_from map]. rewrite !leb_num by assumption. cbn [num_seg t_begin t_end].
  destruct (Rleb (fval (gt_begin Fk s)) (fval t) && Rleb (fval t) (fval (gt_end Fk s))); [reflexivity|apply IH]. Qed.
Lemma anew_num path t last : proper t -> Forall timed path -> gsearch_anew Fk path t last = search_anew (map num_seg path) (fval t) last.
Proof. intros T F. destruct last as [i|]; [|reflexivity]. unfold gsearch_anew, search_anew. rewrite nth_error_map. destruct (nth_error path i) as [s|] eqn:E; [|reflexivity]. cbn [option_map].
  rewrite Forall_forall in F. destruct (F s (nth_error_In _ _ E)). apply ltb_num; assumption. Qed.
Lemma last_num path : rmap num_seg (glast_seg Fk path) = last_seg (map num_seg path).
Proof. unfold glast_seg, last_seg. rewrite <- map_rev. destruct (rev path); reflexivity. Qed.
Lemma Forall_skipn {A} (P : A -> Prop) : forall n l, Forall P l -> Forall P (skipn n l).
Proof. induction n as [|n IH]; intros l H; [exact H|]. destruct H; cbn; [constructor|apply IH; assumption]. Qed.
Lemma find_num path t last : proper t -> Forall timed path -> rmap numfound (gfind_current_segment Fk path t last) = find_current_segment (map num_seg path) (fval t) last.
Proof.
  intros T F. unfold gfind_current_segment, find_current_segment. rewrite rmap_bind. rewrite <- last_num, bind_rmap. apply bind_ext. intros l El.
  assert (Tl : timed l). { unfold glast_seg in El. destruct (rev path) as [|x r] eqn:R; [discriminate|]. injection El as ->. rewrite Forall_forall in F. apply F, in_rev. rewrite R. left. reflexivity. }
  rewrite ltb_num by (apply Tl || exact T). cbn [num_seg t_end].
  destruct (Rltb (fval (gt_end Fk l)) (fval t)); [reflexivity|]. rewrite <- anew_num by assumption. destruct (gsearch_anew Fk path t last); [cbn [rmap]; rewrite fresh_num by assumption; reflexivity|].
  cbv zeta. rewrite skipn_map_, <- from_num by (try apply Forall_skipn; assumption). destruct (gscan_from Fk _ t _); reflexivity.
Qed.

(** * With doubles: the values of a segment *)
Lemma p100 : 2 ^ 100 = p2 100. Proof. change (p2 100) with (2 ^ Pos.to_nat 100). f_equal. Qed.
Lemma two_ten : 2 ^ 100 <= 10 ^ 31.
Proof. replace (2 ^ 100) with ((2 ^ 10) ^ 10) by ring. apply Rle_trans with ((1024) ^ 10); [apply pow_incr; cbn; lra|]. rewrite !pow_IZR. apply IZR_le. vm_compute. discriminate. Qed.
Lemma p200 : p2 (-200) <= / 10 ^ 50.
Proof. change (p2 (-200)) with (/ 2 ^ 200). apply Rinv_le_contravar; [apply pow_lt; lra|]. rewrite !pow_IZR. apply IZR_le. vm_compute. discriminate. Qed.
Definition val_seg (s : gsegment Fk) : gsegment D64 :=
  GSeg D64 (fval (gt_begin Fk s)) (fval (gt_end Fk s)) (value_vec (gpos_begin Fk s)) (value_vec (gpos_end Fk s)) (value_vec (gvel_begin Fk s)) (value_vec (gvel_end Fk s)).
Lemma sv_value v : proper_vec v -> moderate_vec (num_vec v) -> sv 100 v (value_vec v).
Proof.
  intros (X & Y & Z & E) M. inversion M as [|? ? M1 M']; subst. inversion M' as [|? ? M2 M'']; subst. inversion M'' as [|? ? M3 M3']; subst. inversion M3' as [|? ? M4 _]; subst.
  cbn [num_vec vx vy vz ve] in *. rewrite p100 in *. constructor; cbn [value_vec gx gy gz ge]; (split; [split; [assumption|reflexivity]|assumption]).
Qed.
Lemma dbl x : proper x -> binary64 (fval x) = fval x.
Proof. intros P. apply binary64_fix, proper_double, P. Qed.
Lemma sb_self h x r : sb h x r -> sb h x (fval x).
Proof. intros [[P <-] B]. split; [split; [exact P|reflexivity]|exact B]. Qed.
Lemma sv_self h v w : sv h v w -> sv h v (value_vec v).
Proof. intros [A B C D]. constructor; cbn [value_vec gx gy gz ge]; eapply sb_self; eassumption. Qed.
Lemma values_at s t :
  proper_seg s -> moderate_seg (num_seg s) -> lasting (num_seg s) -> proper t -> t_begin (num_seg s) <= fval t <= t_end (num_seg s) ->
  exists v p, gget_velocity Fk s t = Ok v /\ gget_position Fk s t = Ok p /\ sv 500 v (value_vec v) /\ sv 800 p (value_vec p) /\
    answer_right (num_seg s) (fval t) (num_vec v) (num_vec p).
Proof.
  intros (T0 & T1 & P0 & P1 & V0 & V1) (M0 & M1 & MP & MV0 & MV1) L T R. cbn [num_seg t_begin t_end pos_begin pos_end vel_begin vel_end] in *.
  assert (O : gout_of_range Fk s t = false). { unfold gout_of_range. rewrite !ltb_num by assumption. rewrite !Rltb_false by lra. reflexivity. }
  unfold gget_velocity, gget_position. rewrite O. exists (gvel_at Fk s t), (gpos_at Fk s t). split; [reflexivity|]. split; [reflexivity|].
  rewrite p100 in M0, M1. assert (Mt : Rabs (fval t) <= p2 100) by (apply abs_le_inv in M0; apply abs_le_inv in M1; apply Rabs_le; lra).
  assert (L' : gt_begin D64 (val_seg s) = gt_end D64 (val_seg s) \/ lb (-200) (gt_end D64 (val_seg s) - gt_begin D64 (val_seg s))).
  { unfold lasting in L. cbn [num_seg t_begin t_end val_seg gt_begin gt_end] in *. destruct L as [L|L]; [left; lra|right]. constructor. pose proof p200. pose proof (pow2_pos (-200)). rewrite Rabs_right; lra. }
  destruct (at_same s (val_seg s) t (fval t)) as [SV SP]; try assumption; cbn [val_seg gt_begin gt_end gpos_begin gvel_begin gvel_end];
    try (split; [split; [assumption|reflexivity]|assumption]); try (apply sv_value; assumption).
  split; [exact (sv_self _ _ _ SV)|]. split; [exact (sv_self _ _ _ SP)|]. apply sv_same in SV. apply sv_same in SP.
  destruct SV as ((_ & VX) & (_ & VY) & (_ & VZ) & (_ & VE)). destruct SP as ((_ & PX) & (_ & PY) & (_ & PZ) & (_ & PE)).
  set (T' := fval (gt_end Fk s) - fval (gt_begin Fk s)). set (tau := fval t - fval (gt_begin Fk s)).
  unfold moderate_vec in *. repeat match goal with H : Forall _ (_ :: _) |- _ => let h1 := fresh "q" in let h2 := fresh "w" in inversion H as [|? ? h1 h2]; subst; clear H end.
  cbn [num_seg num_vec t_begin t_end pos_begin pos_end vel_begin vel_end vx vy vz ve] in *.
  unfold answer_right. eexists _, _. split; [split; [exact R|split; reflexivity]|]. cbn [num_seg num_vec t_begin t_end pos_begin pos_end vel_begin vel_end vx vy vz ve vadd vscale vsub].
  rewrite VX, VY, VZ, VE, PX, PY, PZ, PE. fold T' tau. pose proof two_ten as tt.
  unfold lasting in L. cbn [num_seg t_begin t_end] in L.
  destruct L as [L|L].
  - (* no time at all *)
    assert (Tz : T' = 0) by (unfold T'; lra). assert (tz : tau = 0) by (unfold tau; lra).
    assert (AX : forall p v0 v1 a b, binary64 v0 = v0 -> binary64 p = p ->
       a = binary64 (v0 + binary64 (0 * 0)) -> b = binary64 (p + binary64 (binary64 (binary64 (v0 + a) * 0) / 2)) ->
       axis_right (p + (v0 + (v1 - v0) * (tau / T' / 2)) * tau) (v0 + (v1 - v0) * (tau / T')) b a v0 v1 tau).
    { intros p v0 v1 a b Bv Bp Ea Eb.
      assert (Ea' : a = v0) by (rewrite Ea, Rmult_0_r, binary64_0, Rplus_0_r; exact Bv). assert (Eb' : b = p) by (rewrite Eb, Rmult_0_r, binary64_0; unfold Rdiv; rewrite Rmult_0_l, binary64_0, Rplus_0_r; exact Bp).
      rewrite Ea', Eb', tz. pose proof tiny_small.
      assert (0 <= uu) by (unfold uu; lra). pose proof (Rabs_pos v0). pose proof (Rabs_pos v1). pose proof (Rabs_pos p).
      replace (v0 + (v1 - v0) * (0 / T')) with v0 by (unfold Rdiv; ring). rewrite Rmult_0_r, Rplus_0_r. unfold axis_right. rewrite !Rminus_eq_0, !Rabs_R0.
      assert (0 <= uu * (Rabs v0 + Rabs v1)) by (apply Rmult_le_pos; lra). assert (0 <= uu * Rabs p) by (apply Rmult_le_pos; lra). lra. }
    assert (Gv : forall v, binary64 (fval t - fval (gt_begin Fk s)) = v -> v = 0) by (intros v <-; fold tau; rewrite tz; apply binary64_0).
    assert (Sl : k_ltb D64 (k0 D64) (k_sub D64 (gt_end D64 (val_seg s)) (gt_begin D64 (val_seg s))) = false).
    { cbn [val_seg gt_begin gt_end Bk k_sub k_ltb k0 k_dec r_of_dec]. fold T'. rewrite Tz, !binary64_0. apply Rltb_false. lra. }
    assert (k2_2 : k2 D64 = 2) by (apply (binary64_fix 2); exists 2%Z, 0%Z; split; [reflexivity|split; [lia|cbn; lra]]).
    unfold gpos_at, gvel_at. cbv zeta. rewrite Sl, k2_2. unfold gvadd, gvscale, gvdiv, gzero. cbn [gx gy gz ge val_seg value_vec gpos_begin gvel_begin gvel_end gt_begin gt_end Bk k_add k_mul k_sub k_div k0 k_dec r_of_dec].
    fold tau. rewrite tz, !binary64_0.
    destruct P0 as (P0x & P0y & P0z & P0e). destruct V0 as (V0x & V0y & V0z & V0e). rewrite tz in AX.
    split; [apply AX; try reflexivity; apply dbl; assumption|]. split; [apply AX; try reflexivity; apply dbl; assumption|]. split; apply AX; try reflexivity; apply dbl; assumption.
  - assert (HT : / 10 ^ 50 <= T' <= 2 * 10 ^ 31) by (unfold T'; rewrite <- p100 in *; apply abs_le_inv in M0; apply abs_le_inv in M1; lra).
    assert (Ht : 0 <= tau <= T') by (unfold tau, T'; lra).
    assert (Sl : k_ltb D64 (k0 D64) (k_sub D64 (gt_end D64 (val_seg s)) (gt_begin D64 (val_seg s))) = true).
    { destruct L' as [L'|L']; cbn [val_seg gt_begin gt_end] in L'; [exfalso; pose proof p200; pose proof (pow2_pos (-200)); lra|].
      apply (lb_round (-200)) in L'; [|lia]. destruct L' as [L']. cbn [val_seg gt_begin gt_end Bk k_sub k_ltb k0 k_dec r_of_dec]. rewrite binary64_0. apply Rltb_true. pose proof (pow2_pos (-200)).
      fold T' in L' |- *. assert (0 <= binary64 T') by (apply binary64_pos; unfold T'; lra). rewrite Rabs_right in L' by lra. lra. }
    assert (k2_2 : k2 D64 = 2) by (apply (binary64_fix 2); exists 2%Z, 0%Z; split; [reflexivity|split; [lia|cbn; lra]]).
    unfold gpos_at, gvel_at. cbv zeta. rewrite Sl, k2_2. unfold gvadd, gvscale, gvdiv, gvsub. cbn [gx gy gz ge val_seg value_vec gpos_begin gvel_begin gvel_end gt_begin gt_end Bk k_add k_mul k_sub k_div].
    fold T' tau.
    assert (AX : forall p v0 v1, Rabs v0 <= 2 ^ 100 -> Rabs v1 <= 2 ^ 100 ->
       axis_right (p + (v0 + (v1 - v0) * (tau / T' / 2)) * tau) (v0 + (v1 - v0) * (tau / T')) (pos1 binary64 p v0 (vel1 binary64 v0 v1 T' tau) tau) (vel1 binary64 v0 v1 T' tau) v0 v1 tau).
    { intros p v0 v1 A B. pose proof (axis_err p v0 v1 T' tau HT Ht ltac:(lra) ltac:(lra)) as G. cbv zeta in G.
      replace (p + (v0 + (v1 - v0) * (tau / T' / 2)) * tau) with (p + tau * (v0 + tau / T' / 2 * (v1 - v0))) by ring. replace (v0 + (v1 - v0) * (tau / T')) with (v0 + tau / T' * (v1 - v0)) by ring. exact G. }
    split; [apply AX; assumption|]. split; [apply AX; assumption|]. split; apply AX; assumption.
Qed.
(** A segment answers within its times, with the values of the motion from its
    begin to its end, and refuses all other times. *)
Theorem C115_values s t :
  proper_seg s -> moderate_seg (num_seg s) -> lasting (num_seg s) -> proper t -> t_begin (num_seg s) <= fval t <= t_end (num_seg s) ->
  exists v p, gget_velocity Fk s t = Ok v /\ gget_position Fk s t = Ok p /\ proper_vec v /\ proper_vec p /\
    answer_right (num_seg s) (fval t) (num_vec v) (num_vec p).
Proof.
  intros A B C D E. destruct (values_at s t A B C D E) as (v & p & V & P & SV & SP & H). exists v, p. split; [exact V|]. split; [exact P|].
  apply sv_same in SV. apply sv_same in SP. destruct SV as (X1 & X2 & X3 & X4). destruct SP as (Y1 & Y2 & Y3 & Y4).
  split; [repeat split; first [apply X1|apply X2|apply X3|apply X4]|]. split; [repeat split; first [apply Y1|apply Y2|apply Y3|apply Y4]|exact H].
Qed.
Theorem C115_outside s t : proper_seg s -> proper t -> fval t < t_begin (num_seg s) \/ t_end (num_seg s) < fval t ->
  gget_velocity Fk s t = Err ValueError /\ gget_position Fk s t = Err ValueError.
Proof.
  intros (T0 & T1 & _) T H. assert (O : gout_of_range Fk s t = true).
  { unfold gout_of_range. rewrite !ltb_num by assumption. cbn [num_seg t_begin t_end] in H. destruct H as [H|H]; [rewrite (Rltb_true (fval t)) by exact H|rewrite (Rltb_true (fval (gt_end Fk s))) by exact H; rewrite Bool.orb_true_r]; reflexivity. }
  unfold gget_velocity, gget_position. rewrite O. split; reflexivity.
Qed.

(** * With doubles: what a search finds, as C111 says *)
Lemma fresh_at path t : forall i s j, gscan_fresh Fk path t i = GAt Fk s j -> (i <= j)%nat /\ nth_error path (j - i) = Some s.
Proof.
  induction path as [|x path IH]; intros i s j E; [discriminate|]. cbn [gscan_fresh] in E. destruct (k_leb Fk (gt_begin Fk x) t && k_ltb Fk t (gt_end Fk x)).
  - injection E as <- <-. rewrite Nat.sub_diag. split; [lia|reflexivity].
  - destruct (IH _ _ _ E) as [L N]. split; [lia|]. replace (j - i)%nat with (S (j - S i)) by lia. exact N.
Qed.
Lemma from_at path t : forall i s j, gscan_from Fk path t i = GAt Fk s j -> (i <= j)%nat /\ nth_error path (j - i) = Some s.
Proof.
  induction path as [|x path IH]; intros i s j E; [discriminate|]. cbn [gscan_from] in E. destruct (k_leb Fk (gt_begin Fk x) t && k_leb Fk t (gt_end Fk x)).
  - injection E as <- <-. rewrite Nat.sub_diag. split; [lia|reflexivity].
  - destruct (IH _ _ _ E) as [L N]. split; [lia|]. replace (j - i)%nat with (S (j - S i)) by lia. exact N.
Qed.
Lemma find_at path t last s j : gfind_current_segment Fk path t last = Ok (GAt Fk s j) -> nth_error path j = Some s.
Proof.
  unfold gfind_current_segment. destruct (glast_seg Fk path) as [l|]; [|discriminate]. cbn [bind]. destruct (k_ltb Fk (gt_end Fk l) t); [discriminate|].
  destruct (gsearch_anew Fk path t last); cbv zeta.
  - intros E. injection E as E. destruct (fresh_at _ _ _ _ _ E) as [_ N]. rewrite Nat.sub_0_r in N. exact N.
  - set (i := match last with Some i => i | None => 0%nat end). destruct (gscan_from Fk (skipn i path) t i) as [s' j'| |] eqn:E; try discriminate. intros [= <- <-].
    destruct (from_at _ _ _ _ _ E) as [L N]. rewrite nth_skip in N. replace (i + (j' - i))%nat with j' in N by lia. exact N.
Qed.
Theorem C115_search_anew path t b last : Forall timed path -> proper t -> ends (map num_seg path) b -> fval t <= b ->
  (forall i s, last = Some i -> nth_error path i = Some s -> fval t < t_begin (num_seg s)) ->
  (exists s j, gfind_current_segment Fk path t last = Ok (GAt Fk s j) /\ nth_error path j = Some s /\ first_from false (map num_seg path) (fval t) 0 j (num_seg s)) \/
  (gfind_current_segment Fk path t last = Ok (GNothing Fk) /\ none_from false (map num_seg path) (fval t) 0).
Proof.
  intros F T E B A. pose proof (find_num path t last T F) as N.
  destruct (C111_anew (map num_seg path) (fval t) b last E B) as [(s & j & Q & G)|(Q & G)].
  - intros i s Ei Es. rewrite nth_error_map in Es. destruct (nth_error path i) as [r|] eqn:Er; [|discriminate]. injection Es as <-. exact (A i r Ei Er).
  - left. rewrite Q in N. destruct (gfind_current_segment Fk path t last) as [[r i| |]|] eqn:W; try discriminate. cbn [rmap numfound] in N. injection N as <- <-.
    exists r, i. split; [reflexivity|]. split; [exact (find_at _ _ _ _ _ W)|exact G].
  - right. split; [|exact G]. rewrite Q in N. destruct (gfind_current_segment Fk path t last) as [[r i| |]|]; try discriminate. reflexivity.
Qed.
Theorem C115_search_from_index path t b i s0 : Forall timed path -> proper t -> ends (map num_seg path) b -> fval t <= b ->
  nth_error path i = Some s0 -> t_begin (num_seg s0) <= fval t ->
  (exists s j, gfind_current_segment Fk path t (Some i) = Ok (GAt Fk s j) /\ nth_error path j = Some s /\ first_from true (map num_seg path) (fval t) i j (num_seg s)) \/
  (gfind_current_segment Fk path t (Some i) = Err ValueError /\ none_from true (map num_seg path) (fval t) i).
Proof.
  intros F T E B Es Hb. pose proof (find_num path t (Some i) T F) as N.
  destruct (C111_from_index (map num_seg path) (fval t) b i (num_seg s0) E B) as [(s & j & Q & G)|(Q & G)].
  - rewrite nth_error_map, Es. reflexivity.
  - exact Hb.
  - left. rewrite Q in N. destruct (gfind_current_segment Fk path t (Some i)) as [[r i'| |]|] eqn:W; try discriminate. cbn [rmap numfound] in N. injection N as <- <-.
    exists r, i'. split; [reflexivity|]. split; [exact (find_at _ _ _ _ _ W)|exact G].
  - right. split; [|exact G]. rewrite Q in N. destruct (gfind_current_segment Fk path t (Some i)) as [[r i'| |]|e]; try discriminate. cbn [rmap] in N. congruence.
Qed.

(** * With doubles: answers *)
Lemma joined_le {A} (R : A -> A -> Prop) (tr : forall a b c, R a b -> R b c -> R a c) : forall l, joined R l -> forall i j x y, (i < j)%nat -> nth_error l i = Some x -> nth_error l j = Some y -> R x y.
Proof.
  intros l H. induction l as [|a l IH]; intros i j x y L X Y; [destruct i; discriminate|]. destruct j as [|j]; [lia|]. cbn in Y.
  destruct l as [|b l]; [destruct j; discriminate|]. destruct H as [Rab H]. 
  destruct i as [|i]; [|apply (IH H i j); [lia|exact X|exact Y]]. cbn in X. injection X as <-. destruct j as [|j]; [cbn in Y; injection Y as <-; exact Rab|].
  apply tr with b; [exact Rab|]. apply (IH H 0%nat (S j)); [lia|reflexivity|exact Y].
Qed.
Lemma found_anyhow path t last b m s0 : Forall timed path -> proper t -> ends (map num_seg path) b -> ends_in_order (map num_seg path) ->
  nth_error path m = Some s0 -> t_begin (num_seg s0) <= fval t < t_end (num_seg s0) ->
  exists s j, gfind_current_segment Fk path t last = Ok (GAt Fk s j) /\ nth_error path j = Some s /\ t_begin (num_seg s) <= fval t <= t_end (num_seg s).
Proof.
  intros F T E O N R. assert (Nm : nth_error (map num_seg path) m = Some (num_seg s0)) by (rewrite nth_error_map, N; reflexivity).
  assert (tr : forall a b c : segment, t_end a <= t_end b -> t_end b <= t_end c -> t_end a <= t_end c) by (intros; lra).
  assert (B : fval t <= b).
  { destruct E as (pre & l & Ep & El). rewrite Ep in *. assert (Nl : nth_error (pre ++ [l]) (length pre) = Some l) by (rewrite nth_error_app2, Nat.sub_diag by lia; reflexivity).
    assert (ml : (m < S (length pre))%nat). { replace (S (length pre)) with (length (pre ++ [l])) by (rewrite app_length; cbn; lia). apply nth_error_Some. rewrite Nm. discriminate. }
    destruct (Nat.eq_dec m (length pre)) as [->|Ne]; [rewrite Nl in Nm; injection Nm as Nm; rewrite <- Nm in R; lra|]. pose proof (joined_le _ tr _ O m (length pre) _ _ ltac:(lia) Nm Nl) as Q. cbv beta in Q. lra. }
  assert (A : (forall i s, last = Some i -> nth_error path i = Some s -> fval t < t_begin (num_seg s)) \/ exists i s, last = Some i /\ nth_error path i = Some s /\ t_begin (num_seg s) <= fval t).
  { destruct last as [i|]; [|left; discriminate]. destruct (nth_error path i) as [s|] eqn:Ei; [|left; intros ? ? [= <-]; congruence].
    destruct (Rlt_le_dec (fval t) (t_begin (num_seg s))) as [l|l]; [left; intros ? ? [= <-]; rewrite Ei; intros [= <-]; exact l|right; exists i, s; auto]. }
  destruct A as [A|(i & s & -> & Ei & Hi)].
  - destruct (C115_search_anew path t b last F T E B A) as [(s & j & Q & W & (_ & _ & (G1 & G2) & _))|(_ & G)].
    + exists s, j. split; [exact Q|]. split; [exact W|]. destruct G2 as [G2|[_ G2]]; lra.
    + exfalso. apply (G m (num_seg s0)); [lia|exact Nm|]. split; [apply R|left; apply R].
  - destruct (C115_search_from_index path t b i s F T E B Ei Hi) as [(s1 & j & Q & W & (_ & _ & (G1 & G2) & _))|(_ & G)].
    + exists s1, j. split; [exact Q|]. split; [exact W|]. destruct G2 as [G2|[_ G2]]; lra.
    + exfalso. assert (Ni : nth_error (map num_seg path) i = Some (num_seg s)) by (rewrite nth_error_map, Ei; reflexivity).
      destruct (Nat.le_gt_cases i m) as [L|L]; [apply (G m (num_seg s0)); [exact L|exact Nm|]; split; [apply R|left; apply R]|].
      pose proof (joined_le _ tr _ O m i _ _ L Nm Ni) as Q. cbv beta in Q. apply (G i (num_seg s)); [lia|exact Ni|]. split; [exact Hi|left; lra].
Qed.

(** The unit systems *)
Lemma unit_factor u k : unit_length u k -> exists c r, dget u (goutput_units Fk) = Some c /\ sb 1 c r /\ Rabs (r - / k) <= 2 * uu * / k + uu / 1000 * / k.
Proof.
  assert (E : eta <= uu / 1000000000000).
  { pose proof eta_bound as E. pose proof eta_pos. assert (10 ^ 60 <= 10 ^ 225) by (apply Rle_pow; [lra|lia]). unfold uu. 
    assert (eta * 10 ^ 60 <= 1) by (eapply Rle_trans; [|exact E]; apply Rmult_le_compat_l; lra). cbn in *. lra. }
  assert (D : forall m e h, Rabs (r_of_dec m e) <= p2 h -> okh h = true -> sb h (k_dec Fk m e) (binary64 (r_of_dec m e))) by (intros m e h; exact (sb_dec m e h)).
  assert (B1 : binary64 1 = 1) by (apply binary64_fix; exists 1%Z, 0%Z; split; [reflexivity|split; [lia|cbn; lra]]). assert (u0 : 0 < uu < / 1000) by (unfold uu; lra).
  pose proof p2_1 as P1. pose proof (eq_refl : p2 0 = 1) as P0.
  intros U. destruct U.
  - exists (k_dec Fk 1 (-3)), (binary64 (r_of_dec 1 (-3))). split; [reflexivity|]. split.
    + apply D; [|reflexivity]. rewrite P1. cbn. rewrite Rabs_right; lra.
    + pose proof (b64_err (/ 1000)) as B. rewrite (Rabs_right (/ 1000)) in B by lra. replace (r_of_dec 1 (-3)) with (/ 1000) by (cbn; lra). lra.
  - exists (k_dec Fk 1 0), 1. split; [reflexivity|]. split.
    + rewrite <- B1. replace 1 with (r_of_dec 1 0) at 3 by (cbn; lra). apply D; [|reflexivity]. rewrite P1. cbn. rewrite Rabs_right; lra.
    + rewrite Rinv_1, Rminus_eq_0, Rabs_R0. lra.
  - set (q := binary64 (254 / 10)). exists (k_div Fk (k_dec Fk 1 0) (k_dec Fk 254 (-1))), (k_div D64 (k_dec D64 1 0) (k_dec D64 254 (-1))). split; [reflexivity|].
    assert (Q : k_dec D64 254 (-1) = q). { unfold q. cbn [Bk k_dec]. f_equal. }
    assert (O : k_dec D64 1 0 = 1) by (cbn [Bk k_dec]; replace (r_of_dec 1 0) with 1 by (cbn; lra); exact B1).
    pose proof (b64_err (254 / 10)) as B. fold q in B. rewrite (Rabs_right (254 / 10)) in B by lra. pose proof eta_pos.
    assert (Bq : 25 <= q <= 26) by (apply abs_le_inv in B; lra).
    split.
    + apply (sb_weaken (0 - 0)); [|reflexivity]. apply (sb_div 0 5 0); [| | |reflexivity].
      * apply sb_1.
      * apply sb_dec; [|reflexivity]. change (p2 5) with (2 ^ 5). cbn. rewrite Rabs_right; lra.
      * rewrite Q. constructor. rewrite P0, Rabs_right; lra.
    + rewrite O, Q. cbn [Bk k_div]. pose proof (b64_err (1 / q)) as W.
      assert (I : Rabs (1 / q - / (254 / 10)) <= (1 + / 10000) * uu * / (254 / 10)).
      { replace (1 / q - / (254 / 10)) with ((254 / 10 - q) * (/ q * / (254 / 10))) by (field; lra). rewrite Rabs_mult, (Rabs_minus_sym (254 / 10)). 
        assert (I1 : / q <= (1 + / 100000) * / (254 / 10)). { apply Rmult_le_reg_r with (q * (254 / 10)); [apply Rmult_lt_0_compat; lra|]. replace (/ q * (q * (254 / 10))) with (254 / 10) by (field; lra). replace ((1 + / 100000) * / (254 / 10) * (q * (254 / 10))) with ((1 + / 100000) * q) by (field; lra).
          unfold uu in *. apply abs_le_inv in B. lra. }
        assert (I0 : 0 < / q) by (apply Rinv_0_lt_compat; lra). rewrite (Rabs_right (/ q * / (254 / 10))) by (apply Rle_ge; apply Rmult_le_pos; lra).
        eapply Rle_trans; [apply Rmult_le_compat_r; [apply Rmult_le_pos; lra|exact B]|].
        eapply Rle_trans; [apply Rmult_le_compat_l; [apply Rplus_le_le_0_compat; [apply Rmult_le_pos; lra|lra]|apply Rmult_le_compat_r; [lra|exact I1]]|].
        unfold uu in *. lra. }
      assert (J : Rabs (1 / q) <= (1 + / 10000) * / (254 / 10)). { replace (1 / q) with ((1 / q - / (254 / 10)) + / (254 / 10)) by ring. eapply Rle_trans; [apply Rabs_triang|]. rewrite (Rabs_right (/ (254 / 10))) by lra. unfold uu in *. lra. }
      replace (binary64 (1 / q) - / (254 / 10)) with ((binary64 (1 / q) - 1 / q) + (1 / q - / (254 / 10))) by ring. eapply Rle_trans; [apply Rabs_triang|].
      eapply Rle_trans; [apply Rplus_le_compat; [exact W|exact I]|]. assert (uu * Rabs (1 / q) <= uu * ((1 + / 10000) * / (254 / 10))) by (apply Rmult_le_compat_l; lra). lra.
Qed.
Lemma scaled_near k c r v : 0 < k -> sb 1 c r -> Rabs (r - / k) <= 2 * uu * / k + uu / 1000 * / k -> sv 800 v (value_vec v) ->
  proper_vec (gvscale Fk c v) /\
  let near a b := Rabs (b - a / k) <= 4 * uu * Rabs (a / k) + tiny in
  near (vx (num_vec v)) (vx (num_vec (gvscale Fk c v))) /\ near (vy (num_vec v)) (vy (num_vec (gvscale Fk c v))) /\
  near (vz (num_vec v)) (vz (num_vec (gvscale Fk c v))) /\ near (ve (num_vec v)) (ve (num_vec (gvscale Fk c v))).
Proof.
  intros K C Hr V.
  assert (A : forall x, sb 800 x (fval x) -> proper (k_mul Fk x c) /\ Rabs (fval (k_mul Fk x c) - fval x / k) <= 4 * uu * Rabs (fval x / k) + tiny).
  { intros x X. destruct (sb_mul 800 1 x c (fval x) r X C eq_refl) as [[P E] _]. split; [exact P|]. rewrite E. cbn [Bk k_mul]. pose proof (b64_err (fval x * r)) as B.
    assert (u0 : 0 < uu < / 1000) by (unfold uu; lra). assert (I0 : 0 < / k) by (apply Rinv_0_lt_compat; lra).
    assert (M : Rabs (fval x * r - fval x / k) <= (2 * uu + uu / 1000) * Rabs (fval x / k)).
    { replace (fval x * r - fval x / k) with (fval x * (r - / k)) by (unfold Rdiv; ring). unfold Rdiv. rewrite !Rabs_mult, (Rabs_right (/ k)) by lra.
      eapply Rle_trans; [apply Rmult_le_compat_l; [apply Rabs_pos|exact Hr]|]. right. unfold Rdiv. ring. }
    pose proof (Rabs_pos (fval x / k)) as Z. 
    assert (N : Rabs (fval x * r) <= (1 + 3 * uu) * Rabs (fval x / k)).
    { replace (fval x * r) with ((fval x * r - fval x / k) + fval x / k) by ring. eapply Rle_trans; [apply Rabs_triang|]. assert (0 <= uu * Rabs (fval x / k)) by (apply Rmult_le_pos; lra). lra. }
    replace (binary64 (fval x * r) - fval x / k) with ((binary64 (fval x * r) - fval x * r) + (fval x * r - fval x / k)) by ring. eapply Rle_trans; [apply Rabs_triang|].
    assert (eta <= tiny). { unfold tiny. pose proof eta_bound as Q. pose proof eta_pos. assert (10 ^ 100 <= 10 ^ 225) by (apply Rle_pow; [lra|lia]). assert (T : 0 < 10 ^ 100) by (apply pow_lt; lra).
      apply Rmult_le_reg_r with (10 ^ 100); [exact T|]. rewrite Rinv_l by lra. eapply Rle_trans; [|exact Q]. apply Rmult_le_compat_l; lra. }
    assert (uu * Rabs (fval x * r) <= uu * ((1 + 3 * uu) * Rabs (fval x / k))) by (apply Rmult_le_compat_l; lra).
    assert (uu * (3 * uu * Rabs (fval x / k)) <= uu * (/ 100 * Rabs (fval x / k))) by (apply Rmult_le_compat_l; [lra|]; apply Rmult_le_compat_r; lra). assert (0 <= uu * Rabs (fval x / k)) by (apply Rmult_le_pos; lra). lra. }
  destruct V as [V1 V2 V3 V4]. cbn [value_vec gx gy gz ge] in *. unfold gvscale. cbn [num_vec gx gy gz ge vx vy vz ve].
  destruct (A _ V1) as [? ?]. destruct (A _ V2) as [? ?]. destruct (A _ V3) as [? ?]. destruct (A _ V4) as [? ?].
  split; [unfold proper_vec; cbn [gx gy gz ge]; auto|]. cbv zeta. auto.
Qed.
(** Whatever was asked before, a time inside of one of the segments is answered
    with what a segment does at this time.  Missing: times in none of the
    half-open intervals; with exact numbers there is no such time before the
    end, with doubles there can be (C115_refuted). *)
Theorem C115_answered_partial bl u last unit t s0 : let path := gunpack_blocklist Fk bl in
  Forall (fun s => proper_seg s /\ moderate_seg (num_seg s) /\ lasting (num_seg s)) path -> ends_in_order (map num_seg path) ->
  proper t -> In s0 path -> t_begin (num_seg s0) <= fval t < t_end (num_seg s0) ->
  forall w k, w = match unit with Some w => w | None => u end -> unit_length w k ->
  exists v p s i, gget_values Fk (GSim Fk bl u last) t unit = (Ok (v, p), Some i) /\ nth_error path i = Some s /\ answers_in w (num_seg s) (fval t) v p.
Proof.
  intros path F O T I R w k W U. destruct (In_nth_error _ _ I) as [m N].
  assert (Ft : Forall timed path) by (eapply Forall_impl; [|exact F]; intros s ((A & B & _) & _); split; assumption).
  assert (E : exists b, ends (map num_seg path) b).
  { destruct (rev path) as [|l r] eqn:Er; [apply (f_equal (@rev _)) in Er; rewrite rev_involutive in Er; rewrite Er in I; destruct I|].
    apply (f_equal (@rev _)) in Er. rewrite rev_involutive in Er. cbn [rev] in Er. exists (t_end (num_seg l)), (map num_seg (rev r)), (num_seg l). split; [rewrite Er, map_app; reflexivity|reflexivity]. }
  destruct E as [b E]. destruct (found_anyhow path t last b m s0 Ft T E O N R) as (s & j & Q & Nj & Rs).
  rewrite Forall_forall in F. destruct (F s (nth_error_In _ _ Nj)) as (P & M & L). destruct (values_at s t P M L T Rs) as (v & p & V & Pp & SV & SP & H).
  destruct (unit_factor w k U) as (c & r & Dc & C & Hr).
  unfold gget_values. cbn [gblocklist glast_index]. fold path. rewrite Q, V, Pp. cbn [bind]. unfold gget_scaling_factor. cbn [goutput_unit_system]. rewrite <- W, Dc. cbn [bind].
  assert (K : 0 < k) by (destruct U; lra). assert (SV' : sv 800 v (value_vec v)) by (eapply sv_weaken; [exact SV|reflexivity]).
  destruct (scaled_near k c r v K C Hr SV') as [Pv Nv]. destruct (scaled_near k c r p K C Hr SP) as [Pp' Np].
  exists (gvscale Fk c v), (gvscale Fk c p), s, j. split; [reflexivity|]. split; [exact Nj|]. split; [exact Pv|]. split; [exact Pp'|].
  exists (num_vec v), (num_vec p). split; [exact H|]. split; exists k; split; assumption.
Qed.
(** * With doubles: simulated programs *)
Lemma double_gap a b : proper a -> proper b -> 0 <= fval a < fval b -> / 10 ^ 27 <= fval b -> fval a + / 10 ^ 50 <= fval b.
Proof.
  intros A B R L. assert (Lb : p2 (-90) <= fval b).
  { eapply Rle_trans; [|exact L]. change (p2 (-90)) with (/ 2 ^ Pos.to_nat 90). apply Rinv_le_contravar; [apply pow_lt; lra|]. rewrite !pow_IZR. apply IZR_le. vm_compute. discriminate. }
  assert (Sm : / 10 ^ 50 <= p2 (-143)).
  { change (p2 (-143)) with (/ 2 ^ Pos.to_nat 143). apply Rinv_le_contravar; [apply pow_lt; lra|]. rewrite !pow_IZR. apply IZR_le. vm_compute. discriminate. }
  pose proof (pow2_pos (-143)) as P143.
  destruct (proper_double a A) as [(ma & ea & Ma & Ea & Xa) _]. destruct (proper_double b B) as [(mb & eb & Mb & Eb & Xb) _].
  assert (up : forall m e, (Z.abs m < 2 ^ 53)%Z -> IZR m * p2 e < p2 (53 + e)).
  { intros m e M. rewrite RoundingProofs.pow2_add. apply Rmult_lt_compat_r; [apply pow2_pos|]. rewrite p2_Z by lia. apply IZR_lt. lia. }
  assert (H : (-143 <= eb)%Z). { assert (L' : p2 (-90) < p2 (53 + eb)) by (eapply Rle_lt_trans; [exact Lb|]; rewrite Xb; apply up, Mb). apply p2_lt in L'. lia. }
  assert (mult : forall m e, (-143 <= e)%Z -> IZR m * p2 e = IZR (m * 2 ^ (e + 143)) * p2 (-143)).
  { intros m e I. rewrite mult_IZR, <- p2_Z by lia. rewrite Rmult_assoc, <- RoundingProofs.pow2_add. do 2 f_equal. lia. }
  destruct (Z_le_gt_dec (-143) ea) as [I|I].
  - rewrite Xa, Xb in *. rewrite (mult _ _ I), (mult _ _ H) in *. destruct R as [_ R]. apply Rmult_lt_reg_r in R; [|exact P143]. apply lt_IZR in R.
    assert (Z1 : IZR (ma * 2 ^ (ea + 143)) + 1 <= IZR (mb * 2 ^ (eb + 143))) by (rewrite <- plus_IZR; apply IZR_le; lia).
    apply (Rmult_le_compat_r (p2 (-143))) in Z1; lra.
  - assert (U : fval a < p2 (-91)) by (rewrite Xa; eapply Rlt_le_trans; [apply up, Ma|]; apply pow2_mono; lia).
    assert (D : p2 (-90) = 2 * p2 (-91)) by (change (-90)%Z with (1 + -91)%Z; rewrite RoundingProofs.pow2_add, p2_1; reflexivity).
    assert (p2 (-143) <= p2 (-91)) by (apply pow2_mono; lia). lra.
Qed.
Lemma late_lasting s : proper_seg s -> late (num_seg s) -> lasting (num_seg s).
Proof.
  intros (A & B & _) [L|L]; [left; exact L|]. cbn [num_seg t_end t_begin] in *. unfold lasting. cbn [num_seg t_end t_begin].
  destruct (Rle_lt_dec (fval (gt_end Fk s)) (fval (gt_begin Fk s))) as [Q|Q]; [left; exact Q|right]. destruct (Rle_lt_dec 0 (fval (gt_begin Fk s))) as [Z|Z]; [apply double_gap; auto|].
  assert (/ 10 ^ 50 <= / 10 ^ 27) by (apply Rinv_le_contravar; [apply pow_lt; lra|apply Rle_pow; [lra|lia]]). lra.
Qed.
Lemma sv_moderate a b : sv 100 a b -> moderate_vec (num_vec a).
Proof. intros [[[_ X] LX] [[_ Y] LY] [[_ Z] LZ] [[_ E] LE]]. unfold moderate_vec. rewrite p100. cbn [num_vec vx vy vz ve]. rewrite X, Y, Z, E. repeat (constructor; [assumption|]). constructor. Qed.
(** The trajectory of a program whose numbers stay far from the ends of the
    doubles: all its numbers are finite and at most 2^100. *)
Theorem C115_simulated fw ss bl w :
  Forall proper_state ss -> tame_program (map value_state ss) -> INR (length ss) <= 1000000000 -> gsimulate Fk fw ss = Ok (bl, w) ->
  Forall (fun s => proper_seg s /\ moderate_seg (num_seg s)) (gunpack_blocklist Fk bl).
Proof.
  intros P T N E. apply Forall_forall. intros s Is. unfold gunpack_blocklist in Is. apply in_concat in Is. destruct Is as (l & Il & Is). apply in_map_iff in Il. destruct Il as (b & <- & Ib).
  split; [exact (C113_finite fw ss bl w P T N E b s Ib Is)|].
  assert (Q := simulation_strong fw ss (map value_state ss) (values_same ss P) T). rewrite map_length in Q. specialize (Q N). rewrite E in Q. destruct (gsimulate D64 fw _) as [[bl' w']|]; [|contradiction]. destruct Q as [Q _]. cbn [fst] in Q.
  clear - Q Ib Is. induction Q as [|c c' r r' H Q IH]; [contradiction|]. destruct Ib as [->|Ib]; [|exact (IH Ib)]. apply r_segs in H. clear - H Is.
  induction H as [|x x' l l' H S IH]; [contradiction|]. destruct Is as [->|Is]; [|exact (IH Is)]. destruct H as [[[_ T0] B0] [[_ T1] B1] P0 _ V0 V1].
  unfold moderate_seg. cbn [num_seg t_begin t_end pos_begin vel_begin vel_end]. rewrite T0, T1, p100. split; [exact B0|]. split; [exact B1|]. split; [exact (sv_moderate _ _ P0)|]. split; [exact (sv_moderate _ _ V0)|exact (sv_moderate _ _ V1)].
Qed.
(** So its answers are right to a few roundings as said above.  Missing: as
    above; and the ends of the segments, of which C110 says where they are, are
    assumed not to move backwards. *)
Theorem C115_simulated_answers_partial fw ss bl w' u last unit t s0 : let path := gunpack_blocklist Fk bl in
  Forall proper_state ss -> tame_program (map value_state ss) -> INR (length ss) <= 1000000000 -> gsimulate Fk fw ss = Ok (bl, w') ->
  Forall late (map num_seg path) -> ends_in_order (map num_seg path) ->
  proper t -> In s0 path -> t_begin (num_seg s0) <= fval t < t_end (num_seg s0) ->
  forall w k, w = match unit with Some w => w | None => u end -> unit_length w k ->
  exists v p s i, gget_values Fk (GSim Fk bl u last) t unit = (Ok (v, p), Some i) /\ nth_error path i = Some s /\ answers_in w (num_seg s) (fval t) v p.
Proof.
  intros path P T N E L O. apply C115_answered_partial; [|exact O]. pose proof (C115_simulated fw ss bl w' P T N E) as F. fold path in F |- *.
  rewrite Forall_forall in *. intros s I. destruct (F s I) as [A B]. split; [exact A|]. split; [exact B|]. apply late_lasting; [exact A|]. apply L, in_map, I.
Qed.
(** A first question for a time that is in none of the half-open intervals,
    before the end, raises TypeError. *)
Theorem C115_gap bl u unit t b : let path := gunpack_blocklist Fk bl in
  Forall timed path -> proper t -> ends (map num_seg path) b -> fval t <= b ->
  (forall s, In s path -> ~ t_begin (num_seg s) <= fval t < t_end (num_seg s)) ->
  gget_values Fk (GSim Fk bl u None) t unit = (Err TypeError, None).
Proof.
  intros path F T E B H. destruct (C115_search_anew path t b None F T E B) as [(s & j & Q & N & (_ & _ & (G1 & G2) & _))|(Q & _)]; [discriminate| |].
  - exfalso. apply (H s (nth_error_In _ _ N)). destruct G2 as [G2|[? _]]; [lra|discriminate].
  - unfold gget_values. cbn [gblocklist glast_index]. fold path. rewrite Q. reflexivity.
Qed.

(** * Not every time before the end is answered *)
(** The second line brakes so gently that the speed of the first one, planned
    again, moves the second one in time: the sum of its begin and the shift is
    rounded, and the end of the first one and the begin of the second one are
    neighbouring doubles. *)
Definition gap_program : list str := map S_ ["G1 X30 F4800"; "M204 P10"; "G1 X68"; "M204 P20"; "G1 X69"]%string.
Definition gap_blocks : list (gblock Fk) := Eval vm_compute in match grun Fk MarlinJerk gap_program (mini Fk) with Ok (bl, _) => bl | Err _ => [] end.
(** 1.947433385551024 s *)
Definition gap_time : spec_float := S754_finite false 8770460269496455 (-52).
Lemma gap_states : exists k0 ks, (sts <- generate_states Rops gap_program (mini Rk) ;; to_kstates sts) = Ok (k0 :: ks) /\ valid_program k0 ks.
Proof.
  eexists _, _. split; [cbv -[r_of_dec Rplus Rdiv]; reflexivity|]. split; [valid_states|split; [reflexivity|]].
  cbn [moves_first k_pause k_pos]. split; [reflexivity|]. left. intros E. apply (f_equal vx) in E. cbn [vx] in E. unfold r_of_dec in E. cbn in E. lra.
Qed.
Lemma exact_answers fw lines su k0 ks : (sts <- generate_states Rops lines su ;; to_kstates sts) = Ok (k0 :: ks) -> valid_program k0 ks -> exists bl, grun Rk fw lines su = Ok (bl, false) /\
  forall T t, print_time (map toblock bl) T -> 0 <= t < T -> exists v p, fst (gget_values Rk (GSim Rk bl (S_ "SImm") None) t None) = Ok (v, p).
Proof.
  intros E V. destruct (C26_simulation_succeeds fw k0 ks V) as [bl S]. pose proof (C105_exact_numbers fw lines su) as H.
  destruct (generate_states Rops lines su) as [sts|e]; [|discriminate]. cbn [bind] in E, H. rewrite E in H. cbn [bind] in H. rewrite S in H.
  destruct (grun Rk fw lines su) as [(bl', w)|e]; [|discriminate]. cbn in H. injection H as H ->. exists bl'. split; [reflexivity|]. intros T t PT R.
  rewrite H in PT. destruct (C40_values_on_trajectory _ _ _ _ _ V S (S_ "SImm") [] T t None 1 PT R u_SImm) as (v & p & _ & _ & G & _).
  pose proof (C115_exact_numbers (GSim Rk bl' (S_ "SImm") None) t None) as X. cbv zeta in X. unfold tosim in X. cbn [gblocklist goutput_unit_system glast_index] in X. rewrite H in X. cbn [after_queries] in G. unfold after_queries in G. cbn [fold_left] in G.
  rewrite X in G. cbn [fst] in G. destruct (fst (gget_values Rk _ t None)) as [(v', p')|]; [eauto|discriminate].
Qed.
Lemma num_le x y : proper x -> proper y -> k_leb Fk x y = true -> fval x <= fval y.
Proof. intros X Y H. rewrite leb_num in H by assumption. apply Rleb_iff in H. exact H. Qed.
Lemma num_lt x y : proper x -> proper y -> k_ltb Fk x y = true -> fval x < fval y.
Proof. intros X Y H. rewrite ltb_num in H by assumption. apply Rltb_iff in H. exact H. Qed.
(** The program is simulated both with exact numbers and with doubles.  With
    exact numbers every time before the end is answered, with doubles this one
    is not. *)
Theorem C115_refuted : exists lines bl bl' T' t,
  grun Rk MarlinJerk lines (mini Rk) = Ok (bl, false) /\ grun Fk MarlinJerk lines (mini Fk) = Ok (bl', false) /\
  (forall T t, print_time (map toblock bl) T -> 0 <= t < T -> exists v p, fst (gget_values Rk (GSim Rk bl (S_ "SImm") None) t None) = Ok (v, p)) /\
  ends (map num_seg (gunpack_blocklist Fk bl')) T' /\ proper t /\ 0 <= fval t < T' /\
  gget_values Fk (GSim Fk bl' (S_ "SImm") None) t None = (Err TypeError, None).
Proof.
  destruct gap_states as (k0 & ks & E & V). destruct (exact_answers MarlinJerk _ _ k0 ks E V) as (bl & H & A).
  exists gap_program, bl, gap_blocks, (fval (S754_finite false 4520861727158678 (-51))), gap_time. split; [exact H|]. split; [vm_cast_no_check (eq_refl (@Ok (list (gblock Fk) * bool) (gap_blocks, false)))|]. split; [exact A|].
  assert (P : proper gap_time) by (split; vm_compute; auto). assert (Q : proper (S754_finite false 4520861727158678 (-51))) by (split; vm_compute; auto).
  split. { set (p := gunpack_blocklist Fk gap_blocks). exists (map num_seg (firstn 4 p)), (num_seg (nth 4 p (last p (GSeg Fk gap_time gap_time (gzero Fk) (gzero Fk) (gzero Fk) (gzero Fk))))). split; [reflexivity|reflexivity]. }
  split; [exact P|]. split.
  - split; [|apply num_lt; [exact P|exact Q|vm_compute; reflexivity]]. apply (num_le (S754_zero false) gap_time); [split; vm_compute; auto|exact P|vm_compute; reflexivity].
  - vm_cast_no_check (eq_refl (@Err (gvec Fk * gvec Fk) TypeError, @None nat)).
Qed.

(** * A case: the trajectory above, which is answered at one second *)
Definition huge : spec_float := S754_finite false 4503599627370496 48.
Lemma huge_num : proper huge /\ fval huge = 2 ^ 100.
Proof. split; [split; vm_compute; auto|]. unfold huge, fval. change (powerRZ 2 48) with (2 ^ Pos.to_nat 48). rewrite !pow_IZR, <- mult_IZR. f_equal. Qed.
Definition little : spec_float := S754_finite false 4503599627370496 (-152).
Lemma little_num : proper little /\ fval little = / 2 ^ 100.
Proof. split; [split; vm_compute; auto|]. unfold little, fval. change (powerRZ 2 (-152)) with (/ 2 ^ Pos.to_nat 152). rewrite !pow_IZR. apply Rmult_eq_reg_r with (IZR (2 ^ Z.of_nat (Pos.to_nat 152))); [|apply not_0_IZR; vm_compute; discriminate].
  rewrite Rmult_assoc, Rinv_l, Rmult_1_r by (apply not_0_IZR; vm_compute; discriminate). replace (2 ^ Z.of_nat (Pos.to_nat 152))%Z with (4503599627370496 * 2 ^ Z.of_nat 100)%Z by (vm_compute; reflexivity). rewrite mult_IZR. field. apply not_0_IZR; vm_compute; discriminate. Qed.
Definition proper_check (x : spec_float) : bool := match x with S754_infinity _ | S754_nan => false | _ => valid_binary 53 1024 x end.
Lemma proper_checked x : proper_check x = true -> proper x.
Proof. unfold proper_check, proper. destruct x; try discriminate; cbn; auto. Qed.
Definition num_check (x : spec_float) : bool := proper_check x && k_leb Fk (k_abs Fk x) huge.
Lemma num_checked x : num_check x = true -> proper x /\ Rabs (fval x) <= 2 ^ 100.
Proof.
  intros H. apply andb_prop in H. destruct H as [P H]. apply proper_checked in P. split; [exact P|]. destruct huge_num as [Q <-]. assert (S : stands x (fval x)) by (split; auto).
  assert (A : stands (k_abs Fk x) (Rabs (fval x))) by apply (C112_same_arithmetic _ _ _ _ S S). destruct A as [A <-]. apply num_le; assumption.
Qed.
Definition vec_check (v : gvec Fk) : bool := num_check (gx Fk v) && num_check (gy Fk v) && num_check (gz Fk v) && num_check (ge Fk v).
Lemma vec_checked v : vec_check v = true -> proper_vec v /\ moderate_vec (num_vec v).
Proof.
  unfold vec_check. intros H. apply andb_prop in H. destruct H as [H D]. apply andb_prop in H. destruct H as [H C]. apply andb_prop in H. destruct H as [A B].
  apply num_checked in A. apply num_checked in B. apply num_checked in C. apply num_checked in D. split; [repeat split; first [apply A|apply B|apply C|apply D]|].
  unfold moderate_vec. cbn [num_vec vx vy vz ve]. repeat (apply Forall_cons || apply Forall_nil); first [apply A|apply B|apply C|apply D].
Qed.
Definition seg_check (s : gsegment Fk) : bool :=
  num_check (gt_begin Fk s) && num_check (gt_end Fk s) && vec_check (gpos_begin Fk s) && vec_check (gpos_end Fk s) && vec_check (gvel_begin Fk s) && vec_check (gvel_end Fk s) &&
  k_ltb Fk little (k_sub Fk (gt_end Fk s) (gt_begin Fk s)).
Lemma seg_checked s : seg_check s = true -> proper_seg s /\ moderate_seg (num_seg s) /\ lasting (num_seg s).
Proof.
  unfold seg_check. intros H. do 6 (apply andb_prop in H; let h := fresh "h" in destruct H as [H h]). apply num_checked in H, h4. apply vec_checked in h0, h1, h2, h3.
  split; [repeat split; first [apply H|apply h4|apply h3|apply h2|apply h1|apply h0]|]. split; [repeat split; first [apply H|apply h4|apply h3|apply h1|apply h0]|].
  right. cbn [num_seg t_begin t_end]. destruct little_num as [Q E]. rewrite p100 in H, h4.
  assert (A : sb 100 (gt_begin Fk s) (fval (gt_begin Fk s))) by (split; [split; [apply H|reflexivity]|apply H]). assert (B : sb 100 (gt_end Fk s) (fval (gt_end Fk s))) by (split; [split; [apply h4|reflexivity]|apply h4]).
  destruct (sb_sub _ _ _ _ _ _ B A eq_refl) as [[P V] _]. apply num_lt in h; [|exact Q|exact P]. rewrite V in h. cbn [Bk k_sub] in h.
  destruct (Rle_lt_dec (fval little) (fval (gt_end Fk s) - fval (gt_begin Fk s))) as [G|G].
  - rewrite E in G. assert (/ 10 ^ 50 <= / 2 ^ 100); [|lra]. apply Rinv_le_contravar; [apply pow_lt; lra|]. rewrite !pow_IZR. apply IZR_le. vm_compute. discriminate.
  - exfalso. apply Rlt_le, b64_mono in G. rewrite (dbl little Q) in G. lra.
Qed.
Definition one_second : spec_float := S754_finite false 4503599627370496 (-52).
Lemma one_second_num : proper one_second /\ fval one_second = 1.
Proof. split; [split; vm_compute; auto|]. unfold one_second, fval. change (powerRZ 2 (-52)) with (/ 2 ^ Pos.to_nat 52). rewrite !pow_IZR. change (2 ^ Z.of_nat (Pos.to_nat 52))%Z with 4503599627370496%Z. field. Qed.
Example C115_case : let path := gunpack_blocklist Fk gap_blocks in
  Forall (fun s => proper_seg s /\ moderate_seg (num_seg s) /\ lasting (num_seg s)) path /\ ends_in_order (map num_seg path) /\ length path = 5%nat /\
  (forall last, exists v p s i, gget_values Fk (GSim Fk gap_blocks (S_ "SImm") last) one_second (Some (S_ "inch")) = (Ok (v, p), Some i) /\
     nth_error path i = Some s /\ answers_in (S_ "inch") (num_seg s) 1 v p) /\
  (** a first question finds the fourth segment, a question from the third on as well *)
  snd (gget_values Fk (GSim Fk gap_blocks (S_ "SImm") None) one_second None) = Some 3%nat /\
  snd (gget_values Fk (GSim Fk gap_blocks (S_ "SImm") (Some 2%nat)) gap_time None) = Some 3%nat.
Proof.
  intros path.
  assert (C : forallb seg_check path = true) by (vm_compute; reflexivity). rewrite forallb_forall in C.
  assert (F : Forall (fun s => proper_seg s /\ moderate_seg (num_seg s) /\ lasting (num_seg s)) path) by (rewrite Forall_forall; intros s I; apply seg_checked, C, I).
  assert (L : forall i s n, nth_error path i = Some s -> nth_error path (S i) = Some n -> fval (gt_end Fk s) <= fval (gt_end Fk n)).
  { intros i s n A B. assert (Ps : proper (gt_end Fk s)) by (apply (seg_checked s), C, (nth_error_In _ _ A)). assert (Pn : proper (gt_end Fk n)) by (apply (seg_checked n), C, (nth_error_In _ _ B)).
    apply num_le; [exact Ps|exact Pn|]. clear Ps Pn. revert s n A B. unfold path.
    destruct i as [|[|[|[|i]]]]; intros s n A B; try (apply (f_equal (option_map (gt_end Fk))) in A; apply (f_equal (option_map (gt_end Fk))) in B; cbn in A, B; injection A as <-; injection B as <-; vm_compute; reflexivity).
    destruct i; discriminate. }
  assert (O : ends_in_order (map num_seg path)).
  { split; [exact (L 0%nat _ _ eq_refl eq_refl)|]. split; [exact (L 1%nat _ _ eq_refl eq_refl)|]. split; [exact (L 2%nat _ _ eq_refl eq_refl)|]. split; [exact (L 3%nat _ _ eq_refl eq_refl)|]. split; exact I. }
  split; [exact F|]. split; [exact O|]. split; [reflexivity|]. destruct one_second_num as [P E].
  split; [|split; vm_compute; reflexivity].
  intros last. rewrite <- E. destruct (nth_error path 3) as [s|] eqn:N; [|discriminate].
  assert (R : t_begin (num_seg s) <= fval one_second < t_end (num_seg s)).
  { destruct (seg_checked s (C s (nth_error_In _ _ N))) as ((B & B' & _) & _). cbn [num_seg t_begin t_end]. unfold path in N. injection N as <-.
    split; [apply num_le|apply num_lt]; try assumption; vm_compute; reflexivity. }
  exact (C115_answered_partial gap_blocks (S_ "SImm") last (Some (S_ "inch")) one_second s F O P (nth_error_In _ _ N) R (S_ "inch") _ eq_refl u_inch).
Qed.
(** and the program of C113, whose simulation meets what is asked of it *)
Definition case_blocks : list (gblock Fk) := Eval vm_compute in match gsimulate Fk MarlinJerk double_case with Ok (bl, _) => bl | Err _ => [] end.
Fixpoint order_check (path : list (gsegment Fk)) : bool :=
  match path with s :: ((n :: _) as r) => k_leb Fk (gt_end Fk s) (gt_end Fk n) && order_check r | _ => true end.
Lemma order_checked path : Forall proper_seg path -> order_check path = true -> ends_in_order (map num_seg path).
Proof.
  induction path as [|s [|n r] IH]; intros F H; [exact I|split; exact I|]. inversion F as [|? ? Ps F']; subst. inversion F' as [|? ? Pn _]; subst. cbn [order_check] in H. apply andb_prop in H. destruct H as [H1 H2].
  split; [|exact (IH F' H2)]. cbn [num_seg t_end]. apply num_le; [apply Ps|apply Pn|exact H1].
Qed.
(** 10^-27 and a little more *)
Definition soon : spec_float := S754_finite false 4503599627370496 (-141).
Lemma soon_num : proper soon /\ / 10 ^ 27 <= fval soon.
Proof.
  split; [split; vm_compute; auto|]. unfold soon, fval. change (powerRZ 2 (-141)) with (/ 2 ^ Pos.to_nat 141).
  apply Rmult_le_reg_r with (10 ^ 27 * 2 ^ Pos.to_nat 141); [apply Rmult_lt_0_compat; apply pow_lt; lra|].
  replace (/ 10 ^ 27 * (10 ^ 27 * 2 ^ Pos.to_nat 141)) with (2 ^ Pos.to_nat 141) by (field; apply pow_nonzero; lra).
  match goal with |- _ <= ?a * / ?b * (?c * ?b) => replace (a * / b * (c * b)) with (a * c) by (field; apply pow_nonzero; lra) end.
  rewrite !pow_IZR, <- mult_IZR. apply IZR_le. vm_compute. discriminate.
Qed.
Example C115_case_simulated : let path := gunpack_blocklist Fk case_blocks in
  gsimulate Fk MarlinJerk double_case = Ok (case_blocks, false) /\ Forall late (map num_seg path) /\ ends_in_order (map num_seg path) /\ length path = 5%nat /\
  exists s, In s path /\ t_begin (num_seg s) <= fval one_second < t_end (num_seg s).
Proof.
  intros path. assert (G : gsimulate Fk MarlinJerk double_case = Ok (case_blocks, false)) by (vm_cast_no_check (eq_refl (@Ok (list (gblock Fk) * bool) (case_blocks, false)))).
  destruct C113_case as [P T]. assert (N : INR (length double_case) <= 1000000000) by (cbn; lra).
  assert (F : Forall proper_seg path) by (eapply Forall_impl; [|exact (C115_simulated _ _ _ _ P T N G)]; intros s [H _]; exact H).
  split; [exact G|]. split; [|split; [apply order_checked; [exact F|vm_compute; reflexivity]|split; [reflexivity|]]].
  - apply Forall_forall. intros x I. apply in_map_iff in I. destruct I as (s & <- & I). right. destruct soon_num as [Q S]. eapply Rle_trans; [exact S|]. cbn [num_seg t_end].
    rewrite Forall_forall in F. apply num_le; [exact Q|apply (F s I)|]. assert (C : forallb (fun s => k_leb Fk soon (gt_end Fk s)) path = true) by (vm_compute; reflexivity). rewrite forallb_forall in C. exact (C s I).
  - assert (C : existsb (fun s => k_leb Fk (gt_begin Fk s) one_second && k_ltb Fk one_second (gt_end Fk s)) path = true) by (vm_compute; reflexivity). apply existsb_exists in C. destruct C as (s & I & C). exists s. split; [exact I|].
    apply andb_prop in C. destruct C as [C1 C2]. rewrite Forall_forall in F. destruct (F s I) as (B0 & B1 & _). destruct one_second_num as [O _]. cbn [num_seg t_begin t_end]. split; [apply num_le|apply num_lt]; assumption.
Qed.

Print Assumptions C115_exact_numbers.
Print Assumptions C115_values.
Print Assumptions C115_outside.
Print Assumptions C115_search_anew.
Print Assumptions C115_search_from_index.
Print Assumptions C115_answered_partial.
Print Assumptions C115_simulated.
Print Assumptions C115_simulated_answers_partial.
Print Assumptions C115_gap.
Print Assumptions C115_refuted.
