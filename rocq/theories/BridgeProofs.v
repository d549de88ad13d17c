(** The planner with doubles beside the planner with rounded real numbers:
    nothing overflows as long as the numbers stay in bounds. *)
From Coq Require Import Reals ZArith SpecFloat List Lia Lra.
From Verif Require Import Py Vec StateGen Junction Planner Rounding SpecRounding RoundingProofs Generic SpecIEEE IEEEProofs SpecBridge PropertiesIEEE RealFacts.
Import ListNotations.
Open Scope R_scope.

Notation p2 := (powerRZ 2).
(** stands for a number of at most 2^h *)
Inductive sb (h : Z) (x : spec_float) (r : R) : Prop := SB : stands x r -> Rabs r <= p2 h -> sb h x r.
Definition okh (h : Z) : bool := ((-1000 <=? h) && (h <=? 1000))%Z.
Lemma okh_range h : okh h = true -> (-1000 <= h <= 1000)%Z.
Proof. unfold okh. rewrite Bool.andb_true_iff, !Z.leb_le. tauto. Qed.
Lemma b64_mono x y : x <= y -> binary64 x <= binary64 y.
Proof.
  intros [L| ->]; [|lra]. destruct (Rle_or_lt (binary64 x) (binary64 y)) as [G|G]; [exact G|].
  pose proof (binary64_nearest x _ (binary64_double y)) as X. pose proof (binary64_nearest y _ (binary64_double x)) as Y.
  unfold Rabs in X, Y. repeat destruct (Rcase_abs _); lra.
Qed.
Lemma p2_double h : (-1000 <= h)%Z -> double (p2 h).
Proof. intros H. exists 1%Z, h. split; [reflexivity|]. split; [lia|ring]. Qed.
Lemma round_le v h : (-1000 <= h)%Z -> Rabs v <= p2 h -> Rabs (binary64 v) <= p2 h.
Proof.
  intros H V. apply abs_le_inv in V. pose proof (binary64_fix _ (p2_double h H)) as E. apply Rabs_le. split.
  - rewrite <- E, <- binary64_opp. apply b64_mono. lra.
  - rewrite <- E. apply b64_mono. lra.
Qed.
Lemma sb_fits r h : (-1000 <= h <= 1000)%Z -> Rabs r <= p2 h -> fits r.
Proof. intros H V. unfold fits. eapply Rle_lt_trans; [exact V|]. unfold too_large. apply p2_up. lia. Qed.
Lemma sb_weaken h h' x r : sb h x r -> (h <=? h')%Z = true -> sb h' x r.
Proof. intros [S B] L. apply Z.leb_le in L. split; [exact S|]. eapply Rle_trans; [exact B|]. apply pow2_mono. exact L. Qed.
Lemma p2_double_sum h1 h2 : p2 h1 + p2 h2 <= p2 (Z.max h1 h2 + 1).
Proof.
  rewrite pow2_add, p2_1. assert (p2 h1 <= p2 (Z.max h1 h2)) by (apply pow2_mono; lia). assert (p2 h2 <= p2 (Z.max h1 h2)) by (apply pow2_mono; lia). lra.
Qed.
Lemma sb_add h1 h2 x y r q : sb h1 x r -> sb h2 y q -> okh (Z.max h1 h2 + 1) = true -> sb (Z.max h1 h2 + 1) (k_add Fk x y) (k_add D64 r q).
Proof.
  intros [S1 B1] [S2 B2] O. apply okh_range in O. assert (B : Rabs (k_add D64 r q) <= p2 (Z.max h1 h2 + 1)).
  { cbn [Bk k_add]. apply round_le; [lia|]. eapply Rle_trans; [apply Rabs_triang|]. pose proof (p2_double_sum h1 h2). lra. }
  split; [|exact B]. apply (proj1 (C112_same_arithmetic _ _ _ _ S1 S2)). eapply sb_fits; [exact O|exact B].
Qed.
Lemma sb_sub h1 h2 x y r q : sb h1 x r -> sb h2 y q -> okh (Z.max h1 h2 + 1) = true -> sb (Z.max h1 h2 + 1) (k_sub Fk x y) (k_sub D64 r q).
Proof.
  intros [S1 B1] [S2 B2] O. apply okh_range in O. assert (B : Rabs (k_sub D64 r q) <= p2 (Z.max h1 h2 + 1)).
  { cbn [Bk k_sub]. apply round_le; [lia|]. unfold Rminus. eapply Rle_trans; [apply Rabs_triang|]. rewrite Rabs_Ropp. pose proof (p2_double_sum h1 h2). lra. }
  split; [|exact B]. apply (proj1 (proj2 (C112_same_arithmetic _ _ _ _ S1 S2))). eapply sb_fits; [exact O|exact B].
Qed.
Lemma sb_mul h1 h2 x y r q : sb h1 x r -> sb h2 y q -> okh (h1 + h2) = true -> sb (h1 + h2) (k_mul Fk x y) (k_mul D64 r q).
Proof.
  intros [S1 B1] [S2 B2] O. apply okh_range in O. assert (B : Rabs (k_mul D64 r q) <= p2 (h1 + h2)).
  { cbn [Bk k_mul]. apply round_le; [lia|]. rewrite Rabs_mult, pow2_add. apply Rmult_le_compat; try apply Rabs_pos; assumption. }
  split; [|exact B]. apply (proj1 (proj2 (proj2 (C112_same_arithmetic _ _ _ _ S1 S2)))). eapply sb_fits; [exact O|exact B].
Qed.
(** at least 2^l *)
Inductive lb (l : Z) (r : R) : Prop := LB : p2 l <= Rabs r -> lb l r.
Lemma lb_nonzero l r : lb l r -> r <> 0.
Proof. intros [L] ->. rewrite Rabs_R0 in L. pose proof (pow2_pos l). lra. Qed.
Lemma sb_div h1 h2 l x y r q : sb h1 x r -> sb h2 y q -> lb l q -> okh (h1 - l) = true -> sb (h1 - l) (k_div Fk x y) (k_div D64 r q).
Proof.
  intros [S1 B1] [S2 B2] L O. apply okh_range in O. pose proof (lb_nonzero _ _ L) as N. destruct L as [L]. assert (B : Rabs (k_div D64 r q) <= p2 (h1 - l)).
  { cbn [Bk k_div]. apply round_le; [lia|]. unfold Rdiv. rewrite Rabs_mult, Rabs_inv.
    unfold Z.sub. rewrite pow2_add. apply Rmult_le_compat; [apply Rabs_pos|left; apply Rinv_0_lt_compat, Rabs_pos_lt, N|exact B1|].
    assert (E : p2 (- l) = / p2 l). { pose proof (pow2_pos l). apply Rmult_eq_reg_l with (p2 l); [|lra]. rewrite <- pow2_add, Z.add_opp_diag_r, Rinv_r by lra. reflexivity. }
    rewrite E. apply Rinv_le_contravar; [apply pow2_pos|exact L]. }
  split; [|exact B]. apply (proj1 (proj2 (proj2 (proj2 (C112_same_arithmetic _ _ _ _ S1 S2)))) N). eapply sb_fits; [exact O|exact B].
Qed.
Lemma sb_sqrt h x r : sb h x r -> 0 <= r -> okh h = true -> sb ((h + 1) / 2) (k_sqrt Fk x) (k_sqrt D64 r).
Proof.
  intros [S B] N O. apply okh_range in O. set (n := ((h + 1) / 2)%Z). assert (Hn : (2 * n <= h + 1 < 2 * n + 2)%Z) by (unfold n; pose proof (Z.div_mod (h + 1) 2 ltac:(lia)); pose proof (Z.mod_pos_bound (h + 1) 2 ltac:(lia)); lia).
  assert (B' : Rabs (k_sqrt D64 r) <= p2 n).
  { cbn [Bk k_sqrt]. apply round_le; [lia|]. rewrite Rabs_right by (apply Rle_ge, sqrt_pos). rewrite Rabs_right in B by lra. pose proof (pow2_pos n).
    rewrite <- (sqrt_square (p2 n)) by lra. apply sqrt_le_1_alt. rewrite <- pow2_add. eapply Rle_trans; [exact B|]. apply pow2_mono. lia. }
  split; [|exact B']. exact (proj1 (proj2 (proj2 (proj2 (proj2 (C112_same_arithmetic _ _ _ _ S S))))) N).
Qed.
Lemma sb_abs h x r : sb h x r -> sb h (k_abs Fk x) (k_abs D64 r).
Proof. intros [S B]. split; [apply (C112_same_arithmetic _ _ _ _ S S)|]. cbn [Bk k_abs]. rewrite Rabs_Rabsolu. exact B. Qed.
Lemma sb_opp h x r : sb h x r -> sb h (k_opp Fk x) (k_opp D64 r).
Proof. intros [S B]. split; [apply (C112_same_arithmetic _ _ _ _ S S)|]. cbn [Bk k_opp]. rewrite Rabs_Ropp. exact B. Qed.
Lemma ltb_same x y r q : stands x r -> stands y q -> k_ltb Fk x y = k_ltb D64 r q.
Proof. intros S1 S2. apply (C112_same_arithmetic _ _ _ _ S1 S2). Qed.
Lemma leb_same x y r q : stands x r -> stands y q -> k_leb Fk x y = k_leb D64 r q.
Proof. intros S1 S2. apply (C112_same_arithmetic _ _ _ _ S1 S2). Qed.
Lemma eqb_same x y r q : stands x r -> stands y q -> k_eqb Fk x y = k_eqb D64 r q.
Proof. intros S1 S2. apply (C112_same_arithmetic _ _ _ _ S1 S2). Qed.
Lemma sb_dec m e h : Rabs (r_of_dec m e) <= p2 h -> okh h = true -> sb h (k_dec Fk m e) (k_dec D64 m e).
Proof.
  intros V O. apply okh_range in O. assert (B : Rabs (k_dec D64 m e) <= p2 h) by (cbn [Bk k_dec]; apply round_le; [lia|exact V]).
  split; [|exact B]. apply (proj1 (dec_ok m e)). exact (sb_fits _ _ O B).
Qed.
Lemma sb_stands h x r : sb h x r -> stands x r. Proof. intros [S _]. exact S. Qed.
Lemma p2_num h n : (0 <= h)%Z -> (n <= 2 ^ h)%Z -> IZR n <= p2 h.
Proof. intros H N. rewrite p2_Z by exact H. apply IZR_le, N. Qed.
Lemma sb_0 : sb 0 (k0 Fk) (k0 D64).
Proof. apply sb_dec; [|reflexivity]. cbn. rewrite Rabs_R0. lra. Qed.
Lemma sb_1 : sb 0 (k1 Fk) (k1 D64).
Proof. apply sb_dec; [|reflexivity]. cbn. rewrite Rabs_right; lra. Qed.
Lemma sb_2 : sb 1 (k2 Fk) (k2 D64).
Proof. apply sb_dec; [|reflexivity]. rewrite p2_1. cbn. rewrite Rabs_right; lra. Qed.
Lemma sb_small n : sb 0 (k_dec Fk 1 (Zneg n)) (k_dec D64 1 (Zneg n)).
Proof.
  apply sb_dec; [|reflexivity]. cbn [r_of_dec]. change (p2 0) with 1. assert (1 <= IZR (Zpos (10 ^ n))) by (apply IZR_le; lia).
  unfold Rdiv. rewrite Rmult_1_l, Rabs_right; [|apply Rle_ge; left; apply Rinv_0_lt_compat; lra]. rewrite <- Rinv_1. apply Rinv_le_contravar; lra.
Qed.
Ltac sbs :=
  lazymatch goal with
  | |- sb _ (k_add Fk _ _) _ => eapply sb_add; [sbs|sbs|reflexivity]
  | |- sb _ (k_sub Fk _ _) _ => eapply sb_sub; [sbs|sbs|reflexivity]
  | |- sb _ (k_mul Fk _ _) _ => eapply sb_mul; [sbs|sbs|reflexivity]
  | |- sb _ (k_div Fk _ _) _ => eapply sb_div; [sbs|sbs|eassumption|reflexivity]
  | |- sb _ (k_abs Fk _) _ => apply sb_abs; sbs
  | |- sb _ (k_opp Fk _) _ => apply sb_opp; sbs
  | |- sb _ (k0 Fk) _ => apply sb_0
  | |- sb _ (k1 Fk) _ => apply sb_1
  | |- sb _ (k2 Fk) _ => apply sb_2
  | |- sb _ (k_dec Fk 1 (Zneg _)) _ => apply sb_small
  | _ => eassumption
  end.
Tactic Notation "weak" := (eapply sb_weaken; [sbs|reflexivity]).

(** * Vectors *)
Inductive sv (h : Z) (a : gvec Fk) (b : gvec D64) : Prop :=
  SV : sb h (gx Fk a) (gx D64 b) -> sb h (gy Fk a) (gy D64 b) -> sb h (gz Fk a) (gz D64 b) -> sb h (ge Fk a) (ge D64 b) -> sv h a b.
Lemma sv_weaken h h' a b : sv h a b -> (h <=? h')%Z = true -> sv h' a b.
Proof. intros [X Y Z E] L. constructor; eapply sb_weaken; eassumption. Qed.
Lemma sv_same h a b : sv h a b -> same_vec a b.
Proof. intros [[X _] [Y _] [Z _] [E _]]. repeat (split; [assumption|]). assumption. Qed.
Lemma sv_add h1 h2 a b c d : sv h1 a b -> sv h2 c d -> okh (Z.max h1 h2 + 1) = true -> sv (Z.max h1 h2 + 1) (gvadd Fk a c) (gvadd D64 b d).
Proof. intros [X Y Z E] [X' Y' Z' E'] O. constructor; apply sb_add; assumption. Qed.
Lemma sv_sub h1 h2 a b c d : sv h1 a b -> sv h2 c d -> okh (Z.max h1 h2 + 1) = true -> sv (Z.max h1 h2 + 1) (gvsub Fk a c) (gvsub D64 b d).
Proof. intros [X Y Z E] [X' Y' Z' E'] O. constructor; apply sb_sub; assumption. Qed.
Lemma sv_scale h1 h2 a b c d : sb h1 c d -> sv h2 a b -> okh (h2 + h1) = true -> sv (h2 + h1) (gvscale Fk c a) (gvscale D64 d b).
Proof. intros C [X Y Z E] O. constructor; apply sb_mul; assumption. Qed.
Lemma sv_div h1 h2 l a b c d : sv h1 a b -> sb h2 c d -> lb l d -> okh (h1 - l) = true -> sv (h1 - l) (gvdiv Fk a c) (gvdiv D64 b d).
Proof. intros [X Y Z E] C L O. constructor; eapply sb_div; eassumption. Qed.
Lemma sv_zero : sv 0 (gzero Fk) (gzero D64).
Proof. constructor; apply sb_0. Qed.
Lemma sq_nonneg x : 0 <= k_mul D64 x x.
Proof. cbn. apply binary64_nonneg, Rle_0_sqr. Qed.
Lemma add_nonneg x y : 0 <= x -> 0 <= y -> 0 <= k_add D64 x y.
Proof. intros. cbn. apply binary64_nonneg. lra. Qed.
Lemma sb_norm3 h a b : sv h a b -> okh (h + h + 2) = true -> (0 <=? h)%Z = true -> sb (h + 2) (gnorm3 Fk a) (gnorm3 D64 b).
Proof.
  intros [X Y Z _] O P. apply okh_range in O. apply Z.leb_le in P. unfold gnorm3. eapply sb_weaken.
  - apply sb_sqrt; [|repeat apply add_nonneg; apply sq_nonneg|].
    + apply sb_add; [apply sb_add; [apply sb_mul; [exact X|exact X|]|apply sb_mul; [exact Y|exact Y|]|]|apply sb_mul; [exact Z|exact Z|]|];
        unfold okh; rewrite Bool.andb_true_iff, !Z.leb_le; lia.
    + unfold okh; rewrite Bool.andb_true_iff, !Z.leb_le; lia.
  - apply Z.leb_le. match goal with |- ((?a / 2) <= _)%Z => pose proof (Z.div_mod a 2 ltac:(lia)); pose proof (Z.mod_pos_bound a 2 ltac:(lia)) end. lia.
Qed.
Lemma sb_norm4 h a b : sv h a b -> okh (h + h + 3) = true -> (0 <=? h)%Z = true -> sb (h + 2) (gnorm4 Fk a) (gnorm4 D64 b).
Proof.
  intros [X Y Z W] O P. apply okh_range in O. apply Z.leb_le in P. unfold gnorm4. eapply sb_weaken.
  - apply sb_sqrt; [|repeat apply add_nonneg; apply sq_nonneg|].
    + apply sb_add; [apply sb_add; [apply sb_add; [apply sb_mul; [exact X|exact X|]|apply sb_mul; [exact Y|exact Y|]|]|apply sb_mul; [exact Z|exact Z|]|]|apply sb_mul; [exact W|exact W|]|];
        unfold okh; rewrite Bool.andb_true_iff, !Z.leb_le; lia.
    + unfold okh; rewrite Bool.andb_true_iff, !Z.leb_le; lia.
  - apply Z.leb_le. match goal with |- ((?a / 2) <= _)%Z => pose proof (Z.div_mod a 2 ltac:(lia)); pose proof (Z.mod_pos_bound a 2 ltac:(lia)) end. lia.
Qed.
Lemma norm3_nonneg b : 0 <= gnorm3 D64 b. Proof. unfold gnorm3. cbn [Bk k_sqrt]. apply binary64_nonneg, sqrt_pos. Qed.
Lemma norm4_nonneg b : 0 <= gnorm4 D64 b. Proof. unfold gnorm4. cbn [Bk k_sqrt]. apply binary64_nonneg, sqrt_pos. Qed.
Lemma mul_nonneg x y : 0 <= x -> 0 <= y -> 0 <= k_mul D64 x y.
Proof. intros. cbn. apply binary64_nonneg, Rmult_le_pos; assumption. Qed.
Lemma half_nonneg x : 0 <= x -> 0 <= k_div D64 x (k2 D64).
Proof. intros H. cbn. apply binary64_nonneg. apply Rmult_le_pos; [exact H|]. destruct (Req_dec (binary64 2) 0) as [E|E]; [|left; apply Rinv_0_lt_compat; pose proof (binary64_nonneg 2 ltac:(lra)); lra].
  exfalso. assert (1 <= binary64 2); [|lra]. assert (D : double 1) by (apply (p2_double 0); lia). rewrite <- (binary64_fix _ D). apply b64_mono. lra. Qed.
Lemma two_nonneg : 0 <= k2 D64. Proof. cbn. apply binary64_nonneg. lra. Qed.
Create HintDb nn.
#[local] Hint Resolve sq_nonneg add_nonneg norm3_nonneg norm4_nonneg mul_nonneg half_nonneg two_nonneg : nn.
Ltac sbs ::=
  lazymatch goal with
  | |- sb _ (k_add Fk _ _) _ => eapply sb_add; [sbs|sbs|reflexivity]
  | |- sb _ (k_sub Fk _ _) _ => eapply sb_sub; [sbs|sbs|reflexivity]
  | |- sb _ (k_mul Fk _ _) _ => eapply sb_mul; [sbs|sbs|reflexivity]
  | |- sb _ (k_div Fk _ _) _ => eapply sb_div; [sbs|sbs|eassumption|reflexivity]
  | |- sb _ (k_abs Fk _) _ => apply sb_abs; sbs
  | |- sb _ (k_opp Fk _) _ => apply sb_opp; sbs
  | |- sb _ (k0 Fk) _ => apply sb_0
  | |- sb _ (k1 Fk) _ => apply sb_1
  | |- sb _ (k2 Fk) _ => apply sb_2
  | |- sb _ (k_dec Fk 1 (Zneg _)) _ => apply sb_small
  | |- sb _ (k_sqrt Fk _) _ => eapply sb_sqrt; [sbs|auto with nn|reflexivity]
  | |- sb _ (gnorm3 Fk _) _ => eapply sb_norm3; [sbs|reflexivity|reflexivity]
  | |- sb _ (gnorm4 Fk _) _ => eapply sb_norm4; [sbs|reflexivity|reflexivity]
  | |- sv _ (gvadd Fk _ _) _ => eapply sv_add; [sbs|sbs|reflexivity]
  | |- sv _ (gvsub Fk _ _) _ => eapply sv_sub; [sbs|sbs|reflexivity]
  | |- sv _ (gvscale Fk _ _) _ => eapply sv_scale; [sbs|sbs|reflexivity]
  | |- sv _ (gvdiv Fk _ _) _ => eapply sv_div; [sbs|sbs|eassumption|reflexivity]
  | |- sv _ (gzero Fk) _ => apply sv_zero
  | _ => eassumption
  end.
Ltac wk := first [eapply sb_weaken; [sbs|reflexivity] | eapply sv_weaken; [sbs|reflexivity]].
(** comparisons: both sides by [sbs] *)
Ltac cmp := first [apply ltb_same | apply leb_same | apply eqb_same]; eapply sb_stands; sbs.
Lemma isclose_same a b c d : sb 250 a b -> sb 250 c d -> gisclose Fk a c = gisclose D64 b d.
Proof. intros A C. unfold gisclose. cmp. Qed.
Lemma veqb_same a b c d : sv 250 a b -> sv 250 c d -> gveqb Fk a c = gveqb D64 b d.
Proof. intros [X Y Z E] [X' Y' Z' E']. unfold gveqb. f_equal; [f_equal; [f_equal|]|]; apply isclose_same; assumption. Qed.
Lemma travel_same a b c d : sv 250 a b -> sv 250 c d -> gis_travel Fk a c = gis_travel D64 b d.
Proof. intros [X Y Z E] [X' Y' Z' E']. unfold gis_travel. cmp. Qed.
Lemma extruding_same a b c d i : sv 250 a b -> sv 250 c d -> gpos_is_extruding Fk a c i = gpos_is_extruding D64 b d i.
Proof. intros [X Y Z E] [X' Y' Z' E']. unfold gpos_is_extruding. destruct i; cmp. Qed.
(** at least 2^l without sign *)
Lemma lb_round l v : (-1000 <= l)%Z -> lb l v -> lb l (binary64 v).
Proof.
  intros H [L]. constructor. pose proof (binary64_fix _ (p2_double l H)) as E. unfold Rabs in L. destruct (Rcase_abs v) as [N|N].
  - assert (B : binary64 v <= - p2 l) by (rewrite <- E, <- binary64_opp; apply b64_mono; lra). pose proof (pow2_pos l). rewrite Rabs_left by lra. lra.
  - assert (B : p2 l <= binary64 v) by (rewrite <- E; apply b64_mono; lra). pose proof (pow2_pos l). rewrite Rabs_right by lra. lra.
Qed.

(** * Segments *)
Inductive sseg (h : Z) (a : gsegment Fk) (b : gsegment D64) : Prop :=
  SSeg : sb h (gt_begin Fk a) (gt_begin D64 b) -> sb h (gt_end Fk a) (gt_end D64 b) ->
  sv h (gpos_begin Fk a) (gpos_begin D64 b) -> sv h (gpos_end Fk a) (gpos_end D64 b) ->
  sv h (gvel_begin Fk a) (gvel_begin D64 b) -> sv h (gvel_end Fk a) (gvel_end D64 b) -> sseg h a b.
Definition sres {A B} (Q : A -> B -> Prop) (a : res A) (b : res B) : Prop :=
  match a, b with Ok x, Ok y => Q x y | Err e, Err e' => e = e' | _, _ => False end.
Lemma sseg_weaken h h' a b : sseg h a b -> (h <=? h')%Z = true -> sseg h' a b.
Proof.
  intros [T0 T1 P0 P1 V0 V1] L. constructor; first [eapply sb_weaken; eassumption|eapply sv_weaken; eassumption].
Qed.
Lemma sbind {A B C D} (Q : A -> B -> Prop) (P : C -> D -> Prop) a b f g :
  sres Q a b -> (forall x y, Q x y -> sres P (f x) (g y)) -> sres P (bind a f) (bind b g).
Proof. destruct a, b; cbn; intros H K; try contradiction; [apply K, H|exact H]. Qed.
Lemma lb_2 : lb 0 (k2 D64).
Proof. unfold k2. cbn [Bk k_dec]. apply lb_round; [lia|]. constructor. cbn. rewrite Rabs_right; lra. Qed.
Lemma check_same a b : sseg 100 a b -> sres eq (gself_check Fk a) (gself_check D64 b).
Proof.
  intros [T0 T1 P0 P1 V0 V1]. unfold gself_check. pose proof lb_2 as L2.
  replace (k_ltb Fk (k_dec Fk 1 (-6)) (gnorm3 Fk (gvsub Fk (gpos_end Fk a) (gpredicted_end Fk a)))) with (k_ltb D64 (k_dec D64 1 (-6)) (gnorm3 D64 (gvsub D64 (gpos_end D64 b) (gpredicted_end D64 b)))).
  - replace (k_ltb Fk (gt_end Fk a) (gt_begin Fk a)) with (k_ltb D64 (gt_end D64 b) (gt_begin D64 b)) by (symmetry; cmp).
    destruct (k_ltb D64 (k_dec D64 1 (-6)) _); [reflexivity|]. destruct (k_ltb D64 (gt_end D64 b) _); reflexivity.
  - symmetry. unfold gpredicted_end. cmp.
Qed.
Lemma exceeds_same a b c d : sb 250 a b -> sb 250 c d -> gexceeds Fk a c = gexceeds D64 b d.
Proof. intros A C. unfold gexceeds. f_equal; [cmp|]. f_equal. apply isclose_same; assumption. Qed.
Lemma settings_same v w a b : sb 100 v w -> sseg 100 a b -> sres eq (gself_check_settings Fk v a) (gself_check_settings D64 w b).
Proof.
  intros V S. unfold gself_check_settings. eapply sbind; [apply check_same|].
  - exact S.
  - intros _ _ _. destruct S as [T0 T1 P0 P1 V0 V1].
    assert (A : sb 250 (gnorm3 Fk (gvel_begin Fk a)) (gnorm3 D64 (gvel_begin D64 b))) by wk.
    assert (B : sb 250 (gnorm3 Fk (gvel_end Fk a)) (gnorm3 D64 (gvel_end D64 b))) by wk. assert (C : sb 250 v w) by wk.
    rewrite (exceeds_same _ _ _ _ A C), (exceeds_same _ _ _ _ B C).
    generalize (gexceeds D64 (gnorm3 D64 (gvel_begin D64 b)) w) (gexceeds D64 (gnorm3 D64 (gvel_end D64 b)) w). intros [] []; exact eq_refl.
Qed.
Definition stime (t0 t1 : R) (a : gsegment Fk) (b : gsegment D64) : Prop := sseg 100 a b /\ gt_begin D64 b = t0 /\ gt_end D64 b = t1.
Lemma mk_same t0 t1 p0 p1 v0 v1 t0' t1' p0' p1' v0' v1' : sb 100 t0 t0' -> sb 100 t1 t1' -> sv 100 p0 p0' -> sv 100 p1 p1' -> sv 100 v0 v0' -> sv 100 v1 v1' ->
  sres (stime t0' t1') (gmk_segment Fk t0 t1 p0 p1 v0 v1) (gmk_segment D64 t0' t1' p0' p1' v0' v1').
Proof.
  intros T0 T1 P0 P1 V0 V1. unfold gmk_segment. assert (S : sseg 100 (GSeg Fk t0 t1 p0 p1 v0 v1) (GSeg D64 t0' t1' p0' p1' v0' v1')) by (constructor; assumption).
  eapply sbind; [exact (check_same _ _ S)|]. intros _ _ _. split; [exact S|split; exact eq_refl].
Qed.

(** * Moves *)
(** what a time gains in a step *)
Definition tnear (n : Z) (t0 t : R) : Prop := Rabs (t - t0) <= IZR n * p2 36.
Lemma p2_gap h : (36 <= h)%Z -> p2 h = IZR (2 ^ (h - 36)) * p2 36.
Proof. intros H. replace (p2 h) with (p2 ((h - 36) + 36)) by (f_equal; lia). rewrite pow2_add, p2_Z by lia. reflexivity. Qed.
Lemma tstep n t0 t inc : Rabs t <= p2 75 -> tnear n t0 t -> Rabs inc <= p2 35 -> tnear (n + 1) t0 (k_add D64 t inc).
Proof.
  intros T N I. cbn [Bk k_add]. unfold tnear in *. destruct binary64_rounds as (_ & E0 & Er). specialize (Er (t + inc)).
  assert (U : Rabs (t + inc) <= p2 76). { eapply Rle_trans; [apply Rabs_triang|]. pose proof (p2_double_sum 75 75). cbn [Z.max Z.compare] in *. assert (p2 35 <= p2 75) by (apply pow2_mono; lia). change (Z.max 75 75 + 1)%Z with 76%Z in *. lra. }
  pose proof (pow2_pos 36) as P36. assert (P35 : p2 35 = p2 36 / 2) by (change 36%Z with (35 + 1)%Z; rewrite pow2_add, p2_1; field).
  assert (E1 : p2 (-53) * Rabs (t + inc) <= p2 23). { change (p2 23) with (p2 (-53 + 76)). rewrite pow2_add. apply Rmult_le_compat_l; [left; apply pow2_pos|exact U]. }
  assert (E2 : p2 23 <= p2 36 / 4). { change 36%Z with (34 + (1 + 1))%Z. rewrite !pow2_add, !p2_1. assert (p2 23 <= p2 34) by (apply pow2_mono; lia). lra. }
  assert (E3 : p2 (-1075) <= p2 36 / 8). { change 36%Z with (33 + (1 + (1 + 1)))%Z. rewrite !pow2_add, !p2_1. assert (p2 (-1075) <= p2 33) by (apply pow2_mono; lia). lra. }
  rewrite plus_IZR. replace (binary64 (t + inc) - t0) with ((t - t0) + inc + (binary64 (t + inc) - (t + inc))) by ring.
  eapply Rle_trans; [apply Rabs_triang|]. assert (Rabs (t - t0 + inc) <= IZR n * p2 36 + p2 35) by (eapply Rle_trans; [apply Rabs_triang|]; lra). lra.
Qed.
Lemma tnear_0 t : tnear 0 t t.
Proof. unfold tnear. rewrite Rminus_diag_eq, Rabs_R0 by reflexivity. lra. Qed.
Lemma tnear_le n m t0 t : tnear n t0 t -> (n <=? m)%Z = true -> tnear m t0 t.
Proof. unfold tnear. intros N L. apply Z.leb_le, IZR_le in L. pose proof (pow2_pos 36). eapply Rle_trans; [exact N|]. apply Rmult_le_compat_r; lra. Qed.
(** segments within three steps of a time *)
Definition soon (t0 : R) (s : gsegment D64) : Prop := tnear 3 t0 (gt_begin D64 s) /\ tnear 3 t0 (gt_end D64 s).
Definition keeps (t0 : R) (a : list (gsegment Fk)) (b : list (gsegment D64)) : Prop := Forall2 (sseg 100) a b /\ Forall (soon t0) b.
Lemma keep_same n m t0 t1 t2 a b : stime t1 t2 a b -> tnear n t0 t1 -> tnear m t0 t2 -> (n <=? 3)%Z = true -> (m <=? 3)%Z = true -> keeps t0 (gkeep_seg Fk a) (gkeep_seg D64 b).
Proof.
  intros (S & B1 & B2) N1 N2 L1 L2. pose proof S as [T0 T1 P0 P1 V0 V1]. unfold gkeep_seg.
  rewrite (travel_same _ (gpos_end D64 b) _ (gpos_begin D64 b)) by (eapply sv_weaken; [eassumption|reflexivity]).
  rewrite (extruding_same _ (gpos_end D64 b) _ (gpos_begin D64 b)) by (eapply sv_weaken; [eassumption|reflexivity]).
  destruct (_ || _)%bool; (split; [|]); [apply Forall2_cons; [exact S|apply Forall2_nil]| |apply Forall2_nil|apply Forall_nil].
  apply Forall_cons; [|apply Forall_nil]. split; [rewrite B1; eapply tnear_le; eassumption|rewrite B2; eapply tnear_le; eassumption].
Qed.
Lemma keeps_app t0 a b c d : keeps t0 a b -> keeps t0 c d -> keeps t0 (a ++ c) (b ++ d).
Proof. intros [A1 A2] [B1 B2]. split; [apply Forall2_app; assumption|apply Forall_app; split; assumption]. Qed.
Definition smove (t0 : R) (a : list (gsegment Fk) * btype) (b : list (gsegment D64) * btype) : Prop := keeps t0 (fst a) (fst b) /\ snd a = snd b.
Lemma sb_bound h h' x r : sb h x r -> (h <=? h')%Z = true -> Rabs r <= p2 h'.
Proof. intros [_ B] L. apply Z.leb_le in L. eapply Rle_trans; [exact B|]. apply pow2_mono. exact L. Qed.
(** directed by the rounded numbers *)
Ltac sbd :=
  lazymatch goal with
  | |- sb _ _ (k_add D64 _ _) => eapply sb_add; [sbd|sbd|reflexivity]
  | |- sb _ _ (k_sub D64 _ _) => eapply sb_sub; [sbd|sbd|reflexivity]
  | |- sb _ _ (k_mul D64 _ _) => eapply sb_mul; [sbd|sbd|reflexivity]
  | |- sb _ _ (k_div D64 _ _) => eapply sb_div; [sbd|sbd|eassumption|reflexivity]
  | |- sb _ _ (k_opp D64 _) => apply sb_opp; sbd
  | |- sb _ _ (k2 D64) => apply sb_2
  | _ => eassumption
  end.
Ltac bnd := eapply sb_bound; [sbd|reflexivity].
Section Move.
Variable dir : gvec Fk. Variable dir' : gvec D64.
Variable pv : gsegment Fk. Variable pv' : gsegment D64.
Variable acc : spec_float. Variable acc' : R.
Hypothesis Hd : sv 45 dir dir'.
Hypothesis Ht : sb 70 (gt_end Fk pv) (gt_end D64 pv').
Hypothesis Hp : sv 18 (gpos_end Fk pv) (gpos_end D64 pv').
Hypothesis Ha : sb 17 acc acc'.
Hypothesis La : 1 <= acc'.
Lemma lb_acc : lb 0 acc'.
Proof. constructor. cbn. rewrite Rabs_right; lra. Qed.
Lemma lb_2acc : lb 0 (k_mul D64 (k2 D64) acc').
Proof. cbn [Bk k_mul]. apply lb_round; [lia|]. destruct lb_2 as [L]. constructor. cbn [powerRZ] in *. rewrite Rabs_mult, (Rabs_right acc') by lra. assert (1 * 1 <= Rabs (k2 D64) * acc') by (apply Rmult_le_compat; lra). lra. Qed.
Lemma lb_2accn : lb 0 (k_mul D64 (k2 D64) (k_opp D64 acc')).
Proof. cbn [Bk k_mul k_opp]. apply lb_round; [lia|]. destruct lb_2 as [L]. constructor. cbn [powerRZ] in *. rewrite Rabs_mult, Rabs_Ropp, (Rabs_right acc') by lra. assert (1 * 1 <= Rabs (k2 D64) * acc') by (apply Rmult_le_compat; lra). lra. Qed.
Notation t0' := (gt_end D64 pv').
Lemma trapezoid_same d d' vb vb' vt vt' ve ve' (x : bool) :
  sb 17 d d' -> sb 10 vb vb' -> sb 10 vt vt' -> sb 11 ve ve' ->
  lb (-8) (if x return K D64 then gnorm4 D64 (gvscale D64 vt' dir') else gnorm3 D64 (gvscale D64 vt' dir')) ->
  sres (smove t0') (gtrapezoid Fk dir pv acc d vb vt ve x) (gtrapezoid D64 dir' pv' acc' d' vb' vt' ve' x).
Proof.
  intros Sd Sb St Se Lv. pose proof lb_acc. pose proof lb_2acc. pose proof lb_2accn. unfold gtrapezoid.
  assert (Lc : sb 60 (if x return K Fk then gnorm4 Fk (gvscale Fk vt dir) else gnorm3 Fk (gvscale Fk vt dir)) (if x return K D64 then gnorm4 D64 (gvscale D64 vt' dir') else gnorm3 D64 (gvscale D64 vt' dir'))) by (destruct x; wk).
  cbv zeta. revert Lv Lc. generalize (if x return K Fk then gnorm4 Fk (gvscale Fk vt dir) else gnorm3 Fk (gvscale Fk vt dir)) (if x return K D64 then gnorm4 D64 (gvscale D64 vt' dir') else gnorm3 D64 (gvscale D64 vt' dir')). intros vc vc' Lv Lc.
  eapply sbind; [apply mk_same; wk|]. intros sA sA' HA. eapply sbind; [apply mk_same; wk|]. intros sB sB' HB. eapply sbind; [apply mk_same; wk|]. intros sC sC' HC.
  pose proof (tnear_0 t0') as N0. match type of HA with stime _ (k_add D64 ?t ?i) _ _ => assert (N1 : tnear 1 t0' (k_add D64 t i)) by (apply (tstep 0); [bnd|exact N0|bnd]) end.
  match type of HB with stime _ (k_add D64 ?t ?i) _ _ => assert (N2 : tnear 2 t0' (k_add D64 t i)) by (apply (tstep 1); [bnd|exact N1|bnd]) end.
  match type of HC with stime _ (k_add D64 ?t ?i) _ _ => assert (N3 : tnear 3 t0' (k_add D64 t i)) by (apply (tstep 2); [bnd|exact N2|bnd]) end.
  split; [|reflexivity]. cbn [fst]. apply keeps_app; [eapply keep_same; [exact HA|exact N0|exact N1|reflexivity|reflexivity]|].
  apply keeps_app; [eapply keep_same; [exact HB|exact N1|exact N2|reflexivity|reflexivity]|eapply keep_same; [exact HC|exact N2|exact N3|reflexivity|reflexivity]].
Qed.
Lemma triang_same vb vb' vp vp' ve ve' : sb 10 vb vb' -> sb 20 vp vp' -> sb 11 ve ve' ->
  sres (smove t0') (gtriang Fk dir pv acc vb vp ve) (gtriang D64 dir' pv' acc' vb' vp' ve').
Proof.
  intros Sb St Se. pose proof lb_acc. pose proof lb_2acc. unfold gtriang. cbv zeta.
  eapply sbind; [apply mk_same; wk|]. intros sA sA' HA. eapply sbind; [apply mk_same; wk|]. intros sC sC' HC.
  pose proof (tnear_0 t0') as N0. match type of HA with stime _ (k_add D64 ?t ?i) _ _ => assert (N1 : tnear 1 t0' (k_add D64 t i)) by (apply (tstep 0); [bnd|exact N0|bnd]) end.
  match type of HC with stime _ (k_add D64 ?t ?i) _ _ => assert (N2 : tnear 2 t0' (k_add D64 t i)) by (apply (tstep 1); [bnd|exact N1|bnd]) end.
  split; [|reflexivity]. cbn [fst]. apply keeps_app; [eapply keep_same; [exact HA|exact N0|exact N1|reflexivity|reflexivity]|eapply keep_same; [exact HC|exact N1|exact N2|reflexivity|reflexivity]].
Qed.
Lemma up_same vb vb' ve ve' : sb 10 vb vb' -> sb 20 ve ve' ->
  sres (smove t0') (gsingl_up Fk dir pv acc vb ve) (gsingl_up D64 dir' pv' acc' vb' ve').
Proof.
  intros Sb Se. pose proof lb_acc. pose proof lb_2acc. unfold gsingl_up. cbv zeta. eapply sbind; [apply mk_same; wk|]. intros sA sA' HA.
  pose proof (tnear_0 t0') as N0. match type of HA with stime _ (k_add D64 ?t ?i) _ _ => assert (N1 : tnear 1 t0' (k_add D64 t i)) by (apply (tstep 0); [bnd|exact N0|bnd]) end.
  split; [|reflexivity]. eapply keep_same; [exact HA|exact N0|exact N1|reflexivity|reflexivity].
Qed.
Lemma down_same vb vb' ve ve' : sb 20 vb vb' -> sb 11 ve ve' ->
  sres (smove t0') (gsingl_dwn Fk dir pv acc vb ve) (gsingl_dwn D64 dir' pv' acc' vb' ve').
Proof.
  intros Sb Se. pose proof lb_acc. pose proof lb_2acc. unfold gsingl_dwn. cbv zeta. eapply sbind; [apply mk_same; wk|]. intros sA sA' HA.
  pose proof (tnear_0 t0') as N0. match type of HA with stime _ (k_add D64 ?t ?i) _ _ => assert (N1 : tnear 1 t0' (k_add D64 t i)) by (apply (tstep 0); [bnd|exact N0|bnd]) end.
  split; [|reflexivity]. eapply keep_same; [exact HA|exact N0|exact N1|reflexivity|reflexivity].
Qed.
End Move.
Inductive sst (a : gkstate Fk) (b : gkstate D64) : Prop :=
  SSt : sv 14 (gk_pos Fk a) (gk_pos D64 b) -> sb 10 (gk_speed Fk a) (gk_speed D64 b) -> sb 17 (gk_acc Fk a) (gk_acc D64 b) -> 1 <= gk_acc D64 b -> same_state a b -> sst a b.
Lemma distance_same A B A' B' : sst A A' -> sst B B' ->
  sb 17 (fst (gmove_distance Fk A B)) (fst (gmove_distance D64 A' B')) /\ snd (gmove_distance Fk A B) = snd (gmove_distance D64 A' B') /\ 0 <= fst (gmove_distance D64 A' B').
Proof.
  intros [PA _ _ _ _] [PB _ _ _ _]. unfold gmove_distance, gt_distance. cbv zeta.
  rewrite (eqb_same (gnorm3 Fk (gvsub Fk (gk_pos Fk B) (gk_pos Fk A))) (k0 Fk) (gnorm3 D64 (gvsub D64 (gk_pos D64 B') (gk_pos D64 A'))) (k0 D64)) by (eapply sb_stands; sbs).
  destruct (k_eqb D64 _ _); cbn [fst snd]; (split; [wk|split; [reflexivity|auto with nn]]).
Qed.
Lemma if_same h (c c' : bool) x y r q : c = c' -> sb h x r -> sb h y q -> sb h (if c return K Fk then x else y) (if c' return K D64 then r else q).
Proof. intros <- X Y. destruct c; assumption. Qed.
Lemma min_same h h' x y r q : sb h x r -> 0 <= r -> sb h' y q -> sb h' (if k_ltb Fk x y return K Fk then x else y) (if k_ltb D64 r q return K D64 then r else q).
Proof.
  intros X P Y. rewrite (ltb_same x y r q) by (eapply sb_stands; eassumption). destruct (k_ltb D64 r q) eqn:C; [|exact Y]. cbn [Bk k_ltb] in C. apply Rltb_iff in C.
  destruct X as [SX _], Y as [_ BY]. split; [exact SX|]. rewrite Rabs_right by lra. rewrite Rabs_right in BY by lra. lra.
Qed.
Lemma try_same {A B} (Q : A -> B -> Prop) a b : sres Q a b -> sres Q (try_runtime a) (try_runtime b).
Proof. unfold sres, try_runtime. destruct a as [x|e], b as [y|e']; try tauto. intros <-. destruct e; reflexivity. Qed.
Lemma move_same A B A' B' dir dir' pv pv' ve ve' : sst A A' -> sst B B' -> sv 45 dir dir' ->
  sb 70 (gt_end Fk pv) (gt_end D64 pv') -> sv 18 (gpos_end Fk pv) (gpos_end D64 pv') -> sv 100 (gvel_end Fk pv) (gvel_end D64 pv') -> sb 11 ve ve' ->
  lb (-8) (if snd (gmove_distance D64 A' B') return K D64 then gnorm4 D64 (gvscale D64 (gk_speed D64 B') dir') else gnorm3 D64 (gvscale D64 (gk_speed D64 B') dir')) ->
  sres (smove (gt_end D64 pv')) (gmove_maker2 Fk A B dir pv ve) (gmove_maker2 D64 A' B' dir' pv' ve').
Proof.
  intros SA SB Hd Ht Hp Hv He Lv. destruct (distance_same A B A' B' SA SB) as (Sd & Ex & Nd). pose proof SB as [_ Ss Sa La _]. unfold gmove_maker2.
  destruct (gmove_distance Fk A B) as [d x], (gmove_distance D64 A' B') as [d' x']. cbn [fst snd] in *. subst x'.
  rewrite (leb_same (gk_acc Fk B) (k0 Fk) (gk_acc D64 B') (k0 D64)) by (eapply sb_stands; sbs). destruct (k_leb D64 (gk_acc D64 B') (k0 D64)); [reflexivity|].
  pose proof (lb_acc _ La) as L1. pose proof (lb_2acc _ La) as L2. pose proof (lb_2accn _ La) as L3. pose proof lb_2 as L4.
  set (acc := gk_acc Fk B) in *. set (acc' := gk_acc D64 B') in *. set (v := gk_speed Fk B) in *. set (v' := gk_speed D64 B') in *.
  cbv zeta.
  assert (Sb : sb 10 (if k_ltb Fk (gnorm3 Fk (gvel_end Fk pv)) v return K Fk then gnorm3 Fk (gvel_end Fk pv) else v) (if k_ltb D64 (gnorm3 D64 (gvel_end D64 pv')) v' return K D64 then gnorm3 D64 (gvel_end D64 pv') else v'))
    by (eapply min_same; [sbs|auto with nn|assumption]).
  revert Sb. generalize (if k_ltb Fk (gnorm3 Fk (gvel_end Fk pv)) v return K Fk then gnorm3 Fk (gvel_end Fk pv) else v) (if k_ltb D64 (gnorm3 D64 (gvel_end D64 pv')) v' return K D64 then gnorm3 D64 (gvel_end D64 pv') else v').
  intros vb vb' Sb.
  assert (A0 : 0 <= acc') by lra.
  assert (S1 : sb 22 (k_div Fk (k_mul Fk (k_sub Fk v vb) (k_add Fk vb v)) (k_mul Fk (k2 Fk) acc)) (k_div D64 (k_mul D64 (k_sub D64 v' vb') (k_add D64 vb' v')) (k_mul D64 (k2 D64) acc'))) by wk.
  assert (S2 : sb 24 (k_div Fk (k_mul Fk (k_sub Fk ve v) (k_add Fk ve v)) (k_mul Fk (k2 Fk) (k_opp Fk acc))) (k_div D64 (k_mul D64 (k_sub D64 ve' v') (k_add D64 ve' v')) (k_mul D64 (k2 D64) (k_opp D64 acc')))) by wk.
  assert (S3 : sb 20 (k_sqrt Fk (k_add Fk (k_add Fk (k_mul Fk acc d) (k_div Fk (k_mul Fk vb vb) (k2 Fk))) (k_div Fk (k_mul Fk ve ve) (k2 Fk))))
                     (k_sqrt D64 (k_add D64 (k_add D64 (k_mul D64 acc' d') (k_div D64 (k_mul D64 vb' vb') (k2 D64))) (k_div D64 (k_mul D64 ve' ve') (k2 D64))))).
  { eapply sb_weaken; [eapply sb_sqrt; [sbs|auto 10 with nn|reflexivity]|reflexivity]. }
  assert (S4 : sb 38 (if k_ltb Fk ve vb return K Fk then k_sub Fk (k_mul Fk vb vb) (k_mul Fk (k_mul Fk (k2 Fk) acc) d) else k_add Fk (k_mul Fk vb vb) (k_mul Fk (k_mul Fk (k2 Fk) acc) d))
                     (if k_ltb D64 ve' vb' return K D64 then k_sub D64 (k_mul D64 vb' vb') (k_mul D64 (k_mul D64 (k2 D64) acc') d') else k_add D64 (k_mul D64 vb' vb') (k_mul D64 (k_mul D64 (k2 D64) acc') d'))).
  { apply if_same; [cmp|wk|wk]. }
  assert (S6 : sb 20 (k_sqrt Fk (k_add Fk (k_mul Fk (k_mul Fk (k2 Fk) acc) d) (k_mul Fk ve ve))) (k_sqrt D64 (k_add D64 (k_mul D64 (k_mul D64 (k2 D64) acc') d') (k_mul D64 ve' ve')))).
  { eapply sb_weaken; [eapply sb_sqrt; [sbs|auto 10 with nn|reflexivity]|reflexivity]. }
  revert S1 S2 S3 S4 S6.
  generalize (k_div Fk (k_mul Fk (k_sub Fk v vb) (k_add Fk vb v)) (k_mul Fk (k2 Fk) acc)) (k_div D64 (k_mul D64 (k_sub D64 v' vb') (k_add D64 vb' v')) (k_mul D64 (k2 D64) acc'))
    (k_div Fk (k_mul Fk (k_sub Fk ve v) (k_add Fk ve v)) (k_mul Fk (k2 Fk) (k_opp Fk acc))) (k_div D64 (k_mul D64 (k_sub D64 ve' v') (k_add D64 ve' v')) (k_mul D64 (k2 D64) (k_opp D64 acc')))
    (k_sqrt Fk (k_add Fk (k_add Fk (k_mul Fk acc d) (k_div Fk (k_mul Fk vb vb) (k2 Fk))) (k_div Fk (k_mul Fk ve ve) (k2 Fk))))
    (k_sqrt D64 (k_add D64 (k_add D64 (k_mul D64 acc' d') (k_div D64 (k_mul D64 vb' vb') (k2 D64))) (k_div D64 (k_mul D64 ve' ve') (k2 D64))))
    (if k_ltb Fk ve vb return K Fk then k_sub Fk (k_mul Fk vb vb) (k_mul Fk (k_mul Fk (k2 Fk) acc) d) else k_add Fk (k_mul Fk vb vb) (k_mul Fk (k_mul Fk (k2 Fk) acc) d))
    (if k_ltb D64 ve' vb' return K D64 then k_sub D64 (k_mul D64 vb' vb') (k_mul D64 (k_mul D64 (k2 D64) acc') d') else k_add D64 (k_mul D64 vb' vb') (k_mul D64 (k_mul D64 (k2 D64) acc') d'))
    (k_sqrt Fk (k_add Fk (k_mul Fk (k_mul Fk (k2 Fk) acc) d) (k_mul Fk ve ve))) (k_sqrt D64 (k_add D64 (k_mul D64 (k_mul D64 (k2 D64) acc') d') (k_mul D64 ve' ve'))).
  intros ru ru' rd rd' vp vp' vs vs' bs bs' S1 S2 S3 S4 S6.
  assert (S5 : sb 20 (if k_leb Fk (k0 Fk) vs return K Fk then k_sqrt Fk vs else k0 Fk) (if k_leb D64 (k0 D64) vs' return K D64 then k_sqrt D64 vs' else k0 D64)).
  { rewrite (leb_same (k0 Fk) vs (k0 D64) vs') by (eapply sb_stands; sbs). destruct (k_leb D64 (k0 D64) vs') eqn:C; [|wk].
    eapply sb_weaken; [eapply sb_sqrt; [sbs| |reflexivity]|reflexivity]. cbn [Bk k_leb] in C. apply Rleb_iff in C. replace (k0 D64) with 0 in C; [exact C|]. unfold k0. cbn. symmetry. apply binary64_0. }
  revert S5. generalize (if k_leb Fk (k0 Fk) vs return K Fk then k_sqrt Fk vs else k0 Fk) (if k_leb D64 (k0 D64) vs' return K D64 then k_sqrt D64 vs' else k0 D64). intros es es' S5.
  apply try_same.
  rewrite (ltb_same (k_add Fk ru rd) d (k_add D64 ru' rd') d'), (ltb_same (k0 Fk) ru (k0 D64) ru'), (ltb_same (k0 Fk) rd (k0 D64) rd'), (ltb_same ve vp ve' vp'), (ltb_same vb vp vb' vp'), (ltb_same vp v vp' v'),
    (ltb_same vb es vb' es'), (ltb_same es v es' v'), (ltb_same es vb es' vb') by (eapply sb_stands; sbs).
  rewrite (isclose_same ru ru' (k0 Fk) (k0 D64)), (isclose_same rd rd' (k0 Fk) (k0 D64)), (isclose_same vp vp' v v'), (isclose_same es es' v v') by wk.
  repeat match goal with |- sres _ (if ?c then _ else _) _ => destruct c end.
  - apply trapezoid_same; assumption.
  - apply triang_same; assumption.
  - apply up_same; assumption.
  - apply down_same; assumption.
  - reflexivity.
Qed.
