(** Facts about the boolean comparisons, norms and vectors. *)
From Coq Require Import Lra Psatz.
From Verif Require Import Py Vec.
Open Scope R_scope.

Lemma Rltb_true x y : x < y -> Rltb x y = true.
Proof. unfold Rltb; destruct (Rlt_dec x y); [reflexivity | contradiction]. Qed.
Lemma Rltb_false x y : y <= x -> Rltb x y = false.
Proof. unfold Rltb; destruct (Rlt_dec x y); [lra | reflexivity]. Qed.
Lemma Rltb_iff x y : Rltb x y = true <-> x < y.
Proof. unfold Rltb; destruct (Rlt_dec x y); split; intros; (assumption || reflexivity || discriminate || contradiction). Qed.
Lemma Rltb_nlt x y : Rltb x y = false <-> y <= x.
Proof. unfold Rltb; destruct (Rlt_dec x y); split; intros; (reflexivity || discriminate || lra). Qed.
Lemma Rleb_true x y : x <= y -> Rleb x y = true.
Proof. unfold Rleb; destruct (Rle_dec x y); [reflexivity | contradiction]. Qed.
Lemma Rleb_false x y : y < x -> Rleb x y = false.
Proof. unfold Rleb; destruct (Rle_dec x y); [lra | reflexivity]. Qed.
Lemma Rleb_iff x y : Rleb x y = true <-> x <= y.
Proof. unfold Rleb; destruct (Rle_dec x y); split; intros; (assumption || reflexivity || discriminate || contradiction). Qed.
Lemma Rleb_nle x y : Rleb x y = false <-> y < x.
Proof. unfold Rleb; destruct (Rle_dec x y); split; intros; (reflexivity || discriminate || lra). Qed.
Lemma Reqb_iff x y : Reqb x y = true <-> x = y.
Proof. unfold Reqb; destruct (Req_EM_T x y); split; intros; (assumption || reflexivity || discriminate || contradiction). Qed.
Lemma Reqb_neq x y : Reqb x y = false <-> x <> y.
Proof. unfold Reqb; destruct (Req_EM_T x y); split; intros; (assumption || reflexivity || discriminate || contradiction). Qed.
Lemma Reqb_refl x : Reqb x x = true.
Proof. apply Reqb_iff; reflexivity. Qed.

Lemma Rltb_spec x y : reflect (x < y) (Rltb x y).
Proof. unfold Rltb; destruct (Rlt_dec x y); constructor; assumption. Qed.
Lemma Rleb_spec x y : reflect (x <= y) (Rleb x y).
Proof. unfold Rleb; destruct (Rle_dec x y); constructor; assumption. Qed.
Lemma Reqb_spec x y : reflect (x = y) (Reqb x y).
Proof. unfold Reqb; destruct (Req_EM_T x y); constructor; assumption. Qed.

Lemma isclose_refl x : isclose x x = true.
Proof.
  unfold isclose; apply Rleb_true.
  replace (x - x) with 0 by ring. rewrite Rabs_R0.
  pose proof (Rabs_pos x); lra.
Qed.

Lemma veqb_refl v : veqb v v = true.
Proof. unfold veqb; rewrite !isclose_refl; reflexivity. Qed.

Lemma vec4_ext a b : vx a = vx b -> vy a = vy b -> vz a = vz b -> ve a = ve b -> a = b.
Proof. destruct a, b; simpl; intros; subst; reflexivity. Qed.

Ltac vec := apply vec4_ext; simpl; try ring; try field; try lra.

(** Squares and square roots. *)
Lemma sqrt_sq x : 0 <= x -> sqrt (x * x) = x.
Proof. apply sqrt_square. Qed.
Lemma sq_sqrt x : 0 <= x -> sqrt x * sqrt x = x.
Proof. apply sqrt_sqrt. Qed.
Lemma sq_le x y : 0 <= x -> 0 <= y -> x * x <= y * y -> x <= y.
Proof. intros; nra. Qed.
Lemma sq_lt x y : 0 <= x -> 0 <= y -> x * x < y * y -> x < y.
Proof. intros; nra. Qed.
Lemma le_sqrt_sq x y : 0 <= x -> x * x <= y -> x <= sqrt y.
Proof.
  intros Hx H. assert (0 <= y) by nra.
  apply sq_le; [assumption | apply sqrt_pos | rewrite sq_sqrt; assumption].
Qed.
Lemma lt_sqrt_sq x y : 0 <= x -> x * x < y -> x < sqrt y.
Proof.
  intros Hx H. assert (0 <= y) by nra.
  apply sq_lt; [assumption | apply sqrt_pos | rewrite sq_sqrt; assumption].
Qed.
Lemma sqrt_le_sq x y : 0 <= y -> x <= y * y -> sqrt x <= y.
Proof.
  intros Hy H. rewrite <- (sqrt_sq y Hy). apply sqrt_le_1_alt; assumption.
Qed.
Lemma sqrt_lt_sq x y : 0 <= y -> 0 <= x -> x < y * y -> sqrt x < y.
Proof.
  intros Hy Hx H. rewrite <- (sqrt_sq y Hy). apply sqrt_lt_1_alt; lra.
Qed.

Lemma norm3_nonneg v : 0 <= norm3 v.
Proof. apply sqrt_pos. Qed.
Lemma norm4_nonneg v : 0 <= norm4 v.
Proof. apply sqrt_pos. Qed.

Lemma sumsq3_nonneg v : 0 <= vx v * vx v + vy v * vy v + vz v * vz v.
Proof. nra. Qed.
Lemma sumsq4_nonneg v : 0 <= vx v * vx v + vy v * vy v + vz v * vz v + ve v * ve v.
Proof. nra. Qed.

Lemma norm3_sq v : norm3 v * norm3 v = vx v * vx v + vy v * vy v + vz v * vz v.
Proof. apply sq_sqrt, sumsq3_nonneg. Qed.
Lemma norm4_sq v : norm4 v * norm4 v = vx v * vx v + vy v * vy v + vz v * vz v + ve v * ve v.
Proof. apply sq_sqrt, sumsq4_nonneg. Qed.

Lemma norm3_unique v r : 0 <= r -> r * r = vx v * vx v + vy v * vy v + vz v * vz v -> norm3 v = r.
Proof. intros Hr H. unfold norm3. rewrite <- H. apply sqrt_sq; assumption. Qed.
Lemma norm4_unique v r : 0 <= r -> r * r = vx v * vx v + vy v * vy v + vz v * vz v + ve v * ve v -> norm4 v = r.
Proof. intros Hr H. unfold norm4. rewrite <- H. apply sqrt_sq; assumption. Qed.

Lemma norm3_scale k v : norm3 (vscale k v) = Rabs k * norm3 v.
Proof.
  apply norm3_unique.
  - apply Rmult_le_pos; [apply Rabs_pos | apply norm3_nonneg].
  - replace (Rabs k * norm3 v * (Rabs k * norm3 v)) with ((Rabs k * Rabs k) * (norm3 v * norm3 v)) by ring.
    rewrite norm3_sq. unfold Rabs; destruct (Rcase_abs k); simpl; ring.
Qed.
Lemma norm4_scale k v : norm4 (vscale k v) = Rabs k * norm4 v.
Proof.
  apply norm4_unique.
  - apply Rmult_le_pos; [apply Rabs_pos | apply norm4_nonneg].
  - replace (Rabs k * norm4 v * (Rabs k * norm4 v)) with ((Rabs k * Rabs k) * (norm4 v * norm4 v)) by ring.
    rewrite norm4_sq. unfold Rabs; destruct (Rcase_abs k); simpl; ring.
Qed.
Lemma norm3_scale_pos k v : 0 <= k -> norm3 (vscale k v) = k * norm3 v.
Proof. intros H; rewrite norm3_scale, Rabs_right by lra; reflexivity. Qed.
Lemma norm4_scale_pos k v : 0 <= k -> norm4 (vscale k v) = k * norm4 v.
Proof. intros H; rewrite norm4_scale, Rabs_right by lra; reflexivity. Qed.

Lemma norm3_zero v : vx v = 0 -> vy v = 0 -> vz v = 0 -> norm3 v = 0.
Proof. intros Hx Hy Hz. apply norm3_unique; [lra | rewrite Hx, Hy, Hz; ring]. Qed.
Lemma norm3_vzero : norm3 vzero = 0.
Proof. apply norm3_zero; reflexivity. Qed.
Lemma norm4_vzero : norm4 vzero = 0.
Proof. apply norm4_unique; simpl; lra. Qed.
Lemma norm3_zero_inv v : norm3 v = 0 -> vx v = 0 /\ vy v = 0 /\ vz v = 0.
Proof.
  intros H. pose proof (norm3_sq v) as E. rewrite H in E.
  repeat split; nra.
Qed.
Lemma norm4_zero_inv v : norm4 v = 0 -> v = vzero.
Proof.
  intros H. pose proof (norm4_sq v) as E. rewrite H in E.
  apply vec4_ext; simpl; nra.
Qed.
Lemma norm3_le_norm4 v : norm3 v <= norm4 v.
Proof. apply sqrt_le_1_alt; nra. Qed.

Lemma vdiv_scale v k : k <> 0 -> vdiv v k = vscale (/ k) v.
Proof. intros H; vec. Qed.
Lemma vscale_1 v : vscale 1 v = v.
Proof. vec. Qed.
Lemma vscale_0 v : vscale 0 v = vzero.
Proof. vec. Qed.
Lemma vscale_vscale a b v : vscale a (vscale b v) = vscale (a * b) v.
Proof. vec. Qed.
Lemma vadd_assoc a b c : vadd (vadd a b) c = vadd a (vadd b c).
Proof. vec. Qed.
Lemma vadd_vzero_r a : vadd a vzero = a.
Proof. vec. Qed.
Lemma vsub_self a : vsub a a = vzero.
Proof. vec. Qed.

Lemma norm3_sym a b : norm3 (vsub a b) = norm3 (vsub b a).
Proof. unfold norm3; f_equal; simpl; ring. Qed.
Lemma norm4_sym a b : norm4 (vsub a b) = norm4 (vsub b a).
Proof. unfold norm4; f_equal; simpl; ring. Qed.

