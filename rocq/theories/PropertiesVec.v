(** Properties C69, C74-C79: the vector classes as their callers see them.
    Vocabulary: SpecVec.v. *)
From Coq Require Import Reals Lra.
From Verif Require Import Py Vec Segment VecOps SpecVec RealFacts StrFacts MoveProofs PlannerProofs.
Open Scope R_scope.
Local Arguments S_ : simpl never.

Lemma arg_add c a o b : vector_arg o b -> vec_add c a o = (if match o with OVec d _ => subclass d c | _ => true end then Ok (c, vadd a b) else Err ValueError).
Proof. intros [[d ->]| ->]; destruct b; reflexivity. Qed.
Lemma arg_sub c a o b : vector_arg o b -> vec_sub c a o = (if match o with OVec d _ => subclass d c | _ => true end then Ok (c, vsub a b) else Err ValueError).
Proof. intros [[d ->]| ->]; destruct b; reflexivity. Qed.
Lemma class_ok c o : (forall d v, o = OVec d v -> d = c \/ c = CVec) -> (match o with OVec d _ => subclass d c | _ => true end) = true.
Proof. destruct o as [d v| | |]; try reflexivity. intros H. destruct (H d v eq_refl) as [->| ->]; [destruct c | destruct d]; reflexivity. Qed.

(** * C69: arithmetic accepts every documented operand *)
(** Sum and difference with an object of the same class (any object, for plain
    vectors) or a sequence. *)
Theorem C69_add_sub_partial c a o b : vector_arg o b -> (forall d v, o = OVec d v -> d = c \/ c = CVec) ->
  (exists r, vec_add c a o = Ok (c, r) /\ componentwise Rplus a b r) /\
  (exists r, vec_sub c a o = Ok (c, r) /\ componentwise Rminus a b r).
Proof.
  intros Ho Hc. rewrite (arg_add c a o b Ho), (arg_sub c a o b Ho), (class_ok c o Hc).
  split; eexists; (split; [reflexivity | repeat split]).
Qed.
Theorem C69_mul c a o k : scalar_arg o k -> exists r, vec_mul c a o = Ok (c, r) /\ scaled_by Rmult a k r.
Proof. intros [->|[->|(z & -> & ->)]]; eexists; (split; [reflexivity | repeat split]). Qed.
Theorem C69_div_partial c a o k : scalar_arg o k -> (forall z, o <> ONum (NInt z)) -> k <> 0 ->
  exists r, vec_div c a o = Ok (c, r) /\ scaled_by Rdiv a k r.
Proof.
  intros [->|[->|(z & -> & _)]] Hz Hk; [| |exfalso; exact (Hz z eq_refl)];
    (eexists; split; [unfold vec_div; rewrite (proj2 (Reqb_neq k 0) Hk); reflexivity | repeat split]).
Qed.
(** Everything else is rejected, with the documented exceptions. *)
Theorem C69_others_rejected c a o :
  ((forall b, ~ vector_arg o b) -> vec_add c a o = Err ValueError /\ vec_sub c a o = Err ValueError) /\
  ((forall k, ~ scalar_arg o k) -> vec_mul c a o = Err TypeError /\ vec_div c a o = Err TypeError).
Proof.
  split.
  - intros H. destruct o as [d b|l|n|]; try (split; reflexivity).
    + exfalso. apply (H b). left. exists d. reflexivity.
    + destruct l as [|x [|y [|z [|e [|w l]]]]]; try (split; reflexivity). exfalso. apply (H (V4 x y z e)). right. reflexivity.
  - intros H. destruct o as [d b|l|[k|k|z|k]|]; try (split; reflexivity).
    + exfalso. apply (H k). left. reflexivity.
    + exfalso. apply (H k). right. left. reflexivity.
    + exfalso. apply (H (IZR z)). right. right. exists z. split; reflexivity.
Qed.
(** Subtracting undoes adding, dividing undoes multiplying. *)
Theorem C69_undo c a o c' r :
  (vec_add c a o = Ok (c', r) -> vec_sub c' r o = Ok (c, a)) /\
  (forall k, k <> 0 -> vec_mul c a (ONum (NFloat k)) = Ok (c', r) -> vec_div c' r (ONum (NFloat k)) = Ok (c, a)).
Proof.
  split.
  - intros H. destruct o as [d b|l|n|]; try discriminate.
    + unfold vec_add in H. unfold vec_sub. destruct (subclass d c) eqn:E; [|discriminate]. inversion H; subst. rewrite E.
      f_equal; f_equal; apply vec4_ext; cbn; ring.
    + destruct l as [|x [|y [|z [|e [|w l]]]]]; try discriminate. inversion H; subst. unfold vec_sub. f_equal; f_equal; apply vec4_ext; cbn; ring.
  - intros k Hk H. inversion H; subst. unfold vec_div. rewrite (proj2 (Reqb_neq k 0) Hk). f_equal; f_equal; apply vec4_ext; cbn; field; exact Hk.
Qed.
(** C69 is false: an int is documented as divisor but refused, *)
Theorem C69_int_division_refuted : exists c a z o, scalar_arg o (IZR z) /\ IZR z <> 0 /\ vec_div c a o = Err TypeError.
Proof.
  exists CVel, (V4 1 2 3 4), 2%Z, (ONum (NInt 2)). split; [right; right; exists 2%Z; split; reflexivity|]. split; [lra | reflexivity].
Qed.
(** and a position plus a velocity is refused although both are 4D vectors,
    while a plain vector plus a velocity is not. *)
Theorem C69_mixed_classes_refuted : exists a b, vector_arg (OVec CVel b) b /\
  vec_add CPos a (OVec CVel b) = Err ValueError /\ vec_sub CVel b (OVec CVec a) = Err ValueError /\
  vec_add CVec a (OVec CVel b) = Ok (CVec, vadd a b).
Proof. exists (V4 1 2 3 4), (V4 5 6 7 8). split; [left; exists CVel; reflexivity|]. repeat split. Qed.
Example C69_case : exists o b, vector_arg o b /\ (forall d v, o = OVec d v -> d = CPos \/ CPos = CVec) /\ b <> vzero.
Proof.
  exists (OSeq [1; 2; 3; 4]), (V4 1 2 3 4). split; [right; reflexivity|]. split; [intros d v H; discriminate|].
  intros H. apply (f_equal vx) in H. cbn in H. lra.
Qed.

(** * C74: == answers whether two vectors are equal *)
Lemma veqb_close a b : veqb a b = true <-> close_to a b.
Proof.
  assert (K : forall x y, isclose x y = true <-> Rabs (x - y) <= 1 / 100000000 + 1 / 100000 * Rabs y).
  { intros x y. unfold isclose. destruct (Rleb_spec (Rabs (x - y)) (1 / 100000000 + 1 / 100000 * Rabs y)) as [H|H]; split; intros G; auto; try discriminate; contradiction. }
  unfold veqb. rewrite !andb_true_iff, !K. unfold close_to. split.
  - intros [[[H1 H2] H3] H4] f [<-|[<-|[<-|[<-|[]]]]]; assumption.
  - intros H. repeat split; apply H; simpl; auto.
Qed.
(** Between objects of one class, or with a sequence, the answer counts as true
    exactly for close coordinates. *)
Theorem C74_truth_partial c a o b : vector_arg o b -> (forall d v, o = OVec d v -> d = c) ->
  (truth (py_eq c a o) = true <-> close_to a b).
Proof.
  intros Ho Hc. rewrite <- veqb_close. destruct Ho as [[d ->]| ->].
  - rewrite (Hc d b eq_refl). destruct c; cbn; destruct (veqb a b); split; intros H; auto; discriminate.
  - destruct b as [x y z e]. cbn. destruct (veqb a (V4 x y z e)); split; intros H; auto; discriminate.
Qed.
Theorem C74_ne_is_negation c a o : py_ne c a o = ATrue <-> truth (py_eq c a o) = false.
Proof. unfold py_ne. destruct (truth (py_eq c a o)); split; intros H; auto; discriminate. Qed.
(** C74 is false: the answer is never False, *)
Theorem C74_never_false_refuted : exists c a o b, vector_arg o b /\ ~ close_to a b /\ py_eq c a o = ANone /\
  forall c a o, py_eq c a o <> AFalse.
Proof.
  assert (E : forall c a o, eq_method c a o <> AFalse).
  { intros c a o. destruct o as [d b|l|n|]; cbn; try discriminate.
    - destruct (subclass d c); [destruct (veqb a b)|]; discriminate.
    - destruct l as [|x [|y [|z [|e [|w l]]]]]; try discriminate. destruct (veqb a (V4 x y z e)); discriminate. }
  exists CPos, (V4 1 0 0 0), (OVec CPos vzero), vzero. split; [left; exists CPos; reflexivity|].
  assert (N : ~ close_to (V4 1 0 0 0) vzero).
  { intros H. specialize (H vx (or_introl eq_refl)). cbn in H. rewrite Rabs_R0, Rabs_right in H; lra. }
  split; [exact N|]. split.
  - cbn. destruct (veqb (V4 1 0 0 0) vzero) eqn:V; [|reflexivity]. exfalso. apply N, veqb_close, V.
  - intros c a o. unfold py_eq. destruct o as [d b|l|n|]; try apply E. destruct (subclass d c && negb (cls_eqb d c)); apply E.
Qed.
(** and objects of different classes are never equal, in either direction. *)
Theorem C74_classes_refuted : exists c d a, vector_arg (OVec d a) a /\ close_to a a /\ py_eq c a (OVec d a) = ANone /\
  forall c d a b, c <> d -> py_eq c a (OVec d b) = ANone.
Proof.
  exists CVec, CVel, (V4 1 2 3 4). split; [left; exists CVel; reflexivity|]. split.
  - intros f _. replace (f (V4 1 2 3 4) - f (V4 1 2 3 4)) with 0 by ring. rewrite Rabs_R0. pose proof (Rabs_pos (f (V4 1 2 3 4))). lra.
  - split; [reflexivity|]. intros c d a b H. destruct c, d; try reflexivity; contradiction.
Qed.

(** * C75: avoid_overspeed limits a velocity *)
(** C75 is false: the method fails for every velocity and every settings. *)
Theorem C75_refuted : exists settings a, avoid_overspeed settings a = Err AttributeError /\
  forall settings a, avoid_overspeed settings a = Err AttributeError.
Proof. exists [], vzero. split; [|intros settings a]; reflexivity. Qed.

(** * C76: results of a segment *)
(** C76 is false: a segment made by the constructor has no results, and none
    can be computed. *)
Theorem C76_refuted : exists s v key, calc_results fresh_result s v = Err AttributeError /\ get_result fresh_result key = Err AttributeError /\
  forall s v r, calc_results fresh_result s v <> Ok r.
Proof.
  exists (Seg 0 1 vzero vzero vzero vzero), 0, (S_ "vel"). split; [|split].
  - unfold calc_results. assert (E : isclose 0 0 = true).
    { unfold isclose. apply Rleb_true. replace (0 - 0) with 0 by ring. rewrite Rabs_R0. lra. }
    rewrite E. reflexivity.
  - reflexivity.
  - intros s v r. unfold calc_results. destruct (if _ : bool then _ else _); discriminate.
Qed.
(** If a caller has set the attribute, calc_results fills in the speeds and the
    relative speed errors, and get_result returns them. *)
Theorem C76_with_attribute_partial d s v r : calc_results (Some d) s v = Ok r ->
  get_result (Some r) (S_ "vel") = Ok (Some [norm3 (vel_begin s); norm3 (vel_end s)]) /\
  (0 < v -> get_result (Some r) (S_ "rel_vel_err") = Ok (Some [(v - norm3 (vel_begin s)) / v; (v - norm3 (vel_end s)) / v])) /\
  exists e, get_result (Some r) (S_ "segm_error") = Ok (Some [e; e]).
Proof.
  unfold calc_results. intros H. destruct (if _ : bool then _ else _) as [avg|] in H; [|discriminate]. cbn [bind] in H. inversion H; subst r; clear H.
  unfold get_result. rewrite !dget_dset. cbn -[norm3]. split; [reflexivity|]. split.
  - intros Hv. rewrite Rltb_true by exact Hv. reflexivity.
  - exists avg. reflexivity.
Qed.
Example C76_case : exists r, calc_results (Some []) (Seg 0 1 vzero vzero vzero vzero) 0 = Ok r.
Proof.
  unfold calc_results. assert (E : isclose 0 0 = true).
  { unfold isclose. apply Rleb_true. replace (0 - 0) with 0 by ring. rewrite Rabs_R0. lra. }
  rewrite E. eexists. reflexivity.
Qed.

(** * C77: the initial segment *)
(** With a position: at rest there, of no duration. *)
Theorem C77_with_position_partial p : exists s, segment_create_initial (Some p) = Ok s /\
  t_begin s = 0 /\ t_end s = 0 /\ pos_begin s = p /\ pos_end s = p /\ vel_begin s = vzero /\ vel_end s = vzero.
Proof.
  unfold segment_create_initial, mk_segment, self_check, predicted_end. cbn [pos_end pos_begin t_end t_begin vel_begin vel_end].
  replace (vsub p (vadd p (vdiv (vscale (0 - 0) (vadd vzero vzero)) 2))) with vzero by (destruct p; unfold vsub, vadd, vdiv, vscale, vzero; cbn; f_equal; field).
  assert (E : norm3 vzero = 0) by (unfold norm3, vzero; cbn; replace (0 * 0 + 0 * 0 + 0 * 0) with 0 by ring; apply sqrt_0).
  rewrite E, Rltb_false, Rltb_false by lra. cbn [bind]. eexists. split; [reflexivity|]. repeat split.
Qed.
(** C77 is false: without one it raises instead of starting from zero. *)
Theorem C77_refuted : exists p, segment_create_initial p = Err TypeError.
Proof. exists None. reflexivity. Qed.

(** * C78: the methods of position *)
Lemma norm3_dist a b : norm3 (vsub a b) = dist3 a b.
Proof. reflexivity. Qed.
(** For vectors: whether x, y or z differ, whether e increases (or differs),
    and the Euclidean distances. *)
Theorem C78_vectors_partial c a b :
  (travel_to a (OVec c b) = Ok true <-> (vx a <> vx b \/ vy a <> vy b \/ vz a <> vz b)) /\
  (extruding_to a (OVec c b) true = Ok true <-> ve a < ve b) /\
  (extruding_to a (OVec c b) false = Ok true <-> ve a <> ve b) /\
  distance_to a (Some (OVec c b)) false = Ok (dist3 a b) /\ distance_to a (Some (OVec c b)) true = Ok (dist4 a b) /\
  distance_to a None false = Ok (dist3 a vzero) /\ distance_to a None true = Ok (dist4 a vzero).
Proof.
  assert (T : forall x : bool, Ok x = Ok true <-> x = true) by (intros x; split; [intros H; inversion H; reflexivity | intros ->; reflexivity]).
  unfold travel_to, extruding_to, is_travel, pos_is_extruding. rewrite !T. split; [|split; [|split; [|split; [|split; [|split]]]]].
  - match goal with |- Rltb 0 ?e = true <-> _ => destruct (Rltb_spec 0 e) as [H|H] end; (split; [intros G|intros G]); auto; try discriminate.
    + destruct (Req_dec (vx a) (vx b)) as [E1|]; [|left; assumption]. destruct (Req_dec (vy a) (vy b)) as [E2|]; [|right; left; assumption].
      destruct (Req_dec (vz a) (vz b)) as [E3|]; [|right; right; assumption]. exfalso. rewrite E1, E2, E3, !Rminus_diag_eq, !Rabs_R0 in H by reflexivity. lra.
    + exfalso. apply H. pose proof (Rabs_pos (vx b - vx a)). pose proof (Rabs_pos (vy b - vy a)). pose proof (Rabs_pos (vz b - vz a)).
      destruct G as [G|[G|G]]; [assert (0 < Rabs (vx b - vx a)) by (apply Rabs_pos_lt; lra) | assert (0 < Rabs (vy b - vy a)) by (apply Rabs_pos_lt; lra) | assert (0 < Rabs (vz b - vz a)) by (apply Rabs_pos_lt; lra)]; lra.
  - destruct (Rltb_spec 0 (ve b - ve a)) as [H|H]; split; intros G; try discriminate; try reflexivity; lra.
  - destruct (Rltb_spec 0 (Rabs (ve b - ve a))) as [H|H]; split; intros G; try discriminate; try reflexivity.
    + intros E. rewrite E, Rminus_diag_eq, Rabs_R0 in H by reflexivity. lra.
    + exfalso. apply H. apply Rabs_pos_lt. lra.
  - reflexivity.
  - reflexivity.
  - reflexivity.
  - reflexivity.
Qed.
(** C78 is false for the documented lists, tuples and arrays. *)
Theorem C78_sequences_refuted : exists a o b, vector_arg o b /\ travel_to a o = Err AttributeError /\
  extruding_to a o true = Err AttributeError /\ distance_to a (Some o) false = Err AttributeError.
Proof. exists vzero, (OSeq [1; 2; 3; 4]), (V4 1 2 3 4). split; [right; reflexivity|]. repeat split. Qed.

(** * C79: the constructor *)
Lemma number_value n x : number_is n x <-> value_of n = x.
Proof.
  split.
  - intros [->|[->|[->|(z & -> & ->)]]]; reflexivity.
  - intros <-. destruct n as [y|y|z|y]; cbn [value_of]; unfold number_is; [left | right; left | right; right; right; exists z; split | right; right; left]; reflexivity.
Qed.
Theorem C79_constructor args v : vec_init args = Ok v <->
  args = [OSeq [vx v; vy v; vz v; ve v]] \/
  exists x y z e, args = [ONum x; ONum y; ONum z; ONum e] /\ number_is x (vx v) /\ number_is y (vy v) /\ number_is z (vz v) /\ number_is e (ve v).
Proof.
  split.
  - unfold vec_init. intros H.
    repeat (match type of H with context [match ?x with _ => _ end] => is_var x; destruct x end; try discriminate);
      inversion H; subst; [left; reflexivity | right; do 4 eexists; split; [reflexivity|]]. rewrite !number_value. cbn. auto.
  - intros [->|(x & y & z & e & -> & H)]; [destruct v; reflexivity|]. rewrite !number_value in H. destruct v, H as (Hx & Hy & Hz & He).
    cbn in *. subst. reflexivity.
Qed.
(** A vector can be rebuilt from its coordinates. *)
Theorem C79_round_trip v : vec_init [OSeq (get_vec v true)] = Ok v /\ get_vec v true = get_vec v false ++ [ve v].
Proof. destruct v; split; reflexivity. Qed.
(** A wrong number of coordinates is an error. *)
Theorem C79_wrong_number ns l : (length ns <> 4)%nat -> (length ns <> 1)%nat -> (length l <> 4)%nat ->
  vec_init (map ONum ns) = Err ValueError /\ vec_init [OSeq l] = Err ValueError.
Proof.
  intros H H1 Hl. split.
  - destruct ns as [|a [|b [|c [|d [|e ns]]]]]; try reflexivity; exfalso; [apply H1 | apply H]; reflexivity.
  - destruct l as [|x [|y [|z [|e [|w l]]]]]; try reflexivity. exfalso. apply Hl. reflexivity.
Qed.

(** * C95: the methods of velocity *)
Lemma norm3_pos_iff a : 0 < norm3 a <-> (vx a <> 0 \/ vy a <> 0 \/ vz a <> 0).
Proof.
  unfold norm3. assert (Q : forall x, 0 <= x * x) by (intros x; apply Rle_0_sqr).
  split; intros H.
  - destruct (Req_dec (vx a) 0) as [E1|]; [|auto]. destruct (Req_dec (vy a) 0) as [E2|]; [|auto]. destruct (Req_dec (vz a) 0) as [E3|]; [|auto].
    exfalso. rewrite E1, E2, E3 in H. replace (0 * 0 + 0 * 0 + 0 * 0) with 0 in H by ring. rewrite sqrt_0 in H. lra.
  - apply sqrt_lt_R0. pose proof (Q (vx a)). pose proof (Q (vy a)). pose proof (Q (vz a)).
    destruct H as [H|[H|H]]; apply Rsqr_pos_lt in H; unfold Rsqr in H; lra.
Qed.
Lemma norm4_pos_iff a : 0 < norm4 a <-> a <> vzero.
Proof.
  unfold norm4. assert (Q : forall x, 0 <= x * x) by (intros x; apply Rle_0_sqr).
  split; intros H.
  - intros ->. unfold vzero in H. cbn in H. replace (0 * 0 + 0 * 0 + 0 * 0 + 0 * 0) with 0 in H by ring. rewrite sqrt_0 in H. lra.
  - apply sqrt_lt_R0. pose proof (Q (vx a)). pose proof (Q (vy a)). pose proof (Q (vz a)). pose proof (Q (ve a)).
    destruct (Req_dec (vx a) 0) as [E1|N]; [|apply Rsqr_pos_lt in N; unfold Rsqr in N; lra].
    destruct (Req_dec (vy a) 0) as [E2|N]; [|apply Rsqr_pos_lt in N; unfold Rsqr in N; lra].
    destruct (Req_dec (vz a) 0) as [E3|N]; [|apply Rsqr_pos_lt in N; unfold Rsqr in N; lra].
    destruct (Req_dec (ve a) 0) as [E4|N]; [|apply Rsqr_pos_lt in N; unfold Rsqr in N; lra].
    exfalso. apply H. destruct a; cbn in *. subst. reflexivity.
Qed.
(** The direction: the coordinates divided by the travel speed, or by the
    extruder speed if nothing else moves and the extruder is asked for. *)
Theorem C95_direction a w l :
  norm_dir a w = Some l <->
  exists k, l = map (fun x => x / k) (get_vec a w) /\
    ((0 < dist3 a vzero /\ k = dist3 a vzero) \/ (dist3 a vzero = 0 /\ w = true /\ ve a <> 0 /\ k = Rabs (ve a))).
Proof.
  assert (E3 : dist3 a vzero = norm3 a) by (unfold dist3, norm3, Rsqr; cbn; rewrite !Rminus_0_r; reflexivity). rewrite E3.
  unfold norm_dir, get_norm. destruct (Rltb_spec 0 (norm3 a)) as [H|H].
  - split.
    + intros E. inversion E; subst. exists (norm3 a). split; [reflexivity|]. left. auto.
    + intros (k & -> & [(_ & ->)|(E0 & _)]); [reflexivity | lra].
  - assert (N0 : norm3 a = 0) by (pose proof (sqrt_pos (vx a * vx a + vy a * vy a + vz a * vz a)); unfold norm3 in *; lra).
    assert (X : vx a = 0 /\ vy a = 0 /\ vz a = 0).
    { assert (K : ~ (vx a <> 0 \/ vy a <> 0 \/ vz a <> 0)) by (rewrite <- norm3_pos_iff; exact H).
      repeat split; match goal with |- ?x = 0 => destruct (Req_dec x 0); [assumption|exfalso; apply K; auto] end. }
    assert (N4 : norm4 a = Rabs (ve a)).
    { unfold norm4. destruct X as (-> & -> & ->). replace (0 * 0 + 0 * 0 + 0 * 0 + ve a * ve a) with (Rsqr (ve a)) by (unfold Rsqr; ring). apply sqrt_Rsqr_abs. }
    destruct w; cbn [andb].
    + rewrite N4. destruct (Rltb_spec 0 (Rabs (ve a))) as [G|G].
      * split.
        -- intros E. inversion E; subst. exists (Rabs (ve a)). split; [reflexivity|]. right. repeat split; auto. intros Z. rewrite Z, Rabs_R0 in G. lra.
        -- intros (k & -> & [(Z & _)|(_ & _ & _ & ->)]); [lra | reflexivity].
      * split; [discriminate|]. intros (k & _ & [(Z & _)|(_ & _ & Z & _)]); [lra|]. exfalso. apply G. apply Rabs_pos_lt. exact Z.
    + split; [discriminate|]. intros (k & _ & [(Z & _)|(_ & Z & _)]); [lra | discriminate].
Qed.
(** It has length 1 in space, or 1 along the extruder. *)
Theorem C95_unit a l : norm_dir a false = Some l -> exists x y z, l = [x; y; z] /\ x * x + y * y + z * z = 1.
Proof.
  intros H. apply C95_direction in H as (k & -> & [(Hk & ->)|(_ & D & _)]); [|discriminate]. cbn. do 3 eexists. split; [reflexivity|].
  set (k := dist3 a vzero) in *. assert (Ek : k * k = vx a * vx a + vy a * vy a + vz a * vz a).
  { unfold k, dist3. rewrite sqrt_sqrt.
    - unfold Rsqr. cbn. ring.
    - repeat apply Rplus_le_le_0_compat; apply Rle_0_sqr. }
  replace (vx a / k * (vx a / k) + vy a / k * (vy a / k) + vz a / k * (vz a / k)) with ((vx a * vx a + vy a * vy a + vz a * vz a) / (k * k)) by (field; lra).
  rewrite Ek. field. rewrite <- Ek. assert (0 < k * k) by (apply Rmult_lt_0_compat; lra). lra.
Qed.
(** Whether anything moves, whether material is fed, and the speeds. *)
Theorem C95_moving a : (not_zero a = true <-> a <> vzero) /\ (norm_dir a true = None <-> a = vzero) /\
  (vel_is_extruding a = true <-> 0 < ve a) /\ get_norm a false = dist3 a vzero /\ get_norm a true = dist4 a vzero.
Proof.
  assert (Z : not_zero a = true <-> a <> vzero).
  { unfold not_zero. rewrite <- norm4_pos_iff. destruct (Rltb_spec 0 (norm4 a)); split; intros; auto; try discriminate; contradiction. }
  split; [exact Z|]. split; [|split; [|split]].
  - unfold norm_dir, get_norm. split.
    + intros H. destruct (Rltb_spec 0 (norm3 a)) as [N3|N3]; [discriminate|]. cbn [andb] in H. destruct (Rltb_spec 0 (norm4 a)) as [N4|N4]; [discriminate|].
      destruct (vec4_eq_dec a vzero) as [|N]; [assumption|]. exfalso. apply N4. apply norm4_pos_iff. exact N.
    + intros ->. destruct (Rltb_spec 0 (norm3 vzero)) as [N3|_]; [apply norm3_pos_iff in N3; cbn in N3; lra|]. cbn [andb].
      destruct (Rltb_spec 0 (norm4 vzero)) as [N4|_]; [apply norm4_pos_iff in N4; contradiction|]. reflexivity.
  - unfold vel_is_extruding. destruct (Rltb_spec 0 (ve a)); split; intros; auto; try discriminate; contradiction.
  - unfold get_norm, norm3, dist3, Rsqr. cbn. rewrite !Rminus_0_r. reflexivity.
  - unfold get_norm, norm4, dist4, Rsqr. cbn. rewrite !Rminus_0_r. reflexivity.
Qed.
Example C95_case : norm_dir (V4 3 4 0 10) false = Some [3 / 5; 4 / 5; 0 / 5] /\ norm_dir (V4 3 4 0 10) true = Some [3 / 5; 4 / 5; 0 / 5; 10 / 5] /\
  norm_dir (V4 0 0 0 (-2)) true = Some [0 / 2; 0 / 2; 0 / 2; -2 / 2] /\ norm_dir (V4 0 0 0 (-2)) false = None.
Proof.
  assert (E5 : dist3 (V4 3 4 0 10) vzero = 5).
  { unfold dist3, Rsqr. cbn. replace ((3 - 0) * (3 - 0) + (4 - 0) * (4 - 0) + (0 - 0) * (0 - 0)) with (5 * 5) by ring. apply sqrt_square. lra. }
  assert (E0 : dist3 (V4 0 0 0 (-2)) vzero = 0).
  { unfold dist3, Rsqr. cbn. replace ((0 - 0) * (0 - 0) + (0 - 0) * (0 - 0) + (0 - 0) * (0 - 0)) with 0 by ring. apply sqrt_0. }
  split; [|split; [|split]].
  - apply C95_direction. exists 5. split; [reflexivity|]. left. rewrite E5. lra.
  - apply C95_direction. exists 5. split; [reflexivity|]. left. rewrite E5. lra.
  - apply C95_direction. exists 2. split; [reflexivity|]. right. rewrite E0. repeat split; cbn; try lra. rewrite Rabs_left; lra.
  - destruct (norm_dir (V4 0 0 0 (-2)) false) as [l|] eqn:E; [|reflexivity]. apply C95_direction in E as (k & _ & [(H & _)|(_ & D & _)]); [lra | discriminate].
Qed.

Print Assumptions C69_add_sub_partial.
Print Assumptions C69_mul.
Print Assumptions C69_div_partial.
Print Assumptions C69_others_rejected.
Print Assumptions C69_undo.
Print Assumptions C69_int_division_refuted.
Print Assumptions C69_mixed_classes_refuted.
Print Assumptions C74_truth_partial.
Print Assumptions C74_ne_is_negation.
Print Assumptions C74_never_false_refuted.
Print Assumptions C74_classes_refuted.
Print Assumptions C75_refuted.
Print Assumptions C76_refuted.
Print Assumptions C76_with_attribute_partial.
Print Assumptions C77_with_position_partial.
Print Assumptions C77_refuted.
Print Assumptions C78_vectors_partial.
Print Assumptions C78_sequences_refuted.
Print Assumptions C79_constructor.
Print Assumptions C79_round_trip.
Print Assumptions C79_wrong_number.
Print Assumptions C95_direction.
Print Assumptions C95_unit.
Print Assumptions C95_moving.
