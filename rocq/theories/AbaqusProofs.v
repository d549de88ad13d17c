(** Lemmas about the Abaqus event series. *)
From Coq Require Import Lra Psatz.
From Verif Require Import Py Vec Segment Junction Planner Query Abaqus RealFacts SpecKin SpecQuery SpecTools QueryProofs.
Open Scope R_scope.

Lemma flags_length tol : forall es, length (extrusion_flags tol es) = length es.
Proof. induction es as [|e es IH]; [reflexivity|]. destruct es as [|e' es]; [reflexivity|]. cbn [extrusion_flags length] in *. lia. Qed.
Lemma make_events_nth k : forall ts ps i t p, nth_error ts i = Some t -> nth_error ps i = Some p ->
  nth_error (make_events k ts ps) i = Some (make_event k t p).
Proof.
  induction ts as [|t0 ts IH]; intros [|p0 ps] [|i] t p Ht Hp; simpl in *; try discriminate; [congruence|]. exact (IH _ _ _ _ Ht Hp).
Qed.
Lemma make_events_length k : forall ts ps, length ts = length ps -> length (make_events k ts ps) = length ts.
Proof. induction ts as [|t ts IH]; intros [|p ps] H; simpl in *; try lia. rewrite IH; lia. Qed.
Lemma nth_combine {A B} : forall (l : list A) (m : list B) i a b, nth_error l i = Some a -> nth_error m i = Some b ->
  nth_error (combine l m) i = Some (a, b).
Proof. induction l as [|x l IH]; intros [|y m] [|i] a b Ha Hb; simpl in *; try discriminate; [congruence|]. exact (IH _ _ _ _ Ha Hb). Qed.
Lemma flags_next tol : forall es i e e', nth_error es i = Some e -> nth_error es (S i) = Some e' ->
  nth_error (extrusion_flags tol es) i = Some (if Rltb tol (e' - e) then 1%nat else 0%nat).
Proof.
  induction es as [|x es IH]; intros [|i] e e' H H'; try discriminate; destruct es as [|y es]; try discriminate.
  - cbn [nth_error] in H, H'. injection H as ->. injection H' as ->. reflexivity.
  - change (nth_error (extrusion_flags tol (x :: y :: es)) (S i)) with (nth_error (extrusion_flags tol (y :: es)) i).
    apply IH; [exact H|exact H'].
Qed.
Lemma flags_last tol : forall es i e, nth_error es i = Some e -> nth_error es (S i) = None -> nth_error (extrusion_flags tol es) i = Some 0%nat.
Proof.
  induction es as [|x es IH]; intros [|i] e H H'; try discriminate; destruct es as [|y es]; try discriminate; try reflexivity.
  - destruct i; discriminate.
  - change (nth_error (extrusion_flags tol (x :: y :: es)) (S i)) with (nth_error (extrusion_flags tol (y :: es)) i).
    eapply IH; [exact H|exact H'].
Qed.

Lemma ok_inj {A} (x y : A) : Ok x = Ok y -> y = x.
Proof. congruence. Qed.

Section Series.
Variables (s : sim) (tol : R) (unit : option str) (u : str) (k : R) (f : segment) (path : list segment).
Hypothesis Hu : u = match unit with Some v => v | None => output_unit_system s end.
Hypothesis Hk : unit_length u k.
Hypothesis Hpath : unpack_blocklist (blocklist s) = f :: path.

Let pos := pos_begin f :: map pos_end (f :: path).
Let time := 0 :: map t_end (f :: path).

Lemma series_ok : generate_abaqus_event_series s tol unit = Ok (make_events (/ k) time (combine pos (extrusion_flags tol (map ve pos)))).
Proof.
  unfold generate_abaqus_event_series. rewrite Hpath. cbn [first_seg bind]. destruct (unit_scale_own s unit u k Hu Hk) as [-> _]. reflexivity.
Qed.
Lemma series_length evs : generate_abaqus_event_series s tol unit = Ok evs -> length evs = S (length (f :: path)).
Proof.
  rewrite series_ok. intros E. apply ok_inj in E. subst evs. rewrite make_events_length; unfold time, pos.
  - simpl. rewrite map_length. reflexivity.
  - rewrite combine_length, flags_length, map_length. simpl. rewrite !map_length. lia.
Qed.
Lemma series_nth evs i t p : generate_abaqus_event_series s tol unit = Ok evs -> nth_error time i = Some t -> nth_error pos i = Some p ->
  exists e, nth_error evs i = Some e /\ ev_t e = t /\ event_at u e p /\
    ev_flag e = match nth_error pos (S i) with Some p' => if Rltb tol (ve p' - ve p) then 1%nat else 0%nat | None => 0%nat end.
Proof.
  rewrite series_ok. intros E Ht Hp. apply ok_inj in E. subst evs.
  set (fl := match nth_error pos (S i) with Some p' => if Rltb tol (ve p' - ve p) then 1%nat else 0%nat | None => 0%nat end).
  assert (Hf : nth_error (extrusion_flags tol (map ve pos)) i = Some fl).
  { unfold fl. destruct (nth_error pos (S i)) as [p'|] eqn:E.
    - apply flags_next; [apply map_nth_error, Hp|apply map_nth_error, E].
    - eapply flags_last; [apply map_nth_error, Hp|]. apply nth_error_None. rewrite map_length. apply nth_error_None, E. }
  eexists. split; [exact (make_events_nth _ _ _ _ _ _ Ht (nth_combine _ _ _ _ _ Hp Hf))|]. split; [reflexivity|]. split; [|reflexivity].
  pose proof (proj2 (unit_scale_own s unit u k Hu Hk)) as Hk0.
  exists k. simpl. split; [exact Hk|]. repeat split; field; lra.
Qed.
Lemma joined_nth {X} (P : X -> X -> Prop) : forall l i a b, joined P l -> nth_error l i = Some a -> nth_error l (S i) = Some b -> P a b.
Proof.
  induction l as [|x l IH]; intros [|i] a b HJ Ha Hb; simpl in *; try discriminate; destruct HJ as [J1 J2].
  - destruct l as [|y l]; simpl in *; [discriminate|]. congruence.
  - exact (IH _ _ _ J2 Ha Hb).
Qed.
Lemma series_segment evs i g : contiguous_path (f :: path) -> generate_abaqus_event_series s tol unit = Ok evs ->
  t_begin f = 0 -> nth_error (f :: path) i = Some g ->
  exists a b, nth_error evs i = Some a /\ nth_error evs (S i) = Some b /\ ev_t a = t_begin g /\ ev_t b = t_end g /\
    event_at u a (pos_begin g) /\ event_at u b (pos_end g) /\ (ev_flag a = 1%nat <-> feeds_more tol g) /\ (ev_flag a = 0%nat <-> ~ feeds_more tol g).
Proof.
  intros [Hj _] Hg H0 Hi.
  assert (Hb : nth_error time i = Some (t_begin g) /\ nth_error pos i = Some (pos_begin g)).
  { destruct i as [|i]; [injection Hi as <-; unfold time, pos; simpl; rewrite H0; auto|].
    assert (exists h, nth_error (f :: path) i = Some h) as (h & Hh).
    { destruct (nth_error (f :: path) i) eqn:E; [eauto|]. apply nth_error_None in E.
      assert (length (f :: path) <= S i)%nat by lia. apply nth_error_None in H. congruence. }
    destruct (joined_nth _ _ _ _ _ Hj Hh Hi) as [E1 E2]. unfold time, pos. cbn [nth_error].
    rewrite <- E1, <- E2. split; apply map_nth_error, Hh. }
  assert (He : nth_error time (S i) = Some (t_end g) /\ nth_error pos (S i) = Some (pos_end g))
    by (unfold time, pos; cbn [nth_error]; split; apply map_nth_error, Hi).
  destruct Hb as [B1 B2], He as [E1 E2].
  destruct (series_nth _ _ _ _ Hg B1 B2) as (a & Ha & Ta & Pa & Fa). destruct (series_nth _ _ _ _ Hg E1 E2) as (b & Hb & Tb & Pb & _).
  exists a, b. repeat (split; [assumption|]). rewrite E2 in Fa. unfold feeds_more. rewrite Fa.
  destruct (Rltb_spec tol (ve (pos_end g) - ve (pos_begin g))); split; split; intros; try discriminate; try lra; reflexivity.
Qed.
Lemma series_last evs : generate_abaqus_event_series s tol unit = Ok evs -> exists e, nth_error evs (length (f :: path)) = Some e /\ ev_flag e = 0%nat.
Proof.
  intros H. destruct (nth_error time (length (f :: path))) as [t|] eqn:Et.
  2: { apply nth_error_None in Et. unfold time in Et. simpl in Et. rewrite map_length in Et. lia. }
  destruct (nth_error pos (length (f :: path))) as [p|] eqn:Ep.
  2: { apply nth_error_None in Ep. unfold pos in Ep. simpl in Ep. rewrite map_length in Ep. lia. }
  destruct (series_nth _ _ _ _ H Et Ep) as (e & He & _ & _ & Fe). exists e. split; [exact He|]. rewrite Fe.
  rewrite (proj2 (nth_error_None pos (S (length (f :: path))))); [reflexivity|]. unfold pos. simpl. rewrite map_length. lia.
Qed.
Lemma series_ascending evs : contiguous_path (f :: path) -> t_begin f = 0 -> generate_abaqus_event_series s tol unit = Ok evs -> ascending (map ev_t evs).
Proof.
  intros Hc H0. rewrite series_ok. intros E. apply ok_inj in E. subst evs.
  assert (Em : forall ts ps, length ts = length ps -> map ev_t (make_events (/ k) ts ps) = ts).
  { induction ts as [|t ts IH]; intros [|p ps] HL; simpl in *; try lia; [reflexivity|]. rewrite IH by lia. reflexivity. }
  rewrite Em. 2:{ unfold time, pos. rewrite combine_length, flags_length, map_length. simpl. rewrite !map_length. lia. }
  unfold time, ascending. rewrite <- H0. cut (forall l g, contiguous_path (g :: l) -> joined Rle (t_begin g :: map t_end (g :: l))); [intros K; apply K, Hc|].
  induction l as [|h l IH]; intros g [Hj Hf]; inversion Hf as [|? ? [T _] Hf']; subst.
  - simpl. repeat split; trivial.
  - destruct Hj as [[J1 _] J2]. pose proof (IH h (conj J2 Hf')) as IHh. simpl in IHh |- *. rewrite <- J1 in IHh. tauto.
Qed.
End Series.

(** The chord of a uniformly accelerated coordinate. *)
Lemma chord t0 t1 x0 v0 v1 t : t0 < t1 -> t0 <= t <= t1 ->
  let dt := t1 - t0 in let r := (t - t0) / dt in
  let x := fun r => x0 + r * dt * (v0 + r / 2 * (v1 - v0)) in
  between (x 0) (x 1) r - x r = r * (1 - r) * dt * (v1 - v0) / 2 /\ Rabs (between (x 0) (x 1) r - x r) <= dt * Rabs (v1 - v0) / 8.
Proof.
  intros H Ht dt r x. assert (E : between (x 0) (x 1) r - x r = r * (1 - r) * dt * (v1 - v0) / 2) by (unfold between, x; field).
  split; [exact E|]. rewrite E. assert (0 < dt) by (unfold dt; lra).
  replace (r * (1 - r) * dt * (v1 - v0) / 2) with (r * (1 - r) / 2 * dt * (v1 - v0)) by field. rewrite !Rabs_mult, (Rabs_right dt) by lra.
  assert (Rabs (r * (1 - r) / 2) <= 1 / 8).
  { assert (0 <= r) by (unfold r; apply Rmult_le_pos; [lra|apply Rlt_le, Rinv_0_lt_compat; assumption]).
    assert (r <= 1) by (unfold r; apply (Rmult_le_reg_r dt); [assumption|]; unfold Rdiv; rewrite Rmult_assoc, Rinv_l by lra; unfold dt; lra).
    assert (0 <= r * (1 - r)) by (apply Rmult_le_pos; lra). rewrite Rabs_right by lra.
    pose proof (Rle_0_sqr (r - 1 / 2)) as Q. unfold Rsqr in Q. lra. }
  replace (dt * Rabs (v1 - v0) / 8) with (1 / 8 * dt * Rabs (v1 - v0)) by field.
  apply Rmult_le_compat_r; [apply Rabs_pos|]. apply Rmult_le_compat_r; lra.
Qed.
