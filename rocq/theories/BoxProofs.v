(** Lemmas about the control volume. *)
From Coq Require Import Lra Psatz Permutation.
From Verif Require Import Py Vec Segment Junction Planner Query Tools RealFacts SpecKin SpecQuery SpecTools.
Open Scope R_scope.

Lemma vec3_ext a b : c0 a = c0 b -> c1 a = c1 b -> c2 a = c2 b -> a = b.
Proof. destruct a, b. simpl. congruence. Qed.
Lemma abs_le x y : Rabs x <= y <-> - y <= x /\ x <= y.
Proof. unfold Rabs. destruct (Rcase_abs x); split; intros; lra. Qed.
Lemma Rleb_dec a b : Rleb a b = true <-> a <= b.
Proof. destruct (Rleb_spec a b); split; intros; try discriminate; try lra; reflexivity. Qed.
Lemma inside_box c p : point_inside (point_eval p (get_plane_lim c)) = true <-> in_box c p.
Proof.
  unfold point_inside, point_eval, get_plane_lim, in_box. simpl. rewrite !Bool.andb_true_iff, !Rleb_dec, !abs_le. split; intros; repeat split; lra.
Qed.
Lemma isect_some a b o n p l g : isect_line_plane a b o n = Some (p, l, g) <->
  1 / 1000000 < Rabs (dot3 n (sub3 b a)) /\ exists r, 0 <= r <= 1 /\ p = on_way a b r /\ dot3 n (sub3 p o) = 0 /\ l = len3 (sub3 p a) /\
    g = Rltb (dot3 n (sub3 b a)) 0.
Proof.
  unfold isect_line_plane. set (dt := dot3 n (sub3 b a)).
  assert (Hdot : forall r, dot3 n (sub3 (on_way a b r) o) = dot3 n (sub3 a o) + r * dt) by (intros r; unfold dt, dot3, on_way; simpl; ring).
  assert (Hsub : forall r, sub3 (on_way a b r) a = scale3 r (sub3 b a)) by (intros r; apply vec3_ext; simpl; ring).
  destruct (Rltb_spec (1 / 1000000) (Rabs dt)) as [L|L].
  - assert (D0 : dt <> 0). { intros E. rewrite E, Rabs_R0 in L. lra. }
    set (r := - dot3 n (sub3 a o) / dt). change (add3 a (scale3 r (sub3 b a))) with (on_way a b r). destruct (Rleb 0 r && Rleb r 1) eqn:E.
    + apply Bool.andb_true_iff in E. rewrite !Rleb_dec in E. split.
      * intros H. injection H as <- <- <-. split; [exact L|]. exists r. split; [exact E|]. split; [reflexivity|].
        split; [rewrite Hdot; unfold r; field; exact D0|]. rewrite Hsub. auto.
      * intros (_ & r' & Hr & -> & Hp & -> & ->). assert (r' = r).
        { rewrite Hdot in Hp. unfold r. apply (Rmult_eq_reg_r dt); [|exact D0]. unfold Rdiv. rewrite Rmult_assoc, Rinv_l by exact D0. lra. }
        subst r'. rewrite Hsub. reflexivity.
    + split; [discriminate|]. intros (_ & r' & Hr & -> & Hp & _). exfalso. assert (r' = r).
      { rewrite Hdot in Hp. unfold r. apply (Rmult_eq_reg_r dt); [|exact D0]. unfold Rdiv. rewrite Rmult_assoc, Rinv_l by exact D0. lra. }
      subst r'. assert (Rleb 0 r && Rleb r 1 = true) by (apply Bool.andb_true_iff; rewrite !Rleb_dec; exact Hr). congruence.
  - split; [discriminate|]. intros (? & _). lra.
Qed.
(** The six planes of the program are the six faces. *)
Lemma faces_sound c o n : In (o, n) (combine (get_plane_orig c) get_plane_normals) ->
  exists plane, face c n plane /\ forall p, plane p <-> dot3 n (sub3 p o) = 0.
Proof.
  simpl. unfold dot3, sub3.
  intros [E|[E|[E|[E|[E|[E|[]]]]]]]; injection E as <- <-; simpl;
    [eexists; split; [apply f_x1|]|eexists; split; [apply f_x0|]|eexists; split; [apply f_y1|]|eexists; split; [apply f_y0|]
     |eexists; split; [apply f_z1|]|eexists; split; [apply f_z0|]]; intros p; simpl; split; intros; lra.
Qed.
Lemma faces_complete c n plane : face c n plane ->
  exists o, In (o, n) (combine (get_plane_orig c) get_plane_normals) /\ forall p, plane p <-> dot3 n (sub3 p o) = 0.
Proof.
  intros H. unfold dot3, sub3. destruct H; simpl;
    [eexists; split; [left; reflexivity|]|eexists; split; [right; left; reflexivity|]|eexists; split; [right; right; left; reflexivity|]
    |eexists; split; [right; right; right; left; reflexivity|]|eexists; split; [right; right; right; right; left; reflexivity|]
    |eexists; split; [right; right; right; right; right; left; reflexivity|]]; intros p; simpl; split; intros; lra.
Qed.
Lemma meets_isect c a b n p l g :
  (exists o, In (o, n) (combine (get_plane_orig c) get_plane_normals) /\ isect_line_plane a b o n = Some (p, l, g) /\ in_box c p) <->
  meets c a b n p /\ 1 / 1000000 < Rabs (dot3 n (sub3 b a)) /\ l = len3 (sub3 p a) /\ g = Rltb (dot3 n (sub3 b a)) 0.
Proof.
  split.
  - intros (o & Ho & Hi & Hb). apply isect_some in Hi as (L & r & Hr & Ep & Hp & El & Eg). destruct (faces_sound _ _ _ Ho) as (pl & Hf & Hpl).
    split; [|auto]. exists pl, r. repeat (split; [assumption|]). split; [apply Hpl, Hp|exact Hb].
  - intros ((pl & r & Hf & Hr & Ep & Hp & Hb) & L & El & Eg). destruct (faces_complete _ _ _ Hf) as (o & Ho & Hpl). exists o.
    split; [exact Ho|]. split; [|exact Hb]. apply isect_some. split; [exact L|]. exists r. repeat (split; [assumption|]). split; [apply Hpl, Hp|auto].
Qed.
Lemma face_loop_in b lim : forall os ns table, face_loop b lim os ns = Ok table ->
  forall t g, In (t, g) table <-> exists o n p l, In (o, n) (combine os ns) /\ isect_line_plane (from_of b) (to_of b) o n = Some (p, l, g) /\
    point_inside (point_eval p lim) = true /\ inverse_time_at_pos b l = Ok t.
Proof.
  induction os as [|o os IH]; intros [|n ns] table H t g; cbn [face_loop] in H; try (injection H as <-; simpl; split; [intros []|intros (? & ? & ? & ? & [] & _)]).
  fold (from_of b) (to_of b) in H. destruct (isect_line_plane (from_of b) (to_of b) o n) as [[[p l] g']|] eqn:Ei.
  - destruct (point_inside (point_eval p lim)) eqn:Ep.
    + destruct (inverse_time_at_pos b l) as [u|] eqn:Eu; [|discriminate]. cbn [bind] in H.
      destruct (face_loop b lim os ns) as [rest|] eqn:Er; [|discriminate]. injection H as <-. simpl. rewrite (IH _ _ Er). split.
      * intros [E|(o' & n' & p' & l' & Hin & H')].
        -- injection E as <- <-. exists o, n, p, l. auto.
        -- exists o', n', p', l'. auto.
      * intros (o' & n' & p' & l' & [E|Hin] & H').
        -- injection E as <- <-. destruct H' as (H1 & H2 & H3). rewrite Ei in H1. injection H1 as <- <- <-. left. congruence.
        -- right. eauto 7.
    + rewrite (IH _ _ H). simpl. split.
      * intros (o' & n' & p' & l' & Hin & H'). exists o', n', p', l'. auto.
      * intros (o' & n' & p' & l' & [E|Hin] & H'); [|eauto 7]. injection E as <- <-. destruct H' as (H1 & H2 & H3). rewrite Ei in H1. injection H1 as <- <- <-. congruence.
  - rewrite (IH _ _ H). simpl. split.
    + intros (o' & n' & p' & l' & Hin & H'). exists o', n', p', l'. auto.
    + intros (o' & n' & p' & l' & [E|Hin] & H'); [|eauto 7]. injection E as <- <-. destruct H' as (H1 & _). congruence.
Qed.
(** A move that meets a face in the volume and does not stay inside is looked at. *)
Definition both (x y o h : R) : bool := Rleb x (o + h) && Rleb (o - h) x && Rleb y (o + h) && Rleb (o - h) y.
Lemma both_iff x y o h : both x y o h = true <-> Rabs (x - o) <= h /\ Rabs (y - o) <= h.
Proof. unfold both. rewrite !Bool.andb_true_iff, !Rleb_dec, !abs_le. split; intros; repeat split; lra. Qed.
Lemma intersect_step x y o h r e0 e1 q : 0 <= r <= 1 -> Rabs (x + (y - x) * r - o) <= h ->
  intersect_loop ((Rleb x (o + h), Rleb (o - h) x) :: e0) ((Rleb y (o + h), Rleb (o - h) y) :: e1) q = intersect_loop e0 e1 (q || negb (both x y o h)).
Proof.
  intros Hr H. apply abs_le in H. cbn [intersect_loop fst snd]. unfold both.
  assert (K1 : o + h < x -> o + h < y -> False).
  { intros P Q. assert (0 <= (1 - r) * (x - (o + h))) by (apply Rmult_le_pos; lra). assert (0 <= r * (y - (o + h))) by (apply Rmult_le_pos; lra).
    destruct (Req_dec r 0) as [->|]; [lra|]. assert (0 < r * (y - (o + h))) by (apply Rmult_lt_0_compat; lra). lra. }
  assert (K2 : x < o - h -> y < o - h -> False).
  { intros P Q. assert (0 <= (1 - r) * (o - h - x)) by (apply Rmult_le_pos; lra). assert (0 <= r * (o - h - y)) by (apply Rmult_le_pos; lra).
    destruct (Req_dec r 0) as [->|]; [lra|]. assert (0 < r * (o - h - y)) by (apply Rmult_lt_0_compat; lra). lra. }
  destruct (Rleb_spec x (o + h)), (Rleb_spec y (o + h)), (Rleb_spec (o - h) x), (Rleb_spec (o - h) y); simpl;
    rewrite ?Bool.orb_true_r, ?Bool.orb_false_r; try reflexivity; exfalso; first [lra | apply K1; lra | apply K2; lra].
Qed.
Lemma possible c a b p r : 0 <= r <= 1 -> p = on_way a b r -> in_box c p -> ~ (in_box c a /\ in_box c b) ->
  intersect_possible (point_eval a (get_plane_lim c)) (point_eval b (get_plane_lim c)) = true.
Proof.
  intros Hr -> (H0 & H1 & H2) Hn. simpl in H0, H1, H2. unfold intersect_possible, point_eval, get_plane_lim. cbn [zip_eval fst snd].
  rewrite (intersect_step (c0 a) (c0 b) _ _ r _ _ _ Hr H0), (intersect_step (c1 a) (c1 b) _ _ r _ _ _ Hr H1), (intersect_step (c2 a) (c2 b) _ _ r _ _ _ Hr H2).
  cbn [intersect_loop]. destruct (both (c0 a) (c0 b) _ _) eqn:E0; [|reflexivity]. destruct (both (c1 a) (c1 b) _ _) eqn:E1; [|reflexivity].
  destruct (both (c2 a) (c2 b) _ _) eqn:E2; [|reflexivity]. exfalso. apply Hn. apply both_iff in E0, E1, E2. unfold in_box. tauto.
Qed.
(** A move that stays inside is not. *)
Lemma impossible c a b : in_box c a -> in_box c b ->
  intersect_possible (point_eval a (get_plane_lim c)) (point_eval b (get_plane_lim c)) = false.
Proof.
  intros (A0 & A1 & A2) (B0 & B1 & B2). unfold intersect_possible, point_eval, get_plane_lim. cbn [zip_eval fst snd].
  rewrite (intersect_step (c0 a) (c0 b) _ _ 0), (intersect_step (c1 a) (c1 b) _ _ 0), (intersect_step (c2 a) (c2 b) _ _ 0);
    try lra; try (match goal with |- Rabs (?x + _ * 0 - ?o) <= _ => replace (x + _ * 0 - o) with (x - o) by ring; assumption end).
  cbn [intersect_loop]. rewrite (proj2 (both_iff (c0 a) (c0 b) _ _)), (proj2 (both_iff (c1 a) (c1 b) _ _)), (proj2 (both_iff (c2 a) (c2 b) _ _)) by auto. reflexivity.
Qed.
(** What the table holds. *)
Lemma table_in c : forall bl table, timetable_loop c bl = Ok table -> forall t g,
  In (t, g) table <-> exists b n p, In b bl /\ ~ (in_box c (from_of b) /\ in_box c (to_of b)) /\ meets c (from_of b) (to_of b) n p /\
    1 / 1000000 < Rabs (dot3 n (sub3 (to_of b) (from_of b))) /\ inverse_time_at_pos b (len3 (sub3 p (from_of b))) = Ok t /\
    g = Rltb (dot3 n (sub3 (to_of b) (from_of b))) 0.
Proof.
  induction bl as [|b bl IH]; intros table H t g; cbn [timetable_loop] in H.
  - injection H as <-. split; [intros []|intros (? & ? & ? & [] & _)].
  - fold (from_of b) (to_of b) in H. set (ip := intersect_possible _ _) in H.
    destruct (if ip then _ else _) as [now|] eqn:En in H; [|discriminate]. cbn [bind] in H.
    destruct (timetable_loop c bl) as [rest|] eqn:Er; [|discriminate]. injection H as <-. rewrite in_app_iff, (IH _ eq_refl). clear IH Er.
    assert (Hnow : In (t, g) now <-> exists n p, ~ (in_box c (from_of b) /\ in_box c (to_of b)) /\ meets c (from_of b) (to_of b) n p /\
      1 / 1000000 < Rabs (dot3 n (sub3 (to_of b) (from_of b))) /\ inverse_time_at_pos b (len3 (sub3 p (from_of b))) = Ok t /\
      g = Rltb (dot3 n (sub3 (to_of b) (from_of b))) 0).
    { destruct ip eqn:Eip.
      - rewrite (face_loop_in _ _ _ _ _ En). split.
        + intros (o & n & p & l & Ho & Hi & Hp & Ht). apply inside_box in Hp.
          destruct (proj1 (meets_isect c _ _ n p l g) (ex_intro _ o (conj Ho (conj Hi Hp)))) as (Hm & L & -> & Eg).
          exists n, p. split; [|auto]. intros [Ha Hb]. unfold ip in Eip. rewrite (impossible c _ _ Ha Hb) in Eip. discriminate.
        + intros (n & p & Hn & Hm & L & Ht & Eg).
          destruct (proj2 (meets_isect c _ _ n p (len3 (sub3 p (from_of b))) g) (conj Hm (conj L (conj eq_refl Eg)))) as (o & Ho & Hi & Hb).
          exists o, n, p, (len3 (sub3 p (from_of b))). repeat (split; [assumption|]). split; [apply inside_box, Hb|exact Ht].
      - injection En as <-. split; [intros []|]. intros (n & p & Hn & (pl & r & _ & Hr & Ep & _ & Hb) & _).
        unfold ip in Eip. rewrite (possible c _ _ p r Hr Ep Hb Hn) in Eip. discriminate. }
    rewrite Hnow. split.
    + intros [(n & p & H)|(b' & n & p & Hb & H)]; [exists b, n, p; split; [left; reflexivity|exact H]|exists b', n, p; split; [right; exact Hb|exact H]].
    + intros (b' & n & p & [<-|Hb] & H); [left; eauto|right; eauto 6].
Qed.

(** Sorting. *)
Lemma insert_perm x l : Permutation (x :: l) (insert_time x l).
Proof.
  induction l as [|y l IH]; [apply Permutation_refl|]. simpl. destruct (Rleb (fst x) (fst y)); [apply Permutation_refl|].
  eapply perm_trans; [apply perm_swap|]. apply perm_skip, IH.
Qed.
Lemma sort_perm l : Permutation l (sort_times l).
Proof. induction l as [|x l IH]; [constructor|]. simpl. eapply perm_trans; [apply perm_skip, IH|apply insert_perm]. Qed.
Lemma insert_sorted x l : ascending (map fst l) -> ascending (map fst (insert_time x l)).
Proof.
  unfold ascending. induction l as [|y l IH]; intros H; [simpl; auto|]. simpl. destruct (Rleb_spec (fst x) (fst y)) as [L|L].
  - simpl. simpl in H. tauto.
  - cbn [map joined] in H. destruct H as [H1 H2]. specialize (IH H2). cbn [map joined]. split; [|exact IH].
    destruct l as [|z l]; simpl; [lra|]. simpl in H1. destruct (Rleb (fst x) (fst z)); simpl; lra.
Qed.
Lemma sort_sorted l : ascending (map fst (sort_times l)).
Proof. induction l as [|x l IH]; [exact I|]. simpl. apply insert_sorted, IH. Qed.
Lemma joined_lower x l : joined Rle (x :: l) -> Forall (Rle x) l.
Proof.
  revert x. induction l as [|y l IH]; intros x H; constructor; simpl in H; [tauto|].
  assert (Hy : Forall (Rle y) l) by (apply IH; simpl; tauto). eapply Forall_impl; [|exact Hy]. intros z Hz. lra.
Qed.
Lemma sorted_filter (f : R * bool -> bool) l : ascending (map fst l) -> ascending (map fst (filter f l)).
Proof.
  unfold ascending. induction l as [|x l IH]; intros H; [exact I|]. simpl in H. assert (H' := H). destruct H as [_ H2]. specialize (IH H2). simpl.
  destruct (f x); [|exact IH]. simpl. split; [|exact IH]. destruct (filter f l) as [|y m] eqn:E; [exact I|]. simpl.
  assert (Hy : In y l) by (apply (proj1 (filter_In f y l)); rewrite E; left; reflexivity).
  pose proof (joined_lower (fst x) (map fst l) H') as HF. rewrite Forall_forall in HF. apply HF. apply in_map, Hy.
Qed.
