(** Lemmas for the properties of written texts. *)
From Coq Require Import Lra Lia DecimalString DecimalFacts DecimalNat.
From Verif Require Import Py Vec Segment Junction Planner Query Abaqus Tools StateGen Texts RealFacts StrFacts SpecKin SpecTexts
  MoveProofs CorrectProofs PlannerProofs TrajProofs.
Open Scope R_scope.

(** * Cutting texts *)
Lemma split_plain c s : ~ In c s -> split c s = [s].
Proof.
  induction s as [|x s IH]; intros H; [reflexivity|]. simpl. destruct (aeqb_spec x c) as [E|E]; [destruct H; left; exact E|].
  rewrite IH; [reflexivity|]. intros Hi. apply H. right. exact Hi.
Qed.
Lemma split_at c a b : ~ In c a -> split c (a ++ c :: b) = a :: split c b.
Proof.
  induction a as [|x a IH]; intros H.
  - simpl. rewrite aeqb_refl. reflexivity.
  - simpl. destruct (aeqb_spec x c) as [E|E]; [destruct H; left; exact E|].
    rewrite IH; [reflexivity|]. intros Hi. apply H. right. exact Hi.
Qed.
Lemma split_join c pad : ~ In c pad -> forall l x, Forall (fun t => ~ In c t) (x :: l) ->
  split c (join (c :: pad) (x :: l)) = x :: map (app pad) l.
Proof.
  intros Hp l. induction l as [|y l IH]; intros x H; inversion H as [|? ? Hx Hl]; subst.
  - simpl. apply split_plain. exact Hx.
  - change (join (c :: pad) (x :: y :: l)) with (x ++ (c :: pad) ++ join (c :: pad) (y :: l)).
    cbn [app]. rewrite split_at by exact Hx. simpl map. f_equal.
    specialize (IH y Hl). assert (E : forall s h t, split c s = h :: t -> split c (pad ++ s) = (pad ++ h) :: t).
    { clear -Hp. induction pad as [|p pad IHp]; intros s h t Es; [exact Es|]. simpl. destruct (aeqb_spec p c) as [->|E]; [destruct Hp; left; reflexivity|].
      rewrite (IHp (fun Hi => Hp (or_intror Hi)) s h t Es). reflexivity. }
    exact (E _ _ _ IH).
Qed.
(** Lines one after the other. *)
Lemma lines_concat ls : Forall (fun t => ~ In "010"%char t) ls -> lines (concat (map (fun l => l ++ newline) ls)) = Some ls.
Proof.
  intros H. unfold lines. replace (split "010"%char (concat (map (fun l => l ++ newline) ls))) with (ls ++ [[]]).
  { rewrite rev_app_distr. simpl. rewrite rev_involutive. reflexivity. }
  induction ls as [|l ls IH]; [reflexivity|]. inversion H; subst. simpl. rewrite <- app_assoc. cbn [newline app].
  rewrite split_at by assumption. rewrite <- IH by assumption. reflexivity.
Qed.
Lemma join_not_in c sep l : ~ In c sep -> Forall (fun t => ~ In c t) l -> ~ In c (join sep l).
Proof.
  intros Hs H. induction l as [|x l IH]; [intros []|]. inversion H as [|? ? Hx Hl]; subst. destruct l as [|y l]; [exact Hx|].
  change (join sep (x :: y :: l)) with (x ++ sep ++ join sep (y :: l)). rewrite !in_app_iff. intros [Hi|[Hi|Hi]]; [exact (Hx Hi)|exact (Hs Hi)|exact (IH Hl Hi)].
Qed.

(** * Decimal digits *)
Definition digits : str := S_ "0123456789".
Lemma uint_digits d c : In c (S_ (NilEmpty.string_of_uint d)) -> In c digits.
Proof.
  unfold S_. induction d; simpl; intros H; try contradiction;
    (destruct H as [<-|H]; [simpl; tauto | exact (IHd H)]).
Qed.
Lemma int_text_digits n c : In c (int_text n) -> In c digits.
Proof. apply uint_digits. Qed.
Lemma S_inj a b : S_ a = S_ b -> a = b.
Proof.
  intros H. apply (f_equal string_of_list_ascii) in H. unfold S_ in H. rewrite !string_of_list_ascii_of_string in H. exact H.
Qed.
Lemma int_text_inj m n : int_text m = int_text n -> m = n.
Proof.
  intros H. apply S_inj in H.
  assert (E : Some (Nat.to_uint m) = Some (Nat.to_uint n)) by (rewrite <- !NilEmpty.usu; rewrite H; reflexivity).
  injection E as E. apply Unsigned.to_uint_inj. exact E.
Qed.

(** * Rounding *)
Lemma round_half_even_spec x : Rabs (x - IZR (round_half_even x)) <= 1 / 2 /\
  (Rabs (x - IZR (round_half_even x)) = 1 / 2 -> Z.even (round_half_even x) = true).
Proof.
  unfold round_half_even. destruct (base_Int_part x) as [H1 H2]. set (n := Int_part x) in *.
  destruct (Rltb_spec (x - IZR n) (1 / 2)) as [H|H].
  - rewrite Rabs_right by lra. split; lra.
  - destruct (Rltb_spec (1 / 2) (x - IZR n)) as [H'|H'].
    + rewrite plus_IZR. rewrite Rabs_left1 by lra. split; lra.
    + assert (E : x - IZR n = 1 / 2) by lra. destruct (Z.even n) eqn:Ev.
      * rewrite Rabs_right by lra. split; [lra|]. intros _. exact Ev.
      * rewrite plus_IZR. rewrite Rabs_left1 by lra. split; [lra|]. intros _. rewrite Z.even_add, Ev. reflexivity.
Qed.
Lemma round8_spec x : rounded8 x (round8 x).
Proof.
  unfold rounded8, round8. exists (round_half_even (100000000 * x)). split; [reflexivity|].
  destruct (round_half_even_spec (100000000 * x)) as [H1 H2]. set (z := round_half_even (100000000 * x)) in *.
  assert (E : Rabs (x - IZR z / 100000000) = Rabs (100000000 * x - IZR z) / 100000000).
  { replace (x - IZR z / 100000000) with ((100000000 * x - IZR z) * / 100000000) by field.
    rewrite Rabs_mult, (Rabs_right (/ 100000000)) by lra. reflexivity. }
  rewrite E. split; [lra|]. intros H. apply H2. lra.
Qed.

(** * Blocks of a print: what the planner made *)
Definition ramp_list (f : R -> R -> R) (d : vec4) (l : list segment) : Prop :=
  (length l <= 1)%nat /\ Forall (fun s => exists x y, vel_begin s = vscale x d /\ vel_end s = vscale y d /\ t_end s - t_begin s = f x y) l.
Definition made (a : R) (d : vec4) (segs : list segment) : Prop :=
  exists la lb lc, segs = la ++ lb ++ lc /\ ramp_list (fun x y => (y - x) / a) d la /\
    ((length lb <= 1)%nat /\ Forall (fun s => vel_begin s = vel_end s) lb) /\ ramp_list (fun x y => (x - y) / a) d lc.
Definition block_made (b : block) : Prop :=
  (exists s, b_segs b = [s] /\ k_pause (b_B b) <> None) \/ exists d, b_dir b = Some d /\ made (k_acc (b_B b)) d (b_segs b).

Lemma keep_seg_cases s : keep_seg s = [s] \/ keep_seg s = [].
Proof. unfold keep_seg. destruct (_ || _); auto. Qed.
Lemma keep_ramp f d s x y : vel_begin s = vscale x d -> vel_end s = vscale y d -> t_end s - t_begin s = f x y -> ramp_list f d (keep_seg s).
Proof.
  intros H1 H2 H3. destruct (keep_seg_cases s) as [-> | ->]; (split; [simpl; lia|]).
  - constructor; [exists x, y; auto | constructor].
  - constructor.
Qed.
Lemma nil_ramp f d : ramp_list f d [].
Proof. split; [simpl; lia|constructor]. Qed.
Lemma mk_segment_is t0 t1 p0 p1 v0 v1 s : mk_segment t0 t1 p0 p1 v0 v1 = Ok s -> s = Seg t0 t1 p0 p1 v0 v1.
Proof. unfold mk_segment. destruct (self_check _); simpl; [|discriminate]. intros [= <-]. reflexivity. Qed.
Lemma move_maker2_made A B d pv v segs ty : move_maker2 A B d pv v = Ok (segs, ty) -> made (k_acc B) d segs.
Proof.
  unfold move_maker2. destruct (move_distance A B) as [dist eo]. cbv zeta. set (vb := if Rltb _ _ then _ else _).
  destruct (Rleb (k_acc B) 0) eqn:Ea; [discriminate|]. destruct (Rleb_spec (k_acc B) 0) as [|Ha]; [discriminate|]. clear Ea. apply Rnot_le_lt in Ha.
  set (r1 := _ / (2 * k_acc B)). set (r2 := _ / (2 * - k_acc B)). set (vp := sqrt (_ + _ + _)). set (vs := if Rleb 0 _ then _ else _).
  set (vbs := sqrt (2 * _ * _ + _)). clearbody r1 r2 vp vs vbs vb.
  assert (T : forall (x : res (list segment * btype)) r, try_runtime x = Ok r -> x = Ok r).
  { intros x r. destruct x as [|[]]; simpl; congruence. }
  intros H. apply T in H. clear T.
  destruct (_ && _ && _) in H; [|destruct (_ && _ && _) in H; [|destruct (_ && _) in H; [|destruct (Rltb vs vb) in H; [|discriminate]]]].
  - unfold trapezoid in H.
    match type of H with bind ?e _ = _ => destruct e as [sA|] eqn:EA; [|discriminate] end. cbn [bind] in H. apply mk_segment_is in EA.
    match type of H with bind ?e _ = _ => destruct e as [sB|] eqn:EB; [|discriminate] end. cbn [bind] in H. apply mk_segment_is in EB.
    match type of H with bind ?e _ = _ => destruct e as [sC|] eqn:EC; [|discriminate] end. cbn [bind] in H. apply mk_segment_is in EC.
    injection H as <- _. exists (keep_seg sA), (keep_seg sB), (keep_seg sC). split; [reflexivity|]. split; [|split].
    + eapply keep_ramp; subst sA; cbn [vel_begin vel_end t_begin t_end]; try reflexivity. lra.
    + destruct (keep_seg_cases sB) as [-> | ->]; (split; [simpl; lia|]); [|constructor]. constructor; [|constructor]. subst sB. reflexivity.
    + eapply keep_ramp; subst sC; cbn [vel_begin vel_end t_begin t_end]; try reflexivity. lra.
  - unfold triang in H.
    match type of H with bind ?e _ = _ => destruct e as [sA|] eqn:EA; [|discriminate] end. cbn [bind] in H. apply mk_segment_is in EA.
    match type of H with bind ?e _ = _ => destruct e as [sC|] eqn:EC; [|discriminate] end. cbn [bind] in H. apply mk_segment_is in EC.
    injection H as <- _. exists (keep_seg sA), [], (keep_seg sC). split; [reflexivity|]. split; [|split].
    + eapply keep_ramp; subst sA; cbn [vel_begin vel_end t_begin t_end]; try reflexivity. lra.
    + split; [simpl; lia|constructor].
    + eapply keep_ramp; subst sC; cbn [vel_begin vel_end t_begin t_end]; try reflexivity. lra.
  - unfold singl_up in H.
    match type of H with bind ?e _ = _ => destruct e as [sA|] eqn:EA; [|discriminate] end. cbn [bind] in H. apply mk_segment_is in EA.
    injection H as <- _. exists (keep_seg sA), [], []. rewrite !app_nil_r. split; [reflexivity|]. split; [|split; [split; [simpl; lia|constructor]|apply nil_ramp]].
    eapply keep_ramp; subst sA; cbn [vel_begin vel_end t_begin t_end]; try reflexivity. lra.
  - unfold singl_dwn in H.
    match type of H with bind ?e _ = _ => destruct e as [sC|] eqn:EC; [|discriminate] end. cbn [bind] in H. apply mk_segment_is in EC.
    injection H as <- _. exists [], [], (keep_seg sC). split; [reflexivity|]. split; [apply nil_ramp|]. split; [split; [simpl; lia|constructor]|].
    eapply keep_ramp; subst sC; cbn [vel_begin vel_end t_begin t_end]; try reflexivity. lra.
Qed.
Lemma made_shift a d dt segs : made a d segs -> made a d (map (move_segment_time dt) segs).
Proof.
  intros (la & lb & lc & -> & [La Ra] & [Lb Rb] & [Lc Rc]).
  exists (map (move_segment_time dt) la), (map (move_segment_time dt) lb), (map (move_segment_time dt) lc). rewrite !map_app. split; [reflexivity|].
  unfold ramp_list. rewrite !map_length. repeat split; try assumption.
  - apply Forall_map. revert Ra. apply Forall_impl. intros s (x & y & H1 & H2 & H3). exists x, y. simpl. repeat split; try assumption. rewrite <- H3. lra.
  - apply Forall_map. revert Rb. apply Forall_impl. intros s H. exact H.
  - apply Forall_map. revert Rc. apply Forall_impl. intros s (x & y & H1 & H2 & H3). exists x, y. simpl. repeat split; try assumption. rewrite <- H3. lra.
Qed.
Lemma shift_made dt b : block_made b -> block_made (timeshift dt b).
Proof.
  intros [(s & E & Hp)|(d & Ed & Hm)].
  - left. exists (move_segment_time dt s). unfold timeshift, set_segs. cbn [b_segs b_B]. rewrite E. split; [reflexivity|exact Hp].
  - right. exists d. unfold timeshift, set_segs. cbn [b_dir b_segs b_B]. split; [exact Ed|]. apply made_shift. exact Hm.
Qed.
Lemma planner_block_made fw A B rest prev b : planner_block fw A B rest prev = Ok (Some b) -> block_made b.
Proof.
  unfold planner_block. destruct (Rleb (k_acc B) 0); [discriminate|].
  match goal with |- bind ?e _ = _ -> _ => destruct e as [ob|] eqn:E; [|discriminate] end. cbn [bind].
  assert (Hob : forall x, ob = Some x -> b_B x = B /\ block_made x).
  { intros x ->. destruct A as [a|]; [|discriminate E]. destruct (get_norm_dir _) as [d|] eqn:Ed; [|discriminate E].
    destruct (not_zero _); [|discriminate E]. destruct (previous_segment a prev) as [pv|]; [|discriminate E]. cbn [bind] in E.
    destruct (move_maker2 _ _ _ _ _) as [[segs ty]|] eqn:Em; [|discriminate E]. cbn [bind] in E. injection E as <-.
    split; [reflexivity|]. right. exists d. split; [reflexivity|]. exact (move_maker2_made _ _ _ _ _ _ _ Em). }
  destruct (k_pause B) as [p|] eqn:Ep.
  - destruct prev as [pb|]; [|discriminate]. destruct (last_seg (b_segs pb)) as [pv|]; [|discriminate]. cbn [bind].
    destruct (mk_segment _ _ _ _ _ _) as [s|]; [|discriminate]. cbn [bind]. destruct ob as [x|].
    + intros [= <-]. destruct (Hob x eq_refl) as [Hx _]. left. exists s. split; [reflexivity|]. cbn [b_B]. rewrite Hx, Ep. discriminate.
    + destruct A as [a|]; [|discriminate]. intros [= <-]. left. exists s. split; [reflexivity|]. cbn [b_B]. rewrite Ep. discriminate.
  - intros [= ->]. apply Hob. reflexivity.
Qed.
Lemma gen_blocks_made fw : forall states A done bl, Forall block_made done -> gen_blocks fw A states done = Ok bl -> Forall block_made bl.
Proof.
  induction states as [|s rest IH]; intros A done bl Hd H; simpl in H.
  - injection H as <-. apply Forall_rev. exact Hd.
  - destruct (planner_block fw A s rest (hd_error done)) as [ob|] eqn:E; [|discriminate]. cbn [bind] in H. apply (IH _ _ _) in H; [exact H|].
    destruct ob as [b|]; [|exact Hd]. unfold add_block. destruct (b_segs b) eqn:Eb; [exact Hd|]. constructor; [|exact Hd]. exact (planner_block_made _ _ _ _ _ _ E).
Qed.
Lemma remake_made prevs b v b1 : remake prevs b v = Ok b1 -> block_made b1.
Proof.
  unfold remake. destruct (b_dir b) as [d|] eqn:Ed; [|discriminate]. destruct (previous_segment _ _) as [pv|]; [|discriminate]. cbn [bind].
  destruct (move_maker2 _ _ _ _ _) as [[segs ty]|] eqn:Em; [|discriminate]. cbn [bind]. intros [= <-]. right. exists d. split; [exact Ed|].
  exact (move_maker2_made _ _ _ _ _ _ _ Em).
Qed.
Lemma self_correction_made : forall prevs b n prevs' b' n' w, Forall block_made prevs -> block_made b -> block_made n ->
  self_correction prevs b n = Ok (prevs', b', n', w) -> Forall block_made prevs' /\ block_made b' /\ block_made n'.
Proof.
  induction prevs as [|p ps IH]; intros b n prevs' b' n' w Hps Hb Hn H; cbn [self_correction] in H;
  (destruct (last_seg (b_segs b)) as [s|]; [|discriminate]; cbn [bind] in H; destruct (first_seg (b_segs n)) as [m|]; [|discriminate]; cbn [bind] in H;
   match type of H with bind ?e _ = _ => set (E := e) in H; assert (G : forall p1 b1 w1, E = Ok (p1, b1, w1) -> Forall block_made p1 /\ block_made b1) end;
   [|destruct E as [[[prevs1 b1] w1]|]; [|discriminate]; destruct (G _ _ _ eq_refl) as [G1 G2]; cbn [bind] in H;
     destruct (last_seg (b_segs b1)) as [s1|]; [|discriminate]; cbn [bind] in H;
     destruct (first_seg (b_segs (timeshift _ n))) as [m1|]; [|discriminate]; cbn [bind] in H; destruct (check_continuity _ _); [|discriminate]; cbn [bind] in H;
     injection H as <- <- <- _; repeat split; try assumption; apply shift_made; exact Hn]);
  clear H; intros p1 b1 w1; subst E; (destruct (flag_correct s m); [|intros [= <- <- _]; split; assumption]);
  (destruct (remake _ b _) as [b0|] eqn:Er; [|discriminate]; cbn [bind]; apply remake_made in Er).
  - destruct (b_type b0) as [[]|]; try discriminate; intros [= <- <- _]; split; assumption.
  - destruct (b_type b0) as [[]|]; try (intros [= <- <- _]; split; assumption). inversion Hps; subst.
    destruct (self_correction ps p b0) as [[[[ps' p'] b2] w2]|] eqn:E2; [|discriminate]. cbn [bind]. intros [= <- <- _].
    destruct (IH _ _ _ _ _ _ ltac:(eassumption) ltac:(eassumption) Er E2) as (G1 & G2 & G3). split; [constructor; assumption|assumption].
Qed.
Lemma correct_from_made : forall rest prevs b bl w, Forall block_made prevs -> block_made b -> Forall block_made rest ->
  correct_from prevs b rest = Ok (bl, w) -> Forall block_made bl.
Proof.
  induction rest as [|n rest IH]; intros prevs b bl w Hp Hb Hr H; cbn [correct_from] in H.
  - injection H as <- _. apply Forall_app. split; [apply Forall_rev; exact Hp|constructor; [exact Hb|constructor]].
  - inversion Hr; subst. destruct (self_correction prevs b n) as [[[[prevs' b'] n'] w']|] eqn:E; [|discriminate]. cbn [bind] in H.
    destruct (self_correction_made _ _ _ _ _ _ _ Hp Hb ltac:(eassumption) E) as (G1 & G2 & G3).
    destruct (correct_from (b' :: prevs') n' rest) as [[bl' w'']|] eqn:E2; [|discriminate]. cbn [bind] in H. injection H as <- _.
    exact (IH _ _ _ _ (Forall_cons _ G2 G1) G3 ltac:(eassumption) E2).
Qed.
Lemma simulate_made fw states bl w : simulate fw states = Ok (bl, w) -> Forall block_made bl.
Proof.
  unfold simulate, generate_planner_blocks. destruct (gen_blocks fw None states []) as [l|] eqn:E; [|discriminate]. cbn [bind].
  pose proof (gen_blocks_made _ _ _ _ _ (Forall_nil _) E) as H. unfold trajectory_self_correct. destruct l as [|b l]; [intros [= <- _]; constructor|].
  inversion H; subst. apply correct_from_made; [constructor|assumption|assumption].
Qed.

(** * Shapes *)
Lemma made_shape b t p t' p' s e : wf_block b t p t' p' s e -> block_made b -> k_pause (b_B b) = None ->
  exists la lb lc, b_segs b = la ++ lb ++ lc /\ (length la <= 1)%nat /\ (length lb <= 1)%nat /\ (length lc <= 1)%nat /\
    Forall speeds_up la /\ Forall keeps_speed lb /\ Forall slows_down lc.
Proof.
  intros Hwf Hm Hp. inversion Hwf as [? ? ? v0 v1 d eo dist _ Hd Hdir _ _ _ Ha _ _ Hmo _ _| ? ? ? Hp']; [|congruence]. subst.
  destruct Hm as [(? & _ & Hm)|(d' & Hd' & la & lb & lc & E & [La Ra] & [Lb Rb] & [Lc Rc])]; [congruence|].
  assert (d' = d) by congruence. subst d'. exists la, lb, lc. split; [exact E|]. repeat (split; [assumption|]).
  assert (Hn : 0 < norm4 d).
  { destruct eo; simpl in Hdir; [destruct Hdir as [_ Hdir]|]; [rewrite Hdir; lra|]. unfold norm4, norm3 in *.
    apply sqrt_lt_R0. assert (sqrt (vx d * vx d + vy d * vy d + vz d * vz d) <> 0) by lra.
    destruct (Rle_lt_dec (vx d * vx d + vy d * vy d + vz d * vz d) 0) as [H0|H0]; [rewrite sqrt_neg_0 in H by exact H0; lra|].
    pose proof (Rle_0_sqr (ve d)) as H1. unfold Rsqr in H1. lra. }
  assert (Hr : forall g, In g (b_segs b) -> exists x y, 0 <= x /\ 0 <= y /\ vel_begin g = vscale x d /\ vel_end g = vscale y d /\ 0 < t_end g - t_begin g).
  { clear -Hmo. induction Hmo as [|? ? ? g ? segs ? ? ? _ _ (H1 & H2 & H3 & _ & H4 & H5 & _) _ IH]; intros g' Hg; [destruct Hg|destruct Hg as [<-|H]; [|exact (IH _ H)]].
    do 2 eexists. repeat split; [| |exact H2|exact H3|exact H1]; lra. }
  assert (Hs : forall x, norm4 (vscale x d) = Rabs x * norm4 d).
  { intros x. unfold norm4, vscale. cbn [vx vy vz ve]. rewrite <- sqrt_Rsqr_abs, <- sqrt_mult_alt by apply Rle_0_sqr. f_equal. unfold Rsqr. ring. }
  assert (Hinj : forall x y, vscale x d = vscale y d -> x = y).
  { intros x y H. assert (Hz : norm4 (vscale (x - y) d) = 0).
    { replace (vscale (x - y) d) with (vsub (vscale x d) (vscale y d)) by (unfold vsub, vscale; f_equal; simpl; ring). rewrite H.
      unfold vsub, norm4. cbn [vx vy vz ve]. rewrite !Rminus_diag_eq by reflexivity. rewrite !Rmult_0_l, !Rplus_0_l. apply sqrt_0. }
    rewrite Hs in Hz. apply Rmult_integral in Hz as [Hz|Hz]; [|lra]. destruct (Req_dec (x - y) 0); [lra|]. apply Rabs_no_R0 in H0. contradiction. }
  split; [|split].
  - apply Forall_forall. intros g Hg. rewrite Forall_forall in Ra. destruct (Ra g Hg) as (x & y & H1 & H2 & H3).
    destruct (Hr g) as (x' & y' & Hx & Hy & H1' & H2' & H3'); [rewrite E; apply in_or_app; left; exact Hg|].
    assert (x = x') by (apply Hinj; congruence). assert (y = y') by (apply Hinj; congruence). subst x' y'.
    unfold speeds_up. rewrite H1, H2, !Hs, !Rabs_right by lra. apply Rmult_lt_compat_r; [exact Hn|]. rewrite H3 in H3'.
    assert (0 < y - x); [|lra]. replace (y - x) with ((y - x) / k_acc (b_B b) * k_acc (b_B b)) by (field; lra). apply Rmult_lt_0_compat; assumption.
  - exact Rb.
  - apply Forall_forall. intros g Hg. rewrite Forall_forall in Rc. destruct (Rc g Hg) as (x & y & H1 & H2 & H3).
    destruct (Hr g) as (x' & y' & Hx & Hy & H1' & H2' & H3'); [rewrite E; apply in_or_app; right; apply in_or_app; right; exact Hg|].
    assert (x = x') by (apply Hinj; congruence). assert (y = y') by (apply Hinj; congruence). subst x' y'.
    unfold slows_down. rewrite H1, H2, !Hs, !Rabs_right by lra. apply Rmult_lt_compat_r; [exact Hn|]. rewrite H3 in H3'.
    assert (0 < x - y); [|lra]. replace (x - y) with ((x - y) / k_acc (b_B b) * k_acc (b_B b)) by (field; lra). apply Rmult_lt_0_compat; assumption.
Qed.

(** * Cutting equal texts *)
Lemma cut c : forall (a b x y : str), ~ In c a -> ~ In c b -> a ++ c :: x = b ++ c :: y -> a = b /\ x = y.
Proof.
  induction a as [|p a IH]; intros [|q b] x y Ha Hb H; simpl in H.
  - injection H as ->. auto.
  - injection H as <- _. destruct Hb. left. reflexivity.
  - injection H as -> _. destruct Ha. left. reflexivity.
  - injection H as <- H2. destruct (IH b x y) as [-> ->]; auto; intros Hi; [apply Ha|apply Hb]; right; exact Hi.
Qed.
Lemma cut_right c (a b x y : str) : ~ In c x -> ~ In c y -> a ++ c :: x = b ++ c :: y -> a = b /\ x = y.
Proof.
  intros Hx Hy H. apply (f_equal (@rev ascii)) in H. rewrite !rev_app_distr in H. cbn [rev] in H. rewrite <- !app_assoc in H. cbn [app] in H.
  apply cut in H as [H1 H2]; [|intros Hi; apply in_rev in Hi; contradiction..].
  split; [rewrite <- (rev_involutive a), H2; apply rev_involutive | rewrite <- (rev_involutive x), H1; apply rev_involutive].
Qed.
