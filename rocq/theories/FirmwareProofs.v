(** Proofs for the firmware properties. *)
From Coq Require Import Lra Lia.
From Verif Require Import Py StateGen Vec Segment Junction Planner Query Setup Interp RealFacts SpecKin SpecJunction SpecFirmware StrFacts
  MoveProofs SegProofs JunctionProofs CorrectProofs PlannerProofs TrajProofs PlanFacts CornerProofs InterpProofs.
Open Scope R_scope.
Local Arguments S_ : simpl never.

(** * Names *)
Lemma named_ok v fw : firmware_named v fw -> firmware_of v = fw.
Proof.
  intros H. destruct H as [| | | |v H1 H2 H3 H4]; try reflexivity.
  destruct v as [x|s|]; try reflexivity. unfold firmware_of.
  repeat match goal with |- context [str_eqb s ?n] => destruct (str_eqb_spec s n) as [->|]; [contradiction|] end. reflexivity.
Qed.
Lemma named_total v : exists fw, firmware_named v fw.
Proof.
  destruct v as [x|s|]; try (exists FullStop; apply fn_other; discriminate).
  destruct (str_eqb_spec s (S_ "marlin_jd")) as [->|N1]; [eexists; constructor|].
  destruct (str_eqb_spec s (S_ "marlin_jerk")) as [->|N2]; [eexists; constructor|].
  destruct (str_eqb_spec s (S_ "klipper")) as [->|N3]; [eexists; constructor|].
  destruct (str_eqb_spec s (S_ "MKA")) as [->|N4]; [eexists; constructor|].
  exists FullStop. apply fn_other; congruence.
Qed.

(** * Plans of equal commands *)
Lemma connect_same_command A A' B B' : same_command A A' -> same_command B B' -> connect_state A B = connect_state A' B'.
Proof. intros (P & _) (Q & S & _). unfold connect_state. rewrite P, Q, S. reflexivity. Qed.
Lemma find_next_cons B s x rest : find_next_state B (s :: x :: rest) =
  if Rltb 0 (t_distance (k_pos B) (k_pos s) true) then s else find_next_state B (x :: rest).
Proof. reflexivity. Qed.
Lemma find_same_command : forall rest rest' B B', same_command B B' -> Forall2 same_command rest rest' ->
  same_command (find_next_state B rest) (find_next_state B' rest').
Proof.
  induction rest as [|s rest IH]; intros rest' B B' HB H; inversion H as [|? s' ? r' Hs Hr]; subst; [exact HB|].
  destruct rest as [|s2 rest]; inversion Hr; subst; [exact Hs|]. rewrite !find_next_cons.
  assert (E : t_distance (k_pos B) (k_pos s) true = t_distance (k_pos B') (k_pos s') true) by (destruct Hs as (-> & _); destruct HB as (-> & _); reflexivity).
  rewrite E. destruct (Rltb _ _); [exact Hs|]. exact (IH _ _ _ HB Hr).
Qed.
Lemma corner_same_command fw A A' B B' rest rest' : same_command A A' -> same_command B B' -> Forall2 same_command rest rest' ->
  corner_speed fw A B rest = corner_speed fw A' B' rest'.
Proof.
  intros HA HB HR. pose proof (find_same_command _ _ _ _ HB HR) as HN.
  unfold corner_speed, mk_junction, connect_state_opt.
  rewrite (connect_same_command _ _ _ _ HA HB), (connect_same_command _ _ _ _ HB HN).
  destruct HN as (PN & _). destruct HB as (PB & S & Ac & J & _). rewrite PN, PB.
  unfold junction_vel. cbn [target_vel vel_next jt_distance]. rewrite S, Ac, J. reflexivity.
Qed.
Definition same_item (i i' : item) : Prop :=
  let '(A, B, r) := i in let '(A', B', r') := i' in same_command A A' /\ same_command B B' /\ Forall2 same_command r r'.
Lemma items_same : forall ks A ks' A' items, same_command A A' -> Forall2 same_command ks ks' ->
  plan_items A ks items -> exists items', plan_items A' ks' items' /\ Forall2 same_item items items'.
Proof.
  induction ks as [|B ks IH]; intros A ks' A' items HA H Hi; inversion H as [|? B' ? ks1 HB Hks]; subst.
  - inversion Hi; subst. exists []. split; constructor.
  - pose proof HB as (PB & _ & _ & _ & WB). pose proof HA as (PA & _). inversion Hi as [|? ? ? ? D1 D2 D3|? ? ? ? D1 D3]; subst.
    + destruct (IH _ _ _ _ HB Hks D3) as (it & I1 & I2). exists it. split; [|exact I2]. apply pi_skip; congruence || assumption.
    + destruct (IH _ _ _ _ HB Hks D3) as (it & I1 & I2). exists ((A', B', ks1) :: it). split.
      * apply pi_item; [|exact I1]. destruct D1 as [D1|D1]; [left|right]; congruence.
      * constructor; [|exact I2]. simpl. auto.
Qed.
Lemma feasible_same fw : forall items items' w wl, Forall2 same_item items items' -> feasible fw w items wl -> feasible fw w items' wl.
Proof.
  intros items items' w wl H. revert w wl. induction H as [|[[A B] r] [[A' B'] r'] items items' (HA & HB & HR) _ IH]; intros w wl Hf.
  - inversion Hf; subst. constructor.
  - inversion Hf; subst. constructor; [|pose proof (corner_same_command fw _ _ _ _ _ _ HA HB HR) as E; unfold corner_speed in E; rewrite <- E; assumption|auto].
    destruct HA as (PA & _). destruct HB as (PB & S & Ac & J & W). unfold profile_step in *. rewrite <- PA, <- PB, <- S, <- Ac, <- W. assumption.
Qed.
Lemma fastest_sim fw s0 states bl wn : valid_program s0 states -> simulate fw (s0 :: states) = Ok (bl, wn) -> fastest fw s0 states bl.
Proof.
  intros Hv Hs. destruct (plan_items_total states s0) as (items & Hi). exists items. split; [exact Hi|]. split.
  - exact (sim_corner_speeds fw s0 states bl wn Hv Hs items Hi).
  - intros wl. exact (sim_dominates fw s0 states bl wn Hv Hs items wl Hi).
Qed.
Lemma same_command_sym A B : same_command A B -> same_command B A.
Proof. intros (P & S & Ac & J & W). repeat split; congruence. Qed.
Lemma Forall2_sym_cmd ks ks' : Forall2 same_command ks ks' -> Forall2 same_command ks' ks.
Proof. induction 1; constructor; auto using same_command_sym. Qed.
Lemma fastest_same fw s0 states s0' states' bl : same_command s0 s0' -> Forall2 same_command states states' ->
  fastest fw s0' states' bl -> fastest fw s0 states bl.
Proof.
  intros H0 H (items' & Hi & Hc & Hd).
  destruct (items_same _ _ _ _ _ (same_command_sym _ _ H0) (Forall2_sym_cmd _ _ H) Hi) as (items & Hi' & Hs).
  exists items. split; [exact Hi'|]. split.
  - clear -Hc Hs. revert items Hs. induction Hc as [|b [[A B] r] bl its Hb _ IH]; intros items Hs; inversion Hs as [|? y ? ? Hx Hs2]; subst; constructor; [|auto].
    destruct y as [[A' B'] r']. destruct Hx as (HA & HB & HR). rewrite <- (corner_same_command fw _ _ _ _ _ _ HA HB HR). exact Hb.
  - intros wl Hf. apply Hd. apply (feasible_same fw items); [|exact Hf].
    clear -Hs. induction Hs as [|[[A B] r] [[A' B'] r'] l l' (HA & HB & HR) _ IH]; constructor; [|exact IH].
    simpl. auto using same_command_sym, Forall2_sym_cmd.
Qed.

(** * The look-ahead ends at a dwell *)
Lemma t_distance_zero_pos p q : Rltb 0 (t_distance p q true) = false -> p = q.
Proof.
  unfold t_distance. destruct (Rle_lt_or_eq_dec _ _ (norm4_nonneg (vsub p q))) as [H|E]; intros H1.
  - rewrite Rltb_true in H1 by exact H. discriminate.
  - symmetry in E. apply norm4_zero_inv in E. apply vec4_ext;
      [apply (f_equal vx) in E|apply (f_equal vy) in E|apply (f_equal vz) in E|apply (f_equal ve) in E]; simpl in E; lra.
Qed.
Lemma find_next_agree N : forall l s post1 post2, (exists x, In x (l ++ [N]) /\ k_pos x <> k_pos s) ->
  find_next_state s (l ++ N :: post1) = find_next_state s (l ++ N :: post2).
Proof.
  induction l as [|y l IH]; intros s post1 post2 (x & Hx & Hn).
  - destruct Hx as [<-|[]]. assert (E : Rltb 0 (t_distance (k_pos s) (k_pos N) true) = true).
    { destruct (Rltb _ _) eqn:E; [reflexivity|]. exfalso. apply Hn. symmetry. apply t_distance_zero_pos. exact E. }
    cbn [app]. destruct post1, post2; rewrite ?find_next_cons, ?E; reflexivity.
  - assert (G : forall post, find_next_state s ((y :: l) ++ N :: post) =
                if Rltb 0 (t_distance (k_pos s) (k_pos y) true) then y else find_next_state s (l ++ N :: post)).
    { intros post. cbn [app find_next_state]. destruct (l ++ N :: post) eqn:E; [destruct l; discriminate|reflexivity]. }
    rewrite !G. destruct (Rltb _ _) eqn:E; [reflexivity|]. apply IH.
    destruct Hx as [<-|Hx]; [exfalso; apply Hn; symmetry; apply t_distance_zero_pos; exact E|]. exists x. auto.
Qed.

Fixpoint gen_until (fw : firmware) (A : option kstate) (pre rest : list kstate) (done : list block) : res (option kstate * list block) :=
  match pre with
  | [] => Ok (A, done)
  | s :: pre' =>
    ob <- planner_block fw A s (pre' ++ rest) (hd_error done) ;;
    gen_until fw (Some s) pre' rest (add_block ob done)
  end.
Lemma gen_blocks_app fw rest : forall pre A done, gen_blocks fw A (pre ++ rest) done =
  ('(A', done') <- gen_until fw A pre rest done ;; gen_blocks fw A' rest done').
Proof.
  induction pre as [|s pre IH]; intros A done; [reflexivity|]. cbn [app gen_blocks gen_until].
  destruct (planner_block fw A s (pre ++ rest) (hd_error done)) as [ob|e]; [|reflexivity]. cbn [bind]. apply IH.
Qed.
Lemma gen_until_app fw rest : forall p1 p2 A done, gen_until fw A (p1 ++ p2) rest done =
  ('(A', done') <- gen_until fw A p1 (p2 ++ rest) done ;; gen_until fw A' p2 rest done').
Proof.
  induction p1 as [|s p1 IH]; intros p2 A done; [reflexivity|]. cbn [app gen_until]. rewrite app_assoc.
  destruct (planner_block _ _ _ _ _) as [ob|e]; [|reflexivity]. cbn [bind]. apply IH.
Qed.
Lemma planner_agree fw A s r1 r2 prev : find_next_state s r1 = find_next_state s r2 ->
  planner_block fw A s r1 prev = planner_block fw A s r2 prev.
Proof. intros H. unfold planner_block, mk_junction. rewrite H. reflexivity. Qed.
Lemma gen_until_agree fw r1 r2 : forall pre A done,
  (forall p1 s p2, pre = p1 ++ s :: p2 -> find_next_state s (p2 ++ r1) = find_next_state s (p2 ++ r2)) ->
  gen_until fw A pre r1 done = gen_until fw A pre r2 done.
Proof.
  induction pre as [|s pre IH]; intros A done H; [reflexivity|]. cbn [gen_until].
  rewrite (planner_agree fw A s _ (pre ++ r2) _ (H [] s pre eq_refl)).
  destruct (planner_block _ _ _ _ _) as [ob|e]; [|reflexivity]. cbn [bind]. apply IH.
  intros p1 x p2 E. apply (H (s :: p1)). rewrite E. reflexivity.
Qed.
Lemma gen_extends fw : forall rest A done bl, gen_blocks fw A rest done = Ok bl -> exists t, bl = rev done ++ t.
Proof.
  induction rest as [|s rest IH]; intros A done bl H; cbn [gen_blocks] in H.
  - injection H as <-. exists []. rewrite app_nil_r. reflexivity.
  - destruct (planner_block _ _ _ _ _) as [ob|e]; cbn [bind] in H; [|discriminate].
    destruct (IH _ _ _ H) as (t & ->). unfold add_block. destruct ob as [b|]; [|eauto]. destruct (b_segs b); [eauto|]. exists (b :: t). simpl. rewrite <- app_assoc. reflexivity.
Qed.

Lemma planner_item fw A B rest prev ob : 0 < k_speed B -> planner_block fw (Some A) B rest prev = Ok ob ->
  (ob = None <-> k_pos B = k_pos A /\ k_pause B = None).
Proof.
  intros Hs H. unfold planner_block in H. destruct (Rleb (k_acc B) 0); [discriminate|].
  unfold mk_junction in H. cbn [target_vel connect_state_opt] in H.
  destruct (vec4_eq_dec (k_pos B) (k_pos A)) as [E|E].
  - rewrite (connect_same A B) in H by congruence.
    assert (Hz : get_norm_dir vzero = None) by (unfold get_norm_dir; rewrite norm3_vzero, norm4_vzero, (Rltb_false 0 0) by lra; reflexivity).
    rewrite Hz in H. cbn [bind] in H. destruct (k_pause B) as [w|].
    + destruct prev as [pb|]; [|discriminate]. destruct (last_seg _) as [pv|]; cbn [bind] in H; [|discriminate].
      destruct (mk_segment _ _ _ _ _ _); cbn [bind] in H; [|discriminate]. injection H as <-. split; [discriminate|intros [_ H]; discriminate].
    + injection H as <-. tauto.
  - destruct (connect_moves A B E Hs) as (d & eo & dist & _ & _ & _ & _ & _ & Hd & Hz). rewrite Hd, Hz in H.
    destruct (previous_segment A prev) as [pv|]; cbn [bind] in H; [|discriminate].
    destruct (move_maker2 _ _ _ _ _) as [[segs ty]|]; cbn [bind] in H; [|discriminate].
    destruct (k_pause B) as [w|].
    + destruct prev as [pb|]; [|discriminate]. destruct (last_seg _) as [pv'|]; cbn [bind] in H; [|discriminate].
      destruct (mk_segment _ _ _ _ _ _); cbn [bind] in H; [|discriminate]. injection H as <-. split; [discriminate|intros [H _]; contradiction].
    + injection H as <-. split; [discriminate|intros [H _]; contradiction].
Qed.
Lemma planner_segs fw A B rest prev b : 0 < k_speed B -> 0 <= k_jerk B -> planner_block fw (Some A) B rest prev = Ok (Some b) -> b_segs b <> [].
Proof.
  intros Hs Hj H. unfold planner_block in H. destruct (Rleb (k_acc B) 0) eqn:Ea; [discriminate|].
  assert (Ha : 0 < k_acc B) by (destruct (Rleb_spec (k_acc B) 0); [discriminate|lra]).
  match type of H with bind ?c _ = _ => destruct c as [ob1|] eqn:E; cbn [bind] in H; [|discriminate] end.
  destruct (k_pause B) as [w|].
  - destruct prev as [pb|]; [|discriminate]. destruct (last_seg _) as [pv|]; cbn [bind] in H; [|discriminate].
    destruct (mk_segment _ _ _ _ _ _) as [sg|]; cbn [bind] in H; [|discriminate]. destruct ob1 as [b1|]; injection H as <-; discriminate.
  - injection H as ->. pose proof (junction_vel_bounds fw A B rest Hs Hj) as HJ. unfold mk_junction in E at 1 2. cbn [target_vel connect_state_opt] in E.
    destruct (get_norm_dir (connect_state A B)) as [d|] eqn:Ed; [|discriminate]. destruct (not_zero _); [|discriminate].
    destruct (vec4_eq_dec (k_pos B) (k_pos A)) as [Ep|Ep].
    + rewrite (connect_same A B) in Ed by congruence. unfold get_norm_dir in Ed. rewrite norm3_vzero, norm4_vzero, (Rltb_false 0 0) in Ed by lra. discriminate.
    + destruct (previous_segment A prev) as [pv|]; cbn [bind] in E; [|discriminate].
      set (vJ := junction_vel fw (mk_junction (Some A) B rest) B) in *.
      destruct (connect_moves A B Ep Hs) as (d' & eo & dist & _ & _ & Hdir & _ & Hcs & _). rewrite Hcs, (dir_norm3 d' eo) in HJ by (assumption || lra).
      assert (HJ' : 0 <= vJ <= k_speed B) by (destruct eo; lra).
      destruct (move_planned A B pv vJ Ep Ha Hs HJ') as (d2 & segs & ty & Ed2 & Hmm & Hne). rewrite Ed in Ed2. injection Ed2 as <-.
      rewrite Hmm in E. cbn [bind] in E. injection E as <-. exact Hne.
Qed.
Lemma add_some b done : b_segs b <> [] -> add_block (Some b) done = b :: done.
Proof. intros H. unfold add_block. destruct (b_segs b); [contradiction|reflexivity]. Qed.
Lemma gen_until_length fw rest : forall pre A done A' done' items, Forall valid_state pre ->
  gen_until fw (Some A) pre rest done = Ok (A', done') -> plan_items A pre items ->
  length done' = (length done + length items)%nat.
Proof.
  induction pre as [|s pre IH]; intros A done A' done' items Hv H Hi; cbn [gen_until] in H.
  - injection H as <- <-. inversion Hi; subst. simpl. lia.
  - inversion Hv as [|? ? (Hs & _ & Hj & _) Hv']; subst.
    destruct (planner_block fw (Some A) s (pre ++ rest) (hd_error done)) as [ob|] eqn:E; cbn [bind] in H; [|discriminate].
    pose proof (planner_item _ _ _ _ _ _ Hs E) as Hob. inversion Hi as [|? ? ? ? D1 D2 D3|? ? ? ? D1 D3]; subst.
    + destruct ob as [b|]; [destruct Hob as [_ Hob]; discriminate Hob; auto|]. exact (IH _ _ _ _ _ Hv' H D3).
    + destruct ob as [b|]; [|destruct (proj1 Hob eq_refl); tauto]. rewrite (add_some _ _ (planner_segs _ _ _ _ _ _ Hs Hj E)) in H. rewrite (IH _ _ _ _ _ Hv' H D3). simpl. lia.
Qed.

(** ** The correction does not pass a dwell *)
Lemma self_correction_stops D P : b_dir D = None -> forall p1 b n prevs' b' n' w,
  self_correction (p1 ++ D :: P) b n = Ok (prevs', b', n', w) -> exists p1', prevs' = p1' ++ D :: P.
Proof.
  intros HD.
  assert (Stop : forall n prevs' b' n' w, self_correction P D n = Ok (prevs', b', n', w) -> prevs' = P /\ b' = D).
  { intros n prevs' b' n' w H. destruct P; cbn [self_correction] in H;
    (destruct (last_seg (b_segs D)) as [s|]; cbn [bind] in H; [|discriminate]; destruct (first_seg (b_segs n)) as [m|]; cbn [bind] in H; [|discriminate];
     destruct (flag_correct s m); [unfold remake in H; rewrite HD in H; discriminate|]; cbn [bind] in H;
     destruct (last_seg (b_segs D)) as [s1|]; cbn [bind] in H; [|discriminate];
     destruct (first_seg (b_segs (timeshift _ n))) as [m1|]; cbn [bind] in H; [|discriminate];
     destruct (check_continuity s1 m1); cbn [bind] in H; [|discriminate]; injection H as <- <- _ _; split; reflexivity). }
  induction p1 as [|p p1 IH]; intros b n prevs' b' n' w H.
  - cbn [app self_correction] in H.
    destruct (last_seg (b_segs b)) as [s|]; cbn [bind] in H; [|discriminate]. destruct (first_seg (b_segs n)) as [m|]; cbn [bind] in H; [|discriminate].
    match type of H with bind ?c _ = _ => destruct c as [[[q1 q2] q3]|] eqn:E; cbn [bind] in H; [|discriminate] end.
    assert (Eq : q1 = D :: P).
    { destruct (flag_correct s m); [|congruence]. destruct (remake (D :: P) b (norm3 (vel_begin m))) as [b1|]; cbn [bind] in E; [|discriminate].
      destruct (b_type b1) as [[| |]|]; try congruence. destruct (self_correction P D b1) as [[[[x1 x2] x3] x4]|] eqn:E2; cbn [bind] in E; [|discriminate].
      destruct (Stop _ _ _ _ _ E2) as [-> ->]. congruence. }
    subst q1. destruct (last_seg (b_segs q2)); cbn [bind] in H; [|discriminate]. destruct (first_seg _); cbn [bind] in H; [|discriminate].
    destruct (check_continuity _ _); cbn [bind] in H; [|discriminate]. injection H as <- _ _ _. exists []. reflexivity.
  - cbn [app self_correction] in H.
    destruct (last_seg (b_segs b)) as [s|]; cbn [bind] in H; [|discriminate]. destruct (first_seg (b_segs n)) as [m|]; cbn [bind] in H; [|discriminate].
    match type of H with bind ?c _ = _ => destruct c as [[[q1 q2] q3]|] eqn:E; cbn [bind] in H; [|discriminate] end.
    assert (Eq : exists p1', q1 = p1' ++ D :: P).
    { destruct (flag_correct s m); [|exists (p :: p1); cbn [app]; congruence]. destruct (remake _ b (norm3 (vel_begin m))) as [b1|]; cbn [bind] in E; [|discriminate].
      destruct (b_type b1) as [[| |]|]; try (exists (p :: p1); cbn [app]; congruence).
      destruct (self_correction (p1 ++ D :: P) p b1) as [[[[x1 x2] x3] x4]|] eqn:E2; cbn [bind] in E; [|discriminate].
      destruct (IH _ _ _ _ _ _ E2) as (p1' & ->). exists (x2 :: p1'). simpl. congruence. }
    destruct Eq as (p1' & ->). destruct (last_seg (b_segs q2)); cbn [bind] in H; [|discriminate]. destruct (first_seg _); cbn [bind] in H; [|discriminate].
    destruct (check_continuity _ _); cbn [bind] in H; [|discriminate]. injection H as <- _ _ _. exists p1'. reflexivity.
Qed.
Lemma correct_keeps D P : b_dir D = None -> forall rest p1 b bl w,
  correct_from (p1 ++ D :: P) b rest = Ok (bl, w) -> exists t, bl = rev (D :: P) ++ t.
Proof.
  intros HD. induction rest as [|n rest IH]; intros p1 b bl w H; cbn [correct_from] in H.
  - injection H as <- _. exists (rev p1 ++ [b]). cbn [rev]. rewrite rev_app_distr. cbn [rev]. rewrite <- !app_assoc. reflexivity.
  - destruct (self_correction (p1 ++ D :: P) b n) as [[[[x1 x2] x3] x4]|] eqn:E; cbn [bind] in H; [|discriminate].
    destruct (self_correction_stops D P HD _ _ _ _ _ _ _ E) as (p1' & ->).
    destruct (correct_from (x2 :: p1' ++ D :: P) x3 rest) as [[bl' w']|] eqn:E2; cbn [bind] in H; [|discriminate].
    injection H as <- _. exact (IH (x2 :: p1') _ _ _ E2).
Qed.
(** The state of the correction when it arrives at the block [d] after [l]. *)
Fixpoint correct_until (prevs : list block) (b : block) (l : list block) : res (list block * block) :=
  match l with
  | [] => Ok (prevs, b)
  | n :: l' => '(prevs', b', n', _) <- self_correction prevs b n ;; correct_until (b' :: prevs') n' l'
  end.
Lemma correct_from_app rest : forall l prevs b bl w, correct_from prevs b (l ++ rest) = Ok (bl, w) ->
  exists P D w', correct_until prevs b l = Ok (P, D) /\ correct_from P D rest = Ok (bl, w').
Proof.
  induction l as [|n l IH]; intros prevs b bl w H; cbn [app correct_from correct_until] in *.
  - exists prevs, b, w. auto.
  - destruct (self_correction prevs b n) as [[[[x1 x2] x3] x4]|] eqn:E; cbn [bind] in *; [|discriminate].
    destruct (correct_from (x2 :: x1) x3 (l ++ rest)) as [[bl' w']|] eqn:E2; cbn [bind] in H; [|discriminate].
    injection H as <- _. exact (IH _ _ _ _ E2).
Qed.
Lemma self_correction_shape prevs b n prevs' b' n' w : self_correction prevs b n = Ok (prevs', b', n', w) ->
  length prevs' = length prevs /\ b_dir n' = b_dir n.
Proof.
  revert b n prevs' b' n' w. induction prevs as [|p prevs IH]; intros b n prevs' b' n' w H; cbn [self_correction] in H;
    (destruct (last_seg (b_segs b)) as [s|]; cbn [bind] in H; [|discriminate]); (destruct (first_seg (b_segs n)) as [m|]; cbn [bind] in H; [|discriminate]);
    match type of H with bind ?c _ = _ => destruct c as [[[q1 q2] q3]|] eqn:E; cbn [bind] in H; [|discriminate] end;
    (destruct (last_seg (b_segs q2)); cbn [bind] in H; [|discriminate]); (destruct (first_seg _) as [m1|]; cbn [bind] in H; [|discriminate]);
    (destruct (check_continuity _ _); cbn [bind] in H; [|discriminate]); injection H as <- _ <- _; (split; [|reflexivity]);
    (destruct (flag_correct s m); [|congruence]); (destruct (remake _ b (norm3 (vel_begin m))) as [b1|]; cbn [bind] in E; [|discriminate]);
    (destruct (b_type b1) as [[| |]|]; try congruence; try discriminate).
  destruct (self_correction prevs p b1) as [[[[x1 x2] x3] x4]|] eqn:E2; cbn [bind] in E; [|discriminate].
  destruct (IH _ _ _ _ _ _ E2) as [L _]. injection E as <- _ _. simpl. congruence.
Qed.
Lemma correct_until_shape : forall l prevs b P D, correct_until prevs b l = Ok (P, D) ->
  length P = (length prevs + length l)%nat /\ b_dir D = b_dir (last l b).
Proof.
  induction l as [|n l IH]; intros prevs b P D H; cbn [correct_until] in H.
  - injection H as <- <-. split; [simpl; lia|reflexivity].
  - destruct (self_correction prevs b n) as [[[[x1 x2] x3] x4]|] eqn:E; cbn [bind] in H; [|discriminate].
    destruct (self_correction_shape _ _ _ _ _ _ _ E) as [L1 L2]. destruct (IH _ _ _ _ H) as [L3 L4]. split; [simpl in *; lia|].
    rewrite L4. destruct l as [|y l]; [exact L2|]. cbn [last]. clear. revert y. induction l as [|z l IH]; intros y; [reflexivity|]. apply IH.
Qed.
(** Correcting two lists of blocks with a common part that ends in a dwell. *)
Lemma correct_common C T1 T2 bl1 w1 bl2 w2 D0 C0 : C = C0 ++ [D0] -> b_dir D0 = None ->
  trajectory_self_correct (C ++ T1) = Ok (bl1, w1) -> trajectory_self_correct (C ++ T2) = Ok (bl2, w2) ->
  exists bl r1 r2, bl1 = bl ++ r1 /\ bl2 = bl ++ r2 /\ length bl = length C.
Proof.
  intros EC HD H1 H2. destruct C as [|b0 C']; [destruct C0; discriminate|]. cbn [app trajectory_self_correct] in H1, H2.
  destruct (correct_from_app _ _ _ _ _ _ H1) as (P & D & u1 & E1 & F1). destruct (correct_from_app _ _ _ _ _ _ H2) as (P' & D' & u2 & E2 & F2).
  rewrite E1 in E2. injection E2 as <- <-. destruct (correct_until_shape _ _ _ _ _ E1) as [L1 L2].
  assert (HD' : b_dir D = None).
  { rewrite L2. rewrite <- HD. f_equal. destruct C0 as [|c C0]; injection EC as -> ->; [reflexivity|]. apply last_last. }
  assert (K : forall T bl w, correct_from P D T = Ok (bl, w) -> exists t, bl = rev (D :: P) ++ t).
  { intros T bl w H. destruct T as [|n T]; cbn [correct_from] in H.
    - injection H as <- _. exists []. rewrite app_nil_r. reflexivity.
    - destruct (self_correction P D n) as [[[[x1 x2] x3] x4]|] eqn:E; cbn [bind] in H; [|discriminate].
      assert (x1 = P /\ x2 = D) as [-> ->].
      { destruct P; cbn [self_correction] in E;
        (destruct (last_seg (b_segs D)) as [s|]; cbn [bind] in E; [|discriminate]; destruct (first_seg (b_segs n)) as [m|]; cbn [bind] in E; [|discriminate];
         destruct (flag_correct s m); [unfold remake in E; rewrite HD' in E; discriminate|]; cbn [bind] in E;
         destruct (last_seg (b_segs D)) as [s1|]; cbn [bind] in E; [|discriminate];
         destruct (first_seg (b_segs (timeshift _ n))) as [m1|]; cbn [bind] in E; [|discriminate];
         destruct (check_continuity s1 m1); cbn [bind] in E; [|discriminate]; injection E as <- <- _ _; split; reflexivity). }
      destruct (correct_from (D :: P) x3 T) as [[bl' w']|] eqn:E2; cbn [bind] in H; [|discriminate]. injection H as <- _.
      exact (correct_keeps D P HD' T [] x3 _ _ E2). }
  destruct (K _ _ _ F1) as (t1 & ->). destruct (K _ _ _ F2) as (t2 & ->).
  exists (rev (D :: P)), t1, t2. split; [reflexivity|]. split; [reflexivity|]. rewrite rev_length. simpl. rewrite L1. reflexivity.
Qed.

(** ** Both programs *)
Lemma dwell_block fw A d rest prev ob : k_pos d = k_pos A -> planner_block fw (Some A) d rest prev = Ok ob ->
  match ob with Some b => b_dir b = None | None => k_pause d = None end.
Proof.
  intros E H. unfold planner_block in H. destruct (Rleb (k_acc d) 0); [discriminate|].
  unfold mk_junction in H. cbn [target_vel connect_state_opt] in H. rewrite (connect_same A d) in H by congruence.
  assert (Hz : get_norm_dir vzero = None) by (unfold get_norm_dir; rewrite norm3_vzero, norm4_vzero, (Rltb_false 0 0) by lra; reflexivity).
  rewrite Hz in H. cbn [bind] in H. destruct (k_pause d) as [w|]; [|injection H as <-; reflexivity].
  destruct prev as [pb|]; [|discriminate]. destruct (last_seg _) as [pv|]; cbn [bind] in H; [|discriminate].
  destruct (mk_segment _ _ _ _ _ _); cbn [bind] in H; [|discriminate]. injection H as <-. reflexivity.
Qed.
Lemma first_block fw s0 rest ob : k_pause s0 = None -> planner_block fw None s0 rest None = Ok ob -> ob = None.
Proof.
  intros Hp H. unfold planner_block in H. destruct (Rleb (k_acc s0) 0); [discriminate|]. cbn [bind] in H. rewrite Hp in H. congruence.
Qed.
Lemma agree_cut fw s0 ks1 ks2 pre A d mid N post1 post2 bl1 w1 bl2 w2 items :
  valid_program s0 ks1 -> agree_past_dwell (s0 :: ks1) (s0 :: ks2) pre A d mid N post1 post2 ->
  simulate fw (s0 :: ks1) = Ok (bl1, w1) -> simulate fw (s0 :: ks2) = Ok (bl2, w2) ->
  plan_items s0 (tl (pre ++ [A; d])) items ->
  exists bl r1 r2, bl1 = bl ++ r1 /\ bl2 = bl ++ r2 /\ length bl = length items.
Proof.
  intros Hv [E1 E2 Hst Hpa Hmid HN] S1 S2 Hi.
  assert (Hlook : forall p1 s p2, pre ++ [A; d] = p1 ++ s :: p2 ->
            find_next_state s (p2 ++ mid ++ N :: post1) = find_next_state s (p2 ++ mid ++ N :: post2)).
  { intros p1 s p2 E. rewrite !app_assoc. apply find_next_agree.
    destruct (vec4_eq_dec (k_pos s) (k_pos d)) as [Es|Es].
    - exists N. split; [apply in_or_app; right; left; reflexivity|]. congruence.
    - exists d. split; [|congruence]. rewrite <- app_assoc. apply in_or_app. left.
      assert (Hd : In d (p1 ++ s :: p2)) by (rewrite <- E; apply in_or_app; right; right; left; reflexivity).
      destruct (exists_last (l := s :: p2)) as (q & y & Eq); [discriminate|]. rewrite Eq in E.
      assert (y = d). { change [A; d] with ([A] ++ [d]) in E. rewrite !app_assoc in E. apply app_inj_tail in E. symmetry. tauto. }
      subst y. destruct q as [|q0 q]; injection Eq as -> ->; [contradiction|]. apply in_or_app. right. left. reflexivity. }
  assert (X1 : s0 :: ks1 = (pre ++ [A; d]) ++ mid ++ N :: post1) by (rewrite E1, <- app_assoc; reflexivity).
  assert (X2 : s0 :: ks2 = (pre ++ [A; d]) ++ mid ++ N :: post2) by (rewrite E2, <- app_assoc; reflexivity).
  unfold simulate, generate_planner_blocks in S1, S2. rewrite X1, gen_blocks_app in S1. rewrite X2, gen_blocks_app in S2.
  rewrite <- (gen_until_agree fw (mid ++ N :: post1) (mid ++ N :: post2) (pre ++ [A; d]) None [] Hlook) in S2.
  destruct (gen_until fw None (pre ++ [A; d]) (mid ++ N :: post1) []) as [[A' done]|] eqn:G; cbn [bind] in S1, S2; [|discriminate].
  destruct (gen_blocks fw A' (mid ++ N :: post1) done) as [B1|] eqn:G1; cbn [bind] in S1; [|discriminate].
  destruct (gen_blocks fw A' (mid ++ N :: post2) done) as [B2|] eqn:G2; cbn [bind] in S2; [|discriminate].
  destruct (gen_extends _ _ _ _ _ G1) as (T1 & ->). destruct (gen_extends _ _ _ _ _ G2) as (T2 & ->).
  assert (Hdone : exists D0 done0, done = D0 :: done0 /\ b_dir D0 = None).
  { change [A; d] with ([A] ++ [d]) in G. rewrite app_assoc, gen_until_app in G.
    destruct (gen_until fw None (pre ++ [A]) ([d] ++ mid ++ N :: post1) []) as [[A1 d1]|] eqn:G'; cbn [bind] in G; [|discriminate].
    rewrite gen_until_app in G'. destruct (gen_until fw None pre _ []) as [[A2 d2]|]; cbn [bind] in G'; [|discriminate].
    cbn [gen_until] in G'. destruct (planner_block fw A2 A _ _) as [ob2|]; cbn [bind] in G'; [|discriminate]. injection G' as <- Ed.
    cbn [gen_until] in G. destruct (planner_block fw (Some A) d _ _) as [ob|] eqn:Eb; cbn [bind] in G; [|discriminate].
    pose proof (dwell_block _ _ _ _ _ _ Hst Eb) as Hob. injection G as _ <-. destruct ob as [b|]; [|contradiction].
    assert (Hd : valid_state d).
    { destruct Hv as (Hvs & _). rewrite Forall_forall in Hvs. apply Hvs. rewrite X1. apply in_or_app. left. apply in_or_app. right. right. left. reflexivity. }
    destruct Hd as (Hsd & _ & Hjd & _). rewrite (add_some _ _ (planner_segs _ _ _ _ _ _ Hsd Hjd Eb)). eauto. }
  destruct Hdone as (D0 & done0 & -> & HD).
  destruct (correct_common (rev (D0 :: done0)) T1 T2 bl1 w1 bl2 w2 D0 (rev done0) eq_refl HD S1 S2) as (bl & r1 & r2 & F1 & F2 & F3).
  exists bl, r1, r2. split; [exact F1|]. split; [exact F2|]. rewrite F3, rev_length.
  (* the number of blocks *)
  assert (Epre : exists pre', pre ++ [A; d] = s0 :: pre').
  { destruct pre as [|p pre]; injection X1 as <- _; eexists; reflexivity. }
  destruct Epre as (pre' & Epre). rewrite Epre in *. cbn [tl] in Hi. cbn [gen_until] in G.
  destruct Hv as (Hvs & Hp0 & _).
  destruct (planner_block fw None s0 _ _) as [ob|] eqn:Eb; cbn [bind] in G; [|discriminate].
  rewrite (first_block _ _ _ _ Hp0 Eb) in G.
  cbn [add_block] in G. assert (Hsp : Forall valid_state pre').
  { assert (Eks : ks1 = pre' ++ mid ++ N :: post1) by (injection X1 as ->; reflexivity).
    inversion Hvs as [|? ? _ Hvs']; subst. apply Forall_app in Hvs' as [Hvs' _]. exact Hvs'. }
  rewrite (gen_until_length _ _ _ _ _ _ _ _ Hsp G Hi). reflexivity.
Qed.

(** * Without look-ahead *)
Definition at_rest (b : block) : Prop := exists f l, first_seg (b_segs b) = Ok f /\ last_seg (b_segs b) = Ok l /\
  vel_begin f = vzero /\ vel_end l = vzero.
Lemma mk_segment_fields t0 t1 p0 p1 v0 v1 s : mk_segment t0 t1 p0 p1 v0 v1 = Ok s -> vel_begin s = v0 /\ vel_end s = v1.
Proof. unfold mk_segment. intros H. repeat match type of H with (if ?c then _ else _) = _ => destruct c | bind ?c _ = _ => destruct c; cbn [bind] in H end; try discriminate; injection H as <-; split; reflexivity. Qed.
Lemma planner_rest A B rest prev ob : 0 < k_speed B -> (forall b, prev = Some b -> at_rest b) ->
  planner_block FullStop (Some A) B rest prev = Ok ob -> forall b, ob = Some b -> at_rest b.
Proof.
  intros Hs Hprev H b Hb. unfold planner_block in H. destruct (Rleb (k_acc B) 0) eqn:Ea; [discriminate|].
  assert (Ha : 0 < k_acc B) by (destruct (Rleb_spec (k_acc B) 0); [discriminate|lra]).
  unfold mk_junction in H. cbn [target_vel connect_state_opt junction_vel] in H.
  match type of H with bind ?c _ = _ => destruct c as [ob1|] eqn:E; cbn [bind] in H; [|discriminate] end.
  destruct (k_pause B) as [w|].
  - destruct prev as [pb|]; [|discriminate]. destruct (last_seg _) as [pv|]; cbn [bind] in H; [|discriminate].
    destruct (mk_segment _ _ _ _ _ _) as [sg|] eqn:Em; cbn [bind] in H; [|discriminate]. apply mk_segment_fields in Em as [V1 V2].
    destruct ob1 as [b1|]; injection H as <-; injection Hb as <-; exists sg, sg; cbn [b_segs]; rewrite V1, V2; repeat split.
  - injection H as <-. rewrite Hb in E. clear Hb.
    destruct (get_norm_dir (connect_state A B)) as [d|] eqn:Ed; [|discriminate]. destruct (not_zero (connect_state A B)) eqn:Ez; [|discriminate].
    destruct (vec4_eq_dec (k_pos B) (k_pos A)) as [Ep|Ep].
    { rewrite (connect_same A B) in Ez by congruence. unfold not_zero in Ez. rewrite norm4_vzero, Rltb_false in Ez by lra. discriminate. }
    destruct (previous_segment A prev) as [pv|] eqn:Epv; cbn [bind] in E; [|discriminate].
    assert (Hv0 : norm3 (vel_end pv) = 0).
    { destruct prev as [pb|]; cbn [previous_segment] in Epv.
      - destruct (Hprev _ eq_refl) as (f & l & _ & Hl & _ & Hz). rewrite Hl in Epv. injection Epv as <-. rewrite Hz. apply norm3_vzero.
      - injection Epv as <-. apply norm3_vzero. }
    destruct (move_maker2 A B d pv 0) as [[segs ty]|] eqn:Em; cbn [bind] in E; [|discriminate]. injection E as <-.
    destruct (planned_plan A B pv 0 d segs ty Ep Ha Hs ltac:(lra) Ed Em) as (eo & T & Hdir & HL & _ & [Hne Hm _ _ _ _]).
    rewrite Hv0, (Rmin_left 0) in Hm by lra.
    assert (HaL : 0 < k_acc B * move_length A B) by (apply Rmult_lt_0_compat; assumption).
    rewrite entry_speed_full, exit_speed_full in Hm by nra.
    destruct (motion_first _ _ _ _ _ _ _ _ _ _ Hm Hne) as (f & Hf & _ & _ & Vf).
    destruct (motion_last _ _ _ _ _ _ _ _ _ _ Hm Hne) as (l & Hl & _ & _ & Vl).
    exists f, l. cbn [b_segs]. rewrite Hf, Hl, Vf, Vl. replace (vscale 0 d) with vzero by vec. repeat split.
Qed.
Lemma gen_rest : forall states A done bl, Forall (fun s => 0 < k_speed s) states -> Forall at_rest done ->
  gen_blocks FullStop (Some A) states done = Ok bl -> Forall at_rest bl.
Proof.
  induction states as [|s rest IH]; intros A done bl Hv Hd H; cbn [gen_blocks] in H.
  - injection H as <-. apply Forall_rev. exact Hd.
  - inversion Hv as [|? ? Hs Hv']; subst.
    destruct (planner_block FullStop (Some A) s rest (hd_error done)) as [ob|] eqn:E; cbn [bind] in H; [|discriminate].
    apply (IH _ _ _ Hv') in H; [exact H|]. unfold add_block. destruct ob as [b|]; [|exact Hd]. destruct (b_segs b) eqn:Eb; [exact Hd|]. constructor; [|exact Hd].
    refine (planner_rest _ _ _ _ _ Hs _ E _ eq_refl). intros b' Hb'. destruct done as [|y done]; [discriminate|]. injection Hb' as <-. inversion Hd; assumption.
Qed.
Lemma gen_until_rest rest : forall pre A done A' done', Forall (fun s => 0 < k_speed s) pre -> Forall at_rest done ->
  gen_until FullStop (Some A) pre rest done = Ok (A', done') -> Forall at_rest done' /\ exists A1, A' = Some A1.
Proof.
  induction pre as [|s pre IH]; intros A done A' done' Hv Hd H; cbn [gen_until] in H.
  - injection H as <- <-. eauto.
  - inversion Hv as [|? ? Hs Hv']; subst.
    destruct (planner_block FullStop (Some A) s (pre ++ rest) (hd_error done)) as [ob|] eqn:E; cbn [bind] in H; [|discriminate].
    apply (IH _ _ _ _ Hv') in H; [exact H|]. unfold add_block. destruct ob as [b|]; [|exact Hd]. destruct (b_segs b) eqn:Eb; [exact Hd|]. constructor; [|exact Hd].
    refine (planner_rest _ _ _ _ _ Hs _ E _ eq_refl). intros b' Hb'. destruct done as [|y done]; [discriminate|]. injection Hb' as <-. inversion Hd; assumption.
Qed.
Lemma shift_rest dt b : at_rest b -> at_rest (timeshift dt b).
Proof.
  intros (f & l & Hf & Hl & V1 & V2). exists (move_segment_time dt f), (move_segment_time dt l). cbn [timeshift set_segs b_segs].
  split; [destruct (b_segs b); [discriminate|]; injection Hf as ->; reflexivity|].
  split; [unfold last_seg in *; rewrite <- map_rev; destruct (rev (b_segs b)); [discriminate|]; injection Hl as ->; reflexivity|].
  split; assumption.
Qed.
Lemma self_correction_rest prevs b n prevs' b' n' w : at_rest b -> at_rest n ->
  self_correction prevs b n = Ok (prevs', b', n', w) -> prevs' = prevs /\ b' = b /\ at_rest n'.
Proof.
  intros (f & l & Hf & Hl & V1 & V2) Hn H. pose proof Hn as (f' & l' & Hf' & Hl' & V1' & V2').
  assert (Hflag : flag_correct l f' = false).
  { unfold flag_correct. rewrite V2, V1', norm3_vzero. unfold Reqb. destruct (Req_EM_T 0 0); [reflexivity|lra]. }
  destruct prevs; cbn [self_correction] in H; rewrite Hl, Hf' in H; cbn [bind] in H; rewrite Hflag in H; cbn [bind] in H; rewrite ?Hl in H; cbn [bind] in H;
   match type of H with bind ?c _ = _ => destruct c as [m1|]; cbn [bind] in H; [|discriminate] end; (destruct (check_continuity l m1); cbn [bind] in H; [|discriminate]);
   injection H as <- <- <- _; auto using shift_rest.
Qed.
Lemma correct_rest : forall rest prevs b bl w, at_rest b -> Forall at_rest rest ->
  correct_from prevs b rest = Ok (bl, w) -> exists t, bl = rev (b :: prevs) ++ t.
Proof.
  induction rest as [|n rest IH]; intros prevs b bl w Hb Hr H; cbn [correct_from] in H.
  - injection H as <- _. exists []. rewrite app_nil_r. reflexivity.
  - inversion Hr as [|? ? Hn Hr']; subst.
    destruct (self_correction prevs b n) as [[[[x1 x2] x3] x4]|] eqn:E; cbn [bind] in H; [|discriminate].
    destruct (self_correction_rest _ _ _ _ _ _ _ Hb Hn E) as (-> & -> & Hn').
    destruct (correct_from (b :: prevs) x3 rest) as [[bl' w']|] eqn:E2; cbn [bind] in H; [|discriminate]. injection H as <- _.
    destruct (IH _ _ _ _ Hn' Hr' E2) as (t & ->). exists (x3 :: t). cbn [rev]. rewrite <- !app_assoc. reflexivity.
Qed.
Lemma correct_all_rest : forall rest prevs b bl w, Forall at_rest prevs -> at_rest b -> Forall at_rest rest ->
  correct_from prevs b rest = Ok (bl, w) -> Forall at_rest bl.
Proof.
  induction rest as [|n rest IH]; intros prevs b bl w Hp Hb Hr H; cbn [correct_from] in H.
  - assert (E : bl = rev (b :: prevs)) by congruence. rewrite E. apply Forall_rev. constructor; assumption.
  - inversion Hr as [|? ? Hn Hr']; subst.
    destruct (self_correction prevs b n) as [[[[x1 x2] x3] x4]|] eqn:E; cbn [bind] in H; [|discriminate].
    destruct (self_correction_rest _ _ _ _ _ _ _ Hb Hn E) as (-> & -> & Hn').
    destruct (correct_from (b :: prevs) x3 rest) as [[bl' w']|] eqn:E2; cbn [bind] in H; [|discriminate]. injection H as <- _.
    apply (IH _ _ _ _ (Forall_cons _ Hb Hp) Hn' Hr' E2).
Qed.
Lemma full_stop_rest s0 ks bl w : valid_program s0 ks -> simulate FullStop (s0 :: ks) = Ok (bl, w) -> Forall at_rest bl.
Proof.
  intros (Hvs & Hp0 & _) S1. inversion Hvs as [|? ? _ Hvs']; subst.
  assert (Hsp : Forall (fun s => 0 < k_speed s) ks) by (eapply Forall_impl; [|exact Hvs']; intros k Hk; exact (proj1 Hk)).
  unfold simulate, generate_planner_blocks in S1. cbn [gen_blocks] in S1.
  destruct (planner_block FullStop None s0 ks (hd_error [])) as [o1|] eqn:E1; cbn [bind] in S1; [|discriminate]. rewrite (first_block _ _ _ _ Hp0 E1) in S1. cbn [add_block] in S1.
  destruct (gen_blocks FullStop (Some s0) ks []) as [B|] eqn:G; cbn [bind] in S1; [|discriminate].
  pose proof (gen_rest _ _ _ _ Hsp (Forall_nil _) G) as HB. destruct B as [|b B]; [injection S1 as <- _; constructor|].
  cbn [trajectory_self_correct] in S1. inversion HB; subst. eapply correct_all_rest; [apply Forall_nil | eassumption..].
Qed.
Lemma correct_until_rest : forall l prevs b P D, at_rest b -> Forall at_rest l -> correct_until prevs b l = Ok (P, D) -> at_rest D.
Proof.
  induction l as [|n l IH]; intros prevs b P D Hb Hl H; cbn [correct_until] in H; [congruence|].
  inversion Hl as [|? ? Hn Hl']; subst. destruct (self_correction prevs b n) as [[[[x1 x2] x3] x4]|] eqn:E; cbn [bind] in H; [|discriminate].
  destruct (self_correction_rest _ _ _ _ _ _ _ Hb Hn E) as (-> & -> & Hn'). exact (IH _ _ _ _ Hn' Hl' H).
Qed.
Lemma correct_done : forall l prevs b bl w, correct_from prevs b l = Ok (bl, w) -> exists P D, correct_until prevs b l = Ok (P, D) /\ bl = rev (D :: P).
Proof.
  intros l prevs b bl w H. rewrite <- (app_nil_r l) in H. destruct (correct_from_app _ _ _ _ _ _ H) as (P & D & w' & E & F).
  exists P, D. split; [exact E|]. cbn [correct_from] in F. congruence.
Qed.
Lemma full_stop_prefix s0 ks more bl w bl' w' : valid_program s0 (ks ++ more) ->
  simulate FullStop (s0 :: ks) = Ok (bl, w) -> simulate FullStop (s0 :: ks ++ more) = Ok (bl', w') ->
  exists t, bl' = bl ++ t.
Proof.
  intros (Hvs & Hp0 & _) S1 S2. inversion Hvs as [|? ? _ Hvs']; subst.
  assert (Hsp : Forall (fun s => 0 < k_speed s) (ks ++ more)) by (eapply Forall_impl; [|exact Hvs']; intros k Hk; exact (proj1 Hk)).
  apply Forall_app in Hsp as [Hsp1 Hsp2].
  unfold simulate, generate_planner_blocks in S1, S2. change (s0 :: ks) with ([s0] ++ ks) in S1. change (s0 :: ks ++ more) with ([s0] ++ ks ++ more) in S2.
  cbn [app gen_blocks] in S1, S2.
  destruct (planner_block FullStop None s0 ks (hd_error [])) as [o1|] eqn:E1; cbn [bind] in S1; [|discriminate]. rewrite (first_block _ _ _ _ Hp0 E1) in S1. cbn [add_block] in S1.
  destruct (planner_block FullStop None s0 (ks ++ more) (hd_error [])) as [o2|] eqn:E2; cbn [bind] in S2; [|discriminate]. rewrite (first_block _ _ _ _ Hp0 E2) in S2. cbn [add_block] in S2.
  rewrite <- (app_nil_r ks), gen_blocks_app in S1. rewrite gen_blocks_app in S2.
  assert (Hag : forall pre A done r1 r2, gen_until FullStop A pre r1 done = gen_until FullStop A pre r2 done).
  { induction pre as [|s pre IH]; intros A done r1 r2; [reflexivity|]. cbn [gen_until].
    assert (Ep : planner_block FullStop A s (pre ++ r1) (hd_error done) = planner_block FullStop A s (pre ++ r2) (hd_error done)) by reflexivity.
    rewrite Ep. match goal with |- bind ?c _ = _ => destruct c end; [|reflexivity]. cbn [bind]. apply IH. }
  rewrite (Hag ks (Some s0) [] more []) in S2.
  destruct (gen_until FullStop (Some s0) ks [] []) as [[A' done]|] eqn:G; cbn [bind] in S1, S2; [|discriminate].
  destruct (gen_until_rest _ _ _ _ _ _ Hsp1 (Forall_nil _) G) as (Hdone & A1 & ->). cbn [gen_blocks bind] in S1.
  destruct (gen_blocks FullStop (Some A1) more done) as [B2|] eqn:G2; cbn [bind] in S2; [|discriminate].
  pose proof (gen_rest _ _ _ _ Hsp2 Hdone G2) as HB2. destruct (gen_extends _ _ _ _ _ G2) as (T & ->).
  apply Forall_app in HB2 as [HC HT].
  destruct (rev done) as [|b0 C]; [injection S1 as <- _; exists bl'; reflexivity|].
  cbn [app trajectory_self_correct] in S1, S2. inversion HC as [|? ? Hb0 HC']; subst.
  destruct (correct_done _ _ _ _ _ S1) as (P & D & U1 & ->). destruct (correct_from_app _ _ _ _ _ _ S2) as (P' & D' & w2 & U2 & F2).
  rewrite U1 in U2. injection U2 as <- <-. exact (correct_rest _ _ _ _ _ (correct_until_rest _ _ _ _ _ Hb0 HC' U1) HT F2).
Qed.
