(** C110: programs as text, read and simulated with doubles on a machine that
    stops after every line.  Vocabulary: SpecSlicer.v, SpecStopText.v. *)
From Coq Require Import Reals Lra Lia.
From Verif Require Import Py Vec StateGen SpecMachine SpecRead SpecSlicer Junction Planner Interp SpecKin SpecTime SpecQuery SpecStopText Rounding SpecRounding Generic SpecGeneric SpecDrift SpecStop RealFacts
  RoundingProofs GenericProofs FloatMoveProofs FloatDriftProofs FloatPlanProofs FloatStopProofs FloatTextProofs TextTimeProofs SlicerProofs InterpProofs FirmwareProofs TimeProofs
  PropertiesFloat PropertiesDrift PropertiesStop PropertiesPlan PropertiesTime PlannerProofs DriveProofs PropertiesSlicer.
Open Scope R_scope.
Local Arguments S_ : simpl never.

Definition uu_small : R := 225 / 100000000000000.
Lemma binary64_small x : Rabs x <= 20000 -> Rabs (binary64 x - x) <= uu_small.
Proof.
  destruct binary64_rounds as (_ & E0 & Er).
  assert (U : powerRZ 2 (-53) = uu). { unfold uu. change (powerRZ 2 (-53)) with (/ (2 ^ Pos.to_nat 53)). rewrite pow_IZR. f_equal. }
  rewrite U in Er. intros X. pose proof (eta_small _ tiny_small eta_tiny) as Es. eapply Rle_trans; [apply Er|].
  assert (uu * Rabs x <= uu * 20000) by (apply Rmult_le_compat_l; [unfold uu|]; lra). unfold uu_small, uu in *. lra.
Qed.
(** Read from its text with doubles and simulated with doubles, such a program
    succeeds without a warning, and the print time is that of its exact numbers,
    up to three nanoseconds per line and a trillionth of it. *)
Theorem C110_text lines cs su : let h := start_head binary64 su in
  Forall2 spells lines cs -> Forall sensible cs -> tidy h cs -> doubles su ->
  tame_program (request h None) (requests h cs) -> INR (length lines) <= 900000000 -> most_sum (request h None) (requests h cs) <= 400000 ->
  exists bl t, grun D64 FullStop lines su = Ok (bl, false) /\ over_at bl t /\
    Rabs (t - stop_sum (request h None) (requests h cs)) <= INR (length lines) * (3 / 1000000000) + / 1000000000000 * stop_sum (request h None) (requests h cs).
Proof.
  intros h Hl Hs Ht Hd (F & Mv & St) N T. destruct binary64_rounds as (_ & E0 & Er).
  assert (U : powerRZ 2 (-53) = uu). { unfold uu. change (powerRZ 2 (-53)) with (/ (2 ^ Pos.to_nat 53)). rewrite pow_IZR. f_equal. }
  rewrite U in Er.
  assert (r60 : binary64 60 = 60) by (apply binary64_fix; exists 60%Z, 0%Z; split; [reflexivity|split; [lia|cbn; lra]]).
  assert (r1000 : binary64 1000 = 1000) by (apply binary64_fix; exists 1000%Z, 0%Z; split; [reflexivity|split; [lia|cbn; lra]]).
  assert (Hd' : Forall (fun x => binary64 x = x) [s_X _ su; s_Y _ su; s_Z _ su; s_E _ su; s_p_vel _ su; s_p_acc _ su; s_jerk _ su]).
  { eapply Forall_impl; [|exact Hd]. intros x X. apply binary64_fix, X. }
  assert (NL : length cs = length lines) by (clear - Hl; induction Hl; cbn [length]; congruence).
  assert (NR : length (requests h cs) = length lines) by (rewrite <- NL; clear; generalize h; induction cs; intros; cbn [requests length]; auto).
  assert (Hb : Forall (fun s => Rabs (ve (k_pos s)) <= 9000) (request h None :: requests h cs)) by (eapply Forall_impl; [|exact F]; intros s X; apply X).
  assert (Nd : INR (length cs) * (3 * uu_small) <= / 100) by (rewrite NL; unfold uu_small; lra).
  destruct (text_reads binary64 binary64_0 r60 r1000 binary64_idem uu_small ltac:(unfold uu_small; lra) binary64_small lines cs su Hl Hs Ht Hb Nd Hd') as (t0 & ts & E & R0 & Re & Rs). fold h in R0, Re, Rs.
  pose proof (eta_small _ tiny_small eta_tiny) as Es.
  assert (N0 : e_near binary64 1 (request h None) t0) by (unfold e_near; rewrite Re, Rminus_eq_0, Rabs_R0; lra).
  destruct (program_read binary64 _ E0 Er binary64_pos Es uu_small ltac:(unfold uu_small; lra) (INR (length cs) * (3 * uu_small) + 2 * uu_small) (requests h cs) ltac:(unfold uu_small in *; lra) (request h None) t0 ts False F St (waits_calm cs Hs h None) (or_intror Mv) R0 N0 Rs) as (NT & OF & OS & L & S0 & S1).
  rewrite NR in NT, L, S1.
  destruct (stops_doubles t0 ts) as (bl & t & E1 & Et & B).
  - split; [exact OF|]. split; [|exact OS]. destruct R0 as (_ & _ & _ & _ & W). exact W.
  - cbn [length]. rewrite NT, S_INR. lra.
  - lra.
  - exists bl, t. split; [|split; [exact Et|]].
    + unfold grun. destruct (generate_states (knum D64) lines su) as [sts|]; cbn [bind] in *; [|discriminate E]. rewrite E. cbn [bind]. exact E1.
    + rewrite NT in B. apply abs_inv in B, S1. apply Rabs_le. unfold step_off in *. assert (0 <= INR (length lines)) by apply pos_INR. lra.
Qed.
(** Read and simulated with exact numbers, it takes the same time, up to as much. *)
Definition idr (x : R) : R := x.
Lemma reads_same s (t : gkstate (Bk idr)) : reads idr s t -> e_near idr 0 s t -> same_command s (tok t).
Proof.
  intros ((X & Y & Z) & F & Ac & J & W) E. unfold e_near in E. apply abs_inv in E. unfold idr in *. unfold same_command, tok.
  destruct s as [[x y z e] v a j w l], t as [[x' y' z' e'] v' a' j' w' l']. cbn in *. unfold feed_like in F.
  unfold to4. cbn [gx gy gz ge]. split; [f_equal; (congruence || lra)|]. split; [destruct F as [F|F]; rewrite F; field|]. split; [congruence|]. split; [congruence|].
  destruct w as [p|]; [|congruence]. destruct W as (q & -> & [->| ->]); f_equal; field.
Qed.
Lemma reads_all states : forall A (A' : gkstate (Bk idr)) ts, reads_on idr 0 0 A A' states ts -> Forall2 same_command states (map tok ts).
Proof.
  induction states as [|B states IH]; intros A A' [|B' ts] H; cbn [reads_on] in H; try contradiction; cbn [map]; constructor.
  - destruct H as (H1 & H2 & _). apply reads_same; assumption.
  - destruct H as (_ & _ & _ & _ & H). exact (IH _ _ _ H).
Qed.
Lemma stop_none A B : k_pause B = None -> 0 < k_speed B -> 0 < k_acc B -> k_pos B = k_pos A -> stop_time A B = 0.
Proof.
  intros P V Ac E. unfold stop_time. rewrite P. assert (L : move_length A B = 0).
  { unfold move_length. rewrite E. destruct (k_pos A) as [x y z e].
    unfold vsub, norm3. cbn. rewrite !Rminus_eq_0, ?Rabs_R0, ?Rmult_0_l, ?Rplus_0_l, ?sqrt_0. destruct (Req_EM_T 0 0); try reflexivity. }
  rewrite L. destruct (Rlt_dec _ 0) as [C|_]; [|unfold Rdiv; rewrite Rmult_0_l, sqrt_0; ring]. exfalso.
  assert (0 <= k_speed B * k_speed B / k_acc B); [|lra]. apply Rmult_le_pos; [apply Rle_0_sqr|left; apply Rinv_0_lt_compat; lra].
Qed.
Lemma stops_are states : forall A items, Forall tame_state states -> plan_items A states items -> Rsum item_stop items = stop_sum A states.
Proof.
  induction states as [|B r IH]; intros A items F Hi.
  - inversion Hi; subst. reflexivity.
  - inversion F as [|? ? FB F']; subst. cbn [stop_sum]. inversion Hi as [|? ? ? ? E1 E2 H|? ? ? ? E1 H]; subst.
    + rewrite (IH B _ F' H), (stop_none A B); [ring|assumption|destruct FB; lra|destruct FB as (_ & ? & _); lra|assumption].
    + unfold Rsum in *. cbn [fold_right item_stop]. rewrite (IH B _ F' H). reflexivity.
Qed.
Theorem C110_exact lines cs su su' : let h := start_head binary64 su in
  Forall2 spells lines cs -> Forall sensible cs -> tidy h cs -> doubles su -> same_numbers su su' ->
  tame_program (request h None) (requests h cs) -> INR (length lines) <= 900000000 -> most_sum (request h None) (requests h cs) <= 400000 ->
  exists bl bl' t, grun D64 FullStop lines su = Ok (bl, false) /\ over_at bl t /\
    (sts <- generate_states Rops lines su' ;; ks <- to_kstates sts ;; simulate FullStop ks) = Ok (bl', false) /\
    forall T, print_time bl' T -> Rabs (t - T) <= INR (length lines) * (3 / 1000000000) + / 1000000000000 * T.
Proof.
  intros h Hl Hs Ht Hd Hsame Hp N T. destruct (C110_text lines cs su Hl Hs Ht Hd Hp N T) as (bl & t & E & Et & B). fold h in B.
  assert (Hh : start_head idr su' = h).
  { unfold h, start_head. destruct Hsame as (-> & -> & -> & -> & -> & -> & ->). reflexivity. }
  destruct Hp as (F & Mv & St).
  destruct (text_reads idr eq_refl eq_refl eq_refl (fun x => eq_refl) 0 ltac:(lra) ltac:(intros x _; unfold idr; rewrite Rminus_eq_0, Rabs_R0; lra) lines cs su' Hl Hs) as (t0 & ts & Er & R0 & Re & Rs).
  { rewrite Hh. exact Ht. }
  { rewrite Hh. eapply Forall_impl; [|exact F]. intros s X. apply X. }
  { rewrite Rmult_0_r, Rmult_0_r. lra. }
  { repeat constructor. }
  rewrite Hh in *. replace (INR (length cs) * (3 * 0) + 2 * 0) with 0 in Rs by ring.
  assert (Sm0 : same_command (request h None) (tok t0)). { apply reads_same; [exact R0|]. unfold e_near. rewrite Re, Rminus_eq_0, Rabs_R0. lra. }
  pose proof (reads_all _ _ _ _ Rs) as Sm.
  assert (V : valid_program (request h None) (requests h cs)).
  { split; [|split; [reflexivity|exact Mv]]. clear - F Hs. assert (W : Forall (fun s => forall p, k_pause s = Some p -> 0 <= p) (request h None :: requests h cs)).
    { constructor; [discriminate|]. clear F. revert Hs. generalize h. induction cs as [|c cs' IH]; intros g Hs; [constructor|]. inversion Hs; subst. cbn [requests]. constructor; [|auto].
      cbn [k_pause request]. intros p. apply (rest_ok c). assumption. }
    rewrite Forall_forall in *. intros s I. destruct (F s I) as (? & ? & ? & _). split; [lra|]. split; [lra|]. split; [assumption|]. exact (W s I). }
  pose proof (valid_program_same _ _ _ _ Sm0 Sm V) as V'. destruct (C26_simulation_succeeds FullStop _ _ V') as [bl' E'].
  destruct (plan_items_total (requests h cs) (request h None)) as (items & Hi). destruct (items_same _ _ _ _ _ Sm0 Sm Hi) as (items' & Hi' & Hsi).
  exists bl, bl', t. split; [exact E|]. split; [exact Et|]. split.
  - change (knum (Bk idr)) with Rops in Er. change (Bk idr) with Rk in Er. destruct (generate_states Rops lines su') as [sts|]; cbn [bind] in Er |- *; [|discriminate Er].
    rewrite <- to_kstates_R, Er. cbn [rmap bind]. exact E'.
  - intros T' HT. rewrite (C91_full_stop _ _ _ _ _ _ V' E' Hi' HT), <- (proj1 (stop_same _ _ Hsi)), (stops_are _ _ _ (Forall_inv_tail F) Hi). exact B.
Qed.

(** * A case: the part of C92 on the default machine *)
Definition default_doubles : setup_values (knum D64) := Build_setup_values (knum D64) 35 200 10 180 180 30 33 0 0 0 0 None.
Definition default_exact : setup_values Rops := Build_setup_values Rops 35 200 10 180 180 30 33 0 0 0 0 None.
Lemma part_requests : requests (start_head binary64 default_doubles) part =
  let s p v a w := KState p v a 10 w None in
  let p1 := V4 10 (55 / 10) 0 0 in let p2 := V4 20 (55 / 10) 0 (125 / 100) in
  [s at_home 35 200 None; s at_home 35 200 None; s at_home 35 200 None; s at_home 35 200 None; s at_home 35 200 None; s at_home 35 200 None;
   s p1 10 200 None; s p1 10 200 None; s p2 10 200 None; s p2 10 200 (Some (1 / 2)); s p2 10 800 None; s (V4 (-3) (55 / 10) 0 (125 / 100)) 10 800 None].
Proof.
  unfold at_home, default_doubles. compute_reals.
  repeat match goal with
         | |- cons _ _ = cons _ _ => apply f_equal2
         | |- KState _ _ _ _ _ _ = KState _ _ _ _ _ _ => f_equal
         | |- V4 _ _ _ _ = V4 _ _ _ _ => f_equal
         | |- Some _ = Some _ => f_equal
         end; try reflexivity; first [lra | field].
Qed.
Lemma gap_is A B d2 lo hi : (vx (k_pos B) - vx (k_pos A)) * (vx (k_pos B) - vx (k_pos A)) + (vy (k_pos B) - vy (k_pos A)) * (vy (k_pos B) - vy (k_pos A)) +
    (vz (k_pos B) - vz (k_pos A)) * (vz (k_pos B) - vz (k_pos A)) = d2 -> 0 <= lo -> lo * lo <= d2 -> 0 <= hi -> d2 <= hi * hi -> lo <= gap A B <= hi.
Proof.
  intros E L1 L2 H1 H2. unfold gap, norm3, vsub. cbn [vx vy vz].
  replace (sqrt _) with (sqrt d2) by (rewrite <- E; f_equal; ring). split; [apply le_sqrt|apply sqrt_le_]; lra.
Qed.
Example C110_case : let h := start_head binary64 default_doubles in
  Forall2 spells part_lines part /\ Forall sensible part /\ tidy h part /\ doubles default_doubles /\ same_numbers default_doubles default_exact /\
  tame_program (request h None) (requests h part) /\ most_sum (request h None) (requests h part) <= 400000.
Proof.
  intros h. split; [exact part_spelled|]. split; [exact part_sensible|].
  assert (E0 : request h None = KState at_home 35 200 10 None None) by reflexivity.
  split.
  { unfold part. cbn [tidy tidy_code]. do 5 (split; [first [exact I|reflexivity|intros _; reflexivity]|]). split; [repeat split; reflexivity|].
    split; [intros _; reflexivity|]. split; [exact I|]. split.
    - intros E. exfalso. apply (f_equal vx) in E. revert E. compute_reals. lra.
    - do 2 (split; [exact I|]). split; [intros _; reflexivity|exact I]. }
  split.
  { unfold doubles, default_doubles. cbn [s_X s_Y s_Z s_E s_p_vel s_p_acc s_jerk].
    repeat (apply Forall_cons || apply Forall_nil);
      match goal with |- double (IZR ?z) => exists z, 0%Z; split; [reflexivity|split; [lia|cbn; lra]] end. }
  split; [repeat split|].
  unfold h in *. rewrite part_requests, E0. cbv zeta. unfold at_home.
  set (p0 := KState (V4 0 0 0 0) 35 200 10 None None). set (p1 := KState (V4 10 (55 / 10) 0 0) 10 200 10 None None). set (p2 := KState (V4 20 (55 / 10) 0 (125 / 100)) 10 200 10 None None).
  set (p3 := KState (V4 20 (55 / 10) 0 (125 / 100)) 10 200 10 (Some (1 / 2)) None). set (p4 := KState (V4 20 (55 / 10) 0 (125 / 100)) 10 800 10 None None).
  set (p5 := KState (V4 (-3) (55 / 10) 0 (125 / 100)) 10 800 10 None None).
  assert (G1 : 11 <= gap p0 p1 <= 12) by (apply (gap_is _ _ (100 + 55 / 10 * (55 / 10))); cbn; lra).
  assert (G2 : 10 <= gap p1 p2 <= 10) by (apply (gap_is _ _ 100); cbn; lra).
  assert (G5 : 23 <= gap p4 p5 <= 23) by (apply (gap_is _ _ 529); cbn; lra).
  assert (G0 : gap p0 p0 = 0) by (assert (0 <= gap p0 p0 <= 0) by (apply (gap_is _ _ 0); cbn; lra); lra).
  assert (G11 : gap p1 p1 = 0) by (assert (0 <= gap p1 p1 <= 0) by (apply (gap_is _ _ 0); cbn; lra); lra).
  assert (G23 : gap p2 p3 = 0) by (assert (0 <= gap p2 p3 <= 0) by (apply (gap_is _ _ 0); cbn; lra); lra).
  assert (G34 : gap p3 p4 = 0) by (assert (0 <= gap p3 p4 <= 0) by (apply (gap_is _ _ 0); cbn; lra); lra).
  assert (T1 : turn p0 p1 = 0) by (unfold turn; cbn; rewrite Rminus_eq_0, Rabs_R0; reflexivity).
  assert (T2 : turn p1 p2 = 125 / 100) by (unfold turn; cbn; rewrite Rabs_right; lra).
  assert (T5 : turn p4 p5 = 0) by (unfold turn; cbn; rewrite Rminus_eq_0, Rabs_R0; reflexivity).
  assert (T0 : turn p0 p0 = 0) by (unfold turn; cbn; rewrite Rminus_eq_0, Rabs_R0; reflexivity).
  assert (T11 : turn p1 p1 = 0) by (unfold turn; cbn; rewrite Rminus_eq_0, Rabs_R0; reflexivity).
  assert (T23 : turn p2 p3 = 0) by (unfold turn; cbn; rewrite Rminus_eq_0, Rabs_R0; reflexivity).
  assert (T34 : turn p3 p4 = 0) by (unfold turn; cbn; rewrite Rminus_eq_0, Rabs_R0; reflexivity).
  split; [split; [|split]|].
  - repeat (apply Forall_cons || apply Forall_nil); unfold tame_state; cbn [p0 p1 p2 p3 p4 p5 k_speed k_acc k_jerk k_pos vx vy vz ve];
      (do 3 (split; [lra|]); do 3 (split; [apply Rabs_le; lra|]); apply Rabs_le; lra).
  - cbn [moves_first p0 p1 p2 p3 p4 p5 k_pause k_pos]. do 6 (split; [reflexivity|right]). split; [reflexivity|left]. intros E. injection E. lra.
  - cbn [tame_steps]. do 6 (split; [left; reflexivity|]).
    split; [right; split; [reflexivity|right; rewrite T1; lra]|]. split; [left; reflexivity|]. split; [right; split; [reflexivity|right; rewrite T2; lra]|].
    do 2 (split; [left; reflexivity|]). split; [right; split; [reflexivity|right; rewrite T5; lra]|exact I].
  - cbn [most_sum]. rewrite T0, T1, T2, T5, T11, T23, T34, G0, G11, G23, G34. cbn [p0 p1 p2 p3 p4 p5 k_speed k_acc k_pause]. fold p0 p1 p2 p3 p4 p5. lra.
Qed.

Print Assumptions C110_text.
Print Assumptions C110_exact.
