(** Lemmas about the plots and the progress bar. *)
From Coq Require Import Reals Lra Lia ZArith.
From Verif Require Import Py PyFloat Vec Segment Junction Planner Query SpecKin SpecQuery Setup Interp Tools Plot Cli SpecPlot RealFacts MoveProofs SegProofs CorrectProofs PlanFacts StrFacts.
Open Scope R_scope.

(** * 3D plot *)
Lemma extruding_spec s : seg_is_extruding s = true <-> extrudes s.
Proof.
  unfold seg_is_extruding, extrudes. destruct (Rltb_spec (ve (pos_begin s)) (ve (pos_end s))); split; intros H; try lra; try discriminate; reflexivity.
Qed.
Lemma extruding_false s : seg_is_extruding s = false <-> ~ extrudes s.
Proof. rewrite <- extruding_spec. destruct (seg_is_extruding s); split; intros H; try discriminate; try reflexivity; exfalso; apply H; reflexivity. Qed.

Lemma runs_gap P s segs rs : ~ P s -> runs P segs rs -> runs P (s :: segs) rs.
Proof.
  intros Hs H. destruct H.
  - constructor. constructor; assumption.
  - change (s :: gap ++ run) with ((s :: gap) ++ run). constructor; try assumption. constructor; assumption.
  - change (s :: gap ++ run ++ s0 :: rest) with ((s :: gap) ++ run ++ s0 :: rest). constructor; try assumption. constructor; assumption.
Qed.

(** The vertices collected for a run. *)
Definition line_of (run : list segment) : list vertex :=
  match run with [] => [] | f :: _ => vertex_begin f :: map vertex_end run end.
Lemma line_along run : run <> [] -> along run (line_of run).
Proof. destruct run as [|f r]; [congruence|]. intros _. exists f, r. split; reflexivity. Qed.
Lemma line_of_nonempty run : run <> [] -> line_of run <> [].
Proof. destruct run; [congruence|]. discriminate. Qed.
Lemma line_snoc run s : run <> [] -> line_of run ++ [vertex_end s] = line_of (run ++ [s]).
Proof. destruct run as [|f r]; [congruence|]. intros _. cbn [line_of app]. rewrite !map_cons, map_app. reflexivity. Qed.
Lemma match_nonempty {X Y} (l : list X) (a b : Y) : l <> [] -> match l with [] => a | _ :: _ => b end = b.
Proof. destruct l; [congruence|reflexivity]. Qed.

Lemma loop_cons eo s segs arr : plot_3d_loop eo (s :: segs) arr =
  let arr := plot_3d_append eo arr s in
  let nonempty := match arr with [] => false | _ => true end in
  let is_last := match segs with [] => true | _ => false end in
  if (eo && (nonempty && negb (seg_is_extruding s))) || (nonempty && is_last)
  then arr :: plot_3d_loop eo segs [] else plot_3d_loop eo segs arr.
Proof. reflexivity. Qed.
Lemma loop_runs segs :
  (exists rs, runs extrudes segs rs /\ Forall2 along rs (plot_3d_loop true segs [])) /\
  (forall run, segs <> [] -> run <> [] -> Forall extrudes run ->
     exists rs, runs extrudes (run ++ segs) rs /\ Forall2 along rs (plot_3d_loop true segs (line_of run))).
Proof.
  induction segs as [|s segs [IH1 IH2]].
  - split; [|congruence]. exists []. split; [apply runs_none|]; constructor.
  - assert (Hbuf : forall run, run <> [] -> Forall extrudes run ->
      exists rs, runs extrudes (run ++ s :: segs) rs /\ Forall2 along rs (plot_3d_loop true (s :: segs) (line_of run))).
    { intros run Hr Hrun. cbn [plot_3d_loop]. unfold plot_3d_append. cbn [negb orb].
      destruct (seg_is_extruding s) eqn:E.
      - rewrite (match_nonempty (line_of run)) by (apply line_of_nonempty; assumption).
        rewrite line_snoc by assumption.
        assert (Hn : run ++ [s] <> []) by (destruct run; discriminate).
        assert (Hall : Forall extrudes (run ++ [s])) by (apply Forall_app; split; [assumption | constructor; [apply extruding_spec; assumption | constructor]]).
        rewrite (match_nonempty (line_of (run ++ [s]))) by (apply line_of_nonempty; assumption).
        cbn [negb andb orb]. destruct segs as [|s' segs].
        + exists [run ++ [s]]. split.
          * apply (runs_last extrudes [] (run ++ [s])); [constructor | assumption | assumption].
          * constructor; [apply line_along; assumption | constructor].
        + destruct (IH2 (run ++ [s])) as (rs & R1 & R2); [discriminate | assumption | assumption |].
          exists rs. split; [|exact R2]. rewrite <- app_assoc in R1. exact R1.
      - rewrite (match_nonempty (line_of run)) by (apply line_of_nonempty; assumption).
        cbn [negb andb orb]. destruct IH1 as (rs & R1 & R2).
        exists (run :: rs). split.
        + apply (runs_more extrudes [] run s segs rs); try assumption; try constructor.
          * apply extruding_false; assumption.
          * apply runs_gap; [apply extruding_false; assumption | assumption].
        + constructor; [apply line_along; assumption | assumption]. }
    split; [|intros run _; apply Hbuf].
    destruct (seg_is_extruding s) eqn:E.
    + destruct segs as [|s' segs].
      * cbn [plot_3d_loop]. unfold plot_3d_append. rewrite E. cbn.
        exists [[s]]. split.
        -- apply (runs_last extrudes [] [s]); [constructor | constructor; [apply extruding_spec; assumption | constructor] | discriminate].
        -- constructor; [|constructor]. exists s, []. split; reflexivity.
      * destruct (IH2 [s]) as (rs & R1 & R2); [discriminate | discriminate | constructor; [apply extruding_spec; assumption | constructor] |].
        exists rs. split; [exact R1|].
        rewrite loop_cons. unfold plot_3d_append. rewrite E. cbn [negb orb andb app]. exact R2.
    + destruct IH1 as (rs & R1 & R2). exists rs. split.
      * apply runs_gap; [apply extruding_false; assumption | assumption].
      * cbn [plot_3d_loop]. unfold plot_3d_append. rewrite E. cbn. exact R2.
Qed.

(** The runs are determined by the path. *)
Lemma gap_split P gap1 gap2 s1 s2 (r1 r2 : list segment) :
  Forall (fun s => ~ P s) gap1 -> Forall (fun s => ~ P s) gap2 -> P s1 -> P s2 ->
  gap1 ++ s1 :: r1 = gap2 ++ s2 :: r2 -> gap1 = gap2 /\ s1 = s2 /\ r1 = r2.
Proof.
  revert gap2. induction gap1 as [|g gap1 IH]; intros gap2 H1 H2 P1 P2 E.
  - destruct gap2 as [|h gap2]; cbn in E; injection E as E1 E2; [auto|].
    subst h. inversion H2; subst. contradiction.
  - destruct gap2 as [|h gap2]; cbn in E; injection E as E1 E2.
    + subst g. inversion H1; subst. contradiction.
    + inversion H1; inversion H2; subst. destruct (IH gap2) as (-> & -> & ->); auto.
Qed.
Lemma gap_only P gap1 gap2 s2 (r2 : list segment) :
  Forall (fun s => ~ P s) gap1 -> P s2 -> gap1 <> gap2 ++ s2 :: r2.
Proof. intros H1 P2 ->. apply Forall_app in H1. destruct H1 as [_ H1]. inversion H1; subst. contradiction. Qed.

Lemma run_split (P : segment -> Prop) r1 r2 s1 s2 rest1 rest2 :
  Forall P r1 -> Forall P r2 -> ~ P s1 -> ~ P s2 -> r1 ++ s1 :: rest1 = r2 ++ s2 :: rest2 -> r1 = r2 /\ s1 :: rest1 = s2 :: rest2.
Proof.
  intros F1. revert r2. induction F1 as [|a r1 Ha F1 IH]; intros r2 F2 N1 N2 E.
  - destruct F2 as [|b r2 Hb F2]; cbn in E; [split; [reflexivity | exact E]|]. injection E as -> _. contradiction.
  - destruct F2 as [|b r2 Hb F2]; cbn in E; injection E as E1 E2.
    + subst a. contradiction.
    + subst b. destruct (IH r2) as [-> ->]; auto.
Qed.
Lemma runs_fun P path rs1 : runs P path rs1 -> forall rs2, runs P path rs2 -> rs1 = rs2.
Proof.
  intros H. induction H as [gap Hg | gap run Hg Hr Hn | gap run s rest rs Hg Hr Hn Hs H IH]; intros rs2 H2.
  - inversion H2 as [g E | g r Hg' Hr' Hn' E | g r s' re rs' Hg' Hr' Hn' Hs' H' E]; subst; [reflexivity | |].
    + destruct r as [|x r]; [congruence|]. inversion Hr'; subst. exfalso. refine (gap_only P _ g x r Hg _ eq_refl). assumption.
    + destruct r as [|x r]; [congruence|]. inversion Hr'; subst. exfalso. refine (gap_only P _ g x (r ++ s' :: re) Hg _ eq_refl). assumption.
  - destruct run as [|x run]; [congruence|]. inversion Hr; subst.
    inversion H2 as [g E | g r Hg' Hr' Hn' E | g r s' re rs' Hg' Hr' Hn' Hs' H' E]; subst.
    + exfalso. refine (gap_only P _ gap x run _ _ eq_refl); eassumption.
    + destruct r as [|y r]; [congruence|]. inversion Hr'; subst.
      destruct (gap_split P g gap y x r run) as (_ & -> & ->); auto.
    + destruct r as [|y r]; [congruence|]. inversion Hr'; subst. exfalso.
      destruct (gap_split P g gap y x (r ++ s' :: re) run) as (_ & _ & E'); auto.
      rewrite <- E' in *. match goal with K : Forall P (r ++ _) |- _ => apply Forall_app in K; destruct K as [_ K]; inversion K; contradiction end.
  - destruct run as [|x run]; [congruence|]. inversion Hr; subst.
    inversion H2 as [g E | g r Hg' Hr' Hn' E | g r s' re rs' Hg' Hr' Hn' Hs' H' E]; subst.
    + exfalso. refine (gap_only P _ gap x (run ++ s :: rest) _ _ eq_refl); eassumption.
    + destruct r as [|y r]; [congruence|]. inversion Hr'; subst. exfalso.
      destruct (gap_split P g gap y x r (run ++ s :: rest)) as (_ & _ & E'); auto.
      subst r. match goal with K : Forall P (run ++ _) |- _ => apply Forall_app in K; destruct K as [_ K]; inversion K; contradiction end.
    + destruct r as [|y r]; [congruence|]. inversion Hr'; subst.
      destruct (gap_split P g gap y x (r ++ s' :: re) (run ++ s :: rest)) as (_ & -> & E'); auto.
      destruct (run_split P r run s' s re rest) as [-> K]; try assumption.
      rewrite K in H'. f_equal. apply IH. exact H'.
Qed.

(** Neighbours in a line. *)
Definition adjacent (l : list vertex) (p q : vec4) : Prop :=
  exists before a b after, l = before ++ a :: b :: after /\ v_pos a = p /\ v_pos b = q.
Lemma joins_adjacent lines p q : joins lines p q <-> exists l, In l lines /\ adjacent l p q.
Proof.
  split.
  - intros (be & a & b & af & Hin & Ha & Hb). eexists. split; [exact Hin|]. exists be, a, b, af. auto.
  - intros (l & Hin & be & a & b & af & -> & Ha & Hb). exists be, a, b, af. auto.
Qed.
Lemma adjacent_cons v w l p q : adjacent (v :: w :: l) p q <-> (v_pos v = p /\ v_pos w = q) \/ adjacent (w :: l) p q.
Proof.
  split.
  - intros ([|x be] & a & b & af & E & Ha & Hb); cbn in E; inversion E; subst.
    + left. auto.
    + right. exists be, a, b, af. auto.
  - intros [[Hv Hw]|(be & a & b & af & E & Ha & Hb)].
    + exists [], v, w, l. auto.
    + exists (v :: be), a, b, af. rewrite E. auto.
Qed.
Lemma adjacent_one v p q : ~ adjacent [v] p q.
Proof. intros ([|x [|y be]] & a & b & af & E & _); cbn in E; discriminate. Qed.

Lemma adjacent_run f run v p q :
  joined (fun s n => pos_end s = pos_begin n) (f :: run) -> v_pos v = pos_begin f ->
  (adjacent (v :: map vertex_end (f :: run)) p q <-> exists s, In s (f :: run) /\ pos_begin s = p /\ pos_end s = q).
Proof.
  revert f v. induction run as [|g run IH]; intros f v J Hv.
  - cbn [map]. rewrite adjacent_cons. split.
    + intros [[H1 H2]|H]; [|destruct (adjacent_one _ _ _ H)]. exists f. rewrite <- Hv. split; [left; reflexivity | auto].
    + intros (s & [<-|[]] & H1 & H2). left. rewrite Hv. auto.
  - cbn [map]. rewrite adjacent_cons. destruct J as [J1 J2].
    rewrite <- map_cons. rewrite (IH g (vertex_end f) J2 J1). split.
    + intros [[H1 H2]|(s & Hs & H)].
      * exists f. rewrite <- Hv. split; [left; reflexivity | auto].
      * exists s. split; [right; exact Hs | exact H].
    + intros (s & [<-|Hs] & H1 & H2); [left; rewrite Hv; auto | right; exists s; auto].
Qed.

Lemma joined_parts {X} (P : X -> X -> Prop) a b : joined P (a ++ b) -> joined P a /\ joined P b.
Proof.
  induction a as [|x a IH]; cbn [app]; intros H; [split; [exact I | exact H]|].
  destruct H as [H1 H2]. destruct (IH H2) as [Ha Hb]. split; [|exact Hb].
  split; [|exact Ha]. destruct a; [exact I | exact H1].
Qed.

Lemma runs_in P path rs s : runs P path rs -> ((exists run, In run rs /\ In s run) <-> In s path /\ P s).
Proof.
  intros H. induction H as [gap Hg | gap run Hg Hr Hn | gap run s' rest rs Hg Hr Hn Hs H IH].
  - split; [intros (r & [] & _)|]. intros [Hin HP]. rewrite Forall_forall in Hg. destruct (Hg s Hin HP).
  - rewrite Forall_forall in Hg, Hr. split.
    + intros (r & [<-|[]] & Hin). split; [apply in_or_app; right; exact Hin | apply Hr; exact Hin].
    + intros [Hin HP]. exists run. split; [left; reflexivity|]. apply in_app_or in Hin. destruct Hin as [Hin|Hin]; [destruct (Hg s Hin HP) | exact Hin].
  - rewrite Forall_forall in Hg, Hr. split.
    + intros (r & [<-|Hin'] & Hin).
      * split; [apply in_or_app; right; apply in_or_app; left; exact Hin | apply Hr; exact Hin].
      * destruct (proj1 IH (ex_intro _ r (conj Hin' Hin))) as [K1 K2].
        split; [apply in_or_app; right; apply in_or_app; right; exact K1 | exact K2].
    + intros [Hin HP]. apply in_app_or in Hin. destruct Hin as [Hin|Hin]; [destruct (Hg s Hin HP)|].
      apply in_app_or in Hin. destruct Hin as [Hin|Hin].
      * exists run. split; [left; reflexivity | exact Hin].
      * destruct (proj2 IH (conj Hin HP)) as (r & K1 & K2). exists r. split; [right; exact K1 | exact K2].
Qed.
Lemma runs_joined P Q path rs : runs P path rs -> joined Q path -> Forall (joined Q) rs.
Proof.
  intros H. induction H as [gap Hg | gap run Hg Hr Hn | gap run s' rest rs Hg Hr Hn Hs H IH]; intros J.
  - constructor.
  - apply joined_parts in J. constructor; [apply J | constructor].
  - apply joined_parts in J. destruct J as [_ J]. apply joined_parts in J. constructor; [apply J|]. apply IH. apply J.
Qed.

Lemma joins_runs rs lines p q :
  Forall2 along rs lines -> Forall (joined (fun s n => pos_end s = pos_begin n)) rs ->
  (joins lines p q <-> exists run s, In run rs /\ In s run /\ pos_begin s = p /\ pos_end s = q).
Proof.
  intros H J. rewrite joins_adjacent. induction H as [|run line rs lines H HF IH].
  - split; [intros (l & [] & _) | intros (r & s & [] & _)].
  - inversion J as [|? ? J1 J2]; subst. specialize (IH J2). destruct H as (f & rest & -> & ->).
    pose proof (adjacent_run f rest (vertex_begin f) p q J1 eq_refl) as A.
    split.
    + intros (l & [<-|Hin] & Hadj).
      * apply A in Hadj. destruct Hadj as (s & Hs & Hpq). exists (f :: rest), s. split; [left; reflexivity | auto].
      * destruct (proj1 IH (ex_intro _ l (conj Hin Hadj))) as (r & s & K1 & K2). exists r, s. split; [right; exact K1 | exact K2].
    + intros (r & s & [<-|Hin] & Hs & Hpq).
      * eexists. split; [left; reflexivity|]. apply A. exists s. auto.
      * destruct (proj2 IH (ex_intro _ r (ex_intro _ s (conj Hin (conj Hs Hpq))))) as (l & K1 & K2). exists l. split; [right; exact K1 | exact K2].
Qed.

(** Everything is drawn in one line if travel is drawn as well. *)
Lemma loop_all segs : forall run, run <> [] -> segs <> [] -> plot_3d_loop false segs (line_of run) = [line_of (run ++ segs)].
Proof.
  induction segs as [|s segs IH]; intros run Hr Hs; [congruence|].
  rewrite loop_cons. unfold plot_3d_append. cbn [negb orb andb].
  rewrite (match_nonempty (line_of run)) by (apply line_of_nonempty; assumption).
  rewrite line_snoc by assumption.
  assert (Hn : run ++ [s] <> []) by (destruct run; discriminate). cbv zeta.
  rewrite (match_nonempty (line_of (run ++ [s]))) by (apply line_of_nonempty; assumption).
  destruct segs as [|s' segs]; [reflexivity|]. cbn [andb].
  rewrite IH; [|assumption|discriminate]. rewrite <- app_assoc. reflexivity.
Qed.
Lemma lines_all bl : plot_3d_lines false bl = match unpack_blocklist bl with [] => [] | l => [line_of l] end.
Proof.
  unfold plot_3d_lines. destruct (unpack_blocklist bl) as [|s [|s' segs]]; [reflexivity | reflexivity|].
  rewrite loop_cons. unfold plot_3d_append. cbn [negb orb andb app].
  exact (loop_all (s' :: segs) [s] ltac:(discriminate) ltac:(discriminate)).
Qed.

(** * Rounding *)
Lemma Rabs_le_inv x a : Rabs x <= a -> - a <= x <= a.
Proof. intros H. pose proof (Rle_abs x). pose proof (Rle_abs (- x)) as H1. rewrite Rabs_Ropp in H1. lra. Qed.
Lemma py_round_spec x : Rabs (IZR (py_round x) - x) <= 1 / 2.
Proof.
  unfold py_round. destruct (archimed x) as [H1 H2].
  set (n := (up x - 1)%Z). assert (E : IZR n = IZR (up x) - 1) by (unfold n; rewrite minus_IZR; reflexivity).
  destruct (Rltb_spec (x - IZR n) (1 / 2)); [apply Rabs_le; lra|].
  destruct (Rltb_spec (1 / 2) (x - IZR n)); [apply Rabs_le; rewrite plus_IZR; lra|].
  destruct (Z.even n); apply Rabs_le; try rewrite plus_IZR; lra.
Qed.
Lemma up_half z : up (IZR z + 1 / 2) = (z + 1)%Z.
Proof. symmetry. apply tech_up; rewrite plus_IZR; lra. Qed.
Lemma py_round_int z : py_round (IZR z) = z.
Proof.
  pose proof (py_round_spec (IZR z)) as H. apply Rabs_le_inv in H.
  assert (-1 < IZR (py_round (IZR z) - z) < 1) as [H1 H2] by (rewrite minus_IZR; lra).
  apply lt_IZR in H1, H2. lia.
Qed.
Lemma py_round_mono x y : x <= y -> (py_round x <= py_round y)%Z.
Proof.
  intros Hxy. destruct (Z_le_gt_dec (py_round x) (py_round y)) as [H|H]; [exact H|exfalso].
  pose proof (py_round_spec x) as Hx. pose proof (py_round_spec y) as Hy.
  apply Rabs_le_inv in Hx. apply Rabs_le_inv in Hy.
  assert (Hg : IZR (py_round y) + 1 <= IZR (py_round x)) by (rewrite <- plus_IZR; apply IZR_le; lia).
  assert (x = y) by lra. subst y. lia.
Qed.

(** * 2D plot *)
Lemma ceil_nat_bounds x : 0 <= x -> x <= INR (ceil_nat x) /\ (ceil_nat x = 0%nat <-> x = 0).
Proof.
  intros Hx. unfold ceil_nat. destruct (archimed (- x)) as [H1 H2].
  set (z := (- (up (- x) - 1))%Z).
  assert (Hz : IZR z = 1 - IZR (up (- x))) by (unfold z; rewrite opp_IZR, minus_IZR; ring).
  assert (Hz0 : (0 <= z)%Z) by (apply le_IZR; lra).
  assert (HI : INR (Z.to_nat z) = IZR z) by (rewrite INR_IZR_INZ, Z2Nat.id by exact Hz0; reflexivity).
  split; [lra|]. split.
  - intros E. rewrite E in HI. simpl in HI. lra.
  - intros ->. assert (Hlt : (z < 1)%Z) by (apply lt_IZR; lra). replace z with 0%Z by lia. reflexivity.
Qed.

Lemma steps_two n : unit_steps (S (S n)) = map (fun i => INR i / INR (S n)) (seq 0 (S (S n))).
Proof. unfold unit_steps. replace (S (S n) - 1)%nat with (S n) by lia. reflexivity. Qed.
Lemma steps_start n : (0 < n)%nat -> exists l, unit_steps n = 0 :: l.
Proof.
  destruct n as [|[|n]]; [lia | exists []; reflexivity|]. intros _. rewrite steps_two. cbn [seq map]. eexists.
  replace (INR 0 / INR (S n)) with 0; [reflexivity|]. change (INR 0) with 0. unfold Rdiv. ring.
Qed.
Lemma steps_range n r : In r (unit_steps n) -> 0 <= r <= 1.
Proof.
  destruct n as [|[|n]]; [intros [] | intros [<-|[]]; lra|]. rewrite steps_two. intros H. apply in_map_iff in H as (i & <- & Hi).
  apply in_seq in Hi. assert (H0 : 0 < INR (S n)) by (apply lt_0_INR; lia). pose proof (pos_INR i).
  assert (Hi' : INR i <= INR (S n)) by (apply le_INR; lia).
  split; [apply Rmult_le_pos; [lra | left; apply Rinv_0_lt_compat; exact H0]|].
  apply (Rmult_le_reg_r (INR (S n))); [exact H0|]. unfold Rdiv. rewrite Rmult_assoc, Rinv_l by lra. lra.
Qed.
Lemma joined_map_seq (f : nat -> R) (P : R -> R -> Prop) : forall n a, (forall i, P (f i) (f (S i))) -> joined P (map f (seq a n)).
Proof.
  induction n as [|n IH]; intros a H; [exact I|]. cbn [seq map]. split; [|apply IH; exact H].
  destruct n as [|n]; [exact I|]. cbn [seq map]. apply H.
Qed.
Lemma steps_gap n : joined (fun r r' => r' - r = 1 / INR (n - 1)) (unit_steps n).
Proof.
  destruct n as [|[|n]]; [exact I | split; exact I|]. rewrite steps_two.
  replace (S (S n) - 1)%nat with (S n) by lia. apply joined_map_seq. intros i.
  rewrite (S_INR i). field. apply not_0_INR. lia.
Qed.
Lemma steps_ascending n : ascending (unit_steps n).
Proof.
  unfold ascending. destruct n as [|[|n]]; [exact I | split; exact I|]. rewrite steps_two. apply joined_map_seq. intros i.
  rewrite (S_INR i). assert (H0 : 0 < / INR (S n)) by (apply Rinv_0_lt_compat, lt_0_INR; lia). unfold Rdiv. nra.
Qed.
Lemma steps_last n : (1 < n)%nat -> exists l, unit_steps n = l ++ [1].
Proof.
  destruct n as [|[|n]]; try lia. intros _. rewrite steps_two. replace (S (S n)) with (S n + 1)%nat by lia. rewrite seq_app, map_app.
  eexists. f_equal. cbn [seq map]. f_equal. rewrite Nat.add_0_l. field. apply not_0_INR. lia.
Qed.

Definition corner_of (s : segment) : point := Point (vx (pos_end s)) (vy (pos_end s)) (norm3 (vel_end s)).
(** [old] is where [s] begins, and its colour is the speed there up to [eps]. *)
Definition at_begin (eps : R) (old : point) (s : segment) : Prop :=
  p_x old = vx (pos_begin s) /\ p_y old = vy (pos_begin s) /\ Rabs (p_c old - norm3 (vel_begin s)) <= eps.
Definition follows (eps : R) (s n : segment) : Prop :=
  pos_end s = pos_begin n /\ Rabs (norm3 (vel_end s) - norm3 (vel_begin n)) <= eps.
Definition part_of (spacing : R) (old : point) (s : segment) : list point :=
  map (interp old (corner_of s)) (unit_steps (interp_count spacing old (corner_of s))).

Lemma loop_parts eps spacing (Q : segment -> list point -> Prop) :
  (forall old s, at_begin eps old s -> Q s (part_of spacing old s)) ->
  forall segs old, joined (follows eps) segs -> starts (at_begin eps old) segs ->
  exists parts, interp_loop spacing old (map corner_of segs) = concat parts /\ Forall2 Q segs parts.
Proof.
  intros HQ. induction segs as [|s segs IH]; intros old J S.
  - exists []. split; [reflexivity | constructor].
  - cbn [starts] in S. destruct J as [J1 J2].
    destruct (IH (corner_of s) J2) as (parts & E & F).
    { destruct segs as [|n segs]; [exact I|]. destruct J1 as [J1 J3]. cbn [starts]. unfold at_begin, corner_of. cbn [p_x p_y p_c].
      rewrite J1. auto. }
    exists (part_of spacing old s :: parts). split; [cbn [map interp_loop concat]; rewrite E; reflexivity|].
    constructor; [apply HQ; exact S | exact F].
Qed.

Lemma count_pos spacing a b : (0 < interp_count spacing a b)%nat.
Proof. unfold interp_count. destruct (Rltb 0 (Rabs (p_c b - p_c a))); lia. Qed.
Lemma part_drawn eps spacing old s : at_begin eps old s -> drawn_from s (part_of spacing old s).
Proof.
  intros (Hx & Hy & _). set (n := interp_count spacing old (corner_of s)). exists (unit_steps n).
  destruct (steps_start n (count_pos _ _ _)) as (l & El). split; [rewrite El; discriminate|]. split; [|split; [|split]].
  - unfold part_of. fold n. clear El. induction (unit_steps n) as [|r rs IH]; [constructor|].
    cbn [map]. constructor; [|exact IH]. unfold above, interp, corner_of. cbn [p_x p_y]. rewrite Hx, Hy. split; reflexivity.
  - rewrite El. reflexivity.
  - apply steps_ascending.
  - apply Forall_forall. intros r. apply steps_range.
Qed.

Lemma interp_near spacing a b n : 0 < spacing ->
  n = interp_count spacing a b -> joined (near spacing) (map (interp a b) (unit_steps n)).
Proof.
  intros Hs Hn. pose proof (steps_gap n) as G.
  assert (Hstep : forall r r', r' - r = 1 / INR (n - 1) -> near spacing (interp a b r) (interp a b r') \/ (n <= 1)%nat).
  { intros r r' Hr. destruct (le_lt_dec n 1) as [|Hn1]; [right; assumption | left].
    unfold interp_count in Hn. destruct (Rltb 0 (Rabs (p_c b - p_c a))); [|lia].
    set (q := (p_x b - p_x a) * (p_x b - p_x a) + (p_y b - p_y a) * (p_y b - p_y a)) in Hn.
    assert (Hq : 0 <= q) by (unfold q; pose proof (Rle_0_sqr (p_x b - p_x a)); pose proof (Rle_0_sqr (p_y b - p_y a)); unfold Rsqr in *; lra).
    pose proof (sqrt_pos q) as Hlen. pose proof (sqrt_sqrt q Hq) as Hlq. set (len := sqrt q) in *.
    assert (Hc : 0 <= len / spacing) by (apply Rmult_le_pos; [lra | left; apply Rinv_0_lt_compat; exact Hs]).
    destruct (ceil_nat_bounds _ Hc) as [Hce _]. replace (n - 1)%nat with (ceil_nat (len / spacing)) in Hr by lia.
    assert (Hk : 0 < INR (ceil_nat (len / spacing))) by (apply lt_0_INR; lia).
    set (k := INR (ceil_nat (len / spacing))) in *.
    assert (Hls : len <= k * spacing).
    { replace len with (len / spacing * spacing) at 1 by (field; lra). apply Rmult_le_compat_r; lra. }
    assert (Hlr : (r' - r) * len <= spacing).
    { rewrite Hr. apply (Rmult_le_reg_l k); [exact Hk|]. replace (k * (1 / k * len)) with len by (field; lra). exact Hls. }
    assert (H0r : 0 <= (r' - r) * len) by (rewrite Hr; apply Rmult_le_pos; [unfold Rdiv; rewrite Rmult_1_l; left; apply Rinv_0_lt_compat; exact Hk | lra]).
    unfold near, interp. cbn [p_x p_y]. unfold Rsqr.
    match goal with |- ?lhs <= _ => replace lhs with (((r' - r) * len) * ((r' - r) * len)) end.
    - apply Rmult_le_compat; lra.
    - replace ((r' - r) * len * ((r' - r) * len)) with ((r' - r) * (r' - r) * (len * len)) by ring. rewrite Hlq. unfold q. ring. }
  destruct (le_lt_dec n 1) as [Hn1|Hn1].
  - destruct n as [|[|n]]; [exact I | split; exact I | lia].
  - revert G. generalize (unit_steps n). induction l as [|r rs IH]; intros G; [exact I|]. destruct G as [G1 G2]. cbn [map]. split; [|apply IH; exact G2].
    destruct rs as [|r' rs]; [exact I|]. cbn [map]. destruct (Hstep r r' G1); [assumption | lia].
Qed.

(** The end of the path is drawn if the last segment is seen and changes the colour. *)
Lemma loop_app spacing : forall a b old, interp_loop spacing old (a ++ b) = interp_loop spacing old a ++ interp_loop spacing (last a old) b.
Proof.
  induction a as [|p a IH]; intros b old; [reflexivity|]. cbn [interp_loop app]. rewrite IH, app_assoc. f_equal. f_equal.
  destruct a as [|p' a]; [reflexivity|]. change (last (p' :: a) p = last (p' :: a) old).
  clear IH. revert p'. induction a as [|x a IH]; intros p'; [reflexivity|]. exact (IH x).
Qed.
Lemma interp_one a b : interp a b 1 = b.
Proof. destruct b as [x y c]. unfold interp. cbn [p_x p_y p_c]. f_equal; ring. Qed.
Lemma part_last spacing old s : 0 < spacing -> p_x old = vx (pos_begin s) -> p_y old = vy (pos_begin s) -> seen s ->
  p_c old <> norm3 (vel_end s) -> exists l, part_of spacing old s = l ++ [corner_of s].
Proof.
  intros Hs Hx Hy Hseen Hc. unfold part_of.
  destruct (steps_last (interp_count spacing old (corner_of s))) as (l & El).
  - unfold interp_count. cbn [corner_of p_c p_x p_y].
    rewrite Rltb_true by (apply Rabs_pos_lt; lra). rewrite Hx, Hy.
    set (q := (vx (pos_end s) - vx (pos_begin s)) * (vx (pos_end s) - vx (pos_begin s)) + (vy (pos_end s) - vy (pos_begin s)) * (vy (pos_end s) - vy (pos_begin s))).
    assert (Hq : 0 < q).
    { unfold q. pose proof (Rle_0_sqr (vx (pos_end s) - vx (pos_begin s))) as H1. pose proof (Rle_0_sqr (vy (pos_end s) - vy (pos_begin s))) as H2.
      destruct Hseen as [H|H].
      - assert (0 < Rsqr (vx (pos_end s) - vx (pos_begin s))) by (apply Rsqr_pos_lt; lra). unfold Rsqr in *. lra.
      - assert (0 < Rsqr (vy (pos_end s) - vy (pos_begin s))) by (apply Rsqr_pos_lt; lra). unfold Rsqr in *. lra. }
    assert (Hl : 0 < sqrt q / spacing) by (apply Rmult_lt_0_compat; [apply sqrt_lt_R0; exact Hq | apply Rinv_0_lt_compat; exact Hs]).
    destruct (ceil_nat_bounds (sqrt q / spacing)) as [_ [H _]]; [lra|]. destruct (ceil_nat (sqrt q / spacing)); [specialize (H eq_refl); lra | lia].
  - rewrite El, map_app. cbn [map]. rewrite interp_one. eexists. reflexivity.
Qed.

(** * The speed along a segment *)
Definition along_line (s : segment) : Prop :=
  (t_begin s <= t_end s /\ vel_begin s = vzero /\ vel_end s = vzero /\ pos_end s = pos_begin s) \/
  (consistent s /\ exists d eo k0 k1, is_dir d eo /\ 0 <= k0 /\ 0 <= k1 /\ vel_begin s = vscale k0 d /\ vel_end s = vscale k1 d).

Lemma speed_along s r : along_line s -> 0 <= r <= 1 ->
  exists t v q, moves_through s t v q /\ q = vadd (pos_begin s) (vscale r (vsub (pos_end s) (pos_begin s))) /\
    norm3 (vel_begin s) + r * (norm3 (vel_end s) - norm3 (vel_begin s)) <= norm3 v.
Proof.
  intros [(Ht & Hb & He & Hp)|((Ht & Hp) & d & eo & k0 & k1 & Hd & H0 & H1 & Hb & He)] Hr.
  - exists (t_begin s), vzero, (pos_begin s). split; [|split].
    + unfold moves_through. rewrite Hb, He. split; [lra|]. split; apply vec4_ext; simpl; ring.
    + rewrite Hp. apply vec4_ext; simpl; ring.
    + rewrite Hb, He, norm3_vzero. lra.
  - set (T := t_end s - t_begin s) in *. assert (HT : 0 < T) by (unfold T; lra).
    destruct (Req_dec k0 k1) as [E|E].
    + subst k1. exists (t_begin s + r * T), (vel_begin s), (vadd (pos_begin s) (vscale r (vsub (pos_end s) (pos_begin s)))).
      assert (HrT : 0 <= r * T <= T) by (split; [apply Rmult_le_pos; lra | rewrite <- (Rmult_1_l T) at 2; apply Rmult_le_compat_r; lra]).
      split; [|split; [reflexivity|]].
      * unfold moves_through. split; [unfold T in *; lra|]. rewrite He, Hb, Hp, Hb, He. replace (t_begin s + r * T - t_begin s) with (r * T) by ring.
        split; apply vec4_ext; simpl; try ring; field; unfold T in *; lra.
      * rewrite He, Hb. lra.
    + set (w := sqrt (k0 * k0 + r * (k1 * k1 - k0 * k0))).
      assert (Hq : 0 <= k0 * k0 + r * (k1 * k1 - k0 * k0)).
      { replace (k0 * k0 + r * (k1 * k1 - k0 * k0)) with ((1 - r) * (k0 * k0) + r * (k1 * k1)) by ring.
        apply Rplus_le_le_0_compat; apply Rmult_le_pos; try lra; apply Rmult_le_pos; lra. }
      assert (Hw : w * w = k0 * k0 + r * (k1 * k1 - k0 * k0)) by (apply sqrt_sqrt; exact Hq).
      assert (Hw0 : 0 <= w) by apply sqrt_pos.
      assert (Hlin : k0 + r * (k1 - k0) <= w).
      { apply Rsqr_incr_0_var; [|exact Hw0]. unfold Rsqr. rewrite Hw.
        assert (0 <= r * (1 - r) * ((k1 - k0) * (k1 - k0))) by (apply Rmult_le_pos; [apply Rmult_le_pos; lra | apply (Rle_0_sqr (k1 - k0))]). nra. }
      set (u := (w - k0) / (k1 - k0)).
      assert (Hwu : w = k0 + u * (k1 - k0)) by (unfold u; field; lra).
      assert (Hu : 0 <= u <= 1).
      { assert (Hx : forall x, 0 <= x * (k1 - k0) -> k0 < k1 -> 0 <= x) by (intros x H G; destruct (Rle_lt_dec 0 x); [assumption | nra]).
        assert (Hy : forall x, x * (k1 - k0) <= 0 -> k1 < k0 -> 0 <= x) by (intros x H G; destruct (Rle_lt_dec 0 x); [assumption | nra]).
        destruct (Rtotal_order k0 k1) as [G|[G|G]]; [|lra|].
        - assert (Hk : 0 <= k1 * k1 - k0 * k0) by nra.
          pose proof (Rmult_le_pos r _ (proj1 Hr) Hk) as P1. pose proof (Rmult_le_pos (1 - r) _ ltac:(lra) Hk) as P2.
          assert (k0 <= w) by (apply Rsqr_incr_0_var; [unfold Rsqr; lra | lra]). assert (w <= k1) by (apply Rsqr_incr_0_var; [unfold Rsqr; lra | lra]).
          split; [apply Hx; lra|]. assert (0 <= 1 - u) by (apply Hx; lra). lra.
        - assert (Hk : 0 <= k0 * k0 - k1 * k1) by nra.
          pose proof (Rmult_le_pos r _ (proj1 Hr) Hk) as P1. pose proof (Rmult_le_pos (1 - r) _ ltac:(lra) Hk) as P2.
          assert (w <= k0) by (apply Rsqr_incr_0_var; [unfold Rsqr; lra | lra]). assert (k1 <= w) by (apply Rsqr_incr_0_var; [unfold Rsqr; lra | lra]).
          split; [apply Hy; lra|]. assert (0 <= 1 - u) by (apply Hy; lra). lra. }
      assert (HuT : 0 <= u * T <= T) by (split; [apply Rmult_le_pos; lra | rewrite <- (Rmult_1_l T) at 2; apply Rmult_le_compat_r; lra]).
      exists (t_begin s + u * T), (vscale w d), (vadd (pos_begin s) (vscale r (vsub (pos_end s) (pos_begin s)))).
      split; [|split; [reflexivity|]].
      * unfold moves_through. split; [unfold T in *; lra|]. rewrite Hp, Hb, He. replace (t_begin s + u * T - t_begin s) with (u * T) by ring.
        fold T. replace (u * T / T) with u by (field; lra). split.
        -- rewrite Hwu. apply vec4_ext; simpl; ring.
        -- assert (Hru : r * (k1 + k0) = 2 * k0 * u + (k1 - k0) * (u * u)).
           { assert (Hm : (k1 - k0) * (r * (k1 + k0)) = (k1 - k0) * (2 * k0 * u + (k1 - k0) * (u * u))) by (rewrite Hwu in Hw; nra).
             apply (Rmult_eq_reg_l (k1 - k0)); [exact Hm | lra]. }
           assert (Hc : forall x, x * k0 * (T / 2) * r + x * k1 * (T / 2) * r = u * T * (x * k0) + u * T * (u / 2) * (x * k1 - x * k0)).
           { intros x. transitivity (x * (T / 2) * (r * (k1 + k0))); [ring|]. rewrite Hru. field. }
           apply vec4_ext; simpl; [specialize (Hc (vx d)) | specialize (Hc (vy d)) | specialize (Hc (vz d)) | specialize (Hc (ve d))]; lra.
      * rewrite Hb, He, !(dir_norm3 d eo) by assumption. destruct eo; lra.
Qed.

Lemma sim_along fw s0 states bl wn s : valid_program s0 states -> simulate fw (s0 :: states) = Ok (bl, wn) ->
  In s (unpack_blocklist bl) -> along_line s.
Proof.
  intros Hv Hs Hin. unfold unpack_blocklist in Hin. apply in_flat_map in Hin as (b & Hb & Hin).
  destruct (k_pause (b_B b)) as [p|] eqn:Ep.
  - left. destruct (sim_dwell fw s0 states bl wn Hv Hs b p Hb Ep) as (t & q & E). rewrite E in Hin.
    assert (Hp : 0 <= p).
    { destruct (sim_blocks fw s0 states bl wn Hv Hs) as (items & Hi & Em).
      assert (HB : In (b_B b) states).
      { apply (in_map (fun b => (b_A b, b_B b, b_extr b))) in Hb. rewrite Em in Hb. apply in_map_iff in Hb as ([[A B] rest] & Eb & HI).
        injection Eb as _ <- _. clear - Hi HI. induction Hi as [|A0 B0 rest0 l _ _ Hi IH|A0 B0 rest0 l _ Hi IH]; [destruct HI | right; apply IH; exact HI|].
        destruct HI as [E|HI]; [injection E as _ -> _; left; reflexivity | right; apply IH; exact HI]. }
      destruct Hv as [Hv _]. inversion Hv as [|? ? _ Hvs]; subst. rewrite Forall_forall in Hvs. destruct (Hvs _ HB) as (_ & _ & _ & Hpp). apply Hpp. exact Ep. }
    destruct Hin as [<-|[]]. cbn. split; [lra | auto].
  - right. destruct (sim_limits fw s0 states bl wn Hv Hs b s Hb Hin Ep) as (Hc & d & eo & Hd & _ & a & _ & Hl).
    split; [exact Hc|]. exists d, eo. destruct Hc as [Ht Hp].
    destruct (Hl (t_begin s)) as (v0 & _ & Ev0 & (k0 & Hk0 & Ek0) & _); [lra|].
    destruct (Hl (t_end s)) as (v1 & Hv1 & _ & (k1 & Hk1 & Ek1) & _); [lra|].
    exists k0, k1. split; [exact Hd|]. split; [lra|]. split; [lra|]. split.
    + rewrite <- Ek0, Ev0. apply vec4_ext; simpl; ring.
    + rewrite <- Ek1. destruct (proj2 (proj2 (proj2 (position_is_integral s (conj Ht Hp))))) as [Hve _]. congruence.
Qed.

(** * Plot command *)
Lemma str_eqb_eq a b : str_eqb a b = true <-> a = b.
Proof. split; [apply str_eqb_true | intros ->; apply str_eqb_refl]. Qed.
Lemma says_yes a : says [S_ "y"; S_ "yes"] a = true <-> is_yes a.
Proof.
  unfold says, is_yes. cbn [existsb]. rewrite orb_false_r, Bool.orb_true_iff, !str_eqb_eq. reflexivity.
Qed.
Lemma says_no a : says [S_ "n"; S_ "no"] a = true <-> is_no a.
Proof.
  unfold says, is_no. cbn [existsb]. rewrite orb_false_r, Bool.orb_true_iff, !str_eqb_eq. reflexivity.
Qed.
Lemma yes_not_no a : is_yes a -> ~ is_no a.
Proof. intros [H|H] [G|G]; rewrite H in G; discriminate. Qed.
Lemma ask_spec l : exists es r, ask l = (es, r) /\ Forall (fun e => e = Ask) es /\
  match r with
  | None => Forall (fun x => ~ is_yes x /\ ~ is_no x) l /\ length es = S (length l)
  | Some yes => exists before s after, l = before ++ s :: after /\ length es = S (length before) /\
      Forall (fun x => ~ is_yes x /\ ~ is_no x) before /\ (if yes : bool then is_yes s else is_no s)
  end.
Proof.
  induction l as [|a l (es & r & E & Hes & H)].
  - exists [Ask], None. split; [reflexivity|]. split; [constructor; [reflexivity | constructor]|]. split; [constructor | reflexivity].
  - cbn [ask]. destruct (says [S_ "n"; S_ "no"] a) eqn:En; [|destruct (says [S_ "y"; S_ "yes"] a) eqn:Ey].
    + exists [Ask], (Some false). split; [reflexivity|]. split; [constructor; [reflexivity | constructor]|].
      exists [], a, l. split; [reflexivity|]. split; [reflexivity|]. split; [constructor | apply says_no; exact En].
    + exists [Ask], (Some true). split; [reflexivity|]. split; [constructor; [reflexivity | constructor]|].
      exists [], a, l. split; [reflexivity|]. split; [reflexivity|]. split; [constructor | apply says_yes; exact Ey].
    + rewrite E. exists (Ask :: es), r. split; [reflexivity|]. split; [constructor; [reflexivity | exact Hes]|].
      assert (Ha : ~ is_yes a /\ ~ is_no a).
      { rewrite <- says_yes, <- says_no, En, Ey. split; discriminate. }
      destruct r as [yes|].
      * destruct H as (be & s & af & -> & Hl & Hb & Hy). exists (a :: be), s, af. split; [reflexivity|]. split; [cbn; rewrite Hl; reflexivity|].
        split; [constructor; assumption | exact Hy].
      * destruct H as [H Hl]. split; [constructor; assumption | cbn; rewrite Hl; reflexivity].
Qed.
Lemma find_chosen w a g : find_gcode_file w (arg_gcode a) = Some g <-> chosen w a g.
Proof.
  unfold find_gcode_file. split.
  - destruct (arg_gcode a) as [p|] eqn:E.
    + destruct (is_file w p) eqn:F; [|discriminate]. intros H. injection H as <-. apply c_given; assumption.
    + destruct (cwd_gcodes w) as [|f [|? ?]] eqn:F; try discriminate. intros H. injection H as <-. apply c_only; assumption.
  - intros [p E F|p E F]; rewrite E; [rewrite F | rewrite F]; reflexivity.
Qed.
