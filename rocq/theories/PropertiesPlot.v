(** Properties C56-C59, C70-C73: plots, equality of vectors, progress bar and
    the plot command.  Vocabulary: SpecPlot.v, SpecKin.v, SpecQuery.v. *)
From Coq Require Import Reals Lra Lia ZArith.
From Verif Require Import Py PyFloat Parser StateGen SpecMachine SpecSetup SpecText Vec Segment Junction Planner Query SpecKin SpecQuery Setup Interp Tools Plot Cli SpecPlot
  RealFacts StrFacts MoveProofs PlanFacts PlanRefute QueryProofs QueryFacts QueryRefute LayerProofs InterpProofs PlotProofs OneMove
  PropertiesPlan PropertiesQuery PropertiesSetup.
Open Scope R_scope.
Local Arguments S_ : simpl never.

(** * C56: the 3D plot *)
(** The lines are the maximal runs of extruding segments, in order. *)
Theorem C56_lines_are_extruding_runs bl :
  exists rs, runs extrudes (unpack_blocklist bl) rs /\ Forall2 along rs (plot_3d_lines true bl) /\
    forall rs', runs extrudes (unpack_blocklist bl) rs' -> rs' = rs.
Proof.
  destruct (proj1 (loop_runs (unpack_blocklist bl))) as (rs & R1 & R2). exists rs. split; [exact R1|]. split; [exact R2|].
  intros rs' R3. symmetry. exact (runs_fun _ _ _ R1 _ R3).
Qed.
(** With travel: one line along everything. *)
Theorem C56_all_segments bl :
  match unpack_blocklist bl with
  | [] => plot_3d_lines false bl = []
  | path => exists line, plot_3d_lines false bl = [line] /\ along path line
  end.
Proof.
  pose proof (lines_all bl) as E. destruct (unpack_blocklist bl) as [|f path]; [exact E|].
  eexists. split; [exact E|]. apply line_along. discriminate.
Qed.
(** Two points are joined by a line exactly if something is extruded between them. *)
Theorem C56_joined_iff_extruded fw s0 states bl wn p q :
  valid_program s0 states -> simulate fw (s0 :: states) = Ok (bl, wn) ->
  (joins (plot_3d_lines true bl) p q <->
   exists s, In s (unpack_blocklist bl) /\ extrudes s /\ pos_begin s = p /\ pos_end s = q).
Proof.
  intros Hv Hs. destruct (C56_lines_are_extruding_runs bl) as (rs & R1 & R2 & _).
  assert (J : joined (fun s n => pos_end s = pos_begin n) (unpack_blocklist bl)).
  { refine (TrajProofs.joined_weaken _ _ _ _ (proj2 (C24_contiguous_trajectory _ _ _ _ _ Hv Hs))). intros x y [_ H]. exact H. }
  rewrite (joins_runs rs _ p q R2 (runs_joined _ _ _ _ R1 J)). split.
  - intros (run & s & Hr & Hin & Hp). destruct (proj1 (runs_in _ _ _ s R1) (ex_intro _ run (conj Hr Hin))) as [H1 H2]. exists s. auto.
  - intros (s & H1 & H2 & Hp). destruct (proj2 (runs_in _ _ _ s R1) (conj H1 H2)) as (run & Hr & Hin). exists run, s. auto.
Qed.
(** Two extruding segments, a travel, and one more extruding segment. *)
Definition ex_seg (t x e e' : R) : segment := Seg t (t + 1) (V4 x 0 0 e) (V4 (x + 1) 0 0 e') (V4 1 0 0 0) (V4 1 0 0 0).
Definition ex_path : list segment := [ex_seg 0 0 0 1; ex_seg 1 1 1 2; ex_seg 2 2 2 2; ex_seg 3 3 2 3].
Definition ex_blocks : list block := [Block (xstate 0 1 1 1 None) (xstate 4 1 1 1 None) None ex_path None true vzero].
Example C56_case : runs extrudes (unpack_blocklist ex_blocks) [[ex_seg 0 0 0 1; ex_seg 1 1 1 2]; [ex_seg 3 3 2 3]] /\
  map (fun l => length l) (plot_3d_lines true ex_blocks) = [3; 2]%nat.
Proof.
  assert (R : runs extrudes (unpack_blocklist ex_blocks) [[ex_seg 0 0 0 1; ex_seg 1 1 1 2]; [ex_seg 3 3 2 3]]).
  { change (unpack_blocklist ex_blocks) with ([] ++ [ex_seg 0 0 0 1; ex_seg 1 1 1 2] ++ ex_seg 2 2 2 2 :: [ex_seg 3 3 2 3]).
    apply runs_more; [constructor | | discriminate | unfold extrudes; simpl; lra |].
    - constructor; [unfold extrudes; simpl; lra|]. constructor; [unfold extrudes; simpl; lra | constructor].
    - change [ex_seg 2 2 2 2; ex_seg 3 3 2 3] with ([ex_seg 2 2 2 2] ++ [ex_seg 3 3 2 3]).
      apply runs_last; [| | discriminate]; (constructor; [unfold extrudes; simpl; lra | constructor]). }
  split; [exact R|]. destruct (C56_lines_are_extruding_runs ex_blocks) as (rs & R1 & R2 & _). rewrite <- (runs_fun _ _ _ R _ R1) in R2.
  inversion R2 as [|? ? ? ? (f1 & r1 & _ & ->) R3]; subst. inversion R3 as [|? ? ? ? (f2 & r2 & _ & ->) R4]; subst. inversion R4; subst. reflexivity.
Qed.

(** * C57: equality of vectors *)
(** Reflexive, and symmetric up to a slightly wider tolerance. *)
Theorem C57_reflexive_partial a : veqb a a = true.
Proof. unfold veqb. rewrite !isclose_refl. reflexivity. Qed.
Theorem C57_nearly_symmetric_partial a b : veqb a b = true ->
  forall f, In f [vx; vy; vz; ve] -> Rabs (f b - f a) <= (1 / 100000000 + 1 / 100000 * Rabs (f a)) / (1 - 1 / 100000).
Proof.
  unfold veqb. intros H f Hf. apply andb_prop in H as [H H4]. apply andb_prop in H as [H H3]. apply andb_prop in H as [H1 H2].
  assert (K : forall x y, isclose x y = true -> Rabs (y - x) <= (1 / 100000000 + 1 / 100000 * Rabs x) / (1 - 1 / 100000)).
  { intros x y Hc. unfold isclose in Hc. destruct (Rleb_spec (Rabs (x - y)) (1 / 100000000 + 1 / 100000 * Rabs y)) as [Hc'|]; [|discriminate].
    rewrite (Rabs_minus_sym y x). pose proof (Rabs_triang_inv y x) as T. rewrite (Rabs_minus_sym y x) in T.
    apply (Rmult_le_reg_r (1 - 1 / 100000)); [lra|]. match goal with |- _ <= ?A / ?c * ?c => replace (A / c * c) with A by (field; lra) end. lra. }
  destruct Hf as [<-|[<-|[<-|[<-|[]]]]]; apply K; assumption.
Qed.
Theorem C57_symmetry_refuted : exists a b, veqb a b = true /\ veqb b a = false.
Proof.
  set (d := (1 / 100000000 + 1 / 100000) / (1 - 1 / 100000)). exists (V4 1 0 0 0), (V4 (1 + d) 0 0 0).
  assert (Hd : d * (1 - 1 / 100000) = 1 / 100000000 + 1 / 100000) by (unfold d; field; lra).
  assert (0 < d) by lra.
  unfold veqb. cbn [vx vy vz ve]. rewrite isclose_refl, !andb_true_r. unfold isclose. split.
  - apply Rleb_true. rewrite (Rabs_right (1 + d)) by lra. rewrite Rabs_left1 by lra. lra.
  - apply Rleb_false. rewrite (Rabs_right 1) by lra. rewrite Rabs_right by lra. lra.
Qed.
Theorem C57_transitivity_refuted : exists a b c, veqb a b = true /\ veqb b c = true /\ veqb a c = false.
Proof.
  set (d := 1 / 100000000). exists (V4 (2 * d) 0 0 0), (V4 d 0 0 0), (V4 0 0 0 0). unfold veqb. cbn [vx vy vz ve].
  rewrite isclose_refl, !andb_true_r. unfold isclose, d. split; [|split].
  - apply Rleb_true. rewrite !Rabs_right by lra. lra.
  - apply Rleb_true. rewrite Rabs_R0, Rabs_right by lra. lra.
  - apply Rleb_false. rewrite Rabs_R0, Rabs_right by lra. lra.
Qed.

(** * C58: the progress bar *)
Lemma clamp_limited x st : fst (clamp x st) = limited x /\ 0 <= limited x <= 1.
Proof.
  unfold clamp, limited. destruct (Rltb_spec x 0) as [H|H].
  - rewrite Rleb_false by lra. cbn [fst]. rewrite Rmin_right by lra. rewrite Rmax_left by lra. lra.
  - destruct (Rleb_spec 1 x) as [G|G]; cbn [fst].
    + rewrite Rmin_left by lra. rewrite Rmax_right by lra. lra.
    + rewrite Rmin_right by lra. rewrite Rmax_right by lra. lra.
Qed.
Lemma clamp_status x : status_of x (snd (clamp x [])) /\ (snd (clamp x []) = [] <-> 0 <= x < 1).
Proof.
  unfold clamp. destruct (Rltb_spec x 0) as [H|H].
  - rewrite Rleb_false by lra. split; [apply st_halt; exact H|]. split; [discriminate | lra].
  - destruct (Rleb_spec 1 x) as [G|G]; cbn [snd].
    + split; [apply st_done; exact G|]. split; [discriminate | lra].
    + split; [apply st_run; lra|]. split; [lra | reflexivity].
Qed.
(** What is shown for a float. *)
Definition percent_of (x : R) : R := IZR (py_round (limited x * 100 * 10)) / 10.
Definition cells_of (x : R) : nat := Z.to_nat (py_round (10 * limited x)).
Lemma progress_float x last : update_progress (PFloat x) last =
  let st := snd (clamp x []) in
  if negb (Reqb last (percent_of x)) || negb (str_eqb st [])
  then Ok (Some (Shown (repeat "#"%char (cells_of x) ++ repeat "-"%char (Z.to_nat (10 - py_round (10 * limited x)))) (percent_of x) st), percent_of x)
  else Ok (None, last).
Proof.
  unfold update_progress. destruct (clamp x []) as [y st] eqn:E. cbn [bind].
  pose proof (proj1 (clamp_limited x [])) as L. rewrite E in L. cbn [fst] in L. subst y. reflexivity.
Qed.
Lemma cells_range x : (0 <= py_round (10 * limited x) <= 10)%Z.
Proof.
  destruct (clamp_limited x []) as [_ [H1 H2]].
  assert (A : (py_round (IZR 0) <= py_round (10 * limited x) <= py_round (IZR 10))%Z) by (split; apply py_round_mono; lra).
  rewrite !py_round_int in A. exact A.
Qed.
Lemma cells_close x : Rabs (INR (cells_of x) - 10 * limited x) <= 1 / 2.
Proof. unfold cells_of. rewrite INR_IZR_INZ, Z2Nat.id by apply cells_range. apply py_round_spec. Qed.
Lemma percent_close x : Rabs (percent_of x - 100 * limited x) <= 1 / 20 /\ 0 <= percent_of x <= 100.
Proof.
  unfold percent_of. destruct (clamp_limited x []) as [_ [H1 H2]]. split.
  - pose proof (py_round_spec (limited x * 100 * 10)) as H. apply Rabs_le_inv in H. apply Rabs_le. lra.
  - assert (A : IZR 0 <= IZR (py_round (limited x * 100 * 10)) <= IZR 1000); [|lra].
    assert (A : (py_round (IZR 0) <= py_round (limited x * 100 * 10) <= py_round (IZR 1000))%Z) by (split; apply py_round_mono; lra).
    rewrite !py_round_int in A. split; apply IZR_le; apply A.
Qed.

(** A float: nothing is written if the percentage is the last one and the print
    is running; otherwise a well-formed bar. *)
Theorem C58_bar_well_formed x last :
  exists o last', update_progress (PFloat x) last = Ok (o, last') /\
  match o with
  | None => 0 <= x < 1 /\ last' = last /\ Rabs (last - 100 * limited x) <= 1 / 20
  | Some sh => exists k, ten_cells k (bar sh) /\ Rabs (INR k - 10 * limited x) <= 1 / 2 /\
      0 <= percent sh <= 100 /\ Rabs (percent sh - 100 * limited x) <= 1 / 20 /\
      status_of x (status sh) /\ last' = percent sh
  end.
Proof.
  rewrite progress_float. destruct (clamp_status x) as [S1 S2]. destruct (percent_close x) as [P1 P2]. cbv zeta.
  destruct (negb (Reqb last (percent_of x)) || negb (str_eqb (snd (clamp x [])) [])) eqn:E.
  - do 2 eexists. split; [reflexivity|]. cbn [bar percent status]. exists (cells_of x).
    pose proof (cells_range x) as C. split; [|split; [apply cells_close | auto]].
    split; [unfold cells_of; lia|]. f_equal. f_equal. unfold cells_of. lia.
  - do 2 eexists. split; [reflexivity|]. apply Bool.orb_false_iff in E as [E1 E2].
    apply Bool.negb_false_iff in E1, E2. apply str_eqb_true in E2. split; [apply S2; exact E2|]. split; [reflexivity|].
    unfold Reqb in E1. destruct (Req_EM_T last (percent_of x)) as [->|]; [exact P1 | discriminate].
Qed.
(** More progress never has fewer filled cells or a smaller percentage. *)
Theorem C58_monotone x y last last' shx shy kx ky lx ly :
  x <= y -> update_progress (PFloat x) last = Ok (Some shx, lx) -> update_progress (PFloat y) last' = Ok (Some shy, ly) ->
  ten_cells kx (bar shx) -> ten_cells ky (bar shy) -> (kx <= ky)%nat /\ percent shx <= percent shy.
Proof.
  intros Hxy Hx Hy [_ Kx] [_ Ky]. rewrite progress_float in Hx, Hy. cbv zeta in Hx, Hy.
  destruct (_ || _) in Hx; [|discriminate]. destruct (_ || _) in Hy; [|discriminate].
  injection Hx as <- _. injection Hy as <- _. cbn [bar percent] in *.
  assert (L : limited x <= limited y).
  { unfold limited. apply Rle_max_compat_l. apply Rle_min_compat_l. exact Hxy. }
  assert (N : forall k j m n, repeat "#"%char k ++ repeat "-"%char j = repeat "#"%char m ++ repeat "-"%char n -> k = m).
  { induction k as [|k IH]; intros j [|m] n E; cbn in E.
    - reflexivity.
    - destruct j; cbn in E; discriminate.
    - destruct n; cbn in E; discriminate.
    - injection E as E. f_equal. exact (IH _ _ _ E). }
  apply N in Kx. apply N in Ky. subst kx ky. split.
  - unfold cells_of. apply Z2Nat.inj_le; [apply cells_range | apply cells_range |]. apply py_round_mono. lra.
  - unfold percent_of. apply Rmult_le_compat_r; [lra|]. apply IZR_le. apply py_round_mono. lra.
Qed.
(** Between two numbers of cells the even one is shown. *)
Theorem C58_halves x z last sh l k : 0 <= x <= 1 -> 10 * x = IZR z + 1 / 2 -> update_progress (PFloat x) last = Ok (Some sh, l) -> ten_cells k (bar sh) -> Nat.even k = true.
Proof.
  intros Hx Hz U [_ K]. rewrite progress_float in U. cbv zeta in U. destruct (_ || _) in U; [|discriminate]. injection U as <- _. cbn [bar] in K.
  assert (N : forall k j m n, repeat "#"%char k ++ repeat "-"%char j = repeat "#"%char m ++ repeat "-"%char n -> k = m).
  { clear. induction k as [|k IH]; intros j [|m] n E; cbn in E.
    - reflexivity.
    - destruct j; cbn in E; discriminate.
    - destruct n; cbn in E; discriminate.
    - injection E as E. f_equal. exact (IH _ _ _ E). }
  apply N in K. subst k. pose proof (cells_range x) as C. unfold cells_of.
  assert (L : limited x = x) by (unfold limited; rewrite Rmin_right by lra; rewrite Rmax_right by lra; reflexivity). rewrite L, Hz in *.
  assert (E : Z.even (py_round (IZR z + 1 / 2)) = true).
  { unfold py_round. rewrite (up_half z). replace (z + 1 - 1)%Z with z by ring. replace (IZR z + 1 / 2 - IZR z) with (1 / 2) by ring.
    rewrite Rltb_false by lra. destruct (Z.even z) eqn:Ev; [exact Ev|]. rewrite Z.even_add, Ev. reflexivity. }
  destruct (py_round (IZR z + 1 / 2)) as [|p|p]; [reflexivity| |lia]. rewrite <- (Z2Nat.id (Z.pos p)) in E by lia.
  set (n := Z.to_nat (Z.pos p)) in *. clearbody n. rewrite <- E. clear. induction n as [n IH] using lt_wf_ind. destruct n as [|[|n]]; [reflexivity|reflexivity|]. cbn [Nat.even]. rewrite (IH n) by lia.
  rewrite !Nat2Z.inj_succ, Z.even_succ_succ. reflexivity.
Qed.
Example C58_case : exists o l, update_progress (PFloat (1/2)) 0 = Ok (Some o, l) /\ bar o = S_ "#####-----" /\ percent o = 50 /\ status o = [].
Proof.
  rewrite progress_float. cbv zeta.
  assert (L : limited (1/2) = 1/2) by (unfold limited; rewrite Rmin_right by lra; rewrite Rmax_right by lra; reflexivity).
  assert (P : percent_of (1/2) = 50).
  { unfold percent_of. rewrite L. replace (1 / 2 * 100 * 10) with (IZR 500) by lra. rewrite py_round_int. lra. }
  unfold cells_of. rewrite L, P. replace (10 * (1 / 2)) with (IZR 5) by lra. rewrite py_round_int.
  assert (S : snd (clamp (1/2) []) = []) by (apply (clamp_status (1/2)); lra). rewrite S.
  unfold Reqb. destruct (Req_EM_T 0 50) as [E|_]; [lra|]. cbn [negb orb]. do 2 eexists. split; [reflexivity|]. auto.
Qed.

(** C73 is false: the documented integers are shown as errors. *)
Theorem C73_integers_refuted : exists z last sh l, update_progress (PInt z) last = Ok (Some sh, l) /\
  (0 <= z)%Z /\ status sh = S_ "error: progress var must be float" /\ percent sh = 0 /\
  ~ update_progress (PInt z) last = update_progress (PFloat (IZR z)) last.
Proof.
  exists 1%Z, 0. assert (L : fst (clamp 0 (S_ "error: progress var must be float")) = 0 /\ snd (clamp 0 (S_ "error: progress var must be float")) = S_ "error: progress var must be float").
  { unfold clamp. rewrite Rltb_false by lra. rewrite Rleb_false by lra. split; reflexivity. }
  unfold update_progress at 1 2. destruct (clamp 0 (S_ "error: progress var must be float")) as [y st]. cbn [fst snd] in L. destruct L as [-> ->].
  cbn [bind]. replace (0 * 100 * 10) with (IZR 0) by ring. rewrite py_round_int.
  replace (negb (str_eqb (S_ "error: progress var must be float") [])) with true by reflexivity. rewrite orb_true_r.
  do 2 eexists. split; [reflexivity|]. split; [lia|]. split; [reflexivity|]. split; [cbn; lra|].
  rewrite progress_float. cbv zeta. destruct (_ || _); [|discriminate]. intros E. injection E as _ _ E _.
  destruct (clamp_status 1) as [S _]. rewrite <- E in S. inversion S; subst; lra.
Qed.
(** What happens with everything that is not a float: an empty bar with an
    error, or a TypeError for the type int itself. *)
Theorem C73_other_values_partial p last : match p with
  | PFloat _ => True
  | PIntType => update_progress p last = Err TypeError
  | _ => exists sh, update_progress p last = Ok (Some sh, 0) /\ ten_cells 0 (bar sh) /\ percent sh = 0 /\ status sh = S_ "error: progress var must be float"
  end.
Proof.
  assert (K : exists sh, update_progress POther last = Ok (Some sh, 0) /\ ten_cells 0 (bar sh) /\ percent sh = 0 /\ status sh = S_ "error: progress var must be float").
  { unfold update_progress, clamp. rewrite Rltb_false by lra. rewrite Rleb_false by lra. cbn [bind].
    replace (0 * 100 * 10) with (IZR 0) by ring. replace (10 * 0) with (IZR 0) by ring. rewrite !py_round_int.
    replace (negb (str_eqb (S_ "error: progress var must be float") [])) with true by reflexivity. rewrite orb_true_r.
    replace (IZR 0 / 10) with 0 by lra. eexists. split; [reflexivity|]. split; [split; [lia | reflexivity]|]. split; reflexivity. }
  destruct p; [exact I | exact K | reflexivity | exact K].
Qed.

(** * C59: input and output of the plot command *)
Lemma chosen_fun w a g g' : chosen w a g -> chosen w a g' -> g = g'.
Proof. intros H H'. apply find_chosen in H. apply find_chosen in H'. congruence. Qed.
Theorem C59_unclear_input_exits w a : (forall g, ~ chosen w a g) -> plot_command w a = ([], Exited).
Proof.
  intros H. unfold plot_command. destruct (find_gcode_file w (arg_gcode a)) as [g|] eqn:E; [|reflexivity].
  apply find_chosen in E. destruct (H g E).
Qed.
Theorem C59_missing_presets_exits w a p : arg_presets a = Some p -> is_file w p = false ->
  exists es o, plot_command w a = (es, o) /\ Forall (fun e => e = Ask) es /\ (o = Exited \/ o = NoInput).
Proof.
  intros Hp Hf. unfold plot_command. destruct (find_gcode_file w (arg_gcode a)) as [g|].
  2:{ exists [], Exited. split; [reflexivity|]. split; [constructor | left; reflexivity]. }
  assert (K : exists es o, get_out_dir w (arg_out_dir a) g = (es, o) /\ Forall (fun e => e = Ask) es).
  { unfold get_out_dir. destruct (arg_out_dir a) as [d|]; [exists [], (Some (Some (Given d))); split; [reflexivity | constructor]|].
    destruct (ask_spec (answers w)) as (es & r & E & F & _). rewrite E. eexists. eexists. split; [reflexivity | exact F]. }
  destruct K as (es & o & E & F). rewrite E. exists es. destruct o as [od|].
  - unfold get_presets. rewrite Hp, Hf. exists Exited. auto.
  - exists NoInput. auto.
Qed.
(** The parts of a command that got as far as simulating. *)
Lemma out_dir_spec w a g es o : chosen w a g -> get_out_dir w (arg_out_dir a) g = (es, o) ->
  Forall (fun e => e = Ask /\ arg_out_dir a = None) es /\
  (forall d, o = Some (Some d) -> may_write w a d) /\
  (forall n s, arg_out_dir a = None -> first_answer w n s -> is_no s -> o = Some None /\ length es = S n).
Proof.
  intros Hg E. unfold get_out_dir in E. destruct (arg_out_dir a) as [d|] eqn:Ea.
  - injection E as <- <-. split; [constructor|]. split; [|discriminate]. intros d' E. injection E as <-. apply mw_given. exact Ea.
  - destruct (ask_spec (answers w)) as (es' & r & E' & F & H). rewrite E' in E. injection E as <- <-. split; [|split].
    + eapply Forall_impl; [|exact F]. auto.
    + intros d. destruct r as [[|]|]; cbn; try discriminate. intros Ed. injection Ed as <-.
      destruct H as (be & s & af & El & Hl & Hb & Hy). apply (mw_asked w a g (length be) s); try assumption.
      exists be, af. auto.
    + intros n s _ (be & af & El & -> & Hb & _) Hn.
      assert (U : forall l1 l2 x y r1 r2, l1 ++ x :: r1 = l2 ++ y :: r2 -> Forall (fun z => ~ is_yes z /\ ~ is_no z) l1 -> Forall (fun z => ~ is_yes z /\ ~ is_no z) l2 ->
                   is_yes x \/ is_no x -> is_yes y \/ is_no y -> l1 = l2 /\ x = y).
      { clear. induction l1 as [|u l1 IH]; intros [|v l2] x y r1 r2 E F1 F2 Hx Hy; cbn in E; injection E as E1 E2.
        - auto.
        - subst v. inversion F2; subst. tauto.
        - subst u. inversion F1; subst. tauto.
        - subst v. inversion F1; inversion F2; subst. destruct (IH _ _ _ _ _ E2) as [-> ->]; auto. }
      destruct r as [yes|].
      * destruct H as (be' & s' & af' & El' & Hl' & Hb' & Hy'). rewrite El in El'.
        destruct (U _ _ _ _ _ _ El' Hb Hb') as [-> ->]; [right; exact Hn | destruct yes; auto |].
        split; [|exact Hl']. destruct yes; [destruct (yes_not_no _ Hy' Hn) | reflexivity].
      * destruct H as [H _]. rewrite El in H. apply Forall_app in H as [_ H]. inversion H; subst. tauto.
Qed.
Lemma saved_writes w g d m s es e : save_outputs w g d m s = (es, e) -> forall x d', In x es -> writes x d' -> d' = d.
Proof.
  intros H x d' Hin Hw. unfold save_outputs in H. destruct (save_summary (sim_query m)) as [c|].
  - destruct (save_layer_metrics _ _) as [[r|]|]; injection H as <- _; unfold save_plot in Hin; destruct (display w);
      repeat (destruct Hin as [<-|Hin]; [inversion Hw; reflexivity|]); destruct Hin.
  - injection H as <- _. destruct Hin as [<-|[]]. inversion Hw; reflexivity.
Qed.
Lemma saved_no_ask w g d m s es e : save_outputs w g d m s = (es, e) -> ~ In Ask es.
Proof.
  intros H Hin. unfold save_outputs in H. destruct (save_summary (sim_query m)) as [c|].
  - destruct (save_layer_metrics _ _) as [[r|]|]; injection H as <- _; unfold save_plot in Hin; destruct (display w);
      repeat (destruct Hin as [E|Hin]; [discriminate|]); destruct Hin.
  - injection H as <- _. destruct Hin as [E|[]]. discriminate.
Qed.
(** Every way through the command: the questions, then at most the output. *)
Lemma command_cases w a es o : plot_command w a = (es, o) ->
  (es = [] /\ o = Exited /\ forall g, ~ chosen w a g) \/
  exists g es0 out, chosen w a g /\ get_out_dir w (arg_out_dir a) g = (es0, out) /\
   ((es = es0 /\ o <> Finished) \/
    exists presets m s es1 e, get_presets w (arg_presets a) = Some presets /\ simulate_file w a g presets = Ok (m, s) /\
      ((out = Some None /\ es1 = [] /\ e = None) \/ exists d, out = Some (Some d) /\ save_outputs w g d m s = (es1, e)) /\
      ((exists x, e = Some x /\ es = es0 ++ es1 /\ o = Raised x) \/
       (e = None /\ es = es0 ++ es1 ++ show_plot w (plot_3d_lines true (blocklist (sim_query m))) /\ o = Finished))).
Proof.
  unfold plot_command. destruct (find_gcode_file w (arg_gcode a)) as [g|] eqn:Eg.
  - apply find_chosen in Eg. destruct (get_out_dir w (arg_out_dir a) g) as [es0 out] eqn:Eo. intros H. right.
    exists g, es0, out. split; [exact Eg|]. split; [exact Eo|]. destruct out as [od|].
    + destruct (get_presets w (arg_presets a)) as [pr|]; [|injection H as <- <-; left; split; [reflexivity | discriminate]].
      destruct (simulate_file w a g pr) as [[m s]|e] eqn:Es; [|injection H as <- <-; left; split; [reflexivity | discriminate]].
      right. exists pr, m, s. destruct od as [d|].
      * destruct (save_outputs w g d m s) as [es1 e] eqn:Ee. exists es1, e. split; [reflexivity|]. split; [exact Es|].
        split; [right; exists d; auto|]. destruct e as [x|]; injection H as <- <-; [left; exists x; auto | right; auto].
      * exists [], None. split; [reflexivity|]. split; [exact Es|]. split; [left; auto|]. injection H as <- <-. right. auto.
    + injection H as <- <-. left. split; [reflexivity | discriminate].
  - intros H. injection H as <- <-. left. split; [reflexivity|]. split; [reflexivity|]. intros g Hg. apply find_chosen in Hg. congruence.
Qed.
(** The steps before the output are those of the specification. *)
Lemma presets_ok w a presets : get_presets w (arg_presets a) = Some presets <-> presets_used w a presets.
Proof.
  unfold get_presets. split.
  - destruct (arg_presets a) as [p|] eqn:E; [destruct (is_file w p) eqn:Ef; [|discriminate]|]; intros H; injection H as <-;
      [apply pu_file; assumption | apply pu_default; exact E].
  - intros [E|p E Ef]; rewrite E; [reflexivity|]. rewrite Ef. reflexivity.
Qed.
Lemma printer_ok a n : printer_used a n <-> printer_of a = n.
Proof.
  unfold printer_of. split.
  - intros [E|m E]; rewrite E; reflexivity.
  - destruct (arg_printer a) as [m|] eqn:E; intros <-; [apply pr_given | apply pr_default]; exact E.
Qed.
Lemma simulates_file w a g m s : simulates w a g m s <->
  exists presets, get_presets w (arg_presets a) = Some presets /\ simulate_file w a g presets = Ok (m, s).
Proof.
  unfold simulates, simulate_file. split.
  - intros (presets & n & s0 & Hp & Hn & E0 & E). exists presets. split; [apply presets_ok; exact Hp|].
    apply printer_ok in Hn. rewrite Hn, E0. exact E.
  - intros (presets & Hp & E). destruct (new_setup presets (Some (printer_of a)) (arg_layer_cue a)) as [s0|e] eqn:E0; [|discriminate E].
    exists presets, (printer_of a), s0. split; [apply presets_ok; exact Hp|]. split; [apply printer_ok; reflexivity|]. split; [exact E0 | exact E].
Qed.
(** Files are written only to the given folder, or to output_* in the current
    folder after a first valid answer yes. *)
Theorem C59_writes_only_where_allowed w a es o e d : plot_command w a = (es, o) -> In e es -> writes e d -> may_write w a d.
Proof.
  intros H Hin Hw. destruct (command_cases _ _ _ _ H) as [(-> & _)|(g & es0 & out & Hg & Eo & K)]; [destruct Hin|].
  destruct (out_dir_spec _ _ _ _ _ Hg Eo) as (Hask & Hmw & _). rewrite Forall_forall in Hask.
  assert (Hq : ~ In e es0) by (intros Hi; destruct (Hask e Hi) as [-> _]; inversion Hw).
  destruct K as [[-> _]|(pr & m & s & es1 & x & _ & _ & Ho & K)]; [contradiction|].
  assert (Hin1 : In e es1).
  { destruct K as [(y & _ & -> & _)|(_ & -> & _)]; apply in_app_or in Hin as [Hin|Hin]; try contradiction; [exact Hin|].
    apply in_app_or in Hin as [Hin|Hin]; [exact Hin|]. unfold show_plot in Hin. destruct (display w); [destruct Hin as [<-|[]]; inversion Hw | destruct Hin]. }
  destruct Ho as [(_ & -> & _)|(d' & -> & Es)]; [destruct Hin1|].
  rewrite (saved_writes _ _ _ _ _ _ _ Es e d Hin1 Hw). apply Hmw. reflexivity.
Qed.
(** Questions are asked only if no folder is given. *)
Theorem C59_asks_only_without_folder w a es o : plot_command w a = (es, o) -> In Ask es -> arg_out_dir a = None.
Proof.
  intros H Hin. destruct (command_cases _ _ _ _ H) as [(-> & _)|(g & es0 & out & Hg & Eo & K)]; [destruct Hin|].
  destruct (out_dir_spec _ _ _ _ _ Hg Eo) as (Hask & _). rewrite Forall_forall in Hask.
  assert (Hin0 : In Ask es0); [|apply (Hask _ Hin0)].
  destruct K as [[-> _]|(pr & m & s & es1 & x & _ & _ & Ho & K)]; [exact Hin|].
  assert (Hn : ~ In Ask es1).
  { destruct Ho as [(_ & -> & _)|(d' & _ & Es)]; [intros []|]. exact (saved_no_ask _ _ _ _ _ _ _ Es). }
  destruct K as [(y & _ & -> & _)|(_ & -> & _)]; apply in_app_or in Hin as [Hin|Hin]; try exact Hin; [contradiction|].
  apply in_app_or in Hin as [Hin|Hin]; [contradiction|]. unfold show_plot in Hin. destruct (display w); [destruct Hin as [E|[]]; discriminate | destruct Hin].
Qed.
(** After a first valid answer no nothing is written. *)
Theorem C59_no_means_no w a es o n s : plot_command w a = (es, o) -> arg_out_dir a = None -> first_answer w n s -> is_no s ->
  forall e d, In e es -> ~ writes e d.
Proof.
  intros H Ha Hf Hn e d Hin Hw. pose proof (C59_writes_only_where_allowed _ _ _ _ _ _ H Hin Hw) as M.
  destruct (command_cases _ _ _ _ H) as [(-> & _)|(g & es0 & out & Hg & Eo & K)]; [destruct Hin|].
  destruct (out_dir_spec _ _ _ _ _ Hg Eo) as (Hask & _ & Hno). destruct (Hno n s Ha Hf Hn) as [-> _]. rewrite Forall_forall in Hask.
  destruct K as [[-> _]|(pr & m & st & es1 & x & _ & _ & Ho & K)]; [destruct (Hask e Hin) as [-> _]; inversion Hw|].
  destruct Ho as [(_ & -> & ->)|(d' & Ed & _)]; [|discriminate].
  destruct K as [(y & Ey & _)|(_ & -> & _)]; [discriminate|]. apply in_app_or in Hin as [Hin|Hin]; [destruct (Hask e Hin) as [-> _]; inversion Hw|].
  unfold show_plot in Hin. destruct (display w); [destruct Hin as [<-|[]]; inversion Hw | destruct Hin].
Qed.
(** Whatever is shown or written belongs to a simulation of the chosen file
    with the chosen presets, and on a display a regular end shows the plot last. *)
Theorem C59_shows_the_chosen_file w a es o : plot_command w a = (es, o) ->
  (o = Finished \/ exists e d, In e es /\ writes e d) ->
  exists g m s, chosen w a g /\ simulates w a g m s /\ Forall (belongs m s) es /\
    (o = Finished -> display w = true -> ends (fun e => exists lines, e = ShowPlot lines) es /\ es <> []).
Proof.
  intros H Hor. destruct (command_cases _ _ _ _ H) as [(-> & -> & _)|(g & es0 & out & Hg & Eo & K)].
  { destruct Hor as [E|(e & d & [] & _)]. discriminate. }
  destruct (out_dir_spec _ _ _ _ _ Hg Eo) as (Hask & _). 
  destruct K as [[-> Hnf]|(pr & m & s & es1 & x & Hpr & Hsim & Ho & K)].
  { destruct Hor as [E|(e & d & Hin & Hw)]; [contradiction|]. rewrite Forall_forall in Hask. destruct (Hask e Hin) as [-> _]. inversion Hw. }
  exists g, m, s. split; [exact Hg|]. split; [apply simulates_file; exists pr; split; assumption|].
  destruct (C56_lines_are_extruding_runs (blocklist (sim_query m))) as (rs & R1 & R2 & _).
  assert (B0 : Forall (belongs m s) es0) by (eapply Forall_impl; [|exact Hask]; intros e [-> _]; constructor).
  assert (B1 : Forall (belongs m s) es1).
  { destruct Ho as [(_ & -> & _)|(d & _ & Es)]; [constructor|]. unfold save_outputs in Es.
    destruct (save_summary (sim_query m)) as [c|] eqn:Ec; [|injection Es as <- _; constructor; [constructor | constructor]].
    destruct (save_layer_metrics _ _) as [[r|]|] eqn:El; injection Es as <- _; cbn [app]; unfold save_plot; destruct (display w);
      repeat (apply Forall_cons || apply Forall_nil); try (econstructor; eassumption). }
  destruct K as [(y & _ & -> & ->)|(_ & -> & _)].
  - split; [apply Forall_app; split; assumption | discriminate].
  - split.
    + apply Forall_app. split; [exact B0|]. apply Forall_app. split; [exact B1|]. unfold show_plot. destruct (display w); constructor; [|constructor]. econstructor; eassumption.
    + intros _ Hd. unfold show_plot. rewrite Hd, app_assoc. split; [|destruct (es0 ++ es1); discriminate].
      unfold ends. rewrite rev_app_distr. cbn. eauto.
Qed.
(** Without a display no picture is saved and nothing is shown. *)
Theorem C59_no_display w a es o e : plot_command w a = (es, o) -> display w = false -> In e es ->
  (forall d n lines, e <> SavePicture d n lines) /\ (forall lines, e <> ShowPlot lines).
Proof.
  intros H Hd Hin. destruct (command_cases _ _ _ _ H) as [(-> & _)|(g & es0 & out & Hg & Eo & K)]; [destruct Hin|].
  destruct (out_dir_spec _ _ _ _ _ Hg Eo) as (Hask & _). rewrite Forall_forall in Hask.
  assert (H0 : forall e, In e es0 -> (forall d n lines, e <> SavePicture d n lines) /\ (forall lines, e <> ShowPlot lines)).
  { intros x Hx. destruct (Hask x Hx) as [-> _]. split; discriminate. }
  destruct K as [[-> _]|(pr & m & s & es1 & x & _ & _ & Ho & K)]; [exact (H0 e Hin)|].
  assert (H1 : forall e, In e es1 -> (forall d n lines, e <> SavePicture d n lines) /\ (forall lines, e <> ShowPlot lines)).
  { intros y Hy. destruct Ho as [(_ & -> & _)|(d & _ & Es)]; [destruct Hy|]. unfold save_outputs, save_plot in Es. rewrite Hd in Es.
    destruct (save_summary (sim_query m)) as [c|]; [destruct (save_layer_metrics _ _) as [[r|]|]|]; injection Es as <- _;
      repeat (destruct Hy as [<-|Hy]; [split; discriminate|]); destruct Hy. }
  destruct K as [(y & _ & -> & _)|(_ & -> & _)]; apply in_app_or in Hin as [Hin|Hin]; auto.
  apply in_app_or in Hin as [Hin|Hin]; [auto|]. unfold show_plot in Hin. rewrite Hd in Hin. destruct Hin.
Qed.

(** A folder with one G-code file, the printer of the setup examples, and a user
    who hesitates and then answers no. *)
Definition ex_screen (screen : bool) (lines : list str) : world := World
  (fun f => str_eqb f (S_ "part.gcode")) [S_ "part.gcode"] (fun _ => lines) (fun _ => []) ex_presets
  [S_ "maybe"; S_ "N"] (fun f => firstn 4 f) screen.
Definition ex_world : list str -> world := ex_screen true.
Definition ex_args (out : option str) : plot_args := PlotArgs None None (Some (S_ "anycubic")) out None.
Lemma ex_chosen lines out : chosen (ex_world lines) (ex_args out) (S_ "part.gcode").
Proof. apply c_only; reflexivity. Qed.
Lemma ex_simulated out : exists m s k0 ks, simulate_file (ex_world ex_lines) (ex_args out) (S_ "part.gcode") ex_presets = Ok (m, s) /\
  valid_program k0 ks /\ simulate MarlinJerk (k0 :: ks) = Ok (blocklist (sim_query m), false) /\
  same_command corner_start k0 /\ Forall2 same_command corner_program ks /\ sim_query m = Sim (blocklist (sim_query m)) (S_ "SImm") None /\ blocklist (sim_query m) <> [].
Proof.
  destruct ex_states as (sts & Hsts & Hk).
  destruct (run_setup_ok _ _ _ _ _ _ _ (SetupProofs.new_setup_refines _ _ _ _ ex_new) eq_refl ex_settings ex_complete _ _ _ _ _ _ _ ex_parsed Hsts ex_zero
              (proj1 ex_run) (proj2 ex_run) (proj1 ex_commands) (proj2 ex_commands) corner_valid ex_moves (S_ "SImm"))
    as (m & s' & bl & H1 & H2 & _ & _ & _ & _ & (k0' & ks' & S0 & Ss & _ & Hsim) & Hne & _).
  exists m, s', k0', ks'. split.
  { unfold simulate_file, ex_args, ex_world, printer_of. cbn [arg_printer arg_layer_cue default_presets gcode_lines]. rewrite ex_new. exact H1. }
  split; [exact (valid_program_same _ _ _ _ S0 Ss corner_valid)|]. rewrite H2. cbn [blocklist]. split; [exact Hsim|]. split; [exact S0|]. split; [exact Ss|].
  split; [reflexivity|]. intros ->. apply Hne. reflexivity.
Qed.
(** No output folder given: two questions, then the plot. *)
Example C59_case : exists lines, plot_command (ex_world ex_lines) (ex_args None) = ([Ask; Ask; ShowPlot lines], Finished).
Proof.
  destruct (ex_simulated None) as (m & s & _ & _ & E & _). eexists. unfold plot_command.
  rewrite (proj2 (find_chosen _ _ _) (ex_chosen ex_lines None)).
  change (get_out_dir (ex_world ex_lines) (arg_out_dir (ex_args None)) (S_ "part.gcode")) with ([Ask; Ask], Some (@None folder)).
  cbn beta iota. change (get_presets (ex_world ex_lines) (arg_presets (ex_args None))) with (Some ex_presets). cbn beta iota. rewrite E. reflexivity.
Qed.

Lemma block_last fw s0 states bl wn b : valid_program s0 states -> simulate fw (s0 :: states) = Ok (bl, wn) -> In b bl ->
  exists l, last_seg (b_segs b) = Ok l.
Proof.
  intros Hv Hs Hb. destruct (LayerProofs.sim_timed _ _ _ _ _ Hv Hs) as (T & HT & _). clear Hs. induction HT as [|b' bl t t' t'' (f & l & _ & Hl & _) _ IH]; [destruct Hb|].
  destruct Hb as [<-|Hb]; [exists l; exact Hl | exact (IH Hb)].
Qed.
(** C72 is false: without extrusion nothing but the folder is written. *)
Theorem C72_output_written_refuted : exists w a g m s, chosen w a g /\ arg_out_dir a = Some (S_ "out") /\
  simulates w a g m s /\ blocklist (sim_query m) <> [] /\
  plot_command w a = ([MakeDir (Given (S_ "out"))], Raised ValueError).
Proof.
  set (a := ex_args (Some (S_ "out"))).
  destruct (ex_simulated (Some (S_ "out"))) as (m & s & k0 & ks & E & Hv & Hsim & S0 & Ss & Eq & Hne).
  exists (ex_world ex_lines), a, (S_ "part.gcode"), m, s. split; [apply ex_chosen|]. split; [reflexivity|].
  split; [apply simulates_file; exists ex_presets; split; [reflexivity | exact E]|]. split; [exact Hne|].
  assert (Hx : extrusion_extent (sim_query m) None = Err ValueError).
  { rewrite Eq. apply (C45_no_extrusion _ _ _ _ _ Hv Hsim (S_ "SImm") None). intros b Hb Hf.
    destruct (sim_blocks _ _ _ _ _ Hv Hsim) as (items & Hi & Em).
    assert (HI : In (b_A b, b_B b, b_extr b) (map (fun b => (b_A b, b_B b, b_extr b)) (blocklist (sim_query m)))) by (apply in_map_iff; eauto).
    rewrite Em in HI. apply in_map_iff in HI as ([[A B] rest] & Eb & HI). injection Eb as EA EB _.
    assert (Hz : forall k, In k (k0 :: ks) -> ve (k_pos k) = 0).
    { intros k [<-|Hk]; [destruct S0 as [<- _]; reflexivity|].
      inversion Ss as [|? x1 ? ks1 Q1 Q2]; subst. inversion Q2 as [|? x2 ? ks2 Q3 Q4]; subst. inversion Q4; subst.
      destruct Hk as [<-|[<-|[]]]; [destruct Q1 as [<- _] | destruct Q3 as [<- _]]; reflexivity. }
    assert (Hin : forall A0 sts l, plan_items A0 sts l -> In (A, B, rest) l -> In A (A0 :: sts) /\ In B sts).
    { clear. intros A0 sts l Hp. induction Hp as [|A0 B0 r0 l _ _ Hp IH|A0 B0 r0 l _ Hp IH]; intros HI; [destruct HI | |].
      - destruct (IH HI) as [H1 H2]. split; right; assumption.
      - destruct HI as [E|HI]; [injection E as -> -> ->; split; left; reflexivity|].
        destruct (IH HI) as [H1 H2]. split; right; assumption. }
    destruct (Hin _ _ _ Hi HI) as [HA HB]. unfold feeds in Hf. rewrite <- EA, <- EB, (Hz A HA), (Hz B (or_intror HB)) in Hf. lra. }
  assert (Hs : save_summary (sim_query m) = Err ValueError).
  { unfold save_summary. destruct (rev (blocklist (sim_query m))) as [|b l] eqn:Er.
    - destruct Hne. rewrite <- (rev_involutive (blocklist (sim_query m))), Er. reflexivity.
    - assert (Hb : In b (blocklist (sim_query m))) by (apply in_rev; rewrite Er; left; reflexivity).
      destruct (last_seg (b_segs b)) as [l0|] eqn:El; [cbn [bind]; rewrite Hx; reflexivity|].
      destruct (block_last _ _ _ _ _ _ Hv Hsim Hb) as (? & ?). congruence. }
  unfold a, plot_command. rewrite (proj2 (find_chosen _ _ _) (ex_chosen ex_lines (Some (S_ "out")))).
  change (get_out_dir (ex_world ex_lines) (arg_out_dir (ex_args (Some (S_ "out")))) (S_ "part.gcode")) with (@nil effect, Some (Some (Given (S_ "out")))).
  cbn beta iota. change (get_presets (ex_world ex_lines) (arg_presets (ex_args (Some (S_ "out"))))) with (Some ex_presets). cbn beta iota. rewrite E.
  unfold save_outputs. rewrite Hs. reflexivity.
Qed.

(** As soon as something is extruded, summary, mesh, picture and, with a layer
    cue, layer metrics are written, and the plot is shown, if there is a display.
    The plot consists of the extruding runs of the path.  Missing for the full
    property: prints without extrusion, and the picture without a display. *)
Theorem C72_output_written_partial w a g d m s fw k0 ks wn u k rows :
  chosen w a g -> arg_out_dir a = Some d -> simulates w a g m s ->
  valid_program k0 ks -> no_moving_pause k0 ks -> simulate fw (k0 :: ks) = Ok (blocklist (sim_query m), wn) ->
  sim_query m = Sim (blocklist (sim_query m)) u None -> unit_length u k ->
  (exists b, In b (blocklist (sim_query m)) /\ feeds b) ->
  save_layer_metrics (dmem (S_ "layer_cue") (deref (sim_setup m) s)) (blocklist (sim_query m)) = Ok rows ->
  exists content rs lines, save_summary (sim_query m) = Ok content /\
    runs extrudes (unpack_blocklist (blocklist (sim_query m))) rs /\ Forall2 along rs lines /\
    plot_command w a =
      (MakeDir (Given d) :: SaveSummary (Given d) (stem w g ++ S_ "_summary.yaml") content ::
       match rows with Some r => [SaveLayers (Given d) (stem w g ++ S_ "_layer_metrics.csv") r] | None => [] end ++
       SaveMesh (Given d) (stem w g ++ S_ ".vtk") lines ::
       (if display w then [SavePicture (Given d) (stem w g ++ S_ ".png") lines; ShowPlot lines] else []), Finished).
Proof.
  intros Hg Ho Hms Hv Hnm Hs Eq Hu Hf Hr. apply simulates_file in Hms as (presets & Hpr & Hsim).
  assert (Hsum : exists content, save_summary (sim_query m) = Ok content).
  { pose proof Hf as (b0 & Hb0 & _). unfold save_summary. destruct (rev (blocklist (sim_query m))) as [|b l] eqn:Er.
    - exfalso. apply in_rev in Hb0. rewrite Er in Hb0. destruct Hb0.
    - assert (Hb : In b (blocklist (sim_query m))) by (apply in_rev; rewrite Er; left; reflexivity).
      destruct (block_last _ _ _ _ _ _ Hv Hs Hb) as (l0 & El). rewrite El. cbn [bind].
      destruct (C45_extent _ _ _ _ _ Hv Hs u None k Hnm Hf Hu) as (x0 & y0 & z0 & x1 & y1 & z1 & Ex & _). rewrite <- Eq in Ex. rewrite Ex. cbn [bind].
      destruct (C46_max_vel _ _ _ _ _ Hv Hs u None k Hf Hu) as (mv & Em & _). rewrite <- Eq in Em. rewrite Em. cbn [bind]. eauto. }
  destruct Hsum as (content & Ec). destruct (C56_lines_are_extruding_runs (blocklist (sim_query m))) as (rs & R1 & R2 & _).
  exists content, rs, (plot_3d_lines true (blocklist (sim_query m))). split; [exact Ec|]. split; [exact R1|]. split; [exact R2|].
  unfold plot_command. rewrite (proj2 (find_chosen _ _ _) Hg), Ho. cbn [get_out_dir]. rewrite Hpr, Hsim. unfold save_outputs. rewrite Ec, Hr.
  unfold save_plot, show_plot. destruct rows, (display w); reflexivity.
Qed.
(** One extruding line meets the hypotheses. *)
Definition ex2_lines : list str := [S_ "G1 X10 E1"].
Definition ex2_ls : list line_dict := [{| ld := [(S_ "G1", ADict [(S_ "E", LNum (Dec 1 0)); (S_ "X", LNum (Dec 10 0))])]; ld_number := 1 |}].
Definition ex2_end : kstate := KState (V4 10 0 0 1) 10 100 20 None None.
Lemma ex2_parsed : read_gcode_to_dict_list ex2_lines = Ok ex2_ls.
Proof. vm_compute. reflexivity. Qed.
Lemma ex2_states : exists sts, generate_states Rops ex2_lines ex_su = Ok sts /\ to_kstates sts = Ok [corner_start; ex2_end].
Proof.
  unfold generate_states. rewrite ex2_parsed. cbn [bind]. eexists. split; [lazy -[Rplus Rmult Rdiv Rinv IZR]; reflexivity|].
  lazy -[Rplus Rmult Rdiv Rinv IZR]. unfold corner_start, ex2_end.
  match goal with |- Ok ?x = Ok ?y => cut (x = y); [intros ->; reflexivity|] end.
  repeat match goal with |- cons _ _ = cons _ _ => f_equal end; f_equal; try (f_equal; lra); try lra.
Qed.
Definition ex2_machine : gmachine :=
  {| g_pos := fun a => match a with AX => 10 | AE => 1 | _ => 0 end; g_off := fun _ => 0; g_abs := fun _ => true;
     g_feed := SNum (N := Rops) 10; g_acc := SNum (N := Rops) 100; g_jerk := SNum (N := Rops) 20;
     g_lim := fun a => SNum (N := Rops) (match a with AX => 180 | AY => 180 | AZ => 30 | AE => 33 end); g_unit := S_ "SImm" |}.
Lemma ex2_run : g_run (ex_machine 0 0) ex2_ls [ex2_machine].
Proof.
  assert (M : means (N := Rops) (LNum (Dec 10 0)) 10) by (exists 10%Z, 0%Z; split; reflexivity).
  assert (M1 : means (N := Rops) (LNum (Dec 1 0)) 1) by (exists 1%Z, 0%Z; split; reflexivity).
  econstructor; [|constructor].
  split; [intros a; destruct a; reflexivity|]. split; [reflexivity|]. split.
  + exists (g_pos (ex_machine 0 0)). split; intros a; destruct a; cbn; try reflexivity; [exists 10 | exists 1]; (split; [assumption|lra]).
  + split; [intros a; destruct a; reflexivity|]. repeat split; intros a; destruct a; reflexivity.
Qed.
Lemma ex2_commands : command_list ex2_ls [ex2_machine] [ex2_end].
Proof. repeat constructor. Qed.
Lemma ex2_valid : valid_program corner_start [ex2_end].
Proof.
  split; [|split].
  - repeat first [apply Forall_nil | apply Forall_cons]; (split; [simpl; lra|]; split; [simpl; lra|]; split; [simpl; lra|]);
      intros p Hp; discriminate Hp.
  - reflexivity.
  - simpl. split; [reflexivity|]. left. intros E. apply (f_equal vx) in E. simpl in E. lra.
Qed.
Lemma ex2_zero : Forall g92_zero ex2_ls.
Proof. repeat constructor; intros a lf H; destruct a; discriminate H. Qed.
Lemma ex2_command screen : exists content lines m s,
  simulate_file (ex_screen screen ex2_lines) (ex_args (Some (S_ "out"))) (S_ "part.gcode") ex_presets = Ok (m, s) /\
  (exists b, In b (blocklist (sim_query m)) /\ feeds b) /\
  plot_command (ex_screen screen ex2_lines) (ex_args (Some (S_ "out"))) =
    (MakeDir (Given (S_ "out")) :: SaveSummary (Given (S_ "out")) (S_ "part_summary.yaml") content ::
     SaveMesh (Given (S_ "out")) (S_ "part.vtk") lines ::
     (if screen then [SavePicture (Given (S_ "out")) (S_ "part.png") lines; ShowPlot lines] else []), Finished).
Proof.
  destruct ex2_states as (sts & Hsts & Hk).
  assert (Hm : exists k, In k [ex2_end] /\ k_pos k <> k_pos corner_start).
  { exists ex2_end. split; [left; reflexivity|]. intros E. apply (f_equal vx) in E. simpl in E. lra. }
  destruct (run_setup_ok _ _ _ _ _ _ _ (SetupProofs.new_setup_refines _ _ _ _ ex_new) eq_refl ex_settings ex_complete _ _ _ _ _ _ _ ex2_parsed Hsts ex2_zero
              (proj1 ex_run) ex2_run (proj1 ex_commands) ex2_commands ex2_valid Hm (S_ "SImm"))
    as (m & s' & bl & H1 & H2 & Hset & _ & Href & Eg & (k0' & ks' & S0 & Ss & _ & Hsim) & Hne & _).
  assert (Esim : simulate_file (ex_screen screen ex2_lines) (ex_args (Some (S_ "out"))) (S_ "part.gcode") ex_presets = Ok (m, s')).
  { unfold simulate_file, ex_args, ex_screen, printer_of. cbn [arg_printer arg_layer_cue default_presets gcode_lines]. rewrite ex_new. exact H1. }
  assert (Emul : simulates (ex_screen screen ex2_lines) (ex_args (Some (S_ "out"))) (S_ "part.gcode") m s')
    by (apply simulates_file; exists ex_presets; split; [reflexivity | exact Esim]).
  assert (Eb : blocklist (sim_query m) = bl) by (rewrite H2; reflexivity).
  inversion Ss as [|? k1 ? ks1 Q1 Q2]; subst. inversion Q2; subst.
  assert (Hv : valid_program k0' [k1]) by exact (valid_program_same _ _ _ _ S0 Ss ex2_valid).
  assert (Hp0 : k_pos k0' = V4 0 0 0 0) by (destruct S0 as [<- _]; reflexivity).
  assert (Hp1 : k_pos k1 = V4 10 0 0 1) by (destruct Q1 as [<- _]; reflexivity).
  assert (Hpa : k_pause k1 = None) by (destruct Q1 as (_ & _ & _ & _ & <-); reflexivity).
  assert (Hneq : k_pos k1 <> k_pos k0') by (rewrite Hp0, Hp1; intros E; apply (f_equal vx) in E; simpl in E; lra).
  assert (Hfeed : exists b, In b (blocklist (sim_query m)) /\ feeds b).
  { destruct (sim_blocks _ _ _ _ _ Hv Hsim) as (items & Hi & Em).
    assert (Hi' : plan_items k0' [k1] [(k0', k1, [])]) by (apply pi_item; [left; exact Hneq | constructor]).
    rewrite (PlannerProofs.plan_items_fun _ _ _ _ Hi Hi') in Em. destruct (blocklist (sim_query m)) as [|b [|? ?]]; try discriminate.
    exists b. split; [left; reflexivity|]. injection Em as EA EB _. unfold feeds. rewrite EA, EB, Hp0, Hp1. simpl. lra. }
  assert (Hnm : no_moving_pause k0' [k1]) by (simpl; split; [left; exact Hpa | exact I]).
  assert (Hcue : dmem (S_ "layer_cue") (deref (sim_setup m) s') = false).
  { rewrite Hset. pose proof (f_equal snd Eg) as E. cbn [snd] in E. rewrite <- E. vm_compute. reflexivity. }
  destruct (C72_output_written_partial (ex_screen screen ex2_lines) (ex_args (Some (S_ "out"))) (S_ "part.gcode") (S_ "out") m s' _ _ _ _ (S_ "SImm") 1 None
              (c_only (ex_screen screen ex2_lines) (ex_args (Some (S_ "out"))) (S_ "part.gcode") eq_refl eq_refl) eq_refl Emul Hv Hnm Hsim) as (c & rs & l & _ & _ & _ & E).
  - rewrite H2 at 1. reflexivity.
  - constructor.
  - exact Hfeed.
  - rewrite Hcue. reflexivity.
  - exists c, l, m, s'. split; [exact Esim|]. split; [exact Hfeed | exact E].
Qed.
Example C72_case : exists content lines,
  plot_command (ex_world ex2_lines) (ex_args (Some (S_ "out"))) =
    ([MakeDir (Given (S_ "out")); SaveSummary (Given (S_ "out")) (S_ "part_summary.yaml") content;
      SaveMesh (Given (S_ "out")) (S_ "part.vtk") lines; SavePicture (Given (S_ "out")) (S_ "part.png") lines; ShowPlot lines], Finished).
Proof. destruct (ex2_command true) as (c & l & _ & _ & _ & _ & E). exists c, l. exact E. Qed.
(** C72 is false for the picture: without a display it is left out although
    material is extruded, and the command ends regularly. *)
Theorem C72_picture_refuted : exists w a g m s es, chosen w a g /\ arg_out_dir a = Some (S_ "out") /\
  simulates w a g m s /\ (exists b, In b (blocklist (sim_query m)) /\ feeds b) /\
  plot_command w a = (es, Finished) /\ forall d n lines, ~ In (SavePicture d n lines) es.
Proof.
  destruct (ex2_command false) as (c & l & m & s & Hs & Hf & E).
  exists (ex_screen false ex2_lines), (ex_args (Some (S_ "out"))), (S_ "part.gcode"), m, s. eexists.
  split; [exact (c_only (ex_screen false ex2_lines) (ex_args (Some (S_ "out"))) (S_ "part.gcode") eq_refl eq_refl)|]. split; [reflexivity|].
  split; [apply simulates_file; exists ex_presets; split; [reflexivity | exact Hs]|]. split; [exact Hf|].
  split; [exact E|]. intros d n lines Hin. exact (proj1 (C59_no_display _ _ _ _ _ E eq_refl Hin) d n lines eq_refl).
Qed.

(** * C70: the 2D plot draws the path *)
Lemma vertices_ok f path :
  plot_vertices (f :: path) = Ok (Point (vx (pos_begin f)) (vy (pos_begin f)) (norm3 (vel_begin f)) :: map corner_of (f :: path)).
Proof. reflexivity. Qed.
Lemma joined_follows eps : forall segs, joined (fun s n => t_end s = t_begin n /\ pos_end s = pos_begin n) segs ->
  joined (fun s n => Rabs (norm3 (vel_end s) - norm3 (vel_begin n)) <= eps) segs -> joined (follows eps) segs.
Proof.
  induction segs as [|s l IH]; intros J1 J2; [exact I|]. destruct J1 as [A1 B1]. destruct J2 as [A2 B2]. split; [|exact (IH B1 B2)].
  destruct l; [exact I|]. split; [apply A1 | exact A2].
Qed.
Lemma corners_2d : forall segs, Forall2 (fun p q => p_x p = vx q /\ p_y p = vy q) (map corner_of segs) (map pos_end segs).
Proof. induction segs as [|s l IH]; cbn [map]; constructor; [split; reflexivity | exact IH]. Qed.
(** In one colour: where the path begins and then where its segments end. *)
Theorem C70_black_line spacing bl :
  match unpack_blocklist bl with
  | [] => plot_2d_points false spacing bl = Err IndexError
  | f :: path => exists pts, plot_2d_points false spacing bl = Ok pts /\
      Forall2 (fun p q => p_x p = vx q /\ p_y p = vy q) pts (pos_begin f :: map pos_end (f :: path))
  end.
Proof.
  unfold plot_2d_points. destruct (unpack_blocklist bl) as [|f path] eqn:E; [reflexivity|].
  rewrite vertices_ok. cbn [bind]. eexists. split; [reflexivity|].
  constructor; [split; reflexivity | exact (corners_2d (f :: path))].
Qed.
(** Coloured: the drawn points are points of the segments in order, every
    segment is drawn from its begin, and where the colour changes the points
    are close enough.  Missing for the full property: the end of the path. *)
Theorem C70_in_order_partial fw s0 states bl wn spacing :
  valid_program s0 states -> simulate fw (s0 :: states) = Ok (bl, wn) -> bl <> [] -> 0 < spacing ->
  exists pts parts, plot_2d_points true spacing bl = Ok pts /\ pts = concat parts /\
    Forall2 (fun s part => drawn_from s part /\ joined (near spacing) part) (unpack_blocklist bl) parts.
Proof.
  intros Hv Hs Hne Hsp. pose proof (proj2 (C24_contiguous_trajectory _ _ _ _ _ Hv Hs)) as J1. pose proof (C25_speeds_match _ _ _ _ _ Hv Hs) as J2.
  assert (Hn : unpack_blocklist bl <> []).
  { destruct bl as [|b bl]; [contradiction|]. destruct (block_last _ _ _ _ _ b Hv Hs (or_introl eq_refl)) as (l & Hl).
    unfold unpack_blocklist. simpl. destruct (b_segs b); [discriminate Hl | discriminate]. }
  unfold plot_2d_points. destruct (unpack_blocklist bl) as [|f path] eqn:E; [contradiction|]. rewrite vertices_ok. cbn [bind].
  unfold interp_2D. rewrite Rltb_true by exact Hsp.
  destruct (loop_parts (1/1000000000000) spacing (fun s part => drawn_from s part /\ joined (near spacing) part)) with (segs := f :: path) (old := Point (vx (pos_begin f)) (vy (pos_begin f)) (norm3 (vel_begin f)))
    as (parts & Ep & Fp).
  - intros old s H. split; [eapply part_drawn; exact H|]. apply interp_near; [exact Hsp | reflexivity].
  - exact (joined_follows _ _ J1 J2).
  - cbn [starts]. unfold at_begin. cbn [p_x p_y p_c]. split; [reflexivity|]. split; [reflexivity|].
    replace (norm3 (vel_begin f) - norm3 (vel_begin f)) with 0 by ring. rewrite Rabs_R0. lra.
  - exists (concat parts), parts. split; [f_equal; exact Ep|]. split; [reflexivity|]. exact Fp.
Qed.
(** The end is drawn if the last segment is seen and changes the speed. *)
Theorem C70_end_partial fw s0 states bl wn spacing pre l :
  valid_program s0 states -> simulate fw (s0 :: states) = Ok (bl, wn) -> 0 < spacing -> unpack_blocklist bl = pre ++ [l] ->
  seen l -> speed_before pre l <> norm3 (vel_end l) ->
  exists pts p, plot_2d_points true spacing bl = Ok (pts ++ [p]) /\ p_x p = vx (pos_end l) /\ p_y p = vy (pos_end l).
Proof.
  intros Hv Hs Hsp E Hseen Hc. pose proof (proj2 (C24_contiguous_trajectory _ _ _ _ _ Hv Hs)) as J.
  unfold plot_2d_points. destruct (unpack_blocklist bl) as [|f path] eqn:Eu; [destruct pre; discriminate|].
  rewrite vertices_ok. cbn [bind]. unfold interp_2D. rewrite Rltb_true by exact Hsp.
  rewrite E, map_app, loop_app. cbn [map interp_loop]. rewrite app_nil_r.
  set (old0 := Point (vx (pos_begin f)) (vy (pos_begin f)) (norm3 (vel_begin f))).
  assert (K : p_x (last (map corner_of pre) old0) = vx (pos_begin l) /\ p_y (last (map corner_of pre) old0) = vy (pos_begin l) /\
              p_c (last (map corner_of pre) old0) = speed_before pre l).
  { destruct pre as [|a pre] using rev_ind.
    - injection E as -> ->. split; [reflexivity|]. split; reflexivity.
    - clear IHpre. rewrite E in J. rewrite map_app. cbn [map]. rewrite last_last. unfold speed_before. rewrite rev_app_distr. cbn [rev app].
      rewrite <- app_assoc in J. apply joined_parts in J as [_ [[_ J] _]]. cbn [corner_of p_x p_y p_c]. rewrite J. auto. }
  destruct K as (Kx & Ky & Kc). destruct (part_last spacing (last (map corner_of pre) old0) l Hsp Kx Ky Hseen) as (lst & El); [rewrite Kc; exact Hc|].
  unfold part_of in El. rewrite El, app_assoc. eexists. exists (corner_of l). split; [reflexivity|]. split; reflexivity.
Qed.
(** C70 is false: with classic jerk the last 9.5 of the 10 mm are not drawn. *)
Theorem C70_end_refuted : exists s0 states bl, valid_program s0 states /\ simulate MarlinJerk (s0 :: states) = Ok (bl, false) /\
  ends (fun s => vx (pos_end s) = 10) (unpack_blocklist bl) /\ unpack_blocklist bl <> [] /\
  forall spacing, 0 < spacing -> exists pts, plot_2d_points true spacing bl = Ok pts /\ Forall (fun p => p_x p <= 1 / 2) pts.
Proof.
  destruct jerk_move as (b & Hs & Hb). exists (xstate 0 10 100 10 None), (tl (one_move 10)), [b].
  split; [apply one_move_valid; lra|]. split; [exact Hs|].
  assert (E : unpack_blocklist [b] = [first_ramp; Seg (1/10) (21/20) (X (1/2)) (X 10) (X 10) (X 10)]) by (unfold unpack_blocklist; cbn [flat_map]; rewrite app_nil_r; exact Hb).
  rewrite E. split; [reflexivity|]. split; [discriminate|]. intros spacing Hsp. unfold plot_2d_points. rewrite E, vertices_ok. cbn [bind]. unfold interp_2D.
  rewrite Rltb_true by exact Hsp. eexists. split; [reflexivity|]. cbn [map interp_loop]. apply Forall_app. split.
  - apply Forall_forall. intros p Hp. apply in_map_iff in Hp as (r & <- & Hr). apply steps_range in Hr. cbn. lra.
  - rewrite app_nil_r. assert (C : interp_count spacing (corner_of first_ramp) (corner_of (Seg (1/10) (21/20) (X (1/2)) (X 10) (X 10) (X 10))) = 1%nat).
    { unfold interp_count, corner_of. cbn [p_c first_ramp vel_end]. rewrite Rltb_false; [reflexivity|].
      replace (norm3 (X 10) - norm3 (X 10)) with 0 by ring. rewrite Rabs_R0. lra. }
    rewrite C. cbn. constructor; [cbn; lra | constructor].
Qed.
(** A full stop move has its end drawn. *)
Example C70_case : exists b pre l, simulate FullStop (one_move 5) = Ok ([b], false) /\ unpack_blocklist [b] = pre ++ [l] /\
  seen l /\ speed_before pre l <> norm3 (vel_end l).
Proof.
  destruct full_stop_move as (b & Hs & Hb). exists b, [first_ramp; Seg (1/10) 1 (X (1/2)) (X (19/2)) (X 10) (X 10)], (Seg 1 (11/10) (X (19/2)) (X 10) (X 10) (X 0)).
  split; [exact Hs|]. split; [unfold unpack_blocklist; cbn [flat_map]; rewrite app_nil_r; exact Hb|]. split; [left; cbn; lra|].
  cbn [speed_before rev app vel_end]. rewrite !norm3_X by lra. lra.
Qed.

(** * C71: the colour of a point is the speed there *)
(** The plot never shows more speed than there is: every drawn point is passed
    with at least the speed it is coloured with, up to 1e-12 mm/s. *)
Theorem C71_never_too_fast_partial fw s0 states bl wn spacing pts :
  valid_program s0 states -> simulate fw (s0 :: states) = Ok (bl, wn) -> plot_2d_points true spacing bl = Ok pts ->
  forall p, In p pts -> exists t v q, on_path (unpack_blocklist bl) t v q /\ p_x p = vx q /\ p_y p = vy q /\
    p_c p <= norm3 v + 1 / 1000000000000.
Proof.
  intros Hv Hs Hp p Hin. pose proof (proj2 (C24_contiguous_trajectory _ _ _ _ _ Hv Hs)) as J1. pose proof (C25_speeds_match _ _ _ _ _ Hv Hs) as J2.
  unfold plot_2d_points in Hp. destruct (unpack_blocklist bl) as [|f path] eqn:E; [discriminate|]. rewrite vertices_ok in Hp. cbn [bind] in Hp.
  unfold interp_2D in Hp. destruct (Rltb_spec 0 spacing) as [Hsp|]; [|discriminate]. injection Hp as Hp.
  set (eps := 1 / 1000000000000) in *. assert (He : 0 < eps) by (unfold eps; lra).
  destruct (loop_parts eps spacing (fun s part => forall p, In p part -> along_line s -> exists t v q, moves_through s t v q /\ p_x p = vx q /\ p_y p = vy q /\ p_c p <= norm3 v + eps))
    with (segs := f :: path) (old := Point (vx (pos_begin f)) (vy (pos_begin f)) (norm3 (vel_begin f))) as (parts & Ep & Fp).
  - intros old s (Hx & Hy & Hc) p' Hp' Ha. apply in_map_iff in Hp' as (r & <- & Hr). apply steps_range in Hr.
    destruct (speed_along s r Ha Hr) as (t & v & q & Hm & -> & Hle). exists t, v, (vadd (pos_begin s) (vscale r (vsub (pos_end s) (pos_begin s)))).
    split; [exact Hm|]. unfold interp, corner_of. cbn [p_x p_y p_c vadd vscale vsub vx vy]. rewrite Hx, Hy. split; [ring|]. split; [ring|].
    apply Rabs_le_inv in Hc. assert (0 <= (1 - r) * (eps - (p_c old - norm3 (vel_begin s)))) by (apply Rmult_le_pos; lra).
    assert (0 <= r * eps) by (apply Rmult_le_pos; lra). lra.
  - exact (joined_follows _ _ J1 J2).
  - cbn [starts]. unfold at_begin. cbn [p_x p_y p_c]. split; [reflexivity|]. split; [reflexivity|].
    replace (norm3 (vel_begin f) - norm3 (vel_begin f)) with 0 by ring. rewrite Rabs_R0. lra.
  - rewrite <- Hp in Hin. change (In p (interp_loop spacing (Point (vx (pos_begin f)) (vy (pos_begin f)) (norm3 (vel_begin f))) (map corner_of (f :: path)))) in Hin.
    rewrite Ep in Hin. apply in_concat in Hin as (part & Hpart & Hin).
    assert (K : exists s, In s (f :: path) /\ (forall p, In p part -> along_line s -> exists t v q, moves_through s t v q /\ p_x p = vx q /\ p_y p = vy q /\ p_c p <= norm3 v + eps)).
    { clear - Fp Hpart. induction Fp as [|s pt segs pts Hq F IH]; [destruct Hpart|]. destruct Hpart as [->|H]; [exists s; split; [left; reflexivity | exact Hq]|].
      destruct (IH H) as (s' & H1 & H2). exists s'. split; [right; exact H1 | exact H2]. }
    destruct K as (s & Hs1 & Hs2). destruct (Hs2 p Hin) as (t & v & q & Hm & Hrest).
    { eapply sim_along; [exact Hv | exact Hs | rewrite E; exact Hs1]. }
    exists t, v, q. split; [exists s; split; [exact Hs1 | exact Hm] | exact Hrest].
Qed.
(** C71 is false: colours are interpolated linearly in space, so in the middle
    of a ramp from 0 to 10 mm/s the colour is 5 instead of 7.07. *)
Theorem C71_refuted : exists s0 states bl spacing pts p, valid_program s0 states /\ simulate FullStop (s0 :: states) = Ok (bl, false) /\
  0 < spacing /\ plot_2d_points true spacing bl = Ok pts /\ In p pts /\
  (exists t v q, on_path (unpack_blocklist bl) t v q /\ p_x p = vx q /\ p_y p = vy q) /\
  forall t v q, on_path (unpack_blocklist bl) t v q -> p_x p = vx q -> p_c p + 2 < norm3 v.
Proof.
  destruct full_stop_move as (b & Hs & Hb). exists (xstate 0 10 100 5 None), (tl (one_move 5)), [b], (1/4).
  assert (E : unpack_blocklist [b] = [first_ramp; Seg (1/10) 1 (X (1/2)) (X (19/2)) (X 10) (X 10); Seg 1 (11/10) (X (19/2)) (X 10) (X 10) (X 0)])
    by (unfold unpack_blocklist; cbn [flat_map]; rewrite app_nil_r; exact Hb).
  set (p := interp (Point 0 0 (norm3 (X 0))) (corner_of first_ramp) (1/2)).
  assert (Ep : p_x p = 1/4 /\ p_c p = 5).
  { unfold p, interp, corner_of. cbn [p_x p_c first_ramp pos_end vel_end X vx vy]. fold (X 10). rewrite !norm3_X by lra. lra. }
  assert (C : interp_count (1/4) (Point 0 0 (norm3 (X 0))) (corner_of first_ramp) = 3%nat).
  { unfold interp_count, corner_of. cbn [p_c p_x p_y first_ramp pos_end vel_end X vx vy]. fold (X 10). fold (X 0). rewrite !norm3_X by lra.
    rewrite Rltb_true by (rewrite Rabs_right; lra). replace ((1 / 2 - 0) * (1 / 2 - 0) + (0 - 0) * (0 - 0)) with ((1/2) * (1/2)) by ring.
    rewrite sqrt_square by lra. replace (1 / 2 / (1 / 4)) with 2 by field. unfold ceil_nat.
    assert (U : up (- (2)) = (-1)%Z) by (symmetry; apply tech_up; lra). rewrite U. reflexivity. }
  eexists. exists p. split; [apply one_move_valid; lra|]. split; [exact Hs|]. split; [lra|]. split; [|split; [|split]].
  - unfold plot_2d_points. rewrite E, vertices_ok. cbn [bind]. unfold interp_2D. rewrite Rltb_true by lra. reflexivity.
  - cbn [map interp_loop]. apply in_or_app. left. cbn [first_ramp pos_begin vel_begin X vx vy]. fold (X 0). rewrite C. cbn [unit_steps seq map].
    right. left. unfold p. f_equal.
  - rewrite E. destruct (speed_along first_ramp (1/2)) as (t & v & q & Hm & -> & _); [|lra|].
    + right. split; [split; [cbn; lra | apply vec4_ext; cbn; lra]|]. exists (X 1), false, 0, 10. split; [apply norm3_X; lra|]. split; [lra|]. split; [lra|].
      split; apply vec4_ext; cbn; ring.
    + exists t, v. eexists. split; [exists first_ramp; split; [left; reflexivity | exact Hm]|]. split; cbn; lra.
  - intros t v q (s & Hin & Ht & Ev & Eq) Hx. destruct Ep as [Px Pc]. rewrite Pc. rewrite Px in Hx. rewrite E in Hin.
    destruct Hin as [<-|[<-|[<-|[]]]].
    + cbn [first_ramp t_begin t_end pos_begin vel_begin vel_end] in *. set (u := (t - 0) / (1 / 10 - 0)) in *.
      assert (Hu : t = u / 10) by (unfold u; field).
      assert (Hxx : vx q = u * u / 2) by (rewrite Eq, Hu; cbn; field).
      assert (Hv : v = X (10 * u)) by (rewrite Ev; apply vec4_ext; cbn; ring). rewrite Hv, norm3_X by lra.
      assert (u * u = 1 / 2) by lra. nra.
    + exfalso. rewrite Eq in Hx. cbn [t_begin t_end pos_begin vel_begin vel_end] in *. cbn in Hx. assert (t - 1/10 >= 0) by lra.
      replace ((10 - 10) * _) with 0 in Hx by ring. nra.
    + exfalso. rewrite Eq in Hx. cbn [t_begin t_end pos_begin vel_begin vel_end] in *. cbn in Hx. set (u := (t - 1) / (11 / 10 - 1)) in *.
      assert (Hu : t - 1 = u / 10) by (unfold u; field). assert (0 <= u <= 1) by lra. rewrite Hu in Hx. nra.
Qed.
(** Where a segment begins the colour is right, up to 1e-12 mm/s. *)
Theorem C71_corners_partial fw s0 states bl wn spacing :
  valid_program s0 states -> simulate fw (s0 :: states) = Ok (bl, wn) -> bl <> [] -> 0 < spacing ->
  exists pts parts, plot_2d_points true spacing bl = Ok pts /\ pts = concat parts /\
    Forall2 (fun s part => exists p rest, part = p :: rest /\ p_x p = vx (pos_begin s) /\ p_y p = vy (pos_begin s) /\
      Rabs (p_c p - norm3 (vel_begin s)) <= 1 / 1000000000000) (unpack_blocklist bl) parts.
Proof.
  intros Hv Hs Hne Hsp. pose proof (proj2 (C24_contiguous_trajectory _ _ _ _ _ Hv Hs)) as J1. pose proof (C25_speeds_match _ _ _ _ _ Hv Hs) as J2.
  assert (Hn : unpack_blocklist bl <> []).
  { destruct bl as [|b bl]; [contradiction|]. destruct (block_last _ _ _ _ _ b Hv Hs (or_introl eq_refl)) as (l & Hl).
    unfold unpack_blocklist. simpl. destruct (b_segs b); [discriminate Hl | discriminate]. }
  unfold plot_2d_points. destruct (unpack_blocklist bl) as [|f path] eqn:E; [contradiction|]. rewrite vertices_ok. cbn [bind].
  unfold interp_2D. rewrite Rltb_true by exact Hsp.
  destruct (loop_parts (1/1000000000000) spacing (fun s part => exists p rest, part = p :: rest /\ p_x p = vx (pos_begin s) /\ p_y p = vy (pos_begin s) /\
      Rabs (p_c p - norm3 (vel_begin s)) <= 1 / 1000000000000)) with (segs := f :: path) (old := Point (vx (pos_begin f)) (vy (pos_begin f)) (norm3 (vel_begin f)))
    as (parts & Ep & Fp).
  - intros old s (Hx & Hy & Hc). unfold part_of. destruct (steps_start _ (count_pos spacing old (corner_of s))) as (l & ->).
    cbn [map]. eexists. eexists. split; [reflexivity|]. unfold interp. cbn [p_x p_y p_c].
    rewrite Rmult_0_l, Rmult_0_l, Rmult_0_l, !Rplus_0_r. auto.
  - exact (joined_follows _ _ J1 J2).
  - cbn [starts]. unfold at_begin. cbn [p_x p_y p_c]. split; [reflexivity|]. split; [reflexivity|].
    replace (norm3 (vel_begin f) - norm3 (vel_begin f)) with 0 by ring. rewrite Rabs_R0. lra.
  - exists (concat parts), parts. split; [f_equal; exact Ep|]. split; [reflexivity|]. exact Fp.
Qed.

Print Assumptions C56_lines_are_extruding_runs.
Print Assumptions C56_all_segments.
Print Assumptions C56_joined_iff_extruded.
Print Assumptions C57_reflexive_partial.
Print Assumptions C57_nearly_symmetric_partial.
Print Assumptions C57_symmetry_refuted.
Print Assumptions C57_transitivity_refuted.
Print Assumptions C58_bar_well_formed.
Print Assumptions C58_monotone.
Print Assumptions C58_halves.
Print Assumptions C73_integers_refuted.
Print Assumptions C73_other_values_partial.
Print Assumptions C59_unclear_input_exits.
Print Assumptions C59_missing_presets_exits.
Print Assumptions C59_writes_only_where_allowed.
Print Assumptions C59_asks_only_without_folder.
Print Assumptions C59_no_means_no.
Print Assumptions C59_shows_the_chosen_file.
Print Assumptions C59_no_display.
Print Assumptions C72_output_written_refuted.
Print Assumptions C72_output_written_partial.
Print Assumptions C72_picture_refuted.
Print Assumptions C70_black_line.
Print Assumptions C70_in_order_partial.
Print Assumptions C70_end_partial.
Print Assumptions C70_end_refuted.
Print Assumptions C71_never_too_fast_partial.
Print Assumptions C71_refuted.
Print Assumptions C71_corners_partial.
