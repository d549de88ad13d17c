(** C114: a program is read with doubles as with rounded numbers, and so the
    whole way from the text to the trajectory is one of doubles.  Vocabulary:
    SpecBridge.v, SpecBridgeText.v; slicer programs: SpecSlicer.v, SpecStopText.v. *)
From Coq Require Import Reals ZArith SpecFloat List Lia Lra.
From Verif Require Import Py PyFloat Parser Vec StateGen SpecMachine SpecRead SpecSlicer Junction Planner SpecKin SpecStopText Rounding SpecRounding Generic SpecGeneric SpecDrift SpecStop SpecIEEE RealFacts
  ReadFacts RoundingProofs IEEEProofs FloatMoveProofs FloatDriftProofs FloatPlanProofs FloatStopProofs FloatTextProofs TextTimeProofs SlicerProofs LineProofs PropertiesFloat PropertiesDrift PropertiesStop PropertiesStopText PropertiesSlicer
  SpecBridge BridgeProofs BridgeRunProofs PropertiesBridge SpecBridgeText BridgeReadProofs.
Import ListNotations.
Open Scope R_scope.
Local Arguments S_ : simpl never.

(** Any text: the states read are the same, or the exception is. *)
Theorem C114_states lines su : proper_setup su -> modest lines -> INR (length lines) <= 1000000000 ->
  same_states (generate_states NF lines su) (generate_states ND lines (value_setup su)).
Proof. exact (reading_same lines su). Qed.
Lemma asked_length lines su rs : asked D64 lines su = Ok rs -> length rs = S (length lines).
Proof.
  unfold asked, generate_states, read_gcode_to_dict_list. destruct (read_lines 0 lines) as [ls|] eqn:E; cbn [bind]; [|discriminate].
  pose proof (proj1 (read_lines_numbers lines 0 ls E)) as L. unfold dict_list_traveler. destruct (travel ND _ ls _ 0) as [r|] eqn:T; cbn [bind]; [|discriminate].
  apply travel_length in T. intros K. assert (Q : forall l ks, gto_kstates D64 l = Ok ks -> length ks = length l).
  { induction l as [|s l IH]; intros ks H; [injection H as <-; reflexivity|]. cbn [gto_kstates] in H. destruct (gto_kstate D64 s); cbn [bind] in H; [|discriminate].
    destruct (gto_kstates D64 l) as [q|]; cbn [bind] in H; [|discriminate]. injection H as <-. cbn [length]. f_equal. apply IH. reflexivity. }
  apply Q in K. cbn [length] in K. lia.
Qed.
(** Any firmware: if what the text asks for is tame, so is the whole simulation. *)
Theorem C114_text fw lines su : proper_setup su -> modest lines -> INR (length lines) <= 999999999 ->
  (forall rs, asked D64 lines (value_setup su) = Ok rs -> SpecBridge.tame_program rs) ->
  same_result (grun Fk fw lines su) (grun D64 fw lines (value_setup su)).
Proof.
  intros P M N T. pose proof (asked_same lines su P M ltac:(lra)) as R.
  assert (G : forall k s, grun k fw lines s = bind (asked k lines s) (gsimulate k fw)).
  { intros k s. unfold grun, asked. destruct (generate_states (knum k) lines s); reflexivity. }
  rewrite !G. destruct (asked Fk lines su) as [ss|e], (asked D64 lines (value_setup su)) as [rs|e'] eqn:E; cbn [rr] in R; try contradiction; cbn [bind]; [|exact R].
  apply simulation_same; [exact R|exact (T rs eq_refl)|]. rewrite (asked_length _ _ _ E), S_INR. lra.
Qed.

(** * Slicer programs *)
Lemma args_modest ks args k m e : dget k (args_meaning ks args) = Some (LNum (Dec m e)) -> (forall q x, arg q args = Some x -> Rabs x <= 1000000) -> Rabs (r_of_dec m e) <= 1000000.
Proof.
  intros H F. induction ks as [|q ks IH]; [discriminate H|]. unfold args_meaning in H. cbn [flat_map] in H. fold (args_meaning ks args) in H.
  destruct (lookup_arg q args) as [x|] eqn:E; [|exact (IH H)]. cbn [app dget] in H. destruct (str_eqb k q); [|exact (IH H)].
  destruct (means_lit x) as (m' & e' & E1 & E2). rewrite E1 in H. injection H as -> ->. change (Rabs (n_of_dec Rops m e) <= 1000000). rewrite <- E2.
  apply (F (string_of_list_ascii q)). unfold arg, S_. rewrite list_ascii_of_string_of_list_ascii, E. reflexivity.
Qed.
Lemma slicer_modest lines cs : Forall2 spells lines cs -> Forall small_numbers cs -> modest lines.
Proof.
  intros H F ls E. destruct (program_lines lines cs H 0%nat) as (ls' & E' & S). unfold read_gcode_to_dict_list in E. rewrite E in E'. injection E' as <-. clear - S F.
  induction S as [|l c ls cs H S IH]; [constructor|]. inversion F as [|? ? F1 F2]; subst. constructor; [|exact (IH F2)].
  intros cmd key m e I. unfold word. assert (N : cmd <> S_ ";"). { intros ->. cbn [obeyed_commands map In] in I. repeat (destruct I as [I|I]; [discriminate I|]). exact I. }
  rewrite (H _ N). destruct (keyword c) as [n|]; [|discriminate]. destruct (str_eqb cmd (S_ n)); [|discriminate]. unfold entry. destruct (table_entry n) as [[ks|]|]; try discriminate.
  intros G. exact (args_modest _ _ _ _ _ G F1).
Qed.
Lemma b64_int z : (Z.abs z < 2 ^ 53)%Z -> binary64 (IZR z) = IZR z.
Proof. intros H. apply binary64_fix. exists z, 0%Z. split; [exact H|]. split; [lia|cbn; ring]. Qed.
(** the states read from a slicer program are tame *)
Lemma slicer_tame lines cs (su : setup_values ND) : let h := start_head binary64 su in
  Forall2 spells lines cs -> Forall sensible cs -> tidy h cs -> doubles su -> SpecStopText.tame_program (request h None) (requests h cs) ->
  Forall handy_state (request h None :: requests h cs) -> INR (length lines) <= 900000000 ->
  exists rs, asked D64 lines su = Ok rs /\ SpecBridge.tame_program rs.
Proof.
  intros h Hl Hs Ht Hd (F & Mv & St) Hh N. destruct binary64_rounds as (_ & E0 & Er).
  assert (U : powerRZ 2 (-53) = uu). { unfold uu. change (powerRZ 2 (-53)) with (/ (2 ^ Pos.to_nat 53)). rewrite pow_IZR. f_equal. }
  rewrite U in Er.
  assert (r60 : binary64 60 = 60) by (apply b64_int; reflexivity).
  assert (r1000 : binary64 1000 = 1000) by (apply b64_int; reflexivity).
  assert (Hd' : Forall (fun x => binary64 x = x) [s_X _ su; s_Y _ su; s_Z _ su; s_E _ su; s_p_vel _ su; s_p_acc _ su; s_jerk _ su]).
  { eapply Forall_impl; [|exact Hd]. intros x X. apply binary64_fix, X. }
  assert (NL : length cs = length lines) by (clear - Hl; induction Hl; cbn [length]; congruence).
  assert (Hb : Forall (fun s => Rabs (ve (k_pos s)) <= 9000) (request h None :: requests h cs)) by (eapply Forall_impl; [|exact F]; intros s X; apply X).
  assert (Nd : INR (length cs) * (3 * uu_small) <= / 100) by (rewrite NL; unfold uu_small; lra).
  destruct (text_reads binary64 binary64_0 r60 r1000 binary64_idem uu_small ltac:(unfold uu_small; lra) binary64_small lines cs su Hl Hs Ht Hb Nd Hd') as (t0 & ts & E & R0 & Re & Rs). fold h in R0, Re, Rs.
  pose proof (eta_small _ tiny_small eta_tiny) as Es.
  assert (N0 : e_near binary64 1 (request h None) t0) by (unfold e_near; rewrite Re, Rminus_eq_0, Rabs_R0; lra).
  pose proof (waits_calm cs Hs h None) as Cw.
  destruct (program_read binary64 _ E0 Er binary64_pos Es uu_small ltac:(unfold uu_small; lra) (INR (length cs) * (3 * uu_small) + 2 * uu_small) (requests h cs) ltac:(unfold uu_small in *; lra) (request h None) t0 ts False F St Cw (or_intror Mv) R0 N0 Rs) as (NT & OF & OS & _).
  exists (t0 :: ts). split; [exact E|]. split; [|exact (steps_tame _ _ _ OS)].
  assert (G : forall s t, handy_state s -> reads binary64 s t -> (forall p, k_pause s = Some p -> 0 <= p) -> ordinary_state t -> tame t).
  { intros s t [Hj Hw] (_ & _ & _ & J & W) Pp O. split; [exact O|]. change (Bk binary64) with D64 in *. split.
    - rewrite J. destruct Hj as [-> |[J1 J2]]; [left; apply binary64_0|right]. split.
      + assert (Q : p2 (-9) = / 512) by (change (p2 (-9)) with (/ (2 ^ 9)); f_equal; ring). apply Rle_trans with (p2 (-9)); [lra|]. rewrite <- (binary64_fix _ (p2_double (-9) ltac:(lia))). apply b64_mono. lra.
      + apply Rle_trans with 900; [|lra]. rewrite <- (b64_int 900 eq_refl). apply b64_mono. exact J2.
    - destruct (k_pause s) as [x|]; [|rewrite W; exact I]. destruct W as (y & -> & Y). specialize (Pp x eq_refl).
      assert (B : forall v, 0 <= v <= 900000 -> 0 <= binary64 v <= 900000).
      { intros v V. split; [rewrite <- binary64_0|rewrite <- (b64_int 900000 eq_refl)]; apply b64_mono; lra. }
      assert (B' : 0 <= binary64 (x * 1000) <= 900000000).
      { split; [rewrite <- binary64_0|rewrite <- (b64_int 900000000 eq_refl)]; apply b64_mono; lra. }
      destruct Y as [-> | ->].
      + destruct (B x ltac:(lra)). lra.
      + destruct (B (binary64 (x * 1000) / 1000) ltac:(lra)). lra. }
  constructor.
  - apply (G (request h None)); [inversion Hh; assumption|exact R0|discriminate|inversion OF; assumption].
  - inversion Hh as [|? ? _ Hh']; subst. inversion OF as [|? ? _ OF']; subst. clear - G Hh' OF' Rs Cw. revert Hh' OF' Rs Cw. generalize (request h None) as A, t0, (requests h cs) as states, ts. clear - G. intros A A' states. revert A A'.
    induction states as [|B states IH]; intros A A' [|B' ts] Hh OF Rs Cw; try contradiction; [constructor|]. inversion Hh as [|? ? H1 H2]; subst. inversion OF as [|? ? O1 O2]; subst.
    destruct Rs as (RB & _ & _ & _ & Rs). destruct Cw as [C1 C2]. constructor; [|exact (IH _ _ _ H2 O2 Rs C2)]. apply (G B); [exact H1|exact RB| |exact O1]. intros p Ep. apply (C1 p Ep).
Qed.
Lemma setup_doubles su : proper_setup su -> doubles (value_setup su).
Proof.
  intros [A B]. repeat match goal with H : Forall _ (_ :: _) |- _ => let h1 := fresh "q" in let h2 := fresh "w" in inversion H as [|? ? h1 h2]; subst; clear H end.
  unfold doubles. repeat constructor; cbn [value_setup s_X s_Y s_Z s_E s_p_vel s_p_acc s_jerk]; apply proper_double; tauto.
Qed.
(** Whatever the firmware, such a program is read and simulated with doubles as
    with rounded numbers. *)
Theorem C114_slicer fw lines cs su : let h := start_head binary64 (value_setup su) in
  Forall2 spells lines cs -> Forall sensible cs -> Forall small_numbers cs -> tidy h cs -> proper_setup su ->
  SpecStopText.tame_program (request h None) (requests h cs) -> Forall handy_state (request h None :: requests h cs) -> INR (length lines) <= 900000000 ->
  same_result (grun Fk fw lines su) (grun D64 fw lines (value_setup su)).
Proof.
  intros h Hl Hs Hn Ht P Tp Hh N. apply C114_text; [exact P|exact (slicer_modest _ _ Hl Hn)|lra|]. intros rs E.
  destruct (slicer_tame lines cs (value_setup su) Hl Hs Ht (setup_doubles su P) Tp Hh N) as (rs' & E' & T). rewrite E in E'. injection E' as ->. exact T.
Qed.
(** C110 in doubles: on a machine that stops after every line the program is
    simulated without a warning, and the time is right. *)
Theorem C114_full_stop lines cs su : let h := start_head binary64 (value_setup su) in
  Forall2 spells lines cs -> Forall sensible cs -> Forall small_numbers cs -> tidy h cs -> proper_setup su ->
  SpecStopText.tame_program (request h None) (requests h cs) -> Forall handy_state (request h None :: requests h cs) -> INR (length lines) <= 900000000 ->
  most_sum (request h None) (requests h cs) <= 400000 ->
  exists bl t, grun Fk FullStop lines su = Ok (bl, false) /\ double_over_at bl t /\
    Rabs (t - stop_sum (request h None) (requests h cs)) <= INR (length lines) * (3 / 1000000000) + / 1000000000000 * stop_sum (request h None) (requests h cs).
Proof.
  intros h Hl Hs Hn Ht P Tp Hh N T. pose proof (C114_slicer FullStop lines cs su Hl Hs Hn Ht P Tp Hh N) as G.
  destruct (C110_text lines cs (value_setup su) Hl Hs Ht (setup_doubles su P) Tp N T) as (bl' & t & E & Ot & B). fold h in B. change (Bk binary64) with D64 in E. rewrite E in G.
  unfold same_result in G. destruct (grun Fk FullStop lines su) as [[bl w]|]; [|contradiction]. destruct G as [G ->]. exists bl, t. split; [reflexivity|]. split; [exact (over_same _ _ _ G Ot)|exact B].
Qed.

(** * A case: the part of C92 on the default machine, in doubles *)
Definition default_floats : setup_values NF := default_setup NF.
Lemma default_values : value_setup default_floats = default_doubles.
Proof.
  assert (V : forall z, (Z.abs z <= 1000)%Z -> fval (k_dec Fk z 0) = IZR z).
  { intros z H. assert (Q : Rabs (r_of_dec z 0) <= p2 10). { cbn [r_of_dec]. rewrite <- abs_IZR. apply p2_num; lia. }
    destruct (sb_dec z 0 10 Q eq_refl) as [[_ S] _]. rewrite S. cbn [Bk k_dec]. apply b64_int. lia. }
  unfold value_setup, default_doubles, default_floats, default_setup, nint.
  cbn [s_p_vel s_p_acc s_jerk s_vX s_vY s_vZ s_vE s_X s_Y s_Z s_E s_layer_cue n_of_dec knum]. rewrite !V by lia. reflexivity.
Qed.
Lemma args_small l : Forall (fun a => Rabs (lit_num (snd a)) <= 1000000) l -> forall k x, arg k l = Some x -> Rabs x <= 1000000.
Proof.
  intros F k x. unfold arg, lookup_arg. destruct (List.find _ l) as [a|] eqn:E; [|discriminate]. intros H. injection H as <-.
  apply List.find_some in E as [I _]. rewrite Forall_forall in F. exact (F a I).
Qed.
Example C114_case : let h := start_head binary64 (value_setup default_floats) in
  Forall2 spells part_lines part /\ Forall sensible part /\ Forall small_numbers part /\ tidy h part /\ proper_setup default_floats /\
  SpecStopText.tame_program (request h None) (requests h part) /\ Forall handy_state (request h None :: requests h part) /\
  INR (length part_lines) <= 900000000 /\ most_sum (request h None) (requests h part) <= 400000.
Proof.
  rewrite default_values. intros h. destruct C110_case as (A & B & C & _ & _ & D & E). fold h in C, D, E.
  split; [exact A|]. split; [exact B|]. split.
  { unfold part. repeat (apply Forall_cons || apply Forall_nil); unfold small_numbers; apply args_small; repeat (apply Forall_cons || apply Forall_nil);
      cbn [snd]; apply Rabs_le; compute_reals; lra. }
  split; [exact C|]. split.
  { split; repeat (apply Forall_cons || apply Forall_nil); try (split; [exact I|vm_compute; reflexivity]);
      (split; [split; [exact I|vm_compute; reflexivity]|change (Rabs 0 <= 1000000); rewrite Rabs_R0; lra]). }
  split; [exact D|]. split.
  { unfold h. rewrite part_requests. repeat (apply Forall_cons || apply Forall_nil); (split; [right; cbn; lra|cbn; try exact I; lra]). }
  split; [cbn; lra|exact E].
Qed.
(** what the doubles give, by computing: the three moves and the wait, with as
    many segments as the firmware needs *)
Definition part_shape (a b c : nat) : res (list (option btype * nat) * bool) :=
  Ok ([(Some Trapezoid, a); (Some Trapezoid, b); (None, 1%nat); (Some Trapezoid, c)], false).
Example C114_case_blocks :
  map (fun fw => shape (grun Fk fw part_lines default_floats)) [MarlinJD; Klipper; MarlinJerk; MKA; FullStop] =
  [part_shape 2 2 3; part_shape 2 2 3; part_shape 2 2 2; part_shape 2 2 3; part_shape 3 3 3].
Proof. vm_compute. reflexivity. Qed.

Print Assumptions C114_states.
Print Assumptions C114_text.
Print Assumptions C114_slicer.
Print Assumptions C114_full_stop.
