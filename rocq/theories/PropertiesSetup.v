(** Properties C43, C53-C55, C60, C65, C66: units, the setup object, the
    constructor, and the way from the text of a program to its trajectory.
    Vocabulary: SpecSetup.v, SpecText.v, SpecMachine.v, SpecKin.v, SpecQuery.v. *)
From Coq Require Import Lra.
From Verif Require Import Py PyFloat Parser StateGen SpecMachine Vec Segment Junction Planner Query Setup Interp
  RealFacts SpecKin SpecQuery SpecSetup SpecText StrFacts PlannerProofs TrajProofs PlanFacts QueryProofs QueryFacts QueryRefute SetupProofs InterpProofs
  PropertiesQuery.
Open Scope R_scope.
Local Arguments S_ : simpl never.
Local Arguments get_scaling_factor : simpl never.

(** * A printer and a program for the examples *)
Definition ex_printer : dict pval :=
  [(S_ "nozzle_diam", PNum (4 / 10)); (S_ "p_vel", PNum 10); (S_ "p_acc", PNum 100); (S_ "jerk", PNum 20);
   (S_ "vX", PNum 180); (S_ "vY", PNum 180); (S_ "vZ", PNum 30); (S_ "vE", PNum 33); (S_ "firmware", PStr (S_ "marlin_jerk"))].
Definition ex_presets : dict (dict pval) := [(S_ "prusa", []); (S_ "anycubic", ex_printer)].
Definition ex_setup : setup :=
  match new_setup ex_presets (Some (S_ "anycubic")) None with Ok s => s | Err _ => MkSetup [] None None [] end.
Lemma ex_new : new_setup ex_presets (Some (S_ "anycubic")) None = Ok ex_setup.
Proof. destruct (new_setup_succeeds ex_presets (S_ "anycubic") None _ _ eq_refl eq_refl) as (s & E). unfold ex_setup. rewrite E. reflexivity. Qed.
Definition ex_start : aset := a_start ex_presets (Some (S_ "anycubic")).
Definition ex_su : setup_values Rops := Build_setup_values Rops 10 100 20 180 180 30 33 0 0 0 0 None.
Lemma ex_settings : machine_settings None ex_start (S_ "anycubic") ex_su.
Proof. repeat split. Qed.
Lemma ex_complete : complete_printer ex_start (S_ "anycubic") (PStr (S_ "marlin_jerk")).
Proof.
  split; [reflexivity|]. intros k v H. assert (Hk : In k (dkeys ex_printer)) by (eapply dget_in; exact H).
  unfold must_have, may_have. unfold ex_printer, dkeys in Hk. simpl in Hk |- *. tauto.
Qed.
Definition ex_lines : list str := [S_ "G1 X10"; S_ "G1 Y10"].
Definition ex_ls : list line_dict :=
  [{| ld := [(S_ "G1", ADict [(S_ "X", LNum (Dec 10 0))])]; ld_number := 1 |};
   {| ld := [(S_ "G1", ADict [(S_ "Y", LNum (Dec 10 0))])]; ld_number := 2 |}].
Lemma ex_parsed : read_gcode_to_dict_list ex_lines = Ok ex_ls.
Proof. vm_compute. reflexivity. Qed.
Lemma ex_states : exists sts, generate_states Rops ex_lines ex_su = Ok sts /\ to_kstates sts = Ok (corner_start :: corner_program).
Proof.
  unfold generate_states. rewrite ex_parsed. cbn [bind]. eexists. split; [lazy -[Rplus Rmult Rdiv Rinv IZR]; reflexivity|].
  lazy -[Rplus Rmult Rdiv Rinv IZR]. unfold corner_start, corner_program.
  match goal with |- Ok ?x = Ok ?y => cut (x = y); [intros ->; reflexivity|] end.
  repeat match goal with |- cons _ _ = cons _ _ => f_equal end; f_equal; try (f_equal; lra); try lra.
Qed.
Definition ex_machine (x y : R) : gmachine :=
  {| g_pos := fun a => match a with AX => x | AY => y | _ => 0 end; g_off := fun _ => 0; g_abs := fun _ => true;
     g_feed := SNum (N := Rops) 10; g_acc := SNum (N := Rops) 100; g_jerk := SNum (N := Rops) 20;
     g_lim := fun a => SNum (N := Rops) (match a with AX => 180 | AY => 180 | AZ => 30 | AE => 33 end); g_unit := S_ "SImm" |}.
Lemma ex_run : g_start ex_su (ex_machine 0 0) /\ g_run (ex_machine 0 0) ex_ls [ex_machine 10 0; ex_machine 10 10].
Proof.
  split; [repeat split|].
  assert (M : means (N := Rops) (LNum (Dec 10 0)) 10) by (exists 10%Z, 0%Z; split; reflexivity).
  econstructor; [|econstructor; [|constructor]].
  - split; [intros a; destruct a; reflexivity|]. split; [reflexivity|]. split.
    + exists (g_pos (ex_machine 0 0)). split; intros a; destruct a; cbn; try reflexivity. exists 10. split; [exact M|lra].
    + split; [intros a; destruct a; reflexivity|]. repeat split; intros a; destruct a; reflexivity.
  - split; [intros a; destruct a; reflexivity|]. split; [reflexivity|]. split.
    + exists (g_pos (ex_machine 10 0)). split; intros a; destruct a; cbn; try reflexivity. exists 10. split; [exact M|lra].
    + split; [intros a; destruct a; reflexivity|]. repeat split; intros a; destruct a; reflexivity.
Qed.
Lemma ex_commands : commands (ex_machine 0 0) None corner_start /\
  command_list ex_ls [ex_machine 10 0; ex_machine 10 10] corner_program.
Proof. split; [repeat split|]. repeat constructor. Qed.
Lemma ex_moves : exists k, In k corner_program /\ k_pos k <> k_pos corner_start.
Proof. eexists. split; [left; reflexivity|]. intros E. apply (f_equal vx) in E. simpl in E. lra. Qed.

(** * C53: the setup is an abstract map *)
(** Whatever was done with a setup object, the outcomes are those of the
    abstract map, get_dict then shows the abstract map, and asking twice gives
    the same. *)
Theorem C53_setup_map presets printer cue s ops rs a p :
  new_setup presets printer cue = Ok s -> a_steps presets ops (a_start presets printer) rs a -> a_sel a = Some p ->
  fst (do_ops ops s) = rs /\
  exists s', get_dict (snd (do_ops ops s)) = (Ok p, s') /\ presents cue a p (deref p s') /\ get_dict s' = (Ok p, s').
Proof.
  intros Hn Hst Hsel. destruct (steps_refine _ _ _ _ _ _ _ (new_setup_refines _ _ _ _ Hn) Hst) as (s1 & E & Hr). rewrite E.
  split; [reflexivity|]. destruct (get_refines _ _ _ _ _ Hr Hsel) as (s' & Eg & _ & Hp). exists s'.
  split; [exact Eg|]. split; [exact Hp|]. exact (get_dict_twice _ _ _ Eg).
Qed.
(** Without a selected printer there is no dictionary. *)
Theorem C53_no_printer presets printer cue s ops rs a :
  new_setup presets printer cue = Ok s -> a_steps presets ops (a_start presets printer) rs a -> a_sel a = None ->
  fst (do_ops ops s) = rs /\ fst (get_dict (snd (do_ops ops s))) = Err KeyError.
Proof.
  intros Hn Hst Hsel. destruct (steps_refine _ _ _ _ _ _ _ (new_setup_refines _ _ _ _ Hn) Hst) as (s1 & E & Hr). rewrite E.
  split; [reflexivity|]. simpl. unfold get_dict. rewrite (rf_sel _ _ _ _ Hr), Hsel. reflexivity.
Qed.
(** Construction succeeds exactly for known printers with a firmware. *)
Theorem C53_construction presets printer cue :
  (exists s, new_setup presets printer cue = Ok s) <->
  match printer with None => True | Some p => exists m f, dget p presets = Some m /\ dget (S_ "firmware") m = Some f end.
Proof.
  destruct printer as [p|]; [|split; [auto|]; intros _; destruct (new_setup_none presets cue) as (s & E & _); eauto].
  split.
  - intros (s & H). destruct (new_setup_some _ _ _ _ H) as [Hin Hr]. destruct (dget_some _ _ Hin) as (m & Hm).
    exists m. unfold new_setup, select_printer in H. cbn [printers] in H. rewrite (proj2 (dmem_iff p presets) Hin) in H.
    unfold set_select in H; simpl in H.
    destruct (get_refines presets cue _ _ p (start_refines presets (Some p) cue ltac:(intros q Hq; injection Hq as <-; exact Hin)) eq_refl)
      as (s' & Eg & _ & (_ & _ & _ & P4)).
    rewrite Eg in H. unfold dindex in H. rewrite P4 in H by (apply unreserved; [right; simpl; tauto|discriminate]).
    cbn [a_start a_prop] in H. rewrite Hm in H. destruct (dget (S_ "firmware") m) as [f|]; [eauto|discriminate].
  - intros (m & f & Hm & Hf). exact (new_setup_succeeds presets p cue m f Hm Hf).
Qed.
(** A history with all operations, a rejected one among them. *)
Definition ex_ops : list sop :=
  [OPosition (ITuple [PNum 1; PNum 2; PNum 3; PNum 4]) (Some (S_ "inch")); OProperty [(S_ "p_vel", PNum 77)];
   OSelect (S_ "ender"); OGet; OPosition (ITuple [PNum 1]) None; OSelect (S_ "prusa"); OProperty [(S_ "jerk", PNum 5)];
   OSelect (S_ "anycubic"); OPosition (IDict [(S_ "Z", PNum 9); (S_ "Y", PNum 8); (S_ "X", PNum 7); (S_ "E", PNum 6)]) None].
Example C53_case : exists a, a_steps ex_presets ex_ops ex_start
    [Ok tt; Ok tt; Err ValueError; Ok tt; Err ValueError; Ok tt; Ok tt; Ok tt; Ok tt] a /\
  a_sel a = Some (S_ "anycubic") /\ a_prop a (S_ "anycubic") (S_ "p_vel") = Some (PNum 77) /\
  a_prop a (S_ "anycubic") (S_ "jerk") = Some (PNum 20) /\ a_prop a (S_ "prusa") (S_ "jerk") = Some (PNum 5) /\ a_pos a AX = 1 * 7.
Proof.
  eexists. split.
  - econstructor; [eapply (as_position _ _ _ _ _ (fun x => match x with AX => 1 | AY => 2 | AZ => 3 | AE => 4 end)); [constructor; reflexivity|constructor]|].
    econstructor; [eapply as_property; [reflexivity|intros; reflexivity]|].
    econstructor; [apply as_unknown; simpl; intros [H|[H|[]]]; discriminate H|].
    econstructor; [eapply as_get; reflexivity|].
    econstructor; [eapply as_no_position; [apply np_tuple; simpl; lia|reflexivity]|].
    econstructor; [apply as_select; simpl; auto|].
    econstructor; [eapply as_property; [reflexivity|intros; reflexivity]|].
    econstructor; [apply as_select; simpl; auto|].
    econstructor; [eapply (as_position _ _ _ _ _ (fun x => match x with AX => 7 | AY => 8 | AZ => 9 | AE => 6 end)); [|reflexivity]|constructor].
    apply pa_dict; [intros x; destruct x; reflexivity|].
    intros k v [H|[H|[H|[H|[]]]]]; injection H as <- <-; [exists AZ|exists AY|exists AX|exists AE]; eexists; split; reflexivity.
  - repeat split.
Qed.

(** A refused dictionary leaves the axes before the wrong value changed. *)
Example C53_half_case : exists a, a_steps ex_presets
    [OPosition (ITuple [PNum 1; PNum 2; PNum 3; PNum 4]) None; OPosition (ITuple [PNum 5; PNone; PNum 5; PNum 5]) None;
     OPosition (IDict [(S_ "Z", PNum 9); (S_ "X", PStr (S_ "a")); (S_ "Y", PNum 8); (S_ "E", PNum 6)]) None] ex_start
    [Ok tt; Err TypeError; Err TypeError] a /\ a_pos a AX = 1 * 1 /\ a_pos a AY = 1 * 2 /\ a_pos a AZ = 1 * 9 /\ a_pos a AE = 1 * 4.
Proof.
  eexists. split.
  - econstructor; [eapply (as_position _ _ _ _ _ (fun x => match x with AX => 1 | AY => 2 | AZ => 3 | AE => 4 end)); [constructor; reflexivity|reflexivity]|].
    econstructor; [eapply (as_tuple_no_number _ _ _ _ 1 PNone); [reflexivity|simpl; auto|discriminate|reflexivity]|].
    econstructor; [|constructor].
    eapply (as_dict_no_number _ _ [(S_ "Z", PNum 9)] (S_ "X") (PStr (S_ "a")) [(S_ "Y", PNum 8); (S_ "E", PNum 6)] _ _ 1);
      [reflexivity|intros []; eexists; reflexivity| |discriminate|reflexivity|intros x; reflexivity].
    intros k v [H|[]]. injection H as <- <-. exists AZ. eexists. split; reflexivity.
  - repeat split.
Qed.

(** * C65: set_property takes effect *)
(** ... for all keys but the reserved ones (printer_name, X, Y, Z, E, and
    layer_cue if the constructor was given a cue). *)
Theorem C65_property_takes_effect_partial presets printer cue s ops rs a p d k v :
  new_setup presets printer cue = Ok s -> a_steps presets ops (a_start presets printer) rs a -> a_sel a = Some p ->
  given d k = Some v -> ~ reserved cue k ->
  exists s', get_dict (snd (do_ops (ops ++ [OProperty d]) s)) = (Ok p, s') /\ dget k (deref p s') = Some v.
Proof.
  intros Hn Hst Hsel Hg Hk.
  assert (Hst' : a_steps presets (ops ++ [OProperty d]) (a_start presets printer) (rs ++ [Ok tt])
                   (ASet (a_sel a) (fun q k => if str_eqb q p then match given d k with Some v => Some v | None => a_prop a q k end
                                               else a_prop a q k) (a_pos a))).
  { clear Hn Hg Hk. induction Hst as [a|o ops a r a1 rs a2 S1 S2 IH].
    - simpl. econstructor; [eapply as_property; [exact Hsel|intros; reflexivity]|constructor].
    - simpl. econstructor; [exact S1|]. apply IH. exact Hsel. }
  destruct (C53_setup_map _ _ _ _ _ _ _ p Hn Hst' Hsel) as (_ & s' & Eg & (_ & _ & _ & P4) & _).
  exists s'. split; [exact Eg|]. rewrite (P4 k Hk). cbn [a_prop]. rewrite str_eqb_refl, Hg. reflexivity.
Qed.
Example C65_case : given [(S_ "p_vel", PNum 1); (S_ "layer_cue", PStr (S_ "LAYER"))] (S_ "layer_cue") = Some (PStr (S_ "LAYER")) /\
  ~ reserved None (S_ "layer_cue").
Proof. split; [reflexivity|]. intros [H|[(a & H)|(H & _)]]; [discriminate H|destruct a; discriminate H|apply H; reflexivity]. Qed.
(** In general it is false: a layer cue given to the constructor cannot be
    replaced, although this is the example of the documentation. *)
Theorem C65_layer_cue_refuted : exists presets p c s v,
  new_setup presets (Some p) (Some c) = Ok s /\
  fst (do_op (OProperty [(S_ "layer_cue", v)]) s) = Ok tt /\
  exists s', get_dict (snd (do_op (OProperty [(S_ "layer_cue", v)]) s)) = (Ok p, s') /\ dget (S_ "layer_cue") (deref p s') <> Some v.
Proof.
  destruct (new_setup_succeeds ex_presets (S_ "anycubic") (Some (S_ "LAYER")) _ _ eq_refl eq_refl) as (s & E).
  exists ex_presets, (S_ "anycubic"), (S_ "LAYER"), s, (PStr (S_ "LAYER_CHANGE")). split; [exact E|].
  pose proof (new_setup_refines _ _ _ _ E) as Hr.
  destruct (step_refines _ _ (OProperty [(S_ "layer_cue", PStr (S_ "LAYER_CHANGE"))]) _ _ _ _ Hr
              (as_property ex_presets _ (a_start ex_presets (Some (S_ "anycubic"))) (S_ "anycubic") _ eq_refl (fun q k => eq_refl))) as (s1 & E1 & Hr1).
  rewrite E1. split; [reflexivity|]. destruct (get_refines _ _ _ _ (S_ "anycubic") Hr1 eq_refl) as (s' & Eg & _ & (_ & P2 & _)).
  exists s'. split; [exact Eg|]. rewrite (P2 _ eq_refl). discriminate.
Qed.

(** * C54: validation *)
Theorem C54_validation_exact d :
  (check_initial_setup d = Ok tt <-> acceptable d) /\ (check_initial_setup d = Err ValueError <-> ~ acceptable d).
Proof. split; [apply check_ok|apply check_err]. Qed.
(** The constructor refuses every setup whose dictionary is not acceptable. *)
Theorem C54_constructor_rejects presets printer cue s ops rs a p s' defaults lines mn unit :
  new_setup presets printer cue = Ok s -> a_steps presets ops (a_start presets printer) rs a -> a_sel a = Some p ->
  get_dict (snd (do_ops ops s)) = (Ok p, s') -> ~ acceptable (deref p s') ->
  new_simulation defaults lines mn (Some (snd (do_ops ops s))) unit = Err ValueError.
Proof.
  intros Hn Hst Hsel Eg Ha. destruct (steps_refine _ _ _ _ _ _ _ (new_setup_refines _ _ _ _ Hn) Hst) as (s1 & E & Hr).
  rewrite E in *. cbn [snd] in *. apply (unacceptable_rejected _ _ _ _ _ _ _ p _ Hr Hsel). intros s2 E2. rewrite Eg in E2.
  injection E2 as <-. exact Ha.
Qed.
Example C54_case_good : exists s', get_dict ex_setup = (Ok (S_ "anycubic"), s') /\ acceptable (deref (S_ "anycubic") s').
Proof.
  destruct (get_refines _ _ _ _ (S_ "anycubic") (new_setup_refines _ _ _ _ ex_new) eq_refl) as (s' & E & _ & Hp).
  exists s'. split; [exact E|]. exact (proj1 (complete_acceptable _ _ _ _ _ _ Hp ex_settings ex_complete)).
Qed.
Example C54_case_typo : ~ acceptable ((S_ "p_velocity", PNum 3) :: ex_printer) /\ ~ acceptable (tl (tl ex_printer)).
Proof.
  split; intros [H1 H2].
  - destruct (H2 (S_ "p_velocity") (or_introl eq_refl)) as [H|H]; unfold must_have, may_have in H; simpl in H; intuition discriminate.
  - specialize (H1 (S_ "p_vel") ltac:(unfold must_have; simpl; tauto)). simpl in H1. intuition discriminate.
Qed.

(** * C60: constructor arguments *)
Theorem C60_unknown_unit defaults lines mn su unit : (forall k, ~ unit_length unit k) ->
  new_simulation defaults lines mn su unit = Err ValueError.
Proof. intros H. unfold new_simulation. rewrite (unknown_output_unit _ H). reflexivity. Qed.
Theorem C60_nothing_given defaults lines unit : new_simulation defaults lines None None unit = Err ValueError.
Proof. unfold new_simulation. destruct (dmem unit output_units); reflexivity. Qed.
Theorem C60_unknown_machine defaults lines n unit : ~ In n (dkeys defaults) ->
  new_simulation defaults lines (Some n) None unit = Err ValueError.
Proof. intros H. unfold new_simulation. rewrite (new_setup_unknown _ _ _ H). destruct (dmem unit output_units); reflexivity. Qed.
Section Arguments.
Variables (presets : dict (dict pval)) (printer cue : option str) (s : setup) (ops : list sop) (rs : list (res unit)) (a : aset).
Hypothesis Hn : new_setup presets printer cue = Ok s.
Hypothesis Hst : a_steps presets ops (a_start presets printer) rs a.
Theorem C60_name_mismatch defaults lines n p unit : a_sel a = Some p -> n <> p ->
  new_simulation defaults lines (Some n) (Some (snd (do_ops ops s))) unit = Err ValueError.
Proof.
  intros Hsel Hne. destruct (steps_refine _ _ _ _ _ _ _ (new_setup_refines _ _ _ _ Hn) Hst) as (s1 & E & Hr). rewrite E.
  exact (named_other _ _ _ _ _ _ _ _ _ Hr Hsel Hne).
Qed.
(** The matching name changes nothing. *)
Theorem C60_matching_name defaults lines p unit : a_sel a = Some p ->
  new_simulation defaults lines (Some p) (Some (snd (do_ops ops s))) unit =
  new_simulation defaults lines None (Some (snd (do_ops ops s))) unit.
Proof.
  intros Hsel. destruct (steps_refine _ _ _ _ _ _ _ (new_setup_refines _ _ _ _ Hn) Hst) as (s1 & E & Hr). rewrite E.
  exact (named_same _ _ _ _ _ _ _ _ Hr Hsel).
Qed.
End Arguments.
Example C60_case : ~ In (S_ "ender") (dkeys ex_presets) /\ (forall k, ~ unit_length (S_ "mm") k).
Proof. split; [simpl; intuition discriminate|]. intros k H. inversion H. Qed.

(** * C66: from the text to the trajectory *)
Lemma start_position path p0 v p : contiguous_path path -> starts (fun g => t_begin g = 0 /\ pos_begin g = p0) path ->
  on_path path 0 v p -> p = p0.
Proof.
  intros Hc Hs (g & Hg & Hm). destruct (moves_at _ _ _ _ Hm) as [_ ->]. destruct Hm as (Ht & _).
  apply In_nth_error in Hg as (j & Hj). destruct path as [|f path]; [destruct j; discriminate Hj|]. destruct Hs as [T0 P0].
  destruct (cpath_cons _ _ Hc) as [[Hf _] _].
  rewrite <- (same_position _ Hc 0%nat j f g 0 eq_refl Hj ltac:(lra) Ht). rewrite <- T0 at 1. rewrite pos_at_begin. exact P0.
Qed.
Lemma visits_in path stops : forall t, visits path t stops -> forall p w, In (p, w) stops -> (forall q w', In (q, w') stops -> 0 <= w') ->
  exists t' v, t <= t' /\ on_path path t' v p.
Proof.
  induction stops as [|[q x] stops IH]; intros t H p w Hin Hw; [destruct Hin|]. inversion H as [|? t' ? ? ? Ht Hon Hr]; subst.
  assert (Hx : 0 <= x) by (eapply Hw; left; reflexivity). destruct Hin as [E|Hin].
  - injection E as -> ->. destruct (Hon t' ltac:(lra)) as (v & Hv). exists t', v. split; [exact Ht|exact Hv].
  - destruct (IH _ Hr p w Hin) as (t1 & v & H1 & H2); [intros; eapply Hw; right; eassumption|]. exists t1, v. split; [lra|exact H2].
Qed.
Section Text.
Variables (presets : dict (dict pval)) (printer cue : option str) (s : setup) (ops : list sop) (rs : list (res unit)) (a : aset).
Hypothesis Hn : new_setup presets printer cue = Ok s.
Hypothesis Hst : a_steps presets ops (a_start presets printer) rs a.
Variables (p : str) (su : setup_values Rops) (fw : pval).
Hypothesis Hsel : a_sel a = Some p.
Hypothesis Hsu : machine_settings cue a p su.
Hypothesis Hfw : complete_printer a p fw.
Variables (lines : list str) (ls : list line_dict) (sts : list (state Rops)).
Hypothesis Hread : read_gcode_to_dict_list lines = Ok ls.
Hypothesis Hsts : generate_states Rops lines su = Ok sts.
Hypothesis Hz : Forall g92_zero ls.
Variables (g0 : gmachine) (gs : list gmachine) (k0 : kstate) (ks : list kstate).
Hypothesis Hg0 : g_start su g0.
Hypothesis Hrun : g_run g0 ls gs.
Hypothesis Hk0 : commands g0 None k0.
Hypothesis Hks : command_list ls gs ks.
Hypothesis Hv : valid_program k0 ks.
Hypothesis Hmove : exists k, In k ks /\ k_pos k <> k_pos k0.

(** A simulation is made; its trajectory starts at time 0 at the start position
    of the setup and then visits the positions of the abstract G-code machine
    line by line, resting for the pauses. *)
Theorem C66_text_to_trajectory defaults unit k : unit_length unit k -> no_moving_pause k0 ks ->
  exists m s' stops, new_simulation defaults lines None (Some (snd (do_ops ops s))) unit = Ok (m, s') /\
    let path := unpack_blocklist (blocklist (sim_query m)) in
    path <> [] /\ contiguous_path path /\
    starts (fun g => t_begin g = 0 /\ at_machine g0 (pos_begin g)) path /\
    stop_list ls gs stops /\ visits path 0 stops.
Proof.
  intros Hu Hnm. destruct (steps_refine _ _ _ _ _ _ _ (new_setup_refines _ _ _ _ Hn) Hst) as (s1 & E & Hr). rewrite E.
  destruct (run_setup_ok _ _ _ _ _ _ _ Hr Hsel Hsu Hfw _ _ _ _ _ _ _ Hread Hsts Hz Hg0 Hrun Hk0 Hks Hv Hmove unit)
    as (m & s' & bl & H1 & H2 & _ & _ & _ & _ & (k0' & ks' & S0 & Ss & _ & Hsim) & Hne & Hvis & Hstart).
  exists m, s', (map stop_of ks). split.
  { unfold new_simulation. rewrite (known_output_unit _ _ Hu). exact H1. }
  rewrite H2. cbn [blocklist]. split; [exact Hne|]. split.
  { exact (sim_cpath _ _ _ _ _ (valid_program_same _ _ _ _ S0 Ss Hv) Hsim). }
  split; [|split; [exact (stop_list_ok _ _ _ Hks)|exact (Hvis Hnm)]].
  destruct (unpack_blocklist bl) as [|g path]; [exact I|]. destruct Hstart as [T0 P0]. split; [exact T0|]. rewrite P0.
  destruct Hk0 as (X & Y & Z & E1 & _). repeat split; assumption.
Qed.

(** * C43: units *)
(** A start position given in a unit is what the simulation reports for time 0
    in that unit, after any history of queries. *)
Theorem C43_start_position defaults unit ku hist ip u k f ops0 rs0 a0 :
  unit_length unit ku -> no_moving_pause k0 ks ->
  ops = ops0 ++ [OPosition ip (Some u)] -> a_steps presets ops0 (a_start presets printer) rs0 a0 ->
  position_arg ip f -> unit_length u k ->
  exists m s' v, new_simulation defaults lines None (Some (snd (do_ops ops s))) unit = Ok (m, s') /\
    fst (get_values (after_queries (sim_query m) hist) 0 (Some u)) = Ok (v, V4 (f AX) (f AY) (f AZ) (f AE)).
Proof.
  intros Hu Hnm Eops Hst0 Hip Huk. destruct (steps_refine _ _ _ _ _ _ _ (new_setup_refines _ _ _ _ Hn) Hst) as (s1 & E & Hr). rewrite E.
  destruct (run_setup_ok _ _ _ _ _ _ _ Hr Hsel Hsu Hfw _ _ _ _ _ _ _ Hread Hsts Hz Hg0 Hrun Hk0 Hks Hv Hmove unit)
    as (m & s' & bl & H1 & H2 & _ & _ & _ & _ & (k0' & ks' & S0 & Ss & _ & Hsim) & Hne & Hvis & Hstart). specialize (Hvis Hnm).
  pose proof (valid_program_same _ _ _ _ S0 Ss Hv) as Hv'. pose proof (sim_cpath _ _ _ _ _ Hv' Hsim) as Hcp.
  assert (Hpos : forall x, a_pos a x = k * f x).
  { assert (Hst1 : a_steps presets ops (a_start presets printer) (rs0 ++ [Ok tt]) (ASet (a_sel a0) (a_prop a0) (fun x => k * f x))).
    { rewrite Eops. clear -Hst0 Hip Huk. induction Hst0 as [a|o ops a r a1 rs a2 S1 S2 IH]; simpl.
      - econstructor; [eapply as_position; [exact Hip|exact Huk]|constructor].
      - econstructor; [exact S1|exact IH]. }
    destruct (steps_refine _ _ _ _ _ _ _ (new_setup_refines _ _ _ _ Hn) Hst1) as (s2 & E2 & Hr2). rewrite E in E2. injection E2 as _ <-.
    intros x. pose proof (rf_pos _ _ _ _ Hr x) as P1. pose proof (rf_pos _ _ _ _ Hr2 x) as P2. rewrite P1 in P2. simpl in P2. congruence. }
  destruct (print_time_exists _ Hne) as (T & HT).
  assert (HT0 : 0 < T).
  { destruct (print_time_last _ _ HT) as (l & Hl & ->). destruct Hmove as (kk & Hkk & Hd).
    destruct (visits_in _ _ _ Hvis (k_pos kk) (snd (stop_of kk))) as (t1 & v1 & Ht1 & Hon).
    - change (k_pos kk, snd (stop_of kk)) with (stop_of kk). apply in_map. exact Hkk.
    - intros q w' Hin. apply in_map_iff in Hin as (k1 & E1 & Hk1). injection E1 as _ <-.
      destruct Hv as (Hall & _). rewrite Forall_forall in Hall. destruct (Hall k1 (or_intror Hk1)) as (_ & _ & _ & Hp).
      destruct (k_pause k1) as [x|]; [apply Hp; reflexivity|lra].
    - destruct (Rle_or_lt (t_end l) 0) as [L|L]; [|exact L]. exfalso. apply Hd.
      assert (t1 = 0). { destruct Hon as (g & Hg & (Hr1 & _)). pose proof (cpath_last_end _ _ Hcp Hl g Hg). lra. }
      subst t1. exact (start_position _ _ _ _ Hcp Hstart Hon). }
  destruct (C40_values_on_trajectory _ _ _ _ _ Hv' Hsim unit hist T 0 (Some u) k HT ltac:(lra) Huk) as (v & q & vmm & pmm & G & Hon & _ & Hq).
  exists m, s', v. split; [unfold new_simulation; rewrite (known_output_unit _ _ Hu); exact H1|]. rewrite H2, G. do 2 f_equal.
  rewrite (start_position _ _ _ _ Hcp Hstart Hon) in Hq. destruct Hk0 as (X & Y & Z & E1 & _).
  destruct Hg0 as (GX & GY & GZ & GE & _). destruct Hsu as (_ & _ & _ & _ & _ & _ & _ & AX' & AY' & AZ' & AE' & _).
  assert (Kp : 0 < k) by (destruct Huk; lra).
  assert (C : forall c x, k * c = x -> x = a_pos a AX \/ True -> True) by auto. clear C.
  rewrite <- AX' in GX. rewrite <- AY' in GY. rewrite <- AZ' in GZ. rewrite <- AE' in GE. rewrite Hpos in *.
  apply vec4_ext; simpl; apply (Rmult_eq_reg_l k); try lra.
  - transitivity (vx (vscale k q)); [simpl; ring|]. rewrite Hq. congruence.
  - transitivity (vy (vscale k q)); [simpl; ring|]. rewrite Hq. congruence.
  - transitivity (vz (vscale k q)); [simpl; ring|]. rewrite Hq. congruence.
  - transitivity (ve (vscale k q)); [simpl; ring|]. rewrite Hq. congruence.
Qed.
End Text.
(** Results in a unit times the unit's length are the results in millimetres,
    for every simulation object and every query; failures agree. *)
Theorem C43_output_factor s t unit k : unit_length (match unit with Some w => w | None => output_unit_system s end) k ->
  fst (get_values s t (Some (S_ "SImm"))) =
    match fst (get_values s t unit) with Ok (v, p) => Ok (vscale k v, vscale k p) | Err e => Err e end /\
  extrusion_extent s (Some (S_ "SImm")) =
    match extrusion_extent s unit with
    | Ok ((x0, y0, z0), (x1, y1, z1)) => Ok ((k * x0, k * y0, k * z0), (k * x1, k * y1, k * z1))
    | Err e => Err e
    end /\
  extrusion_max_vel s (Some (S_ "SImm")) = match extrusion_max_vel s unit with Ok m => Ok (k * m) | Err e => Err e end.
Proof.
  intros Hu. destruct (unit_scale_own s unit _ k eq_refl Hu) as [E Hk]. destruct (unit_scale s (S_ "SImm") 1 u_SImm) as [E1 _].
  split; [|split].
  - unfold get_values. destruct (find_current_segment _ _ _) as [[g i| |]|e]; try reflexivity. simpl.
    destruct (get_velocity g t) as [v|]; [|reflexivity]. simpl. destruct (get_position g t) as [p|]; [|reflexivity]. simpl.
    rewrite E, ?E1. simpl. do 2 f_equal; apply vec4_ext; simpl; field; lra.
  - unfold extrusion_extent. repeat (destruct (amax _) as [?x|]; [simpl|reflexivity]). repeat (destruct (amin _) as [?x|]; [simpl|reflexivity]).
    rewrite E, ?E1. simpl. do 3 f_equal; try (f_equal; field; lra); field; lra.
  - unfold extrusion_max_vel. destruct (block_maxima _) as [ms|]; [|reflexivity]. simpl. destruct (amax ms) as [x|]; [|reflexivity]. simpl.
    rewrite E, ?E1. simpl. f_equal. field. lra.
Qed.

(** The example printer and program meet the hypotheses. *)
Lemma ex_moving : no_moving_pause corner_start corner_program.
Proof. simpl. auto. Qed.
Lemma ex_zero : Forall g92_zero ex_ls.
Proof. repeat constructor; intros a lf H; destruct a; discriminate H. Qed.
Example C66_case defaults : exists m s' stops,
  new_simulation defaults ex_lines None (Some ex_setup) (S_ "inch") = Ok (m, s') /\  stop_list ex_ls [ex_machine 10 0; ex_machine 10 10] stops /\ visits (unpack_blocklist (blocklist (sim_query m))) 0 stops.
Proof.
  destruct ex_states as (sts & Hsts & Hk).
  destruct (C66_text_to_trajectory _ _ _ _ _ _ _ ex_new (ass_nil _ _) _ _ _ eq_refl ex_settings ex_complete _ _ _ ex_parsed Hsts ex_zero
              _ _ _ _ (proj1 ex_run) (proj2 ex_run) (proj1 ex_commands) (proj2 ex_commands) corner_valid ex_moves
              defaults _ _ u_inch ex_moving) as (m & s' & stops & H1 & _ & _ & _ & H2 & H3).
  exists m, s', stops. auto.
Qed.
(** A printer that starts one inch to the right reports 1 in inches. *)
Example C43_case hist : exists s m s' v,
  snd (do_ops [OPosition (ITuple [PNum 1; PNum 0; PNum 0; PNum 0]) (Some (S_ "inch"))] ex_setup) = s /\
  new_simulation ex_presets ex_lines None (Some s) (S_ "SI") = Ok (m, s') /\
  fst (get_values (after_queries (sim_query m) hist) 0 (Some (S_ "inch"))) = Ok (v, V4 1 0 0 0).
Proof.
  set (x0 := 254 / 10 * 1). set (z0 := 254 / 10 * 0).
  set (su := Build_setup_values Rops 10 100 20 180 180 30 33 x0 z0 z0 z0 None).
  set (k0 := KState (V4 x0 z0 z0 z0) 10 100 20 None None).
  set (k1 := KState (V4 10 z0 z0 z0) 10 100 20 None None). set (k2 := KState (V4 10 10 z0 z0) 10 100 20 None None).
  set (gm := fun x y : R => {| g_pos := fun a => match a with AX => x | AY => y | _ => z0 end; g_off := fun _ => 0; g_abs := fun _ => true;
     g_feed := SNum (N := Rops) 10; g_acc := SNum (N := Rops) 100; g_jerk := SNum (N := Rops) 20;
     g_lim := fun a => SNum (N := Rops) (match a with AX => 180 | AY => 180 | AZ => 30 | AE => 33 end); g_unit := S_ "SImm" |}).
  assert (M : means (N := Rops) (LNum (Dec 10 0)) 10) by (exists 10%Z, 0%Z; split; reflexivity).
  assert (Hsts : exists sts, generate_states Rops ex_lines su = Ok sts).
  { unfold generate_states. rewrite ex_parsed. cbn [bind]. eexists. lazy -[Rplus Rmult Rdiv Rinv IZR]. reflexivity. }
  destruct Hsts as (sts & Hsts).
  assert (Hg0 : g_start su (gm x0 z0)) by (repeat split).
  assert (Hrun : g_run (gm x0 z0) ex_ls [gm 10 z0; gm 10 10]).
  { econstructor; [|econstructor; [|constructor]].
    - split; [intros a; destruct a; reflexivity|]. split; [reflexivity|]. split.
      + exists (g_pos (gm x0 z0)). split; intros a; destruct a; cbn; try reflexivity. exists 10. split; [exact M|lra].
      + split; [intros a; destruct a; reflexivity|]. repeat split; intros a; destruct a; reflexivity.
    - split; [intros a; destruct a; reflexivity|]. split; [reflexivity|]. split.
      + exists (g_pos (gm 10 z0)). split; intros a; destruct a; cbn; try reflexivity. exists 10. split; [exact M|lra].
      + split; [intros a; destruct a; reflexivity|]. repeat split; intros a; destruct a; reflexivity. }
  assert (Hv : valid_program k0 [k1; k2]).
  { split; [|split; [reflexivity|]].
    - repeat first [apply Forall_nil | apply Forall_cons]; (split; [simpl; lra|]; split; [simpl; lra|]; split; [simpl; lra|]);
        intros p Hp; discriminate Hp.
    - simpl. split; [reflexivity|]. left. intros E. apply (f_equal vx) in E. simpl in E. unfold x0 in E. lra. }
  destruct (C43_start_position _ _ _ _ [OPosition (ITuple [PNum 1; PNum 0; PNum 0; PNum 0]) (Some (S_ "inch"))] [Ok tt]
      (ASet (Some (S_ "anycubic")) (a_prop ex_start) (fun x => 254 / 10 * match x with AX => 1 | _ => 0 end)) ex_new
      (ass_cons _ _ _ _ _ _ _ _ (as_position _ _ (Some (S_ "inch")) ex_start (254 / 10) (fun x => match x with AX => 1 | _ => 0 end)
         (pa_tuple _ _ _ _ (fun x => match x with AX => 1 | _ => 0 end) eq_refl eq_refl eq_refl eq_refl) u_inch) (ass_nil _ _))
      (S_ "anycubic") su (PStr (S_ "marlin_jerk")) eq_refl ltac:(repeat split) ex_complete _ _ _ ex_parsed Hsts ex_zero
      (gm x0 z0) [gm 10 z0; gm 10 10] k0 [k1; k2] Hg0 Hrun ltac:(repeat split) ltac:(repeat constructor) Hv
      ltac:(exists k1; split; [left; reflexivity|]; intros E; apply (f_equal vx) in E; simpl in E; unfold x0 in E; lra)
      ex_presets _ _ hist (ITuple [PNum 1; PNum 0; PNum 0; PNum 0]) (S_ "inch") _ (fun x => match x with AX => 1 | _ => 0 end) [] []
      (a_start ex_presets (Some (S_ "anycubic"))) u_SI ltac:(simpl; auto) eq_refl (ass_nil _ _)
      (pa_tuple _ _ _ _ (fun x => match x with AX => 1 | _ => 0 end) eq_refl eq_refl eq_refl eq_refl) u_inch)
    as (m & s' & v & H1 & H2).
  do 4 eexists. split; [reflexivity|]. split; [exact H1|exact H2].
Qed.

(** * C55: the simulation and later changes of the setup *)
(** The states and the trajectory of a simulation are not touched by later
    operations on the setup (they are values); a refresh gives the same
    simulation again as long as nobody changed the firmware of its printer. *)
Theorem C55_refresh_partial presets printer cue s ops rs a defaults lines mn unit m s' ops2 rs2 a2 :
  new_setup presets printer cue = Ok s -> a_steps presets ops (a_start presets printer) rs a ->
  new_simulation defaults lines mn (Some (snd (do_ops ops s))) unit = Ok (m, s') ->
  a_steps presets ops2 a rs2 a2 ->
  (forall p, a_sel a = Some p -> a_prop a2 p (S_ "firmware") = a_prop a p (S_ "firmware")) ->
  refresh m (snd (do_ops ops2 s')) = Ok m.
Proof.
  intros Hn Hst Hm Hst2 Hkeep. destruct (steps_refine _ _ _ _ _ _ _ (new_setup_refines _ _ _ _ Hn) Hst) as (s1 & E & Hr). rewrite E in Hm.
  destruct (new_simulation_inv _ _ _ _ _ _ _ _ _ _ Hr Hm) as (p & fw & bl & Hsel & Hp & Hr' & Hf & Hpl & Hq).
  destruct (steps_refine _ _ _ _ _ _ _ Hr' Hst2) as (s2 & E2 & Hr2). rewrite E2. simpl.
  eapply (refresh_same _ _ _ _ p fw); [exact Hr2|exact Hp| |rewrite Hkeep; assumption|exact Hpl|exact Hq].
  apply (rf_selected _ _ _ _ Hr). exact Hsel.
Qed.
(** Other settings, and the firmware of another printer, may change. *)
Example C55_case : exists a2, a_steps ex_presets
    [OProperty [(S_ "jerk", PNum 1)]; OSelect (S_ "prusa"); OProperty [(S_ "firmware", PStr (S_ "klipper"))]]
    ex_start [Ok tt; Ok tt; Ok tt] a2 /\
  a_prop a2 (S_ "anycubic") (S_ "firmware") = a_prop ex_start (S_ "anycubic") (S_ "firmware").
Proof.
  eexists. split.
  - econstructor; [eapply as_property; [reflexivity|intros; reflexivity]|].
    econstructor; [apply as_select; simpl; auto|].
    econstructor; [eapply as_property; [reflexivity|intros; reflexivity]|constructor].
  - reflexivity.
Qed.
(** With another firmware the refreshed simulation differs from the one that
    was made: the simulation holds a reference into the setup. *)
Theorem C55_owns_settings_refuted : exists presets p s lines m s' s'' m',
  new_setup presets (Some p) None = Ok s /\
  new_simulation presets lines None (Some s) (S_ "SImm") = Ok (m, s') /\
  set_property [(S_ "firmware", PStr (S_ "other"))] s' = (Ok tt, s'') /\
  refresh m s' = Ok m /\ refresh m s'' = Ok m' /\
  exists b bl b' bl', blocklist (sim_query m) = b :: bl /\ blocklist (sim_query m') = b' :: bl' /\
    k_pos (b_A b) = k_pos (b_A b') /\ k_pos (b_B b) = k_pos (b_B b') /\
    ends (fun g => 1 <= norm3 (vel_end g)) (b_segs b) /\ ends (fun g => norm3 (vel_end g) = 0) (b_segs b').
Proof.
  destruct ex_states as (sts & Hsts & Hk).
  pose proof (new_setup_refines _ _ _ _ ex_new) as Hr.
  destruct (run_setup_ok _ _ _ _ _ _ _ Hr eq_refl ex_settings ex_complete _ _ _ _ _ _ _ ex_parsed Hsts ex_zero
              (proj1 ex_run) (proj2 ex_run) (proj1 ex_commands) (proj2 ex_commands) corner_valid ex_moves (S_ "SImm"))
    as (m & s' & bl & H1 & H2 & H3 & H4 & Hr' & Eg & (k0' & ks' & S0 & Ss & Ek & Hsim) & Hne & _).
  pose proof (valid_program_same _ _ _ _ S0 Ss corner_valid) as Hv'.
  destruct (step_refines _ _ (OProperty [(S_ "firmware", PStr (S_ "other"))]) _ _ _ _ Hr'
              (as_property ex_presets _ (a_start ex_presets (Some (S_ "anycubic"))) (S_ "anycubic") _ eq_refl (fun q k => eq_refl)))
    as (s'' & E2 & Hr2).
  destruct (simulation_succeeds FullStop _ _ Hv') as (bl' & Hsim').
  exists ex_presets, (S_ "anycubic"), ex_setup, ex_lines, m, s', s''.
  exists (MkSimulation (S_ "anycubic") (sim_firmware m) sts (Sim bl' (S_ "SImm") None)).
  split; [exact ex_new|]. split; [exact H1|]. split; [exact E2|]. rewrite Hk in Ek. injection Ek as <- <-.
  assert (Hpl : plan (PStr (S_ "marlin_jerk")) sts = Ok bl) by (unfold plan; rewrite Hk; cbn [bind]; rewrite Hsim; reflexivity).
  assert (Hpl' : plan (PStr (S_ "other")) sts = Ok bl') by (unfold plan; rewrite Hk; cbn [bind]; change (firmware_of (PStr (S_ "other"))) with FullStop; rewrite Hsim'; reflexivity).
  split; [|split].
  - eapply (refresh_same _ _ _ _ (S_ "anycubic") (PStr (S_ "marlin_jerk"))); [exact Hr'|exact H3|simpl; auto|reflexivity|rewrite H4; exact Hpl|exact H2].
  - unfold refresh. rewrite H3, H4, H2. unfold deref.
    pose proof (proj2 (rf_known _ _ _ _ Hr2 (S_ "anycubic")) ltac:(simpl; auto)) as Hin. destruct (dget_some _ _ Hin) as (d & Hd). rewrite Hd. unfold dindex.
    rewrite (rf_prop _ _ _ _ Hr2 (S_ "anycubic") d _ Hd) by (apply unreserved; [right; simpl; tauto|discriminate]).
    simpl. rewrite Hpl'. reflexivity.
  - rewrite H2. cbn [sim_query blocklist].
    pose proof (sim_dominates _ _ _ _ _ corner_valid Hsim _ _ corner_items corner_feasible) as D.
    pose proof (sim_corner_speeds _ _ _ _ _ corner_valid Hsim' _ corner_items) as C.
    destruct (sim_blocks _ _ _ _ _ corner_valid Hsim) as (i1 & I1 & M1). rewrite (plan_items_fun _ _ _ _ I1 corner_items) in M1.
    destruct (sim_blocks _ _ _ _ _ corner_valid Hsim') as (i2 & I2 & M2). rewrite (plan_items_fun _ _ _ _ I2 corner_items) in M2.
    inversion D as [|b1 ? bs1 ? D1 D2]; subst. inversion C as [|b2 ? bs2 ? C1 C2]; subst.
    exists b1, bs1, b2, bs2. cbn [map] in M1, M2. injection M1 as A1 B1 _ _. injection M2 as A2 B2 _ _.
    split; [reflexivity|]. split; [reflexivity|]. split; [congruence|]. split; [congruence|]. split; [exact D1|].
    revert C1. unfold junction_vel. unfold ends. destruct (rev (b_segs b2)); [auto|]. simpl. intros C1. apply Rle_antisym; [exact C1|apply norm3_nonneg].
Qed.

Print Assumptions C53_setup_map.
Print Assumptions C53_no_printer.
Print Assumptions C53_construction.
Print Assumptions C65_property_takes_effect_partial.
Print Assumptions C65_layer_cue_refuted.
Print Assumptions C54_validation_exact.
Print Assumptions C54_constructor_rejects.
Print Assumptions C60_unknown_unit.
Print Assumptions C60_nothing_given.
Print Assumptions C60_unknown_machine.
Print Assumptions C60_name_mismatch.
Print Assumptions C60_matching_name.
Print Assumptions C66_text_to_trajectory.
Print Assumptions C43_start_position.
Print Assumptions C43_output_factor.
Print Assumptions C55_refresh_partial.
Print Assumptions C55_owns_settings_refuted.
