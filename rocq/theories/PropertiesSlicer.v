(** Properties C92, C93: programs as slicers write them, the printers of the
    package and its examples.  Vocabulary: SpecSlicer.v, SpecText.v, SpecTrace.v,
    SpecFirmware.v, SpecPlot.v, SpecQuery.v, SpecTools.v. *)
From Coq Require Import Lra Lia FunctionalExtensionality.
From Verif Require Import Py PyFloat Parser StateGen SpecMachine SpecRead Vec Segment Junction Planner Query Setup Interp Tools Abaqus Plot Cli Presets Examples
  RealFacts SpecKin SpecQuery SpecSetup SpecText SpecTools SpecTrace SpecFirmware SpecPlot SpecSlicer
  StrFacts ReadFacts ReadReals PlannerProofs TrajProofs PlanFacts QueryFacts QueryProofs SetupProofs InterpProofs LayerProofs FirmwareProofs TraceProofs TraceText SlicerProofs SlicerText
  PropertiesRead PropertiesQuery PropertiesSetup PropertiesTools PropertiesTrace PropertiesSearch PropertiesPlot.
Open Scope R_scope.
Local Arguments S_ : simpl never.

(** * C92 *)
(** For every printer description with positive settings, a program spelled as
    slicers write it, with numbers in their ranges, that starts with a move is
    simulated, and the simulation prints what the program says. *)
Theorem C92_slicer_program presets printer cue s ops rs a p su fw lines cs defaults unit k f :
  new_setup presets printer cue = Ok s -> a_steps presets ops (a_start presets printer) rs a ->
  a_sel a = Some p -> machine_settings cue a p su -> complete_printer a p fw -> firmware_named fw f ->
  0 < s_p_vel Rops su -> 0 < s_p_acc Rops su -> 0 <= s_jerk Rops su ->
  Forall2 spells lines cs -> Forall sensible cs ->
  let h := fresh_head (a_pos a) (s_p_vel Rops su) (s_p_acc Rops su) (s_jerk Rops su) in
  starts_moving h cs -> unit_length unit k ->
  exists m s', new_simulation defaults lines None (Some (snd (do_ops ops s))) unit = Ok (m, s') /\ printed f h cs m.
Proof.
  intros Hn Hst Hsel Hsu Hfw Hf V A J Hsp Hse h Hmv Hu.
  destruct (slicer_sim _ _ _ _ _ _ _ Hn Hst _ _ _ Hsel Hsu Hfw _ _ Hsp Hse V A J unit k Hu Hmv) as (m & s' & k0 & ks & H).
  exists m, s'. split; [|exact (md_printed _ _ _ _ _ _ _ _ _ _ _ _ _ _ _ H f Hf)].
  unfold new_simulation. rewrite (known_output_unit _ _ Hu). exact (md_run _ _ _ _ _ _ _ _ _ _ _ _ _ _ _ H).
Qed.

Lemma shipped_ready n v ac j f cue : shipped n v ac j f ->
  exists s su fw, new_setup shipped_presets (Some (S_ n)) cue = Ok s /\
    machine_settings cue (a_start shipped_presets (Some (S_ n))) (S_ n) su /\
    complete_printer (a_start shipped_presets (Some (S_ n))) (S_ n) fw /\ firmware_named fw f /\
    s_p_vel Rops su = v /\ s_p_acc Rops su = ac /\ s_jerk Rops su = j /\ s_layer_cue Rops su = cue /\ 0 < v /\ 0 < ac /\ 0 <= j.
Proof.
  intros H.
  assert (C : forall nz fl pv pa je x y z e fw q d, d = preset nz fl pv pa je x y z e fw -> dget q shipped_presets = Some d ->
    exists s su, new_setup shipped_presets (Some q) cue = Ok s /\ machine_settings cue (a_start shipped_presets (Some q)) q su /\
      complete_printer (a_start shipped_presets (Some q)) q fw /\
      s_p_vel Rops su = pv /\ s_p_acc Rops su = pa /\ s_jerk Rops su = je /\ s_layer_cue Rops su = cue).
  { intros nz fl pv pa je x y z e fw q d -> Eq.
    destruct (new_setup_succeeds shipped_presets q cue _ fw Eq eq_refl) as (s & Es).
    exists s, (Build_setup_values Rops pv pa je x y z e 0 0 0 0 cue). split; [exact Es|].
    unfold machine_settings, complete_printer, a_start. cbn [a_prop a_pos]. rewrite Eq.
    split; [repeat split; destruct cue; reflexivity|]. split; [|auto]. split; [reflexivity|].
    intros k w Hk. assert (Hi : In k (dkeys (preset nz fl pv pa je x y z e fw))) by (eapply dget_in; exact Hk).
    unfold must_have, may_have. unfold preset, dkeys in Hi. simpl in Hi |- *. tauto. }
  destruct H;
    [destruct (C _ _ _ _ _ _ _ _ _ _ (S_ "anisoprint_a4") _ eq_refl eq_refl) as (s & su & H1 & H2 & H3 & H4 & H5 & H6 & H7)
    |destruct (C _ _ _ _ _ _ _ _ _ _ (S_ "prusa_mini") _ eq_refl eq_refl) as (s & su & H1 & H2 & H3 & H4 & H5 & H6 & H7)
    |destruct (C _ _ _ _ _ _ _ _ _ _ (S_ "prusa_mini_klipper") _ eq_refl eq_refl) as (s & su & H1 & H2 & H3 & H4 & H5 & H6 & H7)
    |destruct (C _ _ _ _ _ _ _ _ _ _ (S_ "debugging") _ eq_refl eq_refl) as (s & su & H1 & H2 & H3 & H4 & H5 & H6 & H7)];
    exists s, su; eexists; (split; [exact H1|]; split; [exact H2|]; split; [exact H3|]); (split; [first [constructor; fail | constructor; discriminate]|]);
    repeat (split; [first [assumption | lra]|]); lra.
Qed.
(** The same for the printers of the package, chosen by their name. *)
Theorem C92_shipped_printers n v ac j f lines cs unit k : shipped n v ac j f -> Forall2 spells lines cs -> Forall sensible cs ->
  starts_moving (fresh_head (fun _ => 0) v ac j) cs -> unit_length unit k ->
  exists m s', new_simulation shipped_presets lines (Some (S_ n)) None unit = Ok (m, s') /\ printed f (fresh_head (fun _ => 0) v ac j) cs m.
Proof.
  intros Hsh Hsp Hse Hmv Hu. destruct (shipped_ready _ _ _ _ _ None Hsh) as (s & su & fw & Hn & Hsu & Hfw & Hf & <- & <- & <- & _ & V & A & J).
  destruct (slicer_sim _ _ _ _ _ _ _ Hn (ass_nil _ _) _ _ _ eq_refl Hsu Hfw _ _ Hsp Hse V A J unit k Hu Hmv) as (m & s' & k0 & ks & H).
  exists m, s'. split; [|exact (md_printed _ _ _ _ _ _ _ _ _ _ _ _ _ _ _ H f Hf)].
  unfold new_simulation. rewrite (known_output_unit _ _ Hu), Hn. exact (md_run _ _ _ _ _ _ _ _ _ _ _ _ _ _ _ H).
Qed.
(** There are no other printers. *)
Theorem C92_unknown_printer p lines unit k : (forall n v ac j f, shipped n v ac j f -> p <> S_ n) -> unit_length unit k ->
  new_simulation shipped_presets lines (Some p) None unit = Err ValueError.
Proof.
  intros Hp Hu. unfold new_simulation. rewrite (known_output_unit _ _ Hu), new_setup_unknown; [reflexivity|].
  intros [E|[E|[E|[E|[]]]]]; refine (Hp _ _ _ _ _ _ (eq_sym E)); constructor.
Qed.
(** A program in which nothing moves or waits is refused. *)
Theorem C92_nothing_moves n v ac j f lines cs unit k : shipped n v ac j f -> Forall2 spells lines cs -> Forall sensible cs ->
  still (fresh_head (fun _ => 0) v ac j) cs -> unit_length unit k ->
  new_simulation shipped_presets lines (Some (S_ n)) None unit = Err IndexError.
Proof.
  intros Hsh Hsp Hse Hno Hu. destruct (shipped_ready _ _ _ _ _ None Hsh) as (s & su & fw & Hn & Hsu & Hfw & Hf & <- & <- & <- & _ & V & A & J).
  unfold new_simulation. rewrite (known_output_unit _ _ Hu), Hn. cbn [bind].
  exact (slicer_still _ _ _ _ _ _ _ Hn (ass_nil _ _) _ _ _ eq_refl Hsu Hfw _ _ Hsp Hse V A J unit Hno).
Qed.

(** * A case *)
(** Whether [k] is found in [t], for closed texts. *)
Fixpoint begins_with (k t : str) : bool :=
  match k, t with [], _ => true | c :: k', d :: t' => aeqb c d && begins_with k' t' | _, [] => false end.
Fixpoint found (k t : str) : bool := begins_with k t || match t with [] => false | _ :: t' => found k t' end.
Lemma begins_with_app k post : begins_with k (k ++ post) = true.
Proof. induction k as [|c k IH]; [reflexivity|]. cbn. unfold aeqb. rewrite Ascii.eqb_refl. exact IH. Qed.
Lemma found_app k pre post : found k (pre ++ k ++ post) = true.
Proof.
  induction pre as [|c pre IH]; cbn [app].
  - destruct (k ++ post) eqn:E; cbn [found]; rewrite <- E, begins_with_app; reflexivity.
  - cbn [found]. rewrite IH. apply orb_true_r.
Qed.
Lemma not_found k t : found k t = false -> ~ occurs k t.
Proof. intros H (i & pre & post & -> & _). rewrite found_app in H. discriminate. Qed.
Lemma no_command t : forallb (fun e => negb (found (S_ (fst e)) t)) documented = true -> forall k o, In (k, o) documented -> ~ occurs (S_ k) t.
Proof.
  intros H k o Hk. rewrite forallb_forall in H. apply not_found. specialize (H _ Hk). apply negb_true_iff in H. exact H.
Qed.
Lemma no_command_in u : forallb (fun e => String.eqb (fst e) ";" || negb (found (S_ (fst e)) u)) documented = true ->
  forall k o, In (k, o) documented -> k <> ";"%string -> ~ occurs (S_ k) u.
Proof.
  intros H k o Hk Hn. rewrite forallb_forall in H. apply not_found. specialize (H _ Hk). cbn [fst] in H. apply orb_prop in H as [H|H].
  - apply String.eqb_eq in H. contradiction.
  - apply negb_true_iff in H. exact H.
Qed.

(** Comments, unsupported and unknown commands, both modes, a layer change, a
    dwell and an extruding move. *)
Definition part_lines : list str :=
  [S_ "; sliced"; S_ "M104 S200"; S_ "G28 ; home"; S_ "G90"; S_ "M82"; S_ "G92 E0"; S_ "G1 X10 Y5.5 F600"; S_ ";LAYER_CHANGE";
   S_ "N7 G1 X20 E1.25"; S_ "G4 P500"; S_ "M204 P800"; S_ "G0 X-3"].
Definition nat_lit (ds : list nat) : literal := Lit None ds None.
Definition part : list gcode :=
  [Nothing; Nothing; Skipped "G28" []; Positions true; Extrusion true; Rename [("E"%char, nat_lit [0%nat])];
   Move false [("X"%char, nat_lit [1; 0]%nat); ("Y"%char, Lit None [5%nat] (Some [5%nat])); ("F"%char, nat_lit [6; 0; 0]%nat)]; Nothing;
   Move false [("X"%char, nat_lit [2; 0]%nat); ("E"%char, Lit None [1%nat] (Some [2; 5]%nat))];
   Wait [("P"%char, nat_lit [5; 0; 0]%nat)]; SetAcc [("P"%char, nat_lit [8; 0; 0]%nat)];
   Move true [("X"%char, Lit (Some true) [3%nat] None)]].
Ltac wf_args := split; [cbn [map fst]; repeat constructor; cbn [In]; intros H; repeat destruct H as [H|H]; (discriminate H || exact H)
  |repeat (apply Forall_cons || apply Forall_nil); (split; [vm_compute; auto 30|split; [repeat constructor|discriminate]])].
Ltac plain_text := intros x Hx; vm_compute in Hx; repeat (destruct Hx as [Hx|Hx]; [subst x; repeat split; discriminate|]); destruct Hx.
Ltac in_table := unfold documented; repeat (first [left; reflexivity | right]).
Lemma part_spelled : Forall2 spells part_lines part.
Proof.
  unfold part_lines, part. repeat apply Forall2_cons; try apply Forall2_nil.
  - apply (w_comment [] Nothing (S_ " sliced")); [apply w_other; apply no_command; vm_compute; reflexivity|intros []|apply no_command_in; vm_compute; reflexivity].
  - apply w_other. apply no_command. vm_compute. reflexivity.
  - apply (w_comment (S_ "G28 ") _ (S_ " home")); [|vm_compute; intros H; repeat (destruct H as [H|H]; [discriminate H|]); exact H|apply no_command_in; vm_compute; reflexivity].
    apply (w_args [] "G28" "LORXYZ" (S_ " ")); [reflexivity|in_table|wf_args|plain_text|vm_compute; reflexivity].
  - apply (w_bare [] "G90" []); [reflexivity|in_table|discriminate|plain_text|reflexivity].
  - apply (w_bare [] "M82" []); [reflexivity|in_table|discriminate|plain_text|reflexivity].
  - apply (w_args [] "G92" "EXYZ" (S_ " E0")); [reflexivity|in_table|wf_args|plain_text|vm_compute; reflexivity].
  - apply (w_args [] "G1" "EXYZF" (S_ " X10 Y5.5 F600")); [reflexivity|in_table|wf_args|plain_text|vm_compute; reflexivity].
  - apply (w_comment [] Nothing (S_ "LAYER_CHANGE")); [apply w_other; apply no_command; vm_compute; reflexivity|intros []|apply no_command_in; vm_compute; reflexivity].
  - apply (w_args (S_ "N7 ") "G1" "EXYZF" (S_ " X20 E1.25")); [reflexivity|in_table|wf_args|plain_text|vm_compute; reflexivity].
  - apply (w_args [] "G4" "PS" (S_ " P500")); [reflexivity|in_table|wf_args|plain_text|vm_compute; reflexivity].
  - apply (w_args [] "M204" "PRST" (S_ " P800")); [reflexivity|in_table|wf_args|plain_text|vm_compute; reflexivity].
  - apply (w_args [] "G0" "EXYZF" (S_ " X-3")); [reflexivity|in_table|wf_args|plain_text|vm_compute; reflexivity].
Qed.
Ltac arg_cases H := unfold arg in H;
  try (match type of H with option_map _ ?l = _ => let l' := eval vm_compute in l in change l with l' in H end);
  unfold lookup_arg in H; cbn [List.find fst snd option_map] in H;
  repeat (match type of H with context [if ?b then _ else _] => destruct b end); cbn [option_map snd] in H;
  try discriminate H; injection H as <-; unfold lit_num; cbn -[Rdiv Rmult pow]; simpl; try lra.
Lemma part_sensible : Forall sensible part.
Proof.
  unfold part. repeat (apply Forall_cons || apply Forall_nil); cbn [sensible]; try exact I; try (simpl; tauto);
    try (intros k x H; arg_cases H); intros x H; arg_cases H.
Qed.
Ltac compute_reals := lazy -[Rplus Rminus Rmult Rdiv Rinv Ropp IZR Rlt].
Definition at_home : vec4 := V4 0 0 0 0.
Lemma part_stops v ac j : stops (fresh_head (fun _ => 0) v ac j) part =
  [(at_home, 0); (at_home, 0); (at_home, 0); (at_home, 0); (at_home, 0); (at_home, 0); (V4 10 (55 / 10) 0 0, 0); (V4 10 (55 / 10) 0 0, 0);
   (V4 20 (55 / 10) 0 (125 / 100), 0); (V4 20 (55 / 10) 0 (125 / 100), 1 / 2); (V4 20 (55 / 10) 0 (125 / 100), 0); (V4 (-3) (55 / 10) 0 (125 / 100), 0)].
Proof.
  unfold at_home. compute_reals.
  repeat match goal with
         | |- cons _ _ = cons _ _ => apply f_equal2
         | |- pair _ _ = pair _ _ => apply f_equal2
         | |- V4 _ _ _ _ = V4 _ _ _ _ => f_equal
         end; try reflexivity; first [lra | field].
Qed.
Lemma part_moves v ac j : starts_moving (fresh_head (fun _ => 0) v ac j) part.
Proof.
  exists (firstn 6 part), (nth 6 part Nothing), (skipn 7 part), AX. split; [reflexivity|]. split; [repeat constructor|].
  compute_reals. lra.
Qed.
Lemma part_extrudes v ac j : extrudes_somewhere (fresh_head (fun _ => 0) v ac j) part.
Proof.
  exists (firstn 8 part), (nth 8 part Nothing), (skipn 9 part). split; [reflexivity|]. compute_reals.
  match goal with |- _ < ?x => replace x with (125 / 100) by field end. lra.
Qed.
(** Every printer of the package prints it; in particular it rests for half a
    second at (20, 5.5, 0) and ends at (-3, 5.5, 0). *)
Example C92_case n v ac j f : shipped n v ac j f -> exists m s', new_simulation shipped_presets part_lines (Some (S_ n)) None (S_ "SImm") = Ok (m, s') /\
  printed f (fresh_head (fun _ => 0) v ac j) part m /\
  ends (fun g => pos_end g = V4 (-3) (55 / 10) 0 (125 / 100)) (unpack_blocklist (blocklist (sim_query m))) /\
  exists t, 0 <= t /\ forall u, t <= u <= t + 1 / 2 -> exists v, on_path (unpack_blocklist (blocklist (sim_query m))) u v (V4 20 (55 / 10) 0 (125 / 100)).
Proof.
  intros H. destruct (C92_shipped_printers n v ac j f _ _ _ _ H part_spelled part_sensible (part_moves v ac j) u_SImm) as (m & s' & H1 & H2).
  exists m, s'. split; [exact H1|]. split; [exact H2|]. destruct H2 as (_ & _ & _ & He & Hv & _). split.
  - replace (V4 (-3) (55 / 10) 0 (125 / 100)) with (spot (obeyed part (fresh_head (fun _ => 0) v ac j))); [exact He|].
    compute_reals. f_equal; first [lra | field].
  - rewrite part_stops in Hv. revert Hv. generalize (unpack_blocklist (blocklist (sim_query m))). intros path Hv.
    assert (K : forall l t, 0 <= t -> visits path t l -> Forall (fun s => 0 <= snd s) l -> forall q w, In (q, w) l ->
      exists t', 0 <= t' /\ forall u, t' <= u <= t' + w -> exists v, on_path path u v q).
    { induction l as [|[q w] l IH]; intros t Ht Hl Hp q' w' Hin; [destruct Hin|]. inversion Hl as [|? t' ? ? ? L1 L2 L3]; subst.
      inversion Hp as [|? ? P1 P2]; subst. cbn [snd] in P1. destruct Hin as [E|Hin].
      - injection E as <- <-. exists t'. split; [lra|exact L2].
      - exact (IH (t' + w) ltac:(lra) L3 P2 _ _ Hin). }
    apply (K _ 0 (Rle_refl 0) Hv); [repeat (apply Forall_cons || apply Forall_nil); cbn [snd]; lra|]. simpl. tauto.
Qed.
(** What a checkout without git-lfs has in place of the G-code files of the
    examples: every line is no command. *)
Definition pointer : list str :=
  [S_ "version https://git-lfs.github.com/spec/v1";
   S_ "oid sha256:6e855d483b541f0c131f372ff69f896986da36f8f0d6cda1dad90caaaeb4cfb3"; S_ "size 9838338"].
Lemma pointer_spelled : Forall2 spells pointer [Nothing; Nothing; Nothing].
Proof. repeat constructor; apply no_command; vm_compute; reflexivity. Qed.
Lemma pointer_still h : still h [Nothing; Nothing; Nothing].
Proof.
  intros before c after E. assert (Hb : Forall (fun d => d = Nothing) (before ++ c :: after)) by (rewrite <- E; repeat constructor).
  apply Forall_app in Hb as [_ Hb]. inversion Hb as [|? ? -> _]; subst. split; [reflexivity|]. intros b. reflexivity.
Qed.
Example C92_case_pointer n v ac j f : shipped n v ac j f -> new_simulation shipped_presets pointer (Some (S_ n)) None (S_ "SImm") = Err IndexError.
Proof. intros H. exact (C92_nothing_moves n v ac j f _ _ _ _ H pointer_spelled ltac:(repeat constructor) (pointer_still _) u_SImm). Qed.

(** * C93 *)
Definition brace_head : head := fresh_head (fun _ => 0) 35 1000 10.
Definition benchy_head : head := fresh_head (fun _ => 0) 35 1250 8.
(** The brace example shows the lines along which the print extrudes, coloured by the
    speed; it writes nothing. *)
Theorem C93_brace w cs : default_presets w = shipped_presets -> Forall2 spells (gcode_lines w (S_ "examples/data/brace.gcode")) cs -> Forall sensible cs ->
  starts_moving brace_head cs ->
  exists m rs lines, printed MKA brace_head cs m /\
    runs extrudes (unpack_blocklist (blocklist (sim_query m))) rs /\ Forall2 along rs lines /\
    brace_example w = (if display w then [ShowPlot lines] else [], Finished).
Proof.
  change (S_ "examples/data/brace.gcode") with brace_gcode.
  intros Hd Hsp Hse Hmv. destruct (C92_shipped_printers _ _ _ _ _ _ _ _ _ sh_anisoprint Hsp Hse Hmv u_SImm) as (m & s' & H1 & H2).
  destruct (C56_lines_are_extruding_runs (blocklist (sim_query m))) as (rs & R1 & R2 & _).
  exists m, rs, (plot_3d_lines true (blocklist (sim_query m))). split; [exact H2|]. split; [exact R1|]. split; [exact R2|].
  unfold brace_example. rewrite Hd, H1. unfold show_plot. destruct (display w); reflexivity.
Qed.
Theorem C93_brace_refused w cs : default_presets w = shipped_presets -> Forall2 spells (gcode_lines w (S_ "examples/data/brace.gcode")) cs -> Forall sensible cs ->
  still brace_head cs -> brace_example w = ([], Raised IndexError).
Proof.
  change (S_ "examples/data/brace.gcode") with brace_gcode.
  intros Hd Hsp Hse Hno. unfold brace_example. rewrite Hd, (C92_nothing_moves _ _ _ _ _ _ _ _ _ sh_anisoprint Hsp Hse Hno u_SImm). reflexivity.
Qed.

Definition benchy_ops : list sop :=
  [OPosition (IDict [(S_ "X", PNum 0); (S_ "Y", PNum 0); (S_ "Z", PNum 0); (S_ "E", PNum 0)]) (Some (S_ "SImm"))].
Definition benchy_set : aset :=
  let a := a_start shipped_presets (Some (S_ "prusa_mini")) in ASet (a_sel a) (a_prop a) (fun _ => 0).
Lemma benchy_steps : a_steps shipped_presets benchy_ops (a_start shipped_presets (Some (S_ "prusa_mini"))) [Ok tt] benchy_set.
Proof.
  apply (ass_cons _ _ _ _ _ benchy_set _ _); [|apply ass_nil]. unfold benchy_set.
  replace (fun _ : axis => 0) with (fun x : axis => 1 * (fun _ => 0) x) by (extensionality x; ring).
  apply as_position; [|exact u_SImm]. apply pa_dict.
  - intros b. destruct b; reflexivity.
  - intros k v H. repeat (destruct H as [H|H]; [injection H as <- <-|]); [exists AX, 0|exists AY, 0|exists AZ, 0|exists AE, 0|destruct H]; auto.
Qed.
Lemma benchy_ready w : presets_in w benchy_presets = shipped_presets ->
  exists s su fw, new_setup shipped_presets (Some (S_ "prusa_mini")) (Some (S_ "LAYER_CHANGE")) = Ok s /\
    machine_settings (Some (S_ "LAYER_CHANGE")) benchy_set (S_ "prusa_mini") su /\ complete_printer benchy_set (S_ "prusa_mini") fw /\
    firmware_named fw MarlinJerk /\ s_p_vel Rops su = 35 /\ s_p_acc Rops su = 1250 /\ s_jerk Rops su = 8 /\
    s_layer_cue Rops su = Some (S_ "LAYER_CHANGE") /\
    benchy_simulation w = run_setup (gcode_lines w benchy_gcode) (S_ "SImm") (snd (do_ops benchy_ops s)).
Proof.
  intros Hp. destruct (shipped_ready _ _ _ _ _ (Some (S_ "LAYER_CHANGE")) sh_prusa) as (s & su & fw & Hn & Hsu & Hfw & Hf & V & A & J & L & _).
  exists s, su, fw. split; [exact Hn|]. split; [exact Hsu|]. split; [exact Hfw|]. do 5 (split; [assumption|]).
  unfold benchy_simulation. rewrite Hp, Hn. cbn [bind].
  destruct (steps_refine _ _ _ _ _ _ _ (new_setup_refines _ _ _ _ Hn) benchy_steps) as (s1 & E & _).
  unfold benchy_ops, do_ops, do_op in *. destruct (set_initial_position _ _ s) as [r s2]. injection E as -> <-. cbn [bind snd].
  reflexivity.
Qed.
(** The benchy example writes exactly these files to its folder, and they show
    the print. *)
Theorem C93_benchy w cs : presets_in w (S_ "examples/data/printer_presets.yaml") = shipped_presets -> Forall2 spells (gcode_lines w (S_ "examples/data/benchy.gcode")) cs -> Forall sensible cs ->
  starts_moving benchy_head cs -> extrudes_somewhere benchy_head cs ->
  exists m content rows events rs lines, printed MarlinJerk benchy_head cs m /\
    let bl := blocklist (sim_query m) in
    summarised bl (spot (obeyed cs benchy_head)) content /\ layer_table bl rows /\
    event_series (1 / 1000000000000) (unpack_blocklist bl) events /\
    runs extrudes (unpack_blocklist bl) rs /\ Forall2 along rs lines /\
    let d := InCwd (S_ "output_benchy_example") in
    benchy_example w =
      ([MakeDir d; SaveSummary d (S_ "benchy_summary.yaml") content; SaveLayers d (S_ "benchy_layer_metrics.csv") rows;
        SaveEvents d (S_ "benchy_prusa_mini_event_series.csv") events; SaveMesh d (S_ "benchy.vtk") lines] ++
       (if display w then [SavePicture d (S_ "benchy.png") lines; ShowPlot lines] else []), Finished).
Proof.
  change (S_ "examples/data/benchy.gcode") with benchy_gcode. change (S_ "examples/data/printer_presets.yaml") with benchy_presets.
  intros Hp Hsp Hse Hmv Hex. destruct (benchy_ready w Hp) as (s & su & fw & Hn & Hsu & Hfw & Hf & V & A & J & L & Es).
  unfold benchy_head in *. rewrite <- V, <- A, <- J in *.
  assert (V' : 0 < s_p_vel Rops su) by lra. assert (A' : 0 < s_p_acc Rops su) by lra. assert (J' : 0 <= s_jerk Rops su) by lra.
  change (fun _ : axis => 0) with (a_pos benchy_set) in *.
  destruct (slicer_sim _ _ _ _ _ _ _ Hn benchy_steps _ _ _ eq_refl Hsu Hfw _ _ Hsp Hse V' A' J' (S_ "SImm") 1 u_SImm Hmv)
    as (m & s' & k0 & ks & [M1 M2 M3 M4 (s1 & M5 & M5') M6 M7 M8 M9 M10 M11 M12 M13 M14]).
  pose proof (M12 _ L) as Hl. apply M13 in Hex. specialize (M14 _ Hf). rewrite M1 in Es.
  destruct (C83_summary _ _ _ _ _ M6 M8 (S_ "SImm") 1 [] M7 Hex u_SImm) as (T & x0 & y0 & z0 & x1 & y1 & z1 & mv & Ec & C1 & C2 & C3 & C4).
  cbn [after_queries fold_left] in Ec. rewrite <- M2 in Ec. rewrite M11 in C2. rewrite !Rmult_1_l in C3, C4.
  destruct (get_refines _ _ _ _ _ M5' (eq_refl : a_sel benchy_set = _)) as (s2 & Eg & _ & (_ & Hcue & _)).
  rewrite M5 in Eg. injection Eg as <-.
  assert (Ecue : dmem (S_ "layer_cue") (deref (sim_setup m) s') = true).
  { rewrite M3. unfold dmem. rewrite (Hcue _ eq_refl). reflexivity. }
  set (bl := blocklist (sim_query m)) in *.
  destruct (sim_timed _ _ _ _ _ M6 M8) as (T' & Ht & HT). assert (Hb : bl <> []) by (intros E; apply M9; rewrite E; reflexivity).
  specialize (HT Hb). destruct (layer_loop_ok bl 0 0 0 0 T' Ht Hl Hb ltac:(intros; lia)) as (rows & Er & _).
  assert (Erows : save_layer_metrics true bl = Ok (Some rows)) by (unfold save_layer_metrics; rewrite Er; reflexivity).
  destruct M14 as (P1 & P2 & P3 & P4). fold bl in P1, P2, P3, P4.
  destruct (unpack_blocklist bl) as [|f path] eqn:Ep; [contradiction|].
  destruct (C48_events (sim_query m) (1 / 1000000000000) (Some (S_ "SImm")) (S_ "SImm") 1 path f eq_refl u_SImm Ep P2 (proj1 P3))
    as (evs & Ee & E2). destruct (C56_lines_are_extruding_runs bl) as (rs & R1 & R2 & _).
  exists m, (T, ((x0, y0, z0), (x1, y1, z1)), mv), rows, evs, rs, (plot_3d_lines true bl).
  split. { unfold printed. fold bl. rewrite Ep. split; [exact P1|]. split; [exact P2|]. split; [exact P3|]. exact P4. }
  cbv zeta. fold bl. split.
  { unfold summarised. rewrite Ep. split; [exact C1|]. split; [exact C2|]. split; [exact C3|]. exact C4. }
  split.
  { exists T'. split; [exact HT|]. intros Hno. destruct (C50_layer_durations_partial _ _ _ _ _ _ M6 M8 Hl HT Hno) as (rows' & E' & Q1 & _ & Q3 & Q4 & Q5).
    rewrite Erows in E'. injection E' as <-. auto. }
  split; [rewrite Ep; exact E2|]. split; [exact R1|]. split; [exact R2|].
  unfold benchy_example. rewrite Es, Ec, Ecue. fold bl. rewrite Erows, Ee. unfold save_plot, show_plot, benchy_dir.
  destruct (display w); reflexivity.
Qed.
(** Without a line that extrudes it ends with ValueError, without a line that
    moves or waits with IndexError, and writes nothing. *)
Theorem C93_benchy_refused w cs : presets_in w (S_ "examples/data/printer_presets.yaml") = shipped_presets -> Forall2 spells (gcode_lines w (S_ "examples/data/benchy.gcode")) cs -> Forall sensible cs ->
  (starts_moving benchy_head cs -> ~ extrudes_somewhere benchy_head cs -> benchy_example w = ([], Raised ValueError)) /\
  (still benchy_head cs -> benchy_example w = ([], Raised IndexError)).
Proof.
  change (S_ "examples/data/benchy.gcode") with benchy_gcode. change (S_ "examples/data/printer_presets.yaml") with benchy_presets.
  intros Hp Hsp Hse. destruct (benchy_ready w Hp) as (s & su & fw & Hn & Hsu & Hfw & Hf & V & A & J & L & Es).
  unfold benchy_head in *. rewrite <- V, <- A, <- J in *.
  assert (V' : 0 < s_p_vel Rops su) by lra. assert (A' : 0 < s_p_acc Rops su) by lra. assert (J' : 0 <= s_jerk Rops su) by lra.
  change (fun _ : axis => 0) with (a_pos benchy_set) in *. split.
  - intros Hmv Hno.
    destruct (slicer_sim _ _ _ _ _ _ _ Hn benchy_steps _ _ _ eq_refl Hsu Hfw _ _ Hsp Hse V' A' J' (S_ "SImm") 1 u_SImm Hmv)
      as (m & s' & k0 & ks & [M1 M2 M3 M4 _ M6 M7 M8 M9 M10 M11 M12 M13 _]).
    unfold benchy_example. rewrite Es, M1. unfold save_summary.
    destruct (rev (blocklist (sim_query m))) as [|b l] eqn:Er.
    { exfalso. apply M9. apply (f_equal (@rev block)) in Er. rewrite rev_involutive in Er. rewrite Er. reflexivity. }
    assert (Hb : In b (blocklist (sim_query m))) by (apply in_rev; rewrite Er; left; reflexivity).
    destruct (block_last _ _ _ _ _ _ M6 M8 Hb) as (l0 & El). rewrite El. cbn [bind]. rewrite M2.
    rewrite (C45_no_extrusion _ _ _ _ _ M6 M8 (S_ "SImm") None); [reflexivity|].
    intros b0 Hb0 Hf0. apply Hno. apply M13. exists b0. auto.
  - intros Hno. unfold benchy_example. rewrite Es.
    rewrite (slicer_still _ _ _ _ _ _ _ Hn benchy_steps _ _ _ eq_refl Hsu Hfw _ _ Hsp Hse V' A' J' (S_ "SImm") Hno). reflexivity.
Qed.
(** A computer with the part as both files, and one with the pointers. *)
Definition examples_world (lines : list str) (screen : bool) : world :=
  World (fun _ => true) [] (fun _ => lines) (fun _ => shipped_presets) shipped_presets [] (fun x => x) screen.
Example C93_case : exists m content rows events lines, printed MarlinJerk benchy_head part m /\
  let d := InCwd (S_ "output_benchy_example") in
  benchy_example (examples_world part_lines true) =
    ([MakeDir d; SaveSummary d (S_ "benchy_summary.yaml") content; SaveLayers d (S_ "benchy_layer_metrics.csv") rows;
      SaveEvents d (S_ "benchy_prusa_mini_event_series.csv") events; SaveMesh d (S_ "benchy.vtk") lines;
      SavePicture d (S_ "benchy.png") lines; ShowPlot lines], Finished).
Proof.
  destruct (C93_benchy (examples_world part_lines true) part eq_refl part_spelled part_sensible (part_moves _ _ _) (part_extrudes _ _ _))
    as (m & content & rows & events & rs & lines & H1 & _ & _ & _ & _ & _ & H2).
  exists m, content, rows, events, lines. split; [exact H1|exact H2].
Qed.
Example C93_case_brace : exists lines, brace_example (examples_world part_lines true) = ([ShowPlot lines], Finished).
Proof.
  destruct (C93_brace (examples_world part_lines true) part eq_refl part_spelled part_sensible (part_moves _ _ _)) as (m & rs & lines & _ & _ & _ & H).
  exists lines. exact H.
Qed.
Example C93_case_pointer : brace_example (examples_world pointer true) = ([], Raised IndexError) /\
  benchy_example (examples_world pointer true) = ([], Raised IndexError).
Proof.
  split.
  - exact (C93_brace_refused (examples_world pointer true) _ eq_refl pointer_spelled ltac:(repeat constructor) (pointer_still _)).
  - exact (proj2 (C93_benchy_refused (examples_world pointer true) _ eq_refl pointer_spelled ltac:(repeat constructor)) (pointer_still _)).
Qed.

Print Assumptions C92_slicer_program.
Print Assumptions C92_shipped_printers.
Print Assumptions C92_unknown_printer.
Print Assumptions C92_nothing_moves.
Print Assumptions C93_brace.
Print Assumptions C93_brace_refused.
Print Assumptions C93_benchy.
Print Assumptions C93_benchy_refused.
