(** Properties C01-C19: parsing lines and reading programs.
    Vocabulary: SpecRead.v (text) and SpecMachine.v (parsed lines, states). *)
From Coq Require Import QArith Reals Lra Permutation.
From Verif Require Import Py PyFloat Parser StateGen StrFacts DedupeProofs SpecRead ParserProofs CommentProofs LineProofs
     SpecMachine ReadProofs ReadFacts ReadReals ReadText.
Open Scope nat_scope.
Ltac run_vm := match goal with |- exists x, ?e = Ok x /\ _ =>
  let v := eval vm_compute in e in match v with Ok ?r => exists r; split; [vm_cast_no_check (@eq_refl _ v)|] end end.
Ltac run_r := lazy -[IZR Rplus Rdiv]; reflexivity.
Local Arguments S_ : simpl never.
Local Arguments known_keys : simpl never.
Local Arguments find_matches : simpl never.
Local Arguments unshadowed : simpl never.

Definition parse (s : str) : res (dict arg) := arg_extract s known_commands.

(** A concrete program used in the examples. *)
Definition ex_program : list str :=
  [S_ "G90 ; absolute"; S_ "M83"; S_ "G1 X10.5 Y-2 E.4 F1200 ; perimeter"; S_ "M104 S210";
   S_ "; LAYER"; S_ "G91"; S_ "G0 X1"; S_ "G1 X2.5 Z.2"; S_ "G4 P250"; S_ "G92 E0"; S_ "G28 X";
   S_ "M204 P800"; S_ ";LAYER "; S_ "G90"; S_ "G1 X3 F600"].
Definition ex_setup N : setup_values N :=
  let d := default_setup N in
  {| s_p_vel := s_p_vel N d; s_p_acc := s_p_acc N d; s_jerk := s_jerk N d; s_vX := s_vX N d; s_vY := s_vY N d;
     s_vZ := s_vZ N d; s_vE := s_vE N d; s_X := s_X N d; s_Y := s_Y N d; s_Z := s_Z N d; s_E := s_E N d;
     s_layer_cue := Some (S_ "LAYER") |}.
Example ex_program_reads : exists sts, generate_states Rops ex_program (ex_setup Rops) = Ok sts /\ length sts = 16.
Proof.
  unfold generate_states.
  destruct (read_gcode_to_dict_list ex_program) as [ls|] eqn:E; [|vm_compute in E; discriminate E].
  vm_compute in E. injection E as <-. eexists. split; [run_r|reflexivity].
Qed.

(** A rational setting. *)
Definition q_ (q : Q) : sval Qops := @SNum Qops q.

(** * C01 *)
(** If a commented line is read at all, it is read like the bare line plus the comment. *)
Theorem C01_comment_adds_only_itself_partial s t d' : ~ In ";"%char s ->
  parse (s ++ ";"%char :: t) = Ok d' ->
  exists d, parse s = Ok d /\ d' = d ++ [(S_ ";", ALeaf (LStr t))].
Proof. intros Hs. exact (comment_ignored s t Hs d'). Qed.
(** A comment in which no command occurs is always harmless. *)
Theorem C01_plain_comment_partial s t : ~ In ";"%char s ->
  (forall k o, In (k, o) documented -> k <> ";"%string -> ~ occurs (S_ k) t) ->
  parse (s ++ ";"%char :: t) = (d <- parse s ;; Ok (d ++ [(S_ ";", ALeaf (LStr t))])).
Proof.
  intros Hs Ht. apply (comment_harmless s t Hs). intros k Hk Hn.
  change (In k (map (fun p => S_ (fst p)) documented)) in Hk. apply in_map_iff in Hk as ([n o] & E & Hi). cbn [fst] in E. subst k.
  apply (Ht n o Hi). intros ->. apply Hn. reflexivity.
Qed.
Example C01_case : parse (S_ "G1 X5 F600 ; infill G2 X1") = Ok
  [(S_ "G1", ADict [(S_ "X", LNum (Dec 5 0)); (S_ "F", LNum (Dec 600 0))]); (S_ ";", ALeaf (LStr (S_ " infill G2 X1")))].
Proof. vm_compute. reflexivity. Qed.
(** False in general: a comment that mentions a command and a number breaks a
    line that is read without the comment. *)
Theorem C01_comment_refuted : exists s t d, ~ In ";"%char s /\ parse s = Ok d /\ parse (s ++ ";"%char :: t) = Err TypeError.
Proof.
  exists (S_ "G1 X5"), (S_ " G2 5"). eexists. split; [|split; [vm_compute; reflexivity|vm_compute; reflexivity]].
  vm_compute. intros H. repeat (destruct H as [H|H]; [discriminate H|]). exact H.
Qed.

(** * C02 *)
(** Every documented command with any distinct letters and any decimal
    literals, with blanks put in anywhere and any harmless text before it. *)
Theorem C02_read_back cmd ls args pre w :
  In (cmd, Some ls) documented -> args_wf (letters ls) args -> plain pre -> unblank w = body args ->
  parse (pre ++ S_ cmd ++ w) = Ok [(S_ cmd, ADict (args_meaning (letters ls) args))].
Proof. intros Hd. exact (line_read_back (S_ cmd) (letters ls) args pre w (documented_args cmd (Some ls) Hd)). Qed.
(** Commands without arguments, alone on their line. *)
Theorem C02_bare_commands cmd pre w :
  In (cmd, None) documented -> cmd <> ";"%string -> plain pre -> unblank w = [] ->
  parse (pre ++ S_ cmd ++ w) = Ok [(S_ cmd, ALeaf (LStr []))].
Proof.
  intros Hd Hs Hp Hw. destruct (table_args _ _ (documented_args cmd None Hd)) as (C1 & C2 & _).
  assert (Hb : forall x, In x w -> x = " "%char \/ x = "010"%char).
  { intros x Hx. destruct (aeqb_spec x " "%char); [auto|]. destruct (aeqb_spec x "010"%char); [auto|].
    exfalso. assert (Hi : In x (unblank w)) by (apply unblank_in; assumption). rewrite Hw in Hi. destruct Hi. }
  unfold parse. rewrite one_command.
  - unfold line_value. rewrite C2, cast_unblank, Hw. reflexivity.
  - exact Hp.
  - intros x Hx. destruct (Hb x Hx) as [->| ->]; repeat split; discriminate.
  - exact C1.
  - intros E. apply Hs. unfold S_ in E. apply (f_equal string_of_list_ascii) in E. rewrite !string_of_list_ascii_of_string in E. exact E.
  - intros k Hk. apply prefix_no_digit; [exact C1|exact Hk|]. intros (x & r & -> & Hx).
    destruct (Hb x (or_introl eq_refl)) as [->| ->]; discriminate Hx.
Qed.
(** The literal means its decimal value. *)
Theorem C02_literal_value l x : lit_wf l -> py_float (lit_str l) = Some (lit_val l) /\ (meansR (LNum (lit_val l)) x -> x = lit_num l).
Proof. intros H. split; [exact (literal_value l H)|exact (lit_num_val l x)]. Qed.
Example C02_case : parse (S_ "N7 G1 Y-2.50 X 10 F.5") = Ok
  [(S_ "G1", ADict [(S_ "X", LNum (Dec 10 0)); (S_ "Y", LNum (Dec (-250) (-2))); (S_ "F", LNum (Dec 5 (-1)))])].
Proof. vm_compute. reflexivity. Qed.
Example C02_case_hyp : exists args, args_wf (letters "EXYZF") args /\ unblank (S_ " Y-2.50 X 10 F.5") = body args.
Proof.
  exists [("Y"%char, Lit (Some true) [2] (Some [5; 0])); ("X"%char, Lit None [1; 0] None); ("F"%char, Lit None [] (Some [5]))].
  split; [|vm_compute; reflexivity]. split.
  - cbn [map fst]. repeat constructor; cbn [In]; intros H; repeat destruct H as [H|H]; (discriminate H || exact H).
  - repeat (apply Forall_cons || apply Forall_nil); (split; [vm_compute; auto 10|split; [repeat constructor; lia|discriminate]]).
Qed.

(** * C03 *)
Theorem C03_blanks_irrelevant pre pre' cmd o w w' :
  In (cmd, o) documented -> cmd <> ";"%string -> plain pre -> plain pre' -> plain w -> plain w' ->
  ~ starts_with_digit w -> ~ starts_with_digit w' -> unblank w = unblank w' ->
  parse (pre ++ S_ cmd ++ w) = parse (pre' ++ S_ cmd ++ w').
Proof.
  intros Hd Hs H1 H2 H3 H4 H5 H6 H7. destruct (table_args _ _ (documented_args cmd o Hd)) as (C1 & _).
  apply (blanks_ignored pre pre' (S_ cmd) w w'); try assumption.
  intros E. apply Hs. unfold S_ in E. apply (f_equal string_of_list_ascii) in E. rewrite !string_of_list_ascii_of_string in E. exact E.
Qed.
Example C03_case : parse (S_ "G1 X1 0 Y 2") = parse (S_ "  G1X10Y2") /\ exists d, parse (S_ "G1X10Y2") = Ok d.
Proof. split; [vm_compute; reflexivity|]. eexists. vm_compute. reflexivity. Qed.

(** * C04 *)
Theorem C04_argument_order cmd ls args args' pre pre' w w' :
  In (cmd, Some ls) documented -> args_wf (letters ls) args -> Permutation args args' -> plain pre -> plain pre' ->
  unblank w = body args -> unblank w' = body args' ->
  exists d, parse (pre ++ S_ cmd ++ w) = Ok d /\ parse (pre' ++ S_ cmd ++ w') = Ok d.
Proof.
  intros Hd Ha Hp H1 H2 H3 H4. exists [(S_ cmd, ADict (args_meaning (letters ls) args))].
  assert (Ha' : args_wf (letters ls) args').
  { destruct Ha as [A B]. split; [apply (Permutation_NoDup (Permutation_map fst Hp) A)|].
    rewrite Forall_forall in *. intros x Hx. apply B. apply (Permutation_in x (Permutation_sym Hp) Hx). }
  split; [apply C02_read_back; assumption|].
  rewrite (meaning_perm _ _ _ (proj1 Ha) Hp). apply C02_read_back; assumption.
Qed.
(** So exchanging one for the other in a program leaves all states as they are. *)
Theorem C04_same_states N cmd ls args args' pre pre' w w' before after su :
  In (cmd, Some ls) documented -> args_wf (letters ls) args -> Permutation args args' -> plain pre -> plain pre' ->
  unblank w = body args -> unblank w' = body args' ->
  generate_states N (before ++ (pre ++ S_ cmd ++ w) :: after) su = generate_states N (before ++ (pre' ++ S_ cmd ++ w') :: after) su.
Proof.
  intros Hd Ha Hp H1 H2 H3 H4. apply same_parse_states.
  destruct (C04_argument_order cmd ls args args' pre pre' w w' Hd Ha Hp H1 H2 H3 H4) as (d & A & B).
  unfold parse in A, B. rewrite A, B. reflexivity.
Qed.
Example C04_case : parse (S_ "G1 X1 Y2 F3") = parse (S_ "G1 F3 Y2 X1").
Proof. vm_compute. reflexivity. Qed.

(** * C05 *)
Theorem C05_one_state_per_line N lines su sts : generate_states N lines su = Ok sts ->
  map line_number sts = None :: map Some (seq 1 (length lines)).
Proof.
  unfold generate_states. destruct (read_gcode_to_dict_list lines) as [ls|] eqn:E; cbn [bind]; [|discriminate].
  intros H. apply traveler_split in H as (rest & -> & H). cbn [map]. f_equal.
  rewrite (travel_numbers _ _ _ _ _ _ H). destruct (read_lines_numbers _ _ _ E) as (_ & B & _).
  rewrite <- B, map_map. reflexivity.
Qed.
(** The i-th parsed line is the parse of the i-th text line and carries i + 1. *)
Theorem C05_parsed_lines lines ls : read_gcode_to_dict_list lines = Ok ls ->
  length ls = length lines /\ map ld_number ls = seq 1 (length lines) /\
  forall k t, nth_error lines k = Some t -> exists l, nth_error ls k = Some l /\ parse t = Ok (ld l).
Proof. exact (read_lines_numbers lines 0 ls). Qed.
Example C05_case : exists sts, generate_states Qops ex_program (ex_setup Qops) = Ok sts /\
  map line_number (firstn 3 sts) = [None; Some 1; Some 2].
Proof. run_vm. vm_compute. reflexivity. Qed.

(** * C06 *)
(** Exactly which commands a line is reported to hold. *)
Theorem C06_reported_commands_partial s d k : parse s = Ok d ->
  (In k (dkeys d) <->
   In k (map (fun p => S_ (fst p)) documented) /\ exists i, first_at k i s /\
     (forall k', In k' (map (fun p => S_ (fst p)) documented) -> first_at k' i s -> length k' <= length k) /\
     (k = S_ ";" \/ forall j, first_at (S_ ";") j s -> i + length k <= j)).
Proof. exact (reported_commands s d k). Qed.
(** The first half of C06: a short command is not reported from the place of a long one. *)
Theorem C06_no_short_prefix_partial s d short long : parse s = Ok d ->
  In (short, long) [(S_ "G1", S_ "G10"); (S_ "G1", S_ "G11"); (S_ "G2", S_ "G20"); (S_ "G2", S_ "G21"); (S_ "G2", S_ "G28"); (S_ "G2", S_ "G29")] ->
  (exists i, first_at long i s /\ first_at short i s) -> ~ In short (dkeys d).
Proof.
  intros H Hp (i & Hl & Hs) Hi. apply (reported_commands s d short H) in Hi as (_ & j & Hj & Hlong & _).
  assert (j = i). { destruct Hs as [A B], Hj as [C D]. specialize (B _ C). specialize (D _ A). lia. }
  subst j.
  assert (Hc : command long) by (repeat destruct Hp as [Hp|Hp]; try (injection Hp as <- <-; apply command_b; reflexivity); destruct Hp).
  specialize (Hlong long Hc Hl).
  repeat destruct Hp as [Hp|Hp]; try (injection Hp as <- <-; vm_compute in Hlong; lia); destruct Hp.
Qed.
Example C06_case : exists d, parse (S_ "G10 S1") = Ok d /\ dkeys d = [S_ "G10"] /\
  exists i, first_at (S_ "G10") i (S_ "G10 S1") /\ first_at (S_ "G1") i (S_ "G10 S1").
Proof.
  eexists. split; [vm_compute; reflexivity|]. split; [reflexivity|]. exists 0.
  split; apply find_first; reflexivity.
Qed.
(** The second half is false: a separate word G1 is lost behind a G10. *)
Theorem C06_separate_word_refuted : exists d, parse (S_ "G10 G1 X5") = Ok d /\ ~ In (S_ "G1") (dkeys d).
Proof.
  eexists. split; [vm_compute; reflexivity|]. vm_compute. intros H.
  repeat (destruct H as [H|H]; [discriminate H|]). exact H.
Qed.

(** * C07 *)
(** A line in which no command of the table occurs can be inserted anywhere: it
    does not raise, repeats position and settings of the state before it, has
    no pause, and leaves all other states as they were. *)
Theorem C07_foreign_line_partial N before t after su sts :
  (forall k, In k (map (fun p => S_ (fst p)) documented) -> ~ occurs k t) ->
  generate_states N (before ++ after) su = Ok sts ->
  exists sts' s s', generate_states N (before ++ t :: after) su = Ok sts' /\
    nth_error sts (length before) = Some s /\
    map view sts' = map view (firstn (S (length before)) sts) ++ view s' :: map view (skipn (S (length before)) sts) /\
    state_position s' = state_position s /\ state_p_settings s' = state_p_settings s /\ pause s' = None /\ comment s' = None.
Proof.
  intros Ht H. change (forall k, command k -> ~ occurs k t) in Ht. unfold generate_states in *.
  destruct (read_gcode_to_dict_list (before ++ after)) as [ls|] eqn:E; cbn [bind] in H; [|discriminate].
  unfold read_gcode_to_dict_list in *.
  destruct (read_lines_rest after before 0 ls E) as (la & lb & Ea & Eb & Es).
  assert (Hla : length la = length before) by (apply read_lines_numbers in Ea; apply Ea).
  destruct (read_lines_shift after _ (S (length before)) lb Eb) as (lb' & Eb' & Em).
  set (l0 := {| ld := []; ld_number := length before + 1 |}).
  assert (Er : read_lines 0 (before ++ t :: after) = Ok (la ++ l0 :: lb')).
  { apply read_lines_cat; [exact Ea|]. cbn [Nat.add read_lines]. rewrite no_command_line by exact Ht. cbn [bind].
    rewrite Eb'. reflexivity. }
  rewrite Er. cbn [bind]. apply traveler_split in H as (rest & -> & Ht').
  assert (Hld : map ld (la ++ lb') = map ld ls) by (rewrite Es, !map_app, Em; reflexivity).
  assert (Hlen : length ls >= length before) by (rewrite Es, app_length; lia).
  destruct (travel_insert N (s_layer_cue N su) l0 eq_refl (length before) ls (la ++ lb') (init_vm N su) 0 rest Hld Hlen Ht')
    as (sts' & s' & A & B & C & D & F & G).
  assert (Ef : firstn (length before) (la ++ lb') = la /\ skipn (length before) (la ++ lb') = lb').
  { rewrite <- Hla, firstn_app, firstn_all, skipn_app, skipn_all, Nat.sub_diag, app_nil_r. split; reflexivity. }
  rewrite (proj1 Ef), (proj2 Ef) in A. unfold dict_list_traveler. rewrite A. cbn [bind].
  assert (Hs : exists s, nth_error (initial_state N su :: rest) (length before) = Some s).
  { destruct (nth_error (initial_state N su :: rest) (length before)) as [s|] eqn:En; [exists s; reflexivity|].
    apply nth_error_None in En. cbn [length] in En. rewrite (travel_length _ _ _ _ _ _ Ht') in En. lia. }
  destruct Hs as (s & Hs). eexists; exists s, s'. split; [reflexivity|]. split; [exact Hs|].
  split; [cbn [firstn skipn map app]; rewrite B; reflexivity|].
  rewrite C, D. destruct (length before) as [|b] eqn:Eb0.
  - injection Hs as <-. destruct (F eq_refl) as [F1 F2]. rewrite F1, F2. repeat split.
  - cbn [nth_error] in Hs. destruct (G b s eq_refl Hs) as (G1 & G2 & _). rewrite G1, G2. repeat split.
Qed.
Example C07_case : forall k, In k (map (fun p => S_ (fst p)) documented) -> ~ occurs k (S_ "M104 S210") /\ ~ occurs k (S_ "G5 X1 I2").
Proof.
  intros k Hk. change (command k) in Hk.
  split; intros Ho; apply find_occurs in Ho.
  - pose proof (commands_all (fun k => match find k (S_ "M104 S210") with None => true | _ => false end) eq_refl k Hk) as Q.
    cbv beta in Q. destruct (find k (S_ "M104 S210")); [discriminate Q|congruence].
  - pose proof (commands_all (fun k => match find k (S_ "G5 X1 I2") with None => true | _ => false end) eq_refl k Hk) as Q.
    cbv beta in Q. destruct (find k (S_ "G5 X1 I2")); [discriminate Q|congruence].
Qed.
(** Whenever an unknown word is a command with arguments followed by further
    digits and nothing else, the reader raises TypeError. *)
Theorem C07_longer_words_raise_partial pre cmd ls w f : plain pre -> plain w -> In (cmd, Some ls) documented ->
  (forall k, In k (map (fun p => S_ (fst p)) documented) -> prefixb k (S_ cmd ++ w) = prefixb k (S_ cmd)) ->
  py_float (unblank w) = Some f -> parse (pre ++ S_ cmd ++ w) = Err TypeError.
Proof.
  intros Hp Hw Hd. exact (numeric_rest_raises pre (S_ cmd) (letters ls) w f Hp Hw (documented_args _ _ Hd)).
Qed.
(** So C07 is false: G17 and G30 raise, and G91.1 switches to relative mode. *)
Theorem C07_unknown_commands_refuted :
  parse (S_ "G17") = Err TypeError /\ parse (S_ "G30") = Err TypeError /\
  exists sts, generate_states Qops [S_ "G1 X10"; S_ "G91.1"; S_ "G1 X20"] (default_setup Qops) = Ok sts /\
    exists s, nth_error sts 3 = Some s /\ ~ (px (state_position s) == 20)%Q.
Proof.
  split; [vm_compute; reflexivity|]. split; [vm_compute; reflexivity|].
  run_vm. eexists. split; [reflexivity|]. vm_compute. discriminate.
Qed.

(** * C08 *)
Theorem C08_unsupported_counted lines ls : read_gcode_to_dict_list lines = Ok ls ->
  NoDup (dkeys (check_for_unsupported_commands ls)) /\
  forall k n, dget k (check_for_unsupported_commands ls) = Some n <-> unsupported k /\ n = lines_with k ls /\ 0 < n.
Proof. intros H. apply unsupported_counted. exact (read_lines_proper _ _ _ H). Qed.
Example C08_case : exists ls, read_gcode_to_dict_list [S_ "G28"; S_ "G1 X1"; S_ "G28 X"; S_ "G2 X1 I1"] = Ok ls /\
  check_for_unsupported_commands ls = [(S_ "G28", 2); (S_ "G2", 1)].
Proof. run_vm. vm_compute. reflexivity. Qed.

(** * C09 *)
(** Without a G92 of the axis, an absolute move puts it at the commanded value. *)
Theorem C09_absolute_move a su before line s s' lf :
  Forall proper_line (before ++ [line]) -> reads (N := Rops) su before line s s' ->
  absolute_after a (before ++ [line]) = true -> Forall (no_g92 a) (before ++ [line]) ->
  move_word (name a) line = Some lf -> meansR lf (coordR a s').
Proof.
  intros Hp Hr Ha Hn Hw. apply Forall_app in Hn as [N1 N2]. inversion N2 as [|? ? N3 _]; subst.
  destruct (abs_reads a su before line s s' lf Hp Hr Ha Hw N3) as (m & m' & x & A & B & C & D & E).
  apply Forall_app in Hp as [Hp _]. unfold oR in D.
  rewrite (off_after Rops a before _ _ Hp N1 A) in D. fold (oR a (init_vm Rops su)) in D. rewrite init_off in D.
  rewrite D, Rplus_0_r. exact B.
Qed.
(** With G92: the distance to the commanded value is the same for all absolute
    moves as long as no further G92 of that axis comes between them. *)
Theorem C09_offset_in_force a su b1 l1 mid l2 s1 s1' s2 s2' lf1 lf2 :
  Forall proper_line (b1 ++ l1 :: mid ++ [l2]) ->
  reads (N := Rops) su b1 l1 s1 s1' -> reads (N := Rops) su (b1 ++ l1 :: mid) l2 s2 s2' ->
  absolute_after a (b1 ++ [l1]) = true -> absolute_after a (b1 ++ l1 :: mid ++ [l2]) = true ->
  Forall (no_g92 a) (l1 :: mid ++ [l2]) ->
  move_word (name a) l1 = Some lf1 -> move_word (name a) l2 = Some lf2 ->
  exists x1 x2, meansR lf1 x1 /\ meansR lf2 x2 /\ (coordR a s1' - x1 = coordR a s2' - x2)%R.
Proof.
  intros Hp R1 R2 A1 A2 Hn W1 W2. inversion Hn as [|? ? N1 N2]; subst. apply Forall_app in N2 as [N2 N3]. inversion N3 as [|? ? N4 _]; subst.
  apply Forall_app in Hp as [P1 P2]. inversion P2 as [|? ? P3 P4]; subst. apply Forall_app in P4 as [P4 P5].
  assert (Pa : Forall proper_line (b1 ++ [l1])) by (apply Forall_app; split; [exact P1|constructor; [exact P3|constructor]]).
  assert (Pb : Forall proper_line ((b1 ++ l1 :: mid) ++ [l2])).
  { apply Forall_app. split; [|exact P5]. apply Forall_app. split; [exact P1|]. constructor; assumption. }
  replace (b1 ++ l1 :: mid ++ [l2]) with ((b1 ++ l1 :: mid) ++ [l2]) in A2 by (rewrite <- app_assoc; reflexivity).
  destruct (abs_reads a su _ _ _ _ _ Pa R1 A1 W1 N1) as (m1 & m1' & x1 & B1 & B2 & B3 & B4 & B5).
  destruct (abs_reads a su _ _ _ _ _ Pb R2 A2 W2 N4) as (m2 & m2' & x2 & C1 & C2 & C3 & C4 & C5).
  exists x1, x2. split; [exact B2|]. split; [exact C2|].
  pose proof (vm_after_mid _ _ _ _ _ _ B3 C1) as M. pose proof (off_after Rops a mid _ _ P4 N2 M) as O.
  rewrite B4, C4. unfold oR in *. change (get_o Rops a m2) with (get_o Rops a m2 : R) in *. rewrite O, B5. ring.
Qed.
(** From text: in a program without G91 and G92 (M83 for the extruder), the line
    "G1 ... X<literal> ..." puts X at the value of the literal. *)
Theorem C09_absolute_move_text a su before pre cmd args w l s s' :
  In cmd ["G0"%string; "G1"%string] -> args_wf (letters "EXYZF") args -> plain pre -> unblank w = body args ->
  Forall (fun t => ~ occurs (mode_off a) t) before -> Forall (fun t => ~ occurs (S_ "G92") t) before ->
  reads_text (N := Rops) su before (pre ++ S_ cmd ++ w) s s' -> lookup_arg (name a) args = Some l ->
  coordR a s' = lit_num l.
Proof.
  intros Hc Ha Hp Hw Hm Hn Hr Hl.
  destruct (reads_text_reads _ _ _ _ _ _ Hr) as (lb & line & R & F & P & Q).
  assert (Hd : In (cmd, Some "EXYZF"%string) documented).
  { destruct Hc as [<-|[<-|[]]]; unfold documented; simpl; auto 20. }
  assert (Eld : ld line = [(S_ cmd, ADict (args_meaning (letters "EXYZF") args))]).
  { pose proof (C02_read_back cmd _ args pre w Hd Ha Hp Hw) as E. unfold parsed in P. unfold parse in E. rewrite E in P. injection P as <-. reflexivity. }
  assert (Hmode : absolute_after a (lb ++ [line]) = true).
  { pose proof (never_relative a _ _ F Hm) as G. unfold absolute_after, switch in *.
    destruct a; rewrite fold_left_app, G; unfold flagb; cbn [fold_left]; rewrite Eld; destruct Hc as [<-|[<-|[]]]; reflexivity. }
  assert (Hg : Forall (no_g92 a) (lb ++ [line])).
  { apply Forall_app. split; [exact (never_renamed a _ _ F Hn)|]. constructor; [|constructor].
    unfold no_g92, word. rewrite Eld. destruct Hc as [<-|[<-|[]]]; reflexivity. }
  assert (Hget : dget (name a) (args_meaning (letters "EXYZF") args) = Some (LNum (lit_val l))).
  { apply args_meaning_get; [|apply nodupb_ok; reflexivity|exact Hl]. destruct a; vm_compute; auto 10. }
  assert (Hmw : move_word (name a) line = Some (LNum (lit_val l))).
  { unfold move_word, word. rewrite Eld. destruct Hc as [<-|[<-|[]]].
    - change (dget (S_ "G1") [(S_ "G0", ADict (args_meaning (letters "EXYZF") args))]) with (@None arg). exact Hget.
    - change (dget (S_ "G1") [(S_ "G1", ADict (args_meaning (letters "EXYZF") args))]) with (Some (ADict (args_meaning (letters "EXYZF") args))).
      cbv iota. rewrite Hget. reflexivity. }
  apply lit_num_val. exact (C09_absolute_move a su lb line s s' _ Q R Hmode Hg Hmw).
Qed.
Example C09_case : exists sts, generate_states Qops [S_ "G1 X7"; S_ "G0 X-2.5 Y1"] (default_setup Qops) = Ok sts /\
  map (fun s => (px (state_position s), py (state_position s))) sts = [(0#1, 0#1); (7#1, 0#1); (-25#10, 1#1)]%Q.
Proof. run_vm. vm_compute. reflexivity. Qed.

(** * C10 *)
Theorem C10_relative_move a su before line s s' :
  Forall proper_line (before ++ [line]) -> reads (N := Rops) su before line s s' ->
  absolute_after a (before ++ [line]) = false -> no_g92 a line ->
  exists v, increment a line v /\ coordR a s' = (coordR a s + v)%R.
Proof.
  intros Hp Hr Ha Hn. destruct (reads_step _ _ _ _ _ _ Hr) as (m & m' & p & A & B & C & D & _).
  assert (H' : vm_after Rops (before ++ [line]) (init_vm Rops su) = Ok m').
  { rewrite vm_after_app, A. cbn [bind vm_after]. rewrite B. reflexivity. }
  pose proof (absolute_mode Rops a _ su m' Hp H') as Hm. rewrite Ha in Hm.
  apply Forall_app in Hp as [_ Hp]. inversion Hp as [|? ? P1 _]; subst.
  destruct (rel_step a line m m' p P1 B Hm Hn) as (v & V1 & V2 & V3). exists v. split; [exact V1|].
  rewrite (coordR_vm a _ _ C), (coordR_vm a _ _ D), V2, V3. ring.
Qed.
Theorem C10_relative_moves_add_up a su before ls after sts s s' :
  Forall proper_line (before ++ ls) -> dict_list_traveler Rops (before ++ ls ++ after) su = Ok sts ->
  nth_error sts (length before) = Some s -> nth_error sts (length before + length ls) = Some s' ->
  (forall k, k < length ls -> absolute_after a (before ++ firstn (S k) ls) = false) -> Forall (no_g92 a) ls ->
  exists vs, Forall2 (increment a) ls vs /\ coordR a s' = (coordR a s + fold_right Rplus 0 vs)%R.
Proof.
  intros Hp H H1 H2 Ha Hn.
  destruct (state_shows Rops _ _ _ _ _ H H1) as (m & A & B).
  destruct (state_shows Rops _ _ _ _ _ H H2) as (m' & A' & B').
  rewrite firstn_app, firstn_all, Nat.sub_diag, app_nil_r in A.
  assert (Ef : firstn (length before + length ls) (before ++ ls ++ after) = before ++ ls).
  { rewrite app_assoc, <- app_length, firstn_app, firstn_all, Nat.sub_diag, app_nil_r. reflexivity. }
  rewrite Ef, vm_after_app, A in A'. cbn [bind] in A'.
  pose proof Hp as Hp0. apply Forall_app in Hp as [Hpb Hpl].
  destruct (rel_run a ls m m' Hpl Hn) as (vs & V1 & V2); [|exact A'|].
  { intros k mk Hk Hmk. rewrite <- (Ha k Hk). apply (absolute_mode Rops a _ su).
    - apply Forall_app. split; [exact Hpb|]. rewrite Forall_forall in *. intros x Hx. apply Hpl.
      rewrite <- (firstn_skipn (S k) ls). apply in_or_app. left. exact Hx.
    - rewrite vm_after_app, A. exact Hmk. }
  exists vs. split; [exact V1|]. rewrite (coordR_vm a _ _ B), (coordR_vm a _ _ B'), V2. reflexivity.
Qed.
Example C10_case : exists sts, generate_states Qops [S_ "G1 X7"; S_ "G91"; S_ "G0 X-2.5"; S_ "G1 X1"] (default_setup Qops) = Ok sts /\
  map (fun s => px (state_position s)) sts = [0#1; 7#1; 7#1; 45#10; 55#10]%Q.
Proof. run_vm. vm_compute. reflexivity. Qed.

(** * C11 *)
Theorem C11_unnamed_axes_stay N a (su : setup_values N) before line s s' :
  proper_line line -> reads su before line s s' ->
  word (S_ "G0") (name a) line = None -> word (S_ "G1") (name a) line = None -> no_g92 a line ->
  coord a (state_position s') = coord a (state_position s).
Proof.
  intros Hp Hr H0 H1 Hn. destruct (reads_step _ _ _ _ _ _ Hr) as (m & m' & p & A & B & [C _] & [D _] & _).
  rewrite C, D, !coord_vm. destruct (unnamed_step N a line m m' p Hp B H0 H1 Hn) as [-> ->]. reflexivity.
Qed.
(** From text: a line in which the letter of the axis does not occur. *)
Theorem C11_text N a (su : setup_values N) before t s s' : reads_text su before t s s' ->
  ~ In (hd " "%char (name a)) t -> coord a (state_position s') = coord a (state_position s).
Proof.
  intros Hr Hn. destruct (reads_text_reads _ _ _ _ _ _ Hr) as (lb & line & R & F & P & Q).
  apply Forall_app in Q as [_ Q]. inversion Q as [|? ? Q1 _]; subst.
  assert (G : forall cmd, word cmd (name a) line = None).
  { intros cmd. destruct (word cmd (name a) line) as [v|] eqn:E; [|reflexivity]. exfalso. apply Hn.
    apply (word_occurs t line cmd (name a) _ v P E); destruct a; (reflexivity || discriminate). }
  apply (C11_unnamed_axes_stay N a su lb line s s' Q1 R); apply G.
Qed.
Example C11_case : exists sts, generate_states Qops [S_ "G1 X7 Y3"; S_ "G1 Y4"; S_ "M204 P500"; S_ "G28"] (default_setup Qops) = Ok sts /\
  map (fun s => (px (state_position s), py (state_position s))) sts = [(0#1, 0#1); (7#1, 3#1); (7#1, 4#1); (7#1, 4#1); (7#1, 4#1)]%Q.
Proof. run_vm. vm_compute. reflexivity. Qed.

(** * C12 *)
Theorem C12_settings_modal N (su : setup_values N) before line s s' :
  proper_line line -> reads su before line s s' ->
  let p := state_p_settings s in let p' := state_p_settings s' in
  modal (move_word (S_ "F") line) (fun lf y => exists x, means lf x /\ y = SNum (n_div N x 60)) (speed p) (speed p') /\
  modal (word (S_ "M204") (S_ "P") line) stored (p_acc p) (p_acc p') /\
  modal (word (S_ "M205") (S_ "X") line) stored (jerk p) (jerk p') /\
  (forall a, modal (word (S_ "M203") (name a) line) stored (axis_limit a p) (axis_limit a p')) /\
  units p' = (if flagb (S_ "G21") line then S_ "SImm" else if flagb (S_ "G20") line then S_ "inch" else units p).
Proof.
  intros Hp Hr. destruct (reads_step _ _ _ _ _ _ Hr) as (m & m' & p & A & B & [_ C] & [_ D] & _).
  pose proof (step_effect N line m m' p Hp B) as Q. cbv zeta. rewrite C, D. unfold vm_settings.
  cbn [speed p_acc jerk units].
  split; [exact (le_feed _ _ _ _ _ Q)|]. split; [exact (le_acc _ _ _ _ _ Q)|]. split; [exact (le_jerk _ _ _ _ _ Q)|].
  split; [intros []; [exact (le_lim _ _ _ _ _ Q AX)|exact (le_lim _ _ _ _ _ Q AY)|exact (le_lim _ _ _ _ _ Q AZ)|exact (le_lim _ _ _ _ _ Q AE)]|].
  exact (le_units _ _ _ _ _ Q).
Qed.
(** The settings before the first line are those of the setup. *)
Theorem C12_initial_settings N (su : setup_values N) ls sts : dict_list_traveler N ls su = Ok sts ->
  exists s0 rest, sts = s0 :: rest /\ speed (state_p_settings s0) = SNum (s_p_vel N su) /\
    p_acc (state_p_settings s0) = SNum (s_p_acc N su) /\ jerk (state_p_settings s0) = SNum (s_jerk N su) /\
    vX (state_p_settings s0) = SNum (s_vX N su) /\ vY (state_p_settings s0) = SNum (s_vY N su) /\
    vZ (state_p_settings s0) = SNum (s_vZ N su) /\ vE (state_p_settings s0) = SNum (s_vE N su) /\
    units (state_p_settings s0) = S_ "SImm".
Proof.
  intros H. apply traveler_split in H as (rest & -> & _). exists (initial_state N su), rest. repeat split.
Qed.
(** With an empty setup (the dictionary {}): the defaults of the package. *)
Theorem C12_defaults ls sts : dict_list_traveler Rops ls (default_setup Rops) = Ok sts ->
  exists s0 rest, sts = s0 :: rest /\
    (forall a, coord a (state_position s0) = 0%R) /\
    speed (state_p_settings s0) = @SNum Rops 35%R /\ p_acc (state_p_settings s0) = @SNum Rops 200%R /\ jerk (state_p_settings s0) = @SNum Rops 10%R /\
    (forall a, axis_limit a (state_p_settings s0) = @SNum Rops (match a with AX | AY => 180 | AZ => 30 | AE => 33 end)%R).
Proof.
  intros H. apply traveler_split in H as (rest & -> & _). exists (initial_state Rops (default_setup Rops)), rest.
  assert (Z : forall z, nint Rops z = IZR z) by (intros z; unfold nint, Rops; cbn; unfold Rdiv; try rewrite Rinv_1, Rmult_1_r; reflexivity).
  split; [reflexivity|]. unfold initial_state, init_vm, default_setup.
  cbn -[nint]. split; [intros []; cbn -[nint]; rewrite ?Z; lra|]. split; [f_equal; apply Z|]. split; [f_equal; apply Z|]. split; [f_equal; apply Z|].
  intros []; cbn -[nint]; f_equal; apply Z.
Qed.
Example C12_case : exists sts, generate_states Qops [S_ "G1 X7 F600"; S_ "M204 P500"; S_ "G1 X3"; S_ "M203 X9"] (default_setup Qops) = Ok sts /\
  map (fun s => (speed (state_p_settings s), p_acc (state_p_settings s), vX (state_p_settings s))) sts =
  [(q_ (35#1), q_ (200#1), q_ (180#1)); (q_ (600#60), q_ (200#1), q_ (180#1)); (q_ (600#60), q_ (500#1), q_ (180#1));
   (q_ (600#60), q_ (500#1), q_ (180#1)); (q_ (600#60), q_ (500#1), q_ (9#1))]%Q.
Proof. run_vm. vm_compute. reflexivity. Qed.

(** * C13 *)
(** The states show exactly the runs of the abstract machine, for programs whose
    G92 only set coordinates to zero. *)
Theorem C13_machine_partial ls su sts : Forall proper_line ls -> Forall g92_zero ls ->
  dict_list_traveler Rops ls su = Ok sts ->
  (exists g gs, g_start su g /\ g_run g ls gs) /\
  forall g gs, g_start su g -> g_run g ls gs -> Forall2 shows sts (g :: gs).
Proof.
  intros Hp Hz H. apply traveler_split in H as (rest & -> & H). split.
  - destruct (travel_runs _ _ _ _ _ Hp Hz H) as (gs & G). exists (g_of (init_vm Rops su)), gs. split; [apply start_exists|exact G].
  - intros g gs Hg Hr. constructor.
    + apply (shows_eq _ (g_of (init_vm Rops su))); [apply shows_of; split; reflexivity|apply start_eq; exact Hg].
    + apply (travel_refines _ _ _ _ _ _ _ Hp Hz H (start_eq su g Hg) Hr).
Qed.
Lemma g92_program : exists ls, read_gcode_to_dict_list [S_ "G92 X5"] = Ok ls /\
  ls = [{| ld := [(S_ "G92", ADict [(S_ "X", LNum (Dec 5 0))])]; ld_number := 1 |}].
Proof. eexists. split; [vm_compute; reflexivity|reflexivity]. Qed.
(** In general it is false: after G92 X5 no run of the machine shows the states. *)
Theorem C13_machine_refuted : exists ls sts, read_gcode_to_dict_list [S_ "G92 X5"] = Ok ls /\
  dict_list_traveler Rops ls (default_setup Rops) = Ok sts /\
  (exists g gs, g_start (default_setup Rops) g /\ g_run g ls gs) /\
  forall g gs, g_start (default_setup Rops) g -> g_run g ls gs -> ~ Forall2 shows sts (g :: gs).
Proof.
  destruct g92_program as (ls & E & ->). eexists; eexists. split; [exact E|]. split; [run_r|]. split.
  - exists (g_of (init_vm Rops (default_setup Rops))).
    set (m := init_vm Rops (default_setup Rops)).
    exists [{| g_pos := fun a => (cR a m + oR a m)%R;
         g_off := fun a => match a with AX => (cR a m + oR a m - IZR 5)%R | _ => oR a m end; g_abs := fun a => abs_of Rops a m;
         g_feed := vm_p_vel Rops m; g_acc := vm_p_acc Rops m; g_jerk := vm_jerk Rops m;
         g_lim := fun a => get_v Rops a m; g_unit := vm_units Rops m |}].
    split; [apply start_exists|]. econstructor; [|constructor].
    unfold g_line. cbn [g_of g_pos g_off g_abs g_feed g_acc g_jerk g_lim g_unit].
    split; [intros []; reflexivity|]. split; [reflexivity|].
    split; [exists (fun a => (cR a m + oR a m)%R); split; intros []; reflexivity|].
    split; [intros []; try reflexivity; exists (IZR 5); split; [exists 5%Z, 0%Z; split; reflexivity|reflexivity]|].
    split; [reflexivity|]. split; [reflexivity|]. split; [reflexivity|]. intros []; reflexivity.
  - intros g gs Hg Hr F. inversion Hr as [|? ? g' ? gs' L R]; subst. inversion R; subst.
    inversion F as [|? ? ? ? F1 F2]; subst. inversion F2 as [|? ? ? ? F3 _]; subst.
    destruct F3 as (P & _). specialize (P AX).
    destruct L as (_ & _ & (p1 & M0 & M1) & _). specialize (M0 AX). specialize (M1 AX).
    change (p1 AX = g_pos g AX) in M0. change (g_pos g' AX = p1 AX) in M1.
    destruct Hg as (G0 & _). rewrite M1, M0, G0 in P. cbn in P. lra.
Qed.
Example C13_case : exists ls sts, read_gcode_to_dict_list ex_program = Ok ls /\ Forall g92_zero ls /\
  dict_list_traveler Rops ls (ex_setup Rops) = Ok sts.
Proof.
  eexists; eexists. split; [vm_compute; reflexivity|]. split; [|run_r].
  repeat first [apply Forall_nil | apply Forall_cons]; intros [] lf H; try discriminate H.
  injection H as <-. exists 0%Z. reflexivity.
Qed.

(** * C14 *)
(** What G92 does: the position of the states jumps by twice its value and later
    absolute moves of w end at (old position) + v + w.  So it is right for v = 0
    only, where the machine does not move and later moves are offset correctly. *)
Theorem C14_g92_shift_partial a su before line s s' lf :
  proper_line line -> reads (N := Rops) su before line s s' ->
  word (S_ "G92") (name a) line = Some lf -> word (S_ "G0") (name a) line = None -> word (S_ "G1") (name a) line = None ->
  exists v, meansR lf v /\ coordR a s' = (coordR a s + 2 * v)%R.
Proof.
  intros Hp Hr Hw H0 H1. destruct (reads_step _ _ _ _ _ _ Hr) as (m & m' & p & A & B & C & D & _).
  destruct (g92_step a line m m' p lf Hp B Hw H0 H1) as (v & V1 & V2 & V3). exists v. split; [exact V1|].
  rewrite (coordR_vm a _ _ C), (coordR_vm a _ _ D), V2, V3. ring.
Qed.
Theorem C14_g92_offset_partial a su before line mid l2 s s' s2 s2' lf lf2 :
  Forall proper_line (before ++ line :: mid ++ [l2]) -> reads (N := Rops) su before line s s' ->
  word (S_ "G92") (name a) line = Some lf -> word (S_ "G0") (name a) line = None -> word (S_ "G1") (name a) line = None ->
  reads (N := Rops) su (before ++ line :: mid) l2 s2 s2' -> Forall (no_g92 a) (mid ++ [l2]) ->
  absolute_after a (before ++ line :: mid ++ [l2]) = true -> move_word (name a) l2 = Some lf2 ->
  exists v w, meansR lf v /\ meansR lf2 w /\ coordR a s2' = (coordR a s + v + w)%R.
Proof.
  intros Hp R1 Hw H0 H1 R2 Hn Ha W2. apply Forall_app in Hn as [N2 N3]. inversion N3 as [|? ? N4 _]; subst.
  apply Forall_app in Hp as [P1 P2]. inversion P2 as [|? ? P3 P4]; subst. apply Forall_app in P4 as [P4 P5].
  assert (Pb : Forall proper_line ((before ++ line :: mid) ++ [l2])).
  { apply Forall_app. split; [|exact P5]. apply Forall_app. split; [exact P1|]. constructor; assumption. }
  replace (before ++ line :: mid ++ [l2]) with ((before ++ line :: mid) ++ [l2]) in Ha by (rewrite <- app_assoc; reflexivity).
  destruct (reads_step _ _ _ _ _ _ R1) as (m & m1 & p & A & B & C & D & _).
  destruct (g92_step a line m m1 p lf P3 B Hw H0 H1) as (v & V1 & V2 & V3).
  destruct (abs_reads a su _ _ _ _ _ Pb R2 Ha W2 N4) as (m2 & m2' & w & C1 & C2 & C3 & C4 & C5).
  exists v, w. split; [exact V1|]. split; [exact C2|].
  assert (M : vm_after Rops mid m1 = Ok m2).
  { rewrite vm_after_app, A in C1. cbn [bind vm_after] in C1. rewrite B in C1. exact C1. }
  pose proof (off_after Rops a mid _ _ P4 N2 M) as O.
  rewrite C4, (coordR_vm a _ _ C). unfold oR in *. rewrite O, V3. ring.
Qed.
Theorem C14_g92_moves_refuted : exists sts, generate_states Qops [S_ "G1 X10"; S_ "G92 X5"] (default_setup Qops) = Ok sts /\
  exists s s', nth_error sts 1 = Some s /\ nth_error sts 2 = Some s' /\ ~ (px (state_position s') == px (state_position s))%Q.
Proof.
  run_vm. eexists; eexists. split; [reflexivity|]. split; [reflexivity|]. vm_compute. discriminate.
Qed.
Example C14_case : exists sts, generate_states Qops [S_ "G1 E10"; S_ "G92 E0"; S_ "G1 E3"] (default_setup Qops) = Ok sts /\
  map (fun s => pe (state_position s)) sts = [0#1; 10#1; 10#1; 13#1]%Q.
Proof. run_vm. vm_compute. reflexivity. Qed.

(** * C15 *)
(** The unit is recorded but no coordinate depends on it: dropping every G20 and
    G21 leaves all positions as they are. *)
Theorem C15_units_ignored_partial N ls su sts : dict_list_traveler N ls su = Ok sts ->
  exists sts', dict_list_traveler N (map no_units ls) su = Ok sts' /\ map state_position sts' = map state_position sts.
Proof.
  unfold dict_list_traveler. intros H. pose proof (unit_travel N (s_layer_cue N su) ls (init_vm N su) (S_ "SImm") 0) as U.
  change (with_unit (S_ "SImm") (init_vm N su)) with (init_vm N su) in U.
  destruct (travel N (s_layer_cue N su) ls (init_vm N su) 0) as [a|]; cbn [bind] in H; [|discriminate].
  destruct (travel N (s_layer_cue N su) (map no_units ls) (init_vm N su) 0) as [b|]; [|destruct U].
  injection H as <-. eexists. split; [reflexivity|]. cbn [map]. rewrite U. reflexivity.
Qed.
Theorem C15_inches_refuted : exists sts, generate_states Qops [S_ "G20"; S_ "G1 X1"] (default_setup Qops) = Ok sts /\
  exists s, nth_error sts 2 = Some s /\ units (state_p_settings s) = S_ "inch" /\ (px (state_position s) == 1)%Q /\ ~ (px (state_position s) == 254 # 10)%Q.
Proof.
  run_vm. eexists. split; [reflexivity|]. split; [vm_compute; reflexivity|].
  split; [vm_compute; reflexivity|]. vm_compute. discriminate.
Qed.

(** * C16 *)
Theorem C16_layers N ls (su : setup_values N) sts cue i s : dict_list_traveler N ls su = Ok sts ->
  s_layer_cue N su = Some cue -> nth_error sts (S i) = Some s ->
  exists n, layer s = Some n /\ cue_count cue (firstn (S i) ls) n.
Proof.
  intros H Hc Hi. apply traveler_split in H as (rest & -> & H). rewrite Hc in H. cbn [nth_error] in Hi.
  assert (Hl : i < length ls). { rewrite <- (travel_length _ _ _ _ _ _ H). apply nth_error_Some. congruence. }
  destruct (nth_error ls i) as [l|] eqn:El; [|apply nth_error_None in El; lia].
  destruct (travel_nth _ _ _ _ _ _ _ _ H El) as (mi & m' & p & A & B & C). rewrite C in Hi. injection Hi as <-.
  eexists. split; [reflexivity|]. apply layers_count.
Qed.
(** Without a cue no state has a layer. *)
Theorem C16_no_cue N ls (su : setup_values N) sts s : dict_list_traveler N ls su = Ok sts ->
  s_layer_cue N su = None -> In s sts -> layer s = None.
Proof.
  intros H Hc Hi. apply In_nth_error in Hi as (i & Hi). apply traveler_split in H as (rest & -> & H). rewrite Hc in H.
  destruct i as [|i]; [injection Hi as <-; reflexivity|]. cbn [nth_error] in Hi.
  assert (Hl : i < length ls). { rewrite <- (travel_length _ _ _ _ _ _ H). apply nth_error_Some. congruence. }
  destruct (nth_error ls i) as [l|] eqn:El; [|apply nth_error_None in El; lia].
  destruct (travel_nth _ _ _ _ _ _ _ _ H El) as (mi & m' & p & A & B & C). rewrite C in Hi. injection Hi as <-. reflexivity.
Qed.
(** The number of a layer is determined by the lines, never decreases and grows by at most one per line. *)
Lemma snoc_inj {A} (a b : list A) x y : a ++ [x] = b ++ [y] -> a = b /\ x = y.
Proof. apply app_inj_tail. Qed.
Theorem C16_layers_step cue ls l n n' : cue_count cue ls n -> cue_count cue (ls ++ [l]) n' ->
  (has_cue cue l /\ n' = S n) \/ (~ has_cue cue l /\ n' = n).
Proof.
  assert (F : forall ls a b, cue_count cue ls a -> cue_count cue ls b -> a = b).
  { clear. intros ls. induction ls as [|x ls IH] using rev_ind; intros a b Ha Hb.
    - inversion Ha as [|? ? ? _ _ E|? ? ? _ _ E]; try (destruct ls; discriminate E).
      inversion Hb as [|? ? ? _ _ E'|? ? ? _ _ E']; try (destruct ls; discriminate E'). reflexivity.
    - inversion Ha as [E|l1 x1 a1 A1 A2 E|l1 x1 a1 A1 A2 E]; [destruct ls; discriminate E| |];
      apply snoc_inj in E as [-> ->];
      (inversion Hb as [E|l2 x2 b1 B1 B2 E|l2 x2 b1 B1 B2 E]; [destruct ls; discriminate E| |]);
      apply snoc_inj in E as [-> ->]; try contradiction; rewrite (IH _ _ A1 B1); reflexivity. }
  intros Hn Hn'. inversion Hn' as [E|l1 x1 a1 A1 A2 E|l1 x1 a1 A1 A2 E]; [destruct ls; discriminate E| |];
    apply snoc_inj in E as [-> ->]; [left|right]; (split; [exact A2|]); rewrite (F _ _ _ Hn A1); reflexivity.
Qed.
Example C16_case : exists sts, generate_states Qops ex_program (ex_setup Qops) = Ok sts /\
  map layer sts = None :: map Some [0; 0; 0; 0; 1; 1; 1; 1; 1; 1; 1; 1; 2; 2; 2].
Proof. run_vm. vm_compute. reflexivity. Qed.

(** * C17 *)
Theorem C17_g0_is_g1 N ls su : Forall (fun l => ~ (flag (S_ "G0") l /\ flag (S_ "G1") l)) ls ->
  dict_list_traveler N (map as_g1 ls) su = dict_list_traveler N ls su.
Proof.
  intros H. unfold dict_list_traveler. rewrite g0_is_g1_travel; [reflexivity|].
  apply Forall_forall. intros l Hl. rewrite Forall_forall in H. specialize (H l Hl). unfold flag in H.
  destruct (dget (S_ "G0") (ld l)) as [v0|]; [|left; reflexivity].
  destruct (dget (S_ "G1") (ld l)) as [v1|]; [|right; reflexivity].
  exfalso. apply H. split; eexists; reflexivity.
Qed.
(** From text: a G0 line and the same line with G1 are parsed alike. *)
Theorem C17_text pre w : plain pre -> plain w -> ~ starts_with_digit w ->
  match parse (pre ++ S_ "G0" ++ w), parse (pre ++ S_ "G1" ++ w) with
  | Ok d, Ok d' => d' = map (fun kv => (rename (fst kv), snd kv)) d
  | Err e, Err e' => e = e'
  | _, _ => False
  end.
Proof.
  intros Hp Hw Hd. unfold parse.
  assert (C0 : command (S_ "G0")) by (apply command_b; reflexivity).
  assert (C1 : command (S_ "G1")) by (apply command_b; reflexivity).
  rewrite (one_command pre (S_ "G0") w Hp Hw C0); [|discriminate|intros k Hk; apply prefix_no_digit; assumption].
  rewrite (one_command pre (S_ "G1") w Hp Hw C1); [|discriminate|intros k Hk; apply prefix_no_digit; assumption].
  unfold line_value.
  change (key_lookup (S_ "G0") known_commands) with (key_lookup (S_ "G1") known_commands).
  destruct (match key_lookup (S_ "G1") known_commands with None => _ | Some _ => _ end); reflexivity.
Qed.
Example C17_case : exists sts, generate_states Qops [S_ "G0 X1 F60"; S_ "G0 Y2"] (default_setup Qops) = Ok sts /\
  exists sts', generate_states Qops [S_ "G1 X1 F60"; S_ "G0 Y2"] (default_setup Qops) = Ok sts' /\ sts = sts'.
Proof. run_vm. run_vm. reflexivity. Qed.

(** * C18 *)
Theorem C18_dwell N (su : setup_values N) before line s s' : proper_line line -> reads su before line s s' ->
  dwell_means line (pause s').
Proof.
  intros Hp Hr. destruct (reads_step _ _ _ _ _ _ Hr) as (m & m' & p & A & B & _ & _ & <- & _).
  exact (le_dwell _ _ _ _ _ (step_effect N line m m' _ Hp B)).
Qed.
Example C18_case : exists sts, generate_states Qops [S_ "G4 P250"; S_ "G1 X1"; S_ "G4 S2"; S_ "G4 S3 P1"] (default_setup Qops) = Ok sts /\
  map pause sts = [None; Some (q_ (250#1000)); None; Some (q_ (2#1)); Some (q_ (3#1))]%Q.
Proof. run_vm. vm_compute. reflexivity. Qed.

(** * C19 *)
Theorem C19_causality N lines more su sts : generate_states N (lines ++ more) su = Ok sts ->
  generate_states N lines su = Ok (firstn (S (length lines)) sts).
Proof.
  unfold generate_states. destruct (read_gcode_to_dict_list (lines ++ more)) as [ls|] eqn:E; cbn [bind]; [|discriminate].
  destruct (read_lines_app lines more 0 ls E) as (lb & A & B). unfold read_gcode_to_dict_list. rewrite A. cbn [bind].
  intros H. rewrite B in H. pose proof (traveler_prefix N _ _ su sts H) as P.
  rewrite P. f_equal. f_equal. f_equal. apply read_lines_numbers in A as (A & _). exact A.
Qed.
(** Two programs with the same first lines have the same first states. *)
Theorem C19_common_prefix N lines m1 m2 su sts1 sts2 :
  generate_states N (lines ++ m1) su = Ok sts1 -> generate_states N (lines ++ m2) su = Ok sts2 ->
  firstn (S (length lines)) sts1 = firstn (S (length lines)) sts2.
Proof. intros H1 H2. apply C19_causality in H1, H2. exact (f_equal (fun r => match r with Ok x => x | Err _ => [] end) (eq_trans (eq_sym H1) H2)). Qed.
Example C19_case : exists sts, generate_states Qops [S_ "G1 X1"] (default_setup Qops) = Ok sts /\
  exists sts', generate_states Qops [S_ "G1 X1"; S_ "G92 X3"; S_ "G91"] (default_setup Qops) = Ok sts' /\ length sts' = 4 /\ firstn 2 sts' = sts.
Proof. run_vm. run_vm. split; reflexivity. Qed.

Print Assumptions C01_comment_adds_only_itself_partial.
Print Assumptions C01_plain_comment_partial.
Print Assumptions C01_comment_refuted.
Print Assumptions C02_read_back.
Print Assumptions C02_bare_commands.
Print Assumptions C02_literal_value.
Print Assumptions C03_blanks_irrelevant.
Print Assumptions C04_argument_order.
Print Assumptions C04_same_states.
Print Assumptions C05_one_state_per_line.
Print Assumptions C05_parsed_lines.
Print Assumptions C06_reported_commands_partial.
Print Assumptions C06_no_short_prefix_partial.
Print Assumptions C06_separate_word_refuted.
Print Assumptions C07_foreign_line_partial.
Print Assumptions C07_longer_words_raise_partial.
Print Assumptions C07_unknown_commands_refuted.
Print Assumptions C08_unsupported_counted.
Print Assumptions C09_absolute_move.
Print Assumptions C09_offset_in_force.
Print Assumptions C09_absolute_move_text.
Print Assumptions C10_relative_move.
Print Assumptions C10_relative_moves_add_up.
Print Assumptions C11_unnamed_axes_stay.
Print Assumptions C11_text.
Print Assumptions C12_settings_modal.
Print Assumptions C12_initial_settings.
Print Assumptions C12_defaults.
Print Assumptions C13_machine_partial.
Print Assumptions C13_machine_refuted.
Print Assumptions C14_g92_shift_partial.
Print Assumptions C14_g92_offset_partial.
Print Assumptions C14_g92_moves_refuted.
Print Assumptions C15_units_ignored_partial.
Print Assumptions C15_inches_refuted.
Print Assumptions C16_layers.
Print Assumptions C16_no_cue.
Print Assumptions C16_layers_step.
Print Assumptions C17_g0_is_g1.
Print Assumptions C17_text.
Print Assumptions C18_dwell.
Print Assumptions C19_causality.
Print Assumptions C19_common_prefix.
