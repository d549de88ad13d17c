(** The command line: C85. *)
From Coq Require Import Permutation.
From Verif Require Import Py StrFacts Setup Interp Cli Examples CliArgs SpecArgs.

Lemma dash_plain s : plain s -> is_value s = true.
Proof.
  intros H. destruct s as [|c [|d r]]; try reflexivity. cbn [is_value]. destruct (aeqb c "-"%char) eqn:E; [|reflexivity].
  unfold aeqb in E. apply Ascii.eqb_eq in E. subst c. discriminate (H _ eq_refl).
Qed.
Lemma read_plain s : plain s -> read_word s = Some (WValue s).
Proof. intros H. unfold read_word. rewrite (dash_plain _ H). reflexivity. Qed.
Lemma read_help h : asks_help h -> read_word h = Some WHelp.
Proof. intros H. destruct H; reflexivity. Qed.
Lemma read_spelled o n : spelled o n -> read_word n = Some (WOpt o).
Proof. intros H. destruct H; reflexivity. Qed.
(** The words read from written options. *)
Fixpoint words (l : list (opt * option str)) : list word :=
  match l with
  | [] => []
  | (o, Some v) :: l' => WOpt o :: WValue v :: words l'
  | (o, None) :: l' => WOpt o :: words l'
  end.
Lemma read_written l ws : written l ws -> read_words ws = Some (words l).
Proof.
  induction 1 as [|o n v l ws Hn Hv _ IH|n l ws Hn _ IH]; [reflexivity| |]; cbn [read_words words].
  - rewrite (read_spelled _ _ Hn), (read_plain _ Hv), IH. reflexivity.
  - rewrite (read_spelled _ _ Hn), IH. reflexivity.
Qed.
Lemma read_words_app a b : read_words (a ++ b) =
  match read_words a, read_words b with Some x, Some y => Some (x ++ y) | _, _ => None end.
Proof.
  induction a as [|s a IH]; cbn [read_words app]; [destruct (read_words b); reflexivity|].
  rewrite IH. destruct (read_word s); [|reflexivity]. destruct (read_words a); [|reflexivity]. destruct (read_words b); reflexivity.
Qed.
Lemma read_readable ws : Forall readable ws -> exists r, read_words ws = Some r.
Proof.
  induction 1 as [|s ws [Hp|[[o Ho]|Hh]] _ (r & Er)]; cbn [read_words]; [exists []; reflexivity| | |]; rewrite Er.
  - rewrite (read_plain _ Hp). eexists. reflexivity.
  - rewrite (read_spelled _ _ Ho). eexists. reflexivity.
  - rewrite (read_help _ Hh). eexists. reflexivity.
Qed.
Lemma read_plains ws : Forall plain ws -> read_words ws = Some (map WValue ws).
Proof. induction 1 as [|s ws Hp _ IH]; cbn [read_words map]; [reflexivity|]. rewrite (read_plain _ Hp), IH. reflexivity. Qed.
(** Only the G-code file may lack a value. *)
Definition proper (l : list (opt * option str)) : Prop := Forall (fun x => snd x = None -> fst x = OGcode) l.
Lemma written_proper l ws : written l ws -> proper l.
Proof. induction 1; constructor; try assumption; cbn; congruence. Qed.
(** Options are stored one after the other. *)
Definition stored (l : list (opt * option str)) (a : plot_args) : plot_args := fold_left (fun a x => set_arg (fst x) (snd x) a) l a.
Lemma parse_words l rest a ex : proper l -> (complete l \/ forall s r, rest <> WValue s :: r) ->
  parse_plot (words l ++ rest) a ex = parse_plot rest (stored l a) ex.
Proof.
  intros Hp. revert a. induction Hp as [|[o v] l Hx Hp IH]; intros a Hc; [reflexivity|].
  assert (Hc' : complete l \/ forall s r, rest <> WValue s :: r).
  { destruct Hc as [Hc|Hc]; [left|right; exact Hc]. intros l' ->. exact (Hc ((o, v) :: l') eq_refl). }
  destruct v as [v|]; cbn [words app parse_plot].
  - exact (IH _ Hc').
  - cbn in Hx. rewrite (Hx eq_refl) in *. assert (E : forall s r, words l ++ rest <> WValue s :: r).
    { destruct l as [|[o' [v'|]] l']; cbn [words app]; [|discriminate|discriminate]. destruct Hc as [Hc|Hc]; [destruct (Hc [] eq_refl) | exact Hc]. }
    specialize (IH (set_arg OGcode None a) Hc'). cbn [stored fold_left fst snd] in *.
    destruct (words l ++ rest) as [|[o'| | |s] r] eqn:Er; try exact IH. destruct (E s r eq_refl).
Qed.
Lemma parse_all l a ex : proper l -> parse_plot (words l) a ex = if ex then Usage else ParsedPlot (stored l a).
Proof.
  intros H. rewrite <- (app_nil_r (words l)), parse_words; [reflexivity | exact H |]. right. intros s r. discriminate.
Qed.
Definition get_arg (o : opt) (a : plot_args) : option str :=
  match o with OGcode => arg_gcode a | OPresets => arg_presets a | OPrinter => arg_printer a | OOutDir => arg_out_dir a | OLayerCue => arg_layer_cue a end.
Lemma get_set o o' v a : get_arg o (set_arg o' v a) = if match o, o' with OGcode, OGcode | OPresets, OPresets | OPrinter, OPrinter | OOutDir, OOutDir | OLayerCue, OLayerCue => true | _, _ => false end then v else get_arg o a.
Proof. destruct o, o'; reflexivity. Qed.
Lemma stored_given o l : given_last o l (get_arg o (stored l no_args)).
Proof.
  induction l as [|[o' v] l IH] using rev_ind; [destruct o; apply gl_never; intros v []|].
  unfold stored. rewrite fold_left_app. cbn [fold_left fst snd]. fold (stored l no_args). rewrite get_set.
  assert (D : {o = o'} + {o <> o'}) by decide equality. destruct D as [->|D].
  - replace (match o', o' with OGcode, OGcode | OPresets, OPresets | OPrinter, OPrinter | OOutDir, OOutDir | OLayerCue, OLayerCue => true | _, _ => false end) with true by (destruct o'; reflexivity).
    apply gl_last. intros v' [].
  - replace (match o, o' with OGcode, OGcode | OPresets, OPresets | OPrinter, OPrinter | OOutDir, OOutDir | OLayerCue, OLayerCue => true | _, _ => false end) with false by (destruct o, o'; congruence).
    destruct IH as [l H|l1 v1 l2 H].
    + apply gl_never. intros v1 Hi. apply in_app_or in Hi as [Hi|[E|[]]]; [exact (H _ Hi) | congruence].
    + rewrite <- app_assoc. apply gl_last. intros v' Hi. apply in_app_or in Hi as [Hi|[E|[]]]; [exact (H _ Hi) | congruence].
Qed.
Lemma given_fun o l v v' : given_last o l v -> given_last o l v' -> v = v'.
Proof.
  intros H H'. inversion H as [k N|l1 u l2 N E]; inversion H' as [k' N'|l1' u' l2' N' E']; subst.
  - reflexivity.
  - destruct (N v'). apply in_or_app. right. left. reflexivity.
  - destruct (N' v). apply in_or_app. right. left. reflexivity.
  - clear H H'. revert l1' E'. induction l1 as [|x l1 IH]; intros [|y l1'] E'; cbn in E'; injection E' as E1 E2.
    + congruence.
    + subst. destruct (N v'). apply in_or_app. right. left. reflexivity.
    + subst. destruct (N' v). apply in_or_app. right. left. reflexivity.
    + exact (IH _ E2).
Qed.

(** * C85: the command line means what its options say *)
(** The plot command gets, for every option, the value given last for it. *)
Theorem C85_options_mean_what_they_say w l ws : written l ws ->
  exists a, as_given l a /\ main w (S_ "plot" :: ws) = RanPlot (fst (plot_command w a)) (snd (plot_command w a)).
Proof.
  intros H. exists (stored l no_args). split.
  - repeat split; [exact (stored_given OGcode l) | exact (stored_given OPresets l) | exact (stored_given OPrinter l) |
      exact (stored_given OOutDir l) | exact (stored_given OLayerCue l)].
  - unfold main, parse_args. change (read_word (S_ "plot")) with (Some (WValue (S_ "plot"))). cbn beta iota.
    change (str_eqb (S_ "plot") (S_ "plot")) with true. cbn beta iota. rewrite (read_written _ _ H).
    rewrite (parse_all _ _ _ (written_proper _ _ H)). reflexivity.
Qed.
(** The arguments are determined by the options. *)
Theorem C85_one_meaning l a b : as_given l a -> as_given l b -> a = b.
Proof.
  intros (A1 & A2 & A3 & A4 & A5) (B1 & B2 & B3 & B4 & B5). destruct a, b. cbn in *. f_equal; eapply given_fun; eassumption.
Qed.
(** The order and the spelling of options does not matter. *)
Theorem C85_any_order w l ws l' ws' : written l ws -> written l' ws' -> NoDup (map fst l) -> Permutation l l' ->
  main w (S_ "plot" :: ws) = main w (S_ "plot" :: ws').
Proof.
  intros H H' Hn Hp. destruct (C85_options_mean_what_they_say w l ws H) as (a & Ha & ->).
  destruct (C85_options_mean_what_they_say w l' ws' H') as (b & Hb & ->).
  assert (K : forall o v v', given_last o l v -> given_last o l' v' -> v = v').
  { intros o v v' G G'.
    assert (U : forall x y, In (o, x) l -> In (o, y) l -> x = y).
    { clear - Hn. intros x y. induction l as [|[p z] r IH]; intros Hx Hy; [destruct Hx|]. inversion Hn as [|? ? N1 N2]; subst.
      destruct Hx as [Ex|Hx], Hy as [Ey|Hy].
      - congruence.
      - injection Ex as -> ->. destruct N1. apply (in_map fst) in Hy. exact Hy.
      - injection Ey as -> ->. destruct N1. apply (in_map fst) in Hx. exact Hx.
      - exact (IH N2 Hx Hy). }
    inversion G as [k N|l1 u l2 N E]; inversion G' as [k' N'|l1' u' l2' N' E']; subst.
    - reflexivity.
    - destruct (N v'). apply (Permutation_in _ (Permutation_sym Hp)). apply in_or_app. right. left. reflexivity.
    - destruct (N' v). apply (Permutation_in _ Hp). apply in_or_app. right. left. reflexivity.
    - apply U; [|apply (Permutation_in _ (Permutation_sym Hp))]; apply in_or_app; right; left; reflexivity. }
  assert (E : a = b).
  { destruct Ha as (A1 & A2 & A3 & A4 & A5), Hb as (B1 & B2 & B3 & B4 & B5). destruct a, b. cbn in *. f_equal; eapply K; eassumption. }
  rewrite E. reflexivity.
Qed.
(** An option other than the G-code file without its value, and a word that
    belongs to no option, are errors: nothing is done. *)
Theorem C85_missing_value w l ws o n rest : written l ws -> spelled o n -> o <> OGcode ->
  (rest = [] \/ exists n' ws', rest = n' :: ws' /\ ((exists o', spelled o' n') \/ asks_help n') /\ Forall readable ws') ->
  main w (S_ "plot" :: ws ++ n :: rest) = UsageError.
Proof.
  intros H Hn Ho Hr. unfold main, parse_args. change (read_word (S_ "plot")) with (Some (WValue (S_ "plot"))). cbn beta iota.
  change (str_eqb (S_ "plot") (S_ "plot")) with true. cbn beta iota.
  rewrite read_words_app, (read_written _ _ H). cbn [read_words]. rewrite (read_spelled _ _ Hn).
  assert (K : exists ws', read_words rest = Some ws' /\ forall s r, ws' <> WValue s :: r).
  { destruct Hr as [->|(n' & ws' & -> & Hn' & Hw)]; [exists []; split; [reflexivity|discriminate]|].
    destruct (read_readable _ Hw) as (r & Er). cbn [read_words]. rewrite Er.
    destruct Hn' as [[o' Hn']|Hn']; [rewrite (read_spelled _ _ Hn') | rewrite (read_help _ Hn')]; eexists; (split; [reflexivity | discriminate]). }
  destruct K as (ws' & -> & Hv). rewrite (parse_words _ _ _ _ (written_proper _ _ H)) by (right; discriminate).
  cbn [parse_plot]. destruct ws' as [|[o'| | |s] r]; try (destruct o; congruence). destruct (Hv s r eq_refl).
Qed.
Theorem C85_stray_word w l ws l' ws' v : written l ws -> complete l -> plain v -> written l' ws' ->
  main w (S_ "plot" :: ws ++ v :: ws') = UsageError.
Proof.
  intros H Hc Hv H'. unfold main, parse_args. change (read_word (S_ "plot")) with (Some (WValue (S_ "plot"))). cbn beta iota.
  change (str_eqb (S_ "plot") (S_ "plot")) with true. cbn beta iota.
  rewrite read_words_app, (read_written _ _ H). cbn [read_words]. rewrite (read_plain _ Hv), (read_written _ _ H').
  rewrite (parse_words _ _ _ _ (written_proper _ _ H)) by (left; exact Hc). cbn [parse_plot].
  rewrite (parse_all _ _ _ (written_proper _ _ H')). reflexivity.
Qed.
(** Without a subcommand the help is printed, an unknown one is an error, and
    exactly the two examples can be run, each by its own name. *)
Theorem C85_subcommands w c rest : plain c -> c <> S_ "plot" -> c <> S_ "run_example" ->
  main w [] = PrintedHelp /\ main w (c :: rest) = UsageError.
Proof.
  intros Hc H1 H2. split; [reflexivity|]. unfold main, parse_args. rewrite (read_plain _ Hc).
  destruct (str_eqb c (S_ "plot")) eqn:E1; [apply str_eqb_true in E1; contradiction|].
  destruct (str_eqb c (S_ "run_example")) eqn:E2; [apply str_eqb_true in E2; contradiction|]. reflexivity.
Qed.
Theorem C85_examples w n : plain n ->
  (main w [S_ "run_example"; n] = RanBrace (fst (brace_example w)) (snd (brace_example w)) <-> n = S_ "brace") /\
  (main w [S_ "run_example"; n] = RanBenchy (fst (benchy_example w)) (snd (benchy_example w)) <-> n = S_ "benchy") /\
  (n <> S_ "brace" -> n <> S_ "benchy" -> main w [S_ "run_example"; n] = UsageError) /\
  main w [S_ "run_example"] = UsageError.
Proof.
  intros Hn.
  assert (E : main w [S_ "run_example"; n] = if str_eqb n (S_ "brace") then RanBrace (fst (brace_example w)) (snd (brace_example w))
    else if str_eqb n (S_ "benchy") then RanBenchy (fst (benchy_example w)) (snd (benchy_example w)) else UsageError).
  { unfold main, parse_args. change (read_word (S_ "run_example")) with (Some (WValue (S_ "run_example"))). cbn beta iota.
    change (str_eqb (S_ "run_example") (S_ "plot")) with false. change (str_eqb (S_ "run_example") (S_ "run_example")) with true. cbn beta iota.
    cbn [read_words]. rewrite (read_plain _ Hn). cbn [parse_example examples existsb parse_rest]. unfold run_example.
    destruct (str_eqb n (S_ "brace")) eqn:E1; cbn [orb]; [rewrite E1; reflexivity|].
    destruct (str_eqb n (S_ "benchy")) eqn:E2; cbn [orb]; [rewrite E1, E2; reflexivity | reflexivity]. }
  rewrite E. destruct (str_eqb n (S_ "brace")) eqn:E1; [apply str_eqb_true in E1; subst n|].
  - repeat split; try discriminate; try reflexivity; congruence.
  - destruct (str_eqb n (S_ "benchy")) eqn:E2; [apply str_eqb_true in E2; subst n|].
    + repeat split; try discriminate; try reflexivity; congruence.
    + repeat split; try discriminate; try reflexivity; intros ->; discriminate.
Qed.
(** Stray words after the name of an example are an error. *)
Theorem C85_example_stray w n vs : plain n -> Forall plain vs -> vs <> [] -> main w (S_ "run_example" :: n :: vs) = UsageError.
Proof.
  intros Hn Hv Hne. unfold main, parse_args. change (read_word (S_ "run_example")) with (Some (WValue (S_ "run_example"))). cbn beta iota.
  change (str_eqb (S_ "run_example") (S_ "plot")) with false. change (str_eqb (S_ "run_example") (S_ "run_example")) with true. cbn beta iota.
  cbn [read_words]. rewrite (read_plain _ Hn), (read_plains _ Hv). cbn [parse_example].
  destruct (existsb (str_eqb n) examples); [|reflexivity].
  destruct vs as [|v vs]; [destruct (Hne eq_refl)|]. cbn [map parse_rest]. clear. induction vs as [|u vs IH]; [reflexivity | exact IH].
Qed.
(** Asked for help, the program prints it and does nothing else, whatever
    follows: at the beginning, among the options of plot and after the name of
    an example. *)
Theorem C85_help w h rest : asks_help h -> Forall readable rest ->
  main w (h :: rest) = PrintedHelp /\
  (forall l ws, written l ws -> main w (S_ "plot" :: ws ++ h :: rest) = PrintedHelp) /\
  main w (S_ "run_example" :: h :: rest) = PrintedHelp /\
  (forall n vs, n = S_ "brace" \/ n = S_ "benchy" -> Forall plain vs -> main w (S_ "run_example" :: n :: vs ++ h :: rest) = PrintedHelp).
Proof.
  intros Hh Hr. destruct (read_readable _ Hr) as (r & Er). split; [|split; [|split]].
  - unfold main, parse_args. rewrite (read_help _ Hh). reflexivity.
  - intros l ws H. unfold main, parse_args. change (read_word (S_ "plot")) with (Some (WValue (S_ "plot"))). cbn beta iota.
    change (str_eqb (S_ "plot") (S_ "plot")) with true. cbn beta iota.
    rewrite read_words_app, (read_written _ _ H). cbn [read_words]. rewrite (read_help _ Hh), Er.
    rewrite (parse_words _ _ _ _ (written_proper _ _ H)) by (right; discriminate). reflexivity.
  - unfold main, parse_args. change (read_word (S_ "run_example")) with (Some (WValue (S_ "run_example"))). cbn beta iota.
    change (str_eqb (S_ "run_example") (S_ "plot")) with false. change (str_eqb (S_ "run_example") (S_ "run_example")) with true. cbn beta iota.
    cbn [read_words]. rewrite (read_help _ Hh), Er. reflexivity.
  - intros n vs Hn Hv. assert (Hp : plain n) by (destruct Hn as [->| ->]; intros x E; discriminate E).
    unfold main, parse_args. change (read_word (S_ "run_example")) with (Some (WValue (S_ "run_example"))). cbn beta iota.
    change (str_eqb (S_ "run_example") (S_ "plot")) with false. change (str_eqb (S_ "run_example") (S_ "run_example")) with true. cbn beta iota.
    cbn [read_words]. rewrite (read_plain _ Hp), read_words_app, (read_plains _ Hv). cbn [read_words]. rewrite (read_help _ Hh), Er. cbn [parse_example].
    replace (existsb (str_eqb n) examples) with true by (destruct Hn as [->| ->]; reflexivity).
    generalize false. clear. induction vs as [|u vs IH]; intros ex; [reflexivity | exact (IH true)].
Qed.
(** The version is printed for -v at the beginning. *)
Theorem C85_version w rest : main w (S_ "-v" :: rest) = PrintedVersion /\ main w (S_ "--version" :: rest) = PrintedVersion.
Proof. split; reflexivity. Qed.
(** Options in short and long form, one of them twice, and one without value. *)
Example C85_case : exists a, as_given [(OPrinter, Some (S_ "a")); (OGcode, None); (OPrinter, Some (S_ "b")); (OOutDir, Some (S_ "-"))] a /\
  a = PlotArgs None None (Some (S_ "b")) (Some (S_ "-")) None /\
  written [(OPrinter, Some (S_ "a")); (OGcode, None); (OPrinter, Some (S_ "b")); (OOutDir, Some (S_ "-"))]
    [S_ "-pn"; S_ "a"; S_ "--gcode"; S_ "--printer_name"; S_ "b"; S_ "-o"; S_ "-"].
Proof.
  eexists. split; [|split; [reflexivity|]].
  - repeat split; cbn [arg_gcode arg_presets arg_printer arg_out_dir arg_layer_cue].
    + apply (gl_last OGcode [(OPrinter, Some (S_ "a"))] None [(OPrinter, Some (S_ "b")); (OOutDir, Some (S_ "-"))]). intros v' [E|[E|[]]]; discriminate.
    + apply gl_never. intros v [E|[E|[E|[E|[]]]]]; discriminate.
    + apply (gl_last OPrinter [(OPrinter, Some (S_ "a")); (OGcode, None)] (Some (S_ "b")) [(OOutDir, Some (S_ "-"))]). intros v' [E|[]]; discriminate.
    + apply (gl_last OOutDir [(OPrinter, Some (S_ "a")); (OGcode, None); (OPrinter, Some (S_ "b"))] (Some (S_ "-")) []). intros v' [].
    + apply gl_never. intros v [E|[E|[E|[E|[]]]]]; discriminate.
  - repeat first [apply wr_nil | apply wr_value | apply wr_none]; try constructor; intros r E; try discriminate E; injection E as <-; reflexivity.
Qed.
Example C85_errors w : main w [S_ "plot"; S_ "-p"; S_ "-o"; S_ "out"] = UsageError /\ main w [S_ "plot"; S_ "part.gcode"] = UsageError /\
  main w [S_ "show"] = UsageError /\ main w [S_ "run_example"; S_ "cube"] = UsageError /\
  main w [S_ "run_example"; S_ "brace"; S_ "benchy"] = UsageError /\ main w [S_ "plot"; S_ "-g"; S_ "a"; S_ "-h"; S_ "stray"] = PrintedHelp.
Proof. repeat split; reflexivity. Qed.

Print Assumptions C85_options_mean_what_they_say.
Print Assumptions C85_one_meaning.
Print Assumptions C85_any_order.
Print Assumptions C85_missing_value.
Print Assumptions C85_stray_word.
Print Assumptions C85_subcommands.
Print Assumptions C85_examples.
Print Assumptions C85_example_stray.
Print Assumptions C85_help.
Print Assumptions C85_version.
