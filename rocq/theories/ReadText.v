(** From text to parsed lines: letters of a line, suffixes of a program, and
    lines without unit commands. *)
From Verif Require Import Py PyFloat Parser StateGen StrFacts DedupeProofs SpecRead ParserProofs CommentProofs LineProofs
     SpecMachine ReadProofs ReadFacts ReadReals.
Open Scope nat_scope.
Local Arguments S_ : simpl never.
Local Arguments known_keys : simpl never.
Local Arguments find_matches : simpl never.
Local Arguments unshadowed : simpl never.

Lemma read_lines_rest after : forall before i ls, read_lines i (before ++ after) = Ok ls ->
  exists la lb, read_lines i before = Ok la /\ read_lines (i + length before) after = Ok lb /\ ls = la ++ lb.
Proof.
  induction before as [|t b IH]; intros i ls H.
  - exists [], ls. cbn [length]. rewrite Nat.add_0_r. auto.
  - cbn [app read_lines] in *. destruct (arg_extract t known_commands) as [d|]; cbn [bind] in *; [|discriminate].
    destruct (read_lines (S i) (b ++ after)) as [r|] eqn:R; cbn [bind] in H; [|discriminate].
    injection H as <-. destruct (IH _ _ R) as (la & lb & A & B & ->). rewrite A. cbn [bind length].
    eexists; exists lb. split; [reflexivity|]. split; [|reflexivity]. rewrite Nat.add_succ_r. exact B.
Qed.

Lemma leaf_letter s keys d k v : NoDup keys -> forallb letter_key keys = true -> arg_extract_leaf s keys = Ok d ->
  dget k d = Some v -> occurs k s.
Proof.
  intros Hn Hk H Hg. rewrite (leaf_spec keys Hn Hk s) in H. injection H as <-. apply dget_in in Hg.
  unfold dkeys in Hg. rewrite flat_map_concat_map, concat_map, map_map in Hg. apply in_concat in Hg as (x & Hx & Hi).
  apply in_map_iff in Hx as (k0 & <- & _). destruct (find k0 s) as [i|] eqn:E; [|destruct Hi].
  destruct Hi as [<-|[]]. apply find_occurs. cbn [fst]. congruence.
Qed.
Lemma word_occurs t l cmd k c v : parsed t l -> word cmd k l = Some v -> k = [c] -> c <> " "%char -> c <> "010"%char -> In c t.
Proof.
  intros H Hw -> Hc1 Hc2. unfold word in Hw. destruct (dget cmd (ld l)) as [[lf|sub]|] eqn:E; try discriminate Hw.
  unfold parsed in H. rewrite arg_extract_known in H.
  revert H. generalize (map m_start (known_matches t)). intros starts. generalize (comment_begin (known_matches t) (length t)). intros cb.
  generalize (known_matches t). intros ms. revert E. generalize (ld l). induction ms as [|m ms IH]; intros d E H; [injection H as <-; discriminate E|].
  cbn [collect] in H. destruct (match_value t known_commands starts m) as [mv|] eqn:Ev; cbn [bind] in H; [|discriminate H].
  destruct (collect _ _ ms) as [r|] eqn:Er; cbn [bind] in H; [|discriminate H]. injection H as <-.
  destruct (reported _ m); [|apply (IH r E eq_refl)].
  cbn [dget] in E. destruct (str_eqb cmd (m_key m)); [|apply (IH r E eq_refl)].
  injection E as ->. unfold match_value in Ev.
  destruct (key_lookup (m_key m) known_commands) as [subkeys|] eqn:Ek; [|discriminate Ev].
  assert (Hsub : NoDup subkeys /\ forallb letter_key subkeys = true).
  { assert (G : forall kd, key_lookup (m_key m) kd = Some subkeys -> incl kd known_commands -> exists k, command_args k (Some subkeys)).
    { induction kd as [|[k0 v0] kd IHk]; intros Hl Hi; [discriminate Hl|]. cbn [key_lookup] in Hl.
      destruct (str_eqb (m_key m) k0).
      - subst v0. exists k0. apply Hi. left. reflexivity.
      - apply IHk; [exact Hl|]. intros x Hx. apply Hi. right. exact Hx. }
    destruct (G known_commands Ek (incl_refl _)) as (k0 & Hk0). destruct (table_args k0 _ Hk0) as (_ & _ & _ & X & Y). auto. }
  destruct Hsub as [Hn Hk].
  assert (Hin : forall s0 n1 n2, In c (unblank (slice n1 n2 s0)) -> In c s0).
  { intros s0 n1 n2 Hi. apply filter_In in Hi as [Hi _]. unfold slice in Hi.
    rewrite <- (firstn_skipn n1 s0). apply in_or_app. right.
    rewrite <- (firstn_skipn (n2 - n1) (skipn n1 s0)). apply in_or_app. left. exact Hi. }
  destruct (str_eqb (m_key m) (S_ ";")).
  - destruct (arg_extract_leaf (skipn (m_end m) t) subkeys) as [sd|] eqn:Es; cbn [bind] in Ev; [|discriminate Ev].
    injection Ev as ->. destruct (leaf_letter _ _ _ _ _ Hn Hk Es Hw) as (i & pre & post & E & _).
    rewrite <- (firstn_skipn (m_end m) t), E. apply in_or_app. right. apply in_or_app. right. left. reflexivity.
  - rewrite cast_unblank in Ev. destruct (py_float _) as [f|]; [discriminate Ev|].
    destruct (arg_extract_leaf _ subkeys) as [sd|] eqn:Es in Ev; cbn [bind] in Ev; [|discriminate Ev].
    injection Ev as ->. destruct (leaf_letter _ _ _ _ _ Hn Hk Es Hw) as (i & pre & post & E & _).
    apply (Hin t (m_end m) (next_larger starts (m_end m) (length t))). rewrite E. apply in_or_app. right. left. reflexivity.
Qed.
Lemma no_units_get k d : k <> S_ "G20" -> k <> S_ "G21" ->
  dget k (filter (fun kv => negb (str_eqb (fst kv) (S_ "G20")) && negb (str_eqb (fst kv) (S_ "G21"))) d) = dget k (d : dict arg).
Proof.
  intros H1 H2. induction d as [|[k' v] d IH]; [reflexivity|]. cbn [filter fst dget].
  destruct (str_eqb_spec k' (S_ "G20")) as [->|E1]; cbn [negb andb]; [rewrite str_eqb_false by assumption; exact IH|].
  destruct (str_eqb_spec k' (S_ "G21")) as [->|E2]; cbn [negb]; [rewrite str_eqb_false by assumption; exact IH|].
  cbn [dget]. rewrite IH. reflexivity.
Qed.
Definition with_unit {N} (u : str) (m : vm N) : vm N := set_modes N (absolute_position N m) (absolute_extrusion N m) u m.
Lemma unit_step N l m u : exists u',
  step_vm N (ld (no_units l)) (with_unit u m) =
  match step_vm N (ld l) m with Ok (m', p) => Ok (with_unit u' m', p) | Err e => Err e end.
Proof.
  exists u.
  assert (G : forall k, k <> S_ "G20" -> k <> S_ "G21" -> dget k (ld (no_units l)) = dget k (ld l))
    by (intros k H1 H2; apply no_units_get; assumption).
  assert (Gn : dget (S_ "G20") (ld (no_units l)) = None /\ dget (S_ "G21") (ld (no_units l)) = None).
  { clear G. cbn [ld no_units]. split; induction (ld l) as [|[k v] d IH]; try reflexivity; cbn [filter fst];
      (destruct (str_eqb_spec k (S_ "G20")) as [->|E1]; cbn [negb andb]; [exact IH|]);
      (destruct (str_eqb_spec k (S_ "G21")) as [->|E2]; cbn [negb andb]; [exact IH|]);
      cbn [dget]; rewrite str_eqb_false by congruence; exact IH. }
  assert (Gs : forall k, k <> S_ "G20" -> k <> S_ "G21" -> sub_dict k (ld (no_units l)) = sub_dict k (ld l))
    by (intros k H1 H2; unfold sub_dict; rewrite G by assumption; reflexivity).
  unfold step_vm.
  assert (E0 : do_modes N (ld (no_units l)) (with_unit u m) = with_unit u (do_modes N (ld l) m)).
  { unfold do_modes, dmem. destruct Gn as [-> ->]. rewrite !G by (intros E; discriminate E). reflexivity. }
  rewrite E0. set (m0 := do_modes N (ld l) m). clearbody m0. clear E0.
  assert (Ax : forall ab a s m, do_axis N ab a s (with_unit u m) = (m' <- do_axis N ab a s m ;; Ok (with_unit u m'))).
  { intros ab a s m1. unfold do_axis. destruct (dget (axis_key a) s) as [lf|]; [|reflexivity].
    destruct (need_num N lf); [|reflexivity]. destruct a; reflexivity. }
  assert (Mv : forall cmd m, cmd <> S_ "G20" -> cmd <> S_ "G21" ->
     do_move N cmd (ld (no_units l)) (with_unit u m) = (m' <- do_move N cmd (ld l) m ;; Ok (with_unit u m'))).
  { intros cmd m1 H1 H2. unfold do_move. rewrite Gs by assumption. destruct (sub_dict cmd (ld l)) as [s|]; [|reflexivity].
    change (absolute_position N (with_unit u m1)) with (absolute_position N m1).
    rewrite Ax. destruct (do_axis N (absolute_position N m1) AX s m1) as [m2|]; cbn [bind]; [|reflexivity].
    change (absolute_position N (with_unit u m2)) with (absolute_position N m2).
    rewrite Ax. destruct (do_axis N (absolute_position N m2) AY s m2) as [m3|]; cbn [bind]; [|reflexivity].
    change (absolute_position N (with_unit u m3)) with (absolute_position N m3).
    rewrite Ax. destruct (do_axis N (absolute_position N m3) AZ s m3) as [m4|]; cbn [bind]; [|reflexivity].
    change (absolute_extrusion N (with_unit u m4)) with (absolute_extrusion N m4).
    rewrite Ax. destruct (do_axis N (absolute_extrusion N m4) AE s m4) as [m5|]; cbn [bind]; [|reflexivity].
    destruct (dget (S_ "F") s) as [lf|]; [|reflexivity]. destruct (need_num N lf); reflexivity. }
  rewrite Mv by (intros E; discriminate E). destruct (do_move N (S_ "G0") (ld l) m0) as [m1|]; cbn [bind]; [|reflexivity].
  rewrite Mv by (intros E; discriminate E). destruct (do_move N (S_ "G1") (ld l) m1) as [m2|]; cbn [bind]; [|reflexivity].
  assert (G92 : forall s m, do_g92 N s (with_unit u m) = (m' <- do_g92 N s m ;; Ok (with_unit u m'))).
  { induction s as [|[k lf] s IH]; intros m3; [reflexivity|]. cbn [do_g92]. destruct (axis_of_key k) as [a|]; [|apply IH].
    destruct (need_num N lf) as [x|]; cbn [bind]; [|reflexivity]. rewrite <- IH. destruct a; reflexivity. }
  assert (G203 : forall s m, do_m203 N s (with_unit u m) = (m' <- do_m203 N s m ;; Ok (with_unit u m'))).
  { induction s as [|[k lf] s IH]; intros m3; [reflexivity|]. cbn [do_m203]. destruct (axis_of_key k) as [a|]; [|apply IH].
    destruct (as_sval N lf) as [x|]; cbn [bind]; [|reflexivity]. rewrite <- IH. destruct a; reflexivity. }
  assert (Sb : forall cmd f m, cmd <> S_ "G20" -> cmd <> S_ "G21" ->
     (forall s m, f s (with_unit u m) = (m' <- f s m ;; Ok (with_unit u m'))) ->
     do_sub N cmd (ld (no_units l)) f (with_unit u m) = (m' <- do_sub N cmd (ld l) f m ;; Ok (with_unit u m'))).
  { intros cmd f m3 H1 H2 Hf. unfold do_sub. rewrite Gs by assumption. destruct (sub_dict cmd (ld l)); [apply Hf|reflexivity]. }
  rewrite Sb by (try exact G92; intros E; discriminate E).
  destruct (do_sub N (S_ "G92") (ld l) (do_g92 N) m2) as [m3|]; cbn [bind]; [|reflexivity].
  rewrite Sb; try (intros E; discriminate E).
  2: { intros s m4. unfold do_m204. destruct (dget (S_ "P") s) as [lf|]; [|reflexivity]. destruct (as_sval N lf); reflexivity. }
  destruct (do_sub N (S_ "M204") (ld l) (do_m204 N) m3) as [m4|]; cbn [bind]; [|reflexivity].
  rewrite Sb by (try exact G203; intros E; discriminate E).
  destruct (do_sub N (S_ "M203") (ld l) (do_m203 N) m4) as [m5|]; cbn [bind]; [|reflexivity].
  rewrite Sb; try (intros E; discriminate E).
  2: { intros s m6. unfold do_m205. destruct (dget (S_ "X") s) as [lf|]; [|reflexivity]. destruct (as_sval N lf); reflexivity. }
  destruct (do_sub N (S_ "M205") (ld l) (do_m205 N) m5) as [m6|]; cbn [bind]; [|reflexivity].
  unfold do_dwell. rewrite Gs by (intros E; discriminate E).
  destruct (match sub_dict (S_ "G4") (ld l) with None => _ | Some _ => _ end); reflexivity.
Qed.
Lemma unit_travel N cue : forall ls m u n,
  match travel N cue ls m n, travel N cue (map no_units ls) (with_unit u m) n with
  | Ok a, Ok b => map state_position b = map state_position a
  | Err e, Err e' => e = e'
  | _, _ => False
  end.
Proof.
  induction ls as [|l ls IH]; intros m u n; [reflexivity|]. cbn [map travel].
  destruct (unit_step N l m u) as (u' & E). rewrite E.
  destruct (step_vm N (ld l) m) as [[m' p]|e]; cbn [bind]; [|reflexivity].
  assert (Ec : line_comment (ld (no_units l)) = line_comment (ld l)).
  { unfold line_comment. cbn [ld no_units]. rewrite no_units_get by (intros Q; discriminate Q). reflexivity. }
  rewrite Ec. specialize (IH m' u' (next_layer cue (line_comment (ld l)) n)).
  destruct (travel N cue ls m' _), (travel N cue (map no_units ls) (with_unit u' m') _); cbn [bind]; try exact IH.
  cbn [map]. rewrite IH. reflexivity.
Qed.

(** Lines that are parsed alike can be exchanged. *)
Lemma same_parse_states N before t t' after su : arg_extract t known_commands = arg_extract t' known_commands ->
  generate_states N (before ++ t :: after) su = generate_states N (before ++ t' :: after) su.
Proof.
  intros E. unfold generate_states, read_gcode_to_dict_list. f_equal. generalize 0.
  induction before as [|x b IH]; intros i; cbn [app read_lines]; [rewrite E; reflexivity|]. rewrite IH. reflexivity.
Qed.
