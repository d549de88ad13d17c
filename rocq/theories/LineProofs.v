(** C02, C03, C04, C07: lines made of one command. *)
From Coq Require Import Permutation.
From Verif Require Import Py PyFloat Parser StrFacts DedupeProofs SpecRead ParserProofs CommentProofs.
Open Scope nat_scope.
Local Arguments known_keys : simpl never.
Local Arguments find_matches : simpl never.
Local Arguments unshadowed : simpl never.
Local Arguments S_ : simpl never.

(** * A line with a single command *)
Lemma key_head k : command k -> exists c ds, k = c :: ds /\
  (c = "G"%char \/ c = "M"%char \/ c = ";"%char) /\ plain ds /\ Forall (fun x => is_digit x = true) ds.
Proof.
  intros Hk.
  pose proof (commands_all (fun k => match k with
     | c :: ds => (aeqb c "G"%char || aeqb c "M"%char || aeqb c ";"%char) && forallb is_digit ds
     | [] => false end) eq_refl k Hk) as Q. cbv beta in Q.
  destruct k as [|c ds]; [discriminate|]. exists c, ds. apply andb_prop in Q as [Q1 Q2].
  split; [reflexivity|]. split.
  - destruct (aeqb_spec c "G"%char); auto. destruct (aeqb_spec c "M"%char); auto.
    destruct (aeqb_spec c ";"%char); auto. discriminate.
  - rewrite forallb_forall in Q2. split; [|apply Forall_forall; exact Q2].
    intros x Hx. specialize (Q2 x Hx). repeat split; intros ->; discriminate Q2.
Qed.

Lemma plain_app a b : plain a -> plain b -> plain (a ++ b).
Proof. intros Ha Hb c Hc. apply in_app_or in Hc as [Hc|Hc]; auto. Qed.
Lemma plain_find k s : command k -> plain s -> find k s = None.
Proof.
  intros Hk Hs. destruct (key_head k Hk) as (c & ds & -> & Hc & _).
  apply (find_not_in _ c ds); [reflexivity|]. intros Hi. destruct (Hs c Hi) as (A & B & C).
  destruct Hc as [Hc|[Hc|Hc]]; congruence.
Qed.

(** Keys are digits after their first character: what follows a command word
    cannot make a longer key unless it starts with a digit. *)
Lemma prefix_no_digit cmd w k : command cmd -> command k -> ~ starts_with_digit w ->
  prefixb k (cmd ++ w) = prefixb k cmd.
Proof.
  intros Hc Hk Hw. destruct (prefixb k cmd) eqn:E; [apply prefixb_app; exact E|].
  destruct (prefixb k (cmd ++ w)) eqn:F; [|reflexivity]. exfalso.
  apply prefixb_iff in F as (r & F).
  destruct (Nat.le_gt_cases (length k) (length cmd)) as [L|L].
  - assert (X : prefixb k cmd = true); [|congruence].
    apply (prefixb_two k cmd (cmd ++ w)); [apply prefixb_iff; exists r; exact F|apply prefixb_self|exact L].
  - assert (X : nth_error (cmd ++ w) (length cmd) = nth_error (k ++ r) (length cmd)) by (rewrite F; reflexivity).
    rewrite nth_error_app2, Nat.sub_diag, nth_error_app1 in X by lia.
    destruct w as [|x w].
    + apply (f_equal (@length _)) in F. rewrite !app_length in F. simpl in F. lia.
    + apply Hw. exists x, w. split; [reflexivity|]. simpl in X. symmetry in X.
      destruct (key_head k Hk) as (c & ds & -> & _ & _ & Hd).
      pose proof (key_nonempty cmd Hc) as L2.
      destruct (length cmd) as [|n]; [lia|]. simpl in X. apply nth_error_In in X.
      rewrite Forall_forall in Hd. apply Hd; exact X.
Qed.

Section OneCommand.
Variables pre cmd w : str.
Hypothesis Hpre : plain pre.
Hypothesis Hw : plain w.
Hypothesis Hcmd : command cmd.
Hypothesis Hnosemi : cmd <> S_ ";".
(** cmd is the longest command the word starts with *)
Hypothesis Hlong : forall k, command k -> prefixb k (cmd ++ w) = prefixb k cmd.

Notation line := (pre ++ cmd ++ w).

Lemma find_line k : command k -> find k line = if prefixb k cmd then Some (length pre) else None.
Proof.
  intros Hk. destruct (key_head k Hk) as (c & ds & Ek & Hc & _).
  rewrite (find_skip k c ds) by (try assumption; intros Hi; destruct (Hpre c Hi) as (A & B & C); destruct Hc as [|[|]]; congruence).
  destruct (key_head cmd Hcmd) as (c' & ds' & Ec & Hc' & Hds' & _).
  rewrite <- (Hlong k Hk). rewrite Ec. cbn [app find].
  destruct (prefixb k (c' :: ds' ++ w)); simpl; [f_equal; lia|].
  rewrite (plain_find k (ds' ++ w)); [reflexivity|exact Hk|]. apply plain_app; assumption.
Qed.

Definition at_pre (k : str) : pmatch := {| m_key := k; m_start := length pre; m_end := length pre + length k |}.

Lemma matches_line : find_matches known_keys line = map at_pre (filter (fun k => prefixb k cmd) known_keys).
Proof.
  assert (G : forall ks, incl ks known_keys -> find_matches ks line = map at_pre (filter (fun k => prefixb k cmd) ks)).
  { induction ks as [|k ks IH]; intros Hi; [reflexivity|]. apply incl_cons_inv in Hi as [Hk Hi].
    rewrite find_matches_cons, (find_line k Hk). cbn [filter]. destruct (prefixb k cmd); [|apply IH; exact Hi].
    cbn [map]. rewrite IH by exact Hi. reflexivity. }
  apply G, incl_refl.
Qed.

Lemma kept_line : unshadowed (find_matches known_keys line) = [at_pre cmd].
Proof.
  rewrite matches_line.
  assert (G : forall (l : list str) (k : str), shadowed (map at_pre l) (at_pre k) = existsb (fun k' : str => length k <? length k') l).
  { intros l k. unfold shadowed. induction l as [|x l IH]; [reflexivity|]. cbn [map existsb]. rewrite IH. f_equal.
    unfold shadows. cbn [at_pre m_start m_end]. rewrite Nat.eqb_refl. simpl.
    destruct (length k <? length x) eqn:E.
    - apply Nat.ltb_lt in E. apply Nat.ltb_lt. lia.
    - apply Nat.ltb_ge in E. apply Nat.ltb_ge. lia. }
  unfold unshadowed.
  assert (G2 : forall l0 l : list str, filter (fun a => negb (shadowed (map at_pre l0) a)) (map at_pre l) =
                 map at_pre (filter (fun k : str => negb (existsb (fun k' : str => length k <? length k') l0)) l)).
  { intros l0 l. induction l as [|x l IH]; [reflexivity|]. cbn [map filter]. rewrite G, IH.
    destruct (existsb (fun k' : str => length x <? length k') l0); reflexivity. }
  rewrite G2.
  pose proof (commands_all (fun c => match filter (fun k : str => negb (existsb (fun k' : str => length k <? length k') (filter (fun k : str => prefixb k c) known_keys)))
                                   (filter (fun k : str => prefixb k c) known_keys) with [x] => str_eqb x c | _ => false end) eq_refl cmd Hcmd) as Q.
  cbv beta in Q.
  match type of Q with (match ?l with _ => _ end) = _ => destruct l as [|x [|y l']] end; try discriminate.
  apply str_eqb_true in Q. subst x. reflexivity.
Qed.

Definition line_value : res arg :=
  match key_lookup cmd known_commands with
  | None => Ok (ALeaf (cast_arg w))
  | Some subkeys => match cast_arg w with
                    | LStr s => sub <- arg_extract_leaf s subkeys ;; Ok (ADict sub)
                    | LNum _ => Err TypeError
                    end
  end.

Lemma one_command : arg_extract line known_commands = (v <- line_value ;; Ok [(cmd, v)]).
Proof.
  rewrite arg_extract_known, comment_begin_spec. rewrite kept_line.
  rewrite (find_line (S_ ";")) by (apply command_b; reflexivity).
  assert (Hsemi : prefixb (S_ ";") cmd = false).
  { pose proof (commands_all (fun c => negb (prefixb (S_ ";") c) || str_eqb c (S_ ";")) eq_refl cmd Hcmd) as Q.
    cbv beta in Q. rewrite (str_eqb_false _ _ Hnosemi), orb_false_r in Q. apply negb_true_iff. exact Q. }
  rewrite Hsemi. cbn [collect map m_start at_pre].
  assert (Hv : match_value line known_commands [length pre] (at_pre cmd) = line_value).
  { unfold match_value, line_value. cbn [m_key m_end at_pre]. rewrite (str_eqb_false _ _ Hnosemi).
    assert (Hl : 0 < length cmd) by (apply key_nonempty; exact Hcmd).
    assert (En : next_larger [length pre] (length pre + length cmd) (length line) = length line).
    { unfold next_larger. cbn [filter]. rewrite (proj2 (Nat.leb_gt _ _)) by lia. reflexivity. }
    rewrite En.
    assert (Es : slice (length pre + length cmd) (length line) line = w).
    { unfold slice. rewrite app_assoc. replace (length pre + length cmd) with (length (pre ++ cmd)) by apply app_length.
      rewrite skipn_app, skipn_all, Nat.sub_diag. simpl. rewrite app_length.
      replace (length (pre ++ cmd) + length w - length (pre ++ cmd)) with (length w) by lia. apply firstn_all. }
    rewrite Es. reflexivity. }
  rewrite Hv. destruct line_value as [v|]; cbn [bind]; [|reflexivity].
  unfold reported. cbn [m_end at_pre m_key]. rewrite (proj2 (Nat.leb_le _ _)); [reflexivity|].
  rewrite !app_length. lia.
Qed.
End OneCommand.

(** * Blanks *)
Lemma unblank_spec w : remove_char "010"%char (remove_char " "%char w) = unblank w.
Proof.
  unfold remove_char, unblank. rewrite filter_filter. apply filter_in_eq. intros c _.
  rewrite negb_orb. apply andb_comm.
Qed.
Lemma cast_unblank w : cast_arg w = match py_float (unblank w) with Some f => LNum f | None => LStr (unblank w) end.
Proof. unfold cast_arg. rewrite unblank_spec. reflexivity. Qed.

Theorem blanks_ignored pre pre' cmd w w' :
  plain pre -> plain pre' -> plain w -> plain w' -> command cmd -> cmd <> S_ ";" ->
  ~ starts_with_digit w -> ~ starts_with_digit w' -> unblank w = unblank w' ->
  arg_extract (pre ++ cmd ++ w) known_commands = arg_extract (pre' ++ cmd ++ w') known_commands.
Proof.
  intros. rewrite !one_command; auto using prefix_no_digit.
  unfold line_value. rewrite !cast_unblank. rewrite H7. reflexivity.
Qed.

(** * Decimal literals *)
Definition lit_char (c : ascii) : bool := is_digit c || aeqb c "-"%char || aeqb c "+"%char || aeqb c "."%char.

Lemma digit_char_cases d : d < 10 -> digit_val (digit_char d) = Some (Z.of_nat d).
Proof. intros H. do 10 (destruct d as [|d]; [reflexivity|]). lia. Qed.
Lemma digit_is d : d < 10 -> is_digit (digit_char d) = true.
Proof. intros H. unfold is_digit. rewrite digit_char_cases by exact H. reflexivity. Qed.

Lemma lit_chars l : lit_wf l -> forallb lit_char (lit_str l) = true.
Proof.
  intros [Hd _]. apply forallb_forall. intros c Hc. unfold lit_str in Hc. unfold lit_char.
  rewrite Forall_app in Hd. destruct Hd as [H1 H2]. rewrite !Forall_forall in *.
  apply in_app_or in Hc as [Hc|Hc]; [destruct (l_sign l) as [[|]|]; simpl in Hc; intuition subst; reflexivity|].
  apply in_app_or in Hc as [Hc|Hc].
  - apply in_map_iff in Hc as (d & <- & Hd). rewrite digit_is by auto. reflexivity.
  - unfold frac_digits in H2. destruct (l_frac l) as [f|]; [|destruct Hc]. destruct Hc as [<-|Hc]; [reflexivity|].
    apply in_map_iff in Hc as (d & <- & Hd). rewrite digit_is by auto. reflexivity.
Qed.

Lemma strip_id s : forallb (fun c => negb (is_space c)) s = true -> strip s = s.
Proof.
  assert (L : forall s, forallb (fun c => negb (is_space c)) s = true -> lstrip s = s).
  { intros [|c x] H; [reflexivity|]. simpl in *. apply andb_prop in H as [H _]. apply negb_true_iff in H. rewrite H. reflexivity. }
  intros H. unfold strip. rewrite (L s H). rewrite L; [apply rev_involutive|].
  rewrite forallb_forall in *. intros c Hc. apply H, in_rev. exact Hc.
Qed.

Lemma lit_char_cases c : lit_char c = true ->
  (exists d, d < 10 /\ c = digit_char d) \/ c = "-"%char \/ c = "+"%char \/ c = "."%char.
Proof.
  unfold lit_char. intros H. destruct (is_digit c) eqn:E.
  - left. unfold is_digit, digit_val in E.
    destruct ((48 <=? nat_of_ascii c) && (nat_of_ascii c <=? 57)) eqn:F; [|discriminate].
    apply andb_prop in F as [F1 F2]. apply Nat.leb_le in F1. apply Nat.leb_le in F2.
    exists (nat_of_ascii c - 48). split; [lia|]. unfold digit_char.
    replace (48 + (nat_of_ascii c - 48)) with (nat_of_ascii c) by lia. symmetry. apply ascii_nat_embedding.
  - right. simpl in H. destruct (aeqb_spec c "-"%char); auto. destruct (aeqb_spec c "+"%char); auto.
    destruct (aeqb_spec c "."%char); auto. discriminate.
Qed.
Lemma lit_char_facts c : lit_char c = true -> is_space c = false /\ lower c = c /\
  c <> "010"%char /\ c <> " "%char /\ c <> "i"%char /\ c <> "n"%char /\ c <> "a"%char /\ c <> "_"%char.
Proof.
  intros H. destruct (lit_char_cases c H) as [(d & Hd & ->)|[->|[->| ->]]].
  - do 10 (destruct d as [|d]; [repeat split; reflexivity || discriminate|]). lia.
  - repeat split; reflexivity || discriminate.
  - repeat split; reflexivity || discriminate.
  - repeat split; reflexivity || discriminate.
Qed.

Lemma digits_run ds : forall acc n s, Forall (fun d => d < 10) ds ->
  (match s with [] => True | c :: _ => is_digit c = false /\ c <> "_"%char end) ->
  digits acc n (map digit_char ds ++ s) =
  (fold_left (fun a d => (10 * a + Z.of_nat d)%Z) ds acc, n + length ds, s).
Proof.
  induction ds as [|d ds IH]; intros acc n s Hd Hs.
  - simpl. rewrite Nat.add_0_r. destruct s as [|c s]; [reflexivity|]. destruct Hs as [Hs Hu].
    cbn [digits]. unfold is_digit in Hs. destruct (digit_val c); [discriminate|].
    destruct (aeqb_spec c "_"%char); [contradiction|]. reflexivity.
  - inversion Hd as [|? ? H1 H2]; subst. cbn [map app digits]. rewrite digit_char_cases by exact H1.
    rewrite IH by assumption. cbn [fold_left length]. rewrite Nat.add_succ_comm.
    do 3 f_equal. lia.
Qed.

Theorem literal_value l : lit_wf l -> py_float (lit_str l) = Some (lit_val l).
Proof.
  intros Hl. pose proof (lit_chars l Hl) as Hc. destruct Hl as [Hd Hne].
  unfold py_float. rewrite strip_id.
  2:{ rewrite forallb_forall in *. intros c Hi. destruct (lit_char_facts c (Hc c Hi)) as [-> _]. reflexivity. }
  set (rest := map digit_char (l_int l) ++ match l_frac l with Some f => "."%char :: map digit_char f | None => [] end).
  assert (Hsig : sign_of (lit_str l) = ((match l_sign l with Some true => -1 | _ => 1 end)%Z, rest)).
  { unfold lit_str. fold rest. destruct (l_sign l) as [[|]|]; try reflexivity. simpl app.
    assert (Hr : rest <> []).
    { unfold rest. intros E. apply app_eq_nil in E as [E1 E2]. apply Hne. unfold frac_digits.
      apply map_eq_nil in E1. rewrite E1. destruct (l_frac l); [discriminate|reflexivity]. }
    destruct rest as [|c r] eqn:E; [congruence|]. unfold sign_of.
    assert (c = "."%char \/ exists d, d < 10 /\ c = digit_char d).
    { unfold rest in E. rewrite Forall_app in Hd. destruct Hd as [Hd _].
      destruct (l_int l) as [|d ds]; simpl in E.
      - left. destruct (l_frac l); [|discriminate]. congruence.
      - right. exists d. inversion Hd; subst. split; [assumption|congruence]. }
    destruct H as [->|(d & H1 & ->)]; [reflexivity|].
    do 10 (destruct d as [|d]; [reflexivity|]). lia. }
  rewrite Hsig.
  assert (Hu : unsigned rest = Some (Dec (decimal (l_int l ++ frac_digits l)) (- Z.of_nat (length (frac_digits l))))).
  { unfold unsigned.
    assert (Hnon : str_eqb (map lower rest) (S_ "inf") || str_eqb (map lower rest) (S_ "infinity") || str_eqb (map lower rest) (S_ "nan") = false).
    { assert (Hrc : forallb lit_char rest = true).
      { unfold lit_str in Hc. fold rest in Hc. rewrite forallb_app in Hc. apply andb_prop in Hc. apply Hc. }
      destruct rest as [|c r]; [reflexivity|]. simpl in Hrc. apply andb_prop in Hrc as [Hc0 _].
      destruct (lit_char_facts c Hc0) as (_ & Hlow & _ & _ & Hi & Hn & _). simpl map. rewrite Hlow.
      unfold S_. simpl list_ascii_of_string. cbn [str_eqb].
      destruct (aeqb_spec c "i"%char); [contradiction|]. destruct (aeqb_spec c "n"%char); [contradiction|]. reflexivity. }
    rewrite Hnon. rewrite Forall_app in Hd. destruct Hd as [H1 H2].
    unfold rest. rewrite digits_run; [|exact H1|destruct (l_frac l); [split; [reflexivity|discriminate]|exact I]].
    cbn [Nat.add]. unfold frac_digits in *. destruct (l_frac l) as [f|].
    - cbn [aeqb]. rewrite aeqb_refl.
      rewrite <- (app_nil_r (map digit_char f)). rewrite digits_run; [|exact H2|exact I]. cbn [exponent Nat.add].
      rewrite (proj2 (Nat.ltb_lt _ _)).
      2:{ rewrite <- app_length. destruct (l_int l ++ f); [congruence|simpl; lia]. }
      unfold decimal. rewrite fold_left_app. reflexivity.
    - rewrite app_nil_r in *. rewrite (proj2 (Nat.ltb_lt _ _)) by (destruct (l_int l); [congruence|simpl; lia]).
      reflexivity. }
  rewrite Hu. reflexivity.
Qed.

(** * The argument list *)
(** An argument letter: a capital letter that cannot be part of a literal, a
    blank, a comment or a command. *)
Definition arg_letter (c : ascii) : bool :=
  let n := nat_of_ascii c in
  (65 <=? n) && (n <=? 90) && negb (aeqb c "G"%char) && negb (aeqb c "M"%char) && negb (aeqb c "N"%char).
Definition letter_key (k : str) : bool := match k with [c] => arg_letter c | _ => false end.

Fixpoint nodupb (l : list str) : bool :=
  match l with [] => true | x :: l' => negb (existsb (str_eqb x) l') && nodupb l' end.
Lemma nodupb_ok l : nodupb l = true -> NoDup l.
Proof.
  induction l as [|x l IH]; simpl; intros H; [constructor|]. apply andb_prop in H as [H1 H2].
  constructor; [|auto]. intros Hi. apply negb_true_iff in H1.
  assert (X : existsb (str_eqb x) l = true) by (apply existsb_exists; exists x; rewrite str_eqb_refl; auto). congruence.
Qed.

Lemma table_args cmd o : command_args cmd o ->
  command cmd /\ key_lookup cmd known_commands = o /\
  match o with Some keys => cmd <> S_ ";" /\ NoDup keys /\ forallb letter_key keys = true | None => True end.
Proof.
  intros H. split; [apply (in_map fst) in H; exact H|].
  assert (T : forallb (fun p => match snd p with
       Some keys => negb (str_eqb (fst p) (S_ ";")) && nodupb keys && forallb letter_key keys | None => true end)
       known_commands = true) by reflexivity.
  pose proof (proj1 (forallb_forall _ _) T _ H) as Q. cbv beta in Q. cbn [fst snd] in Q. split.
  - assert (L : forall (kd : list (str * option (list str))), nodupb (map fst kd) = true -> In (cmd, o) kd -> key_lookup cmd kd = o).
    { clear. induction kd as [|[k v] kd IH]; [intros _ []|]. simpl. intros Hn Hi. apply andb_prop in Hn as [N1 N2].
      destruct Hi as [E|Hi].
      - injection E as -> ->. rewrite str_eqb_refl. reflexivity.
      - destruct (str_eqb_spec cmd k) as [->|_]; [|auto]. exfalso. apply negb_true_iff in N1.
        assert (X : existsb (str_eqb k) (map fst kd) = true).
        { apply existsb_exists. exists k. rewrite str_eqb_refl. split; [|reflexivity]. apply (in_map fst) in Hi. exact Hi. }
        congruence. }
    apply L; [reflexivity|exact H].
  - destruct o as [keys|]; [|exact I]. apply andb_prop in Q as [Q Q3]. apply andb_prop in Q as [Q1 Q2].
    split; [intros ->; discriminate Q1|]. split; [apply nodupb_ok; exact Q2|exact Q3].
Qed.

Lemma letter_not_lit c : arg_letter c = true -> lit_char c = false.
Proof.
  intros H. destruct (lit_char c) eqn:E; [|reflexivity].
  destruct (lit_char_cases c E) as [(d & Hd & ->)|[->|[->| ->]]]; try discriminate H.
  do 10 (destruct d as [|d]; [discriminate H|]). lia.
Qed.

Section Leaf.
Variable keys : list str.
Hypothesis Hnd : NoDup keys.
Hypothesis Hkeys : forallb letter_key keys = true.

Lemma key_letter k : In k keys -> exists c, k = [c] /\ arg_letter c = true.
Proof.
  intros Hk. pose proof (proj1 (forallb_forall _ _) Hkeys k Hk) as Q. unfold letter_key in Q.
  destruct k as [|c [|]]; try discriminate. exists c. auto.
Qed.

Lemma leaf_no_dup s : dedupe (find_matches keys s) = Ok (find_matches keys s).
Proof.
  apply dedupe_none. intros a m Ha Hm. unfold shadows.
  apply in_find_matches in Ha as (Ka & _ & Ea). apply in_find_matches in Hm as (Km & _ & Em).
  destruct (key_letter _ Ka) as (ca & Eca & _). destruct (key_letter _ Km) as (cm & Ecm & _).
  rewrite Eca in Ea. rewrite Ecm in Em. simpl in Ea, Em.
  destruct (m_start a =? m_start m) eqn:E; [|reflexivity]. apply Nat.eqb_eq in E. simpl. apply Nat.ltb_ge. lia.
Qed.

Lemma key_not_semi k : In k keys -> str_eqb k (S_ ";") = false.
Proof.
  intros Hk. destruct (key_letter k Hk) as (c & -> & Hc). apply str_eqb_false. intros E.
  injection E as ->. discriminate Hc.
Qed.

Lemma fold_dset_new (f : pmatch -> leaf) : forall ms d, NoDup (dkeys d ++ map m_key ms) ->
  fold_left (fun d m => dset (m_key m) (f m) d) ms d = d ++ map (fun m => (m_key m, f m)) ms.
Proof.
  induction ms as [|m ms IH]; intros d Hn; simpl; [rewrite app_nil_r; reflexivity|].
  simpl map in Hn. pose proof (NoDup_remove_2 _ _ _ Hn) as Hk.
  rewrite dset_new by (intros Hi; apply Hk, in_or_app; left; exact Hi).
  rewrite IH; [rewrite <- app_assoc; reflexivity|].
  unfold dkeys. rewrite map_app. simpl. rewrite <- app_assoc. exact Hn.
Qed.

Definition starts_in (s : str) : list nat := map m_start (find_matches keys s).
Definition leaf_value (s : str) (i : nat) : leaf :=
  cast_arg (slice (i + 1) (next_larger (starts_in s) (i + 1) (length s)) s).

Lemma leaf_spec s : arg_extract_leaf s keys =
  Ok (flat_map (fun k => match find k s with Some i => [(k, leaf_value s i)] | None => [] end) keys).
Proof.
  unfold arg_extract_leaf. rewrite leaf_no_dup. cbn [bind]. f_equal.
  set (cb := comment_begin _ _).
  assert (Hcb : cb = length s).
  { unfold cb, comment_begin.
    replace (filter (fun m => str_eqb (m_key m) (S_ ";")) (find_matches keys s)) with (@nil pmatch); [reflexivity|].
    symmetry. generalize (fun m (Hm : In m (find_matches keys s)) => key_not_semi _ (proj1 (in_find_matches _ _ _ Hm))).
    generalize (find_matches keys s). intros l Hl. induction l as [|m l IH]; [reflexivity|]. simpl.
    rewrite (Hl m) by (left; reflexivity). apply IH. intros x Hx. apply Hl. right; exact Hx. }
  transitivity (fold_left (fun d m => dset (m_key m) (leaf_value s (m_start m)) d) (find_matches keys s) []).
  - fold (starts_in s).
    assert (Hall : forall m, In m (find_matches keys s) -> In m (find_matches keys s)) by auto.
    revert Hall. generalize (@nil (str * leaf)) as d. generalize (find_matches keys s) at 1 3 4 as l.
    induction l as [|m l IH]; intros d Hl; [reflexivity|]. cbn [fold_left].
    rewrite IH by (intros x Hx; apply Hl; right; exact Hx). f_equal.
    pose proof (in_find_matches _ _ _ (Hl m (or_introl eq_refl))) as (Hk & Hf & He).
    rewrite (key_not_semi _ Hk). rewrite Hcb. rewrite (proj2 (Nat.leb_le _ _)) by (apply find_length in Hf; lia).
    simpl orb. cbv iota. unfold leaf_value. rewrite He. destruct (key_letter _ Hk) as (c & -> & _). reflexivity.
  - rewrite fold_dset_new by (cbn [dkeys map app]; apply find_matches_nodup; exact Hnd).
    cbn [app]. clear Hcb cb. generalize (leaf_value s) as g. intros g. clear Hnd Hkeys.
    induction keys as [|k ks IH]; [reflexivity|]. rewrite find_matches_cons. cbn [flat_map].
    destruct (find k s); cbn [map app]; rewrite IH; reflexivity.
Qed.

Lemma body_app a b : body (a ++ b) = body a ++ body b.
Proof. unfold body. rewrite map_app, concat_app. reflexivity. Qed.
Lemma body_cons c l a : body ((c, l) :: a) = c :: lit_str l ++ body a.
Proof. reflexivity. Qed.

Lemma lit_no_letter l c : lit_wf l -> arg_letter c = true -> ~ In c (lit_str l).
Proof.
  intros Hl Hc Hi. pose proof (proj1 (forallb_forall _ _) (lit_chars l Hl) c Hi) as Q.
  rewrite (letter_not_lit c Hc) in Q. discriminate.
Qed.
Lemma body_no_letter args c : Forall (fun a => In [fst a] keys /\ lit_wf (snd a)) args -> arg_letter c = true ->
  ~ In c (map fst args) -> ~ In c (body args).
Proof.
  induction args as [|[c' l] args IH]; intros Hw Hc Hn; [intros []|].
  inversion Hw as [|? ? [H1 H2] H3]; subst. simpl in Hn. rewrite body_cons. intros [E|Hi]; [subst; tauto|].
  apply in_app_or in Hi as [Hi|Hi]; [exact (lit_no_letter l c H2 Hc Hi)|]. apply IH in Hi; auto.
Qed.

(** In the body every start is the position of one of the letters. *)
Lemma start_is_letter args x : Forall (fun a => In [fst a] keys /\ lit_wf (snd a)) args ->
  In x (starts_in (body args)) -> exists c, nth_error (body args) x = Some c /\ arg_letter c = true.
Proof.
  intros Hw Hx. apply in_map_iff in Hx as (m & <- & Hm). apply in_find_matches in Hm as (Hk & Hf & _).
  destruct (key_letter _ Hk) as (c & Ec & Hc). rewrite Ec in Hf. exists c. split; [|exact Hc].
  apply find_prefix in Hf as Hp. destruct Hp as (post & Hp). rewrite Hp.
  assert (Hl : length (firstn (m_start m) (body args)) = m_start m).
  { apply firstn_length_le. apply find_length in Hf. lia. }
  rewrite nth_error_app2 by lia. rewrite Hl, Nat.sub_diag. reflexivity.
Qed.

Lemma leaf_body args : args_wf keys args -> arg_extract_leaf (body args) keys = Ok (args_meaning keys args).
Proof.
  intros [Hdup Hw]. rewrite leaf_spec. f_equal. unfold args_meaning.
  assert (G : forall ks, incl ks keys ->
     flat_map (fun k => match find k (body args) with Some i => [(k, leaf_value (body args) i)] | None => [] end) ks =
     flat_map (fun k => match lookup_arg k args with Some l => [(k, LNum (lit_val l))] | None => [] end) ks).
  { induction ks as [|k ks IH]; intros Hi; [reflexivity|]. apply incl_cons_inv in Hi as [Hk Hi].
    cbn [flat_map]. rewrite (IH Hi). f_equal. clear IH Hi.
    destruct (key_letter k Hk) as (c & -> & Hc). unfold lookup_arg.
    destruct (List.find (fun a => str_eqb [fst a] [c]) args) as [[c' l]|] eqn:E; cbn [option_map snd].
    - apply List.find_some in E as [Hin Hcc]. cbn [fst] in Hcc. apply str_eqb_true in Hcc. injection Hcc as ->.
      apply in_split in Hin as (a1 & a2 & ->).
      pose proof Hw as Hw'. apply Forall_app in Hw' as [Hw1 Hw2]. inversion Hw2 as [|? ? [_ Hl] Hw3]; subst. cbn [snd] in Hl.
      rewrite map_app in Hdup. cbn [map fst] in Hdup. pose proof (NoDup_remove_2 _ _ _ Hdup) as Hnc.
      assert (Hb1 : ~ In c (body a1)).
      { apply body_no_letter; auto. intros Hx. apply Hnc, in_or_app. left; exact Hx. }
      rewrite body_app, body_cons. set (B := body a1 ++ c :: lit_str l ++ body a2).
      assert (HB : body (a1 ++ (c, l) :: a2) = B) by (rewrite body_app, body_cons; reflexivity).
      assert (Hf : Py.find [c] B = Some (length (body a1))).
      { unfold B. rewrite (find_skip [c] c []) by (reflexivity || assumption).
        cbn [Py.find prefixb]. rewrite aeqb_refl. simpl. f_equal. lia. }
      rewrite Hf. do 2 f_equal. unfold leaf_value.
      (* where the argument ends *)
      assert (Hin_l : forall x ch, nth_error B x = Some ch -> arg_letter ch = true -> length (body a1) + 1 <= x ->
                length (body a1) + 1 + length (lit_str l) <= x).
      { intros x ch Hx Hch Hlx. destruct (Nat.le_gt_cases (length (body a1) + 1 + length (lit_str l)) x) as [|L]; [assumption|]. exfalso.
        unfold B in Hx. rewrite nth_error_app2 in Hx by lia.
        replace (x - length (body a1)) with (S (x - length (body a1) - 1)) in Hx by lia. cbn [nth_error] in Hx.
        rewrite nth_error_app1 in Hx by lia. apply nth_error_In in Hx. exact (lit_no_letter l ch Hl Hch Hx). }
      assert (Hnext : next_larger (starts_in B) (length (body a1) + 1) (length B) = length (body a1) + 1 + length (lit_str l)).
      { destruct (next_larger_spec (starts_in B) (length (body a1) + 1) (length B)) as [(n & N1 & N2 & N3 & N4)|(N1 & N2)].
        - rewrite N4. rewrite <- HB in N1. destruct (start_is_letter _ n Hw N1) as (ch & Hch & Hlc). rewrite HB in Hch, N1.
          pose proof (Hin_l n ch Hch Hlc N2) as Hge. apply Nat.le_antisymm; [|exact Hge].
          destruct a2 as [|[c2 l2] a2].
          + exfalso. assert (Hlt : n < length B) by (apply nth_error_Some; rewrite Hch; discriminate).
            unfold B in Hlt. rewrite app_length in Hlt. cbn [length] in Hlt. rewrite app_length in Hlt.
            unfold body in Hlt at 2. simpl in Hlt. lia.
          + apply N3; [|lia]. inversion Hw3 as [|? ? [K2 L2] _]; subst. cbn [fst snd] in K2, L2.
            destruct (key_letter _ K2) as (c2' & E2 & HL2). injection E2 as <-.
            assert (Hf2 : Py.find [c2] B = Some (length (body a1) + 1 + length (lit_str l))).
            { unfold B. replace (body a1 ++ c :: lit_str l ++ body ((c2, l2) :: a2)) with
                ((body a1 ++ c :: lit_str l) ++ body ((c2, l2) :: a2)) by (rewrite <- app_assoc; reflexivity).
              rewrite (find_skip [c2] c2 []); [|reflexivity|].
              - rewrite body_cons. cbn [Py.find prefixb]. rewrite aeqb_refl. simpl. f_equal. rewrite app_length. simpl. lia.
              - intros Hx. apply in_app_or in Hx as [Hx|[Hx|Hx]].
                + revert Hx. apply body_no_letter; auto. intros Hx.
                  apply NoDup_remove_1 in Hdup. cbn [map fst] in Hdup. apply NoDup_remove_2 in Hdup.
                  apply Hdup, in_or_app. left; exact Hx.
                + subst. apply Hnc, in_or_app. right; left; reflexivity.
                + exact (lit_no_letter l c2 Hl HL2 Hx). }
            unfold starts_in. apply in_map_iff.
            exists {| m_key := [c2]; m_start := length (body a1) + 1 + length (lit_str l);
                      m_end := length (body a1) + 1 + length (lit_str l) + length [c2] |}.
            split; [reflexivity|]. apply find_matches_in; assumption.
        - rewrite N2. destruct a2 as [|[c2 l2] a2].
          + unfold B. rewrite app_length. cbn [length]. rewrite app_length. unfold body at 2. simpl. lia.
          + exfalso. inversion Hw3 as [|? ? [K2 L2] _]; subst. cbn [fst snd] in K2, L2.
            destruct (key_letter _ K2) as (c2' & E2 & HL2). injection E2 as <-.
            assert (Hf2 : exists y, Py.find [c2] B = Some y /\ length (body a1) + 1 <= y).
            { exists (length (body a1 ++ c :: lit_str l)). split; [|rewrite app_length; simpl; lia].
              unfold B. replace (body a1 ++ c :: lit_str l ++ body ((c2, l2) :: a2)) with
                ((body a1 ++ c :: lit_str l) ++ body ((c2, l2) :: a2)) by (rewrite <- app_assoc; reflexivity).
              rewrite (find_skip [c2] c2 []); [|reflexivity|].
              - rewrite body_cons. cbn [Py.find prefixb]. rewrite aeqb_refl. simpl. f_equal. lia.
              - intros Hx. apply in_app_or in Hx as [Hx|[Hx|Hx]].
                + revert Hx. apply body_no_letter; auto. intros Hx.
                  apply NoDup_remove_1 in Hdup. cbn [map fst] in Hdup. apply NoDup_remove_2 in Hdup.
                  apply Hdup, in_or_app. left; exact Hx.
                + subst. apply Hnc, in_or_app. right; left; reflexivity.
                + exact (lit_no_letter l c2 Hl HL2 Hx). }
            destruct Hf2 as (y & Hy & Hge).
            assert (In y (starts_in B)).
            { unfold starts_in. apply in_map_iff. eexists. split; [|apply (find_matches_in _ _ _ _ K2 Hy)]. reflexivity. }
            pose proof (N1 y H). lia. }
      rewrite Hnext.
      assert (Hsl : slice (length (body a1) + 1) (length (body a1) + 1 + length (lit_str l)) B = lit_str l).
      { unfold slice, B. replace (length (body a1) + 1 + length (lit_str l) - (length (body a1) + 1)) with (length (lit_str l)) by lia.
        rewrite skipn_app, skipn_all2 by lia. replace (length (body a1) + 1 - length (body a1)) with 1 by lia.
        cbn [skipn app]. rewrite firstn_app, Nat.sub_diag, firstn_all. simpl. apply app_nil_r. }
      rewrite Hsl. rewrite cast_unblank.
      replace (unblank (lit_str l)) with (lit_str l).
      + rewrite (literal_value l Hl). reflexivity.
      + symmetry. apply filter_id. intros x Hx. pose proof (proj1 (forallb_forall _ _) (lit_chars l Hl) x Hx) as Q.
        destruct (lit_char_facts x Q) as (_ & _ & N1 & N2 & _).
        destruct (aeqb_spec x " "%char); [contradiction|]. destruct (aeqb_spec x "010"%char); [contradiction|]. reflexivity.
    - rewrite (find_not_in [c] c []); [reflexivity|reflexivity|]. apply body_no_letter; auto.
      intros Hx. apply in_map_iff in Hx as (a & <- & Ha). pose proof (List.find_none _ _ E a Ha) as Q. cbv beta in Q.
      rewrite str_eqb_refl in Q. discriminate. }
  exact (f_equal Ok (G keys (incl_refl _))).
Qed.

Lemma body_not_float args : args_wf keys args -> py_float (body args) = None.
Proof.
  intros [_ Hw]. destruct args as [|[c l] args]; [reflexivity|].
  inversion Hw as [|? ? [Hk Hl] Hw']; subst. cbn [fst snd] in Hk, Hl. rewrite body_cons.
  destruct (key_letter _ Hk) as (c' & E & Hc). injection E as <-.
  pose proof (lit_chars l Hl) as Hlc.
  assert (Hlne : exists x r, lit_str l = x :: r /\ lit_char x = true).
  { destruct (lit_str l) as [|x r] eqn:E.
    - exfalso. destruct Hl as [_ Hne]. apply Hne. unfold lit_str in E. apply app_eq_nil in E as [_ E].
      apply app_eq_nil in E as [E1 E2]. apply map_eq_nil in E1. unfold frac_digits. rewrite E1.
      destruct (l_frac l); [discriminate|reflexivity].
    - exists x, r. split; [reflexivity|]. simpl in Hlc. apply andb_prop in Hlc. apply Hlc. }
  destruct Hlne as (x & r & Ex & Hx). rewrite Ex.
  (* no blanks inside *)
  assert (Hsp : forallb (fun c => negb (is_space c)) (c :: (x :: r) ++ body args) = true).
  { assert (Hlet : forall ch, arg_letter ch = true -> is_space ch = false).
    { intros ch Hch. unfold arg_letter in Hch. unfold is_space.
      assert (Hr : 65 <= nat_of_ascii ch <= 90).
      { do 3 (apply andb_prop in Hch as [Hch _]). apply andb_prop in Hch as [H1 H2]. apply Nat.leb_le in H1, H2. split; assumption. }
      rewrite (proj2 (Nat.leb_gt (nat_of_ascii ch) 13)), (proj2 (Nat.leb_gt (nat_of_ascii ch) 32)),
        (proj2 (Nat.eqb_neq (nat_of_ascii ch) 133)), (proj2 (Nat.eqb_neq (nat_of_ascii ch) 160)) by lia.
      rewrite !andb_false_r. reflexivity. }
    assert (Hlits : forall l', lit_wf l' -> forallb (fun c => negb (is_space c)) (lit_str l') = true).
    { intros l' Hl'. rewrite forallb_forall. intros y Hy.
      destruct (lit_char_facts y (proj1 (forallb_forall _ _) (lit_chars l' Hl') y Hy)) as [-> _]. reflexivity. }
    rewrite <- Ex. cbn [forallb]. rewrite (Hlet c Hc). simpl. rewrite forallb_app, (Hlits l Hl). simpl.
    clear -Hw' Hkeys Hlet Hlits. induction args as [|[c2 l2] args IH]; [reflexivity|].
    inversion Hw' as [|? ? [K2 L2] W2]; subst. cbn [fst snd] in K2, L2.
    destruct (key_letter _ K2) as (c2' & E2 & HL2). injection E2 as <-.
    rewrite body_cons. cbn [forallb]. rewrite (Hlet c2 HL2). simpl. rewrite forallb_app, (Hlits l2 L2). simpl. apply IH; exact W2. }
  unfold py_float. rewrite strip_id by exact Hsp.
  pose proof (letter_not_lit c Hc) as Hnl. unfold lit_char in Hnl.
  apply orb_false_elim in Hnl as [Hnl N4]. apply orb_false_elim in Hnl as [Hnl N3]. apply orb_false_elim in Hnl as [N1 N2].
  unfold sign_of. rewrite N2, N3. unfold unsigned. unfold is_digit in N1. cbn [digits app map].
  destruct (digit_val c); [discriminate|]. rewrite andb_false_r, N4.
  destruct (lit_char_facts x Hx) as (_ & Hlow & _ & _ & Hi & Hn & Ha & _). rewrite Hlow.
  unfold S_. simpl list_ascii_of_string. cbn [str_eqb].
  destruct (aeqb_spec x "n"%char); [contradiction|]. destruct (aeqb_spec x "a"%char); [contradiction|].
  rewrite !andb_false_l, !andb_false_r. reflexivity.
Qed.
End Leaf.

(** * C02: a well-formed line is read back exactly *)
Lemma unblank_in c w : In c w -> c <> " "%char -> c <> "010"%char -> In c (unblank w).
Proof.
  intros H H1 H2. unfold unblank. apply filter_In. split; [exact H|].
  destruct (aeqb_spec c " "%char); [contradiction|]. destruct (aeqb_spec c "010"%char); [contradiction|]. reflexivity.
Qed.

Lemma body_plain keys args : forallb letter_key keys = true -> args_wf keys args -> plain (body args).
Proof.
  intros Hk [_ Hw]. induction args as [|[c l] args IH]; [intros x []|].
  inversion Hw as [|? ? [H1 H2] H3]; subst. cbn [fst snd] in H1, H2.
  destruct (key_letter keys Hk _ H1) as (c' & E & Hc). injection E as <-.
  rewrite body_cons. intros x [<-|Hx].
  - repeat split; intros ->; discriminate Hc.
  - apply in_app_or in Hx as [Hx|Hx]; [|apply IH; assumption].
    pose proof (proj1 (forallb_forall _ _) (lit_chars l H2) x Hx) as Q.
    repeat split; intros ->; discriminate Q.
Qed.

Theorem line_read_back cmd keys args pre w :
  command_args cmd (Some keys) -> args_wf keys args -> plain pre -> unblank w = body args ->
  arg_extract (pre ++ cmd ++ w) known_commands = Ok [(cmd, ADict (args_meaning keys args))].
Proof.
  intros Ht Ha Hpre Hu. destruct (table_args _ _ Ht) as (Hcmd & Hlook & Hns & Hnd & Hlet).
  assert (Hw : plain w).
  { intros c Hc. pose proof (body_plain keys args Hlet Ha) as Hb.
    repeat split; intros ->; (destruct (Hb _ (eq_ind _ (fun b => In _ b) (unblank_in _ w Hc ltac:(discriminate) ltac:(discriminate)) _ Hu)) as (A & B & C); congruence). }
  assert (Hnd' : ~ starts_with_digit w).
  { intros (c & r & -> & Hc). 
    assert (Hn1 : c <> " "%char) by (intros ->; discriminate Hc). assert (Hn2 : c <> "010"%char) by (intros ->; discriminate Hc).
    unfold unblank in Hu. cbn [filter] in Hu.
    destruct (aeqb_spec c " "%char); [contradiction|]. destruct (aeqb_spec c "010"%char); [contradiction|]. simpl in Hu.
    destruct args as [|[c1 l1] args]; [discriminate|]. rewrite body_cons in Hu. injection Hu as <- _.
    destruct Ha as [_ Ha]. inversion Ha as [|? ? [K _] _]; subst. cbn [fst] in K.
    destruct (key_letter keys Hlet _ K) as (c' & E & HL). injection E as <-.
    apply letter_not_lit in HL. unfold lit_char in HL. rewrite Hc in HL. discriminate. }
  rewrite one_command; auto using prefix_no_digit.
  unfold line_value. rewrite Hlook. rewrite cast_unblank, Hu. rewrite (body_not_float keys Hlet args Ha).
  rewrite (leaf_body keys Hnd Hlet args Ha). reflexivity.
Qed.

(** * C04: the order of the arguments is irrelevant *)
Lemma lookup_perm k args args' : NoDup (map fst args) -> Permutation args args' -> lookup_arg k args = lookup_arg k args'.
Proof.
  intros Hn Hp. unfold lookup_arg. f_equal. revert Hn. induction Hp; intros Hn.
  - reflexivity.
  - cbn [List.find]. destruct (str_eqb [fst x] k); [reflexivity|]. apply IHHp. simpl in Hn. inversion Hn; assumption.
  - cbn [List.find]. destruct (str_eqb_spec [fst y] k) as [E1|]; [|reflexivity].
    destruct (str_eqb_spec [fst x] k) as [E2|]; [|reflexivity].
    exfalso. simpl in Hn. inversion Hn as [|? ? N1 N2]; subst. apply N1. left. congruence.
  - rewrite IHHp1 by exact Hn. apply IHHp2. apply (Permutation_NoDup (l := map fst l)); [apply Permutation_map; exact Hp1|exact Hn].
Qed.
Lemma meaning_perm keys args args' : NoDup (map fst args) -> Permutation args args' ->
  args_meaning keys args = args_meaning keys args'.
Proof.
  intros Hn Hp. unfold args_meaning. induction keys as [|k ks IH]; [reflexivity|].
  cbn [flat_map]. rewrite IH, (lookup_perm k args args' Hn Hp). reflexivity.
Qed.
