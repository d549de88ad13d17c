(** Reading what a slicer writes. *)
From Coq Require Import Lra Lia.
From Verif Require Import Py PyFloat Parser StateGen SpecMachine SpecRead Vec Segment Junction Planner Query Setup Interp RealFacts SpecKin SpecQuery
  SpecSetup SpecText SpecSlicer StrFacts ReadFacts ReadReals CommentProofs LineProofs PlannerProofs InterpProofs PropertiesRead.
Open Scope R_scope.
Local Arguments S_ : simpl never.

Definition table_entry (n : string) : option (option string) :=
  option_map snd (List.find (fun e => String.eqb (fst e) n) documented).
Lemma table_found n o : In (n, o) documented -> table_entry n = Some o.
Proof.
  unfold documented. intros H. repeat (destruct H as [H|H]; [injection H as <- <-; reflexivity|]). destruct H.
Qed.
Definition entry (n : string) (c : gcode) : Parser.arg :=
  match table_entry n with Some (Some ls) => ADict (args_meaning (letters ls) (args_of c)) | _ => ALeaf (LStr []) end.
Definition says (d : dict Parser.arg) (c : gcode) : Prop :=
  forall k, k <> S_ ";" -> dget k d =
    match keyword c with Some n => if str_eqb k (S_ n) then Some (entry n c) else None | None => None end.

Lemma written_says t c : spells t c -> exists d, arg_extract t known_commands = Ok d /\ says d c.
Proof.
  induction 1 as [pre k ls w c Hk Hd Ha Hp Hw|pre k w c Hk Hd Hs Hp Hw|t Ht|t c u H IH H1 H2].
  - exists [(S_ k, ADict (args_meaning (letters ls) (args_of c)))]. split; [exact (C02_read_back k ls _ pre w Hd Ha Hp Hw)|].
    intros q Hq. rewrite Hk. unfold entry. rewrite (table_found _ _ Hd). reflexivity.
  - exists [(S_ k, ALeaf (LStr []))]. split; [exact (C02_bare_commands k pre w Hd Hs Hp Hw)|].
    intros q Hq. rewrite Hk. unfold entry. rewrite (table_found _ _ Hd). reflexivity.
  - exists []. split; [|intros q Hq; reflexivity]. apply no_command_line. intros k Hk.
    change (In k (map (fun p => S_ (fst p)) documented)) in Hk. apply in_map_iff in Hk as ([n o] & E & Hi). cbn [fst] in E. subst k. exact (Ht n o Hi).
  - destruct IH as (d & E & Hd). exists (d ++ [(S_ ";", ALeaf (LStr u))]). split.
    + pose proof (C01_plain_comment_partial t u H1 H2) as Q. unfold parse in Q. rewrite Q, E. reflexivity.
    + intros q Hq. rewrite dget_app, (Hd q Hq). cbn [dget]. rewrite (str_eqb_false q (S_ ";") Hq).
      destruct (match keyword c with Some n => _ | None => _ end); reflexivity.
Qed.

Lemma args_meaning_dget keys args k : In k keys -> NoDup keys ->
  dget k (args_meaning keys args) = option_map (fun l => LNum (lit_val l)) (lookup_arg k args).
Proof.
  intros Hi Hn. destruct (lookup_arg k args) as [l|] eqn:E; [exact (args_meaning_get keys args k l Hi Hn E)|].
  cbn [option_map]. clear Hi Hn. unfold args_meaning. induction keys as [|q keys IH]; [reflexivity|]. cbn [flat_map]. rewrite dget_app.
  destruct (str_eqb_spec k q) as [<-|Hq]; [rewrite E; exact IH|].
  destruct (lookup_arg q args); cbn [dget]; [rewrite str_eqb_false by exact Hq|]; exact IH.
Qed.
Lemma letters_nodup n ls : In (n, Some ls) documented -> NoDup (letters ls).
Proof.
  assert (K : forall l : list str, (fix nodup l := match l with [] => true | x :: r => negb (existsb (str_eqb x) r) && nodup r end) l = true -> NoDup l).
  { induction l as [|x l IH]; intros H; [constructor|]. apply andb_prop in H as [A B]. constructor; [|apply IH; exact B].
    intros Hx. apply negb_true_iff in A. assert (E : existsb (str_eqb x) l = true); [|congruence].
    apply existsb_exists. exists x. split; [exact Hx|apply str_eqb_refl]. }
  intros H. apply K. unfold documented in H. repeat (destruct H as [H|H]; [injection H as E1 E2; subst; try discriminate E2; reflexivity|]). destruct H.
Qed.
(** The value of a word on a line that says [c]. *)
Lemma word_said l c n ls k : says (ld l) c -> In (n, Some ls) documented -> In k (letters ls) ->
  word (S_ n) k l = match keyword c with
                    | Some m => if str_eqb (S_ n) (S_ m) then option_map (fun x => LNum (lit_val x)) (lookup_arg k (args_of c)) else None
                    | None => None
                    end.
Proof.
  intros H Hd Hk. assert (Hn : S_ n <> S_ ";").
  { clear - Hd. unfold documented in Hd. repeat (destruct Hd as [Hd|Hd]; [injection Hd as <- E; try discriminate E; discriminate|]). destruct Hd. }
  unfold word. rewrite (H _ Hn). destruct (keyword c) as [m|]; [|reflexivity]. destruct (str_eqb_spec (S_ n) (S_ m)) as [E|E]; [|reflexivity].
  assert (n = m). { rewrite <- (string_of_list_ascii_of_string n), <- (string_of_list_ascii_of_string m). f_equal. exact E. }
  subst m. unfold entry. rewrite (table_found _ _ Hd). apply args_meaning_dget; [exact Hk|exact (letters_nodup _ _ Hd)].
Qed.
Lemma flag_said l c n : says (ld l) c -> S_ n <> S_ ";" ->
  flagb (S_ n) l = match keyword c with Some m => str_eqb (S_ n) (S_ m) | None => false end.
Proof. intros H Hn. unfold flagb. rewrite (H _ Hn). destruct (keyword c) as [m|]; [|reflexivity]. destruct (str_eqb (S_ n) (S_ m)); reflexivity. Qed.

(** * Reading succeeds *)
Definition numeric (s : dict leaf) : Prop := Forall (fun kv => exists m e, snd kv = LNum (Dec m e)) s.
Lemma numeric_get s k l : numeric s -> dget k s = Some l -> exists m e, l = LNum (Dec m e).
Proof.
  unfold numeric. induction 1 as [|[q v] s (m & e & E) _ IH]; [discriminate|]. cbn [dget]. destruct (str_eqb k q); [|exact IH].
  intros Q. injection Q as <-. exists m, e. exact E.
Qed.
Lemma args_numeric keys args : numeric (args_meaning keys args).
Proof.
  unfold args_meaning, numeric. induction keys as [|k keys IH]; [constructor|]. cbn [flat_map]. apply Forall_app. split; [|exact IH].
  destruct (lookup_arg k args) as [l|]; [|constructor]. constructor; [|constructor]. cbn [snd]. unfold lit_val. eauto.
Qed.
Section Steps.
Variable N : numops.
Lemma need_num_ok s k l : numeric s -> dget k s = Some l -> exists x, need_num N l = Ok x.
Proof. intros H E. destruct (numeric_get _ _ _ H E) as (m & e & ->). eexists. reflexivity. Qed.
Lemma do_axis_ok ab a s m : numeric s -> exists m', do_axis N ab a s m = Ok m'.
Proof.
  intros H. unfold do_axis. destruct (dget (axis_key a) s) as [l|] eqn:E; [|eexists; reflexivity].
  destruct (need_num_ok _ _ _ H E) as (x & ->). cbn [bind]. eexists. reflexivity.
Qed.
Lemma do_g92_ok s : numeric s -> forall m, exists m', do_g92 N s m = Ok m'.
Proof.
  induction 1 as [|[k v] s (a & e & E) _ IH]; intros m; [eexists; reflexivity|]. cbn [do_g92]. cbn [snd] in E. subst v.
  destruct (axis_of_key k); [|apply IH]. cbn [need_num bind]. apply IH.
Qed.
Lemma do_m203_ok s : numeric s -> forall m, exists m', do_m203 N s m = Ok m'.
Proof.
  induction 1 as [|[k v] s (a & e & E) _ IH]; intros m; [eexists; reflexivity|]. cbn [do_m203]. cbn [snd] in E. subst v.
  destruct (axis_of_key k); [|apply IH]. cbn [as_sval bind]. apply IH.
Qed.
Variable d : dict Parser.arg.
Hypothesis Hd : forall cmd s, dget cmd d = Some (ADict s) -> cmd <> S_ ";" -> numeric s.
Lemma sub_numeric cmd s : cmd <> S_ ";" -> sub_dict cmd d = Some s -> numeric s.
Proof. intros Hc. unfold sub_dict. destruct (dget cmd d) as [[x|x]|] eqn:E; try discriminate. intros Q. injection Q as <-. exact (Hd _ _ E Hc). Qed.
Lemma do_move_ok cmd m : cmd <> S_ ";" -> exists m', do_move N cmd d m = Ok m'.
Proof.
  intros Hc. unfold do_move. destruct (sub_dict cmd d) as [s|] eqn:E; [|eexists; reflexivity]. pose proof (sub_numeric _ _ Hc E) as H.
  destruct (do_axis_ok (absolute_position N m) AX s m H) as (m1 & ->). cbn [bind].
  destruct (do_axis_ok (absolute_position N m1) AY s m1 H) as (m2 & ->). cbn [bind].
  destruct (do_axis_ok (absolute_position N m2) AZ s m2 H) as (m3 & ->). cbn [bind].
  destruct (do_axis_ok (absolute_extrusion N m3) AE s m3 H) as (m4 & ->). cbn [bind].
  destruct (dget (S_ "F") s) as [l|] eqn:Ef; [|eexists; reflexivity].
  destruct (need_num_ok _ _ _ H Ef) as (x & ->). cbn [bind]. eexists. reflexivity.
Qed.
Lemma do_sub_ok cmd f m : cmd <> S_ ";" -> (forall s m, numeric s -> exists m', f s m = Ok m') -> exists m', do_sub N cmd d f m = Ok m'.
Proof.
  intros Hc Hf. unfold do_sub. destruct (sub_dict cmd d) as [s|] eqn:E; [|eexists; reflexivity]. exact (Hf s m (sub_numeric _ _ Hc E)).
Qed.
Lemma do_dwell_ok : exists p, do_dwell N d = Ok p.
Proof.
  unfold do_dwell. destruct (sub_dict (S_ "G4") d) as [s|] eqn:E; [|eexists; reflexivity]. assert (H : numeric s) by (eapply sub_numeric; [|exact E]; discriminate).
  assert (Hp : exists p, match dget (S_ "P") s with None => Ok None | Some l => x <- need_num N l ;; Ok (Some (SNum (N := N) (n_div N x 1000))) end = Ok p).
  { destruct (dget (S_ "P") s) as [l|] eqn:Ep; [|eexists; reflexivity]. destruct (need_num_ok _ _ _ H Ep) as (x & ->). eexists. reflexivity. }
  destruct Hp as (p & ->). cbn [bind]. destruct (dget (S_ "S") s) as [l|] eqn:Es; [|eexists; reflexivity].
  destruct (numeric_get _ _ _ H Es) as (a & e & ->). eexists. reflexivity.
Qed.
Lemma step_ok m : exists m' p, step_vm N d m = Ok (m', p).
Proof.
  unfold step_vm. destruct (do_move_ok (S_ "G0") (do_modes N d m)) as (m1 & ->); [discriminate|]. cbn [bind].
  destruct (do_move_ok (S_ "G1") m1) as (m2 & ->); [discriminate|]. cbn [bind].
  destruct (do_sub_ok (S_ "G92") (do_g92 N) m2) as (m3 & ->); [discriminate|intros s m0 H; exact (do_g92_ok s H m0)|]. cbn [bind].
  destruct (do_sub_ok (S_ "M204") (do_m204 N) m3) as (m4 & ->); [discriminate| |].
  { intros s m0 H. unfold do_m204. destruct (dget (S_ "P") s) as [l|] eqn:E; [|eexists; reflexivity].
    destruct (numeric_get _ _ _ H E) as (a & e & ->). eexists. reflexivity. }
  cbn [bind]. destruct (do_sub_ok (S_ "M203") (do_m203 N) m4) as (m5 & ->); [discriminate|intros s m0 H; exact (do_m203_ok s H m0)|]. cbn [bind].
  destruct (do_sub_ok (S_ "M205") (do_m205 N) m5) as (m6 & ->); [discriminate| |].
  { intros s m0 H. unfold do_m205. destruct (dget (S_ "X") s) as [l|] eqn:E; [|eexists; reflexivity].
    destruct (numeric_get _ _ _ H E) as (a & e & ->). eexists. reflexivity. }
  cbn [bind]. destruct do_dwell_ok as (p & ->). cbn [bind]. eauto.
Qed.
End Steps.
Lemma said_numeric d c : says d c -> forall cmd s, dget cmd d = Some (ADict s) -> cmd <> S_ ";" -> numeric s.
Proof.
  intros H cmd s E Hc. rewrite (H _ Hc) in E. destruct (keyword c) as [n|]; [|discriminate]. destruct (str_eqb cmd (S_ n)); [|discriminate].
  injection E as E. unfold entry in E. destruct (table_entry n) as [[ls|]|]; [|discriminate|discriminate]. injection E as <-. apply args_numeric.
Qed.

(** * The head and the abstract machine *)
Definition head_is (h : head) (g : gmachine) : Prop :=
  (forall a, g_pos g a = h_pos h a /\ g_off g a = h_zero h a /\ g_abs g a = h_abs h a) /\
  g_feed g = SNum (N := Rops) (h_feed h) /\ g_acc g = SNum (N := Rops) (h_acc h) /\ g_jerk g = SNum (N := Rops) (h_jerk h).

Ltac key_in := repeat (first [left; reflexivity | right]).
Ltac eqs :=
  repeat match goal with
  | |- context [str_eqb (S_ ?x) (S_ ?y)] => let b := eval vm_compute in (str_eqb (S_ x) (S_ y)) in change (str_eqb (S_ x) (S_ y)) with b; cbn iota
  | H : context [str_eqb (S_ ?x) (S_ ?y)] |- _ => let b := eval vm_compute in (str_eqb (S_ x) (S_ y)) in change (str_eqb (S_ x) (S_ y)) with b in H; cbn iota in H
  end.
Lemma name_letter a : name a = S_ (letter a).
Proof. destruct a; reflexivity. Qed.
Lemma lit_means x v : means (N := Rops) (LNum (lit_val x)) v -> v = lit_num x.
Proof. exact (lit_num_val x v). Qed.
Lemma means_lit x : means (N := Rops) (LNum (lit_val x)) (lit_num x).
Proof.
  assert (exists v : R, means (N := Rops) (LNum (lit_val x)) v) as (v & Hv) by (eexists; unfold lit_val; do 2 eexists; split; reflexivity).
  rewrite <- (lit_means _ _ Hv). exact Hv.
Qed.
Lemma stored_lit x v : stored (N := Rops) (LNum (lit_val x)) v <-> v = SNum (N := Rops) (lit_num x).
Proof.
  split.
  - intros [(m & e & E & ->)|(s & E & _)]; [|discriminate]. f_equal. apply lit_means. do 2 eexists. split; [exact E|reflexivity].
  - intros ->. destruct (means_lit x) as (m & e & E & F). left. exists m, e. split; [exact E|]. f_equal. exact F.
Qed.
Lemma feed_lit x v : seconds_feed (LNum (lit_val x)) v <-> v = SNum (N := Rops) (lit_num x / 60).
Proof.
  split.
  - intros (y & Hy & ->). rewrite (lit_means _ _ Hy). reflexivity.
  - intros ->. exists (lit_num x). split; [apply means_lit|reflexivity].
Qed.

Section Line.
Variables (l : line_dict) (c : gcode).
Hypothesis Hs : says (ld l) c.
Hypothesis Hok : sensible c.
Definition told (n : string) (k : str) : option leaf :=
  match keyword c with
  | Some m => if str_eqb (S_ n) (S_ m) then option_map (fun x => LNum (lit_val x)) (lookup_arg k (args_of c)) else None
  | None => None
  end.
Lemma axis_word n ls a : In (n, Some ls) documented -> (forall b, In (name b) (letters ls)) -> word (S_ n) (name a) l = told n (S_ (letter a)).
Proof. intros Hd Hl. rewrite <- name_letter. exact (word_said l c n ls (name a) Hs Hd (Hl a)). Qed.
Lemma g0_word a : word (S_ "G0") (name a) l = told "G0" (S_ (letter a)).
Proof. apply (axis_word _ "EXYZF"%string); [key_in|intros []; key_in]. Qed.
Lemma g1_word a : word (S_ "G1") (name a) l = told "G1" (S_ (letter a)).
Proof. apply (axis_word _ "EXYZF"%string); [key_in|intros []; key_in]. Qed.
Lemma g92_word a : word (S_ "G92") (name a) l = told "G92" (S_ (letter a)).
Proof. apply (axis_word _ "EXYZ"%string); [key_in|intros []; key_in]. Qed.
Lemma f0_word : word (S_ "G0") (S_ "F") l = told "G0" (S_ "F").
Proof. apply (word_said l c _ "EXYZF"%string); [exact Hs|key_in|key_in]. Qed.
Lemma f1_word : word (S_ "G1") (S_ "F") l = told "G1" (S_ "F").
Proof. apply (word_said l c _ "EXYZF"%string); [exact Hs|key_in|key_in]. Qed.
Lemma acc_word : word (S_ "M204") (S_ "P") l = told "M204" (S_ "P").
Proof. apply (word_said l c _ "PRST"%string); [exact Hs|key_in|key_in]. Qed.
Lemma jerk_word : word (S_ "M205") (S_ "X") l = told "M205" (S_ "X").
Proof. apply (word_said l c _ "EJSXYZ"%string); [exact Hs|key_in|key_in]. Qed.
Lemma s_word : word (S_ "G4") (S_ "S") l = told "G4" (S_ "S").
Proof. apply (word_said l c _ "PS"%string); [exact Hs|key_in|key_in]. Qed.
Lemma p_word : word (S_ "G4") (S_ "P") l = told "G4" (S_ "P").
Proof. apply (word_said l c _ "PS"%string); [exact Hs|key_in|key_in]. Qed.

Ltac skipped := match goal with H : In ?n _ |- _ => let Q := fresh "Q" in pose proof H as Q; cbn [In] in Q;
  destruct Q as [Q|[Q|[Q|[Q|[Q|[Q|[]]]]]]]; subst n end.
Ltac kinds := destruct c as [[|] r|r|[|]|[|]| |r|r|r|r|n r|]; cbn [keyword args_of sensible rest_of obey] in *; [..|skipped|]; cbn [keyword args_of] in *; eqs.

Lemma no_jump : g92_zero l.
Proof.
  intros a lf. rewrite g92_word. unfold told. clear Hs. kinds; try (intros Q; discriminate Q).
  intros Q. rename Hok into H. destruct (lookup_arg (S_ (letter a)) r) as [x|] eqn:E; [|discriminate Q]. injection Q as <-.
  specialize (H (letter a) (lit_num x)). unfold arg in H. rewrite E in H. specialize (H eq_refl).
  unfold lit_val. exists (- Z.of_nat (length (frac_digits x)))%Z. f_equal. f_equal.
  unfold lit_num in H. apply Rmult_integral in H as [H|H].
  2: { exfalso. revert H. apply Rinv_neq_0_compat. apply pow_nonzero. lra. }
  apply Rmult_integral in H as [H|H]; [destruct (l_sign x) as [[|]|]; lra|]. apply eq_IZR in H. rewrite H. ring.
Qed.
Lemma waits : pause_of l (rest_of c).
Proof.
  unfold pause_of, dwell_means. rewrite s_word, p_word. unfold told. clear Hs. kinds; try reflexivity.
  unfold arg. destruct (lookup_arg (S_ "S") r) as [x|]; cbn [option_map].
  - eexists. split; [apply stored_lit; reflexivity|reflexivity].
  - destruct (lookup_arg (S_ "P") r) as [x|]; cbn [option_map]; [|reflexivity].
    exists (lit_num x). split; [apply means_lit|reflexivity].
Qed.
Lemma head_line g g' h : g_line l g g' -> head_is h g -> head_is (obey c h) g'.
Proof.
  intros (Habs & _ & (p1 & Hp0 & Hp1) & Hoff & Hf & Hacc & Hj & _) (Hh & Ff & Fa & Fj).
  unfold move_word in Hf. rewrite f0_word, f1_word in Hf. rewrite acc_word in Hacc. rewrite jerk_word in Hj.
  assert (Hm0 : forall a, match told "G0" (S_ (letter a)) with None => p1 a = g_pos g a
    | Some lf => exists v : R, means (N := Rops) lf v /\ p1 a = if g_abs g' a then v + g_off g a else g_pos g a + v end).
  { intros a. specialize (Hp0 a). rewrite g0_word in Hp0. exact Hp0. }
  assert (Hm1 : forall a, match told "G1" (S_ (letter a)) with None => g_pos g' a = p1 a
    | Some lf => exists v : R, means (N := Rops) lf v /\ g_pos g' a = if g_abs g' a then v + g_off g a else p1 a + v end).
  { intros a. specialize (Hp1 a). rewrite g1_word in Hp1. exact Hp1. }
  assert (Ho : forall a, match told "G92" (S_ (letter a)) with None => g_off g' a = g_off g a
    | Some lf => exists v : R, means (N := Rops) lf v /\ g_off g' a = g_pos g' a - v end).
  { intros a. specialize (Hoff a). rewrite g92_word in Hoff. exact Hoff. }
  assert (Hfl : forall n, S_ n <> S_ ";" -> flagb (S_ n) l = match keyword c with Some m => str_eqb (S_ n) (S_ m) | None => false end).
  { intros n Hn. exact (flag_said l c n Hs Hn). }
  rewrite !(Hfl "G90"%string), !(Hfl "G91"%string), !(Hfl "M82"%string), !(Hfl "M83"%string) in Habs by discriminate.
  clear Hp0 Hp1 Hoff Hfl. unfold told, modal in *. clear Hs.
  kinds; unfold head_is; cbn [h_pos h_zero h_abs h_feed h_acc h_jerk].
  all: try (split; [|repeat split; congruence]; intros a; specialize (Hm0 a); specialize (Hm1 a); specialize (Ho a); specialize (Habs a);
            specialize (Hh a) as (A1 & A2 & A3); repeat split; [congruence|congruence|destruct a; congruence]).
  1,2: split; [|split; [|split; congruence]];
    [intros a; specialize (Hm0 a); specialize (Hm1 a); specialize (Ho a); specialize (Habs a); specialize (Hh a) as (A1 & A2 & A3);
     assert (Eab : g_abs g' a = g_abs g a) by (destruct a; exact Habs);
     split; [|split; [congruence|congruence]]; unfold arg
    |unfold arg; destruct (lookup_arg (S_ "F") r) as [x|]; cbn [option_map] in *; [apply feed_lit in Hf; exact Hf|congruence]].
  - destruct (lookup_arg (S_ (letter a)) r) as [x|]; cbn [option_map] in *; [|congruence].
    destruct Hm0 as (v & Hv & Ep). rewrite (lit_means _ _ Hv) in Ep. rewrite Hm1, Ep, Eab, A1, A2, A3. destruct (h_abs h a); ring.
  - destruct (lookup_arg (S_ (letter a)) r) as [x|]; cbn [option_map] in *; [|congruence].
    destruct Hm1 as (v & Hv & Ep). rewrite (lit_means _ _ Hv) in Ep. rewrite Ep, Hm0, Eab, A1, A2, A3. destruct (h_abs h a); ring.
  - split; [|repeat split; congruence]. intros a. specialize (Hm0 a). specialize (Hm1 a). specialize (Ho a). specialize (Habs a).
    specialize (Hh a) as (A1 & A2 & A3). split; [congruence|]. split; [|destruct a; congruence]. unfold arg.
    destruct (lookup_arg (S_ (letter a)) r) as [x|]; cbn [option_map] in *; [|congruence].
    destruct Ho as (v & Hv & Ep). rewrite (lit_means _ _ Hv) in Ep. congruence.
  - split; [|split; [congruence|split; [|congruence]]].
    + intros a. specialize (Hm0 a). specialize (Hm1 a). specialize (Ho a). specialize (Habs a).
      specialize (Hh a) as (A1 & A2 & A3). split; [congruence|]. split; [congruence|destruct a; congruence].
    + unfold arg, otherwise. destruct (lookup_arg (S_ "P") r) as [x|]; cbn [option_map] in *; [apply stored_lit in Hacc; exact Hacc|congruence].
  - split; [|split; [congruence|split; [congruence|]]].
    + intros a. specialize (Hm0 a). specialize (Hm1 a). specialize (Ho a). specialize (Habs a).
      specialize (Hh a) as (A1 & A2 & A3). split; [congruence|]. split; [congruence|destruct a; congruence].
    + unfold arg, otherwise. destruct (lookup_arg (S_ "X") r) as [x|]; cbn [option_map] in *; [apply stored_lit in Hj; exact Hj|congruence].
Qed.
Definition ready (h : head) : Prop := 0 < h_feed h /\ 0 < h_acc h /\ 0 <= h_jerk h.
Lemma ready_obey h : ready h -> ready (obey c h).
Proof.
  intros (A & B & C). unfold ready. clear Hs. revert Hok.
  destruct c as [[|] r|r|[|]|[|]| |r|r|r|r|n r|]; cbn [sensible obey h_feed h_acc h_jerk]; intros H; auto.
  - split; [|auto]. destruct (arg "F" r) as [f|]; [specialize (H f eq_refl); lra|exact A].
  - split; [|auto]. destruct (arg "F" r) as [f|]; [specialize (H f eq_refl); lra|exact A].
  - split; [auto|]. split; [|auto]. unfold otherwise. destruct (arg "P" r) as [f|]; [exact (H f eq_refl)|exact B].
  - split; [auto|]. split; [auto|]. unfold otherwise. destruct (arg "X" r) as [f|]; [exact (H f eq_refl)|exact C].
Qed.
Lemma rest_ok x : rest_of c = Some x -> 0 <= x.
Proof.
  clear Hs. revert Hok. destruct c as [b r|r|b|b| |r|r|r|r|n r|]; cbn [sensible rest_of]; intros H; try discriminate.
  destruct (arg "S" r) as [y|] eqn:E; [intros Q; injection Q as <-; exact (H _ _ E)|].
  destruct (arg "P" r) as [y|] eqn:E2; [|discriminate]. cbn [option_map]. intros Q. injection Q as <-. specialize (H _ _ E2). lra.
Qed.
Lemma rest_still h x : rest_of c = Some x -> obey c h = h.
Proof. clear. destruct c; try discriminate; reflexivity. Qed.
End Line.

(** * Whole programs *)
Lemma program_lines lines cs : Forall2 spells lines cs -> forall i, exists ls, read_lines i lines = Ok ls /\ Forall2 (fun l c => says (ld l) c) ls cs.
Proof.
  induction 1 as [|t c lines cs H _ IH]; intros i; [exists []; split; [reflexivity|constructor]|].
  destruct (written_says t c H) as (d & E & Hd). destruct (IH (S i)) as (ls & El & Hl). cbn [read_lines]. rewrite E. cbn [bind]. rewrite El.
  eexists. split; [reflexivity|]. constructor; [exact Hd|exact Hl].
Qed.
Lemma spot_differs h h' a : h_pos h a <> h_pos h' a -> spot h <> spot h'.
Proof. intros H E. apply H. unfold spot in E. injection E as E1 E2 E3 E4. destruct a; assumption. Qed.
Lemma same_spot h h' : spot h = spot h' -> forall a, h_pos h a = h_pos h' a.
Proof. intros E a. unfold spot in E. injection E as E1 E2 E3 E4. destruct a; assumption. Qed.
Lemma program_run cue cs : Forall sensible cs -> forall ls m h n, Forall2 (fun l c => says (ld l) c) ls cs -> Forall proper_line ls ->
  head_is h (g_of m) ->
  Forall g92_zero ls /\ exists sts gs, travel Rops cue ls m n = Ok sts /\ g_run (g_of m) ls gs /\ command_list ls gs (requests h cs).
Proof.
  induction 1 as [|c cs Hc _ IH]; intros ls m h n Hs Hp Hh; inversion Hs as [|l ? ls' ? S1 S2]; subst.
  - split; [constructor|]. exists [], []. repeat split; constructor.
  - inversion Hp as [|? ? P1 P2]; subst. pose proof (no_jump l c S1 Hc) as Hz.
    destruct (step_ok Rops (ld l) (said_numeric _ _ S1) m) as (m' & p & E).
    pose proof (g_of_line l m m' p P1 Hz E) as Hg. pose proof (head_line l c S1 Hc _ _ _ Hg Hh) as Hh'.
    destruct (IH ls' m' (obey c h) (next_layer cue (line_comment (ld l)) n) S2 P2 Hh') as (Hzs & sts & gs & Et & Hr & Hl).
    split; [constructor; assumption|]. exists (line_state Rops cue l m' p (next_layer cue (line_comment (ld l)) n) :: sts), (g_of m' :: gs).
    cbn [travel]. rewrite E. cbn [bind]. rewrite Et. cbn [bind]. split; [reflexivity|]. split; [constructor; assumption|].
    cbn [requests]. constructor; [exact (waits l c S1 Hc)| |exact Hl]. cbn [k_pause request].
    destruct Hh' as (A & B & C & D). unfold commands. cbn [k_pos request spot vx vy vz ve k_speed k_acc k_jerk k_pause].
    repeat split; try assumption; symmetry; apply A.
Qed.
Lemma requests_valid cs : Forall sensible cs -> forall h, ready h -> Forall valid_state (requests h cs).
Proof.
  induction 1 as [|c cs Hc _ IH]; intros h Hh; [constructor|]. cbn [requests]. pose proof (ready_obey c Hc h Hh) as Hh'.
  constructor; [|exact (IH _ Hh')]. destruct Hh' as (A & B & C). unfold valid_state. cbn. split; [assumption|split; [assumption|split; [assumption|]]].
  intros p. exact (rest_ok c Hc p).
Qed.
Lemma requests_still cs : forall h w, no_moving_pause (request h w) (requests h cs).
Proof.
  induction cs as [|c cs IH]; intros h w; [exact I|]. cbn [requests no_moving_pause]. split; [|apply IH]. cbn [k_pause request k_pos].
  destruct (rest_of c) as [x|] eqn:E; [|left; reflexivity]. right. rewrite (rest_still c h x E). reflexivity.
Qed.
Lemma requests_first before : forall h w c after, Forall (fun d => rest_of d = None) before ->
  (exists a, h_pos (obey c (obeyed before h)) a <> h_pos (obeyed before h) a) -> rest_of c = None ->
  moves_first (request h w) (requests h (before ++ c :: after)).
Proof.
  induction before as [|d before IH]; intros h w c after Hb (a & Ha) Hc.
  - cbn [app requests moves_first]. split; [exact Hc|]. left. cbn [k_pos request]. exact (spot_differs _ _ a Ha).
  - inversion Hb as [|? ? B1 B2]; subst. cbn [app requests moves_first]. split; [exact B1|]. right.
    apply IH; [exact B2| |exact Hc]. exists a. exact Ha.
Qed.
Lemma requests_move before : forall h c after a, h_pos (obey c (obeyed before h)) a <> h_pos (obeyed before h) a ->
  exists k, In k (requests h (before ++ c :: after)) /\ k_pos k <> spot h.
Proof.
  induction before as [|d before IH]; intros h c after a Ha.
  - eexists. split; [left; reflexivity|]. cbn [k_pos request]. exact (spot_differs _ _ a Ha).
  - destruct (IH (obey d h) c after a Ha) as (k & Hk & Hn). cbn [app requests].
    destruct (vec4_eq_dec (spot (obey d h)) (spot h)) as [E|E].
    + exists k. split; [right; exact Hk|]. rewrite <- E. exact Hn.
    + eexists. split; [left; reflexivity|exact E].
Qed.
Lemma moving_valid h cs : ready h -> Forall sensible cs -> starts_moving h cs ->
  valid_program (request h None) (requests h cs) /\ (exists k, In k (requests h cs) /\ k_pos k <> k_pos (request h None)) /\
  no_moving_pause (request h None) (requests h cs).
Proof.
  intros Hh Hs (before & c & after & a & -> & Hb & Ha).
  assert (Hc : rest_of c = None).
  { destruct (rest_of c) as [x|] eqn:E; [|reflexivity]. exfalso. apply Ha. rewrite (rest_still c _ x E). reflexivity. }
  split; [|split].
  - split; [|split; [reflexivity|]].
    + constructor; [|apply requests_valid; assumption]. destruct Hh as (A & B & C). unfold valid_state. cbn. split; [assumption|split; [assumption|split; [assumption|intros p Q; discriminate Q]]].
    + apply requests_first; [exact Hb|exists a; exact Ha|exact Hc].
  - exact (requests_move _ _ _ _ _ Ha).
  - apply requests_still.
Qed.
Lemma requests_stops cs : forall h, map stop_of (requests h cs) = stops h cs.
Proof.
  induction cs as [|c cs IH]; intros h; [reflexivity|]. cbn [requests map stops]. rewrite IH. reflexivity.
Qed.
