(** C116: with which exceptions a simulation can fail, whatever the numbers
    are: exact, rounded or doubles, overflown ones included (the operations
    themselves are taken not to raise: no OverflowError, no ZeroDivisionError).  Vocabulary:
    SpecOutcome.v. *)
From Coq Require Import Reals ZArith SpecFloat List Lia.
From Verif Require Import Py Vec Segment StateGen Junction Planner Interp Texts Generic SpecGeneric SpecOutcome PropertiesFloat PropertiesFail
  PyFloat Parser StrFacts DedupeProofs SpecRead ParserProofs LineProofs ReadFacts ReadText.
Import ListNotations.

Section Any.
Variable k : kops.
Lemma check_raises s e : gself_check k s = Err e -> e = ValueError.
Proof. unfold gself_check. destruct (k_ltb k _ _); [congruence|]. destruct (k_ltb k _ _); congruence. Qed.
Lemma segment_raises t0 t1 p0 p1 v0 v1 e : gmk_segment k t0 t1 p0 p1 v0 v1 = Err e -> e = ValueError.
Proof. unfold gmk_segment. destruct (gself_check k _) as [u|e'] eqn:E; cbn [bind]; [discriminate|]. intros [= <-]. exact (check_raises _ _ E). Qed.
Ltac seg := match goal with |- bind ?x _ = Err _ -> _ => let E := fresh in destruct x eqn:E; cbn [bind]; [|intros [= <-]; exact (segment_raises _ _ _ _ _ _ _ E)] end.
Lemma trapezoid_raises d pv a l b t v x e : gtrapezoid k d pv a l b t v x = Err e -> e = ValueError.
Proof. unfold gtrapezoid. cbv zeta. seg. seg. seg. discriminate. Qed.
Lemma triang_raises d pv a b t v e : gtriang k d pv a b t v = Err e -> e = ValueError.
Proof. unfold gtriang. cbv zeta. seg. seg. discriminate. Qed.
Lemma up_raises d pv a b v e : gsingl_up k d pv a b v = Err e -> e = ValueError.
Proof. unfold gsingl_up. cbv zeta. seg. discriminate. Qed.
Lemma dwn_raises d pv a b v e : gsingl_dwn k d pv a b v = Err e -> e = ValueError.
Proof. unfold gsingl_dwn. cbv zeta. seg. discriminate. Qed.
Lemma try_raises {A} (x : res A) e : (forall e', x = Err e' -> e' = ValueError \/ e' = NameError) -> try_runtime x = Err e -> e = RuntimeError \/ e = NameError.
Proof. intros H. unfold try_runtime. destruct x as [y|e']; [discriminate|]. destruct (H e' eq_refl) as [-> | ->]; intros [= <-]; auto. Qed.
Lemma maker_raises A B d pv v e : gmove_maker2 k A B d pv v = Err e -> k_leb k (gk_acc k B) (k0 k) = false -> e = RuntimeError \/ e = NameError.
Proof.
  unfold gmove_maker2. destruct (gmove_distance k A B) as [l x]. cbv zeta. intros H L. rewrite L in H. revert H. apply try_raises. intros e'.
  destruct (_ && _)%bool; [intros H; left; exact (trapezoid_raises _ _ _ _ _ _ _ _ _ H)|]. destruct (_ && _)%bool; [intros H; left; exact (triang_raises _ _ _ _ _ _ _ H)|].
  destruct (_ && _)%bool; [intros H; left; exact (up_raises _ _ _ _ _ _ H)|]. destruct (k_ltb k _ _); [intros H; left; exact (dwn_raises _ _ _ _ _ _ H)|]. intros [= <-]. auto.
Qed.
Lemma last_raises l e : glast_seg k l = Err e -> e = IndexError.
Proof. unfold glast_seg. destruct (rev l); congruence. Qed.
Lemma first_raises l e : gfirst_seg k l = Err e -> e = IndexError.
Proof. unfold gfirst_seg. destruct l; congruence. Qed.

Section States.
Variable all : list (gkstate k).
Hypothesis accelerates : ~ no_acceleration k all.
Notation fine e := (may_raise k all e).
(** Every block has a direction and comes from a state of the list, unless the program waits. *)
Definition planned (b : gblock k) : Prop := (gb_dir k b <> None \/ pauses k all) /\ In (gb_B k b) all.
Lemma acc_of s : In s all -> k_leb k (gk_acc k s) (k0 k) = false.
Proof. intros I. destruct (k_leb k (gk_acc k s) (k0 k)) eqn:E; [|reflexivity]. exfalso. apply accelerates. exists s. auto. Qed.
Lemma maker_fine A B d pv v e : In B all -> gmove_maker2 k A B d pv v = Err e -> fine e.
Proof. intros I H. destruct (maker_raises _ _ _ _ _ _ H (acc_of B I)) as [-> | ->]; exact Logic.I. Qed.
Lemma previous_fine A prev e : gprevious_segment k A prev = Err e -> fine e.
Proof. unfold gprevious_segment. destruct prev; [|discriminate]. intros H. rewrite (last_raises _ _ H). exact I. Qed.
Lemma block_fine fw A B rest prev : In B all -> (A = None -> prev = None) ->
  match gplanner_block k fw A B rest prev with Err e => fine e | Ok ob => forall b, ob = Some b -> planned b end.
Proof.
  intros IB An. unfold gplanner_block. rewrite (acc_of B IB). cbv zeta. set (j := gmk_junction k A B rest).
  match goal with |- context [bind ?x _] => set (X := x) end.
  assert (HX : match X with Err e => fine e | Ok ob => forall b, ob = Some b -> gb_dir k b <> None /\ gb_B k b = B end).
  { unfold X. destruct A as [a|]; [|discriminate]. destruct (gget_norm_dir k (gtarget_vel k j)) as [d|]; [|discriminate]. destruct (gnot_zero k (gtarget_vel k j)); [|discriminate].
    destruct (gprevious_segment k a prev) as [pv|e] eqn:E; cbn [bind]; [|exact (previous_fine _ _ _ E)].
    destruct (gmove_maker2 k a B d pv _) as [[segs ty]|e] eqn:M; cbn [bind]; [|exact (maker_fine _ _ _ _ _ _ IB M)]. intros b [= <-]. cbn. split; [discriminate|reflexivity]. }
  destruct X as [ob|e]; cbn [bind]; [|exact HX]. destruct (gk_pause k B) as [p|] eqn:P.
  - assert (W : pauses k all) by (exists B; split; [exact IB|congruence]). destruct prev as [pb|]; [|exact I].
    destruct (glast_seg k (gb_segs k pb)) as [pv|e] eqn:E; cbn [bind]; [|rewrite (last_raises _ _ E); exact I].
    destruct (gmk_segment k _ _ _ _ _ _) as [s|e] eqn:S; cbn [bind]; [|rewrite (segment_raises _ _ _ _ _ _ _ S); exact W].
    destruct ob as [b|].
    + intros b' [= <-]. destruct (HX b eq_refl) as [_ HB]. split; [right; exact W|]. cbn [gb_B]. rewrite HB. exact IB.
    + destruct A as [a|]; [|discriminate (An eq_refl)]. intros b' [= <-]. split; [right; exact W|exact IB].
  - intros b ->. destruct (HX b eq_refl) as [D HB]. split; [left; exact D|]. rewrite HB. exact IB.
Qed.
Lemma blocks_fine fw : forall states A done, incl states all -> (A = None -> done = []) -> Forall planned done ->
  match ggen_blocks k fw A states done with Err e => fine e | Ok bl => Forall planned bl end.
Proof.
  induction states as [|s rest IH]; intros A done Is An D; cbn [ggen_blocks]; [apply Forall_rev; exact D|].
  pose proof (block_fine fw A s rest (hd_error done) (Is s (or_introl eq_refl))) as H.
  assert (An' : A = None -> hd_error done = None) by (intros E; rewrite (An E); reflexivity). specialize (H An').
  destruct (gplanner_block k fw A s rest (hd_error done)) as [ob|e]; cbn [bind]; [|exact H].
  apply IH; [intros x Ix; apply Is; right; exact Ix|discriminate|]. unfold gadd_block. destruct ob as [b|]; [|exact D]. destruct (gb_segs k b); [exact D|]. constructor; [apply H; reflexivity|exact D].
Qed.
Lemma remake_fine prevs b v : planned b -> match gremake k prevs b v with Err e => fine e | Ok b' => planned b' end.
Proof.
  intros [D IB]. unfold gremake. destruct (gb_dir k b) as [d|] eqn:E.
  - destruct (gprevious_segment k _ _) as [pv|e] eqn:P; cbn [bind]; [|exact (previous_fine _ _ _ P)].
    destruct (gmove_maker2 k _ _ d pv v) as [[segs ty]|e] eqn:M; cbn [bind]; [|exact (maker_fine _ _ _ _ _ _ IB M)]. split; [left; cbn; congruence|exact IB].
  - destruct D as [D|D]; [congruence|exact D].
Qed.
Lemma correction_fine : forall prevs b n, Forall planned prevs -> planned b -> planned n ->
  match gself_correction k prevs b n with Err e => fine e | Ok (prevs', b', n', _) => Forall planned prevs' /\ planned b' /\ planned n' end.
Proof.
  induction prevs as [|p ps IH]; intros b n Fp Pb Pn; cbn [gself_correction].
  all: destruct (glast_seg k (gb_segs k b)) as [s|e] eqn:E1; cbn [bind]; [|rewrite (last_raises _ _ E1); exact I].
  all: destruct (gfirst_seg k (gb_segs k n)) as [m|e] eqn:E2; cbn [bind]; [|rewrite (first_raises _ _ E2); exact I].
  all: match goal with |- context [bind (if ?c then ?x else ?y) ?f] => set (X := if c then x else y) end.
  - assert (HX : match X with Err e => fine e | Ok (prevs', b', _) => Forall planned prevs' /\ planned b' end).
    { unfold X. destruct (gflag_correct k s m); [|auto]. pose proof (remake_fine [] b (gnorm3 k (gvel_begin k m)) Pb) as R.
      destruct (gremake k [] b _) as [b1|e]; cbn [bind]; [|exact R]. destruct (gb_type k b1) as [[]|]; auto. exact I. }
    destruct X as [[[prevs' b'] w]|e]; cbn [bind]; [|exact HX]. destruct HX as [Fp' Pb'].
    destruct (glast_seg k (gb_segs k b')) as [s1|e] eqn:E3; cbn [bind]; [|rewrite (last_raises _ _ E3); exact I]. cbv zeta.
    match goal with |- context [gfirst_seg k ?l] => destruct (gfirst_seg k l) as [m1|e] eqn:E4 end; cbn [bind]; [|apply first_raises in E4; subst e; exact I].
    unfold gcheck_continuity. destruct (gveqb k _ _); [cbn [bind]; auto|]. destruct (k_ltb k _ _); cbn [bind]; [exact I|auto].
  - inversion Fp as [|? ? Pp Fps]; subst.
    assert (HX : match X with Err e => fine e | Ok (prevs', b', _) => Forall planned prevs' /\ planned b' end).
    { unfold X. destruct (gflag_correct k s m); [|auto]. pose proof (remake_fine (p :: ps) b (gnorm3 k (gvel_begin k m)) Pb) as R.
      destruct (gremake k (p :: ps) b _) as [b1|e]; cbn [bind]; [|exact R]. destruct (gb_type k b1) as [[]|]; auto.
      pose proof (IH p b1 Fps Pp R) as H. destruct (gself_correction k ps p b1) as [[[[ps' p'] b2] w]|e]; cbn [bind]; [|exact H].
      destruct H as (A & B & C). split; [constructor; assumption|exact C]. }
    destruct X as [[[prevs' b'] w]|e]; cbn [bind]; [|exact HX]. destruct HX as [Fp' Pb'].
    destruct (glast_seg k (gb_segs k b')) as [s1|e] eqn:E3; cbn [bind]; [|rewrite (last_raises _ _ E3); exact I]. cbv zeta.
    match goal with |- context [gfirst_seg k ?l] => destruct (gfirst_seg k l) as [m1|e] eqn:E4 end; cbn [bind]; [|apply first_raises in E4; subst e; exact I].
    unfold gcheck_continuity. destruct (gveqb k _ _); [cbn [bind]; auto|]. destruct (k_ltb k _ _); cbn [bind]; [exact I|auto].
Qed.
Lemma corrected_fine : forall rest prevs b, Forall planned prevs -> planned b -> Forall planned rest ->
  match gcorrect_from k prevs b rest with Err e => fine e | Ok _ => True end.
Proof.
  induction rest as [|n rest IH]; intros prevs b Fp Pb Fr; cbn [gcorrect_from]; [exact I|]. inversion Fr as [|? ? Pn Fr']; subst.
  pose proof (correction_fine prevs b n Fp Pb Pn) as H. destruct (gself_correction k prevs b n) as [[[[prevs' b'] n'] w]|e]; cbn [bind]; [|exact H].
  destruct H as (A & B & C). pose proof (IH (b' :: prevs') n' (Forall_cons _ B A) C Fr') as G. destruct (gcorrect_from k (b' :: prevs') n' rest) as [[bl w']|e]; [exact I|exact G].
Qed.
End States.

(** A simulation fails with one of four exceptions, and if it waits somewhere
    with one of two more. *)
Theorem C116_failures fw states e : gsimulate k fw states = Err e -> ~ no_acceleration k states -> may_raise k states e.
Proof.
  unfold gsimulate, ggenerate_planner_blocks. intros H A. pose proof (blocks_fine states A fw states None [] (fun x i => i) (fun _ => eq_refl) (Forall_nil _)) as B.
  destruct (ggen_blocks k fw None states []) as [bl|e']; cbn [bind] in H; [|injection H as <-; exact B].
  unfold gtrajectory_self_correct in H. destruct bl as [|b rest]; [discriminate|]. inversion B as [|? ? Pb Fr]; subst.
  pose proof (corrected_fine states A rest [] b (Forall_nil _) Pb Fr) as G. rewrite H in G. exact G.
Qed.
End Any.

(** * Reading *)
Notation unread e := (e = TypeError \/ e = Unmodelled).
Lemma value_raises t starts m e : match_value t known_commands starts m = Err e -> e = TypeError.
Proof.
  unfold match_value. destruct (key_lookup (m_key m) known_commands) as [subkeys|] eqn:Ek; [|discriminate].
  assert (Hsub : NoDup subkeys /\ forallb letter_key subkeys = true).
  { assert (G : forall kd, key_lookup (m_key m) kd = Some subkeys -> incl kd known_commands -> exists k, command_args k (Some subkeys)).
    { induction kd as [|[k0 v0] kd IHk]; intros Hl Hi; [discriminate Hl|]. cbn [key_lookup] in Hl. destruct (str_eqb (m_key m) k0).
      - subst v0. exists k0. apply Hi. left. reflexivity.
      - apply IHk; [exact Hl|]. intros x Hx. apply Hi. right. exact Hx. }
    destruct (G known_commands Ek (incl_refl _)) as (k0 & Hk0). destruct (table_args k0 _ Hk0) as (_ & _ & _ & X & Y). auto. }
  destruct Hsub as [Hn Hk]. set (a := if str_eqb _ _ then _ else _). destruct a as [f|w]; [congruence|]. rewrite (leaf_spec subkeys Hn Hk w). discriminate.
Qed.
Lemma extract_raises t e : arg_extract t known_commands = Err e -> e = TypeError.
Proof.
  rewrite arg_extract_known. generalize (map m_start (unshadowed (find_matches known_keys t))). intros starts. generalize (reported (comment_begin (unshadowed (find_matches known_keys t)) (length t))). intros p.
  induction (unshadowed (find_matches known_keys t)) as [|m ms IH]; [discriminate|]. cbn [collect].
  destruct (match_value t known_commands starts m) as [v|e'] eqn:E; cbn [bind]; [|intros [= <-]; exact (value_raises _ _ _ _ E)].
  destruct (collect p _ ms) as [r|e']; cbn [bind]; [discriminate|]. intros [= <-]. apply IH. reflexivity.
Qed.
Lemma lines_raise : forall lines i e, read_lines i lines = Err e -> e = TypeError.
Proof.
  induction lines as [|l ls IH]; intros i e; cbn [read_lines]; [discriminate|]. destruct (arg_extract l known_commands) as [d|e'] eqn:E; cbn [bind]; [|intros [= <-]; exact (extract_raises _ _ E)].
  destruct (read_lines (S i) ls) as [r|e'] eqn:R; cbn [bind]; [discriminate|]. intros [= <-]. exact (IH _ _ R).
Qed.
Section Reader.
Variable N : numops.
Lemma need_raises l e : need_num N l = Err e -> unread e.
Proof. destruct l as [[m x|]|s]; cbn; try discriminate; intros [= <-]; auto. Qed.
Lemma as_raises l e : as_sval N l = Err e -> unread e.
Proof. destruct l as [[m x|]|s]; cbn; try discriminate; intros [= <-]; auto. Qed.
Ltac one H := match goal with |- bind ?x _ = Err _ -> _ => let E := fresh in destruct x eqn:E; cbn [bind]; [|intros [= <-]; exact (H _ _ E)] end.
Lemma axis_raises b a s m e : do_axis N b a s m = Err e -> unread e.
Proof. unfold do_axis. destruct (dget (axis_key a) s) as [l|]; [|discriminate]. one need_raises. discriminate. Qed.
Lemma move_raises c d m e : do_move N c d m = Err e -> unread e.
Proof.
  unfold do_move. destruct (sub_dict c d) as [s|]; [|discriminate].
  do 4 (match goal with |- bind ?x _ = Err _ -> _ => let E := fresh in destruct x eqn:E; cbn [bind]; [|intros [= <-]; exact (axis_raises _ _ _ _ _ E)] end).
  destruct (dget (S_ "F") s) as [l|]; [|discriminate]. one need_raises. discriminate.
Qed.
Lemma g92_raises : forall s m e, do_g92 N s m = Err e -> unread e.
Proof. induction s as [|[k l] s IH]; intros m e; cbn [do_g92]; [discriminate|]. destruct (axis_of_key k); [|apply IH]. one need_raises. apply IH. Qed.
Lemma m203_raises : forall s m e, do_m203 N s m = Err e -> unread e.
Proof. induction s as [|[k l] s IH]; intros m e; cbn [do_m203]; [discriminate|]. destruct (axis_of_key k); [|apply IH]. one as_raises. apply IH. Qed.
Lemma sub_raises c d f m e : (forall s m e, f s m = Err e -> unread e) -> do_sub N c d f m = Err e -> unread e.
Proof. intros F. unfold do_sub. destruct (sub_dict c d) as [s|]; [apply F|discriminate]. Qed.
Lemma m204_raises s m e : do_m204 N s m = Err e -> unread e.
Proof. unfold do_m204. destruct (dget _ s); [|discriminate]. one as_raises. discriminate. Qed.
Lemma m205_raises s m e : do_m205 N s m = Err e -> unread e.
Proof. unfold do_m205. destruct (dget _ s); [|discriminate]. one as_raises. discriminate. Qed.
Lemma dwell_raises d e : do_dwell N d = Err e -> unread e.
Proof.
  unfold do_dwell. destruct (sub_dict _ d) as [s|]; [|discriminate]. destruct (dget (S_ "P") s) as [l|].
  - destruct (need_num N l) as [x|e'] eqn:E; cbn [bind]; [|intros [= <-]; exact (need_raises _ _ E)]. destruct (dget (S_ "S") s); [|discriminate]. one as_raises. discriminate.
  - cbn [bind]. destruct (dget (S_ "S") s); [|discriminate]. one as_raises. discriminate.
Qed.
Lemma step_raises d m e : step_vm N d m = Err e -> unread e.
Proof.
  unfold step_vm. cbv zeta.
  do 2 (match goal with |- bind ?x _ = Err _ -> _ => let E := fresh in destruct x eqn:E; cbn [bind]; [|intros [= <-]; exact (move_raises _ _ _ _ E)] end).
  match goal with |- bind ?x _ = Err _ -> _ => let E := fresh in destruct x eqn:E; cbn [bind]; [|intros [= <-]; exact (sub_raises _ _ _ _ _ g92_raises E)] end.
  match goal with |- bind ?x _ = Err _ -> _ => let E := fresh in destruct x eqn:E; cbn [bind]; [|intros [= <-]; exact (sub_raises _ _ _ _ _ m204_raises E)] end.
  match goal with |- bind ?x _ = Err _ -> _ => let E := fresh in destruct x eqn:E; cbn [bind]; [|intros [= <-]; exact (sub_raises _ _ _ _ _ m203_raises E)] end.
  match goal with |- bind ?x _ = Err _ -> _ => let E := fresh in destruct x eqn:E; cbn [bind]; [|intros [= <-]; exact (sub_raises _ _ _ _ _ m205_raises E)] end.
  one dwell_raises. discriminate.
Qed.
Lemma travel_raises cue : forall ls m n e, travel N cue ls m n = Err e -> unread e.
Proof.
  induction ls as [|l ls IH]; intros m n e; cbn [travel]; [discriminate|]. destruct (step_vm N (ld l) m) as [[m' p]|e'] eqn:E; cbn [bind]; [|intros [= <-]; exact (step_raises _ _ _ E)].
  cbv zeta. match goal with |- context [travel N cue ls ?a ?b] => destruct (travel N cue ls a b) as [r|e'] eqn:R end; cbn [bind]; [discriminate|]. intros [= <-]. exact (IH _ _ _ R).
Qed.
(** Reading fails with TypeError only; infinite numbers and NaN are not modelled. *)
Theorem C116_reading lines su e : generate_states N lines su = Err e -> e = TypeError \/ e = Unmodelled.
Proof.
  unfold generate_states, read_gcode_to_dict_list, dict_list_traveler. destruct (read_lines 0 lines) as [ls|e'] eqn:R; cbn [bind]; [|intros [= <-]; left; exact (lines_raise _ _ _ R)].
  destruct (travel N _ ls _ _) as [r|e'] eqn:T; cbn [bind]; [discriminate|]. intros [= <-]. exact (travel_raises _ _ _ _ _ T).
Qed.
End Reader.

(** * From the text *)
(** States of the text that are simulated, if it can be read *)
Theorem C116_text k fw lines su e : grun k fw lines su = Err e ->
  e = TypeError \/ e = Unmodelled \/
  exists sts ks, generate_states (knum k) lines su = Ok sts /\ gto_kstates k sts = Ok ks /\ gsimulate k fw ks = Err e /\ (no_acceleration k ks \/ may_raise k ks e).
Proof.
  unfold grun. destruct (generate_states (knum k) lines su) as [sts|e'] eqn:G; cbn [bind]; [|intros [= <-]; destruct (C116_reading _ _ _ _ G); auto].
  assert (U : forall l e', gto_kstates k l = Err e' -> e' = Unmodelled).
  { assert (V : forall v e', gnum_of k v = Err e' -> e' = Unmodelled) by (intros [x|x] e'; cbn; congruence).
    assert (W : forall s e', gto_kstate k s = Err e' -> e' = Unmodelled).
    { intros s e'. unfold gto_kstate. cbv zeta.
      do 3 (match goal with |- bind ?x _ = Err _ -> _ => let E := fresh in destruct x eqn:E; cbn [bind]; [|intros [= <-]; exact (V _ _ E)] end).
      destruct (pause s) as [w|]; [|discriminate]. destruct (gnum_of k w) eqn:E; cbn [bind]; [discriminate|]. intros [= <-]. exact (V _ _ E). }
    induction l as [|s l IH]; intros e'; cbn [gto_kstates]; [discriminate|]. destruct (gto_kstate k s) eqn:E; cbn [bind]; [|intros [= <-]; exact (W _ _ E)].
    destruct (gto_kstates k l); cbn [bind]; [discriminate|]. intros [= <-]. apply IH. reflexivity. }
  destruct (gto_kstates k sts) as [ks|e'] eqn:Q; cbn [bind]; [|intros [= <-]; right; left; exact (U _ _ Q)].
  intros H. right. right. exists sts, ks. split; [reflexivity|]. split; [exact Q|]. split; [exact H|].
  assert (D : forall l : list (gkstate k), no_acceleration k l \/ ~ no_acceleration k l).
  { intros l. destruct (existsb (fun s => k_leb k (gk_acc k s) (k0 k)) l) eqn:E; [left|right]; [apply existsb_exists in E; exact E|]. intros (s & I & L). apply Bool.not_true_iff_false in E. apply E, existsb_exists. eauto. }
  destruct (D ks) as [D'|D']; [left; exact D'|right]. exact (C116_failures k fw ks e H D').
Qed.

(** * They happen *)
Definition raised {A} (r : res (list A * bool)) : option pyexc := match r with Ok _ => None | Err e => Some e end.
Example C116_cases :
  (* two moves straight on, with doubles *)
  raised (grun Fk MarlinJerk straight_mini (mini Fk)) = Some RuntimeError /\
  (* a negative jerk: no profile fits *)
  raised (grun Fk MKA (map S_ ["M205 X-5"; "G1 X1 F300"; "G1 X1 Y1 F300"; "G1 X2"]%string) (mini Fk)) = Some NameError /\
  (* waiting before the first move *)
  raised (grun Fk MarlinJerk (map S_ ["G4 P100"; "G1 X10 F3000"]%string) (mini Fk)) = Some AttributeError /\
  (* waiting for a negative time *)
  raised (grun Fk MarlinJerk (map S_ ["G1 X10 F3000"; "G4 P-100"]%string) (mini Fk)) = Some ValueError /\
  (* a number behind the command; no number behind an axis *)
  raised (grun Fk MarlinJerk (map S_ ["G1 5"]%string) (mini Fk)) = Some TypeError /\
  raised (grun Fk MarlinJerk (map S_ ["G1 Xa"]%string) (mini Fk)) = Some TypeError.
Proof. vm_compute. repeat split. Qed.

Print Assumptions C116_failures.
Print Assumptions C116_reading.
Print Assumptions C116_text.
