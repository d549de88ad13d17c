(** C120: the blocks of a simulation and the lines they come from, whatever the
    numbers are: exact, rounded or doubles, overflown ones included.
    Vocabulary: SpecShape PropertiesRead.v. *)
From Coq Require Import Reals ZArith SpecFloat List Lia.
From Verif Require Import Py PyFloat Parser Vec Segment StateGen Junction Planner Interp Generic SpecGeneric SpecShape PropertiesRead.
Import ListNotations.
Open Scope nat_scope.

Section Any.
Variable k : kops.
Notation straight := (straight k). Notation resting := (resting k). Notation pushes := (pushes k). Notation between := (between k). Notation blocks_of := (blocks_of k).
Lemma segment_is t0 t1 p0 p1 v0 v1 s : gmk_segment k t0 t1 p0 p1 v0 v1 = Ok s -> s = GSeg k t0 t1 p0 p1 v0 v1.
Proof. unfold gmk_segment. destruct (gself_check k _); cbn [bind]; [|discriminate]. intros [= <-]. reflexivity. Qed.
Lemma keep_short s : length (gkeep_seg k s) <= 1.
Proof. unfold gkeep_seg. destruct (_ || _)%bool; cbn; lia. Qed.
Lemma keep_all (P : gsegment k -> Prop) s : P s -> Forall P (gkeep_seg k s).
Proof. intros H. unfold gkeep_seg. destruct (_ || _)%bool; repeat constructor. exact H. Qed.
Definition run (d : gvec k) (r : res (list (gsegment k) * btype)) : Prop := forall segs ty, r = Ok (segs, ty) -> length segs <= 3 /\ Forall (straight d) segs.
Ltac seg := match goal with |- bind ?x _ = Ok _ -> _ => let E := fresh "E" in destruct x eqn:E; cbn [bind]; [apply segment_is in E|discriminate] end.
Ltac done := intros [= <- _]; rewrite ?app_length; split; [repeat match goal with |- context [length (gkeep_seg k ?s)] => pose proof (keep_short s); generalize dependent (length (gkeep_seg k s)); intros end; lia|];
  repeat (apply Forall_app; split); apply keep_all; subst; (split; [eexists; reflexivity|split; eexists; reflexivity]).
Lemma trapezoid_run d pv a l b t v x : run d (gtrapezoid k d pv a l b t v x).
Proof. intros segs ty. unfold gtrapezoid. cbv zeta. seg. seg. seg. done. Qed.
Lemma triang_run d pv a b t v : run d (gtriang k d pv a b t v).
Proof. intros segs ty. unfold gtriang. cbv zeta. seg. seg. done. Qed.
Lemma up_run d pv a b v : run d (gsingl_up k d pv a b v).
Proof. intros segs ty. unfold gsingl_up. cbv zeta. seg. done. Qed.
Lemma dwn_run d pv a b v : run d (gsingl_dwn k d pv a b v).
Proof. intros segs ty. unfold gsingl_dwn. cbv zeta. seg. done. Qed.
Lemma maker_run A B d pv v : run d (gmove_maker2 k A B d pv v).
Proof.
  intros segs ty. unfold gmove_maker2. destruct (gmove_distance k A B) as [l x]. cbv zeta. destruct (k_leb k _ _); [discriminate|]. unfold try_runtime.
  intros H. match type of H with match ?y with _ => _ end = _ => assert (G : y = Ok (segs, ty)) by (destruct y as [z|e]; [exact H|destruct e; discriminate H]) end. clear H. revert G.
  destruct (_ && _)%bool; [apply trapezoid_run|]. destruct (_ && _)%bool; [apply triang_run|]. destruct (_ && _)%bool; [apply up_run|]. destruct (k_ltb k _ _); [apply dwn_run|discriminate].
Qed.
(** As [between], but the block may have no segments. *)
Definition between0 (a b : gkstate k) (x : gblock k) : Prop :=
  gb_A k x = a /\ gb_B k x = b /\ length (gb_segs k x) <= 3 /\
  match gb_dir k x with
  | Some d => gb_extr k x = pushes a b /\ (Forall (straight d) (gb_segs k x) \/ (gk_pause k b <> None /\ resting (gb_segs k x)))
  | None => gb_extr k x = false /\ gk_pause k b <> None /\ resting (gb_segs k x)
  end.
Lemma between_0 a b x : between0 a b x -> gb_segs k x <> [] -> between a b x.
Proof. intros (A & B & L & S) N. split; [exact A|]. split; [exact B|]. split; [|exact S]. destruct (gb_segs k x); [congruence|cbn in *; lia]. Qed.
Lemma planned fw A B rest prev ob : gplanner_block k fw A B rest prev = Ok ob ->
  (gk_pause k B <> None -> exists x, ob = Some x /\ gb_segs k x <> []) /\ forall x, ob = Some x -> exists a, A = Some a /\ between0 a B x.
Proof.
  unfold gplanner_block. destruct (k_leb k _ _); [discriminate|]. cbv zeta. set (v := gjunction_vel k fw _ B). destruct (gget_norm_dir k _) as [d|] eqn:Ed.
  2:{ assert (Q : (match A with Some _ | _ => @Ok (option (gblock k)) None end) = Ok None) by (destruct A; reflexivity). destruct (gk_pause k B) as [p|] eqn:Ep.
    - destruct A as [a|]; cbn [bind]; (destruct prev as [pb|]; [|discriminate]); (destruct (glast_seg k _) as [pv|]; cbn [bind]; [|discriminate]); (destruct (gmk_segment k _ _ _ _ _ _) as [s|] eqn:Es; cbn [bind]; [|discriminate]); [|discriminate].
      intros [= <-]. apply segment_is in Es. split; [intros _; eexists; split; [reflexivity|discriminate]|]. intros x [= <-]. exists a. split; [reflexivity|]. split; [reflexivity|]. split; [reflexivity|]. split; [cbn; lia|]. cbn [gb_dir]. split; [reflexivity|]. split; [rewrite Ep; discriminate|]. exists s. subst s. repeat split.
    - destruct A as [a|]; cbn [bind]; intros [= <-]; (split; [congruence|intros x; discriminate]). }
  set (first := match A with Some a => _ | None => _ end).
  assert (F : forall ob', first = Ok ob' -> forall x, ob' = Some x -> exists a, A = Some a /\ gb_A k x = a /\ gb_B k x = B /\ gb_dir k x = Some d /\ gb_extr k x = pushes a B /\ length (gb_segs k x) <= 3 /\ Forall (straight d) (gb_segs k x)).
  { intros ob'. unfold first. destruct A as [a|]; [|intros [= <-] x; discriminate]. destruct (gnot_zero k _); [|intros [= <-] x; discriminate]. destruct (gprevious_segment k a prev) as [pv|]; cbn [bind]; [|discriminate].
    destruct (gmove_maker2 k a B d pv v) as [[segs ty]|] eqn:Em; cbn [bind]; [|discriminate]. intros [= <-] x [= <-]. exists a. destruct (maker_run _ _ _ _ _ _ _ Em) as [L S]. repeat split; assumption. }
  destruct first as [ob'|]; cbn [bind]; [|discriminate]. specialize (F ob' eq_refl). destruct (gk_pause k B) as [p|] eqn:Ep.
  - destruct prev as [pb|]; [|discriminate]. destruct (glast_seg k _) as [pv|]; cbn [bind]; [|discriminate]. destruct (gmk_segment k _ _ _ _ _ _) as [s|] eqn:Es; cbn [bind]; [|discriminate]. apply segment_is in Es.
    destruct ob' as [b'|].
    + intros [= <-]. split; [intros _; eexists; split; [reflexivity|discriminate]|]. intros x [= <-]. destruct (F b' eq_refl) as (a & EA & E1 & E2 & E3 & E4 & _). exists a. split; [exact EA|]. split; [exact E1|]. split; [exact E2|]. split; [cbn; lia|]. cbn [gb_dir gb_segs gb_extr]. rewrite E3. split; [exact E4|]. right. split; [rewrite Ep; discriminate|]. exists s. subst s. repeat split.
    + destruct A as [a|]; [|discriminate]. intros [= <-]. split; [intros _; eexists; split; [reflexivity|discriminate]|]. intros x [= <-]. exists a. split; [reflexivity|]. split; [reflexivity|]. split; [reflexivity|]. split; [cbn; lia|]. cbn [gb_dir]. split; [reflexivity|]. split; [rewrite Ep; discriminate|]. exists s. subst s. repeat split.
  - intros [= <-]. split; [congruence|]. intros x ->. destruct (F x eq_refl) as (a & EA & E1 & E2 & E3 & E4 & L & S). exists a. split; [exact EA|]. split; [exact E1|]. split; [exact E2|]. split; [exact L|]. rewrite E3. split; [exact E4|]. left. exact S.
Qed.
Lemma generated fw : forall states a done bl, ggen_blocks k fw (Some a) states done = Ok bl -> exists new, bl = rev done ++ new /\ blocks_of a states new.
Proof.
  induction states as [|s rest IH]; intros a done bl H; cbn [ggen_blocks] in H.
  - injection H as <-. exists []. split; [symmetry; apply app_nil_r|constructor].
  - destruct (gplanner_block k fw (Some a) s rest (hd_error done)) as [ob|] eqn:E; cbn [bind] in H; [|discriminate]. destruct (planned _ _ _ _ _ _ E) as [P Q]. destruct (IH _ _ _ H) as (new & -> & B). unfold gadd_block. destruct ob as [x|].
    + destruct (gb_segs k x) as [|g l] eqn:Es.
      * exists new. split; [reflexivity|]. apply line_without; [|exact B]. destruct (gk_pause k s); [|reflexivity]. destruct (P ltac:(discriminate)) as (y & [= <-] & N). congruence.
      * exists (x :: new). split; [cbn [rev]; rewrite <- app_assoc; reflexivity|]. apply line_with; [|exact B]. destruct (Q x eq_refl) as (a' & [= <-] & S). apply between_0; [exact S|congruence].
    + exists new. split; [reflexivity|]. apply line_without; [|exact B]. destruct (gk_pause k s); [|reflexivity]. destruct (P ltac:(discriminate)) as (y & ? & _). discriminate.
Qed.
(** * Correction keeps the lines *)
Definition kept (x y : gblock k) : Prop := forall a b, between0 a b x -> between0 a b y.
Lemma kept_trans x y z : kept x y -> kept y z -> kept x z.
Proof. intros H G a b B. apply G, H, B. Qed.
Lemma shift_kept dt x : kept x (gtimeshift k dt x).
Proof.
  intros a b (A & B & L & S). unfold gtimeshift, gset_segs. split; [exact A|]. split; [exact B|]. cbn [gb_segs gb_dir]. split; [rewrite map_length; exact L|].
  assert (R : resting (gb_segs k x) -> resting (map (gmove_segment_time k dt) (gb_segs k x))) by (intros (s & -> & P & V); exists (gmove_segment_time k dt s); split; [reflexivity|]; split; [exact P|exact V]).
  cbn [gb_extr]. destruct (gb_dir k x) as [d|]; [destruct S as [X [S|[P S]]]; (split; [exact X|])|destruct S as [X [P S]]]; auto. left. rewrite Forall_map. eapply Forall_impl; [|exact S]. intros s H. exact H.
Qed.
Lemma remake_kept prevs x v y : gremake k prevs x v = Ok y -> kept x y.
Proof.
  unfold gremake. destruct (gb_dir k x) as [d|] eqn:Ed; [|discriminate]. destruct (gprevious_segment k _ _) as [pv|]; cbn [bind]; [|discriminate]. destruct (gmove_maker2 k _ _ _ _ _) as [[segs ty]|] eqn:Em; cbn [bind]; [|discriminate].
  intros [= <-] a b (A & B & _ & X). rewrite Ed in X. destruct X as [X _]. destruct (maker_run _ _ _ _ _ _ _ Em) as [L S]. split; [exact A|]. split; [exact B|]. split; [exact L|]. unfold gset_segs. cbn [gb_dir gb_segs gb_extr]. rewrite Ed. split; [exact X|]. left. exact S.
Qed.
Lemma last_some l s : glast_seg k l = Ok s -> l <> [].
Proof. intros H ->. discriminate H. Qed.
Definition full (x : gblock k) : Prop := gb_segs k x <> [].
Lemma corrected : forall prevs b n prevs1 b1 n1 w, gself_correction k prevs b n = Ok (prevs1, b1, n1, w) ->
  Forall2 kept prevs prevs1 /\ kept b b1 /\ kept n n1 /\ full b1 /\ full n1 /\ (Forall full prevs -> Forall full prevs1).
Proof.
  assert (Same : forall l, Forall2 kept l l) by (induction l; constructor; [intros ? ? H; exact H|assumption]).
  induction prevs as [|p ps IH]; intros b n prevs1 b1 n1 w H; cbn [gself_correction] in H; (destruct (glast_seg k (gb_segs k b)) as [s|] eqn:Es; cbn [bind] in H; [|discriminate]); (destruct (gfirst_seg k (gb_segs k n)) as [m|] eqn:Em; cbn [bind] in H; [|discriminate]).
  - match type of H with bind ?y _ = _ => assert (G : forall q, y = Ok q -> fst (fst q) = [] /\ kept b (snd (fst q))) end.
    { intros q. destruct (gflag_correct k s m); [|intros [= <-]; split; [reflexivity|intros ? ? X; exact X]]. destruct (gremake k [] b _) as [b0|] eqn:Er; cbn [bind]; [|discriminate]. apply remake_kept in Er. destruct (gb_type k b0) as [[| |]|]; try discriminate; intros [= <-]; (split; [reflexivity|exact Er]). }
    match type of H with bind ?y _ = _ => destruct y as [[[ps0 b0] w0]|]; cbn [bind] in H; [|discriminate] end. destruct (G _ eq_refl) as [E K]. cbn [fst snd] in E, K. subst ps0.
    destruct (glast_seg k (gb_segs k b0)) as [s1|] eqn:E1; cbn [bind] in H; [|discriminate]. destruct (gfirst_seg k _) as [m1|] eqn:E2 in H; cbn [bind] in H; [|discriminate]. destruct (gcheck_continuity k s1 m1); cbn [bind] in H; [|discriminate]. injection H as <- <- <- _.
    split; [constructor|]. split; [exact K|]. split; [apply shift_kept|]. split; [exact (last_some _ _ E1)|]. split; [|auto]. unfold full. intros Z. rewrite Z in E2. discriminate E2.
  - match type of H with bind ?y _ = _ => assert (G : forall q, y = Ok q -> Forall2 kept (p :: ps) (fst (fst q)) /\ kept b (snd (fst q)) /\ (Forall full (p :: ps) -> Forall full (fst (fst q)))) end.
    { intros q. destruct (gflag_correct k s m); [|intros [= <-]; split; [apply Same|split; [intros ? ? X; exact X|auto]]]. destruct (gremake k (p :: ps) b _) as [b0|] eqn:Er; cbn [bind]; [|discriminate]. apply remake_kept in Er.
      destruct (gb_type k b0) as [[| |]|]; try (intros [= <-]; split; [apply Same|split; [exact Er|auto]]).
      destruct (gself_correction k ps p b0) as [[[[ps' p'] b2] w2]|] eqn:Ec; cbn [bind]; [|discriminate]. intros [= <-]. destruct (IH _ _ _ _ _ _ Ec) as (K1 & K2 & K3 & F1 & F2 & F3). cbn [fst snd].
      split; [constructor; assumption|]. split; [exact (kept_trans _ _ _ Er K3)|]. intros F. constructor; [exact F1|exact (F3 (Forall_inv_tail F))]. }
    match type of H with bind ?y _ = _ => destruct y as [[[ps0 b0] w0]|]; cbn [bind] in H; [|discriminate] end. destruct (G _ eq_refl) as (E & K & F). cbn [fst snd] in E, K, F.
    destruct (glast_seg k (gb_segs k b0)) as [s1|] eqn:E1; cbn [bind] in H; [|discriminate]. destruct (gfirst_seg k _) as [m1|] eqn:E2 in H; cbn [bind] in H; [|discriminate]. destruct (gcheck_continuity k s1 m1); cbn [bind] in H; [|discriminate]. injection H as <- <- <- _.
    split; [exact E|]. split; [exact K|]. split; [apply shift_kept|]. split; [exact (last_some _ _ E1)|]. split; [|exact F]. unfold full. intros Z. rewrite Z in E2. discriminate E2.
Qed.
Lemma kept_app l l' m m' : Forall2 kept l l' -> Forall2 kept m m' -> Forall2 kept (l ++ m) (l' ++ m').
Proof. apply Forall2_app. Qed.
Lemma kept_rev l l' : Forall2 kept l l' -> Forall2 kept (rev l) (rev l').
Proof. induction 1; [constructor|]. cbn [rev]. apply Forall2_app; [assumption|constructor; [assumption|constructor]]. Qed.
Lemma kept_all_trans l l' l'' : Forall2 kept l l' -> Forall2 kept l' l'' -> Forall2 kept l l''.
Proof. intros H. revert l''. induction H as [|x y r r' K H IH]; intros l'' G; inversion G; subst; constructor; [eapply kept_trans; eassumption|auto]. Qed.
Lemma kept_refl l : Forall2 kept l l.
Proof. induction l; constructor; [intros ? ? H; exact H|assumption]. Qed.
Lemma correction_kept : forall rest prevs b bl w, gcorrect_from k prevs b rest = Ok (bl, w) -> Forall full prevs -> full b -> Forall full rest -> Forall2 kept (rev prevs ++ b :: rest) bl /\ Forall full bl.
Proof.
  induction rest as [|n rest IH]; intros prevs b bl w H Fp Fb Fr; cbn [gcorrect_from] in H.
  - injection H as <- _. cbn [rev]. split; [apply kept_refl|]. apply Forall_app. split; [apply Forall_rev; exact Fp|constructor; [exact Fb|constructor]].
  - destruct (gself_correction k prevs b n) as [[[[prevs1 b1] n1] w1]|] eqn:E; cbn [bind] in H; [|discriminate]. destruct (gcorrect_from k (b1 :: prevs1) n1 rest) as [[bl' w']|] eqn:E'; cbn [bind] in H; [|discriminate]. injection H as <- _.
    destruct (corrected _ _ _ _ _ _ _ E) as (K1 & K2 & K3 & F1 & F2 & F3). destruct (IH _ _ _ _ E') as [K F]; [constructor; auto|exact F2|exact (Forall_inv_tail Fr)|]. split; [|exact F]. eapply kept_all_trans; [|exact K]. cbn [rev]. rewrite <- app_assoc. apply Forall2_app; [apply kept_rev; exact K1|]. cbn [app]. constructor; [exact K2|]. constructor; [exact K3|apply kept_refl].
Qed.
Lemma blocks_kept a states bl : blocks_of a states bl -> forall bl', Forall2 kept bl bl' -> Forall full bl' -> blocks_of a states bl'.
Proof.
  induction 1 as [a|a b states bl P B IH|a b states x bl X B IH]; intros bl' K F.
  - inversion K. constructor.
  - apply line_without; auto.
  - inversion K as [|? y ? r Kx Kr]; subst. apply line_with; [|apply IH; [exact Kr|exact (Forall_inv_tail F)]]. apply between_0; [|exact (Forall_inv F)]. apply Kx. destruct X as (A & C & L & S). split; [exact A|]. split; [exact C|]. split; [lia|exact S].
Qed.
Lemma blocks_full a states bl : blocks_of a states bl -> Forall full bl.
Proof. induction 1 as [a|a b states bl P B IH|a b states x bl X B IH]; [constructor|exact IH|constructor; [|exact IH]]. destruct X as (_ & _ & L & _). unfold full. intros Z. rewrite Z in L. cbn in L. lia. Qed.

(** The simulation of the states [s :: states] has blocks for lines of [states]. *)
Theorem C120_lines fw s states bl w : gsimulate k fw (s :: states) = Ok (bl, w) -> blocks_of s states bl.
Proof.
  unfold gsimulate, ggenerate_planner_blocks. cbn [ggen_blocks]. destruct (gplanner_block k fw None s states _) as [ob|] eqn:E; cbn [bind]; [|discriminate]. destruct (planned _ _ _ _ _ _ E) as [_ Q]. assert (ob = None) as -> by (destruct ob as [x|]; [destruct (Q x eq_refl) as (a & [=] & _)|reflexivity]). cbn [gadd_block].
  destruct (ggen_blocks k fw (Some s) states []) as [bl0|] eqn:G; cbn [bind]; [|discriminate]. destruct (generated _ _ _ _ _ G) as (new & -> & B). cbn [rev app]. pose proof (blocks_full _ _ _ B) as F. unfold gtrajectory_self_correct. destruct new as [|b rest]; [intros [= <- _]; exact B|].
  intros H. destruct (correction_kept _ _ _ _ _ H (Forall_nil _) (Forall_inv F) (Forall_inv_tail F)) as [K F']. exact (blocks_kept _ _ _ B _ K F').
Qed.
End Any.

Section Corollaries.
Variable k : kops.
Lemma blocks_count a states bl : blocks_of k a states bl -> length bl <= length states.
Proof. induction 1; cbn [length]; lia. Qed.
(** At most one block for a line; whatever holds of all lines but the first
    holds of the targets of all blocks; each has segments. *)
Theorem C120_blocks fw s states bl w : gsimulate k fw (s :: states) = Ok (bl, w) ->
  length bl <= length states /\ Forall (fun x => In (gb_B k x) states /\ In (gb_A k x) (s :: states) /\ gb_segs k x <> [] /\ length (gb_segs k x) <= 3) bl.
Proof.
  intros H. apply C120_lines in H. split; [exact (blocks_count _ _ _ H)|]. induction H as [a|a b states bl P B IH|a b states x bl X B IH]; [constructor| |constructor].
  - eapply Forall_impl; [|exact IH]. cbn [In]. intros x (A & C & D). tauto.
  - destruct X as (A & C & L & _). split; [left; congruence|]. split; [left; congruence|]. split; [intros Z; rewrite Z in L; cbn in L; lia|apply L].
  - eapply Forall_impl; [|exact IH]. cbn [In]. intros y (A & C & D). tauto.
Qed.
(** A block counts as extruding if its line pushes filament out, and only then;
    a line that pushes and asks for a dwell may have a block that does not count. *)
Theorem C120_extruding fw s states bl w : gsimulate k fw (s :: states) = Ok (bl, w) ->
  Forall (fun x => (gb_extr k x = true -> pushes k (gb_A k x) (gb_B k x) = true) /\ (pushes k (gb_A k x) (gb_B k x) = true -> gk_pause k (gb_B k x) = None -> gb_extr k x = true)) bl.
Proof.
  intros H. apply C120_lines in H. induction H as [a|a b states bl P B IH|a b states x bl X B IH]; [constructor|exact IH|constructor; [|exact IH]].
  destruct X as (-> & -> & _ & S). destruct (gb_dir k x) as [d|]; [destruct S as [-> _]; tauto|]. destruct S as (-> & N & _). split; [discriminate|congruence].
Qed.
(** A dwell that the firmware is asked for is in the trajectory. *)
Theorem C120_dwells fw s states bl w : gsimulate k fw (s :: states) = Ok (bl, w) ->
  length (filter (fun x => match gk_pause k x with Some _ => true | None => false end) states) <= length (filter (fun x => match gk_pause k (gb_B k x) with Some _ => true | None => false end) bl) /\
  forall b, In b states -> gk_pause k b <> None -> exists x, In x bl /\ gb_B k x = b.
Proof.
  intros H. apply C120_lines in H. induction H as [a|a b states bl P B IH|a b states x bl X B IH].
  - split; [reflexivity|]. intros b [].
  - destruct IH as [L I]. split; [cbn [filter]; rewrite P; exact L|]. intros c [->|Ic] N; [congruence|exact (I c Ic N)].
  - destruct X as (_ & E & _). destruct IH as [L I]. split; [cbn [filter]; rewrite E; destruct (gk_pause k b); cbn [length]; lia|]. intros c [<-|Ic] N; [exists x; split; [left; reflexivity|exact E]|]. destruct (I c Ic N) as (y & Iy & Ey). exists y. split; [right; exact Iy|exact Ey].
Qed.
(** Nothing is simulated for no states. *)
Theorem C120_nothing fw : gsimulate k fw [] = Ok ([], false).
Proof. reflexivity. Qed.
Lemma rising_less l : forall m n, m <= n -> rising n l -> rising m l.
Proof. destruct l as [|[x|] l]; cbn; intros m n L H; [exact I| |exact H]. split; [lia|apply H]. Qed.
Lemma travel_rising N c : forall ls m n sts, travel N (Some c) ls m n = Ok sts -> rising n (map layer sts).
Proof.
  induction ls as [|l ls IH]; intros m n sts H; cbn [travel] in H; [injection H as <-; exact I|].
  destruct (step_vm N (ld l) m) as [[m' p]|]; cbn [bind] in H; [|discriminate]. destruct (travel N (Some c) ls _ _) as [r|] eqn:E in H; cbn [bind] in H; [|discriminate]. injection H as <-. apply IH in E. cbn [map layer line_state rising]. split; [|exact E].
  unfold next_layer. destruct (line_comment (ld l)); [destruct (str_eqb c _)|]; lia.
Qed.
Lemma kstates_layers : forall sts ks, gto_kstates k sts = Ok ks -> map (gk_layer k) ks = map layer sts.
Proof.
  induction sts as [|s sts IH]; intros ks H; cbn [gto_kstates] in H; [injection H as <-; reflexivity|]. destruct (gto_kstate k s) as [x|] eqn:E; cbn [bind] in H; [|discriminate]. destruct (gto_kstates k sts) as [r|]; cbn [bind] in H; [|discriminate]. injection H as <-. cbn [map]. f_equal; [|apply IH; reflexivity].
  revert E. unfold gto_kstate. cbv zeta. repeat match goal with |- bind ?y _ = _ -> _ => destruct y; cbn [bind]; [|discriminate] end. intros [= <-]. reflexivity.
Qed.
Lemma blocks_rising a states bl : blocks_of k a states bl -> forall n, rising n (map (gk_layer k) states) -> rising n (map (fun x => gk_layer k (gb_B k x)) bl).
Proof.
  induction 1 as [a|a b states bl P B IH|a b states x bl X B IH]; intros n R; [exact I| |].
  - cbn [map rising] in R. destruct (gk_layer k b) as [m|]; [|destruct R]. destruct R as [L R]. exact (rising_less _ _ _ L (IH m R)).
  - destruct X as (_ & E & _). cbn [map rising] in R |- *. rewrite E. destruct (gk_layer k b) as [m|]; [|destruct R]. destruct R as [L R]. split; [exact L|exact (IH m R)].
Qed.
(** With a layer cue the layers along the trajectory are numbers that never go
    down; without one no block is in a layer. *)
Theorem C120_layers fw lines su bl w : grun k fw lines su = Ok (bl, w) ->
  match s_layer_cue (knum k) su with
  | Some _ => rising 0 (map (fun x => gk_layer k (gb_B k x)) bl)
  | None => Forall (fun x => gk_layer k (gb_B k x) = None) bl
  end.
Proof.
  unfold grun. destruct (generate_states (knum k) lines su) as [sts|] eqn:G; cbn [bind]; [|discriminate]. destruct (gto_kstates k sts) as [ks|] eqn:Ek; cbn [bind]; [|discriminate]. intros H. apply kstates_layers in Ek.
  unfold generate_states in G. destruct (read_gcode_to_dict_list lines) as [ls|]; cbn [bind] in G; [|discriminate]. pose proof G as G'. unfold dict_list_traveler in G. destruct (travel (knum k) _ ls _ 0) as [r|] eqn:T in G; cbn [bind] in G; [|discriminate]. injection G as <-.
  destruct ks as [|s states]; [discriminate Ek|]. cbn [map] in Ek. injection Ek as _ Ek. destruct (s_layer_cue (knum k) su) as [c|] eqn:C.
  - apply C120_lines in H. apply (blocks_rising _ _ _ H). rewrite Ek. exact (travel_rising _ _ _ _ _ _ T).
  - apply C120_blocks in H as [_ H]. eapply Forall_impl; [|exact H]. intros x (I & _). apply (in_map (gk_layer k)) in I. rewrite Ek in I. apply in_map_iff in I as (y & <- & Iy). apply (C16_no_cue _ _ _ _ y G' C). right. exact Iy.
Qed.
End Corollaries.

(** * A program with a dwell, a comment and a line that goes nowhere *)
Definition dwell_program : list str := map S_ ["G1 X10 E0.5 F1800"; "G4 P500"; ";a comment"; "G1 X10"; "G1 Y2.5"; "G4 S0.1"]%string.
Definition dwell_states : list (gkstate Fk) := Eval vm_compute in match (sts <- generate_states (knum Fk) dwell_program (mini Fk) ;; gto_kstates Fk sts) with Ok l => l | Err _ => [] end.
Definition dwell_trajectory : list (gblock Fk) := Eval vm_compute in match gsimulate Fk MarlinJerk dwell_states with Ok (bl, _) => bl | Err _ => [] end.
Example C120_case : length dwell_states = 7 /\ gsimulate Fk MarlinJerk dwell_states = Ok (dwell_trajectory, false) /\
  map (fun x => (length (gb_segs Fk x), match gk_pause Fk (gb_B Fk x) with Some _ => true | None => false end)) dwell_trajectory = [(3, false); (1, true); (3, false); (1, true)].
Proof. split; [reflexivity|]. split; [vm_cast_no_check (eq_refl (@Ok (list (gblock Fk) * bool) (dwell_trajectory, false)))|vm_compute; reflexivity]. Qed.

Print Assumptions C120_lines.
Print Assumptions C120_blocks.
Print Assumptions C120_extruding.
Print Assumptions C120_dwells.
Print Assumptions C120_nothing.
Print Assumptions C120_layers.
