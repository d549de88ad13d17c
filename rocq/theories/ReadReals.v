(** Reader facts that need arithmetic (numbers are reals) or text. *)
From Coq Require Import Reals Lra Permutation.
From Verif Require Import Py PyFloat Parser StateGen StrFacts DedupeProofs SpecRead ParserProofs CommentProofs LineProofs
     SpecMachine ReadProofs ReadFacts.
Open Scope nat_scope.
Local Arguments S_ : simpl never.
Local Arguments known_keys : simpl never.
Local Arguments find_matches : simpl never.
Local Arguments unshadowed : simpl never.

Notation c := (get_c Rops). Notation o := (get_o Rops).
Definition cR (a : axis) (m : vm Rops) : R := get_c Rops a m.
Definition oR (a : axis) (m : vm Rops) : R := get_o Rops a m.
Ltac rring := match goal with |- @eq _ ?a ?b => change (@eq R a b) end; first [ring | symmetry; ring | lra].
Lemma r_of_dec_0 e : r_of_dec 0 e = 0%R.
Proof. unfold r_of_dec. destruct e; simpl; unfold Rdiv; rring. Qed.
Lemma meansR_fun l x y : meansR l x -> meansR l y -> x = y.
Proof. intros (m & e & -> & ->) (m' & e' & E & ->). injection E as <- <-. reflexivity. Qed.
Lemma stored_fun l x y : stored (N := Rops) l x -> stored (N := Rops) l y -> x = y.
Proof.
  intros [(m & e & -> & ->)|(s & -> & ->)] [(m' & e' & E & ->)|(s' & E & ->)]; try discriminate E; injection E; intros; subst; reflexivity.
Qed.
Lemma coordR_vm a s m : shows_vm Rops s m -> coordR a s = (cR a m + oR a m)%R.
Proof. intros [H _]. unfold coordR. rewrite H, coord_vm. reflexivity. Qed.
Lemma init_off a su : oR a (init_vm Rops su) = 0%R.
Proof. destruct a; reflexivity. Qed.

(** * C09 *)
Lemma abs_reads a su before line s s' lf :
  Forall proper_line (before ++ [line]) -> reads (N := Rops) su before line s s' ->
  absolute_after a (before ++ [line]) = true -> move_word (name a) line = Some lf -> no_g92 a line ->
  exists m m' x, vm_after Rops before (init_vm Rops su) = Ok m /\ meansR lf x /\
    vm_after Rops (before ++ [line]) (init_vm Rops su) = Ok m' /\
    coordR a s' = (x + oR a m)%R /\ oR a m' = oR a m.
Proof.
  intros Hp Hr Ha Hw Hn. destruct (reads_step _ _ _ _ _ _ Hr) as (m & m' & p & A & B & _ & C & _).
  assert (H' : vm_after Rops (before ++ [line]) (init_vm Rops su) = Ok m').
  { rewrite vm_after_app, A. cbn [bind vm_after]. rewrite B. reflexivity. }
  pose proof (absolute_mode Rops a _ su m' Hp H') as Hm. rewrite Ha in Hm.
  apply Forall_app in Hp as [_ Hp]. inversion Hp as [|? ? P1 _]; subst.
  destruct (abs_move Rops a line m m' p lf P1 B Hm Hw Hn) as (x & X1 & X2 & X3).
  exists m, m', x. split; [exact A|]. split; [exact X1|]. split; [exact H'|].
  rewrite (coordR_vm a _ _ C). unfold cR, oR. rewrite X2, X3. split; reflexivity.
Qed.

Lemma vm_after_mid {N} b1 l1 mid m0 m1 m2 : vm_after N (b1 ++ [l1]) m0 = Ok m1 ->
  vm_after N (b1 ++ l1 :: mid) m0 = Ok m2 -> vm_after N mid m1 = Ok m2.
Proof.
  intros H1 H2. change (b1 ++ l1 :: mid) with (b1 ++ [l1] ++ mid) in H2. rewrite app_assoc, vm_after_app, H1 in H2. exact H2.
Qed.

(** * C10 *)
Lemma rel_step a l m m' p : proper_line l -> step_vm Rops (ld l) m = Ok (m', p) ->
  abs_of Rops a m' = false -> no_g92 a l ->
  exists v, increment a l v /\ cR a m' = (cR a m + v)%R /\ oR a m' = oR a m.
Proof.
  intros Hp H Ha Hn. destruct (le_coord _ _ _ _ _ (step_effect Rops l m m' p Hp H) a) as (x0 & x1 & A & B & C).
  unfold no_g92 in Hn. rewrite Hn in C. destruct C as [C1 C2]. rewrite Ha in A, B. unfold increment, amount, cR, oR in *.
  cbn [n_add Rops] in *.
  destruct (word (S_ "G0") (name a) l) as [l0|], (word (S_ "G1") (name a) l) as [l1|].
  - destruct A as (v0 & V0 & ->), B as (v1 & V1 & ->). exists (v0 + v1)%R. split; [exists v0, v1; auto|]. rewrite C1. split; [rring|exact C2].
  - destruct A as (v0 & V0 & ->). exists (v0 + 0)%R. split; [exists v0, 0%R; auto|]. rewrite C1, B. split; [rring|exact C2].
  - destruct B as (v1 & V1 & ->). exists (0 + v1)%R. split; [exists 0%R, v1; auto|]. rewrite C1, A. split; [rring|exact C2].
  - exists (0 + 0)%R. split; [exists 0%R, 0%R; auto|]. rewrite C1, B, A. split; [rring|exact C2].
Qed.

Lemma rel_run a : forall ls m m', Forall proper_line ls -> Forall (no_g92 a) ls ->
  (forall k mk, k < length ls -> vm_after Rops (firstn (S k) ls) m = Ok mk -> abs_of Rops a mk = false) ->
  vm_after Rops ls m = Ok m' ->
  exists vs, Forall2 (increment a) ls vs /\ (cR a m' + oR a m' = (cR a m + oR a m) + fold_right Rplus 0 vs)%R.
Proof.
  induction ls as [|l ls IH]; intros m m' Hp Hn Hk H.
  - injection H as <-. exists []. split; [constructor|]. simpl. rring.
  - cbn [vm_after] in H. destruct (step_vm Rops (ld l) m) as [[m1 p]|] eqn:E; cbn [bind] in H; [|discriminate].
    inversion Hp as [|? ? P1 P2]; subst. inversion Hn as [|? ? N1 N2]; subst.
    assert (Ha : abs_of Rops a m1 = false).
    { apply (Hk 0 m1); [simpl; lia|]. cbn [firstn vm_after]. rewrite E. reflexivity. }
    destruct (rel_step a l m m1 p P1 E Ha N1) as (v & V1 & V2 & V3).
    destruct (IH m1 m' P2 N2) as (vs & W1 & W2); [|exact H|].
    { intros k mk Hl Hv. apply (Hk (S k) mk); [simpl; lia|]. cbn [firstn vm_after]. rewrite E. exact Hv. }
    exists (v :: vs). split; [constructor; assumption|]. rewrite W2, V2, V3. cbn [fold_right]. rring.
Qed.

(** * C13, C14 *)
Definition g_of (m : vm Rops) : gmachine :=
  {| g_pos a := (cR a m + oR a m)%R; g_off a := oR a m; g_abs a := abs_of Rops a m;
     g_feed := vm_p_vel Rops m; g_acc := vm_p_acc Rops m; g_jerk := vm_jerk Rops m;
     g_lim a := get_v Rops a m; g_unit := vm_units Rops m |}.

Lemma g_of_line l m m' p : proper_line l -> g92_zero l -> step_vm Rops (ld l) m = Ok (m', p) -> g_line l (g_of m) (g_of m').
Proof.
  intros Hp Hz H. pose proof (step_effect Rops l m m' p Hp H) as Q. unfold g_line. cbn [g_of g_pos g_off g_abs g_feed g_acc g_jerk g_lim g_unit].
  split; [exact (le_abs _ _ _ _ _ Q)|]. split; [exact (le_units _ _ _ _ _ Q)|].
  assert (X : forall a, exists x0,
     (match word (S_ "G0") (name a) l with
      | None => x0 = (cR a m + oR a m)%R
      | Some lf => exists v, meansR lf v /\ x0 = (if abs_of Rops a m' then v + oR a m else (cR a m + oR a m) + v)%R end) /\
     (match word (S_ "G1") (name a) l with
      | None => (cR a m' + oR a m')%R = x0
      | Some lf => exists v, meansR lf v /\ (cR a m' + oR a m')%R = (if abs_of Rops a m' then v + oR a m else x0 + v)%R end) /\
     (match word (S_ "G92") (name a) l with
      | None => oR a m' = oR a m
      | Some lf => exists v, meansR lf v /\ oR a m' = (cR a m' + oR a m' - v)%R end)).
  { intros a. destruct (le_coord _ _ _ _ _ Q a) as (x0 & x1 & A & B & C).
    exists (x0 + oR a m)%R.
    assert (Hpos : (cR a m' + oR a m' = x1 + oR a m)%R).
    { unfold cR, oR. specialize (Hz a). destruct (word (S_ "G92") (name a) l) as [lf|].
      - destruct (Hz lf eq_refl) as (e & ->). destruct C as (x & (m1 & e1 & E & ->) & C1 & C2). injection E as <- <-.
        rewrite C1, C2. cbn [n_add n_of_dec Rops]. rewrite r_of_dec_0. rring.
      - destruct C as [C1 C2]. rewrite C1, C2. reflexivity. }
    cbn [n_add Rops] in *. unfold cR, oR in *.
    split; [|split].
    - destruct (word (S_ "G0") (name a) l) as [lf|]; [|rewrite A; reflexivity].
      destruct A as (v & V & ->). exists v. split; [exact V|]. destruct (abs_of Rops a m'); rring.
    - rewrite Hpos. destruct (word (S_ "G1") (name a) l) as [lf|]; [|rewrite B; reflexivity].
      destruct B as (v & V & ->). exists v. split; [exact V|]. destruct (abs_of Rops a m'); rring.
    - specialize (Hz a). destruct (word (S_ "G92") (name a) l) as [lf|]; [|apply C].
      destruct C as (x & X & C1 & C2). exists x. split; [exact X|]. rewrite C1. rring. }
  split; [|split; [|split; [|split; [|split]]]].
  - destruct (X AX) as (xx & X1 & X2 & _). destruct (X AY) as (xy & Y1 & Y2 & _).
    destruct (X AZ) as (xz & Z1 & Z2 & _). destruct (X AE) as (xe & E1 & E2 & _).
    exists (fun a => match a with AX => xx | AY => xy | AZ => xz | AE => xe end).
    split; intros []; assumption.
  - intros a. destruct (X a) as (_ & _ & _ & G). exact G.
  - exact (le_feed _ _ _ _ _ Q).
  - exact (le_acc _ _ _ _ _ Q).
  - exact (le_jerk _ _ _ _ _ Q).
  - exact (le_lim _ _ _ _ _ Q).
Qed.

(** The abstract machine is deterministic. *)
Definition g_eq (g h : gmachine) : Prop :=
  (forall a, g_pos g a = g_pos h a /\ g_off g a = g_off h a /\ g_abs g a = g_abs h a /\ g_lim g a = g_lim h a) /\
  g_feed g = g_feed h /\ g_acc g = g_acc h /\ g_jerk g = g_jerk h /\ g_unit g = g_unit h.

Lemma modal_fun {A} w (new : leaf -> A -> Prop) a b x y : (forall l u v, new l u -> new l v -> u = v) -> a = b ->
  modal w new a x -> modal w new b y -> x = y.
Proof. intros Hf -> . unfold modal. destruct w as [l|]; [apply Hf|congruence]. Qed.
Lemma feed_fun l x y : seconds_feed l x -> seconds_feed l y -> x = y.
Proof. intros (u & U & ->) (v & V & ->). rewrite (meansR_fun l u v U V). reflexivity. Qed.

Lemma g_line_fun l g h g' h' : g_eq g h -> g_line l g g' -> g_line l h h' -> g_eq g' h'.
Proof.
  intros (E1 & E2 & E3 & E4 & E5) (A1 & A2 & (p1 & A3 & A4) & A5 & A6 & A7 & A8 & A9)
         (B1 & B2 & (q1 & B3 & B4) & B5 & B6 & B7 & B8 & B9).
  assert (Habs : forall a, g_abs g' a = g_abs h' a).
  { intros a. destruct (E1 a) as (_ & _ & Ea & _). rewrite A1, B1, Ea. reflexivity. }
  assert (Hmv : forall cmd p q p' q', (forall a, p a = q a) -> g_move cmd l (g_abs g') (g_off g) p p' ->
     g_move cmd l (g_abs h') (g_off h) q q' -> forall a, p' a = q' a).
  { intros cmd p q p' q' Hpq P Q a. specialize (P a). specialize (Q a). destruct (E1 a) as (_ & Eo & _).
    destruct (word cmd (name a) l) as [lf|].
    - destruct P as (u & U & ->), Q as (v & V & ->). rewrite (meansR_fun lf u v U V), Habs, Eo, Hpq. reflexivity.
    - rewrite P, Q. apply Hpq. }
  assert (Hp1 : forall a, p1 a = q1 a). { apply (Hmv _ _ _ _ _ (fun a => proj1 (E1 a)) A3 B3). }
  assert (Hpos : forall a, g_pos g' a = g_pos h' a) by (apply (Hmv _ _ _ _ _ Hp1 A4 B4)).
  split; [|split; [|split; [|split]]].
  - intros a. split; [apply Hpos|]. split; [|split; [apply Habs|]].
    + specialize (A5 a). specialize (B5 a). destruct (E1 a) as (_ & Eo & _).
      destruct (word (S_ "G92") (name a) l) as [lf|].
      * destruct A5 as (u & U & ->), B5 as (v & V & ->). rewrite (meansR_fun lf u v U V), Hpos. reflexivity.
      * congruence.
    + destruct (E1 a) as (_ & _ & _ & El). exact (modal_fun _ _ _ _ _ _ stored_fun El (A9 a) (B9 a)).
  - exact (modal_fun _ _ _ _ _ _ feed_fun E2 A6 B6).
  - exact (modal_fun _ _ _ _ _ _ stored_fun E3 A7 B7).
  - exact (modal_fun _ _ _ _ _ _ stored_fun E4 A8 B8).
  - rewrite A2, B2, E5. reflexivity.
Qed.

Lemma start_eq su g : g_start su g -> g_eq (g_of (init_vm Rops su)) g.
Proof.
  intros (H1 & H2 & H3 & H4 & H5 & H6 & H7 & H8 & H9 & H10 & H11 & H12 & H13).
  unfold g_eq. split; [|cbn; repeat split; congruence].
  intros a. destruct (H5 a) as [O A]. unfold g_of, cR, oR. cbn [g_pos g_off g_abs g_lim].
  destruct a; cbn [get_c get_o init_vm cX cY cZ cE oX oY oZ oE get_v vm_vX vm_vY vm_vZ vm_vE abs_of absolute_position absolute_extrusion];
    unfold nint; cbn [n_of_dec Rops]; rewrite r_of_dec_0;
    repeat split; try congruence; rewrite Rplus_0_r; congruence.
Qed.
Lemma start_exists su : g_start su (g_of (init_vm Rops su)).
Proof.
  unfold g_start, g_of, cR, oR. cbn. unfold nint. cbn. repeat split; try reflexivity; try rring.
  destruct a; reflexivity. destruct a; reflexivity.
Qed.

Lemma shows_of s m : shows_vm Rops s m -> shows s (g_of m).
Proof.
  intros [H1 H2]. unfold shows. rewrite H1, H2. split; [intros a; apply coord_vm|]. repeat split; try reflexivity; intros []; reflexivity.
Qed.
Lemma shows_eq s g h : shows s g -> g_eq g h -> shows s h.
Proof.
  intros (A & B & C & D & E & F) (G & H1 & H2 & H3 & H4). unfold shows. repeat split; try congruence.
  - intros a. rewrite A. apply G.
  - intros a. rewrite F. apply G.
Qed.

Lemma travel_refines cue : forall ls m n sts g gs, Forall proper_line ls -> Forall g92_zero ls ->
  travel Rops cue ls m n = Ok sts -> g_eq (g_of m) g -> g_run g ls gs -> Forall2 shows sts gs.
Proof.
  induction ls as [|l ls IH]; intros m n sts g gs Hp Hz H Hg Hr.
  - injection H as <-. inversion Hr; subst. constructor.
  - cbn [travel] in H. destruct (step_vm Rops (ld l) m) as [[m' p]|] eqn:E; cbn [bind] in H; [|discriminate].
    destruct (travel Rops cue ls m' _) as [rest|] eqn:Et; cbn [bind] in H; [|discriminate]. injection H as <-.
    inversion Hp as [|? ? P1 P2]; subst. inversion Hz as [|? ? Z1 Z2]; subst.
    inversion Hr as [|? ? g' ? gs' L R]; subst.
    pose proof (g_line_fun l _ _ _ _ Hg (g_of_line l m m' p P1 Z1 E) L) as Hg'.
    constructor; [|apply (IH _ _ _ _ _ P2 Z2 Et Hg' R)].
    apply (shows_eq _ (g_of m')); [apply shows_of; split; reflexivity|exact Hg'].
Qed.
Lemma travel_runs cue : forall ls m n sts, Forall proper_line ls -> Forall g92_zero ls ->
  travel Rops cue ls m n = Ok sts -> exists gs, g_run (g_of m) ls gs.
Proof.
  induction ls as [|l ls IH]; intros m n sts Hp Hz H.
  - exists []. constructor.
  - cbn [travel] in H. destruct (step_vm Rops (ld l) m) as [[m' p]|] eqn:E; cbn [bind] in H; [|discriminate].
    destruct (travel Rops cue ls m' _) as [rest|] eqn:Et; cbn [bind] in H; [|discriminate].
    inversion Hp as [|? ? P1 P2]; subst. inversion Hz as [|? ? Z1 Z2]; subst.
    destruct (IH _ _ _ P2 Z2 Et) as (gs & G). exists (g_of m' :: gs). econstructor; [|exact G].
    apply (g_of_line l m m' p); assumption.
Qed.

Lemma g92_step a l m m' p lf : proper_line l -> step_vm Rops (ld l) m = Ok (m', p) ->
  word (S_ "G92") (name a) l = Some lf -> word (S_ "G0") (name a) l = None -> word (S_ "G1") (name a) l = None ->
  exists v, meansR lf v /\ cR a m' = v /\ (oR a m' = (cR a m + oR a m) + v)%R.
Proof.
  intros Hp H Hw H0 H1. destruct (le_coord _ _ _ _ _ (step_effect Rops l m m' p Hp H) a) as (x0 & x1 & A & B & C).
  rewrite H0 in A. rewrite H1 in B. rewrite Hw in C. destruct C as (v & V & C1 & C2). subst x0 x1.
  exists v. split; [exact V|]. split; [exact C1|]. unfold oR, cR in *. rewrite C2. cbn [n_add Rops]. rring.
Qed.

(** * C16: what strip() does *)
Lemma lstrip_split s : exists a, s = a ++ lstrip s /\ Forall (fun c => is_space c = true) a /\
  (forall x r, lstrip s = x :: r -> is_space x = false).
Proof.
  induction s as [|x s (a & A & B & C)].
  - exists []. repeat split; [constructor|]. intros x r H; discriminate H.
  - cbn [lstrip]. destruct (is_space x) eqn:E.
    + exists (x :: a). split; [simpl; f_equal; exact A|]. split; [constructor; assumption|exact C].
    + exists []. split; [reflexivity|]. split; [constructor|]. intros y r H; injection H as <- <-. exact E.
Qed.
Lemma strip_stripped t : stripped t (strip t).
Proof.
  destruct (lstrip_split t) as (a & A & B & C). unfold strip.
  destruct (lstrip_split (rev (lstrip t))) as (b & D & E & F).
  set (u := lstrip (rev (lstrip t))) in *.
  assert (Hl : lstrip t = rev u ++ rev b). { rewrite <- (rev_involutive (lstrip t)), D, rev_app_distr. reflexivity. }
  split; [|split].
  - exists a, (rev b). split; [rewrite A at 1; rewrite Hl; reflexivity|]. apply Forall_app. split; [exact B|].
    apply Forall_forall. intros x Hx. apply in_rev in Hx. rewrite Forall_forall in E. apply E; exact Hx.
  - intros x r H. rewrite H in Hl. apply (C x (r ++ rev b)). exact Hl.
  - intros x r H. apply (f_equal (@rev _)) in H. rewrite rev_involutive, rev_app_distr in H. apply (F x (rev r)). exact H.
Qed.
Lemma stripped_fun t u v : stripped t u -> stripped t v -> u = v.
Proof.
  intros ((a & b & E1 & S1) & U1 & U2) ((a' & b' & E2 & S2) & V1 & V2).
  apply Forall_app in S1 as [Sa Sb]. apply Forall_app in S2 as [Sa' Sb'].
  assert (H1 : u ++ b = v ++ b' \/ (u = [] /\ Forall (fun c => is_space c = true) (v ++ b')) \/ (v = [] /\ Forall (fun c => is_space c = true) (u ++ b))).
  { rewrite E1 in E2. clear E1. revert a' E2 Sa'. clear t. induction Sa as [|x a Hx Sa IH]; intros a' E Sa'.
    - destruct Sa' as [|y a' Hy Sa']; [left; exact E|].
      destruct u as [|z u]; [|injection E as -> _; rewrite (U1 y u eq_refl) in Hy; discriminate Hy].
      right; left. split; [reflexivity|]. simpl in E. rewrite E in Sb. inversion Sb as [|? ? _ Q]; subst.
      apply Forall_app in Q. apply Q.
    - destruct Sa' as [|y a' Hy Sa'].
      + destruct v as [|z v]; [|injection E as -> _; rewrite (V1 z v eq_refl) in Hx; discriminate Hx].
        right; right. split; [reflexivity|]. simpl in E. rewrite <- E in Sb'. inversion Sb' as [|? ? _ Q]; subst.
        apply Forall_app in Q. apply Q.
      + injection E as _ E. apply (IH a' E Sa'). }
  assert (Hnil : forall (w : str) (d : str), Forall (fun c => is_space c = true) (w ++ d) -> (forall x r, w = x :: r -> is_space x = false) -> w = []).
  { intros [|x w] d Q W; [reflexivity|]. inversion Q as [|? ? Q1 _]; subst. rewrite (W x w eq_refl) in Q1. discriminate Q1. }
  destruct H1 as [H1|[[-> Q]|[-> Q]]].
  2: { symmetry. apply (Hnil v b' Q V1). }
  2: { apply (Hnil u b Q U1). }
  clear -H1 Sb Sb' U2 V2.
  apply (f_equal (@rev _)) in H1. rewrite !rev_app_distr in H1.
  apply Forall_rev in Sb. apply Forall_rev in Sb'. revert H1 Sb'. generalize (rev b'). 
  assert (W2 : forall w, (forall x r, w = r ++ [x] -> is_space x = false) -> forall x r, rev w = x :: r -> is_space x = false).
  { intros w W x r H. apply (f_equal (@rev _)) in H. rewrite rev_involutive in H. apply (W x (rev r)). exact H. }
  pose proof (W2 u U2) as U2'. pose proof (W2 v V2) as V2'.
  induction Sb as [|x d Hx Sd IH]; intros d' E Sd'.
  - destruct Sd' as [|y d' Hy Sd'].
    + simpl in E. apply (f_equal (@rev _)) in E. rewrite !rev_involutive in E. exact E.
    + simpl in E. rewrite (U2' y (d' ++ rev v) E) in Hy. discriminate Hy.
  - destruct Sd' as [|y d' Hy Sd'].
    + simpl in E. symmetry in E. rewrite (V2' x (d ++ rev u) E) in Hx. discriminate Hx.
    + injection E as _ E. apply (IH d' E Sd').
Qed.

Lemma has_cue_iff cue l : has_cue cue l <-> line_comment (ld l) = Some cue.
Proof.
  unfold has_cue, line_comment. destruct (dget (S_ ";") (ld l)) as [[[f|t]|d]|].
  2: { split.
       - intros (t' & E & H). injection E as <-. rewrite (stripped_fun _ _ _ (strip_stripped t) H). reflexivity.
       - intros H; injection H as <-. exists t. split; [reflexivity|apply strip_stripped]. }
  all: split; [intros (t & E & _); discriminate E|discriminate].
Qed.
Lemma layers_count cue ls : cue_count cue ls (layers_after (Some cue) ls 0).
Proof.
  induction ls as [|l ls IH] using rev_ind; [constructor|].
  unfold layers_after in *. rewrite fold_left_app. cbn [fold_left]. set (n := fold_left _ ls 0) in *.
  unfold next_layer. destruct (line_comment (ld l)) as [co|] eqn:E.
  - destruct (str_eqb_spec cue co) as [<-|Hne].
    + constructor; [exact IH|]. apply has_cue_iff; exact E.
    + apply cc_other; [exact IH|]. rewrite has_cue_iff. congruence.
  - apply cc_other; [exact IH|]. rewrite has_cue_iff. congruence.
Qed.

(** * C07 *)
Lemma no_command_line t : (forall k, command k -> ~ occurs k t) -> arg_extract t known_commands = Ok [].
Proof.
  intros H. rewrite arg_extract_known.
  assert (E : find_matches known_keys t = []).
  { assert (G : forall keys, incl keys known_keys -> find_matches keys t = []).
    { induction keys as [|k keys IH]; intros Hi; [reflexivity|]. rewrite find_matches_cons.
      destruct (find k t) as [i|] eqn:F.
      - exfalso. apply (H k); [apply Hi; left; reflexivity|]. apply find_occurs. congruence.
      - apply IH. intros x Hx. apply Hi. right. exact Hx. }
    apply G. apply incl_refl. }
  rewrite E. reflexivity.
Qed.
Lemma step_nothing N m : step_vm N [] m = Ok (m, None).
Proof. destruct m. reflexivity. Qed.

(** Inserting a line without commands. *)
Lemma read_lines_shift : forall ts i j ls, read_lines i ts = Ok ls ->
  exists ls', read_lines j ts = Ok ls' /\ map ld ls' = map ld ls.
Proof.
  induction ts as [|t ts IH]; intros i j ls H.
  - injection H as <-. exists []. split; reflexivity.
  - cbn [read_lines] in *. destruct (arg_extract t known_commands) as [d|]; cbn [bind] in *; [|discriminate].
    destruct (read_lines (S i) ts) as [rest|] eqn:E; cbn [bind] in H; [|discriminate]. injection H as <-.
    destruct (IH _ (S j) _ E) as (ls' & A & B). rewrite A. cbn [bind]. eexists. split; [reflexivity|].
    cbn [map ld]. rewrite B. reflexivity.
Qed.
Lemma read_lines_cat : forall a b i la lb, read_lines i a = Ok la -> read_lines (i + length a) b = Ok lb ->
  read_lines i (a ++ b) = Ok (la ++ lb).
Proof.
  induction a as [|t a IH]; intros b i la lb Ha Hb.
  - injection Ha as <-. cbn [length] in Hb. rewrite Nat.add_0_r in Hb. exact Hb.
  - cbn [app read_lines] in *. destruct (arg_extract t known_commands) as [d|]; cbn [bind] in *; [|discriminate].
    destruct (read_lines (S i) a) as [rest|] eqn:E; cbn [bind] in Ha; [|discriminate]. injection Ha as <-.
    rewrite (IH b (S i) rest lb E); [reflexivity|]. cbn [length] in Hb. rewrite Nat.add_succ_r in Hb. exact Hb.
Qed.
Lemma travel_views N cue : forall ls ls' m n sts, map ld ls' = map ld ls -> travel N cue ls m n = Ok sts ->
  exists sts', travel N cue ls' m n = Ok sts' /\ map view sts' = map view sts.
Proof.
  induction ls as [|l ls IH]; intros [|l' ls'] m n sts E H; try discriminate E.
  - injection H as <-. exists []. split; reflexivity.
  - cbn [map] in E. injection E as E1 E2. cbn [travel] in *. rewrite E1.
    destruct (step_vm N (ld l) m) as [[m' p]|]; cbn [bind] in *; [|discriminate].
    destruct (travel N cue ls m' _) as [rest|] eqn:Et; cbn [bind] in H; [|discriminate]. injection H as <-.
    destruct (IH _ _ _ _ E2 Et) as (sts' & A & B). rewrite A. cbn [bind]. eexists. split; [reflexivity|].
    cbn [map]. rewrite B. unfold line_state, view. cbn. rewrite E1. reflexivity.
Qed.
Lemma travel_insert N cue l0 : ld l0 = [] -> forall b ls ls' m n sts, map ld ls' = map ld ls -> length ls >= b ->
  travel N cue ls m n = Ok sts ->
  exists sts' s, travel N cue (firstn b ls' ++ l0 :: skipn b ls') m n = Ok sts' /\
    map view sts' = map view (firstn b sts) ++ view s :: map view (skipn b sts) /\
    pause s = None /\ comment s = None /\
    (b = 0 -> state_position s = vm_position N m /\ state_p_settings s = vm_settings N m (vm_units N m)) /\
    (forall b' q, b = S b' -> nth_error sts b' = Some q ->
       state_position s = state_position q /\ state_p_settings s = state_p_settings q /\ layer s = layer q).
Proof.
  intros H0. induction b as [|b IH]; intros ls ls' m n sts E Hl H.
  - cbn [firstn skipn app travel]. rewrite H0, step_nothing. cbn [bind].
    change (line_comment []) with (@None str).
    assert (Hn : next_layer cue None n = n) by (destruct cue; reflexivity). rewrite Hn.
    destruct (travel_views N cue ls ls' m n sts E H) as (sts' & A & B). rewrite A. cbn [bind].
    eexists. exists (line_state N cue l0 m None n). split; [reflexivity|]. cbn [map firstn app skipn]. rewrite B.
    split; [reflexivity|]. unfold line_state. rewrite H0. repeat split; intros; discriminate.
  - destruct ls as [|l ls]; [simpl in Hl; lia|]. destruct ls' as [|l' ls']; [discriminate E|].
    cbn [map] in E. injection E as E1 E2. cbn [travel] in H.
    destruct (step_vm N (ld l) m) as [[m' p]|] eqn:Es; cbn [bind] in H; [|discriminate].
    destruct (travel N cue ls m' _) as [rest|] eqn:Et; cbn [bind] in H; [|discriminate]. injection H as <-.
    assert (Hl' : length ls >= b) by (simpl in Hl; lia).
    destruct (IH _ _ _ _ _ E2 Hl' Et) as (sts' & s & A & B & C & D & F & G).
    cbn [firstn skipn app travel]. rewrite E1, Es. cbn [bind]. rewrite A. cbn [bind].
    eexists. exists s. split; [reflexivity|]. cbn [map app]. rewrite B.
    split; [unfold line_state, view at 1; cbn; rewrite E1; reflexivity|].
    split; [exact C|]. split; [exact D|]. split; [discriminate|].
    intros b' q Eb Hq. injection Eb as <-. destruct b as [|b].
    + injection Hq as <-. destruct (F eq_refl) as [F1 F2]. unfold line_state. cbn [state_position state_p_settings layer].
      split; [exact F1|]. split; [exact F2|].
      (* layer of the inserted state right behind *)
      cbn [firstn skipn app travel] in A. rewrite H0, step_nothing in A. cbn [bind] in A.
      change (line_comment []) with (@None str) in A.
      assert (Hn : forall k, next_layer cue None k = k) by (intros; destruct cue; reflexivity). rewrite Hn in A.
      destruct (travel N cue ls' m' _) as [r|]; cbn [bind] in A; [|discriminate]. injection A as <-.
      cbn [map firstn app] in B. injection B as _ _ _ _ B6 _. rewrite <- B6. reflexivity.
    + apply (G b q eq_refl). exact Hq.
Qed.
(** A word the table knows only a prefix of: commands that take arguments raise. *)
Lemma numeric_rest_raises pre cmd keys w f : plain pre -> plain w -> command_args cmd (Some keys) ->
  (forall k, command k -> prefixb k (cmd ++ w) = prefixb k cmd) -> py_float (unblank w) = Some f ->
  arg_extract (pre ++ cmd ++ w) known_commands = Err TypeError.
Proof.
  intros Hp Hw Hc Hl Hf. destruct (table_args cmd (Some keys) Hc) as (C1 & C2 & C3 & _).
  rewrite one_command by assumption. unfold line_value. rewrite C2, cast_unblank, Hf. reflexivity.
Qed.

(** * From text to states *)
Lemma documented_args cmd o : In (cmd, o) documented -> command_args (S_ cmd) (option_map letters o).
Proof.
  intros H. unfold command_args.
  change known_commands with (map (fun p => (S_ (fst p), option_map letters (snd p))) documented).
  apply in_map_iff. exists (cmd, o). split; [reflexivity|exact H].
Qed.

Definition parsed (t : str) (l : line_dict) : Prop := arg_extract t known_commands = Ok (ld l).
Lemma read_lines_parsed : forall ts i ls, read_lines i ts = Ok ls -> Forall2 parsed ts ls.
Proof.
  induction ts as [|t ts IH]; intros i ls H; [injection H as <-; constructor|].
  cbn [read_lines] in H. destruct (arg_extract t known_commands) as [d|] eqn:E; cbn [bind] in H; [|discriminate].
  destruct (read_lines (S i) ts) as [rest|] eqn:Er; cbn [bind] in H; [|discriminate]. injection H as <-.
  constructor; [exact E|apply (IH _ _ Er)].
Qed.
Lemma Forall2_len {A B} (P : A -> B -> Prop) a b : Forall2 P a b -> length a = length b.
Proof. induction 1; simpl; congruence. Qed.
Lemma reads_text_reads N (su : setup_values N) bt t s s' : reads_text su bt t s s' ->
  exists before line, reads su before line s s' /\ Forall2 parsed bt before /\ parsed t line /\
    Forall proper_line (before ++ [line]).
Proof.
  intros (after & sts & H & H1 & H2). unfold generate_states in H.
  destruct (read_gcode_to_dict_list (bt ++ t :: after)) as [ls|] eqn:E; cbn [bind] in H; [|discriminate].
  pose proof (read_lines_parsed _ _ _ E) as F. pose proof (read_lines_proper _ _ _ E) as P.
  apply Forall2_app_inv_l in F as (l1 & l2 & F1 & F2 & ->). inversion F2 as [|? line ? rest P1 P2]; subst.
  exists l1, line. split; [|split; [exact F1|split; [exact P1|]]].
  - exists rest, sts. rewrite <- (Forall2_len _ _ _ F1). auto.
  - apply Forall_app in P as [Pa Pb]. apply Forall_app. split; [exact Pa|]. inversion Pb; subst. constructor; [assumption|constructor].
Qed.
Lemma parsed_occurs t l k v : parsed t l -> dget k (ld l) = Some v -> occurs k t.
Proof.
  intros H Hg. apply dget_in in Hg. apply (reported_commands t (ld l) k H) in Hg as (_ & i & (Ho & _) & _). exists i. exact Ho.
Qed.
Lemma switch_stays on off ls : Forall (fun l => flagb off l = false) ls -> switch on off true ls = true.
Proof.
  unfold switch. induction 1 as [|l ls H _ IH]; [reflexivity|]. cbn [fold_left]. rewrite H. destruct (flagb on l); exact IH.
Qed.
Definition mode_off (a : axis) : str := match a with AE => S_ "M83" | _ => S_ "G91" end.
Lemma never_relative a bt before : Forall2 parsed bt before -> Forall (fun t => ~ occurs (mode_off a) t) bt ->
  absolute_after a before = true.
Proof.
  intros F H. assert (G : Forall (fun l => flagb (mode_off a) l = false) before).
  { induction F as [|t l ts ls P F IH]; [constructor|]. inversion H as [|? ? H1 H2]; subst. constructor; [|apply IH; exact H2].
    unfold flagb. destruct (dget (mode_off a) (ld l)) as [v|] eqn:E; [|reflexivity].
    exfalso. apply H1. apply (parsed_occurs t l _ v P E). }
  destruct a; apply switch_stays; exact G.
Qed.
Lemma never_renamed a bt before : Forall2 parsed bt before -> Forall (fun t => ~ occurs (S_ "G92") t) bt ->
  Forall (no_g92 a) before.
Proof.
  intros F H. induction F as [|t l ts ls P F IH]; [constructor|]. inversion H as [|? ? H1 H2]; subst. constructor; [|apply IH; exact H2].
  unfold no_g92, word. destruct (dget (S_ "G92") (ld l)) as [v|] eqn:E; [|reflexivity].
  exfalso. apply H1. apply (parsed_occurs t l _ v P E).
Qed.

Lemma lit_num_val l x : meansR (LNum (lit_val l)) x -> x = lit_num l.
Proof.
  intros (m & e & E & ->). unfold lit_val in E. injection E as <- <-. unfold lit_num. cbn [n_of_dec Rops].
  set (z := decimal _). set (k := length (frac_digits l)).
  assert (Es : IZR ((match l_sign l with Some true => -1 | _ => 1 end) * z) =
               (match l_sign l with Some true => -1 | _ => 1 end * IZR z)%R).
  { rewrite mult_IZR. destruct (l_sign l) as [[|]|]; reflexivity. }
  unfold r_of_dec. destruct k as [|k]; cbn [Z.of_nat Z.opp pow].
  - rewrite Es. unfold Rdiv. rewrite Rinv_1. ring.
  - rewrite Es. unfold Rdiv. f_equal. f_equal. rewrite Pos2Z.inj_pow.
    replace (Z.pos (Pos.of_succ_nat k)) with (Z.of_nat (S k)) by reflexivity. rewrite <- pow_IZR. reflexivity.
Qed.

Lemma args_meaning_get keys args k l : In k keys -> NoDup keys -> lookup_arg k args = Some l ->
  dget k (args_meaning keys args) = Some (LNum (lit_val l)).
Proof.
  intros Hi Hn Hl. unfold args_meaning. induction keys as [|k0 keys IH]; [destruct Hi|].
  inversion Hn as [|? ? N1 N2]; subst. cbn [flat_map]. rewrite dget_app. destruct Hi as [->|Hi].
  - rewrite Hl. cbn [dget]. rewrite str_eqb_refl. reflexivity.
  - assert (k <> k0) by (intros ->; contradiction).
    destruct (lookup_arg k0 args) as [l0|]; cbn [dget]; [rewrite str_eqb_false by assumption|]; apply IH; assumption.
Qed.
