(** The states of a program: C05, C08-C19. *)
From Coq Require Import Reals Lra Permutation.
From Verif Require Import Py PyFloat Parser StateGen StrFacts DedupeProofs SpecRead ParserProofs SpecMachine ReadProofs.
Open Scope nat_scope.
Local Arguments S_ : simpl never.
Local Arguments known_keys : simpl never.

(** * Parsed lines are proper *)
Lemma dset_nodup {V} k (v : V) d : NoDup (dkeys d) -> NoDup (dkeys (dset k v d)).
Proof.
  intros H. rewrite dkeys_dset. destruct (dmem k d) eqn:E; [exact H|].
  apply NoDup_Add with (a := k) (l := dkeys d).
  - rewrite <- (app_nil_r (dkeys d)) at 1. apply Add_app.
  - split; [exact H|]. intros Hi. apply dmem_iff in Hi. congruence.
Qed.
Lemma leaf_nodup s keys d : arg_extract_leaf s keys = Ok d -> NoDup (dkeys d).
Proof.
  unfold arg_extract_leaf. destruct (dedupe (find_matches keys s)) as [ms|]; cbn [bind]; [|discriminate].
  intros H; injection H as <-.
  assert (G : forall (f : pmatch -> leaf) (p : pmatch -> bool) ms d, NoDup (dkeys d) ->
     NoDup (dkeys (fold_left (fun d m => if p m then dset (m_key m) (f m) d else d) ms d))).
  { intros f p. clear ms. induction ms as [|m ms IH]; intros d Hd; [exact Hd|]. cbn [fold_left]. apply IH.
    destruct (p m); [apply dset_nodup; exact Hd|exact Hd]. }
  apply (G _ (fun m => (m_end m <=? comment_begin ms (length s)) || str_eqb (m_key m) (S_ ";"))). constructor.
Qed.
Definition proper_dict (d : dict arg) : Prop :=
  NoDup (dkeys d) /\ forall cmd s, dget cmd d = Some (ADict s) -> NoDup (dkeys s).
Lemma extract_all_proper s kd starts cb : forall ms d d', proper_dict d ->
  extract_all s kd starts cb ms d = Ok d' -> proper_dict d'.
Proof.
  induction ms as [|m ms IH]; intros d d' Hd H; [injection H as <-; exact Hd|].
  cbn [extract_all] in H. destruct (extract_one s kd starts cb d m) as [d1|] eqn:E; cbn [bind] in H; [|discriminate].
  apply (IH d1); [|exact H]. clear IH H. unfold extract_one in E.
  set (a := if str_eqb (m_key m) (S_ ";") then _ else _) in E.
  destruct (match key_lookup (m_key m) kd with None => _ | Some _ => _ end) as [v|] eqn:Ev; cbn [bind] in E; [|discriminate].
  injection E as <-. destruct ((m_end m <=? cb) || str_eqb (m_key m) (S_ ";")); [|exact Hd].
  destruct Hd as [H1 H2]. split; [apply dset_nodup; exact H1|].
  intros cmd sub. rewrite dget_dset. destruct (str_eqb cmd (m_key m)); [|apply H2].
  intros Q; injection Q as ->. destruct (key_lookup (m_key m) kd) as [subkeys|]; [|discriminate].
  destruct a as [f|w]; [discriminate|]. destruct (arg_extract_leaf w subkeys) as [sd|] eqn:Es; cbn [bind] in Ev; [|discriminate].
  injection Ev as <-. apply (leaf_nodup _ _ _ Es).
Qed.
Lemma arg_extract_proper s kd d : arg_extract s kd = Ok d -> proper_dict d.
Proof.
  unfold arg_extract. destruct (dedupe _) as [ms|]; cbn [bind]; [|discriminate].
  apply extract_all_proper. split; [constructor|]. intros cmd sub Q. discriminate Q.
Qed.
Lemma read_lines_proper : forall lines i ls, read_lines i lines = Ok ls -> Forall proper_line ls.
Proof.
  induction lines as [|t lines IH]; intros i ls H; [injection H as <-; constructor|].
  cbn [read_lines] in H. destruct (arg_extract t known_commands) as [d|] eqn:E; cbn [bind] in H; [|discriminate].
  destruct (read_lines (S i) lines) as [rest|] eqn:Er; cbn [bind] in H; [|discriminate]. injection H as <-.
  constructor; [exact (arg_extract_proper _ _ _ E)|apply (IH _ _ Er)].
Qed.

(** * C05 *)
Lemma read_lines_numbers : forall lines i ls, read_lines i lines = Ok ls ->
  length ls = length lines /\ map ld_number ls = seq (S i) (length lines) /\
  forall k t, nth_error lines k = Some t -> exists l, nth_error ls k = Some l /\ arg_extract t known_commands = Ok (ld l).
Proof.
  induction lines as [|t lines IH]; intros i ls H.
  - injection H as <-. repeat split. intros k t Hk. destruct k; discriminate Hk.
  - cbn [read_lines] in H. destruct (arg_extract t known_commands) as [d|] eqn:E; cbn [bind] in H; [|discriminate].
    destruct (read_lines (S i) lines) as [rest|] eqn:Er; cbn [bind] in H; [|discriminate]. injection H as <-.
    destruct (IH _ _ Er) as (A & B & C). cbn [length map seq ld_number].
    split; [congruence|]. split; [rewrite B; f_equal; lia|].
    intros [|k] u Hk.
    + injection Hk as <-. eexists. split; [reflexivity|exact E].
    + apply (C k u Hk).
Qed.

Section Reader.
Variable N : numops.
Notation vm := (vm N).
Notation state := (state N).

Lemma travel_numbers cue : forall ls m n sts, travel N cue ls m n = Ok sts ->
  map line_number sts = map (fun l => Some (ld_number l)) ls.
Proof.
  induction ls as [|l ls IH]; intros m n sts H; [injection H as <-; reflexivity|].
  cbn [travel] in H. destruct (step_vm N (ld l) m) as [[m' p]|]; cbn [bind] in H; [|discriminate].
  destruct (travel N cue ls m' _) as [rest|] eqn:E; cbn [bind] in H; [|discriminate]. injection H as <-.
  cbn [map]. rewrite (IH _ _ _ E). reflexivity.
Qed.

(** * The machine after some lines *)
Fixpoint vm_after (ls : list line_dict) (m : vm) : res vm :=
  match ls with [] => Ok m | l :: ls' => '(m', _) <- step_vm N (ld l) m ;; vm_after ls' m' end.

Lemma vm_after_app a : forall b m, vm_after (a ++ b) m = (m' <- vm_after a m ;; vm_after b m').
Proof.
  induction a as [|l a IH]; intros b m; [reflexivity|]. cbn [app vm_after].
  destruct (step_vm N (ld l) m) as [[m' p]|]; cbn [bind]; [apply IH|reflexivity].
Qed.

Definition layers_after (cue : option str) (ls : list line_dict) (n : nat) : nat :=
  fold_left (fun n l => next_layer cue (line_comment (ld l)) n) ls n.

Lemma travel_nth cue : forall ls m n sts i l, travel N cue ls m n = Ok sts -> nth_error ls i = Some l ->
  exists mi m' p, vm_after (firstn i ls) m = Ok mi /\ step_vm N (ld l) mi = Ok (m', p) /\
    nth_error sts i = Some (line_state N cue l m' p (layers_after cue (firstn (S i) ls) n)).
Proof.
  induction ls as [|l0 ls IH]; intros m n sts i l H Hi; [destruct i; discriminate Hi|].
  cbn [travel] in H. destruct (step_vm N (ld l0) m) as [[m1 p1]|] eqn:E1; cbn [bind] in H; [|discriminate].
  destruct (travel N cue ls m1 _) as [rest|] eqn:E; cbn [bind] in H; [|discriminate]. injection H as <-.
  destruct i as [|i].
  - injection Hi as <-. exists m, m1, p1. split; [reflexivity|]. split; [exact E1|]. reflexivity.
  - destruct (IH _ _ _ i l E Hi) as (mi & m' & p & A & B & C). exists mi, m', p.
    split; [cbn [firstn vm_after]; rewrite E1; exact A|]. split; [exact B|]. exact C.
Qed.
Lemma travel_length cue : forall ls m n sts, travel N cue ls m n = Ok sts -> length sts = length ls.
Proof.
  intros ls m n sts H. apply travel_numbers in H. apply (f_equal (@length _)) in H. rewrite !map_length in H. exact H.
Qed.

Lemma traveler_split ls su sts : dict_list_traveler N ls su = Ok sts ->
  exists rest, sts = initial_state N su :: rest /\ travel N (s_layer_cue N su) ls (init_vm N su) 0 = Ok rest.
Proof.
  unfold dict_list_traveler. destruct (travel N (s_layer_cue N su) ls (init_vm N su) 0) as [rest|]; cbn [bind]; [|discriminate].
  intros H; injection H as <-. exists rest; auto.
Qed.

Definition shows_vm (s : state) (m : vm) : Prop :=
  state_position s = vm_position N m /\ state_p_settings s = vm_settings N m (vm_units N m).

(** The state with index i shows the machine after i lines. *)
Lemma state_shows ls su sts i s : dict_list_traveler N ls su = Ok sts -> nth_error sts i = Some s ->
  exists m, vm_after (firstn i ls) (init_vm N su) = Ok m /\ shows_vm s m.
Proof.
  intros H Hi. apply traveler_split in H as (rest & -> & H). destruct i as [|i].
  - injection Hi as <-. exists (init_vm N su). split; [reflexivity|]. split; reflexivity.
  - cbn [nth_error] in Hi.
    assert (Hl : i < length ls). { rewrite <- (travel_length _ _ _ _ _ H). apply nth_error_Some. congruence. }
    destruct (nth_error ls i) as [l|] eqn:El; [|apply nth_error_None in El; lia].
    destruct (travel_nth _ _ _ _ _ _ _ H El) as (mi & m' & p & A & B & C).
    exists m'. split.
    + assert (E : firstn (S i) ls = firstn i ls ++ [l]).
      { clear -El. revert i El. induction ls as [|x ls IH]; intros [|i] E; try discriminate E.
        - injection E as ->. reflexivity.
        - cbn [firstn app]. f_equal. apply IH; exact E. }
      rewrite E, vm_after_app, A. cbn [bind vm_after]. rewrite B. reflexivity.
    + rewrite C in Hi. injection Hi as <-. split; reflexivity.
Qed.

Lemma reads_step su before line s s' : reads su before line s s' ->
  exists m m' p, vm_after before (init_vm N su) = Ok m /\ step_vm N (ld line) m = Ok (m', p) /\
    shows_vm s m /\ shows_vm s' m' /\ pause s' = p /\ line_number s' = Some (ld_number line) /\
    comment s' = line_comment (ld line).
Proof.
  intros (after & sts & H & H1 & H2).
  destruct (state_shows _ _ _ _ _ H H1) as (m & A & B).
  rewrite firstn_app, firstn_all, Nat.sub_diag, app_nil_r in A.
  apply traveler_split in H as (rest & -> & H). cbn [nth_error] in H2.
  assert (El : nth_error (before ++ line :: after) (length before) = Some line).
  { rewrite nth_error_app2, Nat.sub_diag by lia. reflexivity. }
  destruct (travel_nth _ _ _ _ _ _ _ H El) as (mi & m' & p & C & D & E).
  rewrite firstn_app, firstn_all, Nat.sub_diag, app_nil_r in C. rewrite A in C. injection C as <-.
  rewrite E in H2. injection H2 as <-. exists m, m', p. repeat split; auto.
  - destruct B; assumption.
  - destruct B; assumption.
Qed.

Lemma coord_vm a m : coord a (vm_position N m) = n_add N (get_c N a m) (get_o N a m).
Proof. destruct a; reflexivity. Qed.

(** * Modes and offsets along a history *)
Lemma abs_after a : forall ls m m', Forall proper_line ls -> vm_after ls m = Ok m' ->
  abs_of N a m' = match a with AE => switch (S_ "M82") (S_ "M83") (abs_of N a m) ls
                  | _ => switch (S_ "G90") (S_ "G91") (abs_of N a m) ls end.
Proof.
  induction ls as [|l ls IH]; intros m m' Hp H.
  - injection H as <-. destruct a; reflexivity.
  - cbn [vm_after] in H. destruct (step_vm N (ld l) m) as [[m1 p]|] eqn:E; cbn [bind] in H; [|discriminate].
    inversion Hp as [|? ? P1 P2]; subst. rewrite (IH _ _ P2 H). pose proof (step_effect N l m m1 p P1 E) as Q.
    rewrite (le_abs _ _ _ _ _ Q a). unfold switch. destruct a; reflexivity.
Qed.
Lemma absolute_mode a ls su m : Forall proper_line ls -> vm_after ls (init_vm N su) = Ok m ->
  abs_of N a m = absolute_after a ls.
Proof. intros Hp H. rewrite (abs_after a _ _ _ Hp H). destruct a; reflexivity. Qed.

Lemma off_after a : forall ls m m', Forall proper_line ls -> Forall (no_g92 a) ls -> vm_after ls m = Ok m' ->
  get_o N a m' = get_o N a m.
Proof.
  induction ls as [|l ls IH]; intros m m' Hp Hn H.
  - injection H as <-. reflexivity.
  - cbn [vm_after] in H. destruct (step_vm N (ld l) m) as [[m1 p]|] eqn:E; cbn [bind] in H; [|discriminate].
    inversion Hp as [|? ? P1 P2]; subst. inversion Hn as [|? ? N1 N2]; subst. rewrite (IH _ _ P2 N2 H).
    destruct (le_coord _ _ _ _ _ (step_effect N l m m1 p P1 E) a) as (x0 & x1 & _ & _ & C). rewrite N1 in C. apply C.
Qed.

(** An absolute move on the machine. *)
Lemma abs_move a l m m' p lf : proper_line l -> step_vm N (ld l) m = Ok (m', p) ->
  abs_of N a m' = true -> move_word (name a) l = Some lf -> no_g92 a l ->
  exists x, means (N := N) lf x /\ get_c N a m' = x /\ get_o N a m' = get_o N a m.
Proof.
  intros Hp H Ha Hw Hn. pose proof (step_effect N l m m' p Hp H) as Q.
  destruct (le_coord _ _ _ _ _ Q a) as (x0 & x1 & A & B & C). unfold no_g92 in Hn. rewrite Hn in C.
  rewrite Ha in A, B. destruct C as [C1 C2]. unfold move_word in Hw.
  destruct (word (S_ "G1") (name a) l) as [l1|].
  - injection Hw as <-. destruct B as (x & X1 & X2). exists x. rewrite C1, X2. auto.
  - rewrite Hw in A. destruct A as (x & X1 & X2). exists x. rewrite C1, B, X2. auto.
Qed.

(** C11 *)
Lemma unnamed_step a l m m' p : proper_line l -> step_vm N (ld l) m = Ok (m', p) ->
  word (S_ "G0") (name a) l = None -> word (S_ "G1") (name a) l = None -> no_g92 a l ->
  get_c N a m' = get_c N a m /\ get_o N a m' = get_o N a m.
Proof.
  intros Hp H H0 H1 Hn. destruct (le_coord _ _ _ _ _ (step_effect N l m m' p Hp H) a) as (x0 & x1 & A & B & C).
  unfold no_g92 in Hn. rewrite H0 in A. rewrite H1 in B. rewrite Hn in C. destruct C as [C1 C2]. subst. split; congruence.
Qed.

(** * C16: layers *)
Lemma layers_after_app cue a b n : layers_after cue (a ++ b) n = layers_after cue b (layers_after cue a n).
Proof. unfold layers_after. apply fold_left_app. Qed.

(** * C17: G0 and G1 *)
Lemma rename_get_other k d : k <> S_ "G0" -> k <> S_ "G1" ->
  dget k (map (fun kv => (rename (fst kv), snd kv)) d) = dget k (d : dict arg).
Proof.
  intros H0 H1. induction d as [|[k' v] d IH]; [reflexivity|]. cbn [map fst snd dget]. rewrite IH.
  unfold rename. destruct (str_eqb_spec k' (S_ "G0")) as [->|E]; [|reflexivity].
  rewrite !str_eqb_false by assumption. reflexivity.
Qed.
Lemma rename_get_0 d : dget (S_ "G0") (map (fun kv => (rename (fst kv), snd kv)) (d : dict arg)) = None.
Proof.
  induction d as [|[k' v] d IH]; [reflexivity|]. cbn [map fst snd dget]. rewrite IH.
  unfold rename. destruct (str_eqb_spec k' (S_ "G0")) as [->|E]; [reflexivity|].
  rewrite str_eqb_false by congruence. reflexivity.
Qed.
Lemma rename_get_1 d : (dget (S_ "G0") d = None \/ dget (S_ "G1") d = None) ->
  dget (S_ "G1") (map (fun kv => (rename (fst kv), snd kv)) (d : dict arg)) =
  match dget (S_ "G1") d with Some v => Some v | None => dget (S_ "G0") d end.
Proof.
  induction d as [|[k' v] d IH]; [reflexivity|]. cbn [map fst snd dget].
  unfold rename at 1. destruct (str_eqb_spec k' (S_ "G0")) as [->|E].
  - intros [H|H]; [discriminate H|]. change (str_eqb (S_ "G1") (S_ "G0")) with false in *. cbv iota in *. rewrite H. reflexivity.
  - rewrite (str_eqb_false (S_ "G0") k') by congruence.
    destruct (str_eqb (S_ "G1") k'); [reflexivity|exact IH].
Qed.

Lemma do_modes_ext d d' m : (forall k, k <> S_ "G0" -> k <> S_ "G1" -> dget k d' = dget k d) ->
  do_modes N d' m = do_modes N d m.
Proof.
  intros H. unfold do_modes, dmem.
  rewrite !H by (intros E; discriminate E). reflexivity.
Qed.
Lemma do_move_none cmd d m : sub_dict cmd d = None -> do_move N cmd d m = Ok m.
Proof. unfold do_move. intros ->. reflexivity. Qed.
Lemma g0_is_g1_step l m : (dget (S_ "G0") (ld l) = None \/ dget (S_ "G1") (ld l) = None) ->
  step_vm N (ld (as_g1 l)) m = step_vm N (ld l) m.
Proof.
  intros H.
  assert (Ho : forall k, k <> S_ "G0" -> k <> S_ "G1" -> dget k (ld (as_g1 l)) = dget k (ld l))
    by (intros k H0 H1; apply rename_get_other; assumption).
  assert (Hs : forall k, k <> S_ "G0" -> k <> S_ "G1" -> sub_dict k (ld (as_g1 l)) = sub_dict k (ld l))
    by (intros k H0 H1; unfold sub_dict; rewrite Ho by assumption; reflexivity).
  unfold step_vm. rewrite (do_modes_ext _ _ m Ho). set (m0 := do_modes N (ld l) m).
  assert (Hm : (m1 <- do_move N (S_ "G0") (ld (as_g1 l)) m0 ;; do_move N (S_ "G1") (ld (as_g1 l)) m1) =
               (m1 <- do_move N (S_ "G0") (ld l) m0 ;; do_move N (S_ "G1") (ld l) m1)).
  { rewrite do_move_none by (unfold sub_dict; cbn [ld as_g1]; rewrite rename_get_0; reflexivity). cbn [bind].
    unfold do_move at 1. unfold sub_dict. cbn [ld as_g1]. rewrite rename_get_1 by exact H.
    destruct (dget (S_ "G1") (ld l)) as [v1|] eqn:E1.
    - destruct H as [H|H]; [|discriminate H].
      rewrite (do_move_none (S_ "G0")) by (unfold sub_dict; rewrite H; reflexivity). cbn [bind].
      unfold do_move, sub_dict. rewrite E1. reflexivity.
    - transitivity (do_move N (S_ "G0") (ld l) m0); [unfold do_move, sub_dict; reflexivity|].
      destruct (do_move N (S_ "G0") (ld l) m0) as [m1|]; cbn [bind]; [|reflexivity].
      rewrite do_move_none by (unfold sub_dict; rewrite E1; reflexivity). reflexivity. }
  assert (bind_assoc : forall A B C (x : res A) (f : A -> res B) (g : B -> res C),
            (y <- (z <- x ;; f z) ;; g y) = (z <- x ;; y <- f z ;; g y)) by (intros A B C [|] f g; reflexivity).
  rewrite <- !bind_assoc in *. rewrite Hm.
  unfold do_sub, do_dwell. rewrite !Hs by (intros E; discriminate E). reflexivity.
Qed.
Lemma g0_is_g1_travel cue : forall ls m n,
  Forall (fun l => dget (S_ "G0") (ld l) = None \/ dget (S_ "G1") (ld l) = None) ls ->
  travel N cue (map as_g1 ls) m n = travel N cue ls m n.
Proof.
  induction ls as [|l ls IH]; intros m n H; [reflexivity|]. inversion H as [|? ? H1 H2]; subst.
  cbn [map travel]. rewrite g0_is_g1_step by exact H1.
  destruct (step_vm N (ld l) m) as [[m' p]|]; cbn [bind]; [|reflexivity].
  assert (Ec : line_comment (ld (as_g1 l)) = line_comment (ld l)).
  { unfold line_comment. cbn [ld as_g1]. rewrite rename_get_other by (intros E; discriminate E). reflexivity. }
  rewrite Ec, (IH _ _ H2). destruct (travel N cue ls m' _) as [rest|]; cbn [bind]; [|reflexivity].
  unfold line_state. rewrite Ec. reflexivity.
Qed.

(** * C19: causality *)
Lemma travel_prefix cue : forall ls ls' m n sts, travel N cue (ls ++ ls') m n = Ok sts ->
  travel N cue ls m n = Ok (firstn (length ls) sts).
Proof.
  induction ls as [|l ls IH]; intros ls' m n sts H; [reflexivity|].
  cbn [app travel] in *. destruct (step_vm N (ld l) m) as [[m' p]|]; cbn [bind] in *; [|discriminate].
  destruct (travel N cue (ls ++ ls') m' _) as [rest|] eqn:E; cbn [bind] in H; [|discriminate].
  injection H as <-. rewrite (IH _ _ _ _ E). reflexivity.
Qed.
Lemma traveler_prefix ls ls' su sts : dict_list_traveler N (ls ++ ls') su = Ok sts ->
  dict_list_traveler N ls su = Ok (firstn (S (length ls)) sts).
Proof.
  intros H. apply traveler_split in H as (rest & -> & H). unfold dict_list_traveler.
  rewrite (travel_prefix _ _ _ _ _ _ H). reflexivity.
Qed.
End Reader.

Lemma read_lines_app : forall a b i ls, read_lines i (a ++ b) = Ok ls ->
  exists lb, read_lines i a = Ok (firstn (length a) ls) /\ ls = firstn (length a) ls ++ lb.
Proof.
  induction a as [|t a IH]; intros b i ls H.
  - exists ls. split; reflexivity.
  - cbn [app read_lines] in *. destruct (arg_extract t known_commands) as [d|]; cbn [bind] in *; [|discriminate].
    destruct (read_lines (S i) (a ++ b)) as [rest|] eqn:E; cbn [bind] in H; [|discriminate].
    injection H as <-. destruct (IH _ _ _ E) as (lb & A & B). exists lb. rewrite A. cbn [bind length firstn].
    split; [reflexivity|]. cbn [app]. f_equal. exact B.
Qed.

(** * C08 *)
Lemma count_app k a b : count_str k (a ++ b) = count_str k a + count_str k b.
Proof. unfold count_str. rewrite filter_app, app_length. reflexivity. Qed.
Lemma count_in k l : In k l <-> 0 < count_str k l.
Proof.
  unfold count_str. split.
  - intros H. assert (In k (filter (str_eqb k) l)) by (apply filter_In; split; [exact H|apply str_eqb_refl]).
    destruct (filter (str_eqb k) l); [destruct H0|simpl; lia].
  - intros H. destruct (filter (str_eqb k) l) as [|x r] eqn:E; [simpl in H; lia|].
    assert (Hx : In x (filter (str_eqb k) l)) by (rewrite E; left; reflexivity).
    apply filter_In in Hx as [Hx Hk]. apply str_eqb_true in Hk. subst. exact Hx.
Qed.
Lemma count_nodup k l : NoDup l -> count_str k l = if existsb (str_eqb k) l then 1 else 0.
Proof.
  induction l as [|x l IH]; intros H; [reflexivity|]. inversion H as [|? ? H1 H2]; subst.
  unfold count_str in *. cbn [filter existsb]. destruct (str_eqb_spec k x) as [->|E].
  - cbn [length orb]. rewrite IH by exact H2. destruct (existsb (str_eqb x) l) eqn:Ex; [|reflexivity].
    apply existsb_exists in Ex as (y & Hy & Ey). apply str_eqb_true in Ey. subst. contradiction.
  - cbn [orb]. apply IH; exact H2.
Qed.
Lemma unsupported_b k : existsb (fun c : str * option (list str) => str_eqb k (fst c)) unsupported_commands = true <-> unsupported k.
Proof.
  change (unsupported k) with (In k (map fst unsupported_commands)). rewrite existsb_exists, in_map_iff. split.
  - intros (x & Hx & E). exists x. split; [symmetry; apply str_eqb_true; exact E|exact Hx].
  - intros (x & <- & Hx). exists x. split; [exact Hx|apply str_eqb_refl].
Qed.
Lemma existsb_filter_key k (p : str -> bool) l : p k = true -> existsb (str_eqb k) (filter p l) = existsb (str_eqb k) l.
Proof.
  intros Hp. induction l as [|x l IH]; [reflexivity|]. cbn [filter existsb].
  destruct (str_eqb_spec k x) as [->|E].
  - rewrite Hp. cbn [existsb]. rewrite str_eqb_refl. reflexivity.
  - destruct (p x); cbn [existsb]; rewrite ?IH; [|reflexivity]. rewrite str_eqb_false by exact E. reflexivity.
Qed.
Lemma found_count k ls : Forall proper_line ls -> unsupported k -> count_str k (unsupported_found ls) = lines_with k ls.
Proof.
  intros Hp Hk. induction Hp as [|l ls [H1 _] _ IH]; [reflexivity|].
  unfold unsupported_found, lines_with in *. cbn [flat_map filter]. rewrite count_app, IH.
  rewrite count_nodup by (apply NoDup_filter; exact H1). rewrite existsb_filter_key by (apply unsupported_b; exact Hk).
  destruct (existsb (str_eqb k) (dkeys (ld l))); cbn [length]; lia.
Qed.
Lemma found_unsupported k ls : In k (unsupported_found ls) -> unsupported k.
Proof.
  unfold unsupported_found. intros H. apply in_flat_map in H as (l & _ & H). apply filter_In in H as [_ H].
  apply unsupported_b; exact H.
Qed.
Lemma check_fold found : forall l d k, dget k (fold_left (fun d k => dset k (count_str k found) d) l d) =
  if existsb (str_eqb k) l then Some (count_str k found) else dget k d.
Proof.
  induction l as [|x l IH]; intros d k; [reflexivity|]. cbn [fold_left existsb]. rewrite IH, dget_dset.
  destruct (str_eqb_spec k x) as [->|E]; cbn [orb]; [destruct (existsb _ l); reflexivity|reflexivity].
Qed.
Lemma check_nodup found : forall l d, NoDup (dkeys d) -> NoDup (dkeys (fold_left (fun d k => dset k (count_str k found) d) l d)).
Proof. induction l as [|x l IH]; intros d H; [exact H|]. cbn [fold_left]. apply IH, dset_nodup, H. Qed.
Lemma unsupported_counted ls : Forall proper_line ls ->
  NoDup (dkeys (check_for_unsupported_commands ls)) /\
  forall k n, dget k (check_for_unsupported_commands ls) = Some n <-> unsupported k /\ n = lines_with k ls /\ 0 < n.
Proof.
  intros Hp. unfold check_for_unsupported_commands. split; [apply check_nodup; constructor|].
  intros k n. rewrite check_fold. cbn [dget].
  destruct (existsb (str_eqb k) (unsupported_found ls)) eqn:E.
  - apply existsb_exists in E as (y & Hy & Ey). apply str_eqb_true in Ey. subst y.
    pose proof (found_unsupported _ _ Hy) as Hu. rewrite (found_count k ls Hp Hu).
    apply count_in in Hy. rewrite (found_count k ls Hp Hu) in Hy. split.
    + intros Q; injection Q as <-. auto.
    + intros (_ & -> & _). reflexivity.
  - split; [discriminate|]. intros (Hu & -> & Hn). rewrite <- (found_count k ls Hp Hu) in Hn. apply count_in in Hn.
    assert (existsb (str_eqb k) (unsupported_found ls) = true) by (apply existsb_exists; exists k; split; [exact Hn|apply str_eqb_refl]).
    congruence.
Qed.
