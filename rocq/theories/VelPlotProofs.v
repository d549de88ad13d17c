(** The lists gathered for the velocity plot and its marks. *)
From Coq Require Import Reals ZArith Lra Lia.
From Verif Require Import Py StrFacts Vec Segment Junction Planner Query RealFacts SpecKin SpecJunction SpecQuery PlotVel SpecVelPlot
     CorrectProofs PlannerProofs TrajProofs PlanFacts JunctionProofs.
Open Scope R_scope.

Lemma axis_known ax : an_axis ax -> exists k, axis_index ax = Ok k /\ (k < 4)%nat /\ names_axis ax (component k).
Proof.
  intros (f & H). destruct H; [exists 0%nat|exists 1%nat|exists 2%nat|exists 3%nat]; (split; [reflexivity|split; [lia|]]).
  - exact na_x. - exact na_y. - exact na_z. - exact na_e.
Qed.
Lemma axis_unknown ax : ~ an_axis ax -> axis_index ax = Err KeyError.
Proof.
  intros H. unfold axis_index, axis_dict. cbn [dget].
  destruct (str_eqb ax (S_ "x")) eqn:E1; [apply str_eqb_true in E1; subst; destruct H; eexists; exact na_x|].
  destruct (str_eqb ax (S_ "y")) eqn:E2; [apply str_eqb_true in E2; subst; destruct H; eexists; exact na_y|].
  destruct (str_eqb ax (S_ "z")) eqn:E3; [apply str_eqb_true in E3; subst; destruct H; eexists; exact na_z|].
  destruct (str_eqb ax (S_ "e")) eqn:E4; [apply str_eqb_true in E4; subst; destruct H; eexists; exact na_e|]. reflexivity.
Qed.
Lemma axis_index_cases ax k : axis_index ax = Ok k ->
  (ax = S_ "x" /\ k = 0%nat) \/ (ax = S_ "y" /\ k = 1%nat) \/ (ax = S_ "z" /\ k = 2%nat) \/ (ax = S_ "e" /\ k = 3%nat).
Proof.
  unfold axis_index, axis_dict. cbn [dget]. intros E.
  destruct (str_eqb ax (S_ "x")) eqn:E1; [apply str_eqb_true in E1; injection E as <-; auto|].
  destruct (str_eqb ax (S_ "y")) eqn:E2; [apply str_eqb_true in E2; injection E as <-; auto|].
  destruct (str_eqb ax (S_ "z")) eqn:E3; [apply str_eqb_true in E3; injection E as <-; auto|].
  destruct (str_eqb ax (S_ "e")) eqn:E4; [apply str_eqb_true in E4; injection E as <-; auto 6|]. discriminate.
Qed.
Lemma axis_index_inj ax ax' k : axis_index ax = Ok k -> axis_index ax' = Ok k -> ax = ax'.
Proof.
  intros H H'. apply axis_index_cases in H. apply axis_index_cases in H'.
  destruct H as [[-> ->]|[[-> ->]|[[-> ->]|[-> ->]]]], H' as [[-> E]|[[-> E]|[[-> E]|[-> E]]]]; try discriminate E; reflexivity.
Qed.
Lemma axis_index_known ax k : axis_index ax = Ok k -> an_axis ax.
Proof.
  intros H. apply axis_index_cases in H. destruct H as [[-> _]|[[-> _]|[[-> _]|[-> _]]]]; eexists.
  - exact na_x. - exact na_y. - exact na_z. - exact na_e.
Qed.
Lemma axis_index_err ax e : axis_index ax = Err e -> e = KeyError.
Proof. unfold axis_index. destruct (dget ax axis_dict); [discriminate|]. intros E. injection E as <-. reflexivity. Qed.
(** How often an axis is asked for. *)
Fixpoint asked (axis : list str) (k : nat) : nat :=
  match axis with
  | [] => 0
  | ax :: axis' => (match axis_index ax with Ok j => if (j =? k)%nat then 1 else 0 | Err _ => 0 end) + asked axis' k
  end%nat.
Lemma asked_none axis k : (forall ax, In ax axis -> axis_index ax <> Ok k) -> asked axis k = 0%nat.
Proof.
  induction axis as [|ax axis IH]; intros H; [reflexivity|]. cbn [asked]. rewrite IH by (intros a Ha; apply H; right; exact Ha).
  destruct (axis_index ax) as [j|] eqn:E; [|reflexivity]. destruct (Nat.eqb_spec j k) as [->|N]; [|reflexivity].
  destruct (H ax (or_introl eq_refl) E).
Qed.
Lemma asked_once axis ax k : NoDup axis -> In ax axis -> axis_index ax = Ok k -> asked axis k = 1%nat.
Proof.
  induction 1 as [|a axis Hn Hd IH]; intros Hi Hk; [destruct Hi|]. cbn [asked]. destruct Hi as [->|Hi].
  - rewrite Hk, Nat.eqb_refl, asked_none; [reflexivity|]. intros a' Ha' E. rewrite (axis_index_inj _ _ _ Hk E) in Hn. contradiction.
  - rewrite (IH Hi Hk). destruct (axis_index a) as [j|] eqn:E; [|reflexivity]. destruct (Nat.eqb_spec j k) as [->|N]; [|reflexivity].
    rewrite (axis_index_inj _ _ _ Hk E) in Hi. contradiction.
Qed.
Lemma asked_in axis ax k : In ax axis -> axis_index ax = Ok k -> (1 <= asked axis k)%nat.
Proof.
  induction axis as [|a axis IH]; intros Hi Hk; [destruct Hi|]. cbn [asked]. destruct Hi as [->|Hi].
  - rewrite Hk, Nat.eqb_refl. lia.
  - specialize (IH Hi Hk). lia.
Qed.
Lemma asked_twice axis : Forall an_axis axis -> ~ NoDup axis -> exists k ax, In ax axis /\ axis_index ax = Ok k /\ (2 <= asked axis k)%nat.
Proof.
  induction 1 as [|a axis Ha Hx IH]; intros Hn; [destruct Hn; constructor|].
  destruct (in_dec (list_eq_dec Ascii.ascii_dec) a axis) as [Hi|Hi].
  - destruct (axis_known _ Ha) as (k & Hk & _). exists k, a. split; [left; reflexivity|]. split; [exact Hk|].
    cbn [asked]. rewrite Hk, Nat.eqb_refl. pose proof (asked_in _ _ _ Hi Hk). lia.
  - destruct IH as (k & ax & H1 & H2 & H3); [intros H; apply Hn; constructor; assumption|].
    exists k, ax. split; [right; exact H1|]. split; [exact H2|]. cbn [asked]. lia.
Qed.

Lemma upd_nth (vals : list (list R)) (k : nat) (x : list R) : length vals = 4%nat -> (k < 4)%nat ->
  length (firstn k vals ++ x :: skipn (S k) vals) = 4%nat /\
  forall j, nth j (firstn k vals ++ x :: skipn (S k) vals) [] = if (k =? j)%nat then x else nth j vals [].
Proof.
  intros Hl Hk. destruct vals as [|a [|b [|c [|d [|e vals]]]]]; try discriminate Hl.
  destruct k as [|[|[|[|k]]]]; [..|lia]; (split; [reflexivity|]); intros [|[|[|[|j]]]]; cbn; reflexivity || (destruct j; reflexivity).
Qed.
Lemma repeat_snoc {A} (x : A) n : repeat x n ++ [x] = x :: repeat x n.
Proof. induction n as [|n IH]; [reflexivity|]. cbn [repeat app]. rewrite IH. reflexivity. Qed.
Lemma append_ok axis v : Forall an_axis axis -> forall vals, length vals = 4%nat ->
  exists vals', append_axes axis v vals = Ok vals' /\ length vals' = 4%nat /\
    forall k, nth k vals' [] = nth k vals [] ++ repeat (component k v) (asked axis k).
Proof.
  induction 1 as [|ax axis Ha Hx IH]; intros vals Hl.
  - exists vals. split; [reflexivity|]. split; [exact Hl|]. intros k. rewrite app_nil_r. reflexivity.
  - destruct (axis_known _ Ha) as (j & Ej & Hj & _). cbn [append_axes asked]. rewrite Ej. cbn [bind].
    destruct (upd_nth vals j (nth j vals [] ++ [component j v]) Hl Hj) as [U1 U2]. destruct (IH _ U1) as (vals' & E & L & N).
    exists vals'. split; [exact E|]. split; [exact L|]. intros k. rewrite N, U2. destruct (Nat.eqb_spec j k) as [->|D]; [|reflexivity].
    rewrite <- app_assoc. reflexivity.
Qed.
Lemma append_err axis v vals : ~ Forall an_axis axis -> append_axes axis v vals = Err KeyError.
Proof.
  revert vals. induction axis as [|ax axis IH]; intros vals H; [destruct H; constructor|]. cbn [append_axes].
  destruct (axis_index ax) as [j|e] eqn:E.
  - cbn [bind]. apply IH. intros Hx. apply H. constructor; [|exact Hx].
    exact (axis_index_known _ _ E).
  - rewrite (axis_index_err _ _ E). reflexivity.
Qed.

(** ** gather and plot_values *)
Definition column (k : nat) (n : nat) (l : list vec4) : list R := flat_map (fun v => repeat (component k v) n) l.
Lemma gather_ok axis path : Forall an_axis axis -> forall times i vals pos vel abs,
  plot_values path i times = Ok vals -> length pos = 4%nat -> length vel = 4%nat ->
  exists pos' vel', gather path axis i times pos vel abs = Ok (pos', vel', abs ++ map (fun vp => norm3 (fst vp)) vals) /\
    (forall k, nth k pos' [] = nth k pos [] ++ column k (asked axis k) (map snd vals)) /\
    (forall k, nth k vel' [] = nth k vel [] ++ column k (asked axis k) (map fst vals)).
Proof.
  intros Ha. induction times as [|t times IH]; intros i vals pos vel abs Hp L1 L2.
  - injection Hp as <-. exists pos, vel. cbn [gather map column flat_map]. rewrite app_nil_r. split; [reflexivity|].
    split; intros k; rewrite app_nil_r; reflexivity.
  - cbn [plot_values gather] in *. destruct (find_keep_position path t i) as [f|]; [|discriminate]. cbn [bind] in *.
    destruct f as [g j| |]; [|discriminate|discriminate].
    destruct (get_velocity g t) as [v|]; [|discriminate]. cbn [bind] in *. destruct (get_position g t) as [p|]; [|discriminate]. cbn [bind] in *.
    destruct (plot_values path (Some j) times) as [vs|] eqn:E; [|discriminate]. injection Hp as <-.
    destruct (append_ok axis p Ha pos L1) as (pos1 & A1 & A2 & A3). destruct (append_ok axis v Ha vel L2) as (vel1 & B1 & B2 & B3).
    rewrite A1. cbn [bind]. rewrite B1. cbn [bind]. destruct (IH _ _ pos1 vel1 (abs ++ [norm3 v]) E A2 B2) as (pos' & vel' & G & P & V).
    exists pos', vel'. split; [rewrite G, <- app_assoc; reflexivity|].
    split; intros k; cbn [map column flat_map fst snd]; [rewrite P, A3 | rewrite V, B3]; rewrite <- app_assoc; reflexivity.
Qed.
Lemma column_once k l : column k 1 l = map (component k) l.
Proof. induction l as [|v l IH]; [reflexivity|]. cbn [column flat_map map repeat app]. unfold column in IH. rewrite <- IH. reflexivity. Qed.
Lemma column_length k n l : length (column k n l) = (length l * n)%nat.
Proof. induction l as [|v l IH]; [reflexivity|]. cbn [column flat_map length]. unfold column in IH. rewrite app_length, repeat_length, IH. lia. Qed.
Lemma plot_values_length path : forall times i vals, plot_values path i times = Ok vals -> length vals = length times.
Proof.
  induction times as [|t times IH]; intros i vals H; [injection H as <-; reflexivity|]. cbn [plot_values] in H.
  destruct (find_keep_position path t i) as [f|]; [|discriminate]. cbn [bind] in H. destruct f as [g j| |]; [|discriminate|discriminate].
  destruct (get_velocity g t) as [v|]; [|discriminate]. cbn [bind] in H. destruct (get_position g t) as [p|]; [|discriminate]. cbn [bind] in H.
  destruct (plot_values path (Some j) times) as [vs|] eqn:E; [|discriminate]. injection H as <-. cbn [length]. rewrite (IH _ _ E). reflexivity.
Qed.
Lemma gather_err axis path : ~ Forall an_axis axis -> forall t times i vals pos vel abs,
  plot_values path i (t :: times) = Ok vals -> gather path axis i (t :: times) pos vel abs = Err KeyError.
Proof.
  intros Ha t times i vals pos vel abs Hp. cbn [plot_values gather] in *. destruct (find_keep_position path t i) as [f|]; [|discriminate]. cbn [bind] in *.
  destruct f as [g j| |]; [|discriminate|discriminate].
  destruct (get_velocity g t) as [v|]; [|discriminate]. cbn [bind] in *. destruct (get_position g t) as [p|]; [|discriminate]. cbn [bind] in *.
  rewrite append_err by exact Ha. reflexivity.
Qed.
Lemma curves_ok axis0 times pos vel (vals : list (vec4 * vec4)) : NoDup axis0 -> Forall an_axis axis0 -> length vals = length times ->
  (forall k, nth k pos [] = column k (asked axis0 k) (map snd vals)) ->
  (forall k, nth k vel [] = column k (asked axis0 k) (map fst vals)) ->
  forall axis, (forall ax, In ax axis -> In ax axis0) ->
  exists cs, curves axis times pos vel = Ok cs /\
    Forall2 (fun ax c => cu_label c = ax /\ exists f, names_axis ax f /\ cu_vel c = map (fun vp => f (fst vp)) vals /\
                         cu_pos c = map (fun vp => f (snd vp)) vals) axis cs.
Proof.
  intros Hd Ha Hl P V. induction axis as [|ax axis IH]; intros Hi; [exists []; split; [reflexivity|constructor]|].
  destruct IH as (cs & E & F); [intros a Hx; apply Hi; right; exact Hx|].
  assert (Hin : In ax axis0) by (apply Hi; left; reflexivity).
  destruct (axis_known ax) as (k & Ek & _ & Hn); [rewrite Forall_forall in Ha; exact (Ha _ Hin)|].
  assert (Ev : nth k vel [] = map (fun vp => component k (fst vp)) vals) by (rewrite V, (asked_once _ _ _ Hd Hin Ek), column_once, map_map; reflexivity).
  assert (Ep : nth k pos [] = map (fun vp => component k (snd vp)) vals) by (rewrite P, (asked_once _ _ _ Hd Hin Ek), column_once, map_map; reflexivity).
  exists (Curve ax (nth k vel []) (nth k pos []) :: cs). cbn [curves]. rewrite Ek. cbn [bind].
  rewrite Ev, Ep, !map_length, Hl, Nat.eqb_refl, E. split; [reflexivity|].
  constructor; [|exact F]. split; [reflexivity|]. exists (component k). split; [exact Hn|]. split; reflexivity.
Qed.
Lemma curves_unknown times pos vel axis : ~ Forall an_axis axis ->
  (forall k ax, In ax axis -> axis_index ax = Ok k -> length (nth k vel []) = length times /\ length (nth k pos []) = length times) ->
  curves axis times pos vel = Err KeyError.
Proof.
  induction axis as [|ax axis IH]; intros H K; [destruct H; constructor|]. cbn [curves].
  destruct (axis_index ax) as [k|e] eqn:E; [|rewrite (axis_index_err _ _ E); reflexivity].
  cbn [bind]. destruct (K k ax (or_introl eq_refl) E) as [-> ->]. rewrite Nat.eqb_refl.
  rewrite IH; [reflexivity| |intros j a Ha; apply K; right; exact Ha]. intros Hx. apply H. constructor; [exact (axis_index_known _ _ E)|exact Hx].
Qed.
Lemma curves_repeated times pos vel : forall axis, Forall an_axis axis ->
  (exists ax k, In ax axis /\ axis_index ax = Ok k /\ length (nth k vel []) <> length times) ->
  curves axis times pos vel = Err ValueError.
Proof.
  induction 1 as [|a axis Ha Hx IH]; intros (ax & k & Hi & Hk & Hl); [destruct Hi|]. cbn [curves].
  destruct (axis_known _ Ha) as (j & Ej & _). rewrite Ej. cbn [bind].
  destruct (Nat.eqb_spec (length (nth j vel [])) (length times)) as [E1|E1]; [|reflexivity].
  destruct (Nat.eqb_spec (length (nth j pos [])) (length times)) as [E2|E2]; [|reflexivity].
  destruct Hi as [->|Hi]; [congruence|]. rewrite IH; [reflexivity|]. exists ax, k. auto.
Qed.

(** ** Marks *)
Lemma axis_crosses_ok axis t JD : Forall an_axis axis ->
  exists cs, axis_crosses axis t JD = Ok cs /\
    forall m, In m cs <-> exists ax f, In ax axis /\ names_axis ax f /\ m = AxisCross t (f JD).
Proof.
  induction 1 as [|ax axis Ha Hx (cs & E & I)]; [exists []; split; [reflexivity|]; intros m; split; [intros [] | intros (ax & f & [] & _)]|].
  destruct (axis_known _ Ha) as (k & Ek & _ & Hn). cbn [axis_crosses]. rewrite Ek, E. cbn [bind]. eexists. split; [reflexivity|].
  intros m. cbn [In]. rewrite I. split.
  - intros [<-|(a & f & H1 & H2 & H3)]; [exists ax, (component k); auto | exists a, f; auto].
  - intros (a & f & [<-|H1] & H2 & H3); [left | right; exists a, f; auto]. rewrite H3. f_equal.
    inversion H2; inversion Hn; subst; try discriminate; congruence.
Qed.
Lemma axis_crosses_err axis t JD : ~ Forall an_axis axis -> axis_crosses axis t JD = Err KeyError.
Proof.
  induction axis as [|ax axis IH]; intros H; [destruct H; constructor|]. cbn [axis_crosses].
  destruct (axis_index ax) as [k|e] eqn:E; [|rewrite (axis_index_err _ _ E); reflexivity]. cbn [bind].
  rewrite IH; [reflexivity|]. intros Hx. apply H. constructor; [exact (axis_index_known _ _ E)|exact Hx].
Qed.
Lemma end_of_block b l : last_seg (b_segs b) = Ok l -> block_end b (t_end l) /\ forall t, block_end b t -> t = t_end l.
Proof.
  unfold last_seg. intros H. destruct (rev (b_segs b)) as [|x r] eqn:E; [discriminate|]. injection H as ->.
  apply (f_equal (@rev segment)) in E. rewrite rev_involutive in E. cbn [rev] in E. split.
  - exists (rev r), l. auto.
  - intros t (pre & l' & E' & ->). rewrite E in E'. apply app_inj_tail in E'. destruct E' as [_ ->]. reflexivity.
Qed.
Lemma marks_ok sb ss sj axis : Forall an_axis axis -> forall bl, (forall b, In b bl -> b_segs b <> []) ->
  exists ms, block_marks sb ss sj axis bl = Ok ms /\
    forall m, In m ms <-> exists b t, In b bl /\ block_end b t /\
      ((sb = true /\ m = BlockLine t) \/
       (ss = true /\ exists s, In s (b_segs b) /\ m = SegmentLine (t_end s)) \/
       (sj = true /\ m = Cross t (norm3 (b_JD b))) \/
       (sj = true /\ exists ax f, In ax axis /\ names_axis ax f /\ m = AxisCross t (f (b_JD b)))).
Proof.
  intros Ha. induction bl as [|b bl IH]; intros Hne.
  { exists []. split; [reflexivity|]. intros m. split; [intros [] | intros (b & t & [] & _)]. }
  destruct IH as (ms & E & I); [intros x Hx; apply Hne; right; exact Hx|].
  assert (L : exists l, last_seg (b_segs b) = Ok l).
  { unfold last_seg. destruct (rev (b_segs b)) as [|l r] eqn:Er; [|eexists; reflexivity].
    destruct (Hne b (or_introl eq_refl)). apply (f_equal (@rev segment)) in Er. rewrite rev_involutive in Er. exact Er. }
  destruct L as (l & Hl). destruct (end_of_block _ _ Hl) as [Be Bu]. cbn [block_marks]. rewrite Hl. cbn [bind].
  destruct (axis_crosses_ok axis (t_end l) (b_JD b) Ha) as (cs & Ec & Ic). rewrite E.
  assert (C : exists cs', (if sj then cs0 <- axis_crosses axis (t_end l) (b_JD b) ;; Ok (Cross (t_end l) (norm3 (b_JD b)) :: cs0) else Ok []) = Ok cs' /\
    forall m, In m cs' <-> (sj = true /\ m = Cross (t_end l) (norm3 (b_JD b))) \/
       (sj = true /\ exists ax f, In ax axis /\ names_axis ax f /\ m = AxisCross (t_end l) (f (b_JD b)))).
  { destruct sj.
    - rewrite Ec. cbn [bind]. eexists. split; [reflexivity|]. intros m. cbn [In]. rewrite Ic. intuition.
    - eexists. split; [reflexivity|]. intros m. cbn [In]. intuition; discriminate. }
  destruct C as (cs' & -> & Ic'). cbn [bind]. eexists. split; [reflexivity|].
  intros m. rewrite !in_app_iff, Ic', I. split.
  - intros [H|[H|[H|(b' & t & H1 & H2)]]].
    + destruct sb; [|destruct H]. destruct H as [<-|[]]. exists b, (t_end l). split; [left; reflexivity|]. auto.
    + destruct ss; [|destruct H]. apply in_map_iff in H. destruct H as (s & <- & Hs). exists b, (t_end l).
      split; [left; reflexivity|]. split; [exact Be|]. right. left. split; [reflexivity|]. exists s. auto.
    + exists b, (t_end l). split; [left; reflexivity|]. split; [exact Be|]. right. right. exact H.
    + exists b', t. split; [right; exact H1 | exact H2].
  - intros (b' & t & [<-|Hb] & Ht & H).
    + rewrite (Bu _ Ht) in *. destruct H as [[-> ->]|[[-> (s & Hs & ->)]|H]].
      * left. left. reflexivity.
      * right. left. apply in_map_iff. exists s. auto.
      * right. right. left. exact H.
    + right. right. right. exists b', t. auto.
Qed.
Lemma marks_unknown sb ss axis bl : ~ Forall an_axis axis -> (forall b, In b bl -> b_segs b <> []) ->
  exists ms, block_marks sb ss false axis bl = Ok ms.
Proof.
  intros Ha. induction bl as [|b bl IH]; intros Hne; [eexists; reflexivity|].
  destruct IH as (ms & E); [intros x Hx; apply Hne; right; exact Hx|].
  cbn [block_marks]. unfold last_seg. destruct (rev (b_segs b)) as [|l r] eqn:Er.
  { destruct (Hne b (or_introl eq_refl)). apply (f_equal (@rev segment)) in Er. rewrite rev_involutive in Er. exact Er. }
  cbn [bind]. rewrite E. cbn [bind]. eexists. reflexivity.
Qed.

(** ** The crosses are the corner speeds *)
Lemma direction_fun A B d d' : direction A B d -> direction A B d' -> d = d'.
Proof.
  intros [H E] [_ E']. rewrite <- E' in E. destruct d as [a b c e], d' as [a' b' c' e']. unfold vscale in E. cbn in E.
  injection E as E1 E2 E3 E4. f_equal; apply (Rmult_eq_reg_l (move_length A B)); lra.
Qed.
Lemma leaving_fun fw i v v' : leaving_velocity fw i v -> leaving_velocity fw i v' -> v = v'.
Proof.
  destruct i as [[A B] rest]. intros [[H E]|[H (d & D & E)]] [[H' E']|[H' (d' & D' & E')]]; try congruence.
  rewrite E, E', (direction_fun _ _ _ _ D D'). reflexivity.
Qed.
Section Sim.
Variables (fw : firmware) (s0 : kstate) (states : list kstate) (bl : list block) (wn : bool) (items : list item).
Hypothesis Hv : valid_program s0 states.
Hypothesis Hs : simulate fw (s0 :: states) = Ok (bl, wn).
Hypothesis Hi : plan_items s0 states items.
Lemma sim_nonempty b : In b bl -> b_segs b <> [].
Proof.
  intros Hb. destruct (simulate_fchain _ _ _ _ _ Hv Hs) as (wl & Hf).
  destruct (fchain_in _ _ _ _ _ _ Hf b Hb) as (? & ? & ? & ? & ? & ? & Hwf). destruct Hwf as [? ? ? ? ? ? ? ? ? ? ? ? ? ? ? ? H | ? ? ? ? ? ? H]; [exact H|].
  rewrite H. discriminate.
Qed.
Lemma sim_leaving : Forall2 (fun b i => b_A b = fst (fst i) /\ b_B b = snd (fst i) /\ leaving_velocity fw i (b_JD b) /\ leaving_speed fw i (norm3 (b_JD b))) bl items.
Proof.
  destruct (simulate_inv _ _ _ _ _ Hv Hs) as (_ & items' & Hi' & Hib & _). rewrite (plan_items_fun _ _ _ _ Hi' Hi) in Hib.
  destruct (simulate_fchain _ _ _ _ _ Hv Hs) as (wl & Hf). pose proof (fchain_in _ _ _ _ _ _ Hf) as Hin. clear - Hib Hin Hv Hi.
  assert (Hst : Forall (fun i : item => valid_state (snd (fst i))) items).
  { destruct Hv as [Hv' _]. inversion Hv' as [|? ? _ Hv2]; subst. clear - Hv2 Hi. induction Hi; inversion Hv2; subst; try constructor; auto. }
  clear Hi Hv. revert Hst. induction Hib as [|b i bl items Hb Hib IH]; intros Hst; constructor.
  - destruct i as [[A B] rest]. destruct Hb as (EA & EB & _ & _ & EJ). cbn [fst snd]. split; [exact EA|]. split; [exact EB|].
    destruct (Hin b (or_introl eq_refl)) as (t & p & t' & p' & s & e & Hwf). unfold leaving_velocity, leaving_speed.
    inversion Hst as [|? ? HB _]; subst. cbn [fst snd] in HB. destruct HB as (Hsp & _ & Hj & _).
    destruct Hwf as [t p t' v0 v1 d eo dist Hp Hd Hdir Hmd Hpos Hsc Ha Hs' Hne Hm Hen Hcap | t p dt Hp Hdt Hs' Hsegs].
    + rewrite Hp, Hd in EJ. pose proof (junction_vel_bounds fw (b_A b) (b_B b) rest Hsp Hj) as Q.
      assert (D : direction (b_A b) (b_B b) d) by (rewrite (move_distance_length _ _ _ _ Hmd) in *; split; assumption).
      split; right; (split; [exact Hp|]).
      * exists d. auto.
      * rewrite EJ, (dir_norm3 d eo) by (assumption || tauto). fold (corner_speed fw (b_A b) (b_B b) rest). destruct eo; [|reflexivity].
        symmetry. unfold corner_speed. rewrite (still_norm (b_A b) (b_B b) Hsp) in Q; [lra|].
        rewrite <- Hsc. destruct Hdir as [N _]. rewrite norm3_scale_pos by lra. rewrite N. ring.
    + rewrite Hp in EJ. rewrite EJ. split; left; (split; [congruence|]); [reflexivity | apply norm3_vzero].
  - apply IH; [intros b' Hb'; apply Hin; right; exact Hb' | inversion Hst; assumption].
Qed.
End Sim.
