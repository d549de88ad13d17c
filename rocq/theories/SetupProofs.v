(** The setup object refines the abstract map. *)
From Coq Require Import Lra.
From Verif Require Import Py StateGen SpecMachine Vec Query SpecQuery Setup SpecSetup StrFacts ReadFacts.
Open Scope R_scope.
Local Arguments S_ : simpl never.
Local Arguments dget : simpl never.
Local Arguments dset : simpl never.

(** * Dictionaries *)
Lemma dget_cons {V} k k' (v : V) d : dget k ((k', v) :: d) = if str_eqb k k' then Some v else dget k d.
Proof. reflexivity. Qed.
Lemma dget_rev_cons {V} k k' (v : V) d :
  dget k (rev ((k', v) :: d)) = match dget k (rev d) with Some w => Some w | None => if str_eqb k k' then Some v else None end.
Proof. simpl rev. rewrite dget_app. rewrite dget_cons. reflexivity. Qed.
Lemma dget_dupdate {V} k (u : dict V) : forall d,
  dget k (dupdate u d) = match dget k (rev u) with Some v => Some v | None => dget k d end.
Proof.
  induction u as [|[k' v] u IH]; intros d; [reflexivity|].
  unfold dupdate in *. simpl fold_left. rewrite IH, dget_rev_cons, dget_dset.
  destruct (dget k (rev u)); [reflexivity|]. destruct (str_eqb k k'); reflexivity.
Qed.
Lemma dkeys_rev {V} (d : dict V) k : In k (dkeys (rev d)) <-> In k (dkeys d).
Proof. unfold dkeys. rewrite map_rev. symmetry. apply in_rev. Qed.
Lemma dget_none {V} k (d : dict V) : dget k d = None <-> ~ In k (dkeys d).
Proof.
  split; [|apply dget_notin]. intros H Hin. apply dmem_iff in Hin. unfold dmem in Hin. rewrite H in Hin. discriminate.
Qed.
Lemma dget_some {V} k (d : dict V) : In k (dkeys d) -> exists v, dget k d = Some v.
Proof. intros H. destruct (dget k d) eqn:E; [eauto|]. apply dget_none in E. contradiction. Qed.
Lemma dset_dset {V} k (v w : V) d : dset k v (dset k w d) = dset k v d.
Proof.
  induction d as [|[k' x] d IH]; [unfold dset; rewrite str_eqb_refl; reflexivity|]. unfold dset in *.
  destruct (str_eqb k k') eqn:E; rewrite ?E; [reflexivity|]. f_equal. exact IH.
Qed.
Lemma dset_same {V} k (v : V) d : dget k d = Some v -> dset k v d = d.
Proof.
  unfold dget, dset. induction d as [|[k' x] d IH]; intros H; [discriminate|].
  destruct (str_eqb k k') eqn:E; [congruence|]. f_equal. exact (IH H).
Qed.
Lemma dset_cons {V} k (v : V) k' v' d : dset k v ((k', v') :: d) = if str_eqb k k' then (k', v) :: d else (k', v') :: dset k v d.
Proof. reflexivity. Qed.
Lemma dset_comm {V} k k' (v w : V) d : k <> k' -> In k (dkeys d) -> In k' (dkeys d) ->
  dset k v (dset k' w d) = dset k' w (dset k v d).
Proof.
  intros Hn. induction d as [|[x y] d IH]; [intros []|]. intros H1 H2. rewrite !dset_cons.
  destruct (str_eqb k x) eqn:E; destruct (str_eqb k' x) eqn:E'; rewrite !dset_cons, ?E, ?E'.
  - apply str_eqb_true in E, E'. congruence.
  - reflexivity.
  - reflexivity.
  - f_equal. apply IH.
    + destruct H1 as [H1|H1]; [simpl in H1; subst; rewrite str_eqb_refl in E; discriminate|assumption].
    + destruct H2 as [H2|H2]; [simpl in H2; subst; rewrite str_eqb_refl in E'; discriminate|assumption].
Qed.
Lemma dkeys_dset_in {V} k k' (v : V) d : In k (dkeys (dset k' v d)) <-> k = k' \/ In k (dkeys d).
Proof.
  rewrite dkeys_dset. destruct (dmem k' d) eqn:E.
  - apply dmem_iff in E. split; [auto|]. intros [->|H]; assumption.
  - rewrite in_app_iff. simpl. split; [intros [H|[H|[]]]; auto | intros [H|H]; auto].
Qed.
Lemma dkeys_dupdate {V} k (u : dict V) : forall d, In k (dkeys (dupdate u d)) <-> In k (dkeys u) \/ In k (dkeys d).
Proof.
  induction u as [|[k' v] u IH]; intros d; [simpl; tauto|]. unfold dupdate in *. simpl fold_left.
  rewrite IH, dkeys_dset_in. simpl. intuition congruence.
Qed.
Lemma dupdate_absorb {V} (u : dict V) : forall d k v,
  In k (dkeys u) -> In k (dkeys d) -> (forall x, In x (dkeys u) -> In x (dkeys d)) ->
  dupdate u (dset k v d) = dupdate u d.
Proof.
  induction u as [|[k1 v1] u IH]; intros d k v Hk Hd Hu; [destruct Hk|]. unfold dupdate in *. simpl fold_left.
  destruct (str_eqb_spec k k1) as [->|E]; [rewrite dset_dset; reflexivity|].
  rewrite dset_comm; [|congruence|apply Hu; left; reflexivity|assumption]. apply IH.
  - destruct Hk as [Hk|Hk]; [simpl in Hk; congruence|assumption].
  - apply dkeys_dset_in. auto.
  - intros x Hx. apply dkeys_dset_in. right. apply Hu. right. exact Hx.
Qed.
Lemma dupdate_same {V} (u : dict V) : forall d,
  (forall k v, dget k (rev u) = Some v -> dget k d = Some v) -> dupdate u d = d.
Proof.
  induction u as [|[k1 v1] u IH]; intros d H; [reflexivity|].
  assert (Hin : forall x, In x (dkeys ((k1, v1) :: u)) -> In x (dkeys d)).
  { intros x Hx. apply dkeys_rev in Hx. destruct (dget_some _ _ Hx) as (v & Ev). apply H in Ev. eapply dget_in; eauto. }
  assert (IH' : dupdate u d = d).
  { apply IH. intros k v Hv. apply H. rewrite dget_rev_cons, Hv. reflexivity. }
  change (dupdate u (dset k1 v1 d) = d).
  destruct (dget k1 (rev u)) as [w|] eqn:E.
  - rewrite dupdate_absorb; [exact IH'| | |].
    + apply dget_in in E. apply dkeys_rev. exact E.
    + apply Hin. left. reflexivity.
    + intros x Hx. apply Hin. right. exact Hx.
  - rewrite dset_same; [exact IH'|]. apply H. rewrite dget_rev_cons, E, str_eqb_refl. reflexivity.
Qed.
Lemma dupdate_twice {V} (u d : dict V) : dupdate u (dupdate u d) = dupdate u d.
Proof. apply dupdate_same. intros k v H. rewrite dget_dupdate, H. reflexivity. Qed.
Lemma dupdate_app {V} (u w d : dict V) : dupdate (u ++ w) d = dupdate w (dupdate u d).
Proof. unfold dupdate. apply fold_left_app. Qed.

(** * get_dict *)
(** Everything get_dict writes, as one update. *)
Definition writes (s : setup) (p : str) : dict pval :=
  initial_position s ++ (match layer_cue s with Some c => [(S_ "layer_cue", PStr c)] | None => [] end) ++
  [(S_ "printer_name", PStr p)].
Lemma get_dict_writes s p m : printer_select s = Some p -> dget p (printers s) = Some m ->
  get_dict s = (Ok p, set_printers (dset p (dupdate (writes s p) m) (printers s)) s).
Proof.
  intros H1 H2. unfold get_dict. rewrite H1, H2. unfold writes. rewrite !dupdate_app. destruct (layer_cue s); reflexivity.
Qed.
Lemma get_dict_ok s r s' : get_dict s = (Ok r, s') ->
  exists m, printer_select s = Some r /\ dget r (printers s) = Some m /\
            s' = set_printers (dset r (dupdate (writes s r) m) (printers s)) s.
Proof.
  intros H. destruct (printer_select s) as [p|] eqn:E1; [|unfold get_dict in H; rewrite E1 in H; discriminate].
  destruct (dget p (printers s)) as [m|] eqn:E2; [|unfold get_dict in H; rewrite E1, E2 in H; discriminate].
  rewrite (get_dict_writes s p m E1 E2) in H. injection H as <- <-. eauto.
Qed.
Lemma get_dict_twice s r s' : get_dict s = (Ok r, s') -> get_dict s' = (Ok r, s').
Proof.
  intros H. destruct (get_dict_ok _ _ _ H) as (m & E1 & E2 & ->).
  rewrite (get_dict_writes _ r (dupdate (writes s r) m)).
  - f_equal. unfold set_printers; simpl. f_equal. change (writes (MkSetup _ _ _ _) r) with (writes s r).
    rewrite dupdate_twice. rewrite dset_dset. reflexivity.
  - exact E1.
  - simpl. rewrite dget_dset, str_eqb_refl. reflexivity.
Qed.

(** * Axis names *)
Lemma name_inj a b : name a = name b -> a = b.
Proof. destruct a, b; intros H; try reflexivity; discriminate H. Qed.
Lemma name_neq a b : a <> b -> str_eqb (name a) (name b) = false.
Proof. intros H. apply str_eqb_false. intros E. apply H, name_inj, E. Qed.
Lemma name_printer a : str_eqb (name a) (S_ "printer_name") = false.
Proof. destruct a; reflexivity. Qed.
Lemma name_cue a : str_eqb (name a) (S_ "layer_cue") = false.
Proof. destruct a; reflexivity. Qed.

Lemma dupdate_nodup {V} (u : dict V) : forall d, NoDup (dkeys d) -> NoDup (dkeys (dupdate u d)).
Proof. induction u as [|[k v] u IH]; intros d H; [exact H|]. apply (IH (dset k v d)). apply dset_nodup, H. Qed.
Lemma dget_rev {V} k (d : dict V) : NoDup (dkeys d) -> dget k (rev d) = dget k d.
Proof.
  induction d as [|[k1 v1] d IH]; intros H; [reflexivity|]. simpl in H. apply NoDup_cons_iff in H as [Hn H].
  rewrite dget_rev_cons, dget_cons, (IH H). destruct (str_eqb_spec k k1) as [->|E].
  - rewrite (dget_notin _ _ Hn). reflexivity.
  - destruct (dget k d); reflexivity.
Qed.

(** * The refinement *)
Record refines (presets : dict (dict pval)) (cue : option str) (s : setup) (a : aset) : Prop := {
  rf_sel : printer_select s = a_sel a;
  rf_cue : layer_cue s = cue;
  rf_known : forall p, In p (dkeys (printers s)) <-> In p (dkeys presets);
  rf_selected : forall p, a_sel a = Some p -> In p (dkeys presets);
  rf_prop : forall p m k, dget p (printers s) = Some m -> ~ reserved cue k -> dget k m = a_prop a p k;
  rf_pos : forall x, dget (name x) (initial_position s) = Some (PNum (a_pos a x));
  rf_nodup : NoDup (dkeys (initial_position s));
  rf_keys : forall k, In k (dkeys (initial_position s)) -> exists x, k = name x }.

Lemma writes_get presets cue s a p k : refines presets cue s a ->
  dget k (rev (writes s p)) =
  (if str_eqb k (S_ "printer_name") then Some (PStr p)
   else match cue with
        | Some c => if str_eqb k (S_ "layer_cue") then Some (PStr c) else dget k (rev (initial_position s))
        | None => dget k (rev (initial_position s)) end).
Proof.
  intros H. unfold writes. rewrite (rf_cue _ _ _ _ H). rewrite !rev_app_distr. simpl rev. rewrite <- !app_assoc.
  rewrite dget_app, dget_cons. destruct (str_eqb k (S_ "printer_name")); [reflexivity|].
  rewrite dget_app. destruct cue as [c|]; simpl rev.
  - rewrite dget_cons. destruct (str_eqb k (S_ "layer_cue")); reflexivity.
  - reflexivity.
Qed.
Lemma unreserved_pos presets cue s a k : refines presets cue s a -> ~ reserved cue k ->
  dget k (rev (initial_position s)) = None.
Proof.
  intros H Hk. apply dget_none. intros Hin. apply -> (dkeys_rev (V := pval)) in Hin. destruct (rf_keys _ _ _ _ H k Hin) as (x & ->).
  apply Hk. right. left. eauto.
Qed.
Lemma writes_unreserved presets cue s a p k : refines presets cue s a -> ~ reserved cue k -> dget k (rev (writes s p)) = None.
Proof.
  intros H Hk. rewrite (writes_get _ _ _ _ _ _ H). rewrite (unreserved_pos _ _ _ _ _ H Hk).
  destruct (str_eqb_spec k (S_ "printer_name")) as [E|E]; [exfalso; apply Hk; left; exact E|].
  destruct cue as [c|]; [|reflexivity]. destruct (str_eqb_spec k (S_ "layer_cue")) as [E'|E']; [|reflexivity].
  exfalso. apply Hk. right. right. split; [discriminate|exact E'].
Qed.

Lemma known_get {V} p (d : dict V) : In p (dkeys d) -> exists m, dget p d = Some m.
Proof. apply dget_some. Qed.
Lemma unit_known u k : unit_length u k -> dget u input_units = Some k.
Proof. intros H; destruct H; reflexivity. Qed.
Lemma unit_unknown u : (forall k, ~ unit_length u k) -> dget u input_units = None.
Proof.
  intros H. unfold input_units. rewrite !dget_cons.
  destruct (str_eqb_spec u (S_ "SI")) as [E|_]; [subst; exfalso; eapply H; constructor|].
  destruct (str_eqb_spec u (S_ "SImm")) as [E|_]; [subst; exfalso; eapply H; constructor|].
  destruct (str_eqb_spec u (S_ "inch")) as [E|_]; [subst; exfalso; eapply H; constructor|]. reflexivity.
Qed.
Lemma setup_scaling u k : mm_per u k -> setup_scaling_factor u = Ok k.
Proof.
  unfold setup_scaling_factor, mm_per, dindex. destruct u as [n|]; intros H.
  - rewrite (unit_known _ _ H). reflexivity.
  - subst k. reflexivity.
Qed.

Lemma dget_pair {V} k (d : dict V) v : dget k d = Some v -> In (k, v) d.
Proof.
  induction d as [|[k1 v1] d IH]; [discriminate|]. rewrite dget_cons. destruct (str_eqb_spec k k1) as [->|E].
  - intros H. injection H as ->. left. reflexivity.
  - intros H. right. exact (IH H).
Qed.
Lemma position_loop_ok k d : forall pos, (forall key v, In (key, v) d -> exists a x, key = name a /\ v = PNum x) ->
  exists u, position_loop k d pos = (Ok tt, dupdate u pos) /\ dkeys u = dkeys d /\
            forall key, dget key (rev u) = match dget key (rev d) with Some (PNum x) => Some (PNum (k * x)) | _ => None end.
Proof.
  induction d as [|[key v] d IH]; intros pos H; [exists []; auto|].
  destruct (H key v (or_introl eq_refl)) as (a & x & -> & ->).
  destruct (IH (dset (name a) (PNum (k * x)) pos)) as (u & E & Ek & Eu).
  { intros key' v' Hin. exact (H key' v' (or_intror Hin)). }
  exists ((name a, PNum (k * x)) :: u). split; [|split].
  - simpl position_loop. rewrite E. reflexivity.
  - simpl. f_equal. exact Ek.
  - intros key'. rewrite !dget_rev_cons, Eu.
    destruct (dget key' (rev d)) as [[y| |]|] eqn:Ed; try reflexivity.
    + exfalso. apply dget_pair in Ed. apply in_rev in Ed. destruct (H _ _ (or_intror Ed)) as (? & ? & _ & F). discriminate F.
    + exfalso. apply dget_pair in Ed. apply in_rev in Ed. destruct (H _ _ (or_intror Ed)) as (? & ? & _ & F). discriminate F.
    + destruct (str_eqb key' (name a)); reflexivity.
Qed.

Lemma position_loop_stops k before key v after : forall pos, (forall y, v <> PNum y) ->
  (forall k0 v0, In (k0, v0) before -> exists x y, k0 = name x /\ v0 = PNum y) ->
  position_loop k (before ++ (key, v) :: after) pos = (Err TypeError, snd (position_loop k before pos)).
Proof.
  intros pos Hv. revert pos. induction before as [|[k0 v0] before IH]; intros pos Hall; simpl app.
  - simpl. destruct v as [y| |]; [exfalso; exact (Hv y eq_refl)|reflexivity|reflexivity].
  - destruct (Hall k0 v0 (or_introl eq_refl)) as (x & y & -> & ->). cbn [position_loop scaled]. apply IH.
    intros k1 v1 Hin. apply Hall. right. exact Hin.
Qed.
Lemma given_key d a v : given d (name a) = Some v -> dmem (name a) d = true.
Proof. intros H. apply dmem_iff. apply -> (dkeys_rev (V := pval)). eapply dget_in. exact H. Qed.
Lemma all_axes d : forallb (fun key => dmem key d) axis_names = true <-> forall a, exists v, given d (name a) = Some v.
Proof.
  unfold axis_names. simpl. rewrite !andb_true_iff. split.
  - intros (H1 & H2 & H3 & H4 & _) a.
    assert (Ha : dmem (name a) d = true) by (destruct a; assumption). apply dmem_iff in Ha. apply (dkeys_rev d) in Ha.
    exact (dget_some _ _ Ha).
  - intros H. repeat split; [destruct (H AX) as (v & Hv) | destruct (H AY) as (v & Hv) | destruct (H AZ) as (v & Hv) | destruct (H AE) as (v & Hv)];
      apply given_key in Hv; exact Hv.
Qed.

Lemma start_refines presets printer cue : (forall p, printer = Some p -> In p (dkeys presets)) ->
  refines presets cue (MkSetup presets printer cue
             [(S_ "X", PNum 0); (S_ "Y", PNum 0); (S_ "Z", PNum 0); (S_ "E", PNum 0)]) (a_start presets printer).
Proof.
  intros Hp. split; simpl; try reflexivity.
  - exact Hp.
  - intros p m k H _. rewrite H. reflexivity.
  - intros x. destruct x; reflexivity.
  - repeat constructor; simpl; intuition discriminate.
  - intros k [H|[H|[H|[H|[]]]]]; [exists AX|exists AY|exists AZ|exists AE]; symmetry; exact H.
Qed.

Lemma get_refines presets cue s a p : refines presets cue s a -> a_sel a = Some p ->
  exists s', get_dict s = (Ok p, s') /\ refines presets cue s' a /\ presents cue a p (deref p s').
Proof.
  intros H Hs. assert (Hsel : printer_select s = Some p) by (rewrite (rf_sel _ _ _ _ H); exact Hs).
  pose proof (rf_selected _ _ _ _ H p Hs) as Hk. apply (rf_known _ _ _ _ H) in Hk. destruct (dget_some _ _ Hk) as (m & Hm).
  eexists. split; [exact (get_dict_writes s p m Hsel Hm)|]. split.
  - split; cbn [set_printers set_position set_select printers printer_select layer_cue initial_position a_sel a_prop a_pos]; try solve [apply H].
    + intros q. rewrite dkeys_dset_in. rewrite <- (rf_known _ _ _ _ H q). split; [intros [->|Hq]; assumption | auto].
    + intros q m' k Hm' Hr. rewrite dget_dset in Hm'. destruct (str_eqb_spec q p) as [->|E].
      * injection Hm' as <-. rewrite dget_dupdate, (writes_unreserved _ _ _ _ _ _ H Hr). exact (rf_prop _ _ _ _ H p m k Hm Hr).
      * exact (rf_prop _ _ _ _ H q m' k Hm' Hr).
  - unfold deref. simpl printers. rewrite dget_dset, str_eqb_refl. split; [|split; [|split]].
    + rewrite dget_dupdate, (writes_get _ _ _ _ _ _ H), str_eqb_refl. reflexivity.
    + intros c ->. rewrite dget_dupdate, (writes_get _ _ _ _ _ _ H). reflexivity.
    + intros x. rewrite dget_dupdate, (writes_get _ _ _ _ _ _ H), name_printer, name_cue, (dget_rev _ _ (rf_nodup _ _ _ _ H)), (rf_pos _ _ _ _ H).
      destruct cue; reflexivity.
    + intros k Hr. rewrite dget_dupdate, (writes_unreserved _ _ _ _ _ _ H Hr). exact (rf_prop _ _ _ _ H p m k Hm Hr).
Qed.

Lemma step_refines presets cue o s a r a' : refines presets cue s a -> a_step presets o a r a' ->
  exists s', do_op o s = (r, s') /\ refines presets cue s' a'.
Proof.
  intros H St. destruct St as [p a Hin|p a Hn|d a p f Hs Hf|d a Hs|ip u a k f Hp Hu|ip u a k Hp Hu|ip u a Hu|a p Hs|a Hs|l u a k v Hl Hin Hv Hu|d before key v after u a k f -> Hax Hall Hv Hu Hf]; simpl do_op.
  - exists (set_select (Some p) s). unfold select_printer.
    assert (E : dmem p (printers s) = true) by (apply dmem_iff, (rf_known _ _ _ _ H), Hin). rewrite E. split; [reflexivity|].
    split; cbn [set_printers set_position set_select printers printer_select layer_cue initial_position a_sel a_prop a_pos]; try solve [apply H]; try reflexivity. intros q Hq. injection Hq as <-. exact Hin.
  - exists s. unfold select_printer. destruct (dmem p (printers s)) eqn:E; [|auto].
    apply dmem_iff, (rf_known _ _ _ _ H) in E. contradiction.
  - unfold set_property. rewrite (rf_sel _ _ _ _ H), Hs.
    pose proof (rf_selected _ _ _ _ H p Hs) as Hk. apply (rf_known _ _ _ _ H) in Hk. destruct (dget_some _ _ Hk) as (m & Hm).
    rewrite Hm. eexists. split; [reflexivity|]. split; cbn [set_printers set_position set_select printers printer_select layer_cue initial_position a_sel a_prop a_pos];
      try solve [apply H | rewrite (rf_sel _ _ _ _ H); exact Hs | intros p0 E; rewrite <- Hs in E; exact (rf_selected _ _ _ _ H p0 E)].
    + intros q. rewrite dkeys_dset_in. rewrite <- (rf_known _ _ _ _ H q). split; [intros [->|Hq]; assumption | auto].
    + intros q m' k Hm' Hr. rewrite dget_dset in Hm'. rewrite Hf. destruct (str_eqb_spec q p) as [->|E].
      * injection Hm' as <-. rewrite dget_dupdate. unfold given. rewrite (rf_prop _ _ _ _ H p m k Hm Hr). reflexivity.
      * exact (rf_prop _ _ _ _ H q m' k Hm' Hr).
  - exists s. unfold set_property. rewrite (rf_sel _ _ _ _ H), Hs. auto.
  - unfold set_initial_position. rewrite (setup_scaling _ _ Hu). destruct Hp as [x y z e f H1 H2 H3 H4|d f Hd Hall].
    + eexists. split; [reflexivity|]. split; cbn [set_printers set_position set_select printers printer_select layer_cue initial_position a_sel a_prop a_pos]; try solve [apply H].
      * intros x0. destruct x0; rewrite ?H1, ?H2, ?H3, ?H4; reflexivity.
      * repeat constructor; simpl; intuition discriminate.
      * intros k0 [E|[E|[E|[E|[]]]]]; [exists AX|exists AY|exists AZ|exists AE]; symmetry; exact E.
    + rewrite (proj2 (all_axes d)) by (intros a0; eauto).
      destruct (position_loop_ok k d (initial_position s) Hall) as (w & E & Ek & Ew). rewrite E.
      eexists. split; [reflexivity|]. split; cbn [set_printers set_position set_select printers printer_select layer_cue initial_position a_sel a_prop a_pos]; try solve [apply H].
      * intros x. pose proof (dget_dupdate (name x) w (initial_position s)) as Eg. rewrite Ew in Eg.
        unfold given in Hd. rewrite (Hd x) in Eg. exact Eg.
      * apply dupdate_nodup, (rf_nodup _ _ _ _ H).
      * intros k0 Hk0. apply dkeys_dupdate in Hk0. destruct Hk0 as [Hk0|Hk0]; [|exact (rf_keys _ _ _ _ H k0 Hk0)].
        rewrite Ek in Hk0. unfold dkeys in Hk0. apply in_map_iff in Hk0. destruct Hk0 as ([k1 v1] & <- & Hin).
        destruct (Hall _ _ Hin) as (a0 & _ & -> & _). exists a0. reflexivity.
  - exists s. unfold set_initial_position. rewrite (setup_scaling _ _ Hu). split; [|exact H].
    destruct Hp as [l Hl|d a0 Hd|]; [| |reflexivity].
    + destruct l as [|x [|y [|z [|e [|w l]]]]]; try reflexivity. exfalso. apply Hl. reflexivity.
    + destruct (forallb (fun key => dmem key d) axis_names) eqn:E; [|reflexivity].
      exfalso. destruct (proj1 (all_axes d) E a0) as (v & Hv). congruence.
  - exists s. unfold set_initial_position, setup_scaling_factor, dindex. rewrite (unit_unknown _ Hu). auto.
  - destruct (get_refines _ _ _ _ _ H Hs) as (s' & E & Hr & _). rewrite E. eauto.
  - exists s. unfold get_dict. rewrite (rf_sel _ _ _ _ H), Hs. auto.
  - exists s. split; [|exact H]. unfold set_initial_position. rewrite (setup_scaling _ _ Hu).
    destruct l as [|x [|y [|z [|e [|w l]]]]]; try discriminate Hl. unfold bind, scaled.
    destruct x as [x| |]; try reflexivity. destruct y as [y| |]; try reflexivity.
    destruct z as [z| |]; try reflexivity. destruct e as [e| |]; try reflexivity.
    exfalso. destruct Hin as [E|[E|[E|[E|[]]]]]; symmetry in E; exact (Hv _ E).
  - unfold set_initial_position. rewrite (setup_scaling _ _ Hu), (proj2 (all_axes _) Hax).
    destruct (position_loop_ok k before (initial_position s) Hall) as (w & E & Ek & Ew).
    rewrite (position_loop_stops k before key v after (initial_position s) Hv Hall), E. cbn [snd].
    eexists. split; [reflexivity|]. split; cbn [set_printers set_position set_select printers printer_select layer_cue initial_position a_sel a_prop a_pos]; try solve [apply H].
    + intros x. pose proof (dget_dupdate (name x) w (initial_position s)) as Eg. rewrite Ew, (rf_pos _ _ _ _ H) in Eg. rewrite Hf. unfold given.
      rewrite Eg. destruct (dget (name x) (rev before)) as [[y| |]|] eqn:Ed; reflexivity.
    + apply dupdate_nodup, (rf_nodup _ _ _ _ H).
    + intros k0 Hk0. apply dkeys_dupdate in Hk0. destruct Hk0 as [Hk0|Hk0]; [|exact (rf_keys _ _ _ _ H k0 Hk0)].
      rewrite Ek in Hk0. unfold dkeys in Hk0. apply in_map_iff in Hk0. destruct Hk0 as ([k1 v1] & <- & Hin).
      destruct (Hall _ _ Hin) as (a0 & _ & -> & _). exists a0. reflexivity.
Qed.

Lemma steps_refine presets cue ops : forall s a rs a', refines presets cue s a -> a_steps presets ops a rs a' ->
  exists s', do_ops ops s = (rs, s') /\ refines presets cue s' a'.
Proof.
  induction ops as [|o ops IH]; intros s a rs a' H St; inversion St as [|? ? ? r a1 rs1 ? S1 S2]; subst.
  - exists s. auto.
  - destruct (step_refines _ _ _ _ _ _ _ H S1) as (s1 & E1 & H1). destruct (IH _ _ _ _ H1 S2) as (s2 & E2 & H2).
    exists s2. split; [|exact H2]. simpl. rewrite E1, E2. reflexivity.
Qed.

(** * Construction *)
Lemma new_setup_none presets cue :
  exists s, new_setup presets None cue = Ok s /\ refines presets cue s (a_start presets None).
Proof. eexists. split; [reflexivity|]. apply start_refines. discriminate. Qed.
Lemma new_setup_some presets p cue s : new_setup presets (Some p) cue = Ok s ->
  In p (dkeys presets) /\ refines presets cue s (a_start presets (Some p)).
Proof.
  unfold new_setup, select_printer. cbn [printers]. destruct (dmem p presets) eqn:E; [|discriminate].
  apply dmem_iff in E. unfold set_select; simpl. intros H.
  destruct (get_refines presets cue _ _ p (start_refines presets (Some p) cue ltac:(intros q Hq; injection Hq as <-; exact E)) eq_refl)
    as (s' & Eg & Hr & _).
  rewrite Eg in H. destruct (dindex (S_ "firmware") (deref p s')); [|discriminate]. simpl in H. injection H as <-. auto.
Qed.
Lemma new_setup_unknown presets p cue : ~ In p (dkeys presets) -> new_setup presets (Some p) cue = Err ValueError.
Proof.
  intros H. unfold new_setup, select_printer. simpl printers.
  destruct (dmem p presets) eqn:E; [apply dmem_iff in E; contradiction|reflexivity].
Qed.
Lemma new_setup_refines presets printer cue s : new_setup presets printer cue = Ok s ->
  refines presets cue s (a_start presets printer).
Proof.
  destruct printer as [p|]; intros H; [apply (new_setup_some presets p cue s H)|].
  destruct (new_setup_none presets cue) as (s' & E & Hr). rewrite E in H. injection H as <-. exact Hr.
Qed.
(** With the firmware present, construction succeeds. *)
Lemma new_setup_succeeds presets p cue m f : dget p presets = Some m -> dget (S_ "firmware") m = Some f ->
  exists s, new_setup presets (Some p) cue = Ok s.
Proof.
  intros Hm Hf. unfold new_setup, select_printer. cbn [printers].
  assert (Hin : In p (dkeys presets)) by (eapply dget_in; eauto).
  rewrite (proj2 (dmem_iff p presets) Hin). unfold set_select; simpl.
  destruct (get_refines presets cue _ _ p (start_refines presets (Some p) cue ltac:(intros q Hq; injection Hq as <-; exact Hin)) eq_refl)
    as (s' & Eg & Hr & _ & _ & _ & Hp).
  rewrite Eg. unfold dindex. rewrite Hp.
  - cbn [a_start a_prop]. rewrite Hm, Hf. eexists. reflexivity.
  - intros [E|[(a & E)|(_ & E)]]; [discriminate E|destruct a; discriminate E|discriminate E].
Qed.

(** The abstract machine can always make a step on well-formed arguments. *)
Lemma a_step_exists presets o a :
  match o with OPosition ip u => ((exists f, position_arg ip f) \/ no_position ip) | _ => True end ->
  exists r a', a_step presets o a r a'.
Proof.
  intros H. destruct o as [p|d|ip u|].
  - destruct (in_dec (list_eq_dec ascii_dec) p (dkeys presets)) as [Hi|Hi]; do 2 eexists; [apply as_select; exact Hi|apply as_unknown; exact Hi].
  - destruct (a_sel a) as [p|] eqn:E; do 2 eexists; [eapply as_property; [exact E|]; intros; reflexivity|apply as_nobody; exact E].
  - assert (Hu : (exists k, mm_per u k) \/ exists n, u = Some n /\ forall k, ~ unit_length n k).
    { destruct u as [n|]; [|left; exists 1; reflexivity].
      destruct (list_eq_dec ascii_dec n (S_ "SI")) as [->|N1]; [left; eexists; constructor|].
      destruct (list_eq_dec ascii_dec n (S_ "SImm")) as [->|N2]; [left; eexists; constructor|].
      destruct (list_eq_dec ascii_dec n (S_ "inch")) as [->|N3]; [left; eexists; constructor|].
      right. exists n. split; [reflexivity|]. intros k Hk. destruct Hk; contradiction. }
    destruct Hu as [(k & Hk)|(n & -> & Hn)].
    + destruct H as [(f & Hf)|Hf]; do 2 eexists; [eapply as_position; eassumption | eapply as_no_position; eassumption].
    + do 2 eexists. apply as_no_unit. exact Hn.
  - destruct (a_sel a) as [p|] eqn:E; do 2 eexists; [eapply as_get; exact E|apply as_get_nobody; exact E].
Qed.

(** * check_initial_setup *)
Lemma in_valid_keys k : existsb (str_eqb k) valid_keys = true <-> must_have k \/ may_have k.
Proof.
  rewrite existsb_exists. split.
  - intros (x & Hx & E). apply str_eqb_true in E. subst x. unfold must_have, may_have.
    unfold valid_keys, req_keys, optional_keys in Hx. simpl in Hx |- *. tauto.
  - intros H. exists k. split; [|apply str_eqb_refl]. unfold must_have, may_have in H.
    unfold valid_keys, req_keys, optional_keys. simpl in H |- *. tauto.
Qed.
Lemma in_req_keys k : In k req_keys <-> must_have k.
Proof. unfold must_have, req_keys. simpl. tauto. Qed.
Lemma check_ok d : check_initial_setup d = Ok tt <-> acceptable d.
Proof.
  unfold check_initial_setup, acceptable. split.
  - destruct (forallb (fun k => existsb (str_eqb k) valid_keys) (dkeys d)) eqn:E1; [|discriminate].
    destruct (forallb (fun k => dmem k d) req_keys) eqn:E2; [|discriminate]. intros _.
    rewrite forallb_forall in E1, E2. split.
    + intros k Hk. apply dmem_iff, E2, in_req_keys, Hk.
    + intros k Hk. apply in_valid_keys, E1, Hk.
  - intros [H1 H2]. replace (forallb (fun k => existsb (str_eqb k) valid_keys) (dkeys d)) with true.
    + replace (forallb (fun k => dmem k d) req_keys) with true; [reflexivity|].
      symmetry. apply forallb_forall. intros k Hk. apply dmem_iff, H1, in_req_keys, Hk.
    + symmetry. apply forallb_forall. intros k Hk. apply in_valid_keys, H2, Hk.
Qed.
Lemma check_err d : check_initial_setup d = Err ValueError <-> ~ acceptable d.
Proof.
  rewrite <- check_ok. unfold check_initial_setup.
  destruct (forallb _ (dkeys d)); [destruct (forallb _ req_keys)|]; split; intros H; try discriminate; try reflexivity.
  contradiction H. reflexivity.
Qed.
