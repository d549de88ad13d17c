(** Facts about strings, dictionaries and the substring search. *)
From Verif Require Import Py.
Open Scope nat_scope.

Lemma aeqb_spec a b : reflect (a = b) (aeqb a b).
Proof. apply Ascii.eqb_spec. Qed.
Lemma aeqb_refl a : aeqb a a = true.
Proof. apply Ascii.eqb_refl. Qed.

Lemma str_eqb_spec a : forall b, reflect (a = b) (str_eqb a b).
Proof.
  induction a as [|x a IH]; intros [|y b]; simpl; try (constructor; congruence).
  destruct (aeqb_spec x y) as [->|H]; simpl.
  - destruct (IH b) as [->|H]; constructor; congruence.
  - constructor; congruence.
Qed.
Lemma str_eqb_refl a : str_eqb a a = true.
Proof. destruct (str_eqb_spec a a); congruence. Qed.
Lemma str_eqb_true a b : str_eqb a b = true -> a = b.
Proof. destruct (str_eqb_spec a b); congruence. Qed.
Lemma str_eqb_false a b : a <> b -> str_eqb a b = false.
Proof. destruct (str_eqb_spec a b); congruence. Qed.
Lemma str_eqb_sym a b : str_eqb a b = str_eqb b a.
Proof. destruct (str_eqb_spec a b), (str_eqb_spec b a); congruence. Qed.

Lemma prefixb_iff k : forall s, prefixb k s = true <-> exists r, s = k ++ r.
Proof.
  induction k as [|x k IH]; intros s; simpl.
  - split; [intros _; exists s; reflexivity | reflexivity].
  - destruct s as [|y s].
    + split; [discriminate | intros (r & H); discriminate].
    + destruct (aeqb_spec x y) as [->|H]; simpl.
      * rewrite IH. split; intros (r & E); exists r; congruence.
      * split; [discriminate | intros (r & E); congruence].
Qed.
Lemma prefixb_app k s t : prefixb k s = true -> prefixb k (s ++ t) = true.
Proof. rewrite !prefixb_iff. intros (r & ->). exists (r ++ t). apply app_assoc_reverse. Qed.
Lemma prefixb_self k r : prefixb k (k ++ r) = true.
Proof. apply prefixb_iff. exists r; reflexivity. Qed.
Lemma prefixb_length k s : prefixb k s = true -> length k <= length s.
Proof. rewrite prefixb_iff. intros (r & ->). rewrite app_length; lia. Qed.
(** Two prefixes of one string: the shorter is a prefix of the longer. *)
Lemma prefixb_two k l s : prefixb k s = true -> prefixb l s = true -> length k <= length l -> prefixb k l = true.
Proof.
  revert l s. induction k as [|x k IH]; intros [|y l] s H1 H2 Hl; simpl in *; try reflexivity; try lia.
  destruct s as [|z s]; [discriminate|].
  apply andb_prop in H1 as [A1 B1]. apply andb_prop in H2 as [A2 B2].
  destruct (aeqb_spec x z); [|discriminate]. destruct (aeqb_spec y z); [|discriminate]. subst.
  rewrite aeqb_refl. simpl. apply (IH l s); auto; lia.
Qed.

Lemma find_some k : forall s i, find k s = Some i <->
  i <= length s /\ prefixb k (skipn i s) = true /\ forall j, j < i -> prefixb k (skipn j s) = false.
Proof.
  induction s as [|c s IH]; intros i.
  - simpl. destruct (prefixb k []) eqn:E.
    + split.
      * intros H; injection H as <-. split; [lia|]. split; [exact E|]. intros j Hj; lia.
      * intros (Hi & H1 & _). f_equal. simpl in Hi. lia.
    + split; [discriminate|]. intros (Hi & H1 & _). simpl in Hi. assert (i = 0) by lia. subst. simpl in H1. congruence.
  - cbn [find]. destruct (prefixb k (c :: s)) eqn:E.
    + split.
      * intros H; injection H as <-. split; [lia|]. split; [exact E|]. intros j Hj; lia.
      * intros (Hi & H1 & H2). f_equal. destruct i as [|i]; [reflexivity|].
        specialize (H2 0 ltac:(lia)). simpl skipn in H2. congruence.
    + split.
      * intros H. destruct (find k s) as [j|] eqn:F; [|discriminate]. injection H as <-.
        destruct (proj1 (IH j) eq_refl) as (A & B & C). split; [simpl; lia|]. split; [exact B|].
        intros [|j'] Hj; [exact E|]. apply C; lia.
      * intros (Hi & H1 & H2). destruct i as [|i]; [simpl skipn in H1; congruence|].
        assert (F : find k s = Some i).
        { apply IH. simpl in Hi. split; [lia|]. split; [exact H1|]. intros j Hj. apply (H2 (S j)); lia. }
        rewrite F; reflexivity.
Qed.
Lemma find_none k : forall s, find k s = None <-> forall j, prefixb k (skipn j s) = false.
Proof.
  induction s as [|c s IH].
  - simpl. destruct (prefixb k []) eqn:E; split; try discriminate; intros H; try reflexivity.
    + specialize (H 0). simpl in H. congruence.
    + intros j. rewrite skipn_nil. exact E.
  - cbn [find]. destruct (prefixb k (c :: s)) eqn:E.
    + split; [discriminate|]. intros H. specialize (H 0). simpl skipn in H. congruence.
    + destruct (find k s) as [i|] eqn:F; simpl.
      * split; [discriminate|]. intros H. assert (X : Some i = None) by (apply IH; intros j; apply (H (S j))). discriminate.
      * split; [|reflexivity]. intros _ [|j]; [exact E|]. apply (proj1 IH eq_refl).
Qed.
Lemma find_prefix k s i : find k s = Some i -> exists post, s = firstn i s ++ k ++ post.
Proof.
  intros H. apply find_some in H as (_ & H & _). apply prefixb_iff in H as (r & H).
  exists r. rewrite <- H. symmetry. apply firstn_skipn.
Qed.
Lemma find_length k s i : find k s = Some i -> i + length k <= length s.
Proof.
  intros H. apply find_some in H as (A & B & _). apply prefixb_length in B.
  rewrite skipn_length in B. lia.
Qed.
(** Searching for a key whose first character does not occur before it. *)
Lemma find_skip k c k' a b : k = c :: k' -> ~ In c a -> find k (a ++ b) = option_map (fun i => length a + i) (find k b).
Proof.
  intros -> Hn. induction a as [|x a IH].
  - simpl app. destruct (find (c :: k') b); reflexivity.
  - cbn [app find prefixb]. destruct (aeqb_spec c x) as [->|H].
    + exfalso. apply Hn. left; reflexivity.
    + simpl. rewrite IH by (intros Hi; apply Hn; right; exact Hi). destruct (find (c :: k') b); reflexivity.
Qed.
Lemma find_not_in k c k' s : k = c :: k' -> ~ In c s -> find k s = None.
Proof.
  intros E H. rewrite <- (app_nil_r s). rewrite (find_skip k c k' s []) by assumption. subst. reflexivity.
Qed.

(** Dictionaries. *)
Lemma dget_app {V} k (a b : dict V) : dget k (a ++ b) = match dget k a with Some v => Some v | None => dget k b end.
Proof.
  induction a as [|[k' v] a IH]; simpl; [reflexivity|]. destruct (str_eqb k k'); [reflexivity|exact IH].
Qed.
Lemma dget_notin {V} k (d : dict V) : ~ In k (dkeys d) -> dget k d = None.
Proof.
  induction d as [|[k' v] d IH]; simpl; [reflexivity|]. intros H.
  rewrite str_eqb_false by (intros ->; apply H; left; reflexivity). apply IH. intros Hi; apply H; right; exact Hi.
Qed.
Lemma dget_in {V} k (d : dict V) v : dget k d = Some v -> In k (dkeys d).
Proof.
  induction d as [|[k' v'] d IH]; simpl; [discriminate|].
  destruct (str_eqb_spec k k') as [->|H]; [left; reflexivity|]. intros E. right. apply IH; exact E.
Qed.
Lemma dmem_iff {V} k (d : dict V) : dmem k d = true <-> In k (dkeys d).
Proof.
  unfold dmem. split.
  - destruct (dget k d) eqn:E; [intros _; apply (dget_in _ _ _ E) | discriminate].
  - intros H. destruct (dget k d) eqn:E; [reflexivity|]. exfalso.
    induction d as [|[k' v'] d IH]; simpl in *; [exact H|].
    destruct (str_eqb_spec k k') as [->|N]; [discriminate|]. destruct H as [H|H]; [congruence|]. apply IH; assumption.
Qed.
Lemma dset_new {V} k (v : V) d : ~ In k (dkeys d) -> dset k v d = d ++ [(k, v)].
Proof.
  induction d as [|[k' v'] d IH]; simpl; [reflexivity|]. intros H.
  rewrite str_eqb_false by (intros ->; apply H; left; reflexivity). rewrite IH; [reflexivity|].
  intros Hi; apply H; right; exact Hi.
Qed.
Lemma dget_dset {V} k k' (v : V) d : dget k (dset k' v d) = if str_eqb k k' then Some v else dget k d.
Proof.
  induction d as [|[k0 v0] d IH]; simpl; [destruct (str_eqb k k'); reflexivity|].
  destruct (str_eqb_spec k' k0) as [->|N]; simpl.
  - destruct (str_eqb k k0); reflexivity.
  - destruct (str_eqb_spec k k0) as [->|N']; simpl.
    + rewrite str_eqb_false by congruence. reflexivity.
    + rewrite IH. destruct (str_eqb k k'); reflexivity.
Qed.
Lemma dkeys_dset {V} k (v : V) d : dkeys (dset k v d) = if dmem k d then dkeys d else dkeys d ++ [k].
Proof.
  unfold dmem. induction d as [|[k' v'] d IH]; simpl; [reflexivity|].
  destruct (str_eqb_spec k k') as [->|N]; simpl; [reflexivity|].
  rewrite IH. destruct (dget k d); reflexivity.
Qed.

Lemma remove_char_app c a b : remove_char c (a ++ b) = remove_char c a ++ remove_char c b.
Proof. unfold remove_char. apply filter_app. Qed.
