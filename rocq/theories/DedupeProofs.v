(** The duplicate removal of arg_extract, which removes from the list it
    iterates over, computes a plain filter on the lists that can occur. *)
From Verif Require Import Py PyFloat Parser StrFacts.
Open Scope nat_scope.

Definition shadowed (ms : list pmatch) (a : pmatch) : bool := existsb (fun m => shadows m a) ms.
Definition unshadowed (ms : list pmatch) : list pmatch := filter (fun a => negb (shadowed ms a)) ms.

Lemma shadowed_iff ms a : shadowed ms a = true <-> exists m, In m ms /\ shadows m a = true.
Proof. unfold shadowed. apply existsb_exists. Qed.

Lemma shadows_irrefl a : shadows a a = false.
Proof. unfold shadows. rewrite Nat.ltb_irrefl. apply andb_false_r. Qed.

Lemma remove_match_split a p q : ~ In (m_key a) (map m_key p) -> remove_match a (p ++ a :: q) = Some (p ++ q).
Proof.
  induction p as [|x p IH]; simpl; intros H.
  - rewrite str_eqb_refl. reflexivity.
  - rewrite str_eqb_false by (intros E; apply H; left; congruence).
    rewrite IH by (intros Hi; apply H; right; exact Hi). reflexivity.
Qed.

Lemma for_idle fuel a : forall j ms, (forall m, In m (skipn j ms) -> shadows m a = false) -> dedupe_for fuel a j ms = Ok ms.
Proof.
  induction fuel as [|fuel IH]; intros j ms H; [reflexivity|]. cbn [dedupe_for].
  destruct (nth_error ms j) as [m|] eqn:E; [|reflexivity].
  apply nth_error_split in E as (p & q & -> & Hl).
  assert (Hs : skipn j (p ++ m :: q) = m :: q).
  { subst j. rewrite skipn_app, skipn_all, Nat.sub_diag. reflexivity. }
  rewrite Hs in H. rewrite (H m) by (left; reflexivity). apply IH.
  replace (S j) with (1 + j) by lia. intros m' Hm'. apply H.
  rewrite <- Hs. rewrite <- (firstn_skipn 1 (skipn j _)). apply in_or_app. right.
  clear -Hm'. revert Hm'. generalize (p ++ m :: q). intros l.
  assert (E : skipn 1 (skipn j l) = skipn (1 + j) l).
  { revert j. induction l as [|x l IH]; intros [|j]; try reflexivity. cbn [skipn Nat.add] in *.
    rewrite <- (IH j). reflexivity. }
  rewrite E. auto.
Qed.

Lemma in_skipn_S {A} (x : A) : forall n l, In x (skipn (S n) l) -> In x (skipn n l).
Proof.
  induction n as [|n IH]; intros [|z l] H; cbn [skipn] in *; auto. right. exact H.
Qed.
Lemma in_skipn_insert {A} (x a : A) v : forall u j, In x (skipn (S j) (u ++ v)) -> In x (skipn (S j) (u ++ a :: v)).
Proof.
  induction u as [|y u IH]; intros j H.
  - simpl app in *. cbn [skipn]. apply in_skipn_S. exact H.
  - destruct j as [|j].
    + cbn [skipn app] in *. apply in_app_or in H as [H|H]; apply in_or_app; [left|right; right]; assumption.
    + cbn [app]. change (In x (skipn (S j) (u ++ a :: v))). apply IH. exact H.
Qed.

(** Exactly one element shadows [a]: the loop removes [a], once. *)
Lemma for_remove a ms0 : forall fuel j ms,
  NoDup (map m_key ms) -> In a ms -> length ms <= fuel + j ->
  (forall m, In m (skipn j ms) -> shadows m a = true -> m = ms0) ->
  In ms0 (skipn j ms) -> shadows ms0 a = true ->
  exists ms', remove_match a ms = Some ms' /\ dedupe_for fuel a j ms = Ok ms'.
Proof.
  induction fuel as [|fuel IH]; intros j ms Hnd Ha Hf Hu Hin Hs.
  - exfalso. rewrite skipn_all2 in Hin by lia. exact Hin.
  - cbn [dedupe_for]. destruct (nth_error ms j) as [m|] eqn:E.
    2:{ apply nth_error_None in E. rewrite skipn_all2 in Hin by lia. destruct Hin. }
    assert (Es := E). apply nth_error_split in Es as (p & q & Ems & Hl).
    assert (Hsk : skipn j ms = m :: q).
    { rewrite Ems. subst j. rewrite skipn_app, skipn_all, Nat.sub_diag. reflexivity. }
    assert (Hsk' : skipn (S j) ms = q).
    { rewrite Ems. subst j. rewrite skipn_app, skipn_all2 by lia.
      replace (S (length p) - length p) with 1 by lia. reflexivity. }
    rewrite Hsk in Hin, Hu. destruct (shadows m a) eqn:Em.
    + assert (m = ms0) by (apply Hu; [left; reflexivity|exact Em]). subst m.
      destruct (in_split _ _ Ha) as (u & v & Ea).
      assert (Hr : remove_match a ms = Some (u ++ v)).
      { rewrite Ea. apply remove_match_split. rewrite Ea, map_app in Hnd. simpl in Hnd.
        apply NoDup_remove_2 in Hnd. intros Hi. apply Hnd, in_or_app. left; exact Hi. }
      rewrite Hr. exists (u ++ v). split; [reflexivity|]. apply for_idle.
      intros m' Hm'.
      destruct (shadows m' a) eqn:Em'; [|reflexivity]. exfalso.
      (* m' would be in q, hence equal to ms0, which occurs once *)
      assert (Hq : In m' q).
      { rewrite <- Hsk', Ea. apply in_skipn_insert. exact Hm'. }
      assert (m' = ms0) by (apply Hu; [right; exact Hq|exact Em']). subst m'.
      rewrite Ems, map_app in Hnd. simpl in Hnd. apply NoDup_remove_2 in Hnd. apply Hnd, in_or_app. right.
      apply in_map. exact Hq.
    + destruct Hin as [->|Hin]; [congruence|]. apply IH; auto; try lia.
      * rewrite Hsk'. intros m' Hm' Hs'. apply Hu; [right; exact Hm'|exact Hs'].
      * rewrite Hsk'. exact Hin.
Qed.

(** No two neighbours are shadowed. *)
Fixpoint no_adjacent (P : pmatch -> bool) (ms : list pmatch) : Prop :=
  match ms with
  | x :: ((y :: _) as ms') => (P x = true -> P y = true -> False) /\ no_adjacent P ms'
  | _ => True
  end.

Section Dedupe.
Variable ms : list pmatch.
Hypothesis Hnd : NoDup (map m_key ms).
Hypothesis Hone : forall a m m', In a ms -> In m ms -> In m' ms ->
  shadows m a = true -> shadows m' a = true -> m = m'.
Hypothesis Htop : forall a m, In a ms -> In m ms -> shadows m a = true -> shadowed ms m = false.
Hypothesis Hadj : no_adjacent (shadowed ms) ms.

Notation keep := (filter (fun a => negb (shadowed ms a))).

Lemma while_filter : forall fuel suf pre, ms = pre ++ suf -> length suf < fuel -> no_adjacent (shadowed ms) suf ->
  dedupe_while fuel (length (keep pre)) (keep pre ++ suf) = Ok (keep ms).
Proof.
  induction fuel as [|fuel IH]; intros suf pre E Hf Ha; [lia|]. cbn [dedupe_while].
  destruct suf as [|a suf].
  - rewrite app_nil_r. rewrite (proj2 (nth_error_None _ _)) by lia.
    rewrite E. rewrite app_nil_r. reflexivity.
  - rewrite nth_error_app2, Nat.sub_diag by lia. cbn [nth_error].
    assert (Hsub : forall x, In x (keep pre ++ a :: suf) -> In x ms).
    { intros x Hx. rewrite E. apply in_app_or in Hx as [Hx|Hx]; apply in_or_app; [left|right; exact Hx].
      apply filter_In in Hx. apply Hx. }
    assert (Hin : In a ms) by (apply Hsub, in_or_app; right; left; reflexivity).
    assert (Hnd' : NoDup (map m_key (keep pre ++ a :: suf))).
    { rewrite map_app. rewrite E, map_app in Hnd. clear -Hnd.
      induction pre as [|x pre IHp]; [exact Hnd|]. simpl map in Hnd. simpl app in Hnd.
      inversion Hnd as [|? ? N1 N2]; subst.
      simpl filter. destruct (negb (shadowed ms x)); [|apply IHp; exact N2].
      simpl. constructor; [|apply IHp; exact N2]. intros Hi. apply N1.
      apply in_app_or in Hi as [Hi|Hi]; apply in_or_app; [left|right; exact Hi].
      apply in_map_iff in Hi as (y & E1 & Hy). apply filter_In in Hy as [Hy _]. rewrite <- E1. apply in_map. exact Hy. }
    destruct (shadowed ms a) eqn:Es.
    + apply shadowed_iff in Es as Es2. destruct Es2 as (m & Hm & Hsm).
      assert (Hmt := Htop a m Hin Hm Hsm).
      assert (Hm' : In m (keep pre ++ a :: suf)).
      { rewrite E in Hm. apply in_app_or in Hm as [Hm|Hm]; apply in_or_app; [left|right; exact Hm].
        apply filter_In. rewrite Hmt. auto. }
      destruct (for_remove a m (S (length (keep pre ++ a :: suf))) 0 (keep pre ++ a :: suf)) as (ms' & Hr & Hd); auto.
      * apply in_or_app. right; left; reflexivity.
      * lia.
      * intros m' Hi Hs'. simpl skipn in Hi. apply (Hone a); auto.
      * rewrite Hd. cbn [bind].
        assert (ms' = keep pre ++ suf).
        { assert (X : remove_match a (keep pre ++ a :: suf) = Some (keep pre ++ suf)).
          { apply remove_match_split. rewrite map_app in Hnd'. simpl in Hnd'. apply NoDup_remove_2 in Hnd'.
            intros Hi. apply Hnd', in_or_app. left; exact Hi. }
          congruence. }
        subst ms'. destruct suf as [|b suf].
        -- destruct fuel as [|fuel]; [simpl in Hf; lia|].
           rewrite app_nil_r. cbn [dedupe_while]. rewrite (proj2 (nth_error_None _ _)) by lia.
           rewrite E, filter_app. simpl filter. rewrite <- E. rewrite Es. simpl. rewrite app_nil_r. reflexivity.
        -- simpl in Ha. destruct Ha as [Hab Ha].
           assert (Eb : shadowed ms b = false).
           { destruct (shadowed ms b) eqn:X; [|reflexivity]. exfalso. apply Hab; [exact Es|reflexivity]. }
           assert (Ek : keep (pre ++ [a; b]) = keep pre ++ [b]).
           { rewrite filter_app. simpl. rewrite Es, Eb. reflexivity. }
           specialize (IH suf (pre ++ [a; b])). rewrite Ek in IH. rewrite app_length in IH. simpl length in IH.
           rewrite <- !app_assoc in IH. simpl app in IH. rewrite Nat.add_1_r in IH. apply IH.
           ++ exact E.
           ++ simpl in Hf. lia.
           ++ destruct suf; simpl in *; tauto.
    + rewrite for_idle.
      2:{ simpl skipn. intros m Hm. destruct (shadows m a) eqn:X; [|reflexivity]. exfalso.
          assert (shadowed ms a = true) by (apply shadowed_iff; exists m; auto). congruence. }
      cbn [bind]. assert (Ek : keep (pre ++ [a]) = keep pre ++ [a]).
      { rewrite filter_app. simpl. rewrite Es. reflexivity. }
      specialize (IH suf (pre ++ [a])). rewrite Ek in IH. rewrite app_length in IH. simpl length in IH.
      rewrite <- !app_assoc in IH. simpl app in IH. rewrite Nat.add_1_r in IH. apply IH.
      * exact E.
      * simpl in Hf. lia.
      * destruct suf; simpl in *; tauto.
Qed.

Lemma dedupe_is_filter : dedupe ms = Ok (unshadowed ms).
Proof. apply (while_filter (S (length ms)) ms []); auto. Qed.
End Dedupe.

Lemma dedupe_none ms : (forall a m, In a ms -> In m ms -> shadows m a = false) -> dedupe ms = Ok ms.
Proof.
  intros H. unfold dedupe.
  enough (G : forall fuel i, dedupe_while fuel i ms = Ok ms) by apply G.
  induction fuel as [|fuel IH]; intros i; [reflexivity|]. cbn [dedupe_while].
  destruct (nth_error ms i) as [a|] eqn:E; [|reflexivity].
  rewrite for_idle; [apply IH|]. simpl skipn. intros m Hm. apply H; [|exact Hm].
  apply nth_error_In in E. exact E.
Qed.

(** The matches of the command table. *)
Lemma in_find_matches m keys s : In m (find_matches keys s) ->
  In (m_key m) keys /\ find (m_key m) s = Some (m_start m) /\ m_end m = m_start m + length (m_key m).
Proof.
  induction keys as [|k keys IH]; simpl; [intros []|].
  destruct (find k s) as [i|] eqn:E.
  - intros [<-|H]; simpl; [auto|]. destruct (IH H) as (A & B); auto.
  - intros H. destruct (IH H) as (A & B); auto.
Qed.
Lemma find_matches_in k keys s i : In k keys -> find k s = Some i ->
  In {| m_key := k; m_start := i; m_end := i + length k |} (find_matches keys s).
Proof.
  induction keys as [|k' keys IH]; simpl; [intros []|]. intros [->|H] E.
  - rewrite E. left; reflexivity.
  - destruct (find k' s); [right|]; apply IH; assumption.
Qed.
Lemma find_matches_keys keys s : map m_key (find_matches keys s) =
  filter (fun k => match find k s with Some _ => true | None => false end) keys.
Proof.
  induction keys as [|k keys IH]; simpl; [reflexivity|]. destruct (find k s); simpl; rewrite IH; reflexivity.
Qed.
Lemma find_matches_nodup keys s : NoDup keys -> NoDup (map m_key (find_matches keys s)).
Proof. intros H. rewrite find_matches_keys. apply NoDup_filter. exact H. Qed.

Definition proper_prefix (k l : str) : bool := prefixb k l && (length k <? length l).

Lemma shadows_prefix keys s a m : In a (find_matches keys s) -> In m (find_matches keys s) ->
  shadows m a = true -> proper_prefix (m_key a) (m_key m) = true /\ m_start a = m_start m.
Proof.
  intros Ha Hm H. apply in_find_matches in Ha as (_ & Fa & Ea). apply in_find_matches in Hm as (_ & Fm & Em).
  unfold shadows in H. apply andb_prop in H as [H1 H2]. apply Nat.eqb_eq in H1. apply Nat.ltb_lt in H2.
  split; [|exact H1]. unfold proper_prefix. apply andb_true_intro. split; [|apply Nat.ltb_lt; lia].
  apply find_some in Fa as (_ & Pa & _). apply find_some in Fm as (_ & Pm & _). rewrite <- H1 in Pm.
  apply (prefixb_two _ _ _ Pa Pm). lia.
Qed.
Lemma prefix_shadows keys s a m : In a (find_matches keys s) -> In m (find_matches keys s) ->
  m_start a = m_start m -> length (m_key a) < length (m_key m) -> shadows m a = true.
Proof.
  intros Ha Hm H Hl. apply in_find_matches in Ha as (_ & _ & Ea). apply in_find_matches in Hm as (_ & _ & Em).
  unfold shadows. rewrite H, Nat.eqb_refl. simpl. apply Nat.ltb_lt. lia.
Qed.

Definition known_keys := map fst known_commands.
Lemma known_keys_nodup : NoDup known_keys.
Proof.
  unfold known_keys. repeat (apply NoDup_cons; [simpl; intuition discriminate|]). apply NoDup_nil.
Qed.
(** Table fact: which commands are proper prefixes of which. *)
Definition prefix_pairs : list (str * str) :=
  filter (fun p => proper_prefix (fst p) (snd p)) (list_prod known_keys known_keys).
Lemma prefix_pairs_eq : prefix_pairs =
  [(S_ "G2", S_ "G28"); (S_ "G2", S_ "G29"); (S_ "G2", S_ "G20"); (S_ "G2", S_ "G21");
   (S_ "G1", S_ "G10"); (S_ "G1", S_ "G11")].
Proof. vm_compute. reflexivity. Qed.
Lemma in_prefix_pairs k l : In k known_keys -> In l known_keys -> proper_prefix k l = true -> In (k, l) prefix_pairs.
Proof. intros Hk Hl H. apply filter_In. split; [apply in_prod; assumption|exact H]. Qed.

Lemma no_adjacent_keys (P : pmatch -> bool) s full : forall keys, incl (find_matches keys s) full ->
  (forall u k v l w, keys = u ++ k :: v ++ l :: w -> (forall x, In x v -> find x s = None) ->
     forall a b, In a full -> In b full -> m_key a = k -> m_key b = l -> P a = true -> P b = true -> False) ->
  no_adjacent P (find_matches keys s).
Proof.
  induction keys as [|k keys IH]; intros Hi H; [exact I|].
  simpl in Hi |- *.
  assert (IH' : incl (find_matches keys s) full -> no_adjacent P (find_matches keys s)).
  { intros Hi'. apply IH; [exact Hi'|]. intros u k' v l w E. apply (H (k :: u) k' v l w). simpl. congruence. }
  destruct (find k s) as [i|]; [|exact (IH' Hi)].
  apply incl_cons_inv in Hi as [Hi1 Hi2]. specialize (IH' Hi2).
  destruct (find_matches keys s) as [|b ms] eqn:E; [exact I|]. split; [|exact IH'].
  assert (G : exists v w, keys = v ++ m_key b :: w /\ forall x, In x v -> find x s = None).
  { clear -E. induction keys as [|k keys IH]; simpl in E; [discriminate|].
    destruct (find k s) as [i|] eqn:F.
    - injection E as <- _. exists [], keys. split; [reflexivity|]. intros x [].
    - destruct (IH E) as (v & w & -> & Hv). exists (k :: v), w. split; [reflexivity|].
      intros x [<-|Hx]; auto. }
  destruct G as (v & w & -> & Hv). intros HA HB.
  apply (H [] k v (m_key b) w eq_refl Hv {| m_key := k; m_start := i; m_end := i + length k |} b); auto.
  apply Hi2. left; reflexivity.
Qed.

Lemma NoDup_app_remove_l {A} (a b : list A) : NoDup (a ++ b) -> NoDup b.
Proof. induction a as [|x a IH]; simpl; [auto|]. intros H. inversion H; auto. Qed.
Lemma nodup_split_unique (u1 v1 u2 v2 : list str) k :
  NoDup (u1 ++ k :: v1) -> u1 ++ k :: v1 = u2 ++ k :: v2 -> u1 = u2 /\ v1 = v2.
Proof.
  revert u2. induction u1 as [|x u1 IH]; intros [|y u2] Hn E; simpl in *.
  - injection E as ->. auto.
  - injection E as -> ->. inversion Hn as [|? ? N1 N2]; subst. exfalso. apply N1, in_or_app. right; left; reflexivity.
  - injection E as -> <-. inversion Hn as [|? ? N1 N2]; subst. exfalso. apply N1, in_or_app. right; left; reflexivity.
  - injection E as -> E. inversion Hn as [|? ? N1 N2]; subst. destruct (IH u2 N2 E) as [-> ->]. auto.
Qed.

Theorem dedupe_known s : dedupe (find_matches known_keys s) = Ok (unshadowed (find_matches known_keys s)).
Proof.
  set (ms := find_matches known_keys s).
  assert (Hpair : forall a m, In a ms -> In m ms -> shadows m a = true ->
            In (m_key a, m_key m) prefix_pairs /\ m_start a = m_start m).
  { intros a m Ha Hm Hs. destruct (shadows_prefix _ _ _ _ Ha Hm Hs) as [Hp He]. split; [|exact He].
    apply in_prefix_pairs; [apply (in_find_matches _ _ _ Ha)|apply (in_find_matches _ _ _ Hm)|exact Hp]. }
  apply dedupe_is_filter.
  - apply find_matches_nodup, known_keys_nodup.
  - intros a m m' Ha Hm Hm' S1 S2.
    destruct (Hpair a m Ha Hm S1) as [P1 E1]. destruct (Hpair a m' Ha Hm' S2) as [P2 E2].
    pose proof (in_find_matches _ _ _ Hm) as (_ & F1 & L1). pose proof (in_find_matches _ _ _ Hm') as (_ & F2 & L2).
    assert (Ek : m_key m = m_key m').
    { apply find_some in F1 as (_ & F1 & _). apply find_some in F2 as (_ & F2 & _).
      rewrite <- E1 in F1. rewrite <- E2 in F2.
      rewrite prefix_pairs_eq in P1, P2. simpl in P1, P2.
      assert (Hl : length (m_key m) = 3 /\ length (m_key m') = 3).
      { split; [destruct P1 as [P|[P|[P|[P|[P|[P|[]]]]]]] | destruct P2 as [P|[P|[P|[P|[P|[P|[]]]]]]]];
          injection P as _ <-; reflexivity. }
      assert (Hp : prefixb (m_key m) (m_key m') = true) by (apply (prefixb_two _ _ _ F1 F2); lia).
      apply prefixb_iff in Hp as (r & Hr). rewrite Hr in Hl. rewrite app_length in Hl.
      destruct r; [|simpl in Hl; lia]. rewrite app_nil_r in Hr. congruence. }
    destruct m as [k1 s1 e1], m' as [k2 s2 e2]; simpl in *. subst. f_equal; lia.
  - intros a m Ha Hm S1. destruct (shadowed ms m) eqn:E; [|reflexivity].
    apply shadowed_iff in E as (m' & Hm' & S2).
    destruct (Hpair a m Ha Hm S1) as [P1 _]. destruct (Hpair m m' Hm Hm' S2) as [P2 _].
    rewrite prefix_pairs_eq in P1, P2. simpl in P1, P2. exfalso.
    destruct P1 as [P|[P|[P|[P|[P|[P|[]]]]]]]; injection P as _ P; rewrite <- P in P2;
      destruct P2 as [Q|[Q|[Q|[Q|[Q|[Q|[]]]]]]]; discriminate Q.
  - apply (no_adjacent_keys _ s ms known_keys (incl_refl _)). intros u k v l w E Hv a b Ha Hb Ka Kb Sa Sb.
    apply shadowed_iff in Sa as (ma & Hma & Sa). apply shadowed_iff in Sb as (mb & Hmb & Sb).
    destruct (Hpair a ma Ha Hma Sa) as [P1 _]. destruct (Hpair b mb Hb Hmb Sb) as [P2 _].
    pose proof (in_find_matches _ _ _ Hmb) as (_ & Fb & _).
    assert (Hkl : (k = S_ "G2" \/ k = S_ "G1") /\ (l = S_ "G1" /\ (m_key mb = S_ "G10" \/ m_key mb = S_ "G11") \/ l = S_ "G2")).
    { rewrite prefix_pairs_eq in P1, P2. rewrite Ka in P1. rewrite Kb in P2. clear -P1 P2. split.
      - destruct P1 as [P|[P|[P|[P|[P|[P|[]]]]]]]; injection P as <- _; auto.
      - destruct P2 as [P|[P|[P|[P|[P|[P|[]]]]]]]; injection P as <- <-; auto. }
    assert (Hn : NoDup (u ++ k :: v ++ l :: w)) by (rewrite <- E; apply known_keys_nodup).
    clear Ka Kb P1 P2.
    destruct Hkl as [[Hk|Hk] [[Hl Hmb']|Hl]].
    + (* G2 directly before G1: then G10 and G11 are absent *)
      assert (Ev : v = [S_ "G3"; S_ "G10"; S_ "G11"; S_ "G28"; S_ "G29"; S_ "G0"]).
      { subst k l. assert (X := E). change known_keys with ([] ++ S_ "G2" :: tl known_keys) in X.
        symmetry in X. apply nodup_split_unique in X as [_ X]; [|exact Hn].
        change (tl known_keys) with ([S_ "G3"; S_ "G10"; S_ "G11"; S_ "G28"; S_ "G29"; S_ "G0"] ++ S_ "G1" :: skipn 8 known_keys) in X.
        apply nodup_split_unique in X as [X _]; [exact X|].
        apply NoDup_app_remove_l in Hn. inversion Hn; assumption. }
      destruct Hmb' as [Hm|Hm]; rewrite Hm in Fb; rewrite (Hv _) in Fb; try discriminate Fb;
        rewrite Ev; simpl; auto.
    + subst k l. apply NoDup_app_remove_l in Hn. inversion Hn as [|? ? N1 N2]; subst. apply N1, in_or_app. right; left; reflexivity.
    + subst k l. apply NoDup_app_remove_l in Hn. inversion Hn as [|? ? N1 N2]; subst. apply N1, in_or_app. right; left; reflexivity.
    + (* G1 before G2 contradicts the order of the table *)
      subst k l. assert (X := E). change known_keys with (firstn 7 known_keys ++ S_ "G1" :: skipn 8 known_keys) in X.
      symmetry in X. apply nodup_split_unique in X as [_ X]; [|exact Hn].
      assert (Y : In (S_ "G2") (skipn 8 known_keys)) by (rewrite <- X; apply in_or_app; right; left; reflexivity).
      simpl in Y. intuition discriminate.
Qed.
