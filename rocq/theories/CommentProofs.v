(** C01: what a comment does to the parsed line. *)
From Verif Require Import Py PyFloat Parser StrFacts DedupeProofs SpecRead ParserProofs.
Open Scope nat_scope.
Local Arguments known_keys : simpl never.
Local Arguments find_matches : simpl never.
Local Arguments unshadowed : simpl never.
Local Arguments S_ : simpl never.
Notation known_matches s := (unshadowed (find_matches known_keys s)).
Notation semi := ";"%char.

Lemma find_matches_cons k ks x : find_matches (k :: ks) x =
  match find k x with
  | Some i => {| m_key := k; m_start := i; m_end := i + length k |} :: find_matches ks x
  | None => find_matches ks x
  end.
Proof. reflexivity. Qed.

(** Appending text after a character that is not in the key. *)
Lemma find_before k s c t : ~ In c k -> k <> [] ->
  find k (s ++ c :: t) =
  match find k s with Some i => Some i | None => option_map (fun i => length s + 1 + i) (find k t) end.
Proof.
  intros Hc Hk.
  assert (Pre : forall u, prefixb k (u ++ c :: t) = prefixb k u).
  { clear -Hc Hk. intros u. destruct (prefixb k (u ++ c :: t)) eqn:E, (prefixb k u) eqn:F; try reflexivity.
    - exfalso. apply prefixb_iff in E as (r & E).
      assert (L : length k <= length u \/ length u < length k) by lia. destruct L as [L|L].
      + assert (X : prefixb k u = true); [|congruence].
        apply prefixb_iff. exists (skipn (length k) u).
        assert (E' : firstn (length k) (u ++ c :: t) = firstn (length k) (k ++ r)) by (rewrite E; reflexivity).
        rewrite !firstn_app, firstn_all in E'. replace (length k - length u) with 0 in E' by lia.
        replace (length k - length k) with 0 in E' by lia. simpl in E'. rewrite !app_nil_r in E'.
        rewrite <- E' at 1. symmetry. apply firstn_skipn.
      + apply Hc. assert (E' : nth_error (u ++ c :: t) (length u) = nth_error (k ++ r) (length u)) by (rewrite E; reflexivity).
        rewrite nth_error_app2, Nat.sub_diag in E' by lia. simpl in E'.
        rewrite nth_error_app1 in E' by lia. symmetry in E'. apply nth_error_In in E'. exact E'.
    - rewrite (prefixb_app k u (c :: t) F) in E. discriminate. }
  induction s as [|x s IH].
  - simpl app. cbn [find]. change (c :: t) with ([] ++ c :: t) at 1. rewrite (Pre []). destruct k as [|y k]; [congruence|].
    cbn [prefixb]. destruct (find (y :: k) t); reflexivity.
  - simpl app. cbn [find]. change (x :: s ++ c :: t) with ((x :: s) ++ c :: t). rewrite (Pre (x :: s)). destruct (prefixb k (x :: s)); [reflexivity|].
    rewrite IH. destruct (find k s) as [i|]; [reflexivity|]. destruct (find k t); reflexivity.
Qed.

Definition before_keys : list str := removelast known_keys.
Lemma known_keys_split : known_keys = before_keys ++ [S_ ";"].
Proof. reflexivity. Qed.
Lemma before_no_semi k : In k before_keys -> ~ In semi k /\ k <> [] /\ k <> S_ ";".
Proof.
  assert (H : forallb (fun k => negb (existsb (aeqb semi) k) && negb (str_eqb k [])) before_keys = true) by reflexivity.
  intros Hk. pose proof (proj1 (forallb_forall _ _) H k Hk) as Q. cbv beta in Q. apply andb_prop in Q as [Q1 Q2].
  apply negb_true_iff in Q1. assert (N : ~ In semi k).
  { intros Hi. assert (X : existsb (aeqb semi) k = true) by (apply existsb_exists; exists semi; rewrite aeqb_refl; auto).
    congruence. }
  split; [exact N|]. split.
  - intros ->. discriminate Q2.
  - intros ->. apply N. left; reflexivity.
Qed.

Section Comment.
Variables s t : str.
Hypothesis Hs : ~ In semi s.
Notation full := (s ++ semi :: t).

Lemma find_semi : find (S_ ";") full = Some (length s).
Proof.
  rewrite (find_skip (S_ ";") semi []) by (reflexivity || assumption).
  replace (find (S_ ";") (semi :: t)) with (Some 0) by reflexivity. simpl. f_equal. lia.
Qed.
Lemma find_semi_none : find (S_ ";") s = None.
Proof. apply (find_not_in (S_ ";") semi []); [reflexivity|exact Hs]. Qed.
Lemma find_full k : In k before_keys ->
  find k full = match find k s with Some i => Some i | None => option_map (fun i => length s + 1 + i) (find k t) end.
Proof. intros Hk. destruct (before_no_semi k Hk) as (A & B & _). apply find_before; assumption. Qed.
(** A key found inside the comment-free part is found there in both. *)
Lemma find_full_inside k i : command k -> i < length s -> (find k full = Some i <-> find k s = Some i).
Proof.
  intros Hk Hi. unfold command in Hk. fold known_keys in Hk. rewrite known_keys_split in Hk.
  apply in_app_or in Hk as [Hk|[<-|[]]].
  - rewrite (find_full k Hk). destruct (find k s) as [j|]; [reflexivity|].
    split; [|discriminate]. destruct (find k t); simpl; [|discriminate]. intros H; injection H as H. lia.
  - rewrite find_semi, find_semi_none. split; [|discriminate]. intros H; injection H as H. lia.
Qed.

Lemma cb_full : comment_begin (known_matches full) (length full) = length s.
Proof. rewrite comment_begin_spec, find_semi. reflexivity. Qed.
Lemma cb_s : comment_begin (known_matches s) (length s) = length s.
Proof. rewrite comment_begin_spec, find_semi_none. reflexivity. Qed.

Lemma filter_in_eq {A} (f g : A -> bool) l : (forall x, In x l -> f x = g x) -> filter f l = filter g l.
Proof.
  induction l as [|x l IH]; intros H; simpl; [reflexivity|].
  rewrite (H x) by (left; reflexivity). rewrite IH by (intros y Hy; apply H; right; exact Hy). reflexivity.
Qed.

Lemma key_nonempty k : command k -> 0 < length k.
Proof.
  intros Hk. pose proof (commands_all (fun k => 0 <? length k) eq_refl k Hk) as Q. apply Nat.ltb_lt. exact Q.
Qed.

Lemma filter_id {A} (f : A -> bool) l : (forall x, In x l -> f x = true) -> filter f l = l.
Proof.
  induction l as [|x l IH]; intros H; [reflexivity|]. simpl. rewrite (H x) by (left; reflexivity).
  rewrite IH by (intros y Hy; apply H; right; exact Hy). reflexivity.
Qed.

(** Being shadowed does not depend on the comment. *)
Lemma shadowed_full m : In m (find_matches known_keys s) ->
  shadowed (find_matches known_keys full) m = shadowed (find_matches known_keys s) m.
Proof.
  intros Hm. pose proof (in_find_matches _ _ _ Hm) as (Hk & Hf & He).
  assert (Hl := find_length _ _ _ Hf). assert (Hp := key_nonempty _ Hk).
  destruct (shadowed (find_matches known_keys s) m) eqn:E.
  - apply shadowed_iff in E as (m' & Hm' & Hsh). apply shadowed_iff. exists m'. split; [|exact Hsh].
    pose proof (in_find_matches _ _ _ Hm') as (Hk' & Hf' & He').
    assert (Em : m' = {| m_key := m_key m'; m_start := m_start m'; m_end := m_start m' + length (m_key m') |})
      by (destruct m'; simpl in *; congruence).
    rewrite Em. apply find_matches_in; [exact Hk'|]. apply find_full_inside; auto.
    pose proof (find_length _ _ _ Hf'). pose proof (key_nonempty _ Hk'). lia.
  - destruct (shadowed (find_matches known_keys full) m) eqn:E'; [|reflexivity]. exfalso.
    apply shadowed_iff in E' as (m' & Hm' & Hsh).
    assert (shadowed (find_matches known_keys s) m = true); [|congruence].
    apply shadowed_iff. exists m'. split; [|exact Hsh].
    pose proof (in_find_matches _ _ _ Hm') as (Hk' & Hf' & He').
    assert (Em : m' = {| m_key := m_key m'; m_start := m_start m'; m_end := m_start m' + length (m_key m') |})
      by (destruct m'; simpl in *; congruence).
    rewrite Em. apply find_matches_in; [exact Hk'|].
    unfold shadows in Hsh. apply andb_prop in Hsh as [Hst _]. apply Nat.eqb_eq in Hst.
    apply find_full_inside; auto. lia.
Qed.

(** The matches that end before the comment are those of the bare line. *)
Lemma inside_matches keys : incl keys before_keys ->
  filter (fun m => m_end m <=? length s) (find_matches keys full) = find_matches keys s.
Proof.
  induction keys as [|k keys IH]; intros Hi; [reflexivity|].
  apply incl_cons_inv in Hi as [Hk Hi]. rewrite !find_matches_cons. rewrite (find_full k Hk).
  destruct (find k s) as [i|] eqn:E.
  - cbn [filter m_end]. pose proof (find_length _ _ _ E) as L. rewrite (proj2 (Nat.leb_le _ _)) by exact L.
    rewrite IH by exact Hi. reflexivity.
  - destruct (find k t) as [i|]; simpl option_map; [|apply IH; exact Hi].
    cbn [filter m_end]. rewrite (proj2 (Nat.leb_gt _ _)) by lia. apply IH; exact Hi.
Qed.

Definition semi_match : pmatch := {| m_key := S_ ";"; m_start := length s; m_end := length s + 1 |}.

Lemma find_matches_app ks1 ks2 x : find_matches (ks1 ++ ks2) x = find_matches ks1 x ++ find_matches ks2 x.
Proof.
  induction ks1 as [|k ks IH]; [reflexivity|]. cbn [app]. rewrite !find_matches_cons. destruct (find k x); rewrite IH; reflexivity.
Qed.
Lemma full_matches : find_matches known_keys full = find_matches before_keys full ++ [semi_match].
Proof.
  rewrite known_keys_split, find_matches_app. f_equal. rewrite find_matches_cons. rewrite find_semi. reflexivity.
Qed.
Lemma bare_matches : find_matches known_keys s = find_matches before_keys s.
Proof.
  rewrite known_keys_split, find_matches_app. rewrite find_matches_cons. rewrite find_semi_none. apply app_nil_r.
Qed.

Lemma semi_not_shadowed : shadowed (find_matches known_keys full) semi_match = false.
Proof.
  destruct (shadowed _ semi_match) eqn:E; [|reflexivity]. exfalso. apply shadowed_iff in E as (m & Hm & Hsh).
  assert (Hm0 : In semi_match (find_matches known_keys full)) by (rewrite full_matches; apply in_or_app; right; left; reflexivity).
  destruct (shadows_prefix _ _ _ _ Hm0 Hm Hsh) as [P _]. pose proof (in_find_matches _ _ _ Hm) as (Hk & _).
  pose proof (commands_all (fun k => negb (proper_prefix (S_ ";") k)) eq_refl _ Hk) as Q. cbv beta in Q.
  cbn [m_key semi_match] in P. rewrite P in Q. discriminate.
Qed.

Lemma filter_filter {A} (f g : A -> bool) l : filter f (filter g l) = filter (fun x => f x && g x) l.
Proof.
  induction l as [|x l IH]; [reflexivity|]. simpl. destruct (g x); simpl; rewrite ?IH.
  - destruct (f x); reflexivity.
  - rewrite andb_false_r. reflexivity.
Qed.

Lemma reported_matches :
  filter (reported (length s)) (known_matches full) = known_matches s ++ [semi_match].
Proof.
  unfold unshadowed. rewrite filter_filter.
  rewrite full_matches at 1. rewrite filter_app. f_equal.
  - rewrite bare_matches at 1. rewrite <- (inside_matches before_keys (incl_refl _)). rewrite filter_filter.
    apply filter_in_eq. intros m Hm. pose proof (in_find_matches _ _ _ Hm) as (Hk & Hf & He).
    unfold reported. destruct (before_no_semi _ Hk) as (_ & _ & Hne). rewrite (str_eqb_false _ _ Hne), orb_false_r.
    destruct (m_end m <=? length s) eqn:L; [|rewrite andb_false_r; reflexivity].
    rewrite andb_true_r. simpl andb. f_equal. apply shadowed_full.
    rewrite bare_matches, <- (inside_matches before_keys (incl_refl _)). apply filter_In. auto.
  - cbn [filter]. rewrite semi_not_shadowed. unfold reported. cbn [m_key semi_match].
    rewrite str_eqb_refl, orb_true_r. reflexivity.
Qed.

(** * Values *)
Lemma next_larger_spec starts num len :
  (exists n, In n starts /\ num <= n /\ (forall x, In x starts -> num <= x -> n <= x) /\ next_larger starts num len = n)
  \/ ((forall x, In x starts -> x < num) /\ next_larger starts num len = len).
Proof.
  unfold next_larger. destruct (filter (fun x => num <=? x) starts) as [|x xs] eqn:E.
  - right. split; [|reflexivity]. intros x Hx. destruct (Nat.le_gt_cases num x) as [L|L]; [|exact L]. exfalso.
    assert (In x (filter (fun x => num <=? x) starts)) by (apply filter_In; split; [exact Hx|apply Nat.leb_le; exact L]).
    rewrite E in H. destruct H.
  - left.
    assert (G : forall xs x, let n := fold_left Nat.min xs x in In n (x :: xs) /\ forall y, In y (x :: xs) -> n <= y).
    { clear. induction xs as [|y xs IH]; intros x; cbn [fold_left].
      - split; [left; reflexivity|]. intros y [<-|[]]; lia.
      - destruct (IH (Nat.min x y)) as [A B]. split.
        + destruct A as [A|A]; [|right; right; exact A].
          rewrite <- A. destruct (Nat.min_spec x y) as [[_ ->]|[_ ->]]; [left|right; left]; reflexivity.
        + intros z [<-|[<-|Hz]]; [| |apply B; right; exact Hz];
            (eapply Nat.le_trans; [apply (B _ (or_introl eq_refl))|lia]). }
    destruct (G xs x) as [A B]. rewrite <- E in A, B. apply filter_In in A as [A1 A2]. apply Nat.leb_le in A2.
    exists (fold_left Nat.min xs x). split; [exact A1|]. split; [exact A2|]. split; [|reflexivity].
    intros y Hy Hn. apply B, filter_In. split; [exact Hy|apply Nat.leb_le; exact Hn].
Qed.

Lemma slice_app a b x y : b <= length x -> slice a b (x ++ y) = slice a b x.
Proof.
  intros H. unfold slice. destruct (Nat.le_gt_cases a b) as [L|L].
  - rewrite skipn_app, firstn_app. rewrite skipn_length.
    replace (b - a - (length x - a)) with 0 by lia. simpl. apply app_nil_r.
  - replace (b - a) with 0 by lia. reflexivity.
Qed.

Lemma in_reported_start x : In x (map m_start (known_matches full)) <->
  In x (map m_start (known_matches s)) \/ x = length s \/ (length s < x /\ In x (map m_start (known_matches full))).
Proof.
  split.
  - intros H. apply in_map_iff in H as (m & <- & Hm).
    destruct (reported (length s) m) eqn:R.
    + assert (X : In m (known_matches s ++ [semi_match])) by (rewrite <- reported_matches; apply filter_In; auto).
      apply in_app_or in X as [X|[<-|[]]]; [left; apply in_map; exact X|right; left; reflexivity].
    + right; right. split; [|apply in_map; exact Hm].
      unfold reported in R. apply orb_false_elim in R as [R1 R2]. apply Nat.leb_gt in R1.
      apply in_known_matches in Hm as (Hk & Hf & He & _).
      apply find_first in Hf.
      unfold command in Hk. fold known_keys in Hk. rewrite known_keys_split in Hk.
      apply in_app_or in Hk as [Hk|[Hk|[]]]; [|rewrite <- Hk in R2; discriminate].
      rewrite (find_full _ Hk) in Hf. destruct (find (m_key m) s) as [i|] eqn:F.
      * injection Hf as Hf. apply find_length in F. lia.
      * destruct (find (m_key m) t); simpl in Hf; [injection Hf as Hf; lia|discriminate].
  - assert (X : forall m, In m (known_matches s ++ [semi_match]) -> In (m_start m) (map m_start (known_matches full))).
    { intros m Hm. rewrite <- reported_matches in Hm. apply filter_In in Hm as [Hm _]. apply in_map; exact Hm. }
    intros [H|[->|[_ H]]]; [| |exact H].
    + apply in_map_iff in H as (m & <- & Hm). apply X, in_or_app. left; exact Hm.
    + apply (X semi_match), in_or_app. right; left; reflexivity.
Qed.

Lemma next_larger_full n : n <= length s ->
  next_larger (map m_start (known_matches full)) n (length full) =
  next_larger (map m_start (known_matches s)) n (length s).
Proof.
  intros Hn.
  assert (Hb : forall x, In x (map m_start (known_matches s)) -> x < length s).
  { intros x Hx. apply in_map_iff in Hx as (m & <- & Hm). apply in_known_matches in Hm as (Hk & Hf & _).
    apply find_first in Hf. apply find_length in Hf. pose proof (key_nonempty _ Hk). lia. }
  assert (Hl : In (length s) (map m_start (known_matches full))) by (apply in_reported_start; auto).
  destruct (next_larger_spec (map m_start (known_matches full)) n (length full)) as [(a & A1 & A2 & A3 & A4)|(A & _)].
  2:{ pose proof (A _ Hl). lia. }
  destruct (next_larger_spec (map m_start (known_matches s)) n (length s)) as [(b & B1 & B2 & B3 & B4)|(B1 & B2)].
  - rewrite A4, B4. apply Nat.le_antisymm.
    + apply A3; [apply in_reported_start; left; exact B1|exact B2].
    + apply in_reported_start in A1 as [A1|[->|[A1 _]]]; [apply B3; assumption| |]; pose proof (Hb _ B1); lia.
  - rewrite A4, B2. apply Nat.le_antisymm; [apply A3; [exact Hl|exact Hn]|].
    apply in_reported_start in A1 as [A1|[->|[A1 _]]]; [|lia|lia]. pose proof (B1 _ A1). lia.
Qed.

Lemma next_larger_le m : In m (known_matches s) ->
  next_larger (map m_start (known_matches s)) (m_end m) (length s) <= length s.
Proof.
  intros Hm. destruct (next_larger_spec (map m_start (known_matches s)) (m_end m) (length s)) as [(b & B1 & _ & _ & ->)|(_ & ->)]; [|lia].
  apply in_map_iff in B1 as (m' & <- & Hm'). apply in_known_matches in Hm' as (_ & Hf & _).
  apply find_first in Hf. apply find_length in Hf. lia.
Qed.

Lemma value_full m : In m (known_matches s) ->
  match_value full known_commands (map m_start (known_matches full)) m =
  match_value s known_commands (map m_start (known_matches s)) m.
Proof.
  intros Hm. pose proof (proj1 (in_known_matches m s) Hm) as (Hk & Hf & He & _). apply find_first in Hf.
  assert (L := find_length _ _ _ Hf).
  assert (Hne : str_eqb (m_key m) (S_ ";") = false).
  { apply str_eqb_false. intros E. rewrite E, find_semi_none in Hf. discriminate. }
  unfold match_value. rewrite Hne. rewrite next_larger_full by lia.
  rewrite slice_app by (apply next_larger_le; exact Hm). reflexivity.
Qed.
Lemma value_semi starts : match_value full known_commands starts semi_match = Ok (ALeaf (LStr t)).
Proof.
  unfold match_value. cbn [m_key semi_match m_end]. rewrite str_eqb_refl.
  replace (key_lookup (S_ ";") known_commands) with (@None (list str)) by reflexivity.
  rewrite skipn_app, skipn_all2 by lia. replace (length s + 1 - length s) with 1 by lia. reflexivity.
Qed.

Lemma collect_filter p f ms r : collect p f ms = Ok r -> collect (fun _ => true) f (filter p ms) = Ok r.
Proof.
  revert r. induction ms as [|m ms IH]; intros r; cbn [collect filter]; [auto|].
  destruct (f m) as [v|] eqn:E; cbn [bind]; [|discriminate].
  destruct (collect p f ms) as [r'|]; cbn [bind]; [|discriminate].
  intros H; injection H as <-. destruct (p m); cbn [collect]; [rewrite E; cbn [bind]|]; rewrite (IH r' eq_refl); reflexivity.
Qed.
Lemma collect_app f a b : collect (fun _ => true) f (a ++ b) =
  (x <- collect (fun _ => true) f a ;; y <- collect (fun _ => true) f b ;; Ok (x ++ y)).
Proof.
  induction a as [|m a IH]; simpl.
  - destruct (collect _ f b); reflexivity.
  - destruct (f m); cbn [bind]; [|reflexivity]. rewrite IH.
    destruct (collect _ f a); cbn [bind]; [|reflexivity]. destruct (collect _ f b); reflexivity.
Qed.
Lemma collect_ext p p' f f' ms : (forall m, In m ms -> p m = p' m /\ f m = f' m) -> collect p f ms = collect p' f' ms.
Proof.
  induction ms as [|m ms IH]; intros H; [reflexivity|]. cbn [collect].
  destruct (H m (or_introl eq_refl)) as [-> ->]. rewrite IH by (intros x Hx; apply H; right; exact Hx). reflexivity.
Qed.

Lemma bare_line : arg_extract s known_commands =
  collect (fun _ => true) (match_value s known_commands (map m_start (known_matches s))) (known_matches s).
Proof.
  rewrite arg_extract_known. rewrite cb_s. apply collect_ext. intros m Hm. split; [|reflexivity].
  apply in_known_matches in Hm as (_ & Hf & He & _). apply find_first in Hf. apply find_length in Hf.
  unfold reported. apply orb_true_intro. left. apply Nat.leb_le. lia.
Qed.

Lemma filtered_full :
  collect (fun _ => true) (match_value full known_commands (map m_start (known_matches full)))
          (filter (reported (length s)) (known_matches full)) =
  (d <- arg_extract s known_commands ;; Ok (d ++ [(S_ ";", ALeaf (LStr t))])).
Proof.
  rewrite reported_matches, collect_app. rewrite bare_line.
  rewrite (collect_ext _ (fun _ => true) _ (match_value s known_commands (map m_start (known_matches s))) (known_matches s))
    by (intros m Hm; split; [reflexivity|apply value_full; exact Hm]).
  destruct (collect _ _ (known_matches s)) as [d|]; cbn [bind]; [|reflexivity].
  cbn [collect]. rewrite value_semi. reflexivity.
Qed.

(** If the line with the comment is read, it means what the bare line means. *)
Theorem comment_ignored d' : arg_extract full known_commands = Ok d' ->
  exists d, arg_extract s known_commands = Ok d /\ d' = d ++ [(S_ ";", ALeaf (LStr t))].
Proof.
  intros H. rewrite arg_extract_known, cb_full in H. apply collect_filter in H. rewrite filtered_full in H.
  destruct (arg_extract s known_commands) as [d|]; cbn [bind] in H; [|discriminate].
  exists d. split; [reflexivity|]. congruence.
Qed.

(** A comment in which no command occurs is always harmless. *)
Theorem comment_harmless : (forall k, command k -> k <> S_ ";" -> ~ occurs k t) ->
  arg_extract full known_commands = (d <- arg_extract s known_commands ;; Ok (d ++ [(S_ ";", ALeaf (LStr t))])).
Proof.
  intros HC.
  assert (Hall : filter (reported (length s)) (known_matches full) = known_matches full).
  { apply filter_id. intros m Hm.
    unfold reported. destruct (str_eqb (m_key m) (S_ ";")) eqn:Ek; [apply orb_true_r|]. rewrite orb_false_r.
    apply Nat.leb_le. apply in_known_matches in Hm as (Hk & Hf & He & _). apply find_first in Hf.
    pose proof Hk as Hk2. unfold command in Hk. fold known_keys in Hk. rewrite known_keys_split in Hk.
    apply in_app_or in Hk as [Hk|[Hk|[]]]; [|rewrite <- Hk in Ek; discriminate].
    rewrite (find_full _ Hk) in Hf. destruct (find (m_key m) s) as [i|] eqn:F.
    - injection Hf as Hf. apply find_length in F. lia.
    - exfalso. destruct (find (m_key m) t) as [i|] eqn:F2; [|discriminate].
      apply (HC (m_key m) Hk2); [intros E; rewrite E in Ek; discriminate Ek|].
      apply find_occurs. rewrite F2. discriminate. }
  rewrite arg_extract_known, cb_full. rewrite <- filtered_full. rewrite Hall. apply collect_ext.
  intros m Hm. split; [|reflexivity]. rewrite <- Hall in Hm. apply filter_In in Hm. apply Hm.
Qed.
End Comment.
