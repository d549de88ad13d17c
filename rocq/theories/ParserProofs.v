(** Proofs about arg_extract. *)
From Verif Require Import Py PyFloat Parser StrFacts DedupeProofs SpecRead.
Open Scope nat_scope.
Local Arguments known_keys : simpl never.
Local Arguments find_matches : simpl never.
Local Arguments unshadowed : simpl never.
Local Arguments S_ : simpl never.

(** * Occurrences and the substring search *)
Lemma occurs_at_iff k i s : occurs_at k i s <-> i <= length s /\ prefixb k (skipn i s) = true.
Proof.
  split.
  - intros (pre & post & -> & <-). split; [rewrite app_length; lia|].
    rewrite skipn_app, skipn_all, Nat.sub_diag. simpl. apply prefixb_self.
  - intros (Hi & H). apply prefixb_iff in H as (r & H). exists (firstn i s), r.
    rewrite <- H, firstn_skipn. split; [reflexivity|]. apply firstn_length_le. exact Hi.
Qed.
Lemma find_first k s i : find k s = Some i <-> first_at k i s.
Proof.
  rewrite find_some. split.
  - intros (A & B & C). split; [apply occurs_at_iff; auto|].
    intros j Hj. apply occurs_at_iff in Hj as [_ Hj]. destruct (Nat.le_gt_cases i j) as [|H]; [assumption|].
    rewrite (C j H) in Hj. discriminate.
  - intros [Ho Hf]. apply occurs_at_iff in Ho as [A B]. split; [exact A|]. split; [exact B|].
    intros j Hj. destruct (prefixb k (skipn j s)) eqn:E; [|reflexivity].
    assert (i <= j); [|lia]. apply Hf, occurs_at_iff. split; [lia|exact E].
Qed.
Lemma find_occurs k s : find k s <> None <-> occurs k s.
Proof.
  split.
  - destruct (find k s) as [i|] eqn:E; [intros _|congruence]. exists i. apply find_first in E. apply E.
  - intros (i & H) E. apply occurs_at_iff in H as [_ H]. pose proof (proj1 (find_none k s) E i). congruence.
Qed.

Lemma command_b k : existsb (str_eqb k) known_keys = true -> command k.
Proof.
  intros H. apply existsb_exists in H as (x & Hx & E). apply str_eqb_true in E. subst. exact Hx.
Qed.
(** Decide a statement about all commands by computation. *)
Lemma commands_all (P : str -> bool) : forallb P known_keys = true -> forall k, command k -> P k = true.
Proof. intros H k Hk. exact (proj1 (forallb_forall P known_keys) H k Hk). Qed.

(** * The loop over the matches *)
Section Collect.
Variables (p : pmatch -> bool) (f : pmatch -> res arg).
Fixpoint collect (ms : list pmatch) : res (dict arg) :=
  match ms with
  | [] => Ok []
  | m :: ms' => v <- f m ;; r <- collect ms' ;; Ok (if p m then (m_key m, v) :: r else r)
  end.
End Collect.

Definition match_value (s : str) (kd : list (str * option (list str))) (starts : list nat) (m : pmatch) : res arg :=
  let a := if str_eqb (m_key m) (S_ ";") then LStr (skipn (m_end m) s)
           else cast_arg (slice (m_end m) (next_larger starts (m_end m) (length s)) s) in
  match key_lookup (m_key m) kd with
  | None => Ok (ALeaf a)
  | Some subkeys => match a with
                    | LStr s => sub <- arg_extract_leaf s subkeys ;; Ok (ADict sub)
                    | LNum _ => Err TypeError
                    end
  end.
Definition reported (cb : nat) (m : pmatch) : bool := (m_end m <=? cb) || str_eqb (m_key m) (S_ ";").

Lemma extract_all_collect s kd starts cb : forall ms d, NoDup (dkeys d ++ map m_key ms) ->
  extract_all s kd starts cb ms d =
  (r <- collect (reported cb) (match_value s kd starts) ms ;; Ok (d ++ r)).
Proof.
  induction ms as [|m ms IH]; intros d Hn.
  - simpl. rewrite app_nil_r. reflexivity.
  - cbn [extract_all collect]. unfold extract_one. fold (match_value s kd starts m). fold (reported cb m).
    destruct (match_value s kd starts m) as [v|e]; cbn [bind]; [|reflexivity].
    simpl map in Hn. pose proof (NoDup_remove_2 _ _ _ Hn) as Hk. pose proof (NoDup_remove_1 _ _ _ Hn) as Hn'.
    destruct (reported cb m).
    + rewrite dset_new by (intros Hi; apply Hk, in_or_app; left; exact Hi).
      rewrite IH.
      * destruct (collect _ _ ms); cbn [bind]; [|reflexivity]. rewrite <- app_assoc. reflexivity.
      * unfold dkeys. rewrite map_app. simpl. rewrite <- app_assoc. exact Hn.
    + rewrite IH by exact Hn'. destruct (collect _ _ ms); reflexivity.
Qed.

Notation known_matches s := (unshadowed (find_matches known_keys s)).

Lemma unshadowed_nodup keys s : NoDup keys -> NoDup (map m_key (unshadowed (find_matches keys s))).
Proof.
  intros H. unfold unshadowed. pose proof (find_matches_nodup _ s H) as Hn. revert Hn.
  generalize (shadowed (find_matches keys s)). generalize (find_matches keys s). intros l P.
  induction l as [|x l IH]; simpl; intros Hn; [exact Hn|]. inversion Hn as [|? ? N1 N2]; subst.
  destruct (negb (P x)); [|apply IH; exact N2]. simpl. constructor; [|apply IH; exact N2].
  intros Hi. apply N1. apply in_map_iff in Hi as (y & E & Hy). rewrite <- E. apply in_map.
  apply filter_In in Hy. apply Hy.
Qed.

Lemma arg_extract_known s :
  arg_extract s known_commands =
  collect (reported (comment_begin (known_matches s) (length s)))
          (match_value s known_commands (map m_start (known_matches s))) (known_matches s).
Proof.
  unfold arg_extract. fold known_keys. rewrite dedupe_known. cbn [bind].
  rewrite extract_all_collect.
  - destruct (collect _ _ _); reflexivity.
  - cbn [dkeys map app]. apply unshadowed_nodup, known_keys_nodup.
Qed.

Lemma collect_keys p f ms r : collect p f ms = Ok r -> dkeys r = map m_key (filter p ms).
Proof.
  revert r. induction ms as [|m ms IH]; intros r; cbn [collect].
  - intros H; injection H as <-. reflexivity.
  - destruct (f m) as [v|]; cbn [bind]; [|discriminate].
    destruct (collect p f ms) as [r'|]; cbn [bind]; [|discriminate].
    intros H; injection H as <-. simpl. destruct (p m); simpl; rewrite (IH r' eq_refl); reflexivity.
Qed.

Lemma in_known_matches m s : In m (known_matches s) <->
  command (m_key m) /\ first_at (m_key m) (m_start m) s /\ m_end m = m_start m + length (m_key m) /\
  forall k', command k' -> first_at k' (m_start m) s -> length k' <= length (m_key m).
Proof.
  unfold unshadowed. rewrite filter_In. split.
  - intros [Hm Hs]. pose proof (in_find_matches _ _ _ Hm) as (A & B & C).
    split; [exact A|]. split; [apply find_first; exact B|]. split; [exact C|].
    intros k' Hk' Hf. apply find_first in Hf. pose proof (find_matches_in _ _ _ _ Hk' Hf) as Hm'.
    destruct (Nat.le_gt_cases (length k') (length (m_key m))) as [|Hl]; [assumption|]. exfalso.
    apply negb_true_iff in Hs. assert (X : shadowed (find_matches known_keys s) m = true); [|congruence].
    apply shadowed_iff. eexists. split; [exact Hm'|]. apply (prefix_shadows known_keys s); auto.
  - intros (A & B & C & D). apply find_first in B. pose proof (find_matches_in _ _ _ _ A B) as Hm.
    assert (Em : m = {| m_key := m_key m; m_start := m_start m; m_end := m_start m + length (m_key m) |})
      by (destruct m; simpl in *; congruence).
    rewrite <- Em in Hm. split; [exact Hm|]. apply negb_true_iff.
    destruct (shadowed _ m) eqn:E; [|reflexivity]. exfalso. apply shadowed_iff in E as (m' & Hm' & Hs).
    destruct (shadows_prefix _ _ _ _ Hm Hm' Hs) as [Hp He].
    pose proof (in_find_matches _ _ _ Hm') as (A' & B' & _). rewrite <- He in B'.
    apply find_first in B'. pose proof (D _ A' B'). unfold proper_prefix in Hp.
    apply andb_prop in Hp as [_ Hp]. apply Nat.ltb_lt in Hp. lia.
Qed.

Lemma semicolon_match s : forall m, In m (known_matches s) -> m_key m = S_ ";" -> find (S_ ";") s = Some (m_start m).
Proof. intros m Hm E. apply in_known_matches in Hm as (_ & H & _). rewrite E in H. apply find_first. exact H. Qed.

Lemma comment_begin_spec s : comment_begin (known_matches s) (length s) =
  match find (S_ ";") s with Some j => j | None => length s end.
Proof.
  unfold comment_begin.
  destruct (filter (fun m => str_eqb (m_key m) (S_ ";")) (known_matches s)) as [|m0 l] eqn:E.
  - destruct (find (S_ ";") s) as [j|] eqn:F; [|reflexivity]. exfalso.
    set (m := {| m_key := S_ ";"; m_start := j; m_end := j + 1 |}).
    assert (Hm : In m (known_matches s)).
    { apply in_known_matches. cbn [m_key m_start m_end m]. split; [apply command_b; reflexivity|].
      split; [apply find_first; exact F|]. split; [reflexivity|].
      intros k' Hk' Hf. apply find_first in Hf. apply find_some in Hf as (_ & Hf & _).
      apply find_some in F as (_ & F & _).
      destruct (Nat.le_gt_cases (length k') 1) as [|Hl]; [assumption|].
      assert (P : prefixb (S_ ";") k' = true) by (apply (prefixb_two _ _ _ F Hf); simpl; lia).
      pose proof (commands_all (fun k => negb (prefixb (S_ ";") k) || (length k <=? 1)) eq_refl k' Hk') as Q.
      cbv beta in Q. rewrite P in Q. simpl in Q. apply Nat.leb_le in Q. lia. }
    assert (X : In m (filter (fun m => str_eqb (m_key m) (S_ ";")) (known_matches s))).
    { apply filter_In. split; [exact Hm|]. reflexivity. }
    rewrite E in X. destruct X.
  - assert (G : forall m, In m (m0 :: l) -> find (S_ ";") s = Some (m_start m)).
    { intros m Hm. rewrite <- E in Hm. apply filter_In in Hm as [Hm Ek]. apply semicolon_match; [exact Hm|].
      apply str_eqb_true. exact Ek. }
    rewrite (G m0) by (left; reflexivity).
    assert (Gl : forall x, In x (map m_start l) -> x = m_start m0).
    { intros x Hx. apply in_map_iff in Hx as (m & <- & Hm).
      pose proof (G m (or_intror Hm)). pose proof (G m0 (or_introl eq_refl)). congruence. }
    clear -Gl. induction (map m_start l) as [|x xs IH]; [reflexivity|].
    simpl. rewrite (Gl x) by (left; reflexivity). rewrite Nat.min_id. apply IH. intros y Hy. apply Gl. right; exact Hy.
Qed.

(** * C06: exactly which commands are reported *)
Theorem reported_commands s d k : arg_extract s known_commands = Ok d ->
  (In k (dkeys d) <->
   command k /\ exists i, first_at k i s /\
     (forall k', command k' -> first_at k' i s -> length k' <= length k) /\
     (k = S_ ";" \/ forall j, first_at (S_ ";") j s -> i + length k <= j)).
Proof.
  intros H. rewrite arg_extract_known in H. apply collect_keys in H. rewrite H.
  rewrite in_map_iff. split.
  - intros (m & <- & Hm). apply filter_In in Hm as [Hm Hr]. apply in_known_matches in Hm as (A & B & C & D).
    split; [exact A|]. exists (m_start m). split; [exact B|]. split; [exact D|].
    unfold reported in Hr. rewrite comment_begin_spec in Hr. apply orb_prop in Hr as [Hr|Hr].
    + right. intros j Hj. apply find_first in Hj. rewrite Hj in Hr. apply Nat.leb_le in Hr. lia.
    + left. apply str_eqb_true. exact Hr.
  - intros (A & i & B & D & R).
    exists {| m_key := k; m_start := i; m_end := i + length k |}. split; [reflexivity|].
    apply filter_In. split; [apply in_known_matches; auto|]. unfold reported. rewrite comment_begin_spec. simpl.
    apply orb_true_intro. destruct R as [->|R]; [right; reflexivity|]. left. apply Nat.leb_le.
    destruct (find (S_ ";") s) as [j|] eqn:F; [apply R, find_first, F|].
    apply find_first in B. apply find_length in B. exact B.
Qed.
