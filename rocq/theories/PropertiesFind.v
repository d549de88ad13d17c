(** C111: the search for the segment of a time in any path, without
    keep_position.  Vocabulary: SpecFind.v, SpecSearch.v. *)
From Coq Require Import Lra Lia.
From Verif Require Import Py Vec Segment Junction Planner Query RealFacts SpecKin SpecQuery SpecSearch SpecFind PlanFacts PropertiesSearch.
Open Scope R_scope.

Lemma running_open t s : (Rleb (t_begin s) t && Rltb t (t_end s))%bool = true <-> running false t s.
Proof.
  unfold running. rewrite Bool.andb_true_iff. destruct (Rle_dec (t_begin s) t) as [A|A]; destruct (Rlt_dec t (t_end s)) as [B|B];
    rewrite ?Rleb_true, ?Rltb_true by assumption; rewrite ?Rleb_false, ?Rltb_false by lra; intuition (try discriminate; try lra).
Qed.
Lemma running_closed t s : (Rleb (t_begin s) t && Rleb t (t_end s))%bool = true <-> running true t s.
Proof.
  unfold running. rewrite Bool.andb_true_iff. destruct (Rle_dec (t_begin s) t) as [A|A]; destruct (Rle_dec t (t_end s)) as [B|B];
    rewrite ?Rleb_true by assumption; rewrite ?Rleb_false by lra; intuition (try discriminate; try lra).
Qed.
Lemma scan_is (closed : bool) t path rest : forall i, (forall j, nth_error rest j = nth_error path (i + j)) ->
  match (if closed then scan_from rest t i else scan_fresh rest t i) with
  | At s j => first_from closed path t i j s
  | Nothing => none_from closed path t i
  | NoMovement => False
  end.
Proof.
  induction rest as [|s rest IH]; intros i H.
  - replace (if closed then scan_from [] t i else scan_fresh [] t i) with Nothing by (destruct closed; reflexivity). cbn.
    intros k r Hk Ek. exfalso. specialize (H (k - i)%nat). replace (i + (k - i))%nat with k in H by lia. rewrite Ek in H. destruct (k - i)%nat; discriminate.
  - assert (H0 : nth_error path i = Some s) by (specialize (H 0%nat); rewrite Nat.add_0_r in H; symmetry; exact H).
    assert (H1 : forall j, nth_error rest j = nth_error path (S i + j)) by (intros j; specialize (H (S j)); rewrite Nat.add_succ_r in H; exact H).
    assert (D : {running closed t s} + {~ running closed t s}).
    { unfold running. destruct (Rle_dec (t_begin s) t); [|right; lra]. destruct (Rlt_dec t (t_end s)); [left; lra|].
      destruct closed; [destruct (Req_EM_T t (t_end s)); [left; auto|right; intros [_ [?|[_ ?]]]; lra]|right; intros [_ [?|[? _]]]; [lra|discriminate]]. }
    destruct D as [D|D].
    + replace (if closed then scan_from (s :: rest) t i else scan_fresh (s :: rest) t i) with (At s i).
      * split; [lia|]. split; [exact H0|]. split; [exact D|]. intros k r Hk. lia.
      * destruct closed; cbn [scan_from scan_fresh]; [apply running_closed in D|apply running_open in D]; rewrite D; reflexivity.
    + replace (if closed then scan_from (s :: rest) t i else scan_fresh (s :: rest) t i) with (if closed then scan_from rest t (S i) else scan_fresh rest t (S i)).
      * specialize (IH (S i) H1). destruct (if closed then scan_from rest t (S i) else scan_fresh rest t (S i)) as [g j| |]; [|exact IH|].
        -- destruct IH as (A & B & C & E). split; [lia|]. split; [exact B|]. split; [exact C|]. intros k r Hk Ek.
           destruct (Nat.eq_dec k i) as [->|Ne]; [congruence|]. apply (E k); [lia|exact Ek].
        -- intros k r Hk Ek. destruct (Nat.eq_dec k i) as [->|Ne]; [congruence|]. apply (IH k); [lia|exact Ek].
      * destruct closed; cbn [scan_from scan_fresh]; 
          [rewrite <- running_closed, Bool.not_true_iff_false in D|rewrite <- running_open, Bool.not_true_iff_false in D]; rewrite D; reflexivity.
Qed.
Lemma nth_skip {A} (l : list A) : forall i k, nth_error (skipn i l) k = nth_error l (i + k).
Proof. induction l as [|x l IH]; intros [|i] k; cbn; try reflexivity; [destruct k; reflexivity|apply IH]. Qed.

(** Anew: the first segment of which the time is in the half-open interval. *)
Theorem C111_anew path t b last : ends path b -> t <= b ->
  (forall i s, last = Some i -> nth_error path i = Some s -> t < t_begin s) ->
  (exists s j, find_current_segment path t last = Ok (At s j) /\ first_from false path t 0 j s) \/
  (find_current_segment path t last = Ok Nothing /\ none_from false path t 0).
Proof.
  intros (pre & l & -> & <-) Ht Ha. unfold find_current_segment. rewrite last_seg_app by discriminate. change (last_seg [l]) with (Ok l). cbn [bind]. rewrite Rltb_false by lra.
  assert (E : search_anew (pre ++ [l]) t last = true).
  { unfold search_anew. destruct last as [i|]; [|reflexivity]. destruct (nth_error (pre ++ [l]) i) as [s|] eqn:E; [|reflexivity]. apply Rltb_true. exact (Ha i s eq_refl E). }
  rewrite E. pose proof (scan_is false t (pre ++ [l]) (pre ++ [l]) 0 (fun j => eq_refl)) as H. cbn iota in H.
  destruct (scan_fresh (pre ++ [l]) t 0) as [s j| |]; [left; eauto|contradiction|right; auto].
Qed.
(** From an index on: the first segment of which the time is in the closed
    interval; if there is none, ValueError. *)
Theorem C111_from_index path t b i s0 : ends path b -> t <= b -> nth_error path i = Some s0 -> t_begin s0 <= t ->
  (exists s j, find_current_segment path t (Some i) = Ok (At s j) /\ first_from true path t i j s) \/
  (find_current_segment path t (Some i) = Err ValueError /\ none_from true path t i).
Proof.
  intros (pre & l & E & <-) Ht Es Hb. assert (L : last_seg path = Ok l) by (rewrite E, last_seg_app by discriminate; reflexivity).
  unfold find_current_segment. rewrite L. cbn [bind]. rewrite Rltb_false by lra. unfold search_anew. rewrite Es, Rltb_false by lra.
  pose proof (scan_is true t path (skipn i path) i (nth_skip path i)) as H. cbn iota in H.
  destruct (scan_from (skipn i path) t i) as [s j| |]; [left; eauto|contradiction|right; auto].
Qed.
(** After the end: no movement; in an empty path there is no end. *)
Theorem C111_ends path t b last : ends path b -> b < t -> find_current_segment path t last = Ok NoMovement.
Proof. intros (pre & l & -> & <-) Ht. unfold find_current_segment. rewrite last_seg_app by discriminate. change (last_seg [l]) with (Ok l). cbn [bind]. rewrite Rltb_true by lra. reflexivity. Qed.
Theorem C111_empty t last : find_current_segment [] t last = Err IndexError.
Proof. reflexivity. Qed.
(** A case: in the gap of the path above the search anew returns nothing, the
    search from the first index fails. *)
Example C111_case : ends gap_path 4 /\ none_from false gap_path (5 / 2) 0 /\ none_from true gap_path (5 / 2) 0 /\
  (exists s, nth_error gap_path 0 = Some s /\ t_begin s <= 5 / 2) /\ first_from true gap_path 2 0 1 (Seg 1 2 (V4 1 0 0 0) (V4 2 0 0 0) (V4 1 0 0 0) (V4 1 0 0 0)).
Proof.
  split; [apply gap_path_fails|].
  assert (N : forall c, none_from c gap_path (5 / 2) 0).
  { intros c k r _ E. unfold running. destruct k as [|[|[|k]]]; cbn in E; try (injection E as <-; cbn; lra). destruct k; discriminate E. }
  split; [apply N|]. split; [apply N|]. split; [eexists; split; [reflexivity|cbn; lra]|].
  split; [lia|]. split; [reflexivity|]. split; [unfold running; cbn; lra|].
  intros k r Hk E. replace k with 0%nat in E by lia. cbn in E. injection E as <-. unfold running. cbn. lra.
Qed.

Print Assumptions C111_anew.
Print Assumptions C111_from_index.
Print Assumptions C111_ends.
Print Assumptions C111_empty.
