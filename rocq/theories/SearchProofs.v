(** The search for a segment in a path with gaps. *)
From Coq Require Import Lra Lia.
From Verif Require Import Py Vec Segment Junction Planner Query RealFacts SpecKin SpecQuery SpecSearch MoveProofs SegProofs CorrectProofs PlannerProofs QueryProofs.
Open Scope R_scope.

(** What a search has to return at time [t]. *)
Definition good (path : list segment) (t : R) (r : res found) : Prop :=
  exists g i v p, r = Ok (At g i) /\ (i < length path)%nat /\ get_velocity g t = Ok v /\ get_position g t = Ok p /\ moves_or_waits path t v p.

Lemma in_order_cons s path : in_order (s :: path) -> t_begin s <= t_end s /\ in_order path /\ (forall n, In n path -> t_end s <= t_begin n).
Proof.
  revert s. induction path as [|n path IH]; intros s [H1 H2]; inversion H2 as [|? ? Hs Hp]; subst.
  - split; [exact Hs|]. split; [split; [exact I|constructor]|]. intros n [].
  - destruct H1 as [Hj H1]. destruct (IH n (conj H1 Hp)) as (Hn & _ & Hin). split; [exact Hs|]. split; [split; assumption|].
    intros m [<-|Hm]; [exact Hj|]. pose proof (Hin m Hm). lra.
Qed.
Lemma in_order_app pre : forall path, in_order (pre ++ path) -> in_order path.
Proof. induction pre as [|s pre IH]; intros path H; [exact H|]. apply IH. exact (proj1 (proj2 (in_order_cons _ _ H))). Qed.
Lemma in_order_before pre : forall path s n, in_order (pre ++ path) -> In s pre -> In n path -> t_end s <= t_begin n.
Proof.
  induction pre as [|x pre IH]; intros path s n H Hs Hn; [destruct Hs|]. destruct (in_order_cons _ _ H) as (_ & H1 & H2).
  destruct Hs as [<-|Hs]; [apply H2, in_or_app; right; exact Hn|]. exact (IH _ _ _ H1 Hs Hn).
Qed.

Lemma good_segment path t s i : nth_error path i = Some s -> t_begin s <= t <= t_end s -> good path t (Ok (At s i)).
Proof.
  intros E Ht. exists s, i, (vel_at s t), (pos_at s t). split; [reflexivity|]. split; [apply nth_error_Some; rewrite E; discriminate|].
  assert (Ho : out_of_range s t = false) by (unfold out_of_range; rewrite !Rltb_false by lra; reflexivity).
  unfold get_velocity, get_position. rewrite Ho. split; [reflexivity|]. split; [reflexivity|]. left. exists s.
  split; [exact (nth_error_In _ _ E)|apply at_moves; exact Ht].
Qed.
Lemma good_gap path t s n i : nth_error path i = Some s -> nth_error path (S i) = Some n -> t_end s <= t < t_begin n ->
  good path t (g <- gap_segment s n ;; Ok (At g i)).
Proof.
  intros E E' Ht. unfold gap_segment, mk_segment. set (g := Seg _ _ _ _ _ _).
  assert (Hc : self_check g = Ok tt).
  { unfold self_check, predicted_end, g. cbn [t_begin t_end pos_begin pos_end vel_begin vel_end].
    replace (vsub _ _) with vzero by vec. rewrite norm3_vzero. rewrite !Rltb_false by lra. reflexivity. }
  rewrite Hc. cbn [bind]. exists g, i, vzero, (pos_end s). split; [reflexivity|]. split; [apply nth_error_Some; rewrite E; discriminate|].
  assert (Ho : out_of_range g t = false) by (unfold out_of_range, g; cbn [t_begin t_end]; rewrite !Rltb_false by lra; reflexivity).
  unfold get_velocity, get_position. rewrite Ho. unfold pos_at, vel_at, g. cbn [t_begin t_end pos_begin vel_begin vel_end]. rewrite Rltb_true by lra.
  split; [f_equal; vec|]. split; [f_equal; vec|]. right. exists i. split; [exists s, n; auto|reflexivity].
Qed.

Lemma keep_fresh_good path t : in_order path -> forall rest pre, path = pre ++ rest ->
  (forall s, In s pre -> t_end s <= t) -> (exists s r, rest = s :: r /\ t_begin s <= t) -> (exists s, In s rest /\ t < t_end s) ->
  good path t (keep_fresh path rest t (length pre)).
Proof.
  intros Ho. induction rest as [|s rest IH]; intros pre E Hpre (s' & r & Er & Hb) (z & Hz & Hzt); [discriminate|].
  injection Er as <- <-. cbn [keep_fresh]. assert (Es : nth_error path (length pre) = Some s) by (rewrite E, nth_error_app2, Nat.sub_diag by lia; reflexivity).
  rewrite Rleb_true by lra. cbn [andb]. destruct (Rlt_le_dec t (t_end s)) as [Hlt|Hge].
  { rewrite Rltb_true by exact Hlt. apply good_segment; [exact Es|lra]. }
  rewrite Rltb_false by lra. rewrite Rleb_true by lra.
  destruct rest as [|n rest]; [exfalso; destruct Hz as [<-|[]]; lra|].
  assert (En : nth_error path (S (length pre)) = Some n) by (rewrite E, nth_error_app2 by lia; replace (S (length pre) - length pre)%nat with 1%nat by lia; reflexivity).
  rewrite En. destruct (Rlt_le_dec t (t_begin n)) as [Hg|Hg].
  - rewrite Rltb_true by exact Hg. apply good_gap; auto.
  - rewrite Rltb_false by lra. replace (S (length pre)) with (length (pre ++ [s])) by (rewrite app_length; simpl; lia). apply IH.
    + rewrite E, <- app_assoc. reflexivity.
    + intros m Hm. apply in_app_or in Hm as [Hm|[<-|[]]]; [exact (Hpre m Hm)|exact Hge].
    + exists n, rest. split; [reflexivity|exact Hg].
    + exists z. split; [|exact Hzt]. destruct Hz as [<-|Hz]; [lra|exact Hz].
Qed.
Lemma keep_fresh_end path t : in_order path -> forall rest pre, path = pre ++ rest -> rest <> [] ->
  (forall s, In s path -> t_end s <= t) -> keep_fresh path rest t (length pre) = Err IndexError.
Proof.
  intros Ho. induction rest as [|s rest IH]; intros pre E Hne Hall; [contradiction|]. cbn [keep_fresh].
  assert (Hs : t_end s <= t) by (apply Hall; rewrite E; apply in_or_app; right; left; reflexivity).
  rewrite (Rltb_false t) by lra. rewrite andb_false_r. rewrite Rleb_true by exact Hs. destruct rest as [|n rest].
  - replace (nth_error path (S (length pre))) with (@None segment); [reflexivity|]. symmetry. apply nth_error_None. rewrite E, app_length. simpl. lia.
  - assert (En : nth_error path (S (length pre)) = Some n) by (rewrite E, nth_error_app2 by lia; replace (S (length pre) - length pre)%nat with 1%nat by lia; reflexivity).
    rewrite En. assert (In n path) by (apply (nth_error_In _ _ En)). pose proof (Hall n H) as Hn.
    assert (t_begin n <= t_end n) by (destruct Ho as [_ Ho]; rewrite Forall_forall in Ho; auto). rewrite Rltb_false by lra.
    replace (S (length pre)) with (length (pre ++ [s])) by (rewrite app_length; simpl; lia).
    apply IH; [rewrite E, <- app_assoc; reflexivity|discriminate|exact Hall].
Qed.

Lemma skipn_nth {X} : forall (l : list X) i x, nth_error l i = Some x -> skipn i l = x :: skipn (S i) l.
Proof. induction l as [|a l IH]; intros [|i] x H; try discriminate; [injection H as ->; reflexivity|]. exact (IH i x H). Qed.
(** From the index [i0] on: segments, and the gap behind [i0]. *)
Lemma keep_from_segment path t i0 s j : in_order path -> nth_error path j = Some s -> t_begin s <= t <= t_end s -> (i0 <= j)%nat ->
  forall k, (i0 + k <= j)%nat -> good path t (keep_from path (skipn (i0 + k) path) t i0 (i0 + k)).
Proof.
  intros Ho Ej Ht Hij k Hk. remember (j - (i0 + k))%nat as d eqn:Ed. revert k Hk Ed. induction d as [|d IH]; intros k Hk Ed.
  - replace (i0 + k)%nat with j by lia. rewrite (skipn_nth _ _ _ Ej). cbn [keep_from]. rewrite !Rleb_true by lra. cbn [andb].
    apply good_segment; assumption.
  - destruct (nth_error path (i0 + k)) as [x|] eqn:Ex.
    2: { apply nth_error_None in Ex. assert (j < length path)%nat by (apply nth_error_Some; rewrite Ej; discriminate). lia. }
    rewrite (skipn_nth _ _ _ Ex). cbn [keep_from]. destruct (Rleb (t_begin x) t && Rleb t (t_end x)) eqn:Eb.
    { apply andb_prop in Eb as [B1 B2]. destruct (Rleb_spec (t_begin x) t); [|discriminate]. destruct (Rleb_spec t (t_end x)); [|discriminate].
      apply good_segment; [exact Ex|lra]. }
    assert (Hgo : good path t (keep_from path (skipn (S (i0 + k)) path) t i0 (S (i0 + k)))).
    { replace (S (i0 + k)) with (i0 + S k)%nat by lia. apply IH; lia. }
    destruct (Rleb_spec (t_end x) t) as [Hxe|Hxe]; [|exact Hgo].
    destruct (nth_error path (S i0)) as [n|] eqn:En.
    2: { apply nth_error_None in En. assert (j < length path)%nat by (apply nth_error_Some; rewrite Ej; discriminate). lia. }
    assert (Hn : t_begin n <= t_begin s).
    { destruct (Nat.eq_dec (S i0) j) as [Q|Q]; [replace n with s by congruence; lra|].
      destruct (nth_error_split _ _ En) as (m1 & m2 & Em & Hm). assert (In s m2).
      { rewrite Em in Ej. rewrite nth_error_app2 in Ej by lia. rewrite Hm in Ej. destruct (j - S i0)%nat as [|q] eqn:Eq; [lia|]. exact (nth_error_In m2 q Ej). }
      rewrite Em in Ho. destruct (in_order_cons _ _ (in_order_app m1 _ Ho)) as (H1 & _ & H2). specialize (H2 s H). lra. }
    rewrite Rltb_false by lra. exact Hgo.
Qed.
Lemma keep_from_gap path t i0 s n : nth_error path i0 = Some s -> nth_error path (S i0) = Some n -> t_end s <= t < t_begin n -> t_begin s <= t_end s ->
  good path t (keep_from path (skipn i0 path) t i0 i0).
Proof.
  intros Es En Ht Hs. rewrite (skipn_nth _ _ _ Es). cbn [keep_from]. rewrite (Rleb_true (t_begin s)) by lra. cbn [andb]. destruct (Rleb_spec t (t_end s)) as [Hle|Hlt].
  - apply good_segment; [exact Es|lra].
  - rewrite Rleb_true by lra. rewrite En, Rltb_true by lra. apply good_gap; auto.
Qed.
