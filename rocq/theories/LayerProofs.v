(** Lemmas about the layer metrics. *)
From Coq Require Import Lra Psatz.
From Verif Require Import Py Vec Segment Junction Planner Query Tools RealFacts SpecKin SpecQuery SpecTools MoveProofs
  JunctionProofs CorrectProofs SegProofs PlannerProofs TrajProofs PlanFacts QueryProofs.
Open Scope R_scope.

(** Blocks that follow each other in time. *)
Definition spans (b : block) (t t' : R) : Prop :=
  exists f l, first_seg (b_segs b) = Ok f /\ last_seg (b_segs b) = Ok l /\ t_begin f = t /\ t_end l = t' /\ block_duration b = t' - t.
Inductive timed : list block -> R -> R -> Prop :=
| timed_nil t : timed [] t t
| timed_cons b bl t t' t'' : spans b t t' -> timed bl t' t'' -> timed (b :: bl) t t''.

Lemma motion_duration d a vm t p v segs t' p' v' : motion d a vm t p v segs t' p' v' -> Rsum (fun s => t_end s - t_begin s) segs = t' - t.
Proof. induction 1 as [|t p v s v1 segs t' p' v' E1 E2 Hr Hm IH]; simpl; [ring|]. rewrite IH. lra. Qed.
Lemma wf_spans b t p t' p' s e : wf_block b t p t' p' s e -> spans b t t'.
Proof.
  intros H. destruct H as [t p t' v0 v1 d eo dist _ _ _ _ _ _ _ _ Hne Hm|t p dt _ _ _ E].
  - destruct (motion_first _ _ _ _ _ _ _ _ _ _ Hm Hne) as (f & Hf & Tf & _). destruct (motion_last _ _ _ _ _ _ _ _ _ _ Hm Hne) as (l & Hl & Tl & _).
    exists f, l. repeat (split; [assumption|]). exact (motion_duration _ _ _ _ _ _ _ _ _ _ Hm).
  - unfold spans, block_duration. rewrite E. exists (Seg t (t + dt) p p vzero vzero), (Seg t (t + dt) p p vzero vzero).
    repeat (split; [reflexivity|]). simpl. ring.
Qed.
Lemma fchain_timed t p e w bl wl : fchain t p e w bl wl -> exists t', timed bl t t'.
Proof.
  induction 1 as [|t p e w b t' p' s e' w' bl wl Hwf _ _ _ _ _ Hf (t'' & IH)]; [eexists; constructor|].
  exists t''. econstructor; [exact (wf_spans _ _ _ _ _ _ _ Hwf)|exact IH].
Qed.
Lemma spans_unpack_last bl : forall t t', timed bl t t' -> bl <> [] -> exists l, last_seg (unpack_blocklist bl) = Ok l /\ t_end l = t'.
Proof.
  induction 1 as [|b bl t t' t'' (f & l & Hf & Hl & _ & Tl & _) Ht IH]; intros Hne; [contradiction|].
  unfold unpack_blocklist in *. simpl. destruct bl as [|b2 bl].
  - inversion Ht; subst. simpl. rewrite app_nil_r. eauto.
  - destruct (IH ltac:(discriminate)) as (l' & Hl' & Tl'). exists l'. split; [|exact Tl'].
    unfold last_seg in *. rewrite rev_app_distr. destruct (rev (flat_map _ (b2 :: bl))); [discriminate|]. exact Hl'.
Qed.
Lemma sim_timed fw s0 states bl wn : valid_program s0 states -> simulate fw (s0 :: states) = Ok (bl, wn) ->
  exists T, timed bl 0 T /\ (bl <> [] -> print_time bl T).
Proof.
  intros Hv Hs. destruct (simulate_fchain _ _ _ _ _ Hv Hs) as (wl & Hf). destruct (fchain_timed _ _ _ _ _ _ Hf) as (T & HT).
  exists T. split; [exact HT|]. intros Hne. destruct (spans_unpack_last _ _ _ HT Hne) as (l & Hl & Tl).
  unfold last_seg in Hl. destruct (rev (unpack_blocklist bl)) as [|x r] eqn:E; [discriminate|]. injection Hl as <-.
  exists (rev r), x. split; [|congruence]. rewrite <- (rev_involutive (unpack_blocklist bl)), E. reflexivity.
Qed.

(** The loop. *)
Lemma travel_block b : get_block_travel b = block_travel b.
Proof. unfold get_block_travel, block_travel, t_distance. apply norm3_sym. Qed.
Lemma layered_cons b bl : layered (b :: bl) -> exists n, k_layer (b_B b) = Some n /\ layered bl /\
  forall c m, In c bl -> k_layer (b_B c) = Some m -> (n <= m)%nat.
Proof.
  revert b. induction bl as [|c bl IH]; intros b [HF HJ]; inversion HF as [|? ? (n & Hn) HF']; subst; exists n; split; [exact Hn| |exact Hn|].
  - split; [split; [exact HF'|exact I]|]. intros c m [].
  - destruct HJ as [J1 J2]. split; [split; assumption|].
    destruct (IH c (conj HF' J2)) as (k & Hk & _ & Hge). specialize (J1 _ _ Hn Hk).
    intros x m [<-|Hx] Hm; [congruence|]. specialize (Hge _ _ Hx Hm). lia.
Qed.
Definition rows_ok (bl : list block) (cur : nat) (t0 last travel t1 : R) (rows : list layer_row) : Prop :=
  starts (fun r => row_layer r = cur) rows /\ rows <> [] /\ joined (fun a b => (row_layer a < row_layer b)%nat) rows /\
  (forall n, In n (map row_layer rows) <-> n = cur \/ exists b, In b (removelast bl) /\ k_layer (b_B b) = Some n) /\
  (forall r, In r rows -> (cur <= row_layer r)%nat /\
    row_duration r = (if Nat.eqb (row_layer r) cur then t0 - last else 0) + Rsum block_duration (filter (in_layer (row_layer r)) bl) /\
    row_travel r = (if Nat.eqb (row_layer r) cur then travel else 0) + Rsum block_travel (filter (in_layer (row_layer r)) (removelast bl)) /\
    row_speed r = average_speed (row_travel r) (row_duration r)) /\
  Rsum row_travel rows = travel + Rsum block_travel (removelast bl) /\
  (forall pre b n, bl = pre ++ [b] -> k_layer (b_B b) = Some n ->
    ((cur < n)%nat /\ (forall a m, In a pre -> k_layer (b_B a) = Some m -> (m < n)%nat) -> Rsum row_duration rows = t1 - block_duration b - last) /\
    (n = cur \/ (exists a, In a pre /\ k_layer (b_B a) = Some n) -> Rsum row_duration rows = t1 - last)).

Lemma filter_none n (bl : list block) : (forall b, In b bl -> in_layer n b = false) -> filter (in_layer n) bl = [].
Proof. induction bl as [|b bl IH]; intros H; [reflexivity|]. simpl. rewrite (H b (or_introl eq_refl)). apply IH. intros; apply H; right; assumption. Qed.
Lemma Rsum_filter_cons g n b (bl : list block) :
  Rsum g (filter (in_layer n) (b :: bl)) = (if in_layer n b then g b else 0) + Rsum g (filter (in_layer n) bl).
Proof. simpl. destruct (in_layer n b); simpl; ring. Qed.
Lemma layer_loop_ok : forall bl cur last travel t0 t1, timed bl t0 t1 -> layered bl -> bl <> [] ->
  (forall b n, In b bl -> k_layer (b_B b) = Some n -> (cur <= n)%nat) ->
  exists rows, layer_loop bl cur last travel = Ok rows /\ rows_ok bl cur t0 last travel t1 rows.
Proof.
  induction bl as [|b bl IH]; intros cur last travel t0 t1 Ht Hl Hne Hcur; [contradiction|].
  inversion Ht as [|? ? ? t' ? (f & l & Hf & Hlast & Tf & Tl & Hd) Ht']; subst.
  destruct (layered_cons _ _ Hl) as (n & Hn & Hl' & Hge). pose proof (Hcur b n (or_introl eq_refl) Hn) as Hcn.
  cbn [layer_loop]. rewrite Hn, Hf, Hlast. cbn [bind].
  destruct (cur <? n)%nat eqn:Ecn; [apply Nat.ltb_lt in Ecn|apply Nat.ltb_ge in Ecn].
  - destruct bl as [|b2 bl].
    + inversion Ht'; subst. cbn [layer_loop bind]. eexists. split; [reflexivity|]. unfold rows_ok. cbn [removelast map row_layer row_duration row_travel row_speed].
      split; [reflexivity|]. split; [discriminate|]. split; [split; exact I|]. split; [|split; [|split]].
      * intros m. split; [intros [<-|[]]; left; reflexivity|]. intros [->|(? & [] & _)]. left. reflexivity.
      * intros r [<-|[]]. cbn [row_layer row_duration row_travel row_speed]. rewrite Nat.eqb_refl. split; [lia|]. cbn [filter]. unfold in_layer at 1. rewrite Hn.
        rewrite (proj2 (Nat.eqb_neq n cur)) by lia. simpl. split; [ring|]. split; [ring|reflexivity].
      * simpl. ring.
      * intros pre b' m Hb Hm. destruct pre as [|? pre]; [|destruct pre; discriminate]. injection Hb as <-. assert (m = n) by congruence. subst m. split.
        -- intros _. simpl. rewrite Hd. ring.
        -- intros [->|(? & [] & _)]. lia.
    + destruct (IH n (t_begin f) (0 + get_block_travel b) (t_end l) t1 Ht' Hl' ltac:(discriminate)) as (rows & Er & Hs & Hne' & Hj & Hin & Hrow & Htr & Hdu).
      { intros c m Hc Hm. exact (Hge c m Hc Hm). }
      rewrite Er. cbn [bind]. eexists. split; [reflexivity|]. unfold rows_ok. change (removelast (b :: b2 :: bl)) with (b :: removelast (b2 :: bl)).
      split; [reflexivity|]. split; [discriminate|]. split; [|split; [|split; [|split]]].
      * destruct rows as [|r rows]; [split; exact I|]. split; [|exact Hj]. simpl in Hs. simpl. lia.
      * intros m. cbn [map row_layer In]. rewrite Hin. split.
        -- intros [<-|[->|(c & Hc & Hm)]]; [left; reflexivity|right; exists b; split; [left; reflexivity|exact Hn]|right; exists c; split; [right; exact Hc|exact Hm]].
        -- intros [->|(c & [<-|Hc] & Hm)]; [left; reflexivity|right; left; congruence|right; right; eauto].
      * intros r [<-|Hr].
        -- cbn [row_layer row_duration row_travel row_speed]. rewrite Nat.eqb_refl. split; [lia|].
           assert (Ho : forall c, In c (b :: b2 :: bl) -> in_layer cur c = false).
           { intros c Hc. unfold in_layer. destruct (k_layer (b_B c)) as [m|] eqn:Em; [|reflexivity]. apply Nat.eqb_neq.
             destruct Hc as [<-|Hc]; [assert (m = n) by congruence; lia|]. specialize (Hge c m Hc Em). lia. }
           assert (Ho' : forall c, In c (b :: removelast (b2 :: bl)) -> in_layer cur c = false).
           { intros c [<-|Hc]; [apply Ho; left; reflexivity|]. apply Ho. right. rewrite (app_removelast_last b (l := b2 :: bl)) by discriminate. apply in_or_app. left. exact Hc. }
           rewrite (filter_none cur _ Ho), (filter_none cur _ Ho'). simpl. split; [|split; [|reflexivity]]; ring.
        -- destruct (Hrow r Hr) as (R1 & R2 & R3 & R4). split; [lia|]. rewrite (proj2 (Nat.eqb_neq (row_layer r) cur)) by lia.
           rewrite (Rsum_filter_cons block_duration _ b), (Rsum_filter_cons block_travel _ b). assert (Eb : in_layer (row_layer r) b = Nat.eqb (row_layer r) n) by (unfold in_layer; rewrite Hn; apply Nat.eqb_sym). rewrite Eb.
           destruct (Nat.eqb (row_layer r) n) eqn:En; try rewrite En in R2; try rewrite En in R3; (split; [rewrite R2|split; [rewrite R3|exact R4]]); rewrite ?Hd, ?travel_block; ring.
      * cbn [Rsum fold_right row_travel]. fold (Rsum row_travel rows). rewrite Htr, travel_block. unfold Rsum. simpl. ring.
      * intros pre b' m Hb Hm. destruct pre as [|b0 pre]; [discriminate|]. injection Hb as <- Hb. destruct (Hdu pre b' m Hb Hm) as [D1 D2].
        cbn [Rsum fold_right row_duration]. fold (Rsum row_duration rows). split.
        -- intros [Hcm Hall]. rewrite D1; [ring|]. split; [exact (Hall b n (or_introl eq_refl) Hn)|]. intros a k Ha Hk. exact (Hall a k (or_intror Ha) Hk).
        -- intros Hor. rewrite D2; [ring|].
           assert (Hb' : In b' (b2 :: bl)) by (rewrite Hb; apply in_or_app; right; left; reflexivity). pose proof (Hge b' m Hb' Hm).
           destruct Hor as [->|(a & [<-|Ha] & Ham)]; [lia|left; congruence|right; eauto].
  - assert (n = cur) by lia. subst n. destruct bl as [|b2 bl].
    + inversion Ht'; subst. eexists. split; [reflexivity|]. unfold rows_ok. cbn [removelast map row_layer row_duration row_travel row_speed].
      split; [reflexivity|]. split; [discriminate|]. split; [split; exact I|]. split; [|split; [|split]].
      * intros m. split; [intros [<-|[]]; left; reflexivity|]. intros [->|(? & [] & _)]. left. reflexivity.
      * intros r [<-|[]]. cbn [row_layer row_duration row_travel row_speed]. rewrite Nat.eqb_refl. split; [lia|]. cbn [filter]. unfold in_layer at 1. rewrite Hn, Nat.eqb_refl.
        simpl. rewrite Hd. split; [ring|]. split; [ring|reflexivity].
      * simpl. ring.
      * intros pre b' m Hb Hm. destruct pre as [|? pre]; [|destruct pre; discriminate]. injection Hb as <-. assert (m = cur) by congruence. subst m. split.
        -- intros [? _]. lia.
        -- intros _. simpl. ring.
    + destruct (IH cur last (travel + get_block_travel b) (t_end l) t1 Ht' Hl' ltac:(discriminate)) as (rows & Er & Hs & Hne' & Hj & Hin & Hrow & Htr & Hdu).
      { intros c m Hc Hm. exact (Hge c m Hc Hm). }
      exists rows. split; [exact Er|]. unfold rows_ok. change (removelast (b :: b2 :: bl)) with (b :: removelast (b2 :: bl)).
      split; [exact Hs|]. split; [exact Hne'|]. split; [exact Hj|]. split; [|split; [|split]].
      * intros m. rewrite Hin. split.
        -- intros [->|(c & Hc & Hm)]; [left; reflexivity|right; exists c; split; [right; exact Hc|exact Hm]].
        -- intros [->|(c & [<-|Hc] & Hm)]; [left; reflexivity|left; congruence|right; eauto].
      * intros r Hr. destruct (Hrow r Hr) as (R1 & R2 & R3 & R4). split; [lia|].
        rewrite (Rsum_filter_cons block_duration _ b), (Rsum_filter_cons block_travel _ b). assert (Eb : in_layer (row_layer r) b = Nat.eqb (row_layer r) cur) by (unfold in_layer; rewrite Hn; apply Nat.eqb_sym). rewrite Eb.
        destruct (Nat.eqb (row_layer r) cur) eqn:En; try rewrite En in R2; try rewrite En in R3; (split; [rewrite R2|split; [rewrite R3|exact R4]]); rewrite ?Hd, ?travel_block; ring.
      * rewrite Htr, travel_block. unfold Rsum. simpl. ring.
      * intros pre b' m Hb Hm. destruct pre as [|b0 pre]; [discriminate|]. injection Hb as <- Hb. destruct (Hdu pre b' m Hb Hm) as [D1 D2]. split.
        -- intros [Hcm Hall]. apply D1. split; [exact Hcm|]. intros a k Ha Hk. exact (Hall a k (or_intror Ha) Hk).
        -- intros [->|(a & [<-|Ha] & Ham)]; [apply D2; left; reflexivity|apply D2; left; congruence|apply D2; right; eauto].
Qed.
