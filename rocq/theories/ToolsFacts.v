(** Lemmas for the properties of the tools on simulated programs. *)
From Coq Require Import Lra Psatz Permutation.
From Verif Require Import Py Vec Segment Junction Planner Query Abaqus Tools RealFacts SpecKin SpecQuery SpecTools MoveProofs
  JunctionProofs CorrectProofs SegProofs PlannerProofs TrajProofs PlanFacts QueryProofs QueryFacts TimeProofs AbaqusProofs LayerProofs BoxProofs BoxFacts.
Open Scope R_scope.

Lemma ramp_travels d a vm s v0 v1 : norm3 d = 1 -> ramp d a vm s v0 v1 -> 0 < seg_travel s.
Proof.
  intros Hd Hr. destruct (ramp_len d a vm Hd _ _ _ Hr) as (-> & _). destruct Hr as (Hdt & _ & _ & _ & _ & _ & _ & Hpos).
  apply Rmult_lt_0_compat; lra.
Qed.
Lemma motion_travels d a vm t p v segs t' p' v' s : norm3 d = 1 -> motion d a vm t p v segs t' p' v' -> In s segs -> 0 < seg_travel s.
Proof.
  intros Hd Hm Hs. destruct (in_split _ _ Hs) as (pre & post & ->). destruct (motion_split d a vm _ _ _ _ _ _ _ _ _ Hm) as (v0 & v1 & _ & Hr & _).
  exact (ramp_travels _ _ _ _ _ _ Hd Hr).
Qed.
(** A block that ends at rest brakes. *)
Lemma motion_brakes d a vm t p v segs t' p' v' : norm3 d = 1 -> motion d a vm t p v segs t' p' v' -> v' = 0 -> segs <> [] ->
  exists pre s, segs = pre ++ [s] /\ braking s.
Proof.
  intros Hd Hm Hv Hne. destruct (exists_last Hne) as (pre & s & ->). exists pre, s. split; [reflexivity|].
  destruct (motion_split d a vm _ _ _ _ _ _ _ _ _ Hm) as (v0 & v1 & _ & Hr & Hm'). inversion Hm'; subst. 
  destruct Hr as (_ & Hb & He & _ & H0 & H1 & _ & Hpos). unfold braking. rewrite Hb, He, !(dir_len d Hd) by lra. lra.
Qed.
Lemma last_block_brakes fw s0 states pre b wn : valid_program s0 states -> simulate fw (s0 :: states) = Ok (pre ++ [b], wn) ->
  fw <> MarlinJerk -> k_pause (b_B b) = None -> travels b -> exists l s, b_segs b = l ++ [s] /\ braking s.
Proof.
  intros Hv Hs Hfw Hp Ht. assert (Hb : In b (pre ++ [b])) by (apply in_or_app; right; left; reflexivity).
  destruct (block_motion _ _ _ _ _ _ Hv Hs Hb Hp Ht) as (d & t & p & v & t' & v' & Hd & Hne & _ & Hm).
  apply (motion_brakes d _ _ _ _ _ _ _ _ _ Hd Hm); [|exact Hne].
  pose proof (sim_ends_at_rest _ _ _ _ _ Hv Hs Hfw) as He. destruct (motion_last _ _ _ _ _ _ _ _ _ _ Hm Hne) as (l & Hl & _ & _ & El).
  unfold ends, unpack_blocklist in He. rewrite flat_map_app in He. simpl in He. rewrite app_nil_r, rev_app_distr in He.
  unfold last_seg in Hl. destruct (rev (b_segs b)) as [|x r]; [discriminate|]. injection Hl as ->. simpl in He.
  assert (V : 0 <= v').
  { destruct (exists_last Hne) as (l0 & s & E). rewrite E in Hm. destruct (motion_split d _ _ _ _ _ _ _ _ _ _ _ Hm) as (v0 & v1 & _ & Hr & Hm').
    inversion Hm'; subst. destruct Hr as (_ & _ & _ & _ & _ & H1 & _). lra. }
  rewrite He in El. apply (f_equal norm3) in El. rewrite (dir_len d Hd) in El by exact V. rewrite norm3_vzero in El. lra.
Qed.
(** The first block starts at rest. *)
Lemma first_block_rests fw s0 states b bl wn : valid_program s0 states -> simulate fw (s0 :: states) = Ok (b :: bl, wn) ->
  k_pause (b_B b) = None -> travels b ->
  exists s l d t' v' p', norm3 d = 1 /\ b_segs b = s :: l /\ norm3 (vel_begin s) = 0 /\ motion d (k_acc (b_B b)) (k_speed (b_B b)) 0 (k_pos s0) 0 (s :: l) t' p' v'.
Proof.
  intros Hv Hs Hp Ht. destruct (simulate_fchain _ _ _ _ _ Hv Hs) as (wl & Hf).
  inversion Hf as [|? ? ? ? ? t' p' s e' w' ? wl' Hwf Hse _ _ _ _ _]; subst.
  inversion Hwf as [t1 p1 t1' v0 v1 d eo dist Hpa Hdr Hdir Hmd Hpos Hsc Ha Hsp Hne Hm | t1 p1 dt Hpa]; subst; [|congruence].
  unfold move_distance, t_distance in Hmd. rewrite (proj2 (Reqb_neq (norm3 _) 0)) in Hmd by (unfold travels in Ht; lra).
  injection Hmd as Ed Ee. subst eo dist. change (norm3 d = 1) in Hdir. destruct (b_segs b) as [|g l] eqn:E; [contradiction|].
  inversion Hm as [|? ? ? ? w1 ? ? ? ? E1 E2 Hr Hm']; subst. assert (v0 = 0) by (destruct Hr as (_ & _ & _ & _ & K0 & _); lra). subst v0.
  exists g, l, d, t', v1, (vadd (k_pos s0) (vscale (norm3 (vsub (k_pos (b_B b)) (k_pos (b_A b)))) d)). split; [exact Hdir|]. split; [reflexivity|].
  split; [|rewrite <- E2, <- E1 in *; exact Hm]. destruct Hr as (_ & -> & _). apply (dir_len d Hdir). lra.
Qed.
(** One line, one block. *)
Lemma one_block fw s0 s1 bl wn : valid_program s0 [s1] -> simulate fw [s0; s1] = Ok (bl, wn) -> k_pos s1 <> k_pos s0 ->
  exists b, bl = [b] /\ b_A b = s0 /\ b_B b = s1.
Proof.
  intros Hv Hs Hne. destruct (sim_blocks _ _ _ _ _ Hv Hs) as (items & Hi & Hm).
  assert (E : items = [(s0, s1, [])]). { eapply plan_items_fun; [exact Hi|]. apply pi_item; [left; exact Hne|constructor]. }
  subst items. simpl in Hm. destruct bl as [|b [|b' bl]]; try discriminate. injection Hm as E1 E2 _. exists b. auto.
Qed.
(** The blocks of a program with two moves. *)
Lemma two_blocks fw s0 s1 s2 bl wn : valid_program s0 [s1; s2] -> simulate fw [s0; s1; s2] = Ok (bl, wn) -> k_pos s1 <> k_pos s0 -> k_pos s2 <> k_pos s1 ->
  exists a b, bl = [a; b] /\ b_A a = s0 /\ b_B a = s1 /\ b_A b = s1 /\ b_B b = s2.
Proof.
  intros Hv Hs H1 H2. destruct (sim_blocks _ _ _ _ _ Hv Hs) as (items & Hi & Hm).
  assert (E : items = [(s0, s1, [s2]); (s1, s2, [])]).
  { eapply plan_items_fun; [exact Hi|]. apply pi_item; [left; exact H1|]. apply pi_item; [left; exact H2|constructor]. }
  subst items. simpl in Hm. destruct bl as [|a [|b [|b' bl]]]; try discriminate. injection Hm as E1 E2 _ E3 E4 _. exists a, b. auto.
Qed.

(** ** Submodel times *)
Lemma submodel_inv bl c m : write_submodel_times bl c = Ok m -> exists table l, timetable_loop c bl = Ok table /\ table <> [] /\
  m = Submodel (t_end l) (length (map fst (filter snd (sort_times table)))) (map fst (filter snd (sort_times table)))
        (map fst (filter (fun x => negb (snd x)) (sort_times table))) /\ exists b, In b bl /\ last_seg (b_segs b) = Ok l /\ exists pre, bl = pre ++ [b].
Proof.
  unfold write_submodel_times. intros H. destruct (timetable_loop c bl) as [table|] eqn:Et; [|discriminate]. cbn [bind] in H.
  destruct table as [|x table]; [discriminate|]. destruct (rev bl) as [|b r] eqn:Er; [discriminate|].
  destruct (last_seg (b_segs b)) as [l|] eqn:El; [|discriminate]. cbn [bind] in H. injection H as <-.
  exists (x :: table), l. split; [reflexivity|]. split; [discriminate|]. split; [reflexivity|].
  assert (Eb : bl = rev r ++ [b]) by (rewrite <- (rev_involutive bl), Er; reflexivity).
  exists b. split; [rewrite Eb; apply in_or_app; right; left; reflexivity|]. split; [exact El|]. exists (rev r). exact Eb.
Qed.
Lemma sorted_in table f t : In t (map fst (filter f (sort_times table))) <-> exists g, In (t, g) table /\ f (t, g) = true.
Proof.
  rewrite in_map_iff. split.
  - intros ([t' g] & E & Hin). simpl in E. subst t'. apply filter_In in Hin as [Hin Hf]. exists g. split; [|exact Hf].
    apply (Permutation_in _ (Permutation_sym (sort_perm table)) Hin).
  - intros (g & Hin & Hf). exists (t, g). split; [reflexivity|]. apply filter_In. split; [|exact Hf]. apply (Permutation_in _ (sort_perm table) Hin).
Qed.
Lemma submodel_in bl c m t : write_submodel_times bl c = Ok m ->
  (In t (time_in m) <-> exists b n p, In b bl /\ crosses c b n p /\ dot3 n (sub3 (to_of b) (from_of b)) < 0 /\
     inverse_time_at_pos b (len3 (sub3 p (from_of b))) = Ok t) /\
  (In t (time_out m) <-> exists b n p, In b bl /\ crosses c b n p /\ 0 < dot3 n (sub3 (to_of b) (from_of b)) /\
     inverse_time_at_pos b (len3 (sub3 p (from_of b))) = Ok t).
Proof.
  intros H. destruct (submodel_inv _ _ _ H) as (table & l & Et & _ & -> & _). cbn [time_in time_out]. rewrite !sorted_in. split; split.
  - intros (g & Hin & Hf). apply (table_in _ _ _ Et) in Hin as (b & n & p & Hb & Hnb & Hm & L & Ht & Hg). exists b, n, p.
    simpl in Hf. subst g. destruct (Rltb_spec (dot3 n (sub3 (to_of b) (from_of b))) 0); [|discriminate]. repeat (split; try assumption).
  - intros (b & n & p & Hb & (Hm & L & Hnb) & Hd & Ht). exists true. split; [|reflexivity]. apply (table_in _ _ _ Et). exists b, n, p.
    repeat (split; [assumption|]). rewrite Rltb_true by exact Hd. reflexivity.
  - intros (g & Hin & Hf). apply (table_in _ _ _ Et) in Hin as (b & n & p & Hb & Hnb & Hm & L & Ht & Hg). exists b, n, p.
    simpl in Hf. subst g. destruct (Rltb_spec (dot3 n (sub3 (to_of b) (from_of b))) 0) as [K|K]; [discriminate|]. split; [exact Hb|]. split; [repeat (split; try assumption)|].
    split; [|exact Ht]. destruct (Req_dec (dot3 n (sub3 (to_of b) (from_of b))) 0) as [Z|Z]; [|lra]. rewrite Z, Rabs_R0 in L. lra.
  - intros (b & n & p & Hb & (Hm & L & Hnb) & Hd & Ht). exists false. split; [|reflexivity]. apply (table_in _ _ _ Et). exists b, n, p.
    repeat (split; [assumption|]). rewrite Rltb_false by lra. reflexivity.
Qed.
Lemma dwell_stays fw s0 states bl wn b : valid_program s0 states -> no_moving_pause s0 states -> simulate fw (s0 :: states) = Ok (bl, wn) ->
  In b bl -> k_pause (b_B b) <> None -> k_pos (b_A b) = k_pos (b_B b).
Proof.
  intros Hv Hn Hs Hb Hp. destruct (sim_positions _ _ _ _ _ Hv Hs Hn b Hb) as [P0 P1].
  destruct (simulate_fchain _ _ _ _ _ Hv Hs) as (wl & Hf). destruct (fchain_in _ _ _ _ _ _ Hf b Hb) as (t & p & t' & p' & s & e & Hwf).
  destruct Hwf as [? ? ? ? ? ? ? ? Hpa|t p dt _ _ _ E]; [contradiction|]. rewrite E in P0, P1. unfold ends in P1. simpl in *. congruence.
Qed.
Lemma crossing_moves fw s0 states bl wn b n : valid_program s0 states -> no_moving_pause s0 states -> simulate fw (s0 :: states) = Ok (bl, wn) ->
  In b bl -> dot3 n (sub3 (to_of b) (from_of b)) <> 0 -> k_pause (b_B b) = None /\ travels b.
Proof.
  intros Hv Hn Hs Hb Hd. split.
  - destruct (k_pause (b_B b)) as [x|] eqn:E; [|reflexivity]. exfalso. apply Hd. unfold to_of, from_of.
    rewrite (dwell_stays _ _ _ _ _ _ Hv Hn Hs Hb) by congruence. unfold dot3. simpl. ring.
  - unfold travels. pose proof (norm3_nonneg (vsub (k_pos (b_B b)) (k_pos (b_A b)))) as H.
    destruct (Req_dec (norm3 (vsub (k_pos (b_B b)) (k_pos (b_A b)))) 0) as [Z|Z]; [|lra]. exfalso. apply Hd.
    apply norm3_zero_inv in Z. simpl in Z. destruct Z as (Z0 & Z1 & Z2). unfold dot3, to_of, from_of. simpl. rewrite Z0, Z1, Z2. ring.
Qed.
Lemma crossing_time fw s0 states bl wn c b n p : valid_program s0 states -> no_moving_pause s0 states -> simulate fw (s0 :: states) = Ok (bl, wn) ->
  In b bl -> crosses c b n p -> p <> from_of b -> exists t, inverse_time_at_pos b (len3 (sub3 p (from_of b))) = Ok t.
Proof.
  intros Hv Hn Hs Hb ((pl & r & Hf & Hr & -> & Hp & Hbox) & L & _) Hne.
  assert (D : dot3 n (sub3 (to_of b) (from_of b)) <> 0) by (intros Z; rewrite Z, Rabs_R0 in L; lra).
  destruct (crossing_moves _ _ _ _ _ _ _ Hv Hn Hs Hb D) as [Hpa Ht]. rewrite len3_way by lra.
  apply (inverse_defined _ _ _ _ _ _ _ Hv Hs Hb Hpa). unfold travels in Ht. fold (block_travel b) in Ht.
  assert (0 < r). { destruct (Req_dec r 0) as [->|]; [|lra]. exfalso. apply Hne. apply vec3_ext; simpl; ring. }
  split; [apply Rmult_lt_0_compat; assumption|]. assert (r * block_travel b <= 1 * block_travel b) by (apply Rmult_le_compat_r; lra). lra.
Qed.
