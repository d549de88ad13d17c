(** The reader with doubles beside the reader with rounded real numbers. *)
From Coq Require Import Reals ZArith SpecFloat List Lia Lra.
From Verif Require Import Py PyFloat Parser Vec StateGen SpecMachine StrFacts ReadFacts Rounding SpecRounding RoundingProofs Generic SpecIEEE IEEEProofs RealFacts
  PropertiesIEEE SpecBridge BridgeProofs SpecBridgeText.
Import ListNotations.
Open Scope R_scope.

(** stands for a number of at most [n] times 2^h *)
Inductive ub (h n : Z) (x : spec_float) (r : R) : Prop := UB : stands x r -> Rabs r <= IZR n * p2 h -> ub h n x r.
Definition most : Z := (2 ^ 36)%Z.
Lemma round_n v h n : (0 <= h <= 100)%Z -> (0 <= n <= most + most)%Z -> Rabs v <= IZR n * p2 h -> Rabs (binary64 v) <= IZR n * p2 h.
Proof.
  intros H Hn V. apply abs_le_inv in V. assert (D : double (IZR n * p2 h)).
  { exists n, h. split; [|split; [lia|reflexivity]]. unfold most in Hn. rewrite Z.abs_eq by lia. eapply Z.le_lt_trans; [apply Hn|]. reflexivity. }
  pose proof (binary64_fix _ D) as E. apply Rabs_le. split.
  - rewrite <- E, <- binary64_opp. apply b64_mono. lra.
  - rewrite <- E. apply b64_mono. lra.
Qed.
Lemma n_fits v h n : (0 <= h <= 100)%Z -> (0 <= n <= most + most)%Z -> Rabs v <= IZR n * p2 h -> fits v.
Proof.
  intros H Hn V. unfold fits. eapply Rle_lt_trans; [exact V|]. unfold too_large.
  apply Rle_lt_trans with (p2 37 * p2 h).
  - apply Rmult_le_compat_r; [left; apply pow2_pos|]. apply p2_num; [lia|]. unfold most in Hn. lia.
  - rewrite <- pow2_add. apply p2_up. lia.
Qed.
Lemma ub_add h n k x y r q : (0 <= h <= 100)%Z -> (0 <= n)%Z -> (0 <= k)%Z -> (n + k <= most + most)%Z -> ub h n x r -> ub h k y q -> ub h (n + k) (k_add Fk x y) (k_add D64 r q).
Proof.
  intros H Hn Hk L [S1 B1] [S2 B2]. assert (B : Rabs (k_add D64 r q) <= IZR (n + k) * p2 h).
  { cbn [Bk k_add]. apply round_n; [exact H|lia|]. eapply Rle_trans; [apply Rabs_triang|]. rewrite plus_IZR. lra. }
  split; [|exact B]. apply (proj1 (C112_same_arithmetic _ _ _ _ S1 S2)). eapply n_fits; [exact H| |exact B]. lia.
Qed.
Lemma ub_more h n k x r : (n <= k)%Z -> ub h n x r -> ub h k x r.
Proof. intros L [S B]. split; [exact S|]. eapply Rle_trans; [exact B|]. apply Rmult_le_compat_r; [left; apply pow2_pos|apply IZR_le, L]. Qed.
(** coordinates count millions, offsets 2^60 *)
Lemma ub_wide n x r : (0 <= n <= most + most)%Z -> ub 20 n x r -> ub 60 1 x r.
Proof.
  intros L [S B]. split; [exact S|]. eapply Rle_trans; [exact B|]. apply Rle_trans with (p2 37 * p2 20).
  - apply Rmult_le_compat_r; [left; apply pow2_pos|]. apply p2_num; [lia|]. unfold most in L. lia.
  - rewrite <- pow2_add, Rmult_1_l. apply pow2_mono. lia.
Qed.
Lemma million : 1000000 <= p2 20.
Proof. apply (p2_num 20 1000000); lia. Qed.
Lemma ub_dec m e : Rabs (r_of_dec m e) <= 1000000 -> ub 20 1 (k_dec Fk m e) (k_dec D64 m e).
Proof.
  intros B. pose proof million. destruct (sb_dec m e 20 ltac:(lra) eq_refl) as [S V]. split; [exact S|]. rewrite Rmult_1_l. exact V.
Qed.
Lemma ub_0 h n : (0 <= n)%Z -> ub h n (k0 Fk) (k0 D64).
Proof.
  intros H. destruct sb_0 as [S _]. split; [exact S|]. unfold k0. cbn [Bk k_dec]. change (r_of_dec 0 0) with 0. rewrite binary64_0, Rabs_R0. apply Rmult_le_pos; [apply IZR_le, H|left; apply pow2_pos].
Qed.

(** * The machine *)
Definition at_most (n : Z) (m : vm NF) (m' : vm ND) : Prop :=
  forall a, ub 20 n (get_c NF a m) (get_c ND a m') /\ ub 60 n (get_o NF a m) (get_o ND a m').
Definition same_vm (n : Z) (m : vm NF) (m' : vm ND) : Prop :=
  (absolute_position NF m = absolute_position ND m' /\ absolute_extrusion NF m = absolute_extrusion ND m' /\ vm_units NF m = vm_units ND m') /\
  (same_value (vm_p_vel NF m) (vm_p_vel ND m') /\ same_value (vm_p_acc NF m) (vm_p_acc ND m') /\ same_value (vm_jerk NF m) (vm_jerk ND m')) /\
  (forall a, same_value (get_v NF a m) (get_v ND a m')) /\ at_most n m m'.
Definition fine_leaf (l : leaf) : Prop := forall m e, l = LNum (Dec m e) -> Rabs (r_of_dec m e) <= 1000000.
Lemma need_same l : fine_leaf l -> rr (ub 20 1) (need_num NF l) (need_num ND l).
Proof. intros F. destruct l as [[m e|]|t]; cbn [need_num rr]; try reflexivity. apply ub_dec, F. reflexivity. Qed.
Lemma value_same l : fine_leaf l -> rr same_value (as_sval NF l) (as_sval ND l).
Proof.
  intros F. destruct l as [[m e|]|t]; cbn [as_sval rr same_value]; try reflexivity. destruct (ub_dec m e (F m e eq_refl)) as [S _]. exact S.
Qed.
Lemma div_same p x r : (1 <= Zpos p <= 1000)%Z -> ub 20 1 x r -> stands (n_div NF x p) (n_div ND r p).
Proof.
  intros P [S B]. cbn [n_div knum]. apply (sb_stands 20). apply (sb_weaken (20 - 0)); [|reflexivity].
  assert (Q : Rabs (r_of_dec (Zpos p) 0) <= p2 10).
  { cbn [r_of_dec]. rewrite Rabs_right; [|apply Rle_ge, IZR_le; lia]. apply p2_num; lia. }
  apply (sb_div 20 10 0); [split; [exact S|lra]|apply sb_dec; [exact Q|reflexivity]| |reflexivity].
  split. cbn [Bk k_dec]. change (r_of_dec (Zpos p) 0) with (IZR (Zpos p)).
  rewrite binary64_fix. 2:{ exists (Zpos p), 0%Z. split; [rewrite Z.abs_eq by lia; eapply Z.le_lt_trans; [apply P|reflexivity]|split; [lia|cbn; ring]]. }
  rewrite Rabs_right; [|apply Rle_ge, IZR_le; lia]. change (p2 0) with 1. apply IZR_le. lia.
Qed.
Lemma vm_more n k m m' : (n <= k)%Z -> same_vm n m m' -> same_vm k m m'.
Proof. intros L (A & B & C & D). split; [exact A|]. split; [exact B|]. split; [exact C|]. intros a. destruct (D a). split; apply (ub_more _ n); assumption. Qed.
Lemma modes_same n d m m' : same_vm n m m' -> same_vm n (do_modes NF d m) (do_modes ND d m').
Proof.
  intros ((A & B & C) & H). unfold do_modes. cbn zeta. rewrite A, B, C. split; [split; [reflexivity|split; reflexivity]|exact H].
Qed.
Lemma set_c_same n a x x' m m' : ub 20 n x x' -> same_vm n m m' -> same_vm n (set_c NF a x m) (set_c ND a x' m').
Proof. intros X (A & B & C & D). split; [exact A|]. split; [exact B|]. split; [exact C|]. intros b. destruct (D b) as [D1 D2]. destruct a, b; (split; [first [exact X|exact D1]|exact D2]). Qed.
Lemma set_o_same n a x x' m m' : ub 60 n x x' -> same_vm n m m' -> same_vm n (set_o NF a x m) (set_o ND a x' m').
Proof. intros X (A & B & C & D). split; [exact A|]. split; [exact B|]. split; [exact C|]. intros b. destruct (D b) as [D1 D2]. destruct a, b; (split; [exact D1|first [exact X|exact D2]]). Qed.
Lemma set_v_same n a x x' m m' : same_value x x' -> same_vm n m m' -> same_vm n (set_v NF a x m) (set_v ND a x' m').
Proof. intros X (A & B & C & D). split; [exact A|]. split; [exact B|]. split; [|exact D]. intros b. specialize (C b). destruct a, b; first [exact X|exact C]. Qed.
Lemma set_dyn_same n a b c a' b' c' m m' : same_value a a' -> same_value b b' -> same_value c c' -> same_vm n m m' -> same_vm n (set_dyn NF a b c m) (set_dyn ND a' b' c' m').
Proof. intros X Y Z (A & _ & C & D). split; [exact A|]. split; [split; [exact X|split; [exact Y|exact Z]]|]. split; [exact C|exact D]. Qed.
Lemma axis_same n b a s m m' : (0 <= n)%Z -> (n + 1 <= most)%Z -> (forall k l, dget k s = Some l -> fine_leaf l) ->
  same_vm n m m' -> rr (same_vm (n + 1)) (do_axis NF b a s m) (do_axis ND b a s m').
Proof.
  intros H0 H1 F H. unfold do_axis. destruct (dget (axis_key a) s) as [l|] eqn:E; [|apply (vm_more n); [lia|exact H]].
  apply (rr_bind _ _ _ _ _ _ (need_same l (F _ _ E))). intros x x' X. cbn [rr]. apply set_c_same; [|apply (vm_more n); [lia|exact H]].
  destruct b; [apply (ub_more _ 1); [lia|exact X]|]. apply ub_add; [lia|lia|lia|unfold most in *; lia| |exact X]. destruct H as (_ & _ & _ & D). apply D.
Qed.
Lemma move_same n cmd d m m' : (0 <= n)%Z -> (n + 4 <= most)%Z -> (forall s k l, sub_dict cmd d = Some s -> dget k s = Some l -> fine_leaf l) ->
  same_vm n m m' -> rr (same_vm (n + 4)) (do_move NF cmd d m) (do_move ND cmd d m').
Proof.
  intros H0 H1 F H. unfold do_move. destruct (sub_dict cmd d) as [s|]; [|apply (vm_more n); [lia|exact H]]. specialize (fun k l => F s k l eq_refl). cbn beta in F.
  replace (absolute_position ND m') with (absolute_position NF m) by apply H. apply (rr_bind _ _ _ _ _ _ (axis_same n _ AX s m m' H0 ltac:(lia) F H)). clear m m' H. intros m m' H.
  replace (absolute_position ND m') with (absolute_position NF m) by apply H. apply (rr_bind _ _ _ _ _ _ (axis_same (n + 1) _ AY s m m' ltac:(lia) ltac:(lia) F H)). clear m m' H. intros m m' H.
  replace (absolute_position ND m') with (absolute_position NF m) by apply H. apply (rr_bind _ _ _ _ _ _ (axis_same (n + 1 + 1) _ AZ s m m' ltac:(lia) ltac:(lia) F H)). clear m m' H. intros m m' H.
  replace (absolute_extrusion ND m') with (absolute_extrusion NF m) by apply H. apply (rr_bind _ _ _ _ _ _ (axis_same (n + 1 + 1 + 1) _ AE s m m' ltac:(lia) ltac:(lia) F H)). clear m m' H. intros m m' H.
  replace (n + 1 + 1 + 1 + 1)%Z with (n + 4)%Z in H by lia.
  destruct (dget (S_ "F") s) as [l|] eqn:E; [|exact H]. apply (rr_bind _ _ _ _ _ _ (need_same l (F _ _ E))). intros x x' X. cbn [rr].
  pose proof H as (_ & (_ & K1 & K2) & _). apply set_dyn_same; [|exact K1|exact K2|exact H]. cbn [same_value]. apply div_same; [lia|exact X].
Qed.
Definition axis_entries (s : dict leaf) : Z := Z.of_nat (length (filter (fun q => match axis_of_key (fst q) with Some _ => true | None => false end) s)).
Lemma entries_few s : NoDup (dkeys s) -> (axis_entries s <= 4)%Z.
Proof.
  intros H. unfold axis_entries. set (f := fun q : str * leaf => match axis_of_key (fst q) with Some _ => true | None => false end).
  assert (K : (length (map fst (filter f s)) <= length [S_ "E"; S_ "X"; S_ "Y"; S_ "Z"])%nat).
  { apply NoDup_incl_length.
    - clear -H. induction s as [|q s IH]; [constructor|]. cbn [filter]. inversion H as [|? ? N1 N2]; subst. destruct (f q); [|exact (IH N2)]. cbn [map]. constructor; [|exact (IH N2)].
      intros I. apply N1. clear - I. unfold dkeys. apply in_map_iff in I as (z & E & I). apply filter_In in I as [I _]. apply in_map_iff. exists z. split; assumption.
    - intros k I. apply in_map_iff in I as ([k' l] & E & I). cbn [fst] in E. subst k'. apply filter_In in I as [_ I]. unfold f, axis_of_key in I. cbn [fst] in I.
      destruct (str_eqb_spec k (S_ "E")) as [->|]; [left; reflexivity|]. destruct (str_eqb_spec k (S_ "X")) as [->|]; [right; left; reflexivity|].
      destruct (str_eqb_spec k (S_ "Y")) as [->|]; [right; right; left; reflexivity|]. destruct (str_eqb_spec k (S_ "Z")) as [->|]; [do 3 right; left; reflexivity|discriminate I]. }
  rewrite map_length in K. cbn [length] in K. lia.
Qed.
Lemma g92_same s : forall n m m', (0 <= n)%Z -> (n + axis_entries s <= most)%Z -> (forall k l, In (k, l) s -> fine_leaf l) ->
  same_vm n m m' -> rr (same_vm (n + axis_entries s)) (do_g92 NF s m) (do_g92 ND s m').
Proof.
  induction s as [|[k l] s IH]; intros n m m' H0 H1 F H; [apply (vm_more n); [cbn; lia|exact H]|]. cbn [do_g92].
  assert (F' : forall k l, In (k, l) s -> fine_leaf l) by (intros k' l' I; apply (F k' l'); right; exact I).
  destruct (axis_of_key k) as [a|] eqn:E.
  - assert (Q : axis_entries ((k, l) :: s) = (1 + axis_entries s)%Z) by (unfold axis_entries; cbn [filter fst]; rewrite E; cbn [length]; lia). rewrite Q in *.
    assert (P : (0 <= axis_entries s)%Z) by (unfold axis_entries; lia).
    apply (rr_bind _ _ _ _ _ _ (need_same l (F k l (or_introl eq_refl)))). intros x x' X. replace (n + (1 + axis_entries s))%Z with (n + 1 + axis_entries s)%Z by lia.
    apply IH; [lia|lia|exact F'|]. apply set_c_same; [apply (ub_more _ 1); [lia|exact X]|]. destruct H as (A & B & C & D). destruct (D a) as [D1 D2].
    apply set_o_same; [|apply (vm_more n); [lia|split; [exact A|split; [exact B|split; [exact C|exact D]]]]].
    replace (n + 1)%Z with (1 + n)%Z by lia. apply ub_add; [lia|lia|lia|unfold most in *; lia| |exact D2].
    apply (ub_wide (n + 1)); [unfold most in *; lia|]. apply ub_add; [lia|lia|lia|unfold most in *; lia|exact D1|exact X].
  - assert (Q : axis_entries ((k, l) :: s) = axis_entries s) by (unfold axis_entries; cbn [filter fst]; rewrite E; reflexivity). rewrite Q in *. apply IH; assumption.
Qed.
Lemma m203_same s : forall n m m', (forall k l, In (k, l) s -> fine_leaf l) -> same_vm n m m' -> rr (same_vm n) (do_m203 NF s m) (do_m203 ND s m').
Proof.
  induction s as [|[k l] s IH]; intros n m m' F H; [exact H|]. cbn [do_m203].
  assert (F' : forall k l, In (k, l) s -> fine_leaf l) by (intros k' l' I; apply (F k' l'); right; exact I).
  destruct (axis_of_key k) as [a|]; [|apply IH; assumption].
  apply (rr_bind _ _ _ _ _ _ (value_same l (F k l (or_introl eq_refl)))). intros x x' X. apply IH; [exact F'|]. apply set_v_same; assumption.
Qed.
Lemma m204_same n s m m' : (forall k l, dget k s = Some l -> fine_leaf l) -> same_vm n m m' -> rr (same_vm n) (do_m204 NF s m) (do_m204 ND s m').
Proof.
  intros F H. unfold do_m204. destruct (dget (S_ "P") s) as [l|] eqn:E; [|exact H]. apply (rr_bind _ _ _ _ _ _ (value_same l (F _ _ E))). intros x x' X. cbn [rr].
  pose proof H as (_ & (K0 & _ & K2) & _). apply set_dyn_same; assumption.
Qed.
Lemma m205_same n s m m' : (forall k l, dget k s = Some l -> fine_leaf l) -> same_vm n m m' -> rr (same_vm n) (do_m205 NF s m) (do_m205 ND s m').
Proof.
  intros F H. unfold do_m205. destruct (dget (S_ "X") s) as [l|] eqn:E; [|exact H]. apply (rr_bind _ _ _ _ _ _ (value_same l (F _ _ E))). intros x x' X. cbn [rr].
  pose proof H as (_ & (K0 & K1 & _) & _). apply set_dyn_same; assumption.
Qed.
Lemma dwell_same d : (forall s k l, sub_dict (S_ "G4") d = Some s -> dget k s = Some l -> fine_leaf l) -> rr (same_opt same_value) (do_dwell NF d) (do_dwell ND d).
Proof.
  intros F. unfold do_dwell. destruct (sub_dict (S_ "G4") d) as [s|]; [|exact I]. specialize (fun k l => F s k l eq_refl). cbn beta in F. apply (rr_bind (same_opt same_value)).
  - destruct (dget (S_ "P") s) as [l|] eqn:E; [|exact I]. apply (rr_bind _ _ _ _ _ _ (need_same l (F _ _ E))). intros x x' X. cbn [rr same_opt same_value]. apply div_same; [lia|exact X].
  - intros p p' Hp. destruct (dget (S_ "S") s) as [l|] eqn:E; [|exact Hp]. apply (rr_bind _ _ _ _ _ _ (value_same l (F _ _ E))). intros x x' X. exact X.
Qed.
Lemma in_dget (s : dict leaf) k l : NoDup (dkeys s) -> In (k, l) s -> dget k s = Some l.
Proof.
  induction s as [|[k' l'] s IH]; intros N I; [contradiction|]. cbn [dget]. inversion N as [|? ? N1 N2]; subst. destruct I as [E|I].
  - injection E as -> ->. rewrite str_eqb_refl. reflexivity.
  - destruct (str_eqb_spec k k') as [->|]; [|exact (IH N2 I)]. exfalso. apply N1. apply in_map_iff. exists (k', l). split; [reflexivity|exact I].
Qed.
Lemma step_same n l m m' : (0 <= n)%Z -> (n + 12 <= most)%Z -> proper_line l -> modest_line l -> same_vm n m m' ->
  rr (fun x y => same_vm (n + 12) (fst x) (fst y) /\ same_opt same_value (snd x) (snd y)) (step_vm NF (ld l) m) (step_vm ND (ld l) m').
Proof.
  intros H0 H1 [_ P] M H.
  assert (F : forall cmd s k lf, In cmd obeyed_commands -> sub_dict cmd (ld l) = Some s -> dget k s = Some lf -> fine_leaf lf).
  { intros cmd s k lf Ic E1 E2 a e ->. apply (M cmd k); [exact Ic|]. unfold word. unfold sub_dict in E1. destruct (dget cmd (ld l)) as [[|]|]; try discriminate. injection E1 as ->. exact E2. }
  assert (F' : forall cmd s k lf, In cmd obeyed_commands -> sub_dict cmd (ld l) = Some s -> In (k, lf) s -> fine_leaf lf).
  { intros cmd s k lf Ic E1 I. apply (F cmd s k lf Ic E1). apply in_dget; [|exact I]. apply (P cmd). unfold sub_dict in E1. destruct (dget cmd (ld l)) as [[|]|]; try discriminate. injection E1 as ->. reflexivity. }
  assert (G : forall cmd s, sub_dict cmd (ld l) = Some s -> NoDup (dkeys s)).
  { intros cmd s E1. apply (P cmd). unfold sub_dict in E1. destruct (dget cmd (ld l)) as [[|]|]; try discriminate. injection E1 as ->. reflexivity. }
  assert (Ob : forall c, existsb (str_eqb c) obeyed_commands = true -> In c obeyed_commands).
  { intros c Hc. apply existsb_exists in Hc as (x & I & Q). destruct (str_eqb_spec c x) as [->|]; [exact I|discriminate Q]. }
  unfold step_vm. cbn zeta. apply modes_same with (d := ld l) in H.
  apply (rr_bind _ _ _ _ _ _ (move_same n (S_ "G0") (ld l) _ _ H0 ltac:(lia) (fun s k lf => F (S_ "G0") s k lf (Ob (S_ "G0") eq_refl)) H)). clear m m' H. intros m m' H.
  apply (rr_bind _ _ _ _ _ _ (move_same (n + 4) (S_ "G1") (ld l) _ _ ltac:(lia) ltac:(lia) (fun s k lf => F (S_ "G1") s k lf (Ob (S_ "G1") eq_refl)) H)). clear m m' H. intros m m' H.
  assert (H92 : rr (same_vm (n + 12)) (do_sub NF (S_ "G92") (ld l) (do_g92 NF) m) (do_sub ND (S_ "G92") (ld l) (do_g92 ND) m')).
  { unfold do_sub. destruct (sub_dict (S_ "G92") (ld l)) as [s|] eqn:E; [|apply (vm_more (n + 4 + 4)); [lia|exact H]].
    pose proof (entries_few s (G _ _ E)) as L. assert (X : forall k lf, In (k, lf) s -> fine_leaf lf) by (intros k lf; apply (F' _ _ _ _ (Ob (S_ "G92") eq_refl) E)).
    pose proof (g92_same s (n + 4 + 4) m m' ltac:(lia) ltac:(lia) X H) as R. destruct (do_g92 NF s m), (do_g92 ND s m'); cbn [rr] in *; try exact R. apply (vm_more (n + 4 + 4 + axis_entries s)); [lia|exact R]. }
  apply (rr_bind _ _ _ _ _ _ H92). clear m m' H H92. intros m m' H.
  assert (H204 : rr (same_vm (n + 12)) (do_sub NF (S_ "M204") (ld l) (do_m204 NF) m) (do_sub ND (S_ "M204") (ld l) (do_m204 ND) m')).
  { unfold do_sub. destruct (sub_dict (S_ "M204") (ld l)) as [s|] eqn:E; [|exact H]. apply m204_same; [intros k lf; apply (F _ _ _ _ (Ob (S_ "M204") eq_refl) E)|exact H]. }
  apply (rr_bind _ _ _ _ _ _ H204). clear m m' H H204. intros m m' H.
  assert (H203 : rr (same_vm (n + 12)) (do_sub NF (S_ "M203") (ld l) (do_m203 NF) m) (do_sub ND (S_ "M203") (ld l) (do_m203 ND) m')).
  { unfold do_sub. destruct (sub_dict (S_ "M203") (ld l)) as [s|] eqn:E; [|exact H]. apply m203_same; [intros k lf; apply (F' _ _ _ _ (Ob (S_ "M203") eq_refl) E)|exact H]. }
  apply (rr_bind _ _ _ _ _ _ H203). clear m m' H H203. intros m m' H.
  assert (H205 : rr (same_vm (n + 12)) (do_sub NF (S_ "M205") (ld l) (do_m205 NF) m) (do_sub ND (S_ "M205") (ld l) (do_m205 ND) m')).
  { unfold do_sub. destruct (sub_dict (S_ "M205") (ld l)) as [s|] eqn:E; [|exact H]. apply m205_same; [intros k lf; apply (F _ _ _ _ (Ob (S_ "M205") eq_refl) E)|exact H]. }
  apply (rr_bind _ _ _ _ _ _ H205). clear m m' H H205. intros m m' H.
  apply (rr_bind _ _ _ _ _ _ (dwell_same (ld l) (fun s k lf => F (S_ "G4") s k lf (Ob (S_ "G4") eq_refl)))). intros p p' Hp. split; assumption.
Qed.

(** * The states *)
Lemma spot_same n m m' : (0 <= n <= most)%Z -> same_vm n m m' -> let p := vm_position NF m in let p' := vm_position ND m' in
  stands (px p) (px p') /\ stands (py p) (py p') /\ stands (pz p) (pz p') /\ stands (pe p) (pe p').
Proof.
  intros Hn (_ & _ & _ & D). assert (G : forall a, stands (n_add NF (get_c NF a m) (get_o NF a m)) (n_add ND (get_c ND a m') (get_o ND a m'))).
  { intros a. destruct (D a) as [D1 D2]. destruct (ub_add 60 1 n _ _ _ _ ltac:(lia) ltac:(lia) ltac:(lia) ltac:(unfold most in *; lia) (ub_wide n _ _ ltac:(unfold most in *; lia) D1) D2) as [S _]. exact S. }
  cbn zeta. split; [exact (G AX)|]. split; [exact (G AY)|]. split; [exact (G AZ)|exact (G AE)].
Qed.
Lemma settings_same n m m' u : same_vm n m m' -> same_settings (vm_settings NF m u) (vm_settings ND m' u).
Proof.
  intros (_ & (A & B & C) & V & _). split; [exact B|]. split; [exact C|]. split; [exact A|]. split; [exact (V AX)|]. split; [exact (V AY)|]. split; [exact (V AZ)|]. split; [exact (V AE)|reflexivity].
Qed.
Lemma travel_same cue ls : forall n m m' k, Forall proper_line ls -> Forall modest_line ls -> (0 <= n)%Z -> (n + 12 * Z.of_nat (length ls) <= most)%Z -> same_vm n m m' ->
  same_states (travel NF cue ls m k) (travel ND cue ls m' k).
Proof.
  induction ls as [|l ls IH]; intros n m m' k P M H0 H1 H; [constructor|]. inversion P as [|? ? P1 P2]; subst. inversion M as [|? ? M1 M2]; subst. cbn [length] in H1.
  cbn [travel]. pose proof (step_same n l m m' H0 ltac:(lia) P1 M1 H) as S.
  destruct (step_vm NF (ld l) m) as [[m1 p]|e], (step_vm ND (ld l) m') as [[m1' p']|e']; cbn [rr] in S; try contradiction; [|exact S]. cbn [fst snd] in S. destruct S as [S Sp]. cbn [bind].
  pose proof (IH (n + 12)%Z m1 m1' (next_layer cue (line_comment (ld l)) k) P2 M2 ltac:(lia) ltac:(lia) S) as R.
  destruct (travel NF cue ls m1 _) as [r|e], (travel ND cue ls m1' _) as [r'|e']; cbn [same_states] in R; try contradiction; [|exact R]. cbn [bind same_states]. constructor; [|exact R].
  unfold same_reading, line_state. cbn [state_position state_p_settings line_number comment layer pause].
  split; [exact (spot_same (n + 12) _ _ ltac:(lia) S)|]. split; [|split; [reflexivity|split; [reflexivity|split; [reflexivity|exact Sp]]]].
  replace (vm_units ND m1') with (vm_units NF m1) by apply S. exact (settings_same _ _ _ _ S).
Qed.
Lemma start_same su : proper_setup su -> same_vm 1 (init_vm NF su) (init_vm ND (value_setup su)).
Proof.
  intros [A B]. assert (V : forall x, proper x -> stands x (fval x)) by (intros x H; split; [exact H|reflexivity]).
  repeat match goal with H : Forall _ (_ :: _) |- _ => let h1 := fresh "q" in let h2 := fresh "w" in inversion H as [|? ? h1 h2]; subst; clear H end.
  split; [split; [reflexivity|split; reflexivity]|]. split; [split; [apply V; assumption|split; apply V; assumption]|].
  split; [intros []; apply V; assumption|]. pose proof million as Ml.
  assert (U : forall x, proper x /\ Rabs (fval x) <= 1000000 -> ub 20 1 x (fval x)) by (intros x [H1 H2]; split; [apply V, H1|rewrite Rmult_1_l; lra]).
  intros []; (split; [apply U; assumption|apply ub_0; lia]).
Qed.
Lemma reading_same lines su : proper_setup su -> modest lines -> INR (length lines) <= 1000000000 ->
  same_states (generate_states NF lines su) (generate_states ND lines (value_setup su)).
Proof.
  intros P M N. unfold generate_states. destruct (read_gcode_to_dict_list lines) as [ls|e] eqn:E; [|reflexivity]. cbn [bind]. specialize (M ls E).
  assert (Pl : Forall proper_line ls) by (apply (read_lines_proper lines 0); exact E).
  assert (L : length ls = length lines) by (apply (read_lines_numbers lines 0 ls E)).
  assert (Q : (Z.of_nat (length ls) <= 1000000000)%Z) by (rewrite L; apply le_IZR; rewrite <- INR_IZR_INZ; exact N).
  unfold dict_list_traveler. change (s_layer_cue ND (value_setup su)) with (s_layer_cue NF su). pose proof (start_same su P) as V.
  pose proof (travel_same (s_layer_cue NF su) ls 1 _ _ 0%nat Pl M ltac:(lia) ltac:(unfold most; lia) V) as R.
  destruct (travel NF _ ls _ 0) as [r|e], (travel ND _ ls _ 0) as [r'|e']; cbn [same_states] in R; try contradiction; [|exact R]. cbn [bind same_states]. constructor; [|exact R].
  unfold same_reading, initial_state. cbn [state_position state_p_settings line_number comment layer pause].
  split; [exact (spot_same 1 _ _ ltac:(unfold most; lia) V)|]. split; [exact (settings_same _ _ _ _ V)|]. split; [reflexivity|]. split; [reflexivity|]. split; [reflexivity|exact I].
Qed.
Lemma kstate_same s s' : same_reading s s' -> rr same_state (gto_kstate Fk s) (gto_kstate D64 s').
Proof.
  intros ((X & Y & Z & E) & (A & J & V & _) & _ & _ & L & W). unfold gto_kstate.
  assert (G : forall v v', same_value v v' -> rr stands (gnum_of Fk v) (gnum_of D64 v')) by (intros [] [] H; cbn [same_value] in H; try contradiction; [exact H|reflexivity]).
  apply (rr_bind _ _ _ _ _ _ (G _ _ V)). intros v v' Hv. apply (rr_bind _ _ _ _ _ _ (G _ _ A)). intros a a' Ha. apply (rr_bind _ _ _ _ _ _ (G _ _ J)). intros j j' Hj.
  apply (rr_bind (same_opt stands)).
  - destruct (pause s), (pause s'); cbn [same_opt] in W; try contradiction; [|exact I]. apply (rr_bind _ _ _ _ _ _ (G _ _ W)). intros w w' Hw. exact Hw.
  - intros w w' Hw. cbn [rr]. unfold same_state, same_vec. cbn [gk_pos gk_speed gk_acc gk_jerk gk_pause gk_layer gx gy gz ge].
    split; [split; [exact X|split; [exact Y|split; [exact Z|exact E]]]|]. split; [exact Hv|]. split; [exact Ha|]. split; [exact Hj|]. split; [exact Hw|exact L].
Qed.
Lemma kstates_same l l' : Forall2 same_reading l l' -> rr (Forall2 same_state) (gto_kstates Fk l) (gto_kstates D64 l').
Proof.
  induction 1 as [|s s' l l' H _ IH]; [constructor|]. cbn [gto_kstates]. apply (rr_bind _ _ _ _ _ _ (kstate_same _ _ H)). intros a b Hab.
  apply (rr_bind _ _ _ _ _ _ IH). intros x y Hxy. constructor; assumption.
Qed.
Lemma asked_same lines su : proper_setup su -> modest lines -> INR (length lines) <= 1000000000 ->
  rr (Forall2 same_state) (asked Fk lines su) (asked D64 lines (value_setup su)).
Proof.
  intros P M N. pose proof (reading_same lines su P M N) as R. unfold asked.
  destruct (generate_states NF lines su) as [l|e], (generate_states ND lines (value_setup su)) as [l'|e']; cbn [same_states] in R; try contradiction; [|exact R]. exact (kstates_same _ _ R).
Qed.
