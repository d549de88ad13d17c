(** Property C104: reading with the rounded numbers of the machine.
    Vocabulary: SpecRounding.v, SpecMachine.v, SpecRead.v. *)
From Coq Require Import Reals Lra Lia.
From Verif Require Import Py PyFloat Parser Vec StateGen Texts RealFacts StrFacts SpecRead SpecMachine ParserProofs CommentProofs LineProofs
  ReadProofs ReadFacts ReadReals TextsProofs Rounding SpecRounding RoundingProofs ReadText PropertiesRead.
Open Scope R_scope.

(** [binary64 x] is the double nearest to [x]; a double is kept; between two
    equally near ones the mantissa is even. *)
Theorem C104_nearest_double x : double (binary64 x) /\ (forall f, double f -> Rabs (x - binary64 x) <= Rabs (x - f)) /\ (double x -> binary64 x = x).
Proof.
  split; [apply binary64_double|]. split; [intros f Hf; apply binary64_nearest; exact Hf|apply binary64_fix].
Qed.
Theorem C104_ties_to_even x f : double f -> f <> binary64 x -> Rabs (x - f) = Rabs (x - binary64 x) ->
  exists m e, binary64 x = IZR m * powerRZ 2 e /\ Z.even m = true /\ (Z.abs m < 2 ^ 53)%Z /\ (-1074 <= e)%Z /\ ((2 ^ 52 <= Z.abs m)%Z \/ e = (-1074)%Z).
Proof.
  intros Hf Hne Heq. assert (Hx : x <> 0).
  { intros ->. rewrite binary64_0, Rminus_0_r, Rabs_R0 in Heq. apply Hne. rewrite binary64_0. destruct (Req_dec f 0) as [E|E]; [exact E|].
    exfalso. apply (Rabs_no_R0 (0 - f)); [lra|exact Heq]. }
  destruct (exponent_spec x Hx) as [H1 H2]. pose proof (ulp_pos x) as U.
  assert (Ev : Z.even (round_half_even (x / ulp x)) = true).
  { apply round_half_even_spec. destruct (round_half_even_spec (x / ulp x)) as [Hh _]. unfold binary64 in Hne, Heq. set (n := round_half_even (x / ulp x)) in *.
    assert (Sc : forall z, Rabs (x - IZR z * ulp x) = Rabs (x / ulp x - IZR z) * ulp x).
    { intros z. replace (x - IZR z * ulp x) with ((x / ulp x - IZR z) * ulp x) by (field; lra). rewrite Rabs_mult, (Rabs_right (ulp x)) by lra. reflexivity. }
    destruct (double_near x f Hx Hf) as [[z ->]|[Hs HU]].
    - rewrite !Sc in Heq. apply Rmult_eq_reg_r in Heq; [|lra]. assert (Dz : z <> n) by (intros ->; apply Hne; reflexivity).
      assert (1 <= Rabs (IZR z - IZR n)) by (rewrite <- minus_IZR, <- abs_IZR; apply IZR_le; lia).
      pose proof (Rabs_triang (x / ulp x - IZR n) (- (x / ulp x - IZR z))) as T. rewrite Rabs_Ropp in T.
      replace (x / ulp x - IZR n + - (x / ulp x - IZR z)) with (IZR z - IZR n) in T by ring. lra.
    - exfalso. pose proof (small_far x f Hx Hs HU) as Q. unfold binary64 in Q. fold n in Q. lra. }
  unfold binary64 in *. set (n := round_half_even (x / ulp x)) in *. destruct (round_half_even_spec (x / ulp x)) as [Hh _]. fold n in Hh.
  unfold ulp. set (E := Z.max (-1074) (exponent x - 52)) in *.
  assert (B : (Z.abs n <= 2 ^ 53)%Z).
  { assert (Q : Rabs (x / ulp x) < IZR (2 ^ 53)).
    { unfold Rdiv. rewrite Rabs_mult, (Rabs_right (/ ulp x)) by (left; apply Rinv_0_lt_compat; exact U).
      apply Rmult_lt_reg_r with (ulp x); [exact U|]. rewrite Rmult_assoc, Rinv_l, Rmult_1_r by lra. rewrite <- pow2_Z by lia.
      unfold ulp. rewrite <- pow2_add. eapply Rlt_le_trans; [exact H2|]. apply pow2_mono. unfold E; lia. }
    assert (Hn : (Z.abs n < 2 ^ 53 + 1)%Z); [|lia]. apply lt_IZR. rewrite abs_IZR, plus_IZR.
    pose proof (Rabs_triang (x / ulp x) (- (x / ulp x - IZR n))) as T. rewrite Rabs_Ropp in T.
    replace (x / ulp x + - (x / ulp x - IZR n)) with (IZR n) in T by ring. lra. }
  assert (B' : (2 ^ 52 <= Z.abs n)%Z \/ E = (-1074)%Z).
  { destruct (Z_le_gt_dec (exponent x - 52) (-1074)) as [L|G]; [right; unfold E; lia|left].
    assert (Q : IZR (2 ^ 52) <= Rabs (x / ulp x)).
    { unfold Rdiv. rewrite Rabs_mult, (Rabs_right (/ ulp x)) by (left; apply Rinv_0_lt_compat; exact U).
      apply Rmult_le_reg_r with (ulp x); [exact U|]. rewrite Rmult_assoc, Rinv_l, Rmult_1_r by lra. rewrite <- pow2_Z by lia.
      unfold ulp. fold E. rewrite <- pow2_add. eapply Rle_trans; [|exact H1]. apply pow2_mono. unfold E; lia. }
    assert (Hn : (2 ^ 52 - 1 < Z.abs n)%Z); [|lia]. apply lt_IZR. rewrite abs_IZR, minus_IZR.
    pose proof (Rabs_triang (IZR n) (x / ulp x - IZR n)) as T. replace (IZR n + (x / ulp x - IZR n)) with (x / ulp x) in T by ring. lra. }
  destruct (Z.eq_dec (Z.abs n) (2 ^ 53)) as [Q|Q].
  - exists (Z.sgn n * 2 ^ 52)%Z, (E + 1)%Z. split; [|split; [|split; [|split]]].
    + rewrite pow2_add. assert (En : n = (Z.sgn n * 2 ^ 52 * 2)%Z) by (pose proof (Z.sgn_abs n); lia). rewrite En at 1. rewrite (mult_IZR _ 2). change (powerRZ 2 1) with (2 * 1). ring.
    + rewrite Z.even_mul. apply orb_true_r.
    + rewrite Z.abs_mul. destruct n; simpl Z.sgn; lia.
    + unfold E; lia.
    + left. rewrite Z.abs_mul. destruct n; simpl Z.sgn; lia.
  - exists n, E. split; [reflexivity|]. split; [exact Ev|]. split; [lia|]. split; [unfold E; lia|exact B'].
Qed.
Theorem C104_relative_error : rounds (powerRZ 2 (-53)) (powerRZ 2 (-1075)) binary64.
Proof. exact binary64_rounds. Qed.

(** Whether a program can be read, with which exception it is refused, and the
    words of its states do not depend on the numbers. *)
Theorem C104_words rnd ls su :
  (forall e, dict_list_traveler Rops ls su = Err e <-> dict_list_traveler (Fops rnd) ls (float_setup rnd su) = Err e) /\
  (forall sts, dict_list_traveler Rops ls su = Ok sts -> exists sts', dict_list_traveler (Fops rnd) ls (float_setup rnd su) = Ok sts' /\ Forall2 same_words sts sts') /\
  (forall sts', dict_list_traveler (Fops rnd) ls (float_setup rnd su) = Ok sts' -> exists sts, dict_list_traveler Rops ls su = Ok sts).
Proof.
  pose proof (traveler_rr Rops (Fops rnd) ls su (float_setup rnd su) eq_refl) as H.
  destruct (dict_list_traveler Rops ls su) as [x|e], (dict_list_traveler (Fops rnd) ls (float_setup rnd su)) as [y|e']; cbn [rr] in H; try contradiction.
  - split; [intros e; split; discriminate|]. split; [|eauto]. intros sts [= <-]. exists y. auto.
  - subst e'. split; [intros e0; split; congruence|]. split; intros; discriminate.
Qed.

(** In absolute mode without G92 a coordinate is the double nearest to the
    number in the text: nothing accumulates. *)
Theorem C104_absolute a su before line s s' lf x :
  Forall proper_line (before ++ [line]) -> reads (N := Fops binary64) su before line s s' ->
  absolute_after a (before ++ [line]) = true -> Forall (no_g92 a) (before ++ [line]) ->
  move_word (name a) line = Some lf -> meansR lf x -> coordF a s' = binary64 x.
Proof.
  intros Hp Hr Ha Hn Hw Hx. destruct (reads_step _ _ _ _ _ _ Hr) as (m & m' & p & A & B & _ & C & _).
  assert (H' : vm_after (Fops binary64) (before ++ [line]) (init_vm (Fops binary64) su) = Ok m').
  { rewrite vm_after_app, A. cbn [bind vm_after]. rewrite B. reflexivity. }
  pose proof (absolute_mode _ a _ su m' Hp H') as Hm. rewrite Ha in Hm.
  pose proof (off_after _ a _ _ _ Hp Hn H') as Ho. apply Forall_app in Hp as [_ Hp]. inversion Hp as [|? ? P1 _]; subst.
  apply Forall_app in Hn as [_ Hn]. inversion Hn as [|? ? N1 _]; subst.
  destruct (abs_move _ a line m m' p lf P1 B Hm Hw N1) as (y & (m1 & e1 & El & ->) & Y2 & Y3).
  destruct C as [C _]. unfold coordF. rewrite C, coord_vm, Y2, Ho.
  destruct Hx as (m2 & e2 & E & ->). rewrite El in E. injection E as <- <-. cbn [n_of_dec n_add Fops Rops].
  replace (get_o (Fops binary64) a (init_vm (Fops binary64) su) : R) with (binary64 0) by (destruct a; reflexivity).
  rewrite binary64_0. change (num (Fops binary64)) with R in *. rewrite Rplus_0_r. apply binary64_fix, binary64_double.
Qed.

(** In general the error grows at most with the number of lines. *)
Theorem C104_error a rnd u eta M ls su sts sts' k s s' :
  rounds u eta rnd -> u <= 1 / 100 -> 10 * INR k * u <= 1 ->
  Forall proper_line ls -> Forall g92_zero ls -> Forall (words_within M) ls ->
  dict_list_traveler Rops ls su = Ok sts -> Forall (within M) sts ->
  dict_list_traveler (Fops rnd) ls (float_setup rnd su) = Ok sts' ->
  nth_error sts k = Some s -> nth_error sts' k = Some s' ->
  Rabs (coordF a s' - coordR a s) <= 27 * (INR k + 1) * (u * M + eta).
Proof.
  intros Hr Hu Hk Hp Hz Hw H HM Hf Hs Hs'.
  assert (Fk : forall A (P : A -> Prop) l, Forall P l -> Forall P (firstn k l)).
  { clear. intros A P l. revert k. induction l as [|x l IH]; intros [|k] Hl; try constructor; inversion Hl; subst; auto. }
  destruct (state_shows _ _ _ _ _ _ H Hs) as (m & A & B). destruct (state_shows _ _ _ _ _ _ Hf Hs') as (m' & A' & B').
  assert (M0 : 0 <= M).
  { rewrite Forall_forall in HM. pose proof (HM s (nth_error_In _ _ Hs) a) as Q. pose proof (Rabs_pos (coordR a s)). lra. }
  assert (L : length (firstn k ls) = k).
  { apply firstn_length_le. apply traveler_split in H as (rest & -> & H). rewrite <- (travel_length _ _ _ _ _ _ H).
    assert (k < length (initial_state Rops su :: rest))%nat by (apply nth_error_Some; congruence). simpl in *. lia. }
  destruct (run_err rnd u eta M Hr Hu M0 a (firstn k ls) (init_vm Rops su) (init_vm (Fops rnd) (float_setup rnd su)) m m' 0 (u * M + eta)) as (ec & eo & E1 & E2 & E3);
    [auto|auto|auto|unfold vmr, init_vm; cbn; tauto| | |exact A|exact A'| | |].
  - rewrite init_off. rewrite Rabs_R0. exact M0.
  - intros i mi Hi Hmi. rewrite L in Hi. assert (Hl : (i < length sts)%nat).
    { assert (k < length sts)%nat by (apply nth_error_Some; congruence). lia. }
    destruct (nth_error sts i) as [si|] eqn:Ei; [|apply nth_error_None in Ei; lia].
    destruct (state_shows _ _ _ _ _ _ H Ei) as (mi' & Ai & Bi). rewrite firstn_firstn, Nat.min_l in Hmi by exact Hi. rewrite Ai in Hmi. injection Hmi as <-.
    rewrite <- (coordR_vm a _ _ Bi). rewrite Forall_forall in HM. apply (HM si (nth_error_In _ _ Ei)).
  - unfold cF, cR. destruct a; cbn; rewrite Rminus_diag_eq, Rabs_R0 by reflexivity; lra.
  - rewrite init_off. replace (oF rnd a (init_vm (Fops rnd) (float_setup rnd su))) with (rnd 0) by (destruct a; reflexivity).
    destruct Hr as (R1 & R2 & R3). specialize (R3 0). rewrite Rabs_R0 in R3. assert (0 <= u * M) by (apply Rmult_le_pos; assumption). lra.
  - rewrite L in E3. set (D := u * M + eta) in *. assert (D0 : 0 <= D) by exact (D0 rnd u eta M Hr M0).
    assert (u0 : 0 <= u) by apply Hr. assert (k0 : 0 <= INR k) by apply pos_INR.
    assert (P2 : (1 + 5 * u) ^ k <= 2) by (apply pow_le_2; lra).
    assert (E4 : ec + eo <= 2 * (0 + D + 13 * INR k * D)).
    { eapply Rle_trans; [exact E3|]. apply Rmult_le_compat_r; [|exact P2]. assert (0 <= INR k * D) by (apply Rmult_le_pos; assumption). lra. }
    rewrite (coordR_vm a _ _ B). destruct B' as [B' _]. unfold coordF. rewrite B', coord_vm. cbn [n_add Fops].
    assert (Hpos : Rabs (cR a m + oR a m) <= 1 * M).
    { rewrite <- (coordR_vm a _ _ B), Rmult_1_l. rewrite Forall_forall in HM. apply (HM s (nth_error_In _ _ Hs)). }
    eapply Rle_trans; [apply (rnd_err rnd u eta M Hr _ _ (ec + eo) 1); [|exact Hpos|lra]|].
    + unfold cF, oF in *. replace (get_c (Fops rnd) a m' + get_o (Fops rnd) a m' - (cR a m + oR a m)) with
        ((get_c (Fops rnd) a m' - cR a m) + (get_o (Fops rnd) a m' - oR a m)) by (cbn [num Fops]; ring).
      eapply Rle_trans; [apply Rabs_triang|]. lra.
    + fold D. pose proof (Rabs_pos (cF rnd a m' - cR a m)). pose proof (Rabs_pos (oF rnd a m' - oR a m)).
      assert (u * (ec + eo) <= 1 / 100 * (ec + eo)) by (apply Rmult_le_compat_r; lra). assert (0 <= INR k * D) by (apply Rmult_le_pos; assumption). lra.
Qed.
(** With doubles: after a million lines in a room of a metre, within 4e-6 mm. *)
Theorem C104_doubles a text ls su sts sts' k s s' :
  INR k <= 1000000 -> read_gcode_to_dict_list text = Ok ls -> Forall g92_zero ls -> Forall (words_within 1000) ls ->
  generate_states Rops text su = Ok sts -> Forall (within 1000) sts ->
  generate_states (Fops binary64) text (float_setup binary64 su) = Ok sts' ->
  nth_error sts k = Some s -> nth_error sts' k = Some s' ->
  Rabs (coordF a s' - coordR a s) <= 4 / 1000000.
Proof.
  intros Hk Hls Hz Hw H HM Hf Hs Hs'. unfold generate_states in H, Hf. rewrite Hls in H, Hf. cbn [bind] in H, Hf.
  pose proof (read_lines_proper _ _ _ Hls) as Hp.
  assert (B1 : powerRZ 2 (-53) <= 12 / 100000000000000000).
  { change (powerRZ 2 (-53)) with (/ (2 ^ 53)). rewrite (pow_IZR 2 53). change (2 ^ Z.of_nat 53)%Z with 9007199254740992%Z. lra. }
  assert (B2 : powerRZ 2 (-1075) <= powerRZ 2 (-53)) by (apply pow2_mono; lia). assert (B3 : powerRZ 2 (-1075) <= / 1000 * powerRZ 2 (-53)).
  { apply Rle_trans with (powerRZ 2 (-10) * powerRZ 2 (-53)); [rewrite <- pow2_add; apply pow2_mono; lia|]. apply Rmult_le_compat_r; [left; apply pow2_pos|].
    change (powerRZ 2 (-10)) with (/ (2 ^ 10)). rewrite (pow_IZR 2 10). change (2 ^ Z.of_nat 10)%Z with 1024%Z. lra. }
  assert (k0 : 0 <= INR k) by apply pos_INR. pose proof (pow2_pos (-53)). pose proof (pow2_pos (-1075)).
  eapply Rle_trans; [apply (C104_error a binary64 (powerRZ 2 (-53)) (powerRZ 2 (-1075)) 1000 ls su sts sts' k s s' binary64_rounds); try assumption; [lra|nra]|].
  assert (B4 : powerRZ 2 (-53) * 1000 + powerRZ 2 (-1075) <= 1201 / 10000000000000000) by lra.
  apply Rle_trans with (27 * (1000000 + 1) * (powerRZ 2 (-53) * 1000 + powerRZ 2 (-1075))); [apply Rmult_le_compat_r; lra|].
  apply Rle_trans with (27 * (1000000 + 1) * (1201 / 10000000000000000)); [apply Rmult_le_compat_l; lra|lra].
Qed.
(** From text: the coordinate is the double nearest to the literal. *)
Theorem C104_absolute_text a su before pre cmd args w l s s' :
  In cmd ["G0"%string; "G1"%string] -> args_wf (letters "EXYZF") args -> plain pre -> unblank w = body args ->
  Forall (fun t => ~ occurs (mode_off a) t) before -> Forall (fun t => ~ occurs (S_ "G92") t) before ->
  reads_text (N := Fops binary64) su before (pre ++ S_ cmd ++ w) s s' -> lookup_arg (name a) args = Some l ->
  coordF a s' = binary64 (lit_num l).
Proof.
  intros Hc Ha Hp Hw Hm Hn Hr Hl.
  destruct (reads_text_reads _ _ _ _ _ _ Hr) as (lb & line & R & F & P & Q).
  assert (Hd : In (cmd, Some "EXYZF"%string) documented).
  { destruct Hc as [<-|[<-|[]]]; unfold documented; simpl; auto 20. }
  assert (Eld : ld line = [(S_ cmd, ADict (args_meaning (letters "EXYZF") args))]).
  { pose proof (C02_read_back cmd _ args pre w Hd Ha Hp Hw) as E. unfold parsed in P. unfold parse in E. rewrite E in P. injection P as <-. reflexivity. }
  assert (Hmode : absolute_after a (lb ++ [line]) = true).
  { pose proof (never_relative a _ _ F Hm) as G. unfold absolute_after, switch in *.
    destruct a; rewrite fold_left_app, G; unfold flagb; cbn [fold_left]; rewrite Eld; destruct Hc as [<-|[<-|[]]]; reflexivity. }
  assert (Hg : Forall (no_g92 a) (lb ++ [line])).
  { apply Forall_app. split; [exact (never_renamed a _ _ F Hn)|]. constructor; [|constructor].
    unfold no_g92, word. rewrite Eld. destruct Hc as [<-|[<-|[]]]; reflexivity. }
  assert (Hget : dget (name a) (args_meaning (letters "EXYZF") args) = Some (LNum (lit_val l))).
  { apply args_meaning_get; [|apply nodupb_ok; reflexivity|exact Hl]. destruct a; vm_compute; auto 10. }
  assert (Hmw : move_word (name a) line = Some (LNum (lit_val l))).
  { unfold move_word, word. rewrite Eld. destruct Hc as [<-|[<-|[]]].
    - change (dget (S_ "G1") [(S_ "G0", ADict (args_meaning (letters "EXYZF") args))]) with (@None arg). exact Hget.
    - change (dget (S_ "G1") [(S_ "G1", ADict (args_meaning (letters "EXYZF") args))]) with (Some (ADict (args_meaning (letters "EXYZF") args))).
      cbv iota. rewrite Hget. reflexivity. }
  assert (Hx : exists x, meansR (LNum (lit_val l)) x).
  { unfold lit_val. eexists. eexists. eexists. split; reflexivity. }
  destruct Hx as (x & Hx). rewrite <- (lit_num_val l x Hx). exact (C104_absolute a su lb line s s' _ x Q R Hmode Hg Hmw Hx).
Qed.
(** The feed rate in units per second. *)
Theorem C104_feed rnd u eta (su : setup_values (Fops rnd)) before line s s' lf x :
  rounds u eta rnd -> u <= 1 -> proper_line line -> reads su before line s s' -> move_word (S_ "F") line = Some lf -> meansR lf x ->
  exists v, speed (state_p_settings s') = @SNum (Fops rnd) v /\ Rabs (v - x / 60) <= 3 * u * Rabs (x / 60) + 2 * eta.
Proof.
  intros (A & B & C) Hu Hp Hr Hw (m & e & El & Ex). destruct (C12_settings_modal _ su before line s s' Hp Hr) as (H & _).
  unfold modal in H. rewrite Hw in H. destruct H as (y & (m1 & e1 & E & ->) & ->). rewrite El in E. injection E as <- <-.
  eexists. split; [reflexivity|]. cbn [n_of_dec n_div Fops].
  change (n_of_dec Rops m e) with (r_of_dec m e) in Ex. rewrite <- Ex.
  pose proof (C x) as C1. pose proof (C (rnd x / 60)) as C2. set (y := rnd x) in *.
  assert (D1 : Rabs (y / 60 - x / 60) <= u * Rabs (x / 60) + eta / 60).
  { replace (y / 60 - x / 60) with ((y - x) * / 60) by field. rewrite Rabs_mult, (Rabs_right (/ 60)) by lra.
    unfold Rdiv. rewrite (Rabs_mult x), (Rabs_right (/ 60)) by lra. lra. }
  assert (D2 : Rabs (y / 60) <= Rabs (x / 60) + (u * Rabs (x / 60) + eta / 60)).
  { replace (y / 60) with (x / 60 + (y / 60 - x / 60)) by ring. eapply Rle_trans; [apply Rabs_triang|]. lra. }
  replace (rnd (y / 60) - x / 60) with ((rnd (y / 60) - y / 60) + (y / 60 - x / 60)) by ring. eapply Rle_trans; [apply Rabs_triang|].
  pose proof (Rabs_pos (x / 60)). set (q := Rabs (x / 60)) in *.
  assert (E1 : u * Rabs (y / 60) <= u * (q + (u * q + eta / 60))) by (apply Rmult_le_compat_l; assumption).
  assert (E2 : u * (u * q) <= 1 * (u * q)) by (apply Rmult_le_compat_r; [apply Rmult_le_pos; assumption|assumption]).
  assert (E3 : u * (eta / 60) <= 1 * (eta / 60)) by (apply Rmult_le_compat_r; lra). lra.
Qed.
(** One tenth is not a double: the coordinate of G1 X0.1 is not 0.1. *)
Lemma tenth_no_double : ~ double (1 / 10).
Proof.
  intros (m & e & _ & _ & H).
  assert (P5 : forall k, (2 ^ Z.of_nat k mod 5 <> 0)%Z).
  { assert (Q : forall k, (let r := 2 ^ Z.of_nat k mod 5 in r = 1 \/ r = 2 \/ r = 3 \/ r = 4)%Z).
    { induction k as [|k IH]; [left; reflexivity|]. cbn zeta in *. rewrite Nat2Z.inj_succ, Z.pow_succ_r by lia. rewrite Z.mul_mod by lia.
      destruct IH as [E|[E|[E|E]]]; rewrite E; cbv; auto. }
    intros k E. specialize (Q k). cbn zeta in Q. lia. }
  destruct (Z_le_gt_dec 0 e) as [L|G].
  - rewrite pow2_Z, <- mult_IZR in H by lia. set (z := (m * 2 ^ e)%Z) in *. assert (E : IZR (10 * z) = IZR 1) by (rewrite mult_IZR; lra). apply eq_IZR in E. lia.
  - assert (E : IZR (10 * m) = IZR (2 ^ (- e))).
    { rewrite mult_IZR, <- pow2_Z by lia. pose proof (pow2_pos e). assert (I : powerRZ 2 (- e) * powerRZ 2 e = 1) by (rewrite <- pow2_add; replace (- e + e)%Z with 0%Z by lia; reflexivity).
      apply Rmult_eq_reg_r with (powerRZ 2 e); [|lra]. rewrite I. lra. }
    apply eq_IZR in E. apply (P5 (Z.to_nat (- e))). rewrite Z2Nat.id by lia. rewrite <- E. replace (10 * m)%Z with (2 * m * 5)%Z by ring. apply Z.mod_mul. lia.
Qed.
Theorem C104_tenth : binary64 (1 / 10) <> 1 / 10.
Proof. intros H. apply tenth_no_double. rewrite <- H. apply binary64_double. Qed.
(** Relative extrusion with resets, as slicers write it. *)
Example C104_case : exists ls sts sts', read_gcode_to_dict_list [S_ "M83"; S_ "G1 X0.1 E0.1"; S_ "G1 X0.2 E0.1"; S_ "G92 E0"; S_ "G1 X0.3 E0.1"] = Ok ls /\
  Forall g92_zero ls /\ Forall (words_within 1000) ls /\
  dict_list_traveler Rops ls (default_setup Rops) = Ok sts /\ Forall (within 1000) sts /\
  dict_list_traveler (Fops binary64) ls (float_setup binary64 (default_setup Rops)) = Ok sts' /\
  exists s, nth_error sts 5 = Some s /\ coordR AE s = 3 / 10.
Proof.
  assert (H : exists ls sts, read_gcode_to_dict_list [S_ "M83"; S_ "G1 X0.1 E0.1"; S_ "G1 X0.2 E0.1"; S_ "G92 E0"; S_ "G1 X0.3 E0.1"] = Ok ls /\
    Forall g92_zero ls /\ Forall (words_within 1000) ls /\ dict_list_traveler Rops ls (default_setup Rops) = Ok sts /\ Forall (within 1000) sts /\
    exists s, nth_error sts 5 = Some s /\ coordR AE s = 3 / 10).
  { eexists. eexists. split; [vm_compute; reflexivity|].
    split; [repeat first [apply Forall_nil | apply Forall_cons]; intros [] lf H; try discriminate H; injection H as <-; exists 0%Z; reflexivity|].
    split.
    { repeat first [apply Forall_nil | apply Forall_cons]; intros cmd a lf x [<-|[<-|[]]] H (m & e & El & ->); destruct a; try discriminate H; injection H as <-; injection El as <- <-;
        cbn; rewrite Rabs_right; lra. }
    split; [run_r|]. split.
    { repeat first [apply Forall_nil | apply Forall_cons]; intros []; cbn; rewrite Rabs_right; lra. }
    eexists. split; [reflexivity|]. cbn. lra. }
  destruct H as (ls & sts & H1 & H2 & H3 & H4 & H5 & H6). destruct (C104_words binary64 ls (default_setup Rops)) as (_ & W & _).
  destruct (W sts H4) as (sts' & W1 & _). exists ls, sts, sts'. auto 10.
Qed.

Print Assumptions C104_nearest_double.
Print Assumptions C104_ties_to_even.
Print Assumptions C104_relative_error.
Print Assumptions C104_words.
Print Assumptions C104_absolute.
Print Assumptions C104_error.
Print Assumptions C104_doubles.
Print Assumptions C104_absolute_text.
Print Assumptions C104_feed.
Print Assumptions C104_tenth.
