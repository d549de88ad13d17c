(** Lemmas for C117: the text of a float is read as the number of its digits. *)
From Coq Require Import Reals ZArith SpecFloat List Lia Lra.
From Verif Require Import Py StrFacts PyFloat SpecRead LineProofs StateGen Rounding Generic SpecIEEE Repr ReprProofs.
Import ListNotations.
Open Scope Z_scope.

Lemma fold_decimal ds : forall acc, fold_left (fun a d => (10 * a + Z.of_nat d)%Z) ds acc = acc * 10 ^ Z.of_nat (length ds) + decimal ds.
Proof.
  unfold decimal. induction ds as [|d ds IH]; intros acc; cbn [fold_left length]; [change (10 ^ Z.of_nat 0) with 1; lia|]. rewrite (IH (10 * acc + _)), (IH (10 * 0 + _)). rewrite Nat2Z.inj_succ, Z.pow_succ_r by lia. ring.
Qed.
Lemma decimal_app a b : decimal (a ++ b) = decimal a * 10 ^ Z.of_nat (length b) + decimal b.
Proof. unfold decimal at 1. rewrite fold_left_app. fold (decimal a). apply fold_decimal. Qed.
Lemma decimal_zeros n : decimal (repeat 0%nat n) = 0.
Proof. induction n as [|n IH]; [reflexivity|]. change (repeat 0%nat (S n)) with ([0%nat] ++ repeat 0%nat n). rewrite decimal_app, IH. reflexivity. Qed.
Notation small := (Forall (fun d => (d < 10)%nat)).
Lemma digit_list_spec : forall f n acc, (1 <= f)%nat -> 0 <= n < 10 ^ Z.of_nat f -> exists ds, digit_list f n acc = ds ++ acc /\ decimal ds = n /\ small ds /\ (1 <= length ds <= f)%nat.
Proof.
  induction f as [|f IH]; intros n acc F N; [lia|]. cbn [digit_list]. destruct (Z.ltb_spec n 10) as [L|L].
  - exists [Z.to_nat n]. split; [reflexivity|]. split; [cbn; lia|]. split; [constructor; [lia|constructor]|cbn; lia].
  - rewrite Nat2Z.inj_succ, Z.pow_succ_r in N by lia. assert (F1 : (1 <= f)%nat) by (destruct f; [cbn in N; lia|lia]).
    assert (N1 : 0 <= n / 10 < 10 ^ Z.of_nat f) by (split; [apply Z.div_pos; lia|apply Z.div_lt_upper_bound; lia]). pose proof (Z.div_mod n 10). pose proof (Z.mod_pos_bound n 10).
    destruct (IH (n / 10) (Z.to_nat (n mod 10) :: acc) F1 N1) as (ds & E & D & S & Ln). exists (ds ++ [Z.to_nat (n mod 10)]). split; [rewrite E, <- app_assoc; reflexivity|]. split; [rewrite decimal_app, D; cbn; lia|].
    split; [apply Forall_app; split; [exact S|constructor; [lia|constructor]]|]. rewrite app_length. cbn. lia.
Qed.
Lemma digit_facts d : (d < 10)%nat -> is_space (digit_char d) = false /\ is_digit (digit_char d) = true /\ digit_char d <> "_"%char /\ sign_of [digit_char d] = (1, [digit_char d]) /\ lower (digit_char d) <> "i"%char /\ lower (digit_char d) <> "n"%char.
Proof. intros H. do 10 (destruct d as [|d]; [repeat split; reflexivity || discriminate|]). lia. Qed.
Lemma text_digits ds : text_of ds = map digit_char ds. Proof. reflexivity. Qed.
(** a sign in front *)
Definition sgn (s : bool) : str := if s then S_ "-" else [].
Lemma sign_body (s : bool) d body : (d < 10)%nat -> forallb (fun c => negb (is_space c)) body = true ->
  py_float (sgn s ++ digit_char d :: body) = match unsigned (digit_char d :: body) with Some (Dec m e) => Some (Dec ((if s then -1 else 1) * m) e) | r => r end.
Proof.
  intros D B. unfold py_float. destruct (digit_facts d D) as (Sp & _ & _ & Sg & _). rewrite strip_id.
  - assert (E : sign_of (sgn s ++ digit_char d :: body) = ((if s then -1 else 1), digit_char d :: body)).
    { destruct s; [reflexivity|]. cbn [sgn app]. unfold sign_of in *. destruct (aeqb (digit_char d) "-"%char); [discriminate|]. destruct (aeqb (digit_char d) "+"%char); [discriminate|]. reflexivity. }
    rewrite E. reflexivity.
  - destruct s; cbn [sgn S_ list_ascii_of_string app forallb]; rewrite ?Sp, ?B; reflexivity.
Qed.
(** digits, a point and an exponent *)
Lemma exponent_reads x : -9999 <= x <= 9999 -> PyFloat.exponent ("e"%char :: exponent_text x) = Some x.
Proof.
  intros R. unfold exponent_text. assert (A : 0 <= Z.abs x < 10 ^ Z.of_nat 4) by (change (10 ^ Z.of_nat 4) with 10000; lia). destruct (digit_list_spec 4 (Z.abs x) [] ltac:(lia) A) as (ds & E & D & S & Ln). rewrite app_nil_r in E. rewrite E. cbv zeta.
  set (ds' := match ds with [d] => [0%nat; d] | _ => ds end). assert (D' : decimal ds' = Z.abs x /\ small ds' /\ (1 <= length ds')%nat).
  { unfold ds'. destruct ds as [|d [|d' r]]; [cbn in Ln; lia| |split; [exact D|split; [exact S|cbn; lia]]]. split; [rewrite <- D; unfold decimal; cbn [fold_left]; lia|]. split; [constructor; [lia|exact S]|cbn; lia]. }
  destruct D' as (D1 & S1 & L1). unfold PyFloat.exponent. change (aeqb (lower "e"%char) "e"%char) with true. cbv iota.
  assert (Sg : sign_of ((if x <? 0 then S_ "-" else S_ "+") ++ text_of ds') = ((if x <? 0 then -1 else 1), text_of ds')) by (destruct (x <? 0); reflexivity). rewrite Sg.
  assert (Dg : digits 0 0 (text_of ds') = (decimal ds', length ds', [])). { rewrite text_digits, <- (app_nil_r (map _ _)), digits_run; [|exact S1|exact I]. reflexivity. }
  rewrite Dg, D1. rewrite (proj2 (Nat.ltb_lt 0 (length ds'))) by lia. cbv iota. f_equal. destruct (Z.ltb_spec x 0); lia.
Qed.
Lemma exponent_plain x : forallb (fun c => negb (is_space c)) (exponent_text x) = true.
Proof.
  unfold exponent_text. rewrite forallb_app. apply andb_true_intro. split; [destruct (x <? 0); reflexivity|]. cbv zeta.
  assert (G : forall n f acc, forallb (fun c => negb (is_space c)) (text_of acc) = true -> 0 <= n -> forallb (fun c => negb (is_space c)) (text_of (digit_list f n acc)) = true).
  { intros n f. revert n. induction f as [|f IH]; intros n acc A N; cbn [digit_list]; [exact A|]. destruct (Z.ltb_spec n 10) as [L|L].
    - change (text_of (Z.to_nat n :: acc)) with (digit_char (Z.to_nat n) :: text_of acc). cbn [forallb]. destruct (digit_facts (Z.to_nat n) ltac:(lia)) as [-> _]. exact A.
    - apply IH; [|apply Z.div_pos; lia]. change (text_of (?d :: acc)) with (digit_char d :: text_of acc). cbn [text_of map forallb]. pose proof (Z.mod_pos_bound n 10). destruct (digit_facts (Z.to_nat (n mod 10)) ltac:(lia)) as [Sp _]. change (digit_text (Z.to_nat (n mod 10))) with (digit_char (Z.to_nat (n mod 10))). rewrite Sp. exact A. }
  specialize (G (Z.abs x) 4%nat [] eq_refl ltac:(lia)). destruct (digit_list 4 (Z.abs x) []) as [|d [|d' r]]; [exact G| |exact G]. cbn [text_of map forallb] in *. exact G.
Qed.
Lemma plain_digits ds : small ds -> forallb (fun c => negb (is_space c)) (map digit_char ds) = true.
Proof. induction 1 as [|d r D _ IH]; [reflexivity|]. cbn [map forallb]. destruct (digit_facts d D) as [-> _]. exact IH. Qed.
Lemma not_word d r : (d < 10)%nat -> str_eqb (map lower (digit_char d :: r)) (S_ "inf") || str_eqb (map lower (digit_char d :: r)) (S_ "infinity") || str_eqb (map lower (digit_char d :: r)) (S_ "nan") = false.
Proof.
  intros D. destruct (digit_facts d D) as (_ & _ & _ & _ & I & N). cbn [map S_ list_ascii_of_string str_eqb]. destruct (aeqb_spec (lower (digit_char d)) "i"%char); [contradiction|]. destruct (aeqb_spec (lower (digit_char d)) "n"%char); [contradiction|]. reflexivity.
Qed.
Lemma point_value s d r f : small (d :: r) -> small f -> py_float (sgn s ++ map digit_char (d :: r) ++ "."%char :: map digit_char f) = Some (Dec ((if s then -1 else 1) * decimal ((d :: r) ++ f)) (- Z.of_nat (length f))).
Proof.
  intros D F. inversion D as [|? ? D1 D2]; subst. cbn [map app]. rewrite sign_body; [|exact D1|rewrite forallb_app; cbn [forallb]; rewrite !plain_digits by assumption; reflexivity].
  unfold unsigned. rewrite not_word by exact D1. change (digit_char d :: map digit_char r ++ "."%char :: map digit_char f) with (map digit_char (d :: r) ++ "."%char :: map digit_char f).
  rewrite digits_run; [|exact D|split; [reflexivity|discriminate]]. cbv iota beta. change (aeqb "."%char "."%char) with true. cbv iota.
  rewrite <- (app_nil_r (map digit_char f)), digits_run; [|exact F|exact I]. cbn [PyFloat.exponent length]. rewrite (proj2 (Nat.ltb_lt 0 _)) by lia. cbv iota.
  change (d :: r ++ f) with ((d :: r) ++ f). unfold decimal. rewrite fold_left_app. reflexivity.
Qed.
Lemma power_value s d r x : small (d :: r) -> -9999 <= x <= 9999 ->
  py_float (sgn s ++ digit_char d :: (match r with [] => [] | _ => "."%char :: map digit_char r end) ++ "e"%char :: exponent_text x) = Some (Dec ((if s then -1 else 1) * decimal (d :: r)) (x - Z.of_nat (length r))).
Proof.
  intros D R. inversion D as [|? ? D1 D2]; subst. rewrite sign_body; [|exact D1|].
  2:{ rewrite forallb_app. cbn [forallb]. rewrite exponent_plain. destruct r as [|d' r']; [reflexivity|]. cbn [forallb]. rewrite (plain_digits _ D2). reflexivity. }
  unfold unsigned. rewrite not_word by exact D1. destruct r as [|d' r'].
  - cbn [app]. change (digit_char d :: "e"%char :: exponent_text x) with (map digit_char [d] ++ "e"%char :: exponent_text x). rewrite digits_run; [|exact D|split; [reflexivity|discriminate]]. cbv iota beta. change (aeqb "e"%char "."%char) with false. cbv iota.
    cbn [length]. change (0 <? 0 + 1)%nat with true. cbv iota. rewrite exponent_reads by exact R. cbn [length]. rewrite Z.sub_0_r. reflexivity.
  - change (digit_char d :: ("."%char :: map digit_char (d' :: r')) ++ "e"%char :: exponent_text x) with (map digit_char [d] ++ "."%char :: (map digit_char (d' :: r') ++ "e"%char :: exponent_text x)).
    rewrite digits_run; [|constructor; [exact D1|constructor]|split; [reflexivity|discriminate]]. cbv iota beta. change (aeqb "."%char "."%char) with true. cbv iota.
    rewrite digits_run; [|exact D2|split; [reflexivity|discriminate]]. rewrite exponent_reads by exact R. cbn [length]. rewrite (proj2 (Nat.ltb_lt 0 _)) by lia. cbv iota. reflexivity.
Qed.
(** * The format *)
Lemma format_value s ds decpt : small ds -> ds <> [] -> -9000 <= decpt <= 9000 ->
  exists m e, py_float (sgn s ++ format_short ds decpt) = Some (Dec ((if s then -1 else 1) * m) e) /\ (IZR m * powerRZ 10 e = IZR (decimal ds) * powerRZ 10 (decpt - Z.of_nat (length ds)))%R.
Proof.
  intros S N R. unfold format_short. destruct ((decpt <=? -4) || (16 <? decpt)).
  - destruct ds as [|d r]; [congruence|]. exists (decimal (d :: r)), (decpt - 1 - Z.of_nat (length r)). split; [apply (power_value s d r (decpt - 1) S); lia|]. do 2 f_equal. cbn [length]. lia.
  - destruct (Z.leb_spec decpt 0) as [L|L].
    + exists (decimal (0%nat :: zeros (- decpt) ++ ds)), (- Z.of_nat (length (zeros (- decpt) ++ ds))).
      split; [apply (point_value s 0%nat [] (zeros (- decpt) ++ ds)); [constructor; [lia|constructor]|]|].
      * apply Forall_app. split; [|exact S]. unfold zeros. apply Forall_forall. intros d I. apply repeat_spec in I. subst. lia.
      * f_equal; [f_equal; change (0%nat :: zeros (- decpt) ++ ds) with (repeat 0%nat 1 ++ (zeros (- decpt) ++ ds)); unfold zeros; rewrite app_assoc, <- repeat_app, decimal_app, decimal_zeros; reflexivity|f_equal]. rewrite app_length. unfold zeros. rewrite repeat_length. lia.
    + destruct (Z.ltb_spec decpt (Z.of_nat (length ds))) as [G|G].
      * pose proof (firstn_skipn (Z.to_nat decpt) ds) as FS. assert (Lf : length (firstn (Z.to_nat decpt) ds) = Z.to_nat decpt) by (apply firstn_length_le; lia).
        assert (Ls : length (skipn (Z.to_nat decpt) ds) = (length ds - Z.to_nat decpt)%nat) by apply skipn_length.
        rewrite <- FS in S. apply Forall_app in S. destruct S as [S1 S2]. destruct (firstn (Z.to_nat decpt) ds) as [|d r] eqn:E; [cbn in Lf; lia|].
        exists (decimal ds), (- Z.of_nat (length (skipn (Z.to_nat decpt) ds))). split; [rewrite <- FS at 2; rewrite !text_digits; apply point_value; assumption|]. do 2 f_equal. rewrite Ls. lia.
      * destruct ds as [|d r]; [congruence|]. set (z := zeros (decpt - Z.of_nat (length (d :: r)))). exists (decimal (((d :: r) ++ z) ++ [0%nat])), (- Z.of_nat 1).
        split.
        -- apply (point_value s d (r ++ z) [0%nat]); [|constructor; [lia|constructor]]. change (d :: r ++ z) with ((d :: r) ++ z). apply Forall_app. split; [exact S|]. unfold z, zeros. apply Forall_forall. intros c I. apply repeat_spec in I. subst. lia.
        -- rewrite !decimal_app. unfold z, zeros. rewrite decimal_zeros, repeat_length. set (n := decpt - Z.of_nat (length (d :: r))) in *. rewrite Z2Nat.id by lia. change (decimal [0%nat]) with 0. change (10 ^ Z.of_nat (length [0%nat])) with 10. rewrite !Z.add_0_r, !mult_IZR, <- t10_Z by lia.
           change (powerRZ 10 (- Z.of_nat 1)) with (/ (10 * 1))%R. field.
Qed.
