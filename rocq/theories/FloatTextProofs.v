(** The text of a program, read with rounded numbers. *)
From Coq Require Import Reals Lra Lia.
From Verif Require Import Py PyFloat Parser StateGen SpecMachine SpecRead SpecSlicer Vec Segment Junction Planner Generic RealFacts SpecKin SpecTime
  SpecStopText StrFacts ReadFacts ReadReals SlicerProofs FloatMoveProofs FloatDriftProofs.
Open Scope R_scope.
Local Arguments S_ : simpl never.

Section Read.
Variable rnd : R -> R.
Hypothesis r0 : rnd 0 = 0.
Hypothesis r60 : rnd 60 = 60.
Hypothesis r1000 : rnd 1000 = 1000.
Hypothesis idem : forall x, rnd (rnd x) = rnd x.
(** the error of a number of the size of a printer *)
Variable dl : R.
Hypothesis dl0 : 0 <= dl <= / 100000000000.
Hypothesis small : forall x, Rabs x <= 20000 -> Rabs (rnd x - x) <= dl.
Notation k := (Bk rnd).
Notation N := (knum k).

(** A feed rate as the code computes it from its text, or one of the setup *)
Definition feed_like (v f : R) : Prop := v = rnd f \/ v = rnd (rnd (f * 60) / 60).
(** The extruder: [c] and [o] are the numbers of the code, whose sum is the
    position; [d] is how far it is off. *)
Definition e_is (d : R) (h : head) (c o : R) : Prop :=
  rnd c = c /\ rnd o = o /\ Rabs (h_pos h AE) <= 9000 /\ Rabs (h_zero h AE) <= 9000 /\ Rabs o <= 9100 /\
  if h_abs h AE then Rabs (o - h_zero h AE) <= d /\ Rabs (c - (h_pos h AE - h_zero h AE)) <= dl
  else Rabs (c + o - h_pos h AE) <= d.
Definition vm_is (d : R) (h : head) (m : vm N) : Prop :=
  absolute_position N m = true /\ absolute_extrusion N m = h_abs h AE /\
  (forall a, a <> AE -> get_o N a m = 0 /\ get_c N a m = rnd (h_pos h a) /\ h_abs h a = true /\ h_zero h a = 0) /\
  (exists v, vm_p_vel N m = SNum (N := N) v /\ feed_like v (h_feed h)) /\
  vm_p_acc N m = SNum (N := N) (rnd (h_acc h)) /\ vm_jerk N m = SNum (N := N) (rnd (h_jerk h)) /\
  e_is d h (cE N m) (oE N m).
(** the extruder position after a line, beside that before it *)
Definition turned (h h' : head) (m m' : vm N) : Prop :=
  Rabs (rnd (cE N m' + oE N m') - rnd (cE N m + oE N m) - (h_pos h' AE - h_pos h AE)) <= 4 * dl /\
  (spot h' = spot h -> rnd (cE N m' + oE N m') = rnd (cE N m + oE N m)).
Definition wait_like (p : option (sval N)) (w : option R) : Prop :=
  match w with
  | None => p = None
  | Some x => exists y : R, p = Some (SNum (N := N) y) /\ (y = rnd x \/ y = rnd (rnd (x * 1000) / 1000))
  end.
Lemma lit_rnd x : need_num N (LNum (lit_val x)) = Ok (rnd (lit_num x)) /\ as_sval N (LNum (lit_val x)) = Ok (SNum (N := N) (rnd (lit_num x))).
Proof.
  destruct (means_lit x) as (m & e & E & F). rewrite E. cbn [need_num as_sval]. cbn [knum n_of_dec Bk k_dec].
  replace (lit_num x) with (r_of_dec m e) by (symmetry; exact F). split; reflexivity.
Qed.
(** * The extruder *)
Lemma e_bound d h c o : 0 <= d <= / 50 -> e_is d h c o -> Rabs (c + o - h_pos h AE) <= d + dl /\ Rabs (c + o) <= 9001.
Proof.
  intros D (_ & _ & P & Z & O & E). assert (G : Rabs (c + o - h_pos h AE) <= d + dl).
  { destruct (h_abs h AE); [|lra]. destruct E as [E1 E2]. apply abs_inv in E1, E2. apply Rabs_le. lra. }
  split; [exact G|]. apply abs_inv in G, P. apply Rabs_le. lra.
Qed.
(** what an extruder word does *)
Lemma e_move d h h' c c' o x : 0 <= d <= / 100 -> e_is d h c o -> h_abs h' AE = h_abs h AE -> h_zero h' AE = h_zero h AE -> Rabs (h_pos h' AE) <= 9000 ->
  h_pos h' AE = (if h_abs h AE then h_zero h AE + x else h_pos h AE + x) -> c' = (if h_abs h AE then rnd x else rnd (c + rnd x)) ->
  e_is (d + 3 * dl) h' c' o /\ Rabs (rnd (c' + o) - rnd (c + o) - (h_pos h' AE - h_pos h AE)) <= 4 * dl.
Proof.
  intros D E Ea Ez P' Hp Hc. destruct (e_bound d h c o ltac:(lra) E) as [B1 B2]. destruct E as (Rc & Ro & P & Z & O & E).
  assert (X : Rabs x <= 18000). { apply abs_inv in P, P', Z. apply Rabs_le. destruct (h_abs h AE); lra. }
  pose proof (small x ltac:(lra)) as Sx.
  assert (Main : e_is (d + 3 * dl) h' c' o /\ Rabs (c' - c - (h_pos h' AE - h_pos h AE)) <= 2 * dl).
  { unfold e_is. rewrite Ea, Ez. destruct (h_abs h AE).
    - destruct E as [E1 E2]. split.
      + split; [rewrite Hc; apply idem|]. split; [exact Ro|]. split; [exact P'|]. split; [exact Z|]. split; [exact O|]. split; [lra|]. rewrite Hp, Hc. replace (h_zero h AE + x - h_zero h AE) with x by ring. exact Sx.
      + rewrite Hp, Hc. apply abs_inv in E2, Sx. apply Rabs_le. lra.
    - assert (Q : Rabs (c + rnd x) <= 20000). { apply abs_inv in B1, Sx, P', O. apply Rabs_le. lra. }
      pose proof (small _ Q) as Sq. split.
      + split; [rewrite Hc; apply idem|]. split; [exact Ro|]. split; [exact P'|]. split; [exact Z|]. split; [exact O|]. rewrite Hp, Hc. apply abs_inv in E, Sx, Sq. apply Rabs_le. lra.
      + rewrite Hp, Hc. apply abs_inv in Sx, Sq. apply Rabs_le. lra. }
  destruct Main as [M1 M2]. split; [exact M1|]. destruct (e_bound (d + 3 * dl) h' c' o ltac:(lra) M1) as [_ B3].
  pose proof (small (c + o) ltac:(lra)) as S1. pose proof (small (c' + o) ltac:(lra)) as S2. apply abs_inv in M2, S1, S2. apply Rabs_le. lra.
Qed.
Lemma e_more d h c o : e_is d h c o -> e_is (d + 3 * dl) h c o.
Proof. intros (A & B & C & D & E & F). repeat (split; [assumption|]). destruct (h_abs h AE); lra. Qed.
(** renaming it *)
Lemma e_rename d h c o : 0 <= d <= / 100 -> e_is d h c o ->
  e_is (d + 3 * dl) (Head (h_pos h) (fun a => match a with AE => h_pos h AE | _ => h_zero h a end) (h_abs h) (h_feed h) (h_acc h) (h_jerk h)) 0 (rnd (c + o)).
Proof.
  intros D E. destruct (e_bound d h c o ltac:(lra) E) as [B1 B2]. destruct E as (Rc & Ro & P & Z & O & E). pose proof (small (c + o) ltac:(lra)) as S1.
  unfold e_is. cbn [h_pos h_zero h_abs]. split; [exact r0|]. split; [apply idem|]. split; [exact P|]. split; [exact P|]. apply abs_inv in S1, B1, B2.
  split; [apply Rabs_le; lra|]. destruct (h_abs h AE).
  - split; [apply Rabs_le; lra|]. rewrite Rminus_eq_0, Rminus_0_r, Rabs_R0. lra.
  - rewrite Rplus_0_l. apply abs_inv in E. apply Rabs_le. lra.
Qed.
Section Line.
Variables (l : line_dict) (c : gcode).
Hypothesis Hs : says (ld l) c.
Lemma sub_said n ls : In (n, Some ls) documented -> sub_dict (S_ n) (ld l) =
  match keyword c with Some m => if str_eqb (S_ n) (S_ m) then Some (args_meaning (letters ls) (args_of c)) else None | None => None end.
Proof.
  intros Hd. assert (Hn : S_ n <> S_ ";").
  { clear - Hd. unfold documented in Hd. repeat (destruct Hd as [Hd|Hd]; [injection Hd as <- E; try discriminate E; discriminate|]). destruct Hd. }
  unfold sub_dict. rewrite (Hs _ Hn). destruct (keyword c) as [m|]; [|reflexivity]. destruct (str_eqb_spec (S_ n) (S_ m)) as [E|E]; [|reflexivity].
  assert (n = m). { rewrite <- (string_of_list_ascii_of_string n), <- (string_of_list_ascii_of_string m). f_equal. exact E. }
  subst m. unfold entry. rewrite (table_found _ _ Hd). reflexivity.
Qed.
Lemma dmem_said n : S_ n <> S_ ";" -> dmem (S_ n) (ld l) = match keyword c with Some m => str_eqb (S_ n) (S_ m) | None => false end.
Proof. intros Hn. unfold dmem. rewrite (Hs _ Hn). destruct (keyword c) as [m|]; [|reflexivity]. destruct (str_eqb (S_ n) (S_ m)); reflexivity. Qed.
(** one line *)
Ltac skipped := match goal with H : In ?n _ |- _ => let Q := fresh "Q" in pose proof H as Q; cbn [In] in Q;
  destruct Q as [Q|[Q|[Q|[Q|[Q|[Q|[]]]]]]]; subst n end.
Ltac key_in := repeat (first [left; reflexivity | right]).
Lemma axis_read args b a m : do_axis N b a (args_meaning (letters "EXYZF") args) m =
  Ok (match lookup_arg (S_ (letter a)) args with None => m | Some x => set_c N a (if b then rnd (lit_num x) else rnd (get_c N a m + rnd (lit_num x))) m end).
Proof.
  unfold do_axis. rewrite args_meaning_dget; [|destruct a; key_in|apply (letters_nodup "G1"); key_in]. replace (axis_key a) with (S_ (letter a)) by (destruct a; reflexivity).
  destruct (lookup_arg (S_ (letter a)) args) as [x|]; [|reflexivity]. cbn [option_map]. rewrite (proj1 (lit_rnd x)). reflexivity.
Qed.
Lemma move_read n b args m h d : 0 <= d <= / 100 -> Rabs (h_pos (obey (Move b args) h) AE) <= 9000 -> (spot (obey (Move b args) h) = spot h -> arg "E" args = None) ->
  sub_dict (S_ n) (ld l) = Some (args_meaning (letters "EXYZF") args) -> vm_is d h m ->
  exists m', do_move N (S_ n) (ld l) m = Ok m' /\ vm_is (d + 3 * dl) (obey (Move b args) h) m' /\ turned h (obey (Move b args) h) m m'.
Proof.
  intros Hd P' Quiet E (Ap & Ae & Ha & (v & Ev & Hv) & Eacc & Ej & He). unfold do_move. rewrite E.
  rewrite Ap, axis_read. cbn [bind].
  match goal with |- context[do_axis N (absolute_position N ?q) AY] => assert (P1 : absolute_position N q = true) by (destruct (lookup_arg (S_ (letter AX)) args); exact Ap); rewrite P1, axis_read; cbn [bind]; set (m1 := q) in * end.
  match goal with |- context[do_axis N (absolute_position N ?q) AZ] => assert (P2 : absolute_position N q = true) by (destruct (lookup_arg (S_ (letter AY)) args); exact P1); rewrite P2, axis_read; cbn [bind]; set (m2 := q) in * end.
  match goal with |- context[do_axis N (absolute_extrusion N ?q) AE] => assert (P3 : absolute_extrusion N q = h_abs h AE) by (unfold m2, m1; destruct (lookup_arg (S_ (letter AX)) args), (lookup_arg (S_ (letter AY)) args), (lookup_arg (S_ (letter AZ)) args); exact Ae); rewrite P3, axis_read; cbn [bind]; set (m3 := q) in * end.
  set (m4 := match lookup_arg (S_ (letter AE)) args with Some x => _ | None => m3 end).
  assert (G : absolute_position N m4 = true /\ absolute_extrusion N m4 = h_abs h AE /\ vm_p_vel N m4 = vm_p_vel N m /\ vm_p_acc N m4 = vm_p_acc N m /\ vm_jerk N m4 = vm_jerk N m /\
    (forall a, a <> AE -> get_o N a m4 = get_o N a m /\ get_c N a m4 = match lookup_arg (S_ (letter a)) args with Some x => rnd (lit_num x) | None => get_c N a m end) /\
    oE N m4 = oE N m /\ cE N m4 = match lookup_arg (S_ "E") args with Some x => if h_abs h AE then rnd (lit_num x) else rnd (cE N m + rnd (lit_num x)) | None => cE N m end).
  { unfold m4, m3, m2, m1. change (S_ "E") with (S_ (letter AE)). destruct (lookup_arg (S_ (letter AX)) args) eqn:E1, (lookup_arg (S_ (letter AY)) args) eqn:E2, (lookup_arg (S_ (letter AZ)) args) eqn:E3, (lookup_arg (S_ (letter AE)) args) eqn:E4;
      (split; [exact Ap|]; split; [exact Ae|]; do 3 (split; [reflexivity|]); split; [|split; reflexivity]; intros [] Na; try (exfalso; apply Na; reflexivity); (split; [reflexivity|]); rewrite ?E1, ?E2, ?E3; reflexivity). }
  destruct G as (G1 & G2 & G3 & G4 & G5 & G6 & G7 & G8).
  assert (Pos : forall a, a <> AE -> get_o N a m4 = 0 /\ get_c N a m4 = rnd (h_pos (obey (Move b args) h) a) /\ h_abs (obey (Move b args) h) a = true /\ h_zero (obey (Move b args) h) a = 0).
  { intros a Na. destruct (Ha a Na) as (O & C & B & Z). destruct (G6 a Na) as [G9 G10]. rewrite G9, G10. split; [exact O|]. cbn [obey h_pos h_abs h_zero]. split; [|split; [exact B|exact Z]].
    unfold arg. destruct (lookup_arg (S_ (letter a)) args) as [x|]; cbn [option_map]; [|exact C]. rewrite B, Z, Rplus_0_l. reflexivity. }
  assert (Ext : e_is (d + 3 * dl) (obey (Move b args) h) (cE N m4) (oE N m4) /\ turned h (obey (Move b args) h) m m4).
  { unfold turned. rewrite G7, G8. destruct (lookup_arg (S_ "E") args) as [x|] eqn:Ee.
    - assert (Hx : h_pos (obey (Move b args) h) AE = if h_abs h AE then h_zero h AE + lit_num x else h_pos h AE + lit_num x).
      { cbn [obey h_pos]. unfold arg. change (S_ (letter AE)) with (S_ "E"). rewrite Ee. reflexivity. }
      destruct (e_move d h (obey (Move b args) h) (cE N m) _ (oE N m) (lit_num x) Hd He eq_refl eq_refl P' Hx eq_refl) as [X1 X2].
      split; [exact X1|]. split; [exact X2|]. intros Q. specialize (Quiet Q). unfold arg in Quiet. rewrite Ee in Quiet. discriminate Quiet.
    - assert (Hx : h_pos (obey (Move b args) h) AE = h_pos h AE). { cbn [obey h_pos]. unfold arg. change (S_ (letter AE)) with (S_ "E"). rewrite Ee. reflexivity. }
      split; [|split; [|reflexivity]].
      + apply e_more in He. unfold e_is in *. rewrite Hx. exact He.
      + rewrite Hx, !Rminus_eq_0, Rabs_R0. lra. }
  destruct Ext as [X1 X2].
  rewrite args_meaning_dget; [|key_in|apply (letters_nodup "G1"); key_in].
  destruct (lookup_arg (S_ "F") args) as [x|] eqn:Ef; cbn [option_map].
  - rewrite (proj1 (lit_rnd x)). cbn [bind]. eexists. split; [reflexivity|]. split; [|exact X2]. unfold vm_is. split; [exact G1|]. split; [exact G2|]. split; [|split; [|split; [|split]]].
    + intros a Na. specialize (Pos a Na). destruct a; exact Pos.
    + eexists. split; [reflexivity|]. right. cbn [obey h_feed]. unfold arg. rewrite Ef. cbn [option_map]. cbn [knum n_div Bk k_div].
      replace (k_dec k 60 0) with 60 by (cbn [Bk k_dec]; replace (r_of_dec 60 0) with 60 by (unfold r_of_dec; cbn; lra); rewrite r60; reflexivity). f_equal. f_equal. f_equal. field.
    + cbn [set_dyn vm_p_acc obey h_acc]. rewrite G4. exact Eacc.
    + cbn [set_dyn vm_jerk obey h_jerk]. rewrite G5. exact Ej.
    + exact X1.
  - eexists. split; [reflexivity|]. split; [|exact X2]. unfold vm_is. split; [exact G1|]. split; [exact G2|]. split; [exact Pos|]. rewrite G3, G4, G5. cbn [obey h_feed h_acc h_jerk]. unfold arg at 1. rewrite Ef. cbn [option_map].
    split; [exists v; split; [exact Ev|exact Hv]|]. split; [exact Eacc|]. split; [exact Ej|exact X1].
Qed.
Lemma limits_read args h d : forall ks m, vm_is d h m -> exists m', do_m203 N (args_meaning ks args) m = Ok m' /\ vm_is d h m' /\ cE N m' = cE N m /\ oE N m' = oE N m.
Proof.
  induction ks as [|q ks IH]; intros m Hm; [exists m; split; [reflexivity|split; [exact Hm|split; reflexivity]]|]. unfold args_meaning. cbn [flat_map]. fold (args_meaning ks args).
  destruct (lookup_arg q args) as [x|]; [|exact (IH m Hm)]. cbn [app do_m203]. destruct (axis_of_key q) as [a|]; [|exact (IH m Hm)].
  rewrite (proj2 (lit_rnd x)). cbn [bind]. destruct (IH (set_v N a (SNum (N := N) (rnd (lit_num x))) m) Hm) as (m' & E & H1 & H2 & H3). exists m'. auto.
Qed.
Lemma turned_same h h' m m' : h_pos h' AE = h_pos h AE -> cE N m' = cE N m -> oE N m' = oE N m -> turned h h' m m'.
Proof. intros A B C. unfold turned. rewrite A, B, C, !Rminus_eq_0, Rabs_R0. split; [lra|reflexivity]. Qed.
Lemma vm_more d h m : vm_is d h m -> vm_is (d + 3 * dl) h m.
Proof. intros (A & B & C & D & E & F & G). repeat (split; [assumption|]). apply e_more, G. Qed.
Lemma g92_read args m h d : 0 <= d <= / 100 -> arg "X" args = None -> arg "Y" args = None -> arg "Z" args = None -> (forall k x, arg k args = Some x -> x = 0) -> vm_is d h m ->
  exists m', do_g92 N (args_meaning (letters "EXYZ") args) m = Ok m' /\ vm_is (d + 3 * dl) (obey (Rename args) h) m' /\ turned h (obey (Rename args) h) m m'.
Proof.
  intros Hd X Y Z Zero (Ap & Ae & Ha & F & Eacc & Ej & He).
  assert (NX : forall q, arg q args = None -> lookup_arg (S_ q) args = None) by (intros q; unfold arg; destruct (lookup_arg (S_ q) args); [discriminate|reflexivity]).
  unfold args_meaning, letters. cbn [list_ascii_of_string map flat_map]. change ["X"%char] with (S_ "X"). change ["Y"%char] with (S_ "Y"). change ["Z"%char] with (S_ "Z"). change ["E"%char] with (S_ "E").
  rewrite (NX _ X), (NX _ Y), (NX _ Z). cbn [app].
  destruct (lookup_arg (S_ "E") args) as [x|] eqn:Ee; cbn [app do_g92].
  - change (axis_of_key (S_ "E")) with (Some AE). cbv iota beta. rewrite (proj1 (lit_rnd x)). cbn [bind]. assert (x0 : lit_num x = 0) by (apply (Zero "E"%string); unfold arg; rewrite Ee; reflexivity).
    rewrite x0, r0. eexists. split; [reflexivity|].
    pose proof (e_rename d h (cE N m) (oE N m) Hd He) as Er. destruct He as (Rc & Ro & He).
    cbn [knum n_add Bk k_add get_c get_o]. rewrite Rplus_0_r, Rc.
    split.
    + split; [exact Ap|]. split; [exact Ae|]. split; [|split; [exact F|split; [exact Eacc|split; [exact Ej|]]]].
      * intros a Na. destruct (Ha a Na) as (O & C & B & W). cbn [obey h_pos h_abs h_zero].
        replace (match arg (letter a) args with Some y => h_pos h a - y | None => h_zero h a end) with (h_zero h a) by (destruct a; cbn [letter]; rewrite ?X, ?Y, ?Z; try reflexivity; exfalso; apply Na; reflexivity).
        destruct a; try (exfalso; apply Na; reflexivity); repeat split; assumption.
      * unfold e_is in *. cbn [obey h_pos h_abs h_zero letter set_c set_o cE oE] in *. unfold arg. change (S_ (letter AE)) with (S_ "E") in *. rewrite Ee. cbn [option_map]. rewrite x0, Rminus_0_r. exact Er.
    + unfold turned. cbn [set_c set_o cE oE obey h_pos]. rewrite Rplus_0_l, idem, !Rminus_eq_0, Rabs_R0. split; [lra|reflexivity].
  - exists m. split; [reflexivity|]. split; [|apply turned_same; reflexivity]. split; [exact Ap|]. split; [exact Ae|]. split; [|split; [exact F|split; [exact Eacc|split; [exact Ej|]]]].
    + intros a Na. destruct (Ha a Na) as (O & C & B & W). cbn [obey h_pos h_abs h_zero].
      replace (match arg (letter a) args with Some y => h_pos h a - y | None => h_zero h a end) with (h_zero h a) by (destruct a; cbn [letter]; rewrite ?X, ?Y, ?Z; try reflexivity; exfalso; apply Na; reflexivity).
      repeat split; assumption.
    + apply e_more in He. unfold e_is in *. cbn [obey h_pos h_abs h_zero letter] in *. unfold arg. rewrite Ee. exact He.
Qed.
Lemma line_read m h d : 0 <= d <= / 100 -> Rabs (h_pos (obey c h) AE) <= 9000 -> vm_is d h m -> sensible c -> tidy_code h c ->
  exists m' p, step_vm N (ld l) m = Ok (m', p) /\ vm_is (d + 3 * dl) (obey c h) m' /\ wait_like p (rest_of c) /\ turned h (obey c h) m m'.
Proof.
  intros Hd P' Hm Hok Hab.
  pose proof (sub_said "G0" "EXYZF" ltac:(key_in)) as S0. pose proof (sub_said "G1" "EXYZF" ltac:(key_in)) as S1.
  pose proof (sub_said "G92" "EXYZ" ltac:(key_in)) as S92. pose proof (sub_said "M204" "PRST" ltac:(key_in)) as S204.
  pose proof (sub_said "M203" "EXYZ" ltac:(key_in)) as S203. pose proof (sub_said "M205" "EJSXYZ" ltac:(key_in)) as S205.
  pose proof (sub_said "G4" "PS" ltac:(key_in)) as S4.
  pose proof (dmem_said "G90" ltac:(discriminate)) as D1. pose proof (dmem_said "G91" ltac:(discriminate)) as D2.
  pose proof (dmem_said "M82" ltac:(discriminate)) as D3. pose proof (dmem_said "M83" ltac:(discriminate)) as D4.
  pose proof (dmem_said "G20" ltac:(discriminate)) as D5. pose proof (dmem_said "G21" ltac:(discriminate)) as D6.
  pose proof move_read as MR. clear Hs.
  assert (Hp : absolute_position N m = true) by apply Hm.
  unfold step_vm, do_modes, do_sub, do_dwell. rewrite D1, D2, D3, D4, D5, D6, S92, S203, S204, S205, S4. clear D1 D2 D3 D4 D5 D6 S92 S203 S204 S205 S4.
  revert MR S0 S1. set (q := ld l). clearbody q. intros MR S0 S1.
  assert (H0 : forall a u, a = true -> vm_is d h (set_modes N a (absolute_extrusion N m) u m)) by (intros a u ->; rewrite <- Hp; exact Hm).
  assert (Mid : forall m0, vm_is d h m0 -> cE N m0 = cE N m -> oE N m0 = oE N m -> forall h', h' = h -> vm_is (d + 3 * dl) h' m0 /\ wait_like None None /\ turned h h' m m0).
  { intros m0 M0 C0 O0 h' ->. split; [apply vm_more; exact M0|]. split; [reflexivity|]. apply turned_same; [reflexivity|exact C0|exact O0]. }
  destruct c as [[|] r|r|b|b| |r|r|r|r|n r|]; cbn [keyword args_of sensible rest_of tidy_code] in *; [..|skipped|]; cbn [keyword args_of] in *;
    try (destruct b); eqs.
  all: assert (NM : forall n w, sub_dict (S_ n) q = None -> do_move N (S_ n) q w = Ok w) by (intros ? ? Q; unfold do_move; rewrite Q; reflexivity).
  1: { destruct (MR "G0"%string true r _ h d Hd P' Hab S0 (H0 _ (vm_units N m) Hp)) as (m' & E & Hm' & Ht). rewrite E. cbn [bind]. rewrite (NM _ _ S1). cbn [bind].
       eexists _, _. split; [reflexivity|]. split; [exact Hm'|]. split; [reflexivity|exact Ht]. }
  all: rewrite (NM _ _ S0); cbn [bind].
  1: { destruct (MR "G1"%string false r _ h d Hd P' Hab S1 (H0 _ (vm_units N m) Hp)) as (m' & E & Hm' & Ht). rewrite E. cbn [bind].
       eexists _, _. split; [reflexivity|]. split; [exact Hm'|]. split; [reflexivity|exact Ht]. }
  all: rewrite (NM _ _ S1); cbn [bind].
  all: try (eexists _, _; split; [reflexivity|]; apply Mid; [apply H0; first [reflexivity|exact Hp]|reflexivity|reflexivity|reflexivity]).
  all: try discriminate Hab.
  all: set (m0 := set_modes N _ _ _ m).
  - rewrite !args_meaning_dget; [|key_in|apply (letters_nodup "G4"); key_in..|key_in|apply (letters_nodup "G4"); key_in].
    unfold arg. destruct (lookup_arg (S_ "P") r) as [x|], (lookup_arg (S_ "S") r) as [y|]; cbn [option_map];
      rewrite ?(proj1 (lit_rnd _)), ?(proj2 (lit_rnd _)); cbn [bind]; eexists _, _; (split; [reflexivity|]); (split; [apply vm_more, H0; exact Hp|]); (split; [|apply turned_same; reflexivity]).
    + eexists. split; [reflexivity|]. left. reflexivity.
    + eexists. split; [reflexivity|]. right. cbn [knum n_div Bk k_div].
      replace (k_dec k 1000 0) with 1000 by (cbn [Bk k_dec]; replace (r_of_dec 1000 0) with 1000 by (unfold r_of_dec; cbn; lra); rewrite r1000; reflexivity).
      f_equal. f_equal. f_equal. field.
    + eexists. split; [reflexivity|]. left. reflexivity.
    + reflexivity.
  - eexists _, _. split; [reflexivity|]. split; [|split; [reflexivity|apply turned_same; reflexivity]]. destruct (vm_more d h m0 (H0 true _ eq_refl)) as (A & B & C & D).
    split; [exact A|]. split; [exact B|]. split; [|exact D].
    intros a Na. destruct (C a Na) as (C1 & C2 & C3 & C4). split; [exact C1|]. split; [exact C2|]. split; [destruct a; try reflexivity; exact C3|exact C4].
  - eexists _, _. split; [reflexivity|]. split; [|split; [reflexivity|apply turned_same; reflexivity]]. specialize (Hab eq_refl). destruct (vm_more d h m Hm) as (A & B & C & F1 & F2 & F3 & E).
    split; [exact A|]. split; [reflexivity|]. split; [|split; [exact F1|split; [exact F2|split; [exact F3|]]]].
    + intros a Na. destruct (C a Na) as (C1 & C2 & C3 & C4). destruct a; try (exfalso; apply Na; reflexivity); repeat split; assumption.
    + unfold e_is in *. cbn [obey h_pos h_zero h_abs] in *. rewrite Hab in E. exact E.
  - eexists _, _. split; [reflexivity|]. split; [|split; [reflexivity|apply turned_same; reflexivity]]. destruct Hm as (A & B & C & F1 & F2 & F3 & E).
    split; [exact A|]. split; [reflexivity|]. split; [|split; [exact F1|split; [exact F2|split; [exact F3|]]]].
    + intros a Na. destruct (C a Na) as (C1 & C2 & C3 & C4). destruct a; try (exfalso; apply Na; reflexivity); repeat split; assumption.
    + destruct (e_bound d h _ _ ltac:(lra) E) as [E1 _]. destruct E as (R1 & R2 & E2 & E3 & E4 & _). unfold e_is. cbn [obey h_pos h_zero h_abs]. repeat (split; [assumption|]). cbn [m0 set_modes cE oE]. lra.
  - destruct Hab as (X & Y & Z). destruct (g92_read r m0 h d Hd X Y Z Hok (H0 _ _ Hp)) as (m' & E & Hm' & Ht). rewrite E. cbn [bind]. eexists _, _. split; [reflexivity|]. split; [exact Hm'|]. split; [reflexivity|exact Ht].
  - unfold do_m204. rewrite args_meaning_dget; [|key_in|apply (letters_nodup "M204"); key_in]. destruct (vm_more d h m0 (H0 _ _ Hp)) as (A & B & C & D & Ea & Ej & Ee).
    cbn [obey]. unfold arg. destruct (lookup_arg (S_ "P") r) as [x|]; cbn [option_map]; rewrite ?(proj2 (lit_rnd _)); cbn [bind otherwise]; eexists _, _; (split; [reflexivity|]);
      (split; [|split; [reflexivity|apply turned_same; reflexivity]]); (split; [exact A|]; split; [exact B|]; split; [exact C|]; split; [exact D|]; split; [|split; [exact Ej|exact Ee]]); [reflexivity|exact Ea].
  - unfold do_m205. rewrite args_meaning_dget; [|key_in|apply (letters_nodup "M205"); key_in]. destruct (vm_more d h m0 (H0 _ _ Hp)) as (A & B & C & D & Ea & Ej & Ee).
    cbn [obey]. unfold arg. destruct (lookup_arg (S_ "X") r) as [x|]; cbn [option_map]; rewrite ?(proj2 (lit_rnd _)); cbn [bind otherwise]; eexists _, _; (split; [reflexivity|]);
      (split; [|split; [reflexivity|apply turned_same; reflexivity]]); (split; [exact A|]; split; [exact B|]; split; [exact C|]; split; [exact D|]; split; [exact Ea|split; [|exact Ee]]); [reflexivity|exact Ej].
  - destruct (limits_read r h d (letters "EXYZ") m0 (H0 _ _ Hp)) as (m' & E & H' & Hc & Ho). rewrite E. cbn [bind]. eexists _, _. split; [reflexivity|].
    apply Mid; [exact H'|exact Hc|exact Ho|reflexivity].
Qed.
End Line.

(** whole programs *)
Definition reads (s : kstate) (t : gkstate k) : Prop :=
  (gx k (gk_pos k t) = rnd (vx (k_pos s)) /\ gy k (gk_pos k t) = rnd (vy (k_pos s)) /\ gz k (gk_pos k t) = rnd (vz (k_pos s))) /\
  feed_like (gk_speed k t) (k_speed s) /\ gk_acc k t = rnd (k_acc s) /\ gk_jerk k t = rnd (k_jerk s) /\
  match k_pause s with
  | None => gk_pause k t = None
  | Some x => exists y : R, gk_pause k t = Some y /\ (y = rnd x \/ y = rnd (rnd (x * 1000) / 1000))
  end.
Definition e_near (D : R) (s : kstate) (t : gkstate k) : Prop := Rabs (ge k (gk_pos k t) - ve (k_pos s)) <= D.
(** each state is read, and the extruder turns as it should between them *)
Fixpoint reads_on (D : R) (A : kstate) (A' : gkstate k) (states : list kstate) (ts : list (gkstate k)) : Prop :=
  match states, ts with
  | [], [] => True
  | B :: states', B' :: ts' =>
    reads B B' /\ e_near D B B' /\ Rabs (ge k (gk_pos k B') - ge k (gk_pos k A') - (ve (k_pos B) - ve (k_pos A))) <= 4 * dl /\
    (k_pos B = k_pos A -> ge k (gk_pos k B') = ge k (gk_pos k A')) /\ reads_on D B B' states' ts'
  | _, _ => False
  end.
Lemma spot_is d h m : vm_is d h m -> vm_position N m = Build_pos4 N (rnd (h_pos h AX)) (rnd (h_pos h AY)) (rnd (h_pos h AZ)) (rnd (cE N m + oE N m)).
Proof.
  intros (_ & _ & A & _). unfold vm_position.
  destruct (A AX ltac:(discriminate)) as (O1 & C1 & _), (A AY ltac:(discriminate)) as (O2 & C2 & _), (A AZ ltac:(discriminate)) as (O3 & C3 & _). cbn [get_o get_c] in *.
  rewrite O1, O2, O3, C1, C2, C3. cbn [knum n_add Bk k_add]. rewrite !Rplus_0_r, !idem. reflexivity.
Qed.
Lemma state_reads m h d p w st : vm_is d h m -> wait_like p w -> state_position st = vm_position N m -> (exists u, state_p_settings st = vm_settings N m u) -> pause st = p ->
  exists t, gto_kstate k st = Ok t /\ reads (request h w) t /\ ge k (gk_pos k t) = rnd (cE N m + oE N m).
Proof.
  intros Hm Hw E1 (u & E2) E3. pose proof (spot_is d h m Hm) as Sp. destruct Hm as (_ & _ & _ & (v & Ev & Fv) & Ea & Ej & _).
  unfold gto_kstate. rewrite E1, E2, E3, Sp. unfold vm_settings. cbn [speed p_acc jerk]. rewrite Ev, Ea, Ej. cbn [gnum_of bind px py pz pe].
  unfold reads, request. cbn [k_pos k_speed k_acc k_jerk k_pause spot vx vy vz ve]. unfold wait_like in Hw. destruct w as [x|].
  - destruct Hw as (y & -> & Y). cbn [gnum_of bind]. eexists. split; [reflexivity|]. cbn [gk_pos gk_speed gk_acc gk_jerk gk_pause gx gy gz ge]. split; [|reflexivity].
    repeat (split; [first [reflexivity|exact Fv|repeat split; reflexivity]|]). exists y. split; [reflexivity|exact Y].
  - subst p. cbn [bind]. eexists. split; [reflexivity|]. cbn [gk_pos gk_speed gk_acc gk_jerk gk_pause gx gy gz ge]. split; [|reflexivity].
    repeat (split; [first [reflexivity|exact Fv|repeat split; reflexivity]|]). reflexivity.
Qed.
Lemma travel_reads cue cs : Forall sensible cs -> forall ls m h n d D A', Forall2 (fun l c => says (ld l) c) ls cs -> tidy h cs -> vm_is d h m ->
  Forall (fun s => Rabs (ve (k_pos s)) <= 9000) (requests h cs) -> 0 <= d -> d + INR (length cs) * (3 * dl) <= D -> D <= / 100 ->
  ge k (gk_pos k A') = rnd (cE N m + oE N m) -> forall w,
  exists sts ts, travel N cue ls m n = Ok sts /\ gto_kstates k sts = Ok ts /\ reads_on (D + 2 * dl) (request h w) A' (requests h cs) ts.
Proof.
  induction 1 as [|c cs Hc _ IH]; intros ls m h n d D A' Hl Ht Hm Hb Hd Hn HD HA w; inversion Hl as [|l ? ls' ? H1 H2]; subst.
  - exists [], []. split; [reflexivity|]. split; [reflexivity|]. exact I.
  - destruct Ht as [T1 T2]. cbn [requests] in Hb. inversion Hb as [|? ? B1 B2]; subst. cbn [request k_pos spot ve] in B1. cbn [length] in Hn. rewrite S_INR in Hn.
    assert (I0 : 0 <= INR (length cs) * (3 * dl)) by (apply Rmult_le_pos; [apply pos_INR|lra]).
    destruct (line_read l c H1 m h d ltac:(lra) B1 Hm Hc T1) as (m' & p & E & Hm' & Hw & Tu1 & Tu2). cbn [travel]. rewrite E. cbn [bind].
    destruct (state_reads m' (obey c h) (d + 3 * dl) p (rest_of c) (line_state N cue l m' p (next_layer cue (line_comment (ld l)) n)) Hm' Hw eq_refl ltac:(eexists; reflexivity) eq_refl) as (t & Et & Hr & He).
    destruct (IH ls' m' (obey c h) (next_layer cue (line_comment (ld l)) n) (d + 3 * dl) D t H2 T2 Hm' B2 ltac:(lra) ltac:(lra) HD He (rest_of c)) as (sts & ts & E1 & E2 & Hrs). rewrite E1. cbn [bind].
    eexists _, _. split; [reflexivity|]. cbn [gto_kstates]. rewrite Et. cbn [bind]. rewrite E2. split; [reflexivity|]. cbn [requests reads_on].
    split; [exact Hr|]. unfold e_near. rewrite He, HA. cbn [request k_pos spot ve]. split; [|split; [exact Tu1|split; [exact Tu2|exact Hrs]]].
    destruct Hm' as (_ & _ & _ & _ & _ & _ & Em). destruct (e_bound (d + 3 * dl) (obey c h) _ _ ltac:(lra) Em) as [Q1 Q2].
    pose proof (small _ (Rle_trans _ _ 20000 Q2 ltac:(lra))) as Q3. apply abs_inv in Q1, Q3. apply Rabs_le. lra.
Qed.
Notation start_head := (start_head rnd).
Lemma text_reads lines cs su : let h := start_head su in Forall2 spells lines cs -> Forall sensible cs -> tidy h cs ->
  Forall (fun s => Rabs (ve (k_pos s)) <= 9000) (request h None :: requests h cs) -> INR (length cs) * (3 * dl) <= / 100 ->
  Forall (fun x => rnd x = x) [s_X N su; s_Y N su; s_Z N su; s_E N su; s_p_vel N su; s_p_acc N su; s_jerk N su] ->
  exists t0 ts, (sts <- generate_states N lines su ;; gto_kstates k sts) = Ok (t0 :: ts) /\
    reads (request h None) t0 /\ ge k (gk_pos k t0) = ve (k_pos (request h None)) /\ reads_on (INR (length cs) * (3 * dl) + 2 * dl) (request h None) t0 (requests h cs) ts.
Proof.
  intros h Hl Hs Ht Hb Hn Hd. destruct (program_lines lines cs Hl O) as (ls & El & Hl'). unfold generate_states, read_gcode_to_dict_list. rewrite El. cbn [bind]. unfold dict_list_traveler.
  assert (D : forall x, In x [s_X N su; s_Y N su; s_Z N su; s_E N su; s_p_vel N su; s_p_acc N su; s_jerk N su] -> x = rnd x) by (rewrite Forall_forall in Hd; intros x I; symmetry; apply Hd, I). cbn [In] in D.
  assert (Z : nint N 0 = 0) by (unfold nint; cbn [knum n_of_dec Bk k_dec]; replace (r_of_dec 0 0) with 0 by (unfold r_of_dec; cbn; ring); exact r0).
  inversion Hb as [|? ? Hb1 Hb2]; subst. cbn [request k_pos spot ve] in Hb1.
  assert (Hm : vm_is 0 h (init_vm N su)).
  { split; [reflexivity|]. split; [reflexivity|]. split; [|split; [|split; [|split]]].
    - intros [] Na; try (exfalso; apply Na; reflexivity); (split; [exact Z|]); (split; [apply D; tauto|]); split; reflexivity.
    - exists (s_p_vel N su). split; [reflexivity|]. left. apply D. tauto.
    - cbn [init_vm vm_p_acc]. unfold h. cbn [start_head fresh_head h_acc]. f_equal. apply D. tauto.
    - cbn [init_vm vm_jerk]. unfold h. cbn [start_head fresh_head h_jerk]. f_equal. apply D. tauto.
    - unfold e_is, h in *. cbn [init_vm cE oE start_head fresh_head h_pos h_zero h_abs] in *. rewrite Z. split; [symmetry; apply D; tauto|]. split; [exact r0|]. split; [exact Hb1|].
      rewrite !Rminus_0_r, Rminus_eq_0, Rabs_R0. lra. }
  destruct (state_reads (init_vm N su) h 0 None None (initial_state N su) Hm eq_refl eq_refl ltac:(eexists; reflexivity) eq_refl) as (t & Et & Hr & He).
  destruct (travel_reads (s_layer_cue N su) cs Hs ls (init_vm N su) h 0 0 (INR (length cs) * (3 * dl)) t Hl' Ht Hm Hb2 ltac:(lra) ltac:(lra) Hn He None) as (sts & ts & E1 & E2 & Hrs). rewrite E1. cbn [bind gto_kstates].
  rewrite Et. cbn [bind]. rewrite E2. cbn [bind]. exists t, ts. split; [reflexivity|]. split; [exact Hr|]. split; [|exact Hrs].
  rewrite He. cbn [init_vm cE oE]. rewrite Z, Rplus_0_r. cbn [request k_pos spot ve]. unfold h. cbn [start_head fresh_head h_pos]. symmetry. apply D. tauto.
Qed.
End Read.
