(** Proofs about dict_list_traveler. *)
From Coq Require Import Reals Lra.
From Verif Require Import Py PyFloat Parser StateGen StrFacts SpecMachine.
Open Scope nat_scope.
Local Arguments S_ : simpl never.

Section Step.
Variable N : numops.
Notation vm := (vm N).

Definition abs_of (a : axis) (m : vm) : bool := match a with AE => absolute_extrusion N m | _ => absolute_position N m end.
Notation c := (get_c N). Notation o := (get_o N). Notation v := (get_v N).

(** Everything except coordinates, offsets, limits and feed/acc/jerk. *)
Definition same_modes (m m' : vm) : Prop :=
  absolute_position N m' = absolute_position N m /\ absolute_extrusion N m' = absolute_extrusion N m /\
  vm_units N m' = vm_units N m.
Definition same_dyn (m m' : vm) : Prop :=
  vm_p_vel N m' = vm_p_vel N m /\ vm_p_acc N m' = vm_p_acc N m /\ vm_jerk N m' = vm_jerk N m.

Lemma need_num_means l x : need_num N l = Ok x -> means (N := N) l x.
Proof.
  destruct l as [[m e|]|s]; simpl; try discriminate. intros H; injection H as <-. exists m, e. auto.
Qed.
Lemma as_sval_stored l x : as_sval N l = Ok x -> stored (N := N) l x.
Proof.
  destruct l as [[m e|]|s]; simpl; try discriminate; intros H; injection H as <-; [left; exists m, e; auto|right; exists s; auto].
Qed.

Lemma get_c_set a b x m : c a (set_c N b x m) = if (match a, b with AX, AX | AY, AY | AZ, AZ | AE, AE => true | _, _ => false end) then x else c a m.
Proof. destruct a, b; reflexivity. Qed.

Lemma do_axis_spec ab a s m m' : do_axis N ab a s m = Ok m' ->
  match dget (axis_key a) s with
  | None => m' = m
  | Some l => exists x, means (N := N) l x /\ m' = set_c N a (if ab then x else n_add N (c a m) x) m
  end.
Proof.
  unfold do_axis. destruct (dget (axis_key a) s) as [l|]; [|intros H; injection H as <-; reflexivity].
  destruct (need_num N l) as [x|] eqn:E; cbn [bind]; [|discriminate]. intros H; injection H as <-.
  exists x. split; [apply need_num_means; exact E|reflexivity].
Qed.

Lemma do_move_spec cmd l m m' : do_move N cmd (ld l) m = Ok m' ->
  same_modes m m' /\ vm_p_acc N m' = vm_p_acc N m /\ vm_jerk N m' = vm_jerk N m /\
  (forall a, o a m' = o a m /\ v a m' = v a m) /\
  (forall a, match word cmd (name a) l with
             | None => c a m' = c a m
             | Some lf => exists x, means (N := N) lf x /\ c a m' = if abs_of a m then x else n_add N (c a m) x
             end) /\
  modal (word cmd (S_ "F") l) (fun lf y => exists x, means (N := N) lf x /\ y = SNum (n_div N x 60)) (vm_p_vel N m) (vm_p_vel N m').
Proof.
  unfold do_move, sub_dict, word, modal. destruct (dget cmd (ld l)) as [[lf|s]|].
  1,3: intros H; injection H as <-; unfold same_modes; repeat split; reflexivity.
  intros H.
  destruct (do_axis N (absolute_position N m) AX s m) as [m1|] eqn:E1; cbn [bind] in H; [|discriminate].
  destruct (do_axis N (absolute_position N m1) AY s m1) as [m2|] eqn:E2; cbn [bind] in H; [|discriminate].
  destruct (do_axis N (absolute_position N m2) AZ s m2) as [m3|] eqn:E3; cbn [bind] in H; [|discriminate].
  destruct (do_axis N (absolute_extrusion N m3) AE s m3) as [m4|] eqn:E4; cbn [bind] in H; [|discriminate].
  apply do_axis_spec in E1, E2, E3, E4.
  change (axis_key AX) with (name AX) in E1. change (axis_key AY) with (name AY) in E2.
  change (axis_key AZ) with (name AZ) in E3. change (axis_key AE) with (name AE) in E4.
  assert (H4 : same_modes m m4 /\ same_dyn m m4 /\ (forall a, o a m4 = o a m /\ v a m4 = v a m) /\
    (forall a, match dget (name a) s with
             | None => c a m4 = c a m
             | Some lf => exists x, means (N := N) lf x /\ c a m4 = if abs_of a m then x else n_add N (c a m) x
             end)).
  { unfold same_modes, same_dyn.
    destruct (dget (name AX) s) as [lx|] eqn:DX; [destruct E1 as (xx & M1 & ->)|subst m1];
    (destruct (dget (name AY) s) as [ly|] eqn:DY; [destruct E2 as (yy & M2 & ->)|subst m2]);
    (destruct (dget (name AZ) s) as [lz|] eqn:DZ; [destruct E3 as (zz & M3 & ->)|subst m3]);
    (destruct (dget (name AE) s) as [le|] eqn:DE; [destruct E4 as (ee & M4 & ->)|subst m4]);
    (split; [repeat split; reflexivity|]; split; [repeat split; reflexivity|];
     split; [intros []; split; reflexivity|];
     intros [];
     [rewrite DX|rewrite DY|rewrite DZ|rewrite DE];
     first [reflexivity | eexists; split; [eassumption|reflexivity]]). }
  clear E1 E2 E3 E4. destruct H4 as (A & (B1 & B2 & B3) & C & D).
  destruct (dget (S_ "F") s) as [lf|].
  - destruct (need_num N lf) as [x|] eqn:EF; cbn [bind] in H; [|discriminate]. injection H as <-.
    split; [exact A|]. split; [exact B2|]. split; [exact B3|]. split; [exact C|]. split; [exact D|].
    exists x. split; [apply need_num_means; exact EF|reflexivity].
  - injection H as <-. split; [exact A|]. split; [exact B2|]. split; [exact B3|]. split; [exact C|]. split; [exact D|exact B1].
Qed.

Lemma axis_of_key_name k a : axis_of_key k = Some a -> k = name a.
Proof.
  unfold axis_of_key. destruct (str_eqb_spec k (S_ "E")) as [->|]; [intros H; injection H as <-; reflexivity|].
  destruct (str_eqb_spec k (S_ "X")) as [->|]; [intros H; injection H as <-; reflexivity|].
  destruct (str_eqb_spec k (S_ "Y")) as [->|]; [intros H; injection H as <-; reflexivity|].
  destruct (str_eqb_spec k (S_ "Z")) as [->|]; [intros H; injection H as <-; reflexivity|discriminate].
Qed.
Lemma axis_of_name a : axis_of_key (name a) = Some a.
Proof. destruct a; reflexivity. Qed.
Lemma name_inj a b : name a = name b -> a = b.
Proof. intros H. apply (f_equal axis_of_key) in H. rewrite !axis_of_name in H. congruence. Qed.

Lemma do_g92_spec s : forall m m', NoDup (dkeys s) -> do_g92 N s m = Ok m' ->
  same_modes m m' /\ same_dyn m m' /\ (forall a, v a m' = v a m) /\
  forall a, match dget (name a) s with
            | None => c a m' = c a m /\ o a m' = o a m
            | Some lf => exists x, means (N := N) lf x /\ c a m' = x /\ o a m' = n_add N (n_add N (c a m) x) (o a m)
            end.
Proof.
  induction s as [|[k lf] s IH]; intros m m' Hn H.
  - injection H as <-. unfold same_modes, same_dyn. repeat split; reflexivity.
  - cbn [do_g92] in H. simpl in Hn. inversion Hn as [|? ? N1 N2]; subst.
    destruct (axis_of_key k) as [b|] eqn:Ek.
    + apply axis_of_key_name in Ek. subst k.
      destruct (need_num N lf) as [x|] eqn:Ex; cbn [bind] in H; [|discriminate].
      destruct (IH _ _ N2 H) as (A & B & C & D). clear IH H.
      split; [exact A|]. split; [exact B|].
      split; [intros a; rewrite (C a); destruct b; reflexivity|].
      intros a. specialize (D a). cbn [dget].
      destruct (str_eqb_spec (name a) (name b)) as [E|E].
      * apply name_inj in E. subst b. rewrite (dget_notin (name a) s N1) in D. destruct D as [D1 D2].
        exists x. split; [apply need_num_means; exact Ex|]. rewrite D1, D2. destruct a; split; reflexivity.
      * assert (Hab : a <> b) by congruence.
        destruct (dget (name a) s) as [lf'|].
        -- destruct D as (y & Y1 & Y2 & Y3). exists y. split; [exact Y1|]. split; [exact Y2|]. rewrite Y3.
           destruct a, b; try congruence; reflexivity.
        -- destruct D as [D1 D2]. rewrite D1, D2. destruct a, b; try congruence; split; reflexivity.
    + destruct (IH _ _ N2 H) as (A & B & C & D).
      split; [exact A|]. split; [exact B|]. split; [exact C|].
      intros a. specialize (D a). cbn [dget]. rewrite str_eqb_false; [exact D|].
      intros E. rewrite <- E, axis_of_name in Ek. discriminate.
Qed.

Lemma do_m203_spec s : forall m m', NoDup (dkeys s) -> do_m203 N s m = Ok m' ->
  same_modes m m' /\ same_dyn m m' /\ (forall a, c a m' = c a m /\ o a m' = o a m) /\
  forall a, modal (dget (name a) s) (stored (N := N)) (v a m) (v a m').
Proof.
  unfold modal. induction s as [|[k lf] s IH]; intros m m' Hn H.
  - injection H as <-. unfold same_modes, same_dyn. repeat split; reflexivity.
  - cbn [do_m203] in H. simpl in Hn. inversion Hn as [|? ? N1 N2]; subst.
    destruct (axis_of_key k) as [b|] eqn:Ek.
    + apply axis_of_key_name in Ek. subst k.
      destruct (as_sval N lf) as [x|] eqn:Ex; cbn [bind] in H; [|discriminate].
      destruct (IH _ _ N2 H) as (A & B & C & D). clear IH H.
      split; [exact A|]. split; [exact B|].
      split; [intros a; destruct (C a) as [-> ->]; destruct b, a; split; reflexivity|].
      intros a. specialize (D a). cbn [dget].
      destruct (str_eqb_spec (name a) (name b)) as [E|E].
      * apply name_inj in E. subst b. rewrite (dget_notin (name a) s N1) in D. rewrite D.
        replace (v a (set_v N a x m)) with x by (destruct a; reflexivity). apply as_sval_stored; exact Ex.
      * assert (Hab : a <> b) by congruence.
        destruct (dget (name a) s) as [lf'|]; [exact D|]. rewrite D. destruct a, b; try congruence; reflexivity.
    + destruct (IH _ _ N2 H) as (A & B & C & D).
      split; [exact A|]. split; [exact B|]. split; [exact C|].
      intros a. specialize (D a). cbn [dget]. rewrite str_eqb_false; [exact D|].
      intros E. rewrite <- E, axis_of_name in Ek. discriminate.
Qed.

Lemma do_dwell_spec l p : do_dwell N (ld l) = Ok p -> dwell_means (N := N) l p.
Proof.
  unfold do_dwell, dwell_means, sub_dict, word. destruct (dget (S_ "G4") (ld l)) as [[lf|s]|].
  1,3: intros H; injection H as <-; reflexivity.
  destruct (dget (S_ "P") s) as [lp|]; cbn [bind].
  - destruct (need_num N lp) as [x|] eqn:E; cbn [bind]; [|discriminate]. apply need_num_means in E.
    destruct (dget (S_ "S") s) as [ls|].
    + destruct (as_sval N ls) as [y|] eqn:F; cbn [bind]; [|discriminate]. apply as_sval_stored in F.
      intros H; injection H as <-. exists y; auto.
    + intros H; injection H as <-. exists x; auto.
  - destruct (dget (S_ "S") s) as [ls|].
    + destruct (as_sval N ls) as [y|] eqn:F; cbn [bind]; [|discriminate]. apply as_sval_stored in F.
      intros H; injection H as <-. exists y; auto.
    + intros H; injection H as <-. reflexivity.
Qed.

Lemma sub_word cmd l : match sub_dict cmd (ld l) with
  | Some s => forall k, word cmd k l = dget k s
  | None => forall k, word cmd k l = None end.
Proof. unfold sub_dict, word. destruct (dget cmd (ld l)) as [[lf|s]|]; reflexivity. Qed.

(** One line on the machine: everything it does. *)
Record line_effect (l : line_dict) (m m' : vm) (p : option (sval N)) : Prop := {
  le_abs : forall a, abs_of a m' = match a with
     | AE => if flagb (S_ "M83") l then false else if flagb (S_ "M82") l then true else abs_of a m
     | _ => if flagb (S_ "G91") l then false else if flagb (S_ "G90") l then true else abs_of a m end;
  le_units : vm_units N m' = (if flagb (S_ "G21") l then S_ "SImm" else if flagb (S_ "G20") l then S_ "inch" else vm_units N m);
  le_coord : forall a, exists x0 x1,
     match word (S_ "G0") (name a) l with
     | None => x0 = c a m
     | Some lf => exists x, means (N := N) lf x /\ x0 = if abs_of a m' then x else n_add N (c a m) x
     end /\
     match word (S_ "G1") (name a) l with
     | None => x1 = x0
     | Some lf => exists x, means (N := N) lf x /\ x1 = if abs_of a m' then x else n_add N x0 x
     end /\
     match word (S_ "G92") (name a) l with
     | None => c a m' = x1 /\ o a m' = o a m
     | Some lf => exists x, means (N := N) lf x /\ c a m' = x /\ o a m' = n_add N (n_add N x1 x) (o a m)
     end;
  le_feed : modal (move_word (S_ "F") l) (fun lf y => exists x, means (N := N) lf x /\ y = SNum (n_div N x 60))
                  (vm_p_vel N m) (vm_p_vel N m');
  le_acc : modal (word (S_ "M204") (S_ "P") l) (stored (N := N)) (vm_p_acc N m) (vm_p_acc N m');
  le_jerk : modal (word (S_ "M205") (S_ "X") l) (stored (N := N)) (vm_jerk N m) (vm_jerk N m');
  le_lim : forall a, modal (word (S_ "M203") (name a) l) (stored (N := N)) (v a m) (v a m');
  le_dwell : dwell_means (N := N) l p }.

Lemma step_effect l m m' p : proper_line l -> step_vm N (ld l) m = Ok (m', p) -> line_effect l m m' p.
Proof.
  intros [_ Hsub] H. unfold step_vm in H.
  set (m0 := do_modes N (ld l) m) in *.
  destruct (do_move N (S_ "G0") (ld l) m0) as [m1|] eqn:E1; cbn [bind] in H; [|discriminate].
  destruct (do_move N (S_ "G1") (ld l) m1) as [m2|] eqn:E2; cbn [bind] in H; [|discriminate].
  destruct (do_sub N (S_ "G92") (ld l) (do_g92 N) m2) as [m3|] eqn:E3; cbn [bind] in H; [|discriminate].
  destruct (do_sub N (S_ "M204") (ld l) (do_m204 N) m3) as [m4|] eqn:E4; cbn [bind] in H; [|discriminate].
  destruct (do_sub N (S_ "M203") (ld l) (do_m203 N) m4) as [m5|] eqn:E5; cbn [bind] in H; [|discriminate].
  destruct (do_sub N (S_ "M205") (ld l) (do_m205 N) m5) as [m6|] eqn:E6; cbn [bind] in H; [|discriminate].
  destruct (do_dwell N (ld l)) as [p'|] eqn:E7; cbn [bind] in H; [|discriminate].
  injection H as <- <-. apply do_dwell_spec in E7.
  apply do_move_spec in E1 as ((A1 & A2 & A3) & A4 & A5 & A6 & A7 & A8).
  apply do_move_spec in E2 as ((B1 & B2 & B3) & B4 & B5 & B6 & B7 & B8).
  assert (G3 : same_modes m2 m3 /\ same_dyn m2 m3 /\ (forall a, v a m3 = v a m2) /\
     forall a, match word (S_ "G92") (name a) l with
            | None => c a m3 = c a m2 /\ o a m3 = o a m2
            | Some lf => exists x, means (N := N) lf x /\ c a m3 = x /\ o a m3 = n_add N (n_add N (c a m2) x) (o a m2)
            end).
  { unfold do_sub, sub_dict, word in *. destruct (dget (S_ "G92") (ld l)) as [[lf|s]|] eqn:D.
    - injection E3 as <-. unfold same_modes, same_dyn. repeat split; reflexivity.
    - apply (do_g92_spec s); [apply (Hsub _ _ D)|exact E3].
    - injection E3 as <-. unfold same_modes, same_dyn. repeat split; reflexivity. }
  clear E3. destruct G3 as ((C1 & C2 & C3) & (C4 & C5 & C6) & C7 & C8).
  assert (G4 : same_modes m3 m4 /\ vm_p_vel N m4 = vm_p_vel N m3 /\ vm_jerk N m4 = vm_jerk N m3 /\
     (forall a, v a m4 = v a m3 /\ c a m4 = c a m3 /\ o a m4 = o a m3) /\
     modal (word (S_ "M204") (S_ "P") l) (stored (N := N)) (vm_p_acc N m3) (vm_p_acc N m4)).
  { unfold do_sub, sub_dict, word, modal, do_m204 in *. destruct (dget (S_ "M204") (ld l)) as [[lf|s]|] eqn:D.
    1,3: injection E4 as <-; unfold same_modes; repeat split; reflexivity.
    destruct (dget (S_ "P") s) as [lf|]; [|injection E4 as <-; unfold same_modes; repeat split; reflexivity].
    destruct (as_sval N lf) as [x|] eqn:F; cbn [bind] in E4; [|discriminate]. injection E4 as <-.
    split; [unfold same_modes; repeat split; reflexivity|]. split; [reflexivity|]. split; [reflexivity|].
    split; [intros []; repeat split; reflexivity|]. apply as_sval_stored; exact F. }
  clear E4. destruct G4 as ((D1 & D2 & D3) & D4 & D5 & D6 & D7).
  assert (G5 : same_modes m4 m5 /\ same_dyn m4 m5 /\ (forall a, c a m5 = c a m4 /\ o a m5 = o a m4) /\
     forall a, modal (word (S_ "M203") (name a) l) (stored (N := N)) (v a m4) (v a m5)).
  { unfold do_sub, sub_dict, word in *. destruct (dget (S_ "M203") (ld l)) as [[lf|s]|] eqn:D.
    - injection E5 as <-. unfold same_modes, same_dyn. repeat split; reflexivity.
    - apply (do_m203_spec s); [apply (Hsub _ _ D)|exact E5].
    - injection E5 as <-. unfold same_modes, same_dyn. repeat split; reflexivity. }
  clear E5. destruct G5 as ((F1 & F2 & F3) & (F4 & F5 & F6) & F7 & F8).
  assert (G6 : same_modes m5 m6 /\ vm_p_vel N m6 = vm_p_vel N m5 /\ vm_p_acc N m6 = vm_p_acc N m5 /\
     (forall a, v a m6 = v a m5 /\ c a m6 = c a m5 /\ o a m6 = o a m5) /\
     modal (word (S_ "M205") (S_ "X") l) (stored (N := N)) (vm_jerk N m5) (vm_jerk N m6)).
  { unfold do_sub, sub_dict, word, modal, do_m205 in *. destruct (dget (S_ "M205") (ld l)) as [[lf|s]|] eqn:D.
    1,3: injection E6 as <-; unfold same_modes; repeat split; reflexivity.
    destruct (dget (S_ "X") s) as [lf|]; [|injection E6 as <-; unfold same_modes; repeat split; reflexivity].
    destruct (as_sval N lf) as [x|] eqn:F; cbn [bind] in E6; [|discriminate]. injection E6 as <-.
    split; [unfold same_modes; repeat split; reflexivity|]. split; [reflexivity|]. split; [reflexivity|].
    split; [intros []; repeat split; reflexivity|]. apply as_sval_stored; exact F. }
  clear E6. destruct G6 as ((K1 & K2 & K3) & K4 & K5 & K6 & K7).
  (* modes *)
  assert (M0 : absolute_position N m0 = (if flagb (S_ "G91") l then false else if flagb (S_ "G90") l then true else absolute_position N m) /\
               absolute_extrusion N m0 = (if flagb (S_ "M83") l then false else if flagb (S_ "M82") l then true else absolute_extrusion N m) /\
               vm_units N m0 = (if flagb (S_ "G21") l then S_ "SImm" else if flagb (S_ "G20") l then S_ "inch" else vm_units N m)).
  { unfold m0, do_modes, flagb, dmem. cbn. repeat split; reflexivity. }
  destruct M0 as (M1 & M2 & M3).
  assert (Z0 : forall a, c a m0 = c a m /\ o a m0 = o a m /\ v a m0 = v a m) by (intros []; repeat split; reflexivity).
  assert (W0 : same_dyn m m0) by (repeat split; reflexivity). destruct W0 as (W1 & W2 & W3).
  clearbody m0.
  assert (Habs1 : forall a, abs_of a m1 = abs_of a m0) by (intros []; simpl; assumption).
  assert (Habs6 : forall a, abs_of a m6 = abs_of a m0) by (intros []; simpl; congruence).
  split.
  - intros a. rewrite Habs6. destruct a; simpl; assumption.
  - rewrite <- M3. congruence.
  - intros a. exists (c a m1), (c a m2). rewrite Habs6. destruct (Z0 a) as (Z1 & Z2 & _).
    split; [specialize (A7 a); rewrite Z1 in A7; exact A7|].
    split; [specialize (B7 a); rewrite Habs1 in B7; exact B7|].
    specialize (C8 a). destruct (D6 a) as (_ & Dc & Do). destruct (F7 a) as (Fc & Fo). destruct (K6 a) as (_ & Kc & Ko).
    destruct (A6 a) as (Ao & _). destruct (B6 a) as (Bo & _).
    destruct (word (S_ "G92") (name a) l) as [lf|].
    + destruct C8 as (x & X1 & X2 & X3). exists x. split; [exact X1|]. split; congruence.
    + destruct C8 as [X1 X2]. split; congruence.
  - unfold modal, move_word in *.
    assert (E : vm_p_vel N m6 = vm_p_vel N m2) by congruence. rewrite E.
    destruct (word (S_ "G1") (S_ "F") l) as [lf|]; [exact B8|]. rewrite B8.
    destruct (word (S_ "G0") (S_ "F") l) as [lf|]; [exact A8|]. congruence.
  - unfold modal in *. destruct (word (S_ "M204") (S_ "P") l) as [lf|].
    + replace (vm_p_acc N m6) with (vm_p_acc N m4) by congruence. exact D7.
    + replace (vm_p_acc N m6) with (vm_p_acc N m0) by congruence. assumption.
  - unfold modal in *. destruct (word (S_ "M205") (S_ "X") l) as [lf|]; [exact K7|].
    replace (vm_jerk N m6) with (vm_jerk N m0) by congruence. assumption.
  - intros a. specialize (F8 a). unfold modal in *. destruct (K6 a) as (Kv & _). destruct (D6 a) as (Dv & _).
    destruct (A6 a) as (_ & Av). destruct (B6 a) as (_ & Bv). destruct (Z0 a) as (_ & _ & Zv). rewrite Kv.
    destruct (word (S_ "M203") (name a) l) as [lf|]; [exact F8|].
    rewrite F8, Dv, (C7 a), Bv, Av, Zv. reflexivity.
  - exact E7.
Qed.
End Step.
