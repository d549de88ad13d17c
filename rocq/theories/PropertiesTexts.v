(** Properties C97-C103: written files, dictionaries, printed texts.
    Vocabulary: SpecTexts.v, SpecTools.v, SpecQuery.v, SpecKin.v. *)
From Coq Require Import QArith Lra Lia DecimalString.
From Verif Require Import Py Vec Segment Junction Planner Query Abaqus Tools StateGen Texts RealFacts StrFacts SpecKin SpecQuery SpecSearch SpecTools SpecTexts
  MoveProofs CorrectProofs PlannerProofs TrajProofs PlanFacts PlanRefute OneMove TextsProofs PropertiesPlan PropertiesQuery PropertiesTools PropertiesSearch.
Open Scope R_scope.

(** * C97: the Abaqus file *)
(** A line of the file has the five fields of the event: time, coordinates
    rounded to 8 digits, flag. *)
Lemma event_line_fields w i e : never_writes w ","%char ->
  exists l, event_line w i e = l ++ newline /\
    split ","%char l = [w i 0%nat (ev_t e); w i 1%nat (round8 (ev_x e)); w i 2%nat (round8 (ev_y e)); w i 3%nat (round8 (ev_z e)); int_text (ev_flag e)].
Proof.
  intros Hw. eexists. split; [reflexivity|]. rewrite (split_join ","%char [] (fun x => x)).
  - cbn [map app]. reflexivity.
  - repeat constructor; try apply Hw. intros H. apply int_text_digits in H. cbn in H. intuition discriminate.
Qed.
Definition body (w : writer) (i : nat) (e : event) : str :=
  join (S_ ",") [w i 0%nat (ev_t e); w i 1%nat (round8 (ev_x e)); w i 2%nat (round8 (ev_y e)); w i 3%nat (round8 (ev_z e)); int_text (ev_flag e)].
Fixpoint bodies (w : writer) (i : nat) (evs : list event) : list str :=
  match evs with [] => [] | e :: evs' => body w i e :: bodies w (S i) evs' end.
Lemma event_lines_concat w evs : forall i, event_lines w i evs = concat (map (fun l => l ++ newline) (bodies w i evs)).
Proof. induction evs as [|e evs IH]; intros i; [reflexivity|]. simpl. rewrite IH. reflexivity. Qed.
Lemma bodies_length w evs : forall i, length (bodies w i evs) = length evs.
Proof. induction evs as [|e evs IH]; intros i; [reflexivity|]. simpl. rewrite IH. reflexivity. Qed.
Lemma bodies_nth w evs : forall i j e, nth_error evs j = Some e -> nth_error (bodies w i evs) j = Some (body w (i + j) e).
Proof.
  induction evs as [|x evs IH]; intros i [|j] e H; try discriminate H.
  - injection H as ->. rewrite Nat.add_0_r. reflexivity.
  - simpl. rewrite (IH (S i) j e H). do 2 f_equal. lia.
Qed.
Lemma body_no_newline w i e : never_writes w "010"%char -> ~ In "010"%char (body w i e).
Proof.
  intros Hw. apply join_not_in; [cbn; intuition discriminate|]. repeat constructor; try apply Hw.
  intros H. apply int_text_digits in H. cbn in H. intuition discriminate.
Qed.
Theorem C97_file w s tol unit text evs : never_writes w ","%char -> never_writes w "010"%char ->
  write_abaqus_file w s tol unit = Ok (text, evs) ->
  generate_abaqus_event_series s tol unit = Ok evs /\
  exists ls, lines text = Some ls /\ length ls = length evs /\
    forall i e, nth_error evs i = Some e -> exists l x y z f, nth_error ls i = Some l /\
      split ","%char l = [w i 0%nat (ev_t e); w i 1%nat x; w i 2%nat y; w i 3%nat z; f] /\
      rounded8 (ev_x e) x /\ rounded8 (ev_y e) y /\ rounded8 (ev_z e) z /\
      (f = S_ "1" <-> ev_flag e = 1%nat) /\ (f = S_ "0" <-> ev_flag e = 0%nat).
Proof.
  intros Hc Hn H. unfold write_abaqus_file in H. destruct (generate_abaqus_event_series s tol unit) as [evs'|]; [|discriminate]. cbn [bind] in H.
  injection H as <- ->. split; [reflexivity|]. exists (bodies w 0 evs). split; [|split].
  - rewrite event_lines_concat. apply lines_concat. apply Forall_forall. intros t Ht. destruct (In_nth_error (A:=str) _ _ Ht) as (i & Hi).
    destruct (nth_error evs i) as [e|] eqn:Ee.
    + pose proof (eq_trans (eq_sym Hi) (bodies_nth w evs 0 i e Ee)) as X. injection X as ->. apply body_no_newline. exact Hn.
    + apply nth_error_None in Ee. rewrite <- (bodies_length w evs 0) in Ee. apply nth_error_None in Ee. congruence.
  - apply bodies_length.
  - intros i e He. exists (body w i e), (round8 (ev_x e)), (round8 (ev_y e)), (round8 (ev_z e)), (int_text (ev_flag e)).
    rewrite (bodies_nth w evs 0 i e He). split; [reflexivity|]. split.
    + destruct (event_line_fields w i e Hc) as (l & El & Hl). unfold event_line in El. apply app_inv_tail in El. subst l. exact Hl.
    + repeat (split; [apply round8_spec|]). change (S_ "1") with (int_text 1). change (S_ "0") with (int_text 0).
      split; split; intros H; try (apply int_text_inj; exact H); rewrite H; reflexivity.
Qed.
(** The numbers of a line lie on the trajectory, up to half a unit of the
    eighth digit. *)
Theorem C97_on_trajectory w fw s0 states s wn tol unit u k : never_writes w ","%char -> never_writes w "010"%char ->
  valid_program s0 states -> simulate fw (s0 :: states) = Ok (blocklist s, wn) -> blocklist s <> [] ->
  u = match unit with Some v => v | None => output_unit_system s end -> unit_length u k ->
  exists text evs ls, write_abaqus_file w s tol unit = Ok (text, evs) /\ lines text = Some ls /\ length ls = S (length (unpack_blocklist (blocklist s))) /\
    forall i l, nth_error ls i = Some l -> exists t v p x y z f,
      split ","%char l = [w i 0%nat t; w i 1%nat x; w i 2%nat y; w i 3%nat z; f] /\ (f = S_ "0" \/ f = S_ "1") /\
      on_path (unpack_blocklist (blocklist s)) t v p /\
      Rabs (k * x - vx p) <= k / 200000000 /\ Rabs (k * y - vy p) <= k / 200000000 /\ Rabs (k * z - vz p) <= k / 200000000.
Proof.
  intros Hc Hn Hv Hs Hne Hu Hk.
  destruct (C48_events_on_trajectory fw s0 states s wn tol unit u k Hv Hs Hne Hu Hk) as (evs & Ee & _ & _ & Hon).
  assert (W : write_abaqus_file w s tol unit = Ok (event_lines w 0 evs, evs)) by (unfold write_abaqus_file; rewrite Ee; reflexivity).
  destruct (C97_file w s tol unit _ evs Hc Hn W) as (_ & ls & Hl & Hlen & Hls). exists (event_lines w 0 evs), evs, ls.
  split; [exact W|]. split; [exact Hl|].
  assert (Hevs : length evs = S (length (unpack_blocklist (blocklist s))) /\ forall e, In e evs -> ev_flag e = 0%nat \/ ev_flag e = 1%nat).
  { unfold generate_abaqus_event_series in Ee. destruct (unpack_blocklist (blocklist s)) as [|f path] eqn:Ep; [discriminate|]. cbn [first_seg bind] in Ee.
    destruct (get_scaling_factor s unit) as [sc|]; [|discriminate]. cbn [bind] in Ee.
    match type of Ee with Ok ?x = _ => assert (E0 : evs = x) by congruence end. clear - E0. subst evs.
    assert (Ef : forall l, length (extrusion_flags tol l) = length l /\ Forall (fun n => n = 0%nat \/ n = 1%nat) (extrusion_flags tol l)).
    { induction l as [|a [|b l] IH]; [split; [reflexivity|constructor]|split; [reflexivity|repeat constructor]|]. destruct IH as [I1 I2].
      change (extrusion_flags tol (a :: b :: l)) with ((if Rltb tol (b - a) then 1%nat else 0%nat) :: extrusion_flags tol (b :: l)).
      split; [simpl in *; rewrite I1; reflexivity|]. constructor; [destruct (Rltb tol (b - a)); auto|exact I2]. }
    assert (Em : forall ts ps, length ts = length ps -> length (make_events sc ts ps) = length ts).
    { induction ts as [|t ts IH]; intros [|q ps] E; try discriminate; [reflexivity|]. simpl. rewrite IH; [reflexivity|]. simpl in E. lia. }
    assert (Ei : forall ts ps e, In e (make_events sc ts ps) -> exists q, In q ps /\ ev_flag e = snd q).
    { induction ts as [|t ts IH]; intros [|q ps] e H; try contradiction. destruct H as [<-|H]; [exists q; split; [left|]; reflexivity|].
      destruct (IH _ _ H) as (q' & H1 & H2). exists q'. split; [right; exact H1|exact H2]. }
    destruct (Ef (map ve (pos_begin f :: map pos_end (f :: path)))) as [L1 F1]. rewrite map_length in L1. split.
    - rewrite Em; [simpl; rewrite map_length; reflexivity|]. rewrite combine_length, L1. simpl. rewrite !map_length. lia.
    - intros e He. destruct (Ei _ _ _ He) as (q & Hq & ->). destruct q as [q n]. apply in_combine_r in Hq. rewrite Forall_forall in F1. apply F1. exact Hq. }
  destruct Hevs as [Hevs Hfl]. split; [lia|]. intros i l Hil.
  destruct (nth_error evs i) as [e|] eqn:Ei.
  2:{ apply nth_error_None in Ei. rewrite <- Hlen in Ei. apply nth_error_None in Ei. congruence. }
  destruct (Hls i e Ei) as (l' & x & y & z & f & Hl' & Hsp & Rx & Ry & Rz & F1 & F0). assert (l' = l) by congruence. subst l'.
  destruct (Hon e (nth_error_In _ _ Ei)) as (v & p & Hp & (k' & Hk' & Ex & Ey & Ez)).
  assert (k' = k) by (destruct Hk; inversion Hk'; reflexivity). subst k'. exists (ev_t e), v, p, x, y, z, f.
  split; [exact Hsp|]. split; [destruct (Hfl e (nth_error_In _ _ Ei)) as [E|E]; [left; apply F0|right; apply F1]; exact E|]. split; [exact Hp|].
  assert (Hk0 : 0 < k) by (destruct Hk; lra).
  assert (G : forall a r q, rounded8 a r -> k * a = q -> Rabs (k * r - q) <= k / 200000000).
  { intros a r q (zz & _ & Hle & _) <-. replace (k * r - k * a) with (- (k * (a - r))) by ring. rewrite Rabs_Ropp, Rabs_mult, (Rabs_right k) by lra.
    replace (k / 200000000) with (k * (1 / 200000000)) by field. apply Rmult_le_compat_l; lra. }
  split; [exact (G _ _ _ Rx Ex)|]. split; [exact (G _ _ _ Ry Ey)|exact (G _ _ _ Rz Ez)].
Qed.
(** The file fails as the series does. *)
Theorem C97_refused w s tol unit e : write_abaqus_file w s tol unit = Err e <-> generate_abaqus_event_series s tol unit = Err e.
Proof. unfold write_abaqus_file. destruct (generate_abaqus_event_series s tol unit); cbn [bind]; split; congruence. Qed.
(** A writer for whole numbers and a half, enough for the examples. *)
Definition small_writer : writer := fun _ _ x => if Reqb x 0 then S_ "0.0" else if Reqb x (1 / 2) then S_ "0.5" else S_ "1e-07".
Lemma small_never c : ~ In c (S_ "0.0" ++ S_ "0.5" ++ S_ "1e-07") -> never_writes small_writer c.
Proof. intros H i j x Hi. apply H. unfold small_writer in Hi. rewrite !in_app_iff. destruct (Reqb x 0); [auto|]. destruct (Reqb x (1 / 2)); auto. Qed.
Example C97_case fw : exists b, simulate fw [diag0; diag1] = Ok ([b], false) /\ valid_program diag0 [diag1] /\
  never_writes small_writer ","%char /\ never_writes small_writer "010"%char /\ unit_length (S_ "SI") 1000.
Proof.
  destruct (diag_block fw) as (b & Hs & _). exists b. split; [exact Hs|]. split; [exact diag_valid|].
  split; [|split; [|constructor]]; apply small_never; cbn; intuition discriminate.
Qed.
Example C97_rounds : rounded8 (1 / 3) (33333333 / 100000000) /\ rounded8 (1 / 200000000) 0 /\ ~ rounded8 (1 / 200000000) (1 / 100000000).
Proof.
  split; [|split].
  - exists 33333333%Z. split; [reflexivity|]. rewrite Rabs_right by lra. split; [lra|]. intros H. exfalso. lra.
  - exists 0%Z. split; [lra|]. rewrite Rabs_right by lra. split; [lra|]. reflexivity.
  - intros (z & H1 & H2 & H3). assert (z = 1%Z) by (apply eq_IZR; lra). subst z. rewrite Rabs_left in H3 by lra. discriminate H3. lra.
Qed.

(** * C98: the layer metrics file *)
Definition csv_body (w : writer) (c : ascii) (i : nat) (r : layer_row) : str :=
  join (c :: S_ " ") [int_text (row_layer r); w i 1%nat (row_duration r); w i 2%nat (row_travel r);
                      match row_speed r with Some v => w i 3%nat v | None => S_ "NaN" end].
Fixpoint csv_bodies (w : writer) (c : ascii) (i : nat) (rows : list layer_row) : list str :=
  match rows with [] => [] | r :: rows' => csv_body w c i r :: csv_bodies w c (S i) rows' end.
Lemma csv_rows_concat w c rows : forall i, csv_rows w [c] i rows = concat (map (fun l => l ++ newline) (csv_bodies w c i rows)).
Proof. induction rows as [|r rows IH]; intros i; [reflexivity|]. simpl. rewrite IH. reflexivity. Qed.
Lemma csv_bodies_length w c rows : forall i, length (csv_bodies w c i rows) = length rows.
Proof. induction rows as [|r rows IH]; intros i; [reflexivity|]. simpl. rewrite IH. reflexivity. Qed.
Lemma csv_bodies_nth w c rows : forall i j r, nth_error rows j = Some r -> nth_error (csv_bodies w c i rows) j = Some (csv_body w c (i + j) r).
Proof.
  induction rows as [|x rows IH]; intros i [|j] r H; try discriminate H.
  - injection H as ->. rewrite Nat.add_0_r. reflexivity.
  - simpl. rewrite (IH (S i) j r H). do 2 f_equal. lia.
Qed.
Lemma unindent_plain t : ~ In " "%char t -> unindent t = t.
Proof. destruct t as [|x t]; [reflexivity|]. intros H. simpl. destruct (aeqb_spec x " "%char); [destruct H; left; assumption|reflexivity]. Qed.
Theorem C98_file w c bl text rows : separator c -> never_writes w c -> never_writes w "010"%char -> never_writes w " "%char ->
  write_layer_metrics w true true [c] bl = Ok (Some (Some text, rows)) ->
  save_layer_metrics true bl = Ok (Some rows) /\
  exists h ls, lines text = Some (h :: ls) /\ length ls = length rows /\
    map unindent (split c h) = [S_ "layer"; S_ "layer time in s"; S_ "travel distance in mm"; S_ "avg speed in mm/s"] /\
    forall i r, nth_error rows i = Some r -> exists l, nth_error ls i = Some l /\
      map unindent (split c l) = [S_ (NilEmpty.string_of_uint (Nat.to_uint (row_layer r))); w i 1%nat (row_duration r); w i 2%nat (row_travel r);
                                  match row_speed r with Some v => w i 3%nat v | None => S_ "NaN" end].
Proof.
  intros Hc Hw Hn Hb H. unfold write_layer_metrics in H. destruct (save_layer_metrics true bl) as [[rows'|]|]; try discriminate. cbn [bind] in H.
  unfold csv_file in H. destruct (existsb (aeqb "%"%char) [c]) eqn:E; [discriminate|]. cbn [bind] in H. injection H as <- ->. split; [reflexivity|].
  assert (Hc10 : c <> "010"%char) by (intros ->; apply Hc; left; reflexivity).
  assert (Hcb : c <> " "%char) by (intros ->; apply Hc; right; vm_compute; tauto).
  assert (Hhd : forall t, (forall x, In x t -> In x ("010"%char :: S_ "% NaN0123456789layer time in s travel distance in mm avg speed in mm/s")) -> ~ In c t).
  { intros t Ht Hi. apply Hc. apply Ht. exact Hi. }
  assert (Hdig : forall n, ~ In c (int_text n)).
  { intros n Hi. apply int_text_digits in Hi. apply Hc. right. vm_compute in Hi. vm_compute. tauto. }
  assert (Hcells : forall i r, Forall (fun t => ~ In c t) [int_text (row_layer r); w i 1%nat (row_duration r); w i 2%nat (row_travel r);
                      match row_speed r with Some v => w i 3%nat v | None => S_ "NaN" end]).
  { intros i r. repeat constructor; try apply Hw; [apply Hdig|]. destruct (row_speed r); [apply Hw|]. apply Hhd. intros x Hx. vm_compute in Hx. vm_compute. tauto. }
  exists (csv_header [c]), (csv_bodies w c 0 rows). split; [|split; [apply csv_bodies_length|split]].
  - rewrite csv_rows_concat.
    assert (Hls : Forall (fun t => ~ In "010"%char t) (csv_header [c] :: csv_bodies w c 0 rows)).
    { constructor.
      - intros Hi. unfold csv_header in Hi. cbn in Hi. repeat (destruct Hi as [Hi|Hi]; [try discriminate Hi; exact (Hc10 Hi)|]). exact Hi.
      - apply Forall_forall. intros t Ht. destruct (In_nth_error (A:=str) _ _ Ht) as (i & Hi). destruct (nth_error rows i) as [r|] eqn:Er.
        + pose proof (eq_trans (eq_sym Hi) (csv_bodies_nth w c rows 0 i r Er)) as X. injection X as ->. unfold csv_body. apply join_not_in.
          * cbn. intros [H|[H|[]]]; [exact (Hc10 H)|discriminate H].
          * repeat constructor; try apply Hn.
            -- intros H. apply int_text_digits in H. cbn in H. intuition discriminate.
            -- destruct (row_speed r); [apply Hn|]. cbn. intuition discriminate.
        + apply nth_error_None in Er. rewrite <- (csv_bodies_length w c rows 0) in Er. apply nth_error_None in Er. congruence. }
    refine (eq_trans _ (lines_concat _ Hls)). cbn [map concat]. rewrite <- app_assoc. reflexivity.
  - replace (csv_header [c]) with (join (c :: S_ " ") [S_ "layer"; S_ "layer time in s"; S_ "travel distance in mm"; S_ "avg speed in mm/s"]) by reflexivity.
    rewrite split_join.
    + reflexivity.
    + intros [Hi|[]]. congruence.
    + repeat constructor; apply Hhd; intros x Hx; vm_compute in Hx; vm_compute; tauto.
  - intros i r Hr. exists (csv_body w c i r). rewrite (csv_bodies_nth w c rows 0 i r Hr). split; [reflexivity|]. unfold csv_body. rewrite split_join; [|intros [Hi|[]]; congruence|apply Hcells].
    cbn [map]. assert (Hsp : forall t, ~ In " "%char t -> unindent (S_ " " ++ t) = t).
    { intros t Ht. change (unindent (S_ " " ++ t)) with (unindent t). apply unindent_plain. exact Ht. }
    rewrite !Hsp; try apply Hb.
    + rewrite unindent_plain; [reflexivity|]. intros Hi. apply int_text_digits in Hi. cbn in Hi. intuition discriminate.
    + destruct (row_speed r); [apply Hb|]. cbn. intuition discriminate.
Qed.
(** Without a layer cue nothing is written, without a file the metrics are the same. *)
Theorem C98_returned w delimiter bl :
  write_layer_metrics w false true delimiter bl = Ok None /\ write_layer_metrics w false false delimiter bl = Ok None /\
  (forall rows, save_layer_metrics true bl = Ok (Some rows) -> write_layer_metrics w true false delimiter bl = Ok (Some (None, rows))) /\
  (forall rows, save_layer_metrics true bl = Ok (Some rows) -> ~ In "%"%char delimiter ->
     exists text, write_layer_metrics w true true delimiter bl = Ok (Some (Some text, rows))).
Proof.
  split; [reflexivity|]. split; [reflexivity|]. split.
  - intros rows H. unfold write_layer_metrics. rewrite H. reflexivity.
  - intros rows H Hd. unfold write_layer_metrics. rewrite H. cbn [bind]. unfold csv_file.
    replace (existsb (aeqb "%"%char) delimiter) with false; [eexists; reflexivity|]. symmetry. apply not_true_iff_false. intros E.
    apply existsb_exists in E as (x & Hx & E). destruct (aeqb_spec "%"%char x); [subst; contradiction|discriminate].
Qed.
Example C98_case fw : separator ";"%char /\ never_writes small_writer ";"%char /\ never_writes small_writer "010"%char /\ never_writes small_writer " "%char /\
  exists bl text rows, valid_program diag0 [diag1; square2] /\ simulate fw [diag0; diag1; square2] = Ok (bl, false) /\
    write_layer_metrics small_writer true true (S_ ";") bl = Ok (Some (Some text, rows)).
Proof.
  split; [intros H; vm_compute in H; intuition discriminate|]. do 3 (split; [apply small_never; cbn; intuition discriminate|]).
  destruct (C50_example fw) as (bl & T & Hv & Hs & Hl & HT & Hno). exists bl.
  destruct (C50_layer_durations_partial _ _ _ _ _ _ Hv Hs Hl HT Hno) as (rows & E & _).
  destruct (C98_returned small_writer (S_ ";") bl) as (_ & _ & _ & H). destruct (H rows E) as (text & Ht); [cbn; intuition discriminate|].
  exists text, rows. auto.
Qed.

(** * C99: the dictionaries dumped as yaml *)
Lemma dget_passed {A} k (d : dict A) : dget k (map (fun kv => (fst kv, Passed (snd kv))) d) = option_map Passed (dget k d).
Proof. induction d as [|[k' v] d IH]; [reflexivity|]. simpl. destruct (str_eqb k k'); [reflexivity|exact IH]. Qed.
Theorem C99_submodel {A} (kwargs : dict A) bl c d : submodel_result kwargs bl c = Ok d ->
  exists m, write_submodel_times bl c = Ok m /\
    dget (S_ "time_process") d = Some (Number (time_process m)) /\ dget (S_ "n_filaments") d = Some (Count (length (time_in m))) /\
    dget (S_ "time_in") d = Some (Times (time_in m)) /\ dget (S_ "time_out") d = Some (Times (time_out m)) /\
    forall k, ~ In k [S_ "time_process"; S_ "n_filaments"; S_ "time_in"; S_ "time_out"] -> dget k d = option_map Passed (dget k kwargs).
Proof.
  intros H. unfold submodel_result in H. destruct (write_submodel_times bl c) as [m|] eqn:E; [|discriminate]. cbn [bind] in H. injection H as <-.
  exists m. split; [reflexivity|].
  assert (Hn : n_filaments m = length (time_in m)).
  { unfold write_submodel_times in E. destruct (timetable_loop c bl) as [[|x l]|]; try discriminate. cbn [bind] in E. destruct (rev bl); [discriminate|].
    destruct (last_seg _); [|discriminate]. cbn [bind] in E. injection E as <-. reflexivity. }
  unfold submodel_dict. rewrite !dget_dset. cbn [str_eqb]. rewrite <- Hn. split; [reflexivity|]. split; [reflexivity|]. split; [reflexivity|]. split; [reflexivity|].
  intros k Hk. rewrite !dget_dset. rewrite !str_eqb_false by (intros ->; apply Hk; simpl; tauto). apply dget_passed.
Qed.
(** The summary of a print, under the documented names. *)
Theorem C99_summary fw s0 states bl wn u k hist filename : valid_program s0 states -> simulate fw (s0 :: states) = Ok (bl, wn) ->
  no_moving_pause s0 states -> (exists b, In b bl /\ feeds b) -> unit_length u k ->
  exists d T x0 y0 z0 x1 y1 z1 m, summary_dict filename (after_queries (Sim bl u None) hist) = Ok d /\ length d = 9%nat /\
    dget (S_ "filename") d = Some (Text filename) /\
    dget (S_ "t_end") d = Some (Number T) /\ (exists v, on_path (unpack_blocklist bl) T v (final_position s0 states)) /\
    (forall t v p, on_path (unpack_blocklist bl) t v p -> t <= T) /\
    dget (S_ "x_min") d = Some (Number x0) /\ dget (S_ "x_max") d = Some (Number x1) /\
    dget (S_ "y_min") d = Some (Number y0) /\ dget (S_ "y_max") d = Some (Number y1) /\
    dget (S_ "z_min") d = Some (Number z0) /\ dget (S_ "z_max") d = Some (Number z1) /\
    dget (S_ "max_extrusion_travel_velocity") d = Some (Number m) /\
    (forall t v p, feeding_at bl t v p ->
       k * x0 <= vx p <= k * x1 /\ k * y0 <= vy p <= k * y1 /\ k * z0 <= vz p <= k * z1 /\ norm3 v <= k * m) /\
    (exists p, feed_end_point bl p /\ vx p = k * x0) /\ (exists p, feed_end_point bl p /\ vx p = k * x1) /\
    (exists p, feed_end_point bl p /\ vy p = k * y0) /\ (exists p, feed_end_point bl p /\ vy p = k * y1) /\
    (exists p, feed_end_point bl p /\ vz p = k * z0) /\ (exists p, feed_end_point bl p /\ vz p = k * z1) /\
    (exists t v p, feeding_at bl t v p /\ norm3 v = k * m).
Proof.
  intros Hv Hs Hnm Hf Hu. destruct (C83_summary _ _ _ _ _ Hv Hs u k hist Hnm Hf Hu) as (T & x0 & y0 & z0 & x1 & y1 & z1 & m & E & H1 & H2 & H3 & H4).
  eexists. exists T, x0, y0, z0, x1, y1, z1, m. unfold summary_dict. rewrite E. cbn [bind]. split; [reflexivity|]. repeat (split; [reflexivity|]).
  split; [exact H2|]. split; [exact H1|]. repeat (split; [reflexivity|]). split; [exact H3|exact H4].
Qed.
Example C99_case_submodel fw : exists b d, simulate fw [diag0; diag1] = Ok ([b], false) /\
  submodel_result [(S_ "material", 7%nat)] [b] cube_mid = Ok d.
Proof.
  destruct (C68_example fw) as (b & m & Hs & Hm & _). exists b. eexists. split; [exact Hs|]. unfold submodel_result. rewrite Hm. reflexivity.
Qed.
Example C99_case fw : exists bl b, valid_program ex0 ex_states /\ no_moving_pause ex0 ex_states /\
  simulate fw (ex0 :: ex_states) = Ok (bl, false) /\ In b bl /\ feeds b /\ unit_length (S_ "inch") (254 / 10).
Proof. exact (C83_case fw). Qed.

(** * C100: custom_print *)
Lemma filter_ascii l : ascii_part l (filter (fun c => c <? 128)%nat l).
Proof.
  induction l as [|c l IH]; [constructor|]. simpl. destruct (Nat.ltb_spec c 128); [apply ap_keep|apply ap_drop]; assumption.
Qed.
Lemma ascii_part_fun l r r' : ascii_part l r -> ascii_part l r' -> r = r'.
Proof.
  intros H. revert r'. induction H as [|c l r Hc _ IH|c l r Hc _ IH]; intros r' H'; inversion H'; subst; try lia; [reflexivity| |]; [f_equal|]; apply IH; assumption.
Qed.
(** In ABAQUS exactly the characters outside ASCII are left out, of every
    argument; an argument that is not a text raises.  Elsewhere everything is
    printed as it is. *)
Theorem C100_abaqus args out : custom_print true args = Ok out <->
  Forall2 (fun a o => exists l r, a = Chars l /\ o = Chars r /\ ascii_part l r) args out.
Proof.
  unfold custom_print. revert out. induction args as [|a args IH]; intros out; simpl.
  - split; [intros [= <-]; constructor|]. intros H. inversion H. reflexivity.
  - destruct a as [l|]; simpl.
    + destruct (sanitize_all args) as [xs|e] eqn:E; simpl.
      * split.
        -- intros [= <-]. constructor; [|apply IH; reflexivity]. exists l. eexists. split; [reflexivity|]. split; [reflexivity|]. apply filter_ascii.
        -- intros H. inversion H as [|? o ? os (l' & r & El & -> & Hr) Hos]; subst. injection El as <-. apply IH in Hos. injection Hos as ->.
           do 3 f_equal. exact (ascii_part_fun _ _ _ (filter_ascii l) Hr).
      * split; [discriminate|]. intros H. inversion H as [|? ? ? os _ Hos]; subst. apply IH in Hos. discriminate.
    + split; [discriminate|]. intros H. inversion H as [|? ? ? ? (l' & r & El & _) _]; subst. discriminate El.
Qed.
Theorem C100_ascii_only args out l c : custom_print true args = Ok out -> In (Chars l) out -> In c l -> (c < 128)%nat.
Proof.
  intros H Hl Hc. apply C100_abaqus in H. induction H as [|a o args out (l' & r & -> & -> & Hr) _ IH]; [destruct Hl|].
  destruct Hl as [E|Hl]; [|exact (IH Hl)]. injection E as <-. clear -Hr Hc. induction Hr as [|x l r Hx _ IH|x l r _ _ IH]; [destruct Hc| |exact (IH Hc)].
  destruct Hc as [<-|Hc]; [exact Hx|exact (IH Hc)].
Qed.
Theorem C100_otherwise args : custom_print false args = Ok args /\
  (forall l, Forall (fun c => (c < 128)%nat) l -> custom_print true [Chars l] = Ok [Chars l]) /\
  (custom_print true args = Err AttributeError <-> In Object args) /\ (forall e, custom_print true args = Err e -> e = AttributeError).
Proof.
  split; [reflexivity|]. split; [|split].
  - intros l Hl. apply C100_abaqus. constructor; [|constructor]. exists l, l. split; [reflexivity|]. split; [reflexivity|].
    induction Hl; constructor; assumption.
  - unfold custom_print. induction args as [|[l|] args IH]; simpl; [split; [discriminate|tauto]| |split; auto].
    destruct (sanitize_all args); simpl; split; intros H; try discriminate.
    + destruct H as [H|H]; [discriminate|]. apply IH in H. discriminate.
    + right. apply IH. exact H.
    + destruct H as [H|H]; [discriminate|]. apply IH in H. exact H.
  - unfold custom_print. induction args as [|[l|] args IH]; simpl; intros e H; try congruence.
    destruct (sanitize_all args); simpl in H; [discriminate|]. apply IH. exact H.
Qed.
(** A letter outside ASCII (233, an e with an accent) is left out. *)
Example C100_case : custom_print true [Chars [233; 32; 79; 107]%nat] = Ok [Chars [32; 79; 107]%nat].
Proof. vm_compute. reflexivity. Qed.

(** * C101: the names of blocks *)
Section Names.
Variables (fw : firmware) (s0 : kstate) (states : list kstate) (bl : list block) (wn : bool).
Hypothesis Hv : valid_program s0 states.
Hypothesis Hs : simulate fw (s0 :: states) = Ok (bl, wn).
Lemma block_shape b : In b bl -> b_segs b <> [] /\ (length (b_segs b) = 1%nat \/
  exists la lb lc, b_segs b = la ++ lb ++ lc /\ (length la <= 1)%nat /\ (length lb <= 1)%nat /\ (length lc <= 1)%nat /\
    Forall speeds_up la /\ Forall keeps_speed lb /\ Forall slows_down lc).
Proof.
  intros Hb. destruct (simulate_fchain _ _ _ _ _ Hv Hs) as (wl & Hfc). destruct (fchain_in _ _ _ _ _ _ Hfc b Hb) as (? & ? & ? & ? & ? & ? & Hwf).
  split; [exact (wf_nonempty _ _ _ _ _ _ _ Hwf)|]. pose proof (simulate_made _ _ _ _ Hs) as Hm. rewrite Forall_forall in Hm.
  destruct (k_pause (b_B b)) as [p|] eqn:Ep.
  - left. inversion Hwf as [? ? ? ? ? ? ? ? Hp|? ? ? _ _ _ E]; [congruence|]. rewrite E. reflexivity.
  - right. exact (made_shape _ _ _ _ _ _ _ Hwf (Hm b Hb) Ep).
Qed.
(** No block of a print is called invalid; a text has 40 characters. *)
Theorem C101_never_invalid b : In b bl -> ~ occurs (S_ "Invalid") (block_str b) /\ length (block_str b) = 40%nat /\
  (occurs (S_ "Trapezoid") (block_str b) <-> length (b_segs b) = 3%nat) /\
  (occurs (S_ "Triangular") (block_str b) <-> length (b_segs b) = 2%nat) /\
  (occurs (S_ "Singular") (block_str b) <-> length (b_segs b) = 1%nat).
Proof.
  intros Hb. destruct (block_shape b Hb) as [Hne Hsh].
  assert (L : length (b_segs b) = 1%nat \/ length (b_segs b) = 2%nat \/ length (b_segs b) = 3%nat).
  { assert (length (b_segs b) <> 0%nat) by (destruct (b_segs b); [contradiction|discriminate]).
    destruct Hsh as [?|(la & lb & lc & E & H1 & H2 & H3 & _)]; [left; assumption|]. rewrite E, !app_length in *. lia. }
  assert (Occ : forall k t, occurs k t <-> find k t <> None).
  { intros k t. split.
    - intros (x & y & ->) F. rewrite find_none in F. specialize (F (length x)). rewrite skipn_app, skipn_all, Nat.sub_diag in F. cbn [app skipn] in F.
      rewrite prefixb_self in F. discriminate.
    - intros F. destruct (find k t) as [i|] eqn:E; [|contradiction]. apply find_prefix in E as (post & E). exists (firstn i t), post. exact E. }
  rewrite !Occ. unfold block_str. destruct L as [-> | [-> | ->]]; vm_compute; intuition (try discriminate; try lia).
Qed.
(** "Trapezoid" is a block that speeds up, keeps its speed and slows down. *)
Theorem C101_trapezoid b : In b bl -> occurs (S_ "Trapezoid") (block_str b) <->
  exists x y z, b_segs b = [x; y; z] /\ speeds_up x /\ keeps_speed y /\ slows_down z.
Proof.
  intros Hb. destruct (C101_never_invalid b Hb) as (_ & _ & -> & _).
  split; [|intros (x & y & z & -> & _); reflexivity]. intros L. destruct (block_shape b Hb) as [_ [H|(la & lb & lc & E & H1 & H2 & H3 & Fa & Fb & Fc)]]; [congruence|].
  rewrite E, !app_length in L. destruct la as [|x [|]]; simpl in *; try lia. destruct lb as [|y [|]]; simpl in *; try lia. destruct lc as [|z [|]]; simpl in *; try lia.
  inversion Fa; inversion Fb; inversion Fc; subst. exists x, y, z. auto.
Qed.
(** "Triangular" is a block of two of these pieces. *)
Theorem C101_triangular_partial b : In b bl -> occurs (S_ "Triangular") (block_str b) ->
  exists x y, b_segs b = [x; y] /\ (speeds_up x /\ slows_down y \/ speeds_up x /\ keeps_speed y \/ keeps_speed x /\ slows_down y).
Proof.
  intros Hb H. apply (C101_never_invalid b Hb) in H. destruct (block_shape b Hb) as [_ [H'|(la & lb & lc & E & H1 & H2 & H3 & Fa & Fb & Fc)]]; [congruence|].
  rewrite E, !app_length in H. destruct la as [|x [|]]; simpl in *; try lia; (destruct lb as [|y [|]]; simpl in *; try lia); (destruct lc as [|z [|]]; simpl in *; try lia).
  - inversion Fb; inversion Fc; subst. exists y, z. auto.
  - inversion Fa; inversion Fc; subst. exists x, z. auto.
  - inversion Fa; inversion Fb; subst. exists x, y. auto.
Qed.
(** "Singular" is a block of one piece. *)
Theorem C101_singular b : In b bl -> occurs (S_ "Singular") (block_str b) <->
  exists x, b_segs b = [x].
Proof.
  intros Hb. destruct (C101_never_invalid b Hb) as (_ & _ & _ & _ & ->). destruct (b_segs b) as [|x [|y l]]; simpl; split; intros H; try discriminate; try (destruct H; discriminate).
  - exists x. reflexivity.
  - reflexivity.
Qed.
End Names.
(** Not every "Triangular" block speeds up and slows down. *)
Theorem C101_triangular_refuted : exists s0 states bl b, valid_program s0 states /\ simulate MarlinJerk (s0 :: states) = Ok (bl, false) /\ In b bl /\
  occurs (S_ "Triangular") (block_str b) /\ Forall (fun s => ~ slows_down s) (b_segs b).
Proof.
  destruct jerk_move as (b & Hs & Hb). exists (xstate 0 10 100 10 None), (tl (one_move 10)), [b], b.
  split; [apply one_move_valid; lra|]. split; [exact Hs|]. split; [left; reflexivity|]. split.
  - unfold block_str. rewrite Hb. exists (repeat "-"%char 8), (S_ " Planner Block--------"). reflexivity.
  - rewrite Hb. constructor; [|constructor; [|constructor]]; unfold slows_down; cbn [vel_begin vel_end first_ramp]; [|lra].
    rewrite !norm4_X by lra. lra.
Qed.

(** * C102: the text of a segment *)
Theorem C102_segments_of_a_print fw s0 states bl wn w s : valid_program s0 states -> simulate fw (s0 :: states) = Ok (bl, wn) ->
  In s (unpack_blocklist bl) -> never_writes w "010"%char ->
  exists t, segment_str w s = Ok t /\
    lines t = Some [[]; S_ "Segment from: "; position_str w 0 (pos_begin s) ++ S_ " to "; position_str w 1 (pos_end s) ++ S_ " Self check: None."].
Proof.
  intros Hv Hs Hin Hw. unfold segment_str.
  assert (E : self_check s = Ok tt).
  { apply in_flat_map in Hin as (b & Hb & Hin). destruct (simulate_fchain _ _ _ _ _ Hv Hs) as (wl & Hfc).
    destruct (fchain_in _ _ _ _ _ _ Hfc b Hb) as (? & ? & ? & ? & ? & ? & Hwf).
    destruct Hwf as [t p t' v0 v1 d eo dist _ _ _ _ _ _ _ _ _ Hm _ _ | t p x _ Hdt _ Hsegs].
    - clear -Hm Hin. induction Hm as [|t p v s1 v1 segs t' p' v' Ht Hp Hr Hm IH]; [destruct Hin|].
      destruct Hin as [<-|Hin]; [exact (ramp_self_check _ _ _ _ _ _ Hr)|exact (IH Hin)].
    - rewrite Hsegs in Hin. destruct Hin as [<-|[]]. apply self_check_ok; cbn; [lra|vec]. }
  rewrite E. cbn [bind]. eexists. split; [reflexivity|].
  refine (eq_trans _ (lines_concat _ _)).
  - f_equal. cbn [map concat]. rewrite <- !app_assoc. rewrite app_nil_r. reflexivity.
  - assert (Hn : forall i a, ~ In "010"%char (position_str w i a)).
    { intros i a H. unfold position_str, vec_str in H. cbn [join] in H. rewrite !in_app_iff in H.
      repeat (destruct H as [H|H]); try (revert H; apply Hw); cbn in H; intuition discriminate. }
    repeat constructor; [cbn; intuition discriminate.. | |]; rewrite in_app_iff; intros [H|H]; try (revert H; apply Hn); cbn in H; intuition discriminate.
Qed.
(** The text can be had exactly of the consistent segments. *)
Definition inconsistent (s : segment) : Prop :=
  t_end s < t_begin s \/
  let gap f := f (pos_end s) - (f (pos_begin s) + (t_end s - t_begin s) * (f (vel_begin s) + f (vel_end s)) / 2) in
  (1 / 1000000) * (1 / 1000000) < gap vx * gap vx + gap vy * gap vy + gap vz * gap vz.
Theorem C102_inconsistent w s : (segment_str w s = Err ValueError <-> inconsistent s) /\ (forall e, segment_str w s = Err e -> e = ValueError).
Proof.
  assert (L : forall x y, 0 <= x -> 0 <= y -> x < y <-> x * x < y * y) by (intros x y; split; nra).
  assert (N : forall a, 0 <= norm3 a) by apply norm3_nonneg.
  unfold segment_str, self_check, inconsistent. set (g := vsub (pos_end s) (predicted_end s)).
  assert (G : 1 / 1000000 < norm3 g <-> let gap f := f (pos_end s) - (f (pos_begin s) + (t_end s - t_begin s) * (f (vel_begin s) + f (vel_end s)) / 2) in
    (1 / 1000000) * (1 / 1000000) < gap vx * gap vx + gap vy * gap vy + gap vz * gap vz).
  { rewrite (L (1 / 1000000) (norm3 g)) by (try apply N; lra). rewrite norm3_sq. cbn zeta.
    assert (P : forall f, In f [vx; vy; vz] -> f g = f (pos_end s) - (f (pos_begin s) + (t_end s - t_begin s) * (f (vel_begin s) + f (vel_end s)) / 2)).
    { intros f [<-|[<-|[<-|[]]]]; unfold g, predicted_end, vsub, vadd, vdiv, vscale; cbn [vx vy vz]; field. }
    rewrite (P vx), (P vy), (P vz) by (cbn; tauto). reflexivity. }
  cbn zeta in *. split.
  - destruct (Rltb_spec (1 / 1000000) (norm3 g)) as [H|H]; cbn [bind].
    + split; [|reflexivity]. intros _. right. apply G. exact H.
    + destruct (Rltb_spec (t_end s) (t_begin s)) as [H'|H']; cbn [bind]; split; intros H0; try discriminate; auto.
      destruct H0 as [H0|H0]; [lra|]. apply G in H0. lra.
  - intros e. destruct (Rltb _ _); cbn [bind]; [congruence|]. destruct (Rltb _ _); cbn [bind]; congruence.
Qed.
(** The check is documented to return True (utils.py:321); no text says so. *)
Theorem C102_true_refuted : exists s0 states bl s, valid_program s0 states /\ simulate MarlinJerk (s0 :: states) = Ok (bl, false) /\ In s (unpack_blocklist bl) /\
  forall w t, segment_str w s = Ok t -> occurs (S_ "Self check: None.") t.
Proof.
  destruct jerk_move as (b & Hs & Hb). exists (xstate 0 10 100 10 None), (tl (one_move 10)), [b], first_ramp.
  split; [apply one_move_valid; lra|]. split; [exact Hs|]. split.
  - cbn. rewrite Hb. left. reflexivity.
  - intros w t H. unfold segment_str in H. destruct (self_check first_ramp); [|discriminate]. cbn [bind] in H.
    assert (H' := f_equal (fun r => match r with Ok x => x | Err _ => [] end) H). cbv beta iota in H'. rewrite <- H'.
    exists (newline ++ S_ "Segment from: " ++ newline ++ position_str w 0 (pos_begin first_ramp) ++ S_ " to " ++ newline ++ position_str w 1 (pos_end first_ramp) ++ S_ " "), newline.
    rewrite <- !app_assoc. reflexivity.
Qed.
Example C102_case : inconsistent (Seg 0 1 (X 0) (X 2) (X 1) (X 1)) /\ ~ inconsistent first_ramp.
Proof. unfold inconsistent, first_ramp, X; cbn. split; [right; lra|]. intros [H|H]; lra. Qed.

(** * C103: what the texts of vectors and states say *)
Lemma cutk c (k a b x y : str) : ~ In c a -> ~ In c b -> a ++ (c :: k) ++ x = b ++ (c :: k) ++ y -> a = b /\ x = y.
Proof. intros Ha Hb H. cbn [app] in H. apply cut in H as [-> H]; [|assumption..]. apply app_inv_head in H. auto. Qed.
Theorem C103_vectors w i a b : never_writes w ","%char ->
  vec_str w i a = vec_str w i b \/ velocity_str w i a = velocity_str w i b \/ position_str w i a = position_str w i b ->
  w i 0%nat (vx a) = w i 0%nat (vx b) /\ w i 1%nat (vy a) = w i 1%nat (vy b) /\ w i 2%nat (vz a) = w i 2%nat (vz b) /\ w i 3%nat (ve a) = w i 3%nat (ve b).
Proof.
  intros Hw H. assert (H' : vec_str w i a = vec_str w i b).
  { destruct H as [H|[H|H]]; [exact H| |]; unfold velocity_str, position_str in H; apply app_inv_head in H; exact H. }
  clear H. unfold vec_str in H'. apply app_inv_head in H'. apply app_inv_tail in H'. cbn [join] in H'.
  apply (cutk ","%char (S_ " ")) in H' as [? H']; [|apply Hw..]. apply (cutk ","%char (S_ " ")) in H' as [? H']; [|apply Hw..].
  apply (cutk ","%char (S_ " ")) in H' as [? H']; [|apply Hw..]. auto.
Qed.
(** a velocity is told from a position by its label *)
Theorem C103_labels w i j a b : velocity_str w i a <> position_str w j b /\
  velocity_str w i a = S_ "velocity: " ++ vec_str w i a /\ position_str w j b = S_ "position: " ++ vec_str w j b.
Proof. split; [|split; reflexivity]. intros H. discriminate H. Qed.
Theorem C103_states {N} (w : nat -> num N -> str) (s s' : state N) :
  (forall j x, ~ In ","%char (w j x)) -> all_numbers s -> all_numbers s' ->
  ~ In ","%char (units (state_p_settings s)) -> ~ In ","%char (units (state_p_settings s')) ->
  state_str w s = state_str w s' ->
  line_number s = line_number s' /\ layer s = layer s' /\ number_texts w s = number_texts w s' /\
  units (state_p_settings s) = units (state_p_settings s') /\
  (comment s = comment s' \/ (comment s = None /\ comment s' = Some (S_ "None")) \/ (comment s = Some (S_ "None") /\ comment s' = None)).
Proof.
  intros Hw Hn Hn' Hu Hu' H.
  assert (Hl : forall o, ~ In ","%char (none_or int_text o)).
  { intros [n|] Hi; cbn [none_or] in Hi; [apply int_text_digits in Hi|]; cbn in Hi; intuition discriminate. }
  assert (Hlinj : forall o o', none_or int_text o = none_or int_text o' -> o = o').
  { assert (D : forall n, int_text n <> S_ "None").
    { intros n E. assert (Hi : In "N"%char (int_text n)) by (rewrite E; left; reflexivity). apply int_text_digits in Hi. cbn in Hi. intuition discriminate. }
    intros [n|] [n'|] E; cbn [none_or] in E; [f_equal; exact (int_text_inj _ _ E)|destruct (D _ E)|destruct (D n'); symmetry; exact E|reflexivity]. }
  assert (Hj : forall (t : state N) j f, all_numbers t -> In f [jerk; p_acc; vX; vY; vZ; vE; speed] -> ~ In ","%char (sval_str w j (f (state_p_settings t)))).
  { intros t j f [Ht _] Hf. destruct (Ht f Hf) as [x ->]. apply Hw. }
  unfold state_str in H. apply app_inv_head in H.
  set (R1 := S_ ", " ++ pos4_str w (state_position s) ++ _) in H. set (R2 := S_ ", " ++ pos4_str w (state_position s') ++ _) in H.
  assert (H1 : line_number s = line_number s' /\ layer s = layer s' /\ R1 = R2).
  { destruct (layer s) as [n|], (layer s') as [n'|].
    - rewrite <- !app_assoc in H. apply (cutk ","%char (S_ " layer: ")) in H as [Ha H]; [|apply Hl..].
      assert (Hd : forall n, ~ In ","%char (int_text n)) by (intros m; exact (Hl (Some m))).
      unfold R1, R2 in H. apply (cutk ","%char (S_ " ")) in H as [Hb H]; [|apply Hd..].
      split; [exact (Hlinj _ _ Ha)|]. split; [f_equal; exact (int_text_inj _ _ Hb)|]. unfold R1, R2. f_equal. exact H.
    - exfalso. rewrite <- !app_assoc in H. cbn [app] in H. apply (cutk ","%char (S_ " ")) in H as [Ha H]; [discriminate H|apply Hl..].
    - exfalso. rewrite <- !app_assoc in H. cbn [app] in H. apply (cutk ","%char (S_ " ")) in H as [Ha H]; [discriminate H|apply Hl..].
    - cbn [app] in H. unfold R1, R2 in H. apply (cutk ","%char (S_ " ")) in H as [Ha H]; [|apply Hl..].
      split; [exact (Hlinj _ _ Ha)|]. split; [reflexivity|]. unfold R1, R2. f_equal. exact H. }
  destruct H1 as (Hline & Hlayer & HR). split; [exact Hline|]. split; [exact Hlayer|]. clear H. rename HR into H. subst R1 R2.
  apply app_inv_head in H. unfold pos4_str, settings_str in H. cbn [join] in H. rewrite <- !app_assoc in H. apply app_inv_head in H.
  assert (Hb : forall t : str, ~ In ","%char t -> ~ In ","%char (t ++ S_ "]")) by (intros t Ht Hi; apply in_app_iff in Hi as [Hi|Hi]; [contradiction|cbn in Hi; intuition discriminate]).
  apply (cutk ","%char (S_ " ")) in H as [X0 H]; [|apply Hw..].
  apply (cutk ","%char (S_ " ")) in H as [X1 H]; [|apply Hw..].
  apply (cutk ","%char (S_ " ")) in H as [X2 H]; [|apply Hw..].
  rewrite (app_assoc _ (S_ "]")) in H. rewrite (app_assoc (w 3%nat (pe (state_position s'))) (S_ "]")) in H.
  apply (cutk ","%char (S_ " settings: ")) in H as [X3 H]; [|apply Hb, Hw..]. apply app_inv_tail in X3.
  apply app_inv_head in H. 
  apply (cutk ","%char (S_ " p_acc: ")) in H as [X4 H]; [|apply Hj; [assumption|cbn; tauto]..].
  apply (cutk ","%char (S_ " max_ax_vel: [")) in H as [X5 H]; [|apply Hj; [assumption|cbn; tauto]..].
  apply (cutk ","%char (S_ " ")) in H as [X6 H]; [|apply Hj; [assumption|cbn; tauto]..].
  apply (cutk ","%char (S_ " ")) in H as [X7 H]; [|apply Hj; [assumption|cbn; tauto]..].
  apply (cutk ","%char (S_ " ")) in H as [X8 H]; [|apply Hj; [assumption|cbn; tauto]..].
  rewrite (app_assoc (sval_str w 9 (vE (state_p_settings s))) (S_ "]")) in H. rewrite (app_assoc (sval_str w 9 (vE (state_p_settings s'))) (S_ "]")) in H.
  apply (cutk ","%char (S_ " p_vel: ")) in H as [X9 H]; [|apply Hb, Hj; [assumption|cbn; tauto]..]. apply app_inv_tail in X9.
  apply (cutk ","%char (S_ " units: ")) in H as [X10 H]; [|apply Hj; [assumption|cbn; tauto]..].
  apply (cutk ","%char (S_ " comment: ")) in H as [X11 H]; [|assumption..].
  assert (Hp : forall t : state N, all_numbers t -> ~ In ","%char (S_ " pause: " ++ none_or (sval_str w 11) (pause t) ++ S_ ">" ++ newline)).
  { intros t [_ Ht] Hi. rewrite !in_app_iff in Hi. repeat (destruct Hi as [Hi|Hi]); try (cbn in Hi; intuition discriminate).
    destruct (pause t) as [v|]; cbn [none_or] in Hi; [|cbn in Hi; intuition discriminate]. destruct (Ht v eq_refl) as [x ->]. exact (Hw _ _ Hi). }
  apply (cut_right ","%char) in H as [X12 H]; [|apply (Hp s); assumption|apply (Hp s'); assumption].
  apply (app_inv_head (S_ " pause: ")) in H. apply app_inv_tail in H.
  split; [|split; [exact X11|]].
  - unfold number_texts. cbn zeta. cbn [app]. repeat (f_equal; [assumption|]).
    destruct (pause s) as [v|], (pause s') as [v'|]; cbn [none_or] in H; rewrite ?H; reflexivity || (f_equal; exact H).
  - destruct (comment s) as [c|], (comment s') as [c'|]; cbn [none_or] in X12.
    + left. f_equal. exact X12.
    + right. right. split; [f_equal; exact X12|reflexivity].
    + right. left. split; [reflexivity|f_equal; symmetry; exact X12].
    + left. reflexivity.
Qed.
(** A comment that looks like the end of the text does no harm. *)
Example C103_case : let w (_ : nat) (x : num Qops) := int_text (Z.to_nat (Qnum x)) in
  let st x := Build_state Qops (Build_pos4 Qops x x x x) (Build_p_settings Qops (@SNum Qops x) (@SNum Qops x) (@SNum Qops x) (@SNum Qops x) (@SNum Qops x) (@SNum Qops x) (@SNum Qops x) (S_ "SImm"))
    (Some 3%nat) (Some (S_ "a, pause: 7>")) (Some 1%nat) None in
  (forall j x, ~ In ","%char (w j x)) /\ all_numbers (st 1%Q) /\ ~ In ","%char (units (state_p_settings (st 1%Q))) /\ state_str (N:=Qops) w (st 1%Q) <> state_str (N:=Qops) w (st 2%Q) /\
  state_str (N:=Qops) w (st 1%Q) = S_ "<state: line: 3, layer: 1, position: [1, 1, 1, 1], settings: jerk: 1, p_acc: 1, max_ax_vel: [1, 1, 1, 1], p_vel: 1, units: SImm, comment: a, pause: 7>, pause: None>" ++ newline.
Proof.
  cbn zeta. split; [|split; [|split; [|split]]].
  - intros j x Hi. apply int_text_digits in Hi. cbn in Hi. intuition discriminate.
  - split; [|discriminate]. intros f Hf. exists 1%Q. cbn in Hf. intuition (subst; reflexivity).
  - cbn. intuition discriminate.
  - vm_compute. discriminate.
  - vm_compute. reflexivity.
Qed.

Print Assumptions C97_file.
Print Assumptions C97_on_trajectory.
Print Assumptions C97_refused.
Print Assumptions C98_file.
Print Assumptions C98_returned.
Print Assumptions C99_submodel.
Print Assumptions C99_summary.
Print Assumptions C100_abaqus.
Print Assumptions C100_ascii_only.
Print Assumptions C100_otherwise.
Print Assumptions C101_never_invalid.
Print Assumptions C101_trapezoid.
Print Assumptions C101_triangular_partial.
Print Assumptions C101_singular.
Print Assumptions C101_triangular_refuted.
Print Assumptions C102_segments_of_a_print.
Print Assumptions C102_inconsistent.
Print Assumptions C102_true_refuted.
Print Assumptions C103_vectors.
Print Assumptions C103_labels.
Print Assumptions C103_states.
