(** Vocabulary of the reader properties: what a parsed line says, modal
    settings, and an abstract G-code machine. *)
From Coq Require Import Reals.
From Verif Require Import Py PyFloat Parser StateGen.
Open Scope nat_scope.

(** The value of argument [key] of command [cmd] on a line. *)
Definition word (cmd key : str) (l : line_dict) : option leaf :=
  match dget cmd (ld l) with Some (ADict s) => dget key s | _ => None end.
Definition flag (cmd : str) (l : line_dict) : Prop := exists v, dget cmd (ld l) = Some v.
Definition flagb (cmd : str) (l : line_dict) : bool := match dget cmd (ld l) with Some _ => true | None => false end.
(** The last of G0 and G1 that names the argument. *)
Definition move_word (key : str) (l : line_dict) : option leaf :=
  match word (S_ "G1") key l with Some v => Some v | None => word (S_ "G0") key l end.

(** A switch that [on] sets and [off] clears ([off] wins on the same line). *)
Definition switch (on off : str) (b : bool) (ls : list line_dict) : bool :=
  fold_left (fun b l => if flagb off l then false else if flagb on l then true else b) ls b.
(** Absolute mode after reading [ls], for the axis. *)
Definition absolute_after (a : axis) (ls : list line_dict) : bool :=
  match a with AE => switch (S_ "M82") (S_ "M83") true ls | _ => switch (S_ "G90") (S_ "G91") true ls end.

Definition coord {N} (a : axis) (p : pos4 N) : num N :=
  match a with AX => px p | AY => py p | AZ => pz p | AE => pe p end.
Definition axis_limit {N} (a : axis) (p : p_settings N) : sval N :=
  match a with AX => vX p | AY => vY p | AZ => vZ p | AE => vE p end.
Definition name (a : axis) : str := match a with AX => S_ "X" | AY => S_ "Y" | AZ => S_ "Z" | AE => S_ "E" end.

(** Reading [before ++ line :: after] succeeds, with state [s] before and
    state [s'] after the line. *)
Definition reads {N} (su : setup_values N) (before : list line_dict) (line : line_dict) (s s' : state N) : Prop :=
  exists after sts, dict_list_traveler N (before ++ line :: after) su = Ok sts /\
    nth_error sts (length before) = Some s /\ nth_error sts (S (length before)) = Some s'.

(** The value a leaf means. *)
Definition means {N} (l : leaf) (x : num N) : Prop := exists m e, l = LNum (Dec m e) /\ x = n_of_dec N m e.
(** The setting stored for a leaf: the number, or the text if it is none. *)
Definition stored {N} (l : leaf) (v : sval N) : Prop :=
  (exists m e, l = LNum (Dec m e) /\ v = SNum (n_of_dec N m e)) \/ (exists s, l = LStr s /\ v = SStr s).
(** A modal setting: the new value if the line gives one, else the old one. *)
Definition modal {A} (w : option leaf) (new : leaf -> A -> Prop) (old v : A) : Prop :=
  match w with None => v = old | Some l => new l v end.

(** * An abstract G-code machine over the reals *)
Record gmachine := {
  g_pos : axis -> R;      (* physical position *)
  g_off : axis -> R;      (* physical position of work coordinate 0 *)
  g_abs : axis -> bool;   (* absolute mode *)
  g_feed : sval Rops; g_acc : sval Rops; g_jerk : sval Rops;
  g_lim : axis -> sval Rops; g_unit : str }.

(** A motion command, executed if present. *)
Definition g_move (cmd : str) (l : line_dict) (ab : axis -> bool) (off p p' : axis -> R) : Prop :=
  forall a, match word cmd (name a) l with
            | None => p' a = p a
            | Some lf => exists v : R, means (N := Rops) lf v /\ p' a = (if ab a then v + off a else p a + v)%R
            end.
Definition seconds_feed (l : leaf) (v : sval Rops) : Prop :=
  exists x : R, means (N := Rops) l x /\ v = SNum (N := Rops) (x / 60)%R.

(** One line: modes first, then G0, G1, then G92, which renames the current
    position without moving; settings are modal. *)
Definition g_line (l : line_dict) (g g' : gmachine) : Prop :=
  (forall a, g_abs g' a = match a with
                          | AE => if flagb (S_ "M83") l then false else if flagb (S_ "M82") l then true else g_abs g a
                          | _ => if flagb (S_ "G91") l then false else if flagb (S_ "G90") l then true else g_abs g a
                          end) /\
  g_unit g' = (if flagb (S_ "G21") l then S_ "SImm" else if flagb (S_ "G20") l then S_ "inch" else g_unit g) /\
  (exists p1, g_move (S_ "G0") l (g_abs g') (g_off g) (g_pos g) p1 /\
              g_move (S_ "G1") l (g_abs g') (g_off g) p1 (g_pos g')) /\
  (forall a, match word (S_ "G92") (name a) l with
             | None => g_off g' a = g_off g a
             | Some lf => exists v : R, means (N := Rops) lf v /\ g_off g' a = (g_pos g' a - v)%R
             end) /\
  modal (move_word (S_ "F") l) seconds_feed (g_feed g) (g_feed g') /\
  modal (word (S_ "M204") (S_ "P") l) (stored (N := Rops)) (g_acc g) (g_acc g') /\
  modal (word (S_ "M205") (S_ "X") l) (stored (N := Rops)) (g_jerk g) (g_jerk g') /\
  (forall a, modal (word (S_ "M203") (name a) l) (stored (N := Rops)) (g_lim g a) (g_lim g' a)).

(** The machine before the first line. *)
Definition g_start (su : setup_values Rops) (g : gmachine) : Prop :=
  g_pos g AX = s_X Rops su /\ g_pos g AY = s_Y Rops su /\ g_pos g AZ = s_Z Rops su /\ g_pos g AE = s_E Rops su /\
  (forall a, g_off g a = 0%R /\ g_abs g a = true) /\
  g_feed g = SNum (s_p_vel Rops su) /\ g_acc g = SNum (s_p_acc Rops su) /\ g_jerk g = SNum (s_jerk Rops su) /\
  g_lim g AX = SNum (s_vX Rops su) /\ g_lim g AY = SNum (s_vY Rops su) /\
  g_lim g AZ = SNum (s_vZ Rops su) /\ g_lim g AE = SNum (s_vE Rops su) /\ g_unit g = S_ "SImm".

(** What a state shows of the machine. *)
Definition shows (s : state Rops) (g : gmachine) : Prop :=
  (forall a, coord a (state_position s) = g_pos g a) /\
  speed (state_p_settings s) = g_feed g /\ p_acc (state_p_settings s) = g_acc g /\
  jerk (state_p_settings s) = g_jerk g /\ units (state_p_settings s) = g_unit g /\
  forall a, axis_limit a (state_p_settings s) = g_lim g a.

(** An execution of the machine: the machines after each line. *)
Inductive g_run : gmachine -> list line_dict -> list gmachine -> Prop :=
| g_nil g : g_run g [] []
| g_cons g l g' ls gs : g_line l g g' -> g_run g' ls gs -> g_run g (l :: ls) (g' :: gs).

(** Every G92 on the line sets coordinates to zero. *)
Definition g92_zero (l : line_dict) : Prop :=
  forall a lf, word (S_ "G92") (name a) l = Some lf -> exists e, lf = LNum (Dec 0 e).
(** Parsed lines are dictionaries: every key once, also in the arguments. *)
Definition proper_line (l : line_dict) : Prop :=
  NoDup (dkeys (ld l)) /\ forall cmd s, dget cmd (ld l) = Some (ADict s) -> NoDup (dkeys s).

(** * Vocabulary of single properties *)
(** The pause a line asks for: G4 S (seconds) wins over G4 P (milliseconds). *)
Definition dwell_means {N} (l : line_dict) (p : option (sval N)) : Prop :=
  match word (S_ "G4") (S_ "S") l with
  | Some lf => exists x, stored (N := N) lf x /\ p = Some x
  | None => match word (S_ "G4") (S_ "P") l with
            | Some lf => exists x, means (N := N) lf x /\ p = Some (SNum (n_div N x 1000))
            | None => p = None
            end
  end.
(** The line does not rename the axis. *)
Definition no_g92 (a : axis) (l : line_dict) : Prop := word (S_ "G92") (name a) l = None.
Definition coordR (a : axis) (s : state Rops) : R := coord a (state_position s).
Definition meansR (l : leaf) (x : R) : Prop := means (N := Rops) l x.
(** How far a line moves an axis in relative mode. *)
Definition amount (cmd : str) (a : axis) (l : line_dict) (v : R) : Prop :=
  match word cmd (name a) l with None => v = 0%R | Some lf => meansR lf v end.
Definition increment (a : axis) (l : line_dict) (v : R) : Prop :=
  exists v0 v1, amount (S_ "G0") a l v0 /\ amount (S_ "G1") a l v1 /\ v = (v0 + v1)%R.
(** The same line with G1 for G0. *)
Definition rename (k : str) : str := if str_eqb k (S_ "G0") then S_ "G1" else k.
Definition as_g1 (l : line_dict) : line_dict :=
  {| ld := map (fun kv => (rename (fst kv), snd kv)) (ld l); ld_number := ld_number l |}.
(** Commands that are known but not supported, and how many lines hold one. *)
Definition unsupported (k : str) : Prop := In k [S_ "G2"; S_ "G3"; S_ "G10"; S_ "G11"; S_ "G28"; S_ "G29"].
Definition lines_with (k : str) (ls : list line_dict) : nat :=
  length (filter (fun l => existsb (str_eqb k) (dkeys (ld l))) ls).
(** [u] is [t] without the white space at both ends. *)
Definition stripped (t u : str) : Prop :=
  (exists a b, t = a ++ u ++ b /\ Forall (fun c => is_space c = true) (a ++ b)) /\
  (forall x r, u = x :: r -> is_space x = false) /\ (forall x r, u = r ++ [x] -> is_space x = false).
(** Lines so far whose stripped comment is the cue. *)
Definition has_cue (cue : str) (l : line_dict) : Prop :=
  exists t, dget (S_ ";") (ld l) = Some (ALeaf (LStr t)) /\ stripped t cue.
Inductive cue_count (cue : str) : list line_dict -> nat -> Prop :=
| cc_nil : cue_count cue [] 0
| cc_cue ls l n : cue_count cue ls n -> has_cue cue l -> cue_count cue (ls ++ [l]) (S n)
| cc_other ls l n : cue_count cue ls n -> ~ has_cue cue l -> cue_count cue (ls ++ [l]) n.
(** Everything a state shows except its line number. *)
Definition view {N} (s : state N) := (state_position s, state_p_settings s, pause s, comment s, layer s).
(** The same for a program given as text. *)
Definition reads_text {N} (su : setup_values N) (before : list str) (line : str) (s s' : state N) : Prop :=
  exists after sts, generate_states N (before ++ line :: after) su = Ok sts /\
    nth_error sts (length before) = Some s /\ nth_error sts (S (length before)) = Some s'.
(** The line without G20 and G21. *)
Definition no_units (l : line_dict) : line_dict :=
  {| ld := filter (fun kv => negb (str_eqb (fst kv) (S_ "G20")) && negb (str_eqb (fst kv) (S_ "G21"))) (ld l);
     ld_number := ld_number l |}.
