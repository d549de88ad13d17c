(** The generic planner of Generic.v beside the planner over the real numbers,
    and the setup the examples use. *)
From Coq Require Import Reals.
From Verif Require Import Py Vec Segment StateGen Junction Planner Generic.
Open Scope R_scope.

(** The same values as records of Planner.v *)
Definition to4 (a : gvec Rk) : vec4 := V4 (gx Rk a) (gy Rk a) (gz Rk a) (ge Rk a).
Definition toseg (s : gsegment Rk) : segment :=
  Seg (gt_begin Rk s) (gt_end Rk s) (to4 (gpos_begin Rk s)) (to4 (gpos_end Rk s)) (to4 (gvel_begin Rk s)) (to4 (gvel_end Rk s)).
Definition tok (s : gkstate Rk) : kstate :=
  KState (to4 (gk_pos Rk s)) (gk_speed Rk s) (gk_acc Rk s) (gk_jerk Rk s) (gk_pause Rk s) (gk_layer Rk s).
Definition toblock (b : gblock Rk) : block :=
  Block (tok (gb_A Rk b)) (tok (gb_B Rk b)) (option_map to4 (gb_dir Rk b)) (map toseg (gb_segs Rk b)) (gb_type Rk b)
    (gb_extr Rk b) (to4 (gb_JD Rk b)).
Definition rmap {A B} (f : A -> B) (x : res A) : res B := match x with Ok a => Ok (f a) | Err e => Err e end.
Definition tores2 (x : list (gblock Rk) * bool) : list block * bool := (map toblock (fst x), snd x).

(** The numbers of prusa_mini in default_printer_presets.yaml:18-31 *)
Definition mini (k : kops) : setup_values (knum k) :=
  Build_setup_values (knum k) (k_dec k 35 0) (k_dec k 1250 0) (k_dec k 8 0)
    (k_dec k 180 0) (k_dec k 180 0) (k_dec k 12 0) (k_dec k 80 0)
    (k_dec k 0 0) (k_dec k 0 0) (k_dec k 0 0) (k_dec k 0 0) None.

(** 2^-53: the relative error of one operation on doubles *)
Definition uu : R := / 9007199254740992.
(** A lower end of the numbers, far above the smallest double *)
Definition tiny : R := / 10 ^ 100.
