(** Vocabulary for the rounding properties. *)
From Coq Require Import Reals.
From Verif Require Import Py PyFloat Parser StateGen SpecMachine Rounding.
Open Scope R_scope.

(** A double: a mantissa of at most 53 bits times a power of two. *)
Definition double (f : R) : Prop :=
  exists m e : Z, (Z.abs m < 2 ^ 53)%Z /\ (-1074 <= e)%Z /\ f = IZR m * powerRZ 2 e.
(** [rnd] has relative error [u] and absolute error [eta]. *)
Definition rounds (u eta : R) (rnd : R -> R) : Prop :=
  0 <= u /\ 0 <= eta /\ forall x, Rabs (rnd x - x) <= u * Rabs x + eta.
(** The coordinates on a line are at most [M]. *)
Definition words_within (M : R) (l : line_dict) : Prop :=
  forall cmd a lf x, In cmd [S_ "G0"; S_ "G1"] -> word cmd (name a) l = Some lf -> meansR lf x -> Rabs x <= M.
(** The coordinates of a state are at most [M]. *)
Definition within (M : R) (s : state Rops) : Prop := forall a, Rabs (coordR a s) <= M.
(** What does not depend on the numbers. *)
Definition same_kind {N N'} (v : sval N) (v' : sval N') : Prop :=
  match v, v' with SNum _, SNum _ => True | SStr t, SStr t' => t = t' | _, _ => False end.
Definition same_words {N N'} (s : state N) (s' : state N') : Prop :=
  line_number s = line_number s' /\ comment s = comment s' /\ layer s = layer s' /\
  (let p := state_p_settings s in let p' := state_p_settings s' in
   units p = units p' /\ same_kind (speed p) (speed p') /\ same_kind (p_acc p) (p_acc p') /\ same_kind (jerk p) (jerk p') /\
   forall a, same_kind (axis_limit a p) (axis_limit a p')) /\
  match pause s, pause s' with None, None => True | Some v, Some v' => same_kind v v' | _, _ => False end.
Definition coordF {rnd} (a : axis) (s : state (Fops rnd)) : R := coord a (state_position s).
