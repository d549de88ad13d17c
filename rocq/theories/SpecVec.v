(** Vocabulary for the properties of the vector classes: what utils.py
    documents as arguments and results. *)
From Coq Require Import Reals.
From Verif Require Import Py Vec VecOps.
Open Scope R_scope.

(** A documented vector argument with the coordinates [b]: a 4D vector, or a
    list, tuple or array of four numbers. *)
Definition vector_arg (o : operand) (b : vec4) : Prop :=
  (exists d, o = OVec d b) \/ o = OSeq [vx b; vy b; vz b; ve b].
(** A documented scalar argument: a float (also numpy's) or an int. *)
Definition scalar_arg (o : operand) (k : R) : Prop :=
  o = ONum (NFloat k) \/ o = ONum (NFloat64 k) \/ exists z, o = ONum (NInt z) /\ k = IZR z.
(** The number an argument stands for. *)
Definition number_is (n : number) (x : R) : Prop :=
  n = NFloat x \/ n = NFloat64 x \/ n = NOther x \/ exists z, n = NInt z /\ x = IZR z.
(** [r] is [f] applied to the coordinates of [a] and [b]. *)
Definition componentwise (f : R -> R -> R) (a b r : vec4) : Prop :=
  vx r = f (vx a) (vx b) /\ vy r = f (vy a) (vy b) /\ vz r = f (vz a) (vz b) /\ ve r = f (ve a) (ve b).
Definition scaled_by (f : R -> R -> R) (a : vec4) (k : R) (r : vec4) : Prop :=
  vx r = f (vx a) k /\ vy r = f (vy a) k /\ vz r = f (vz a) k /\ ve r = f (ve a) k.
(** Equal up to the tolerance of numpy, relative to [b]. *)
Definition close_to (a b : vec4) : Prop :=
  forall f, In f [vx; vy; vz; ve] -> Rabs (f a - f b) <= 1 / 100000000 + 1 / 100000 * Rabs (f b).
(** Euclidean distances. *)
Definition dist3 (a b : vec4) : R := sqrt (Rsqr (vx a - vx b) + Rsqr (vy a - vy b) + Rsqr (vz a - vz b)).
Definition dist4 (a b : vec4) : R := sqrt (Rsqr (vx a - vx b) + Rsqr (vy a - vy b) + Rsqr (vz a - vz b) + Rsqr (ve a - ve b)).
