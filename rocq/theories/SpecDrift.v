(** Programs for which the drift of rounded plans is bounded, and what near
    means. *)
From Coq Require Import Reals.
From Verif Require Import Py Vec StateGen Junction Planner Generic SpecGeneric.
Open Scope R_scope.

Section Drift.
Variable rnd : R -> R.
Notation k := (Bk rnd).
(** Along x, y and z at most [e] apart *)
Definition near (e : R) (p q : gvec k) : Prop :=
  Rabs (gx k p - gx k q) <= e /\ Rabs (gy k p - gy k q) <= e /\ Rabs (gz k p - gz k q) <= e.
Definition length3 (A B : gkstate k) : R :=
  let p := gk_pos k A in let q := gk_pos k B in
  sqrt ((gx k q - gx k p) * (gx k q - gx k p) + (gy k q - gy k p) * (gy k q - gy k p) + (gz k q - gz k p) * (gz k q - gz k p)).
(** speed at most [V], acceleration at least [a], within [M] of the origin *)
Definition fine_state (a V M : R) (s : gkstate k) : Prop :=
  tiny <= gk_speed k s <= V /\ a <= gk_acc k s /\ 0 <= gk_jerk k s /\
  Rabs (gx k (gk_pos k s)) <= M /\ Rabs (gy k (gk_pos k s)) <= M /\ Rabs (gz k (gk_pos k s)) <= M.
(** The head stays, or it moves by a length the planner can see; it does not
    move while it waits. *)
Definition fine_step (A B : gkstate k) : Prop :=
  (gk_pause k B <> None -> gk_pos k B = gk_pos k A) /\
  (near 0 (gk_pos k B) (gk_pos k A) \/
   tiny <= length3 A B /\ 33 * uu * (gk_speed k B * gk_speed k B) <= gk_acc k B * length3 A B).
(** What the extruder does: alone it turns by a length the planner can see, and
    while the head moves by no more than the head moves. *)
Definition fine_extrusion (A B : gkstate k) : Prop :=
  let e := Rabs (ge k (gk_pos k B) - ge k (gk_pos k A)) in
  (near 0 (gk_pos k B) (gk_pos k A) ->
     ge k (gk_pos k B) = ge k (gk_pos k A) \/ tiny <= e /\ 33 * uu * (gk_speed k B * gk_speed k B) <= gk_acc k B * e) /\
  (tiny <= length3 A B -> e <= length3 A B).
Fixpoint fine_steps (A : gkstate k) (states : list (gkstate k)) : Prop :=
  match states with
  | [] => True
  | B :: rest => fine_step A B /\ fine_steps B rest
  end.
Fixpoint fine_extrusions (A : gkstate k) (states : list (gkstate k)) : Prop :=
  match states with
  | [] => True
  | B :: rest => fine_extrusion A B /\ fine_extrusions B rest
  end.
(** On all four axes at most [e] apart *)
Definition near4 (e : R) (p q : gvec k) : Prop := near e p q /\ Rabs (ge k p - ge k q) <= e.
(** The error of one line: 2000 times that of one operation on a number of the
    size of the printer and of its longest ramp *)
Definition line_drift (a V M : R) : R := 2000 * uu * (M + V * V / a).
End Drift.
Arguments near {rnd}. Arguments length3 {rnd}. Arguments fine_state {rnd}. Arguments fine_step {rnd}. Arguments fine_steps {rnd}.
Arguments fine_extrusion {rnd}. Arguments fine_extrusions {rnd}. Arguments near4 {rnd}.
