(** Vocabulary of C120: which lines of a program the blocks of its simulation
    come from, and what their segments look like, whatever the numbers are. *)
From Coq Require Import List.
From Verif Require Import Py Junction Planner Generic.

Section Shape.
Variable k : kops.
(** Along the direction [d]: both velocities are multiples of it, and so is the way. *)
Definition straight (d : gvec k) (s : gsegment k) : Prop :=
  (exists v, gvel_begin k s = gvscale k v d) /\ (exists v, gvel_end k s = gvscale k v d) /\ (exists r, gpos_end k s = gvadd k (gpos_begin k s) (gvscale k r d)).
(** One segment at rest *)
Definition resting (segs : list (gsegment k)) : Prop :=
  exists s, segs = cons s nil /\ gpos_end k s = gpos_begin k s /\ gvel_begin k s = gzero k /\ gvel_end k s = gzero k.
(** More filament is out at [b] than at [a]: what makes a block an extruding one *)
Definition pushes (a b : gkstate k) : bool := k_ltb k (k0 k) (k_sub k (ge k (gk_pos k b)) (ge k (gk_pos k a))).
(** The block from the state [a] to the state [b]: one to three segments.  A
    line that asks for no dwell moves along the direction of the block; one
    that asks for a dwell and does not move rests.  A block with a direction is
    an extruding one exactly if the line pushes filament out, one without never. *)
Definition between (a b : gkstate k) (x : gblock k) : Prop :=
  gb_A k x = a /\ gb_B k x = b /\ 1 <= length (gb_segs k x) <= 3 /\
  match gb_dir k x with
  | Some d => gb_extr k x = pushes a b /\ (Forall (straight d) (gb_segs k x) \/ (gk_pause k b <> None /\ resting (gb_segs k x)))
  | None => gb_extr k x = false /\ gk_pause k b <> None /\ resting (gb_segs k x)
  end.
(** The blocks are those of some of the lines, in their order; no line with a
    dwell is left out. *)
Inductive blocks_of : gkstate k -> list (gkstate k) -> list (gblock k) -> Prop :=
| no_line a : blocks_of a nil nil
| line_without a b states bl : gk_pause k b = None -> blocks_of b states bl -> blocks_of a (cons b states) bl
| line_with a b states x bl : between a b x -> blocks_of b states bl -> blocks_of a (cons b states) (cons x bl).
End Shape.
(** Layers with a number, which never goes down and is at least [n] *)
Fixpoint rising (n : nat) (layers : list (option nat)) : Prop :=
  match layers with
  | nil => True
  | cons (Some m) r => n <= m /\ rising m r
  | cons None _ => False
  end.
