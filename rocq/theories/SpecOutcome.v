(** Vocabulary of C116: the exceptions a simulation can end with, whatever the
    numbers are. *)
From Coq Require Import List.
From Verif Require Import Py Junction Planner Generic.

Section Outcome.
Variable k : kops.
(** A dwell is asked for somewhere. *)
Definition pauses (states : list (gkstate k)) : Prop := exists s, In s states /\ gk_pause k s <> None.
(** An acceleration is not positive. *)
Definition no_acceleration (states : list (gkstate k)) : Prop := exists s, In s states /\ k_leb k (gk_acc k s) (k0 k) = true.
Definition may_raise (states : list (gkstate k)) (e : pyexc) : Prop :=
  match e with
  | RuntimeError   (* a segment fails self_check *)
  | NameError      (* no profile fits; or the end of a segment is not the begin of the next *)
  | AttributeError (* no block in front to correct or to wait after *)
  | IndexError     (* a block planned again has no segments *) => True
  | ValueError     (* a dwell fails self_check *)
  | TypeError      (* a dwell is to be planned again *) => pauses states
  | Unmodelled => no_acceleration states
  | _ => False
  end.
End Outcome.
