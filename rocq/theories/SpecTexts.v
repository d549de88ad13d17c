(** Vocabulary for the properties of written texts. *)
From Coq Require Import Reals.
From Verif Require Import Py Vec Segment Junction Planner.
Open Scope R_scope.

(** A text cut at every [c], as a reader of such files does it. *)
Fixpoint split (c : ascii) (s : str) : list str :=
  match s with
  | [] => [[]]
  | x :: s' =>
    if aeqb x c then [] :: split c s'
    else match split c s' with [] => [[x]] | y :: l => (x :: y) :: l end
  end.
(** The lines of a text; [None] if the last one is not ended. *)
Definition lines (s : str) : option (list str) :=
  match rev (split "010"%char s) with [] :: l => Some (rev l) | _ => None end.
(** Without the blanks in front. *)
Fixpoint unindent (s : str) : str :=
  match s with [] => [] | x :: s' => if aeqb x " "%char then unindent s' else s end.
(** [r] is [x] rounded to 8 digits behind the point, half to even. *)
Definition rounded8 (x r : R) : Prop :=
  exists z, r = IZR z / 100000000 /\ Rabs (x - r) <= 1 / 200000000 /\
            (Rabs (x - r) = 1 / 200000000 -> Z.even z = true).
(** No text that [w] writes has the character [c] in it. *)
Definition never_writes (w : nat -> nat -> R -> str) (c : ascii) : Prop := forall i j x, ~ In c (w i j x).
(** [t] without the characters that are not ASCII. *)
Inductive ascii_part : list nat -> list nat -> Prop :=
| ap_nil : ascii_part [] []
| ap_keep c l r : (c < 128)%nat -> ascii_part l r -> ascii_part (c :: l) (c :: r)
| ap_drop c l r : (128 <= c)%nat -> ascii_part l r -> ascii_part (c :: l) r.
(** How the speed changes on a segment. *)
Definition speeds_up (s : segment) : Prop := norm4 (vel_begin s) < norm4 (vel_end s).
Definition slows_down (s : segment) : Prop := norm4 (vel_end s) < norm4 (vel_begin s).
Definition keeps_speed (s : segment) : Prop := vel_begin s = vel_end s.
(** The word [k] occurs in [t]. *)
Definition occurs (k t : str) : Prop := exists a b, t = a ++ k ++ b.
(** The settings are numbers, and so is the pause. *)
From Verif Require Import StateGen.
Definition all_numbers {N} (s : state N) : Prop :=
  (forall f, In f [jerk; p_acc; vX; vY; vZ; vE; speed] -> exists x, f (state_p_settings s) = SNum x) /\
  (forall v, pause s = Some v -> exists x, v = SNum x).
(** The numbers of a state, as [w] writes them. *)
Definition number_texts {N} (w : nat -> num N -> str) (s : state N) : list str :=
  let p := state_position s in
  let txt j v := match v with SNum x => w j x | SStr t => t end in
  [w 0%nat (px p); w 1%nat (py p); w 2%nat (pz p); w 3%nat (pe p)] ++
  (let q := state_p_settings s in
   [txt 4%nat (jerk q); txt 5%nat (p_acc q); txt 6%nat (vX q); txt 7%nat (vY q); txt 8%nat (vZ q); txt 9%nat (vE q); txt 10%nat (speed q)]) ++
  [match pause s with Some v => txt 11%nat v | None => S_ "None" end].
(** A character that can separate the fields of the layer metrics: not a line
    end or blank, not in the header, in an integer or in NaN, no percent sign. *)
Definition separator (c : ascii) : Prop :=
  ~ In c ("010"%char :: S_ "% NaN0123456789layer time in s travel distance in mm avg speed in mm/s").
