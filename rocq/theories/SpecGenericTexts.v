(** Vocabulary of C118: what the lines of the Abaqus file, written with
    doubles, have to say. *)
From Coq Require Import Reals SpecFloat List.
From Verif Require Import Py PyFloat Vec Segment Generic SpecGeneric SpecIEEE SpecBridge SpecRepr.
Open Scope R_scope.

(** The points of a trajectory that are written: where it begins, at the time
    zero, and where each segment ends. *)
Definition corners (path : list segment) : list (R * vec4) :=
  match path with
  | nil => nil
  | cons s _ => (0, pos_begin s) :: map (fun g => (t_end g, pos_end g)) path
  end.
(** The text is read as the double [t]. *)
Definition reads_back (txt : str) (t : R) : Prop := exists y, read_float txt = Some y /\ proper y /\ fval y = t.
(** The text shows a number with 8 decimals that is the coordinate [a], to half
    of the last decimal and a few roundings. *)
Definition shows (txt : str) (a : R) : Prop := exists z : Z,
  text_means txt (IZR z / 100000000) /\ Rabs (IZR z / 100000000 - a) <= / 200000000 + 6 * uu * Rabs a + tiny.
(** "1" only if more than [tol] is fed up to the next point, "0" only if less
    than [tol] and a rounding is, or if it is the last point. *)
Definition flag_right (tol : R) (f : str) (e : R) (next : option (R * vec4)) : Prop :=
  match next with
  | None => f = S_ "0"
  | Some (_, p) => (f = S_ "1" /\ tol < ve p - e) \/ (f = S_ "0" /\ ve p - e <= tol + 2 * uu * Rabs tol + tiny)
  end.
(** No further than about a kilometre (or a thousand kilometres, or 25 km; it
    depends on the unit of length, which is [k] mm) from the origin, and fewer
    than 10^30 mm of filament *)
Definition reachable (k : R) (p : vec4) : Prop :=
  Rabs (vx p) <= 999999 * k /\ Rabs (vy p) <= 999999 * k /\ Rabs (vz p) <= 999999 * k /\ Rabs (ve p) <= 2 ^ 100.
(** What a line has to say about a point that is reached at [t] *)
From Verif Require Import SpecTexts.
Definition line_says (k tol : R) (l : str) (t : R) (p : vec4) (next : option (R * vec4)) : Prop := exists a b c d f,
  split ","%char l = (a :: b :: c :: d :: f :: nil)%list /\ reads_back a t /\
  shows b (vx p / k) /\ shows c (vy p / k) /\ shows d (vz p / k) /\ flag_right tol f (ve p) next.
(** The event that is returned for the point: the time as it is, the coordinates
    in the unit to a few roundings, the flag as in the file *)
From Verif Require Import GenericTexts.
Definition event_right (k tol : R) (e : gevent Fk) (t : R) (p : vec4) (next : option (R * vec4)) : Prop :=
  fval (gev_t Fk e) = t /\
  (let near b a := Rabs (fval b - a / k) <= 4 * uu * Rabs (a / k) + tiny in
   near (gev_x Fk e) (vx p) /\ near (gev_y Fk e) (vy p) /\ near (gev_z Fk e) (vz p)) /\
  exists f, flag_right tol f (ve p) next /\ (f = S_ "1" <-> gev_flag Fk e = 1%nat) /\ (f = S_ "0" <-> gev_flag Fk e = 0%nat).
