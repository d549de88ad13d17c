(** Vocabulary of the setup and constructor properties: the setup as an abstract
    map from printers to properties, and the documented keys. *)
From Coq Require Import Reals.
From Verif Require Import Py StateGen SpecMachine Vec Segment Junction Planner SpecKin SpecQuery Query Setup.
Open Scope R_scope.

(** What a user does with a setup. *)
Inductive sop :=
| OSelect (p : str)                                   (* select_printer *)
| OProperty (d : dict pval)                           (* set_property *)
| OPosition (ip : ipos) (units : option str)          (* set_initial_position *)
| OGet.                                               (* get_dict *)
Definition do_op (o : sop) (s : setup) : res unit * setup :=
  match o with
  | OSelect p => select_printer p s
  | OProperty d => set_property d s
  | OPosition ip u => set_initial_position ip u s
  | OGet => let '(r, s') := get_dict s in (match r with Ok _ => Ok tt | Err e => Err e end, s')
  end.
(** The operations one after the other, exceptions caught: outcomes and the
    final object. *)
Fixpoint do_ops (ops : list sop) (s : setup) : list (res unit) * setup :=
  match ops with
  | [] => ([], s)
  | o :: ops' => let '(r, s1) := do_op o s in let '(rs, s2) := do_ops ops' s1 in (r :: rs, s2)
  end.

(** The abstract setup: which printer is selected, the property values of every
    printer, and the start position in millimetres. *)
Record aset := ASet { a_sel : option str; a_prop : str -> str -> option pval; a_pos : axis -> R }.

(** The value a dictionary literal gives a key (the last one wins). *)
Definition given (d : dict pval) (k : str) : option pval := dget k (rev d).
(** The position an argument of set_initial_position describes, in the
    unit of the argument. *)
Inductive position_arg : ipos -> (axis -> R) -> Prop :=
| pa_tuple x y z e f : f AX = x -> f AY = y -> f AZ = z -> f AE = e ->
    position_arg (ITuple [PNum x; PNum y; PNum z; PNum e]) f
| pa_dict d f : (forall a, given d (name a) = Some (PNum (f a))) -> (forall k v, In (k, v) d -> exists a x, k = name a /\ v = PNum x) ->
    position_arg (IDict d) f.
(** Arguments that are no position: a missing axis or a wrong number of them. *)
Inductive no_position : ipos -> Prop :=
| np_tuple l : length l <> 4%nat -> no_position (ITuple l)
| np_dict d a : given d (name a) = None -> no_position (IDict d)
| np_other : no_position IOther.
(** Millimetres per unit; without unit, millimetres. *)
Definition mm_per (u : option str) (k : R) : Prop := match u with None => k = 1 | Some n => unit_length n k end.

(** One operation: outcome and the abstract setup after it. *)
Inductive a_step (presets : dict (dict pval)) : sop -> aset -> res unit -> aset -> Prop :=
| as_select p a : In p (dkeys presets) ->
    a_step presets (OSelect p) a (Ok tt) (ASet (Some p) (a_prop a) (a_pos a))
| as_unknown p a : ~ In p (dkeys presets) -> a_step presets (OSelect p) a (Err ValueError) a
| as_property d a p f : a_sel a = Some p ->
    (forall q k, f q k = if str_eqb q p then match given d k with Some v => Some v | None => a_prop a q k end
                         else a_prop a q k) ->
    a_step presets (OProperty d) a (Ok tt) (ASet (a_sel a) f (a_pos a))
| as_nobody d a : a_sel a = None -> a_step presets (OProperty d) a (Err ValueError) a
| as_position ip u a k f : position_arg ip f -> mm_per u k ->
    a_step presets (OPosition ip u) a (Ok tt) (ASet (a_sel a) (a_prop a) (fun x => k * f x))
| as_no_position ip u a k : no_position ip -> mm_per u k ->
    a_step presets (OPosition ip u) a (Err ValueError) a
| as_no_unit ip u a : (forall k, ~ unit_length u k) ->
    a_step presets (OPosition ip (Some u)) a (Err KeyError) a
| as_get a p : a_sel a = Some p -> a_step presets OGet a (Ok tt) a
| as_get_nobody a : a_sel a = None -> a_step presets OGet a (Err KeyError) a
(** Something that is no number: a tuple changes nothing, of a dictionary the
    axes before it are set. *)
| as_tuple_no_number l u a k v : length l = 4%nat -> In v l -> (forall x, v <> PNum x) -> mm_per u k ->
    a_step presets (OPosition (ITuple l) u) a (Err TypeError) a
| as_dict_no_number d before key v after u a k f : d = before ++ (key, v) :: after ->
    (forall x, exists w, given d (name x) = Some w) ->
    (forall k0 v0, In (k0, v0) before -> exists x y, k0 = name x /\ v0 = PNum y) -> (forall y, v <> PNum y) -> mm_per u k ->
    (forall x, f x = match given before (name x) with Some (PNum y) => k * y | _ => a_pos a x end) ->
    a_step presets (OPosition (IDict d) u) a (Err TypeError) (ASet (a_sel a) (a_prop a) f).
Inductive a_steps (presets : dict (dict pval)) : list sop -> aset -> list (res unit) -> aset -> Prop :=
| ass_nil a : a_steps presets [] a [] a
| ass_cons o ops a r a1 rs a2 : a_step presets o a r a1 -> a_steps presets ops a1 rs a2 ->
    a_steps presets (o :: ops) a (r :: rs) a2.
(** The abstract setup of a fresh object. *)
Definition a_start (presets : dict (dict pval)) (printer : option str) : aset :=
  ASet printer (fun p k => match dget p presets with Some m => dget k m | None => None end) (fun _ => 0).

(** Keys that set_property cannot set, because get_dict writes them. *)
Definition reserved (cue : option str) (k : str) : Prop :=
  k = S_ "printer_name" \/ (exists a, k = name a) \/ (cue <> None /\ k = S_ "layer_cue").
(** A dictionary shows the abstract setup of printer [p]. *)
Definition presents (cue : option str) (a : aset) (p : str) (d : dict pval) : Prop :=
  dget (S_ "printer_name") d = Some (PStr p) /\
  (forall c, cue = Some c -> dget (S_ "layer_cue") d = Some (PStr c)) /\
  (forall x, dget (name x) d = Some (PNum (a_pos a x))) /\
  (forall k, ~ reserved cue k -> dget k d = a_prop a p k).

(** The keys a printer setup must and may have (README and presets file). *)
Definition must_have (k : str) : Prop :=
  In k [S_ "printer_name"; S_ "firmware"; S_ "p_vel"; S_ "p_acc"; S_ "jerk";
        S_ "X"; S_ "Y"; S_ "Z"; S_ "E"; S_ "vX"; S_ "vY"; S_ "vZ"; S_ "vE"].
Definition may_have (k : str) : Prop := In k [S_ "nozzle_diam"; S_ "filament_diam"; S_ "layer_cue"].
Definition acceptable (d : dict pval) : Prop :=
  (forall k, must_have k -> In k (dkeys d)) /\ (forall k, In k (dkeys d) -> must_have k \/ may_have k).

(** The machine settings a setup gives: the numbers of the selected printer,
    the start position and the layer cue. *)
Definition machine_settings (cue : option str) (a : aset) (p : str) (su : setup_values Rops) : Prop :=
  a_prop a p (S_ "p_vel") = Some (PNum (s_p_vel Rops su)) /\ a_prop a p (S_ "p_acc") = Some (PNum (s_p_acc Rops su)) /\
  a_prop a p (S_ "jerk") = Some (PNum (s_jerk Rops su)) /\
  a_prop a p (S_ "vX") = Some (PNum (s_vX Rops su)) /\ a_prop a p (S_ "vY") = Some (PNum (s_vY Rops su)) /\
  a_prop a p (S_ "vZ") = Some (PNum (s_vZ Rops su)) /\ a_prop a p (S_ "vE") = Some (PNum (s_vE Rops su)) /\
  a_pos a AX = s_X Rops su /\ a_pos a AY = s_Y Rops su /\ a_pos a AZ = s_Z Rops su /\ a_pos a AE = s_E Rops su /\
  match cue with
  | Some c => s_layer_cue Rops su = Some c
  | None => a_prop a p (S_ "layer_cue") = option_map PStr (s_layer_cue Rops su)
  end.
(** A complete printer description: all properties are known ones, and there is
    a firmware. *)
Definition complete_printer (a : aset) (p : str) (fw : pval) : Prop :=
  a_prop a p (S_ "firmware") = Some fw /\ forall k v, a_prop a p k = Some v -> must_have k \/ may_have k.
