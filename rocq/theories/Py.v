(** Python notions shared by all model files: exceptions as values, strings,
    insertion-ordered dictionaries.  No proofs here. *)
From Coq Require Export String Ascii ZArith Bool Arith Lia List.
Export ListNotations.
Open Scope nat_scope.
Open Scope list_scope.

(** Exceptions the modelled code can raise.  [Unmodelled] marks inputs that
    leave the model (non-finite floats, acceleration <= 0); no theorem claims
    success there. *)
Inductive pyexc : Type :=
| TypeError | ValueError | NameError | AttributeError | IndexError | KeyError
| RuntimeError | ZeroDivisionError | Unmodelled.

Inductive res (A : Type) : Type :=
| Ok (a : A)
| Err (e : pyexc).
Arguments Ok {A} a.
Arguments Err {A} e.

Definition bind {A B} (x : res A) (f : A -> res B) : res B :=
  match x with Ok a => f a | Err e => Err e end.
Notation "x <- e1 ;; e2" := (bind e1 (fun x => e2))
  (at level 61, e1 at next level, right associativity).
Notation "' p <- e1 ;; e2" := (bind e1 (fun x => match x with p => e2 end))
  (at level 61, p pattern, e1 at next level, right associativity).

(** Strings: lists of 8-bit characters (Python's str restricted to code points
    below 256; the file decoding done by open() is not modelled). *)
Definition str := list ascii.
Definition S_ (s : string) : str := list_ascii_of_string s.
Arguments S_ s%string.

Definition aeqb (a b : ascii) : bool := Ascii.eqb a b.

Fixpoint str_eqb (a b : str) : bool :=
  match a, b with
  | [], [] => true
  | x :: a', y :: b' => aeqb x y && str_eqb a' b'
  | _, _ => false
  end.

(** [k] is a prefix of [s]. *)
Fixpoint prefixb (k s : str) : bool :=
  match k, s with
  | [], _ => true
  | x :: k', y :: s' => aeqb x y && prefixb k' s'
  | _ :: _, [] => false
  end.

(** re.search(key, s).start() for a literal key: index of the first occurrence. *)
Fixpoint find (k s : str) : option nat :=
  if prefixb k s then Some 0
  else match s with
       | [] => None
       | _ :: s' => option_map S (find k s')
       end.

(** s[a:b] *)
Definition slice (a b : nat) (s : str) : str := firstn (b - a) (skipn a s).

(** s.replace(c, "") for a single character c *)
Definition remove_char (c : ascii) (s : str) : str :=
  filter (fun x => negb (aeqb x c)) s.

(** Characters that str.strip() and float() treat as white space (code points
    below 256: 9-13, 28-32, 133 and 160). *)
Definition is_space (c : ascii) : bool :=
  let n := nat_of_ascii c in
  ((9 <=? n) && (n <=? 13)) || ((28 <=? n) && (n <=? 32)) || (n =? 133) || (n =? 160).

Fixpoint lstrip (s : str) : str :=
  match s with
  | c :: s' => if is_space c then lstrip s' else s
  | [] => []
  end.
(** str.strip() *)
Definition strip (s : str) : str := rev (lstrip (rev (lstrip s))).

(** Insertion-ordered dictionaries with string keys. *)
Definition dict (V : Type) := list (str * V).

Fixpoint dget {V} (k : str) (d : dict V) : option V :=
  match d with
  | [] => None
  | (k', v) :: d' => if str_eqb k k' then Some v else dget k d'
  end.
(** [k in d] *)
Definition dmem {V} (k : str) (d : dict V) : bool :=
  match dget k d with Some _ => true | None => false end.
(** d[k] = v: overwrite in place, or append at the end *)
Fixpoint dset {V} (k : str) (v : V) (d : dict V) : dict V :=
  match d with
  | [] => [(k, v)]
  | (k', v') :: d' => if str_eqb k k' then (k', v) :: d' else (k', v') :: dset k v d'
  end.
(** d.update(u) *)
Definition dupdate {V} (u d : dict V) : dict V :=
  fold_left (fun acc kv => dset (fst kv) (snd kv) acc) u d.
Definition dkeys {V} (d : dict V) : list str := map fst d.
