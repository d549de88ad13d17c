(** Vocabulary of the parser properties: occurrences of words in text, decimal
    literals and well-formed command lines.  Nothing here refers to how the
    parser works. *)
From Coq Require Import Reals.
From Verif Require Import Py PyFloat Parser.
Open Scope nat_scope.

(** The word [k] stands at index [i] of [s], and for the first time. *)
Definition occurs_at (k : str) (i : nat) (s : str) : Prop :=
  exists pre post, s = pre ++ k ++ post /\ length pre = i.
Definition first_at (k : str) (i : nat) (s : str) : Prop :=
  occurs_at k i s /\ forall j, occurs_at k j s -> i <= j.
Definition occurs (k s : str) : Prop := exists i, occurs_at k i s.

Definition command (k : str) : Prop := In k (map fst known_commands).
(** The argument letters of a command; [None] for commands without arguments. *)
Definition command_args (k : str) (o : option (list str)) : Prop := In (k, o) known_commands.

(** Decimal digits and literals: sign, integer digits, optional fraction. *)
Definition digit_char (d : nat) : ascii := ascii_of_nat (48 + d).
Record literal := Lit { l_sign : option bool (* Some true: minus *); l_int : list nat; l_frac : option (list nat) }.
Definition frac_digits (l : literal) : list nat := match l_frac l with Some f => f | None => [] end.
Definition lit_wf (l : literal) : Prop :=
  Forall (fun d => d < 10) (l_int l ++ frac_digits l) /\ l_int l ++ frac_digits l <> [].
Definition lit_str (l : literal) : str :=
  match l_sign l with Some true => ["-"%char] | Some false => ["+"%char] | None => [] end ++
  map digit_char (l_int l) ++
  match l_frac l with Some f => "."%char :: map digit_char f | None => [] end.
(** Its value is mantissa * 10^(-number of fraction digits). *)
Definition decimal (ds : list nat) : Z := fold_left (fun a d => (10 * a + Z.of_nat d)%Z) ds 0%Z.
Definition lit_val (l : literal) : pyfloat :=
  Dec ((match l_sign l with Some true => -1 | _ => 1 end) * decimal (l_int l ++ frac_digits l))
      (- Z.of_nat (length (frac_digits l))).

(** Its value as a real number. *)
Definition lit_num (l : literal) : R :=
  ((match l_sign l with Some true => -1 | _ => 1 end) * IZR (decimal (l_int l ++ frac_digits l)) / 10 ^ length (frac_digits l))%R.

(** What follows the command: argument letters with their literals. *)
Definition body (args : list (ascii * literal)) : str :=
  concat (map (fun a => fst a :: lit_str (snd a)) args).
Definition args_wf (keys : list str) (args : list (ascii * literal)) : Prop :=
  NoDup (map fst args) /\ Forall (fun a => In [fst a] keys /\ lit_wf (snd a)) args.

(** [w] is [s] with blanks and newlines put in anywhere. *)
Definition unblank (w : str) : str := filter (fun c => negb (aeqb c " "%char || aeqb c "010"%char)) w.
(** No character that could begin a command or a comment. *)
Definition plain (s : str) : Prop := forall c, In c s -> c <> "G"%char /\ c <> "M"%char /\ c <> ";"%char.
Definition starts_with_digit (s : str) : Prop := exists c r, s = c :: r /\ is_digit c = true.

(** The dictionary a well-formed argument list means: table order, each letter
    with the value of its literal. *)
Definition lookup_arg (k : str) (args : list (ascii * literal)) : option literal :=
  option_map snd (List.find (fun a => str_eqb [fst a] k) args).
Definition args_meaning (keys : list str) (args : list (ascii * literal)) : dict leaf :=
  flat_map (fun k => match lookup_arg k args with Some l => [(k, LNum (lit_val l))] | None => [] end) keys.

(** The documented commands with their argument letters. *)
Definition documented : list (string * option string) :=
  [("G2", Some "EFIJPRSXY"); ("G3", Some "EFIJPRSXY"); ("G10", Some "S"); ("G11", None);
   ("G28", Some "LORXYZ"); ("G29", Some "ABCDEFHIJKLPQRSTUVWXY");
   ("G0", Some "EXYZF"); ("G1", Some "EXYZF"); ("M203", Some "EXYZ"); ("M204", Some "PRST");
   ("M205", Some "EJSXYZ"); ("G4", Some "PS"); ("M82", None); ("M83", None); ("G20", None);
   ("G21", None); ("G90", None); ("G91", None); ("G92", Some "EXYZ"); (";", None)]%string.
Definition letters (s : string) : list str := map (fun c => [c]) (list_ascii_of_string s).
