(** Model of state_generator.arg_extract and read_gcode_to_dict_list
    (pyGCodeDecode/state_generator.py:12-195). *)
From Verif Require Import Py PyFloat.
Open Scope nat_scope.

(** state_generator.py:12-27 supported_commands.  A key whose value is None in
    the code has [None]; a nested dictionary is the list of its keys (all of
    their values are None in the code). *)
Definition supported_commands : list (str * option (list str)) :=
  [ (S_ "G0",   Some [S_ "E"; S_ "X"; S_ "Y"; S_ "Z"; S_ "F"]);
    (S_ "G1",   Some [S_ "E"; S_ "X"; S_ "Y"; S_ "Z"; S_ "F"]);
    (S_ "M203", Some [S_ "E"; S_ "X"; S_ "Y"; S_ "Z"]);
    (S_ "M204", Some [S_ "P"; S_ "R"; S_ "S"; S_ "T"]);
    (S_ "M205", Some [S_ "E"; S_ "J"; S_ "S"; S_ "X"; S_ "Y"; S_ "Z"]);
    (S_ "G4",   Some [S_ "P"; S_ "S"]);
    (S_ "M82",  None);
    (S_ "M83",  None);
    (S_ "G20",  None);
    (S_ "G21",  None);
    (S_ "G90",  None);
    (S_ "G91",  None);
    (S_ "G92",  Some [S_ "E"; S_ "X"; S_ "Y"; S_ "Z"]);
    (S_ ";",    None) ].

(** state_generator.py:29-78 unsupported_commands *)
Definition unsupported_commands : list (str * option (list str)) :=
  [ (S_ "G2",  Some [S_ "E"; S_ "F"; S_ "I"; S_ "J"; S_ "P"; S_ "R"; S_ "S"; S_ "X"; S_ "Y"]);
    (S_ "G3",  Some [S_ "E"; S_ "F"; S_ "I"; S_ "J"; S_ "P"; S_ "R"; S_ "S"; S_ "X"; S_ "Y"]);
    (S_ "G10", Some [S_ "S"]);
    (S_ "G11", None);
    (S_ "G28", Some [S_ "L"; S_ "O"; S_ "R"; S_ "X"; S_ "Y"; S_ "Z"]);
    (S_ "G29", Some [S_ "A"; S_ "B"; S_ "C"; S_ "D"; S_ "E"; S_ "F"; S_ "H"; S_ "I"; S_ "J";
                     S_ "K"; S_ "L"; S_ "P"; S_ "Q"; S_ "R"; S_ "S"; S_ "T"; S_ "U"; S_ "V";
                     S_ "W"; S_ "X"; S_ "Y"]) ].

(** state_generator.py:79 known_commands = {**unsupported_commands, **supported_commands} *)
Definition known_commands : list (str * option (list str)) :=
  unsupported_commands ++ supported_commands.

(** A re.Match of a literal pattern: group(), start(), end(). *)
Record pmatch := { m_key : str; m_start : nat; m_end : nat }.

(** state_generator.py:122-125: first occurrence of every key, in key order. *)
Fixpoint find_matches (keys : list str) (s : str) : list pmatch :=
  match keys with
  | [] => []
  | k :: ks =>
    match find k s with
    | Some i => {| m_key := k; m_start := i; m_end := i + length k |} :: find_matches ks s
    | None => find_matches ks s
    end
  end.

(** list.remove(a).  Match objects compare by identity; every key yields at
    most one match, so identity is equality of keys here. *)
Fixpoint remove_match (a : pmatch) (ms : list pmatch) : option (list pmatch) :=
  match ms with
  | [] => None
  | m :: ms' =>
    if str_eqb (m_key a) (m_key m) then Some ms'
    else match remove_match a ms' with Some r => Some (m :: r) | None => None end
  end.

Definition shadows (m a : pmatch) : bool :=
  (m_start a =? m_start m) && (m_end a <? m_end m).

(** state_generator.py:131-133: the for loop over the list it removes from.
    The iterator is an index [j] into the current list; [fuel] bounds the
    number of iterations and is never exhausted for fuel >= length. *)
Fixpoint dedupe_for (fuel : nat) (a : pmatch) (j : nat) (ms : list pmatch) : res (list pmatch) :=
  match fuel with
  | 0 => Ok ms
  | S fuel' =>
    match nth_error ms j with
    | None => Ok ms
    | Some m =>
      if shadows m a then
        match remove_match a ms with
        | Some ms' => dedupe_for fuel' a (S j) ms'
        | None => Err ValueError                     (* list.remove(x): x not in list *)
        end
      else dedupe_for fuel' a (S j) ms
    end
  end.

(** state_generator.py:128-134: the while loop over [i]. *)
Fixpoint dedupe_while (fuel : nat) (i : nat) (ms : list pmatch) : res (list pmatch) :=
  match fuel with
  | 0 => Ok ms
  | S fuel' =>
    match nth_error ms i with
    | None => Ok ms
    | Some a => ms' <- dedupe_for (S (length ms)) a 0 ms ;; dedupe_while fuel' (S i) ms'
    end
  end.
Definition dedupe (ms : list pmatch) : res (list pmatch) := dedupe_while (S (length ms)) 0 ms.

(** state_generator.py:138-140 next_larger: smallest start >= num, or len(string). *)
Definition next_larger (starts : list nat) (num len : nat) : nat :=
  match filter (fun x => num <=? x) starts with
  | [] => len
  | x :: xs => fold_left Nat.min xs x
  end.

(** state_generator.py:141-144 comment_begin: start of the ";" match, or len(string). *)
Definition comment_begin (ms : list pmatch) (len : nat) : nat :=
  match filter (fun m => str_eqb (m_key m) (S_ ";")) ms with
  | [] => len
  | m :: ms' => fold_left Nat.min (map m_start ms') (m_start m)
  end.

(** Argument values: a float if the cast succeeds, else the string.  The
    nested dictionaries have only such leaves. *)
Inductive leaf : Type :=
| LNum (f : pyfloat)
| LStr (s : str).

Inductive arg : Type :=
| ALeaf (l : leaf)
| ADict (d : dict leaf).

(** state_generator.py:152-160: slice, drop blanks and newlines, cast to float if possible. *)
Definition cast_arg (s : str) : leaf :=
  let a := remove_char "010"%char (remove_char " "%char s) in
  match py_float a with Some f => LNum f | None => LStr a end.

(** state_generator.py:107-171 arg_extract for a key_dict whose values are all
    None (the nested call).  The ";" key never occurs in such a dictionary. *)
Definition arg_extract_leaf (string_ : str) (keys : list str) : res (dict leaf) :=
  matches <- dedupe (find_matches keys string_) ;;
  let starts := map m_start matches in
  let cb := comment_begin matches (length string_) in
  Ok (fold_left
        (fun (d : dict leaf) (m : pmatch) =>
           let a :=
             if str_eqb (m_key m) (S_ ";") then LStr (skipn (m_end m) string_)
             else cast_arg (slice (m_end m) (next_larger starts (m_end m) (length string_)) string_) in
           if (m_end m <=? cb) || str_eqb (m_key m) (S_ ";") then dset (m_key m) a d else d)
        matches []).

Fixpoint key_lookup (k : str) (kd : list (str * option (list str))) : option (list str) :=
  match kd with
  | [] => None
  | (k', v) :: kd' => if str_eqb k k' then v else key_lookup k kd'
  end.

(** state_generator.py:146-169: one iteration of the loop over the matches. *)
Definition extract_one (string_ : str) (kd : list (str * option (list str)))
           (starts : list nat) (cb : nat) (d : dict arg) (m : pmatch) : res (dict arg) :=
  let key := m_key m in
  let a :=
    if str_eqb key (S_ ";") then LStr (skipn (m_end m) string_)
    else cast_arg (slice (m_end m) (next_larger starts (m_end m) (length string_)) string_) in
  v <- match key_lookup key kd with
       | None => Ok (ALeaf a)
       | Some subkeys =>
         match a with
         | LStr s => sub <- arg_extract_leaf s subkeys ;; Ok (ADict sub)
         | LNum _ => Err TypeError   (* re.search(key, float): expected string *)
         end
       end ;;
  Ok (if (m_end m <=? cb) || str_eqb key (S_ ";") then dset key v d else d).

Fixpoint extract_all (string_ : str) (kd : list (str * option (list str)))
           (starts : list nat) (cb : nat) (ms : list pmatch) (d : dict arg) : res (dict arg) :=
  match ms with
  | [] => Ok d
  | m :: ms' => d' <- extract_one string_ kd starts cb d m ;; extract_all string_ kd starts cb ms' d'
  end.

(** state_generator.py:107-171 arg_extract with key_dict = [kd]. *)
Definition arg_extract (string_ : str) (kd : list (str * option (list str))) : res (dict arg) :=
  matches <- dedupe (find_matches (map fst kd) string_) ;;
  extract_all string_ kd (map m_start matches) (comment_begin matches (length string_)) matches [].

(** A parsed line: the dictionary and its "line_number" entry (kept apart from
    the command entries; no command is called "line_number"). *)
Record line_dict := { ld : dict arg; ld_number : nat }.

(** state_generator.py:187-191: the loop over the lines of the file. *)
Fixpoint read_lines (i : nat) (lines : list str) : res (list line_dict) :=
  match lines with
  | [] => Ok []
  | l :: ls =>
    d <- arg_extract l known_commands ;;
    rest <- read_lines (S i) ls ;;
    Ok ({| ld := d; ld_number := i + 1 |} :: rest)
  end.

(** state_generator.py:174-195 read_gcode_to_dict_list.  The file is the list of
    its lines as produced by iterating over it. *)
Definition read_gcode_to_dict_list (lines : list str) : res (list line_dict) := read_lines 0 lines.

(** state_generator.py:390-400: all occurrences, then a dictionary comprehension
    counting each of them. *)
Definition unsupported_found (ls : list line_dict) : list str :=
  flat_map (fun l => filter (fun k => existsb (fun c => str_eqb k (fst c)) unsupported_commands)
                            (dkeys (ld l))) ls.
Definition count_str (k : str) (l : list str) : nat := length (filter (str_eqb k) l).
Definition check_for_unsupported_commands (ls : list line_dict) : dict nat :=
  let found := unsupported_found ls in
  fold_left (fun d k => dset k (count_str k found) d) found [].
