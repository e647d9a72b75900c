(** The command line: __main__.py:13-16, and as much of Python's argparse as this parser uses. The
    parser has the options -h and --help (help) and --passphrase (one argument), and one positional
    argument, filename. Modelled after argparse.py of Python 3.11.10. *)
From Verif Require Import PyBase Text Classes Key Crypto PrivateKeyList Json.
Open Scope N_scope.

Inductive action := ActHelp | ActPassphrase.
(** ArgumentParser._option_string_actions, in the order of the add_argument calls. *)
Definition option_actions : list (pystr * action) :=
  [(str "-h", ActHelp); (str "--help", ActHelp); (str "--passphrase", ActPassphrase)].
Fixpoint option_action (s : pystr) (l : list (pystr * action)) : option action :=
  match l with [] => None | (o, a) :: l' => if str_eqb s o then Some a else option_action s l' end.
(** s.partition('='): what precedes the first '=', and what follows it, if there is one. *)
Fixpoint partition_eq (s : pystr) : pystr * option pystr :=
  match s with
  | [] => ([], None)
  | c :: s' => if c =? 61 then ([], Some s') else let '(a, b) := partition_eq s' in (c :: a, b)
  end.

Section Parser.
(** str.isdecimal of one character: what \d matches in a regular expression. *)
Variable isdecimal : N -> bool.
(** _negative_number_matcher: '-' and digits, or '-', any digits, '.' and digits; at the end of the
    string or before a final newline, as $ matches both. *)
Fixpoint skip_digits (s : pystr) : nat * pystr :=
  match s with
  | c :: s' => if isdecimal c then let '(n, r) := skip_digits s' in (S n, r) else (O, s)
  | [] => (O, [])
  end.
Definition at_end (s : pystr) : bool := match s with [] => true | [10] => true | _ => false end.
Definition negative_number (s : pystr) : bool :=
  match s with
  | 45 :: s' =>
      let '(n, r) := skip_digits s' in
      ((0 <? n)%nat && at_end r) ||
      (match r with 46 :: r' => let '(m, r2) := skip_digits r' in (0 <? m)%nat && at_end r2 | _ => false end)
  | _ => false
  end.

(** What an argument string stands for: an argument, an option with the string that names it and an
    explicit argument (with whether it came after '='), an unknown option, or an error. *)
Inductive meaning :=
| Argument
| Option_ (a : action) (name : pystr) (explicit : option (bool * pystr))
| Unknown
| Ambiguous.
(** _get_option_tuples *)
Definition option_tuples (s : pystr) : list (action * pystr * option (bool * pystr)) :=
  match s with
  | 45 :: 45 :: _ =>
      let '(prefix, explicit) := partition_eq s in
      flat_map (fun oa => if starts_with prefix (fst oa)
                          then [(snd oa, fst oa, match explicit with Some x => Some (true, x) | None => None end)] else []) option_actions
  | _ =>
      flat_map (fun oa => if str_eqb (fst oa) (firstn 2 s) then [(snd oa, fst oa, Some (false, skipn 2 s))]
                          else if starts_with s (fst oa) then [(snd oa, fst oa, None)] else []) option_actions
  end.
(** _parse_optional *)
Definition parse_optional (s : pystr) : meaning :=
  match s with
  | [] => Argument
  | c :: _ =>
      if negb (c =? 45) then Argument
      else match option_action s option_actions with
      | Some a => Option_ a s None
      | None =>
          if (length s =? 1)%nat then Argument
          else
            let '(prefix, explicit) := partition_eq s in
            match explicit, option_action prefix option_actions with
            | Some x, Some a => Option_ a prefix (Some (true, x))
            | _, _ =>
                match option_tuples s with
                | [(a, o, x)] => Option_ a o x
                | _ :: _ :: _ => Ambiguous
                | [] => if negative_number s then Argument
                        else if existsb (N.eqb 32) s then Argument
                        else Unknown
                end
            end
      end
  end.
(** The loop that makes arg_strings_pattern and option_string_indices; None: parser.error. *)
Inductive part := PArgument | POption (m : meaning) | PDashes.
Fixpoint classify (argv : list pystr) : option (list (pystr * part)) :=
  match argv with
  | [] => Some []
  | s :: argv' =>
      if str_eqb s (str "--") then Some ((s, PDashes) :: map (fun x => (x, PArgument)) argv')
      else match parse_optional s, classify argv' with
           | Ambiguous, _ | _, None => None
           | Argument, Some l => Some ((s, PArgument) :: l)
           | m, Some l => Some ((s, POption m) :: l)
           end
  end.

(** What parse_args does: it returns, or ends the program with status 0 (after printing the help) or
    2 (after printing the usage and an error). *)
Inductive parsed_args := Arguments (filename : pystr) (passphrase : option pystr) | Exit (status : nat).
(** consume_optional with an explicit argument for -h: the characters after -h are further short
    options. [equals]: the argument came after '='. *)
Fixpoint short_help (equals : bool) (x : pystr) : parsed_args :=
  match x with
  | [] => Exit 2
  | c :: x' =>
      if equals || (c =? 45) then Exit 2
      else if c =? 104 then
        match x' with
        | [] => Exit 0
        | 61 :: _ => Exit 2
        | _ => short_help false x'
        end
      else Exit 0
  end.
(** The main loop of _parse_known_args, consume_positionals (one argument, with any number
    of '--' around it), consume_optional (one argument that is not '--'), and parse_args. Simplification: extra arguments before an
    option are collected one at a time. *)
Fixpoint consume (l : list (pystr * part)) (filename passphrase : option pystr) (extras : list pystr) : parsed_args :=
  match l with
  | [] =>
      match filename, extras with
      | Some f, [] => Arguments f passphrase
      | _, _ => Exit 2
      end
  | (s, PArgument) :: l' =>
      match filename with
      | None => match l' with
                | (_, PDashes) :: l'' => consume l'' (Some s) passphrase extras
                | _ => consume l' (Some s) passphrase extras
                end
      | Some _ => consume l' filename passphrase (extras ++ [s])
      end
  | (s, PDashes) :: l' =>
      match filename, l' with
      | None, (x, PArgument) :: l'' => consume l'' (Some x) passphrase extras
      | _, _ => consume l' filename passphrase (extras ++ [s])
      end
  | (s, POption m) :: l' =>
      match m with
      | Option_ ActPassphrase _ (Some (_, x)) => consume l' filename (Some x) extras
      | Option_ ActPassphrase _ None =>
          match l' with
          | (x, PArgument) :: l'' => consume l'' filename (Some x) extras
          | _ => Exit 2
          end
      | Option_ ActHelp _ None => Exit 0
      | Option_ ActHelp o (Some (equals, x)) =>
          if str_eqb o (str "-h") then short_help equals x else Exit 2
      | _ => consume l' filename passphrase (extras ++ [s])
      end
  end.
Definition parse_args (argv : list pystr) : parsed_args :=
  match classify argv with Some l => consume l None None [] | None => Exit 2 end.

(** ** The program, __main__.py:13-45 *)
(** [open_file] stands for the file system: the contents of a file, or the exception of open or read. *)
Inductive run := Exits (status : nat) | Runs (filename : pystr) (r : W pystr).
Definition program (p : prims) (e : env) (open_file : pystr -> res bytes) (argv : list pystr) : run :=
  match parse_args argv with
  | Exit n => Exits n
  | Arguments f pass =>
      Runs f (do file <- wlift (open_file f); main_command p e file pass)
  end.
End Parser.
