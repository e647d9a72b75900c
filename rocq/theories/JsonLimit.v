(** The command (__main__.py:36-45) where converting integers to decimal text is limited: since
    Python 3.11 (and 3.10.7, 3.9.14, 3.8.14, 3.7.14), int.__repr__ raises ValueError for integers
    with more than sys.get_int_max_str_digits() digits (4300 by default; 0 means no limit). *)
From Coq Require Import Decimal DecimalZ.
From Verif Require Import PyBase IntBytes Utf8 Stream Classes Key Crypto PrivateKeyList Json.
Open Scope N_scope.

Section Limited.
Variable limit : nat.
(** int.__repr__ (long_to_decimal_string_internal in CPython's longobject.c): the sign is not counted. *)
Definition int_repr_limited (z : Z) : res pystr :=
  let digits := match Z.to_int z with Decimal.Pos u => uint_digits u | Decimal.Neg u => uint_digits u end in
  if (0 <? limit)%nat && (limit <? length digits)%nat then Err ValueError else Ok (int_repr z).
(** json.encoder._make_iterencode, as [Json.encode]: the parts are made in order, so the
    first integer that is too long ends the encoding. *)
Fixpoint encode_limited (level : nat) (t : json) : res pystr :=
  match t with
  | JNull => Ok (str "null")
  | JInt z => int_repr_limited z
  | JStr s => Ok (encode_str s)
  | JArr [] => Ok (str "[]")
  | JArr l =>
      do? xs <- (fix go l := match l with
                             | [] => Ok []
                             | t :: l' => do? x <- encode_limited (S level) t; do? xs <- go l'; Ok (x :: xs)
                             end) l;
      Ok (str "[" ++ newline_indent (S level) ++ joined (str "," ++ newline_indent (S level)) xs ++
          newline_indent level ++ str "]")
  | JObj [] => Ok (str "{}")
  | JObj l =>
      do? xs <- (fix go l := match l with
                             | [] => Ok []
                             | kv :: l' =>
                                 do? x <- encode_limited (S level) (snd kv); do? xs <- go l';
                                 Ok ((encode_str (fst kv) ++ str ": " ++ x) :: xs)
                             end) l;
      Ok (str "{" ++ newline_indent (S level) ++ joined (str "," ++ newline_indent (S level)) xs ++
          newline_indent level ++ str "}")
  end.
Variable p : prims.
(** Line 45: encode() returns before print is called, so nothing is printed if it raises. *)
Definition main_command_limited (e : env) (file : bytes) (passphrase : option pystr) : W pystr :=
  do file_contents <- wlift (read_text file);
  do r <- main_parse p e file_contents passphrase;
  do x <- wlift (encode_limited 0 (parsed_tree r));
  wret (x ++ [10]).
End Limited.
