(** The output of __main__.py (lines 36-45): KeyJSONEncoder(indent=4).encode(parsed_contents).
    json.JSONEncoder, str() of bytes and int are library code, modelled here as far as the
    command uses them. *)
From Verif Require Export Repr.
From Verif Require Import PyBase IntBytes Utf8 Stream Classes Key Crypto PrivateKeyList.
Open Scope N_scope.

(** ** What the encoder is given, after the calls of default() *)
Inductive json :=
| JNull
| JInt (z : Z)
| JStr (s : pystr)
| JArr (l : list json)
| JObj (l : list (pystr * json)).

(** default(), lines 37-43, on the values of parsed keys: bytes have no __dict__ and are shown
    as str(o); int and str are encoded as they are, tuples as arrays. Simplification: other
    objects (never in parsed keys) are shown as null. *)
Fixpoint val_tree (v : pyval) : json :=
  match v with
  | VInt z => JInt z
  | VStr s => JStr s
  | VBytes b => JStr (bytes_repr b)
  | VTuple l => JArr (map val_tree l)
  | VOther _ => JNull
  end.
Definition dict_tree (d : dict pyval) : json := JObj (map (fun kv => (fst kv, val_tree (snd kv))) d).
(** The __dict__ of a collections.UserDict: its data. *)
Definition user_dict_tree (d : dict pyval) : json := JObj [(str "data", dict_tree d)].
(** The __dict__ of a Key, in order of assignment (key.py:132-147). *)
Definition key_tree (k : key) : json :=
  JObj [(str "header", dict_tree (k_header k)); (str "params", user_dict_tree (k_params k));
        (str "footer", dict_tree (k_footer k)); (str "clear", dict_tree (k_clear k))].
(** A PublicPrivateKeyPair is a tuple (private_key_list.py:26). *)
Definition pair_tree (q : pair) : json := JArr [key_tree (pr_public q); key_tree (pr_private q)].
Definition opt_tree {A} (f : A -> json) (o : option A) : json := match o with Some x => f x | None => JNull end.
(** The __dict__ of a PrivateKeyList: the data of collections.UserList, then the attributes of
    private_key_list.py:195-202. *)
Definition list_tree (l : pkl) : json :=
  JObj [(str "data", JArr (map pair_tree (l_pairs l)));
        (str "byte_string", opt_tree (fun b => JStr (bytes_repr b)) (l_byte_string l));
        (str "header", opt_tree dict_tree (l_header l));
        (str "cipher_bytes", opt_tree (fun b => JStr (bytes_repr b)) (l_cipher_bytes l));
        (str "kdf_options", opt_tree user_dict_tree (l_kdf_options l));
        (str "decipher_bytes", opt_tree (fun b => JStr (bytes_repr b)) (l_decipher_bytes l));
        (str "decipher_bytes_header", opt_tree dict_tree (l_decipher_header l));
        (str "decipher_padding", opt_tree (fun b => JStr (bytes_repr b)) (l_padding l))].
Definition parsed_tree (r : parsed) : json :=
  match r with
  | ParsedList l => list_tree l
  | ParsedKeys l => JArr (map key_tree l)
  end.

(** ** json.JSONEncoder.encode *)
(** json.encoder.py_encode_basestring_ascii. *)
Definition u_escape (n : N) : pystr :=
  [92; 117; hex_digit (n / 4096); hex_digit (n / 256 mod 16); hex_digit (n / 16 mod 16); hex_digit (n mod 16)].
Definition escape_char (c : N) : pystr :=
  if c =? 92 then [92; 92]
  else if c =? 34 then [92; 34]
  else if c =? 8 then [92; 98]
  else if c =? 12 then [92; 102]
  else if c =? 10 then [92; 110]
  else if c =? 13 then [92; 114]
  else if c =? 9 then [92; 116]
  else if (32 <=? c) && (c <=? 126) then [c]
  else if c <? 0x10000 then u_escape c
  else u_escape (0xD800 + (c - 0x10000) / 1024) ++ u_escape (0xDC00 + (c - 0x10000) mod 1024).
Definition encode_str (s : pystr) : pystr := [34] ++ flat_map escape_char s ++ [34].
(** json.encoder._make_iterencode with indent=4: a newline and four spaces per level. *)
Definition newline_indent (level : nat) : pystr := 10 :: repeat 32 (4 * level).
Fixpoint joined (sep : pystr) (l : list pystr) : pystr :=
  match l with
  | [] => []
  | [x] => x
  | x :: l' => x ++ sep ++ joined sep l'
  end.
Fixpoint encode (level : nat) (t : json) : pystr :=
  match t with
  | JNull => str "null"
  | JInt z => int_repr z
  | JStr s => encode_str s
  | JArr [] => str "[]"
  | JArr l =>
      str "[" ++ newline_indent (S level) ++
      joined (str "," ++ newline_indent (S level)) (map (encode (S level)) l) ++
      newline_indent level ++ str "]"
  | JObj [] => str "{}"
  | JObj l =>
      str "{" ++ newline_indent (S level) ++
      joined (str "," ++ newline_indent (S level))
        (map (fun kv => encode_str (fst kv) ++ str ": " ++ encode (S level) (snd kv)) l) ++
      newline_indent level ++ str "}"
  end.
(** Line 45; print adds a newline. *)
Definition output_of (r : parsed) : pystr := encode 0 (parsed_tree r) ++ [10].

Section Main.
Variable p : prims.
(** __main__.py:19-45, from the contents of the file to what is printed. *)
Definition main_output (e : env) (file_contents : pystr) (passphrase : option pystr) : W pystr :=
  do r <- main_parse p e file_contents passphrase; wret (output_of r).
(** Lines 19-20: open(filename, encoding='utf8') and read(): strict UTF-8, then universal
    newlines (io.TextIOWrapper with newline=None): each '\r\n' and each other '\r' becomes '\n'. *)
Fixpoint universal_newlines (s : pystr) : pystr :=
  match s with
  | [] => []
  | c :: s' =>
      if c =? 13 then
        10 :: match s' with
              | c' :: s'' => if c' =? 10 then universal_newlines s'' else universal_newlines s'
              | [] => []
              end
      else c :: universal_newlines s'
  end.
Definition read_text (b : bytes) : res pystr := do? s <- utf8_decode b; Ok (universal_newlines s).
(** The command, from the bytes of the file to what is printed. *)
Definition main_command (e : env) (file : bytes) (passphrase : option pystr) : W pystr :=
  do file_contents <- wlift (read_text file);
  main_output e file_contents passphrase.
End Main.
