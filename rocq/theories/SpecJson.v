(** Specification of the command's output, independent of the model's encoder: JSON texts
    (RFC 8259), Python bytes literals, and how keys are shown. *)
From Verif Require Export SpecRepr.
From Verif Require Import PyBase Stream Classes Key Crypto PrivateKeyList SpecWire SpecKey Json.
Open Scope N_scope.

(** ** JSON texts. [json] is the type of values; numbers are integers (the command prints no
    others). *)
Definition blank (c : N) : Prop := In c [32; 9; 10; 13].
Definition blanks (w : pystr) : Prop := Forall blank w.
Definition hex_value (c v : N) : Prop :=
  (48 <= c <= 57 /\ v = c - 48) \/ (65 <= c <= 70 /\ v = c - 55) \/ (97 <= c <= 102 /\ v = c - 87).
Inductive hex4 : pystr -> N -> Prop :=
| hex4_intro a b c d va vb vc vd :
    hex_value a va -> hex_value b vb -> hex_value c vc -> hex_value d vd ->
    hex4 [a; b; c; d] (va * 4096 + vb * 256 + vc * 16 + vd).
Definition high_surrogate (n : N) : Prop := 0xD800 <= n < 0xDC00.
Definition low_surrogate (n : N) : Prop := 0xDC00 <= n < 0xE000.
(** A character of a string and the ways to write it (section 7). *)
Definition short_escapes : list (N * N) :=
  [(34, 34); (92, 92); (47, 47); (8, 98); (12, 102); (10, 110); (13, 114); (9, 116)].
Inductive json_char : N -> pystr -> Prop :=
| jc_plain c : 32 <= c -> c <> 34 -> c <> 92 -> json_char c [c]
| jc_short c x : In (c, x) short_escapes -> json_char c [92; x]
| jc_u c h : hex4 h c -> ~ high_surrogate c -> ~ low_surrogate c -> json_char c (92 :: 117 :: h)
| jc_pair h hi l lo : hex4 h hi -> high_surrogate hi -> hex4 l lo -> low_surrogate lo ->
    json_char (0x10000 + (hi - 0xD800) * 1024 + (lo - 0xDC00)) ((92 :: 117 :: h) ++ (92 :: 117 :: l)).
Inductive json_chars : pystr -> pystr -> Prop :=
| jcs_nil : json_chars [] []
| jcs_cons c s x y : json_char c x -> json_chars s y -> json_chars (c :: s) (x ++ y).
Definition json_string (s x : pystr) : Prop := exists y, json_chars s y /\ x = [34] ++ y ++ [34].
(** Section 6: an optional minus sign and decimal digits without leading zeros. *)
Definition json_number (z : Z) (x : pystr) : Prop :=
  exists ds, ds <> [] /\ Forall digit ds /\ (forall r, ds = 48 :: r -> r = []) /\
    ((z = decimal ds /\ x = ds) \/ (z = (- decimal ds)%Z /\ x = 45 :: ds)).
(** Values (section 3), arrays (5), objects (4); [json_element]: a value between blanks. *)
Inductive json_value : json -> pystr -> Prop :=
| jv_null : json_value JNull (str "null")
| jv_int z x : json_number z x -> json_value (JInt z) x
| jv_str s x : json_string s x -> json_value (JStr s) x
| jv_arr0 w : blanks w -> json_value (JArr []) (str "[" ++ w ++ str "]")
| jv_arr l x : json_elements l x -> json_value (JArr l) (str "[" ++ x ++ str "]")
| jv_obj0 w : blanks w -> json_value (JObj []) (str "{" ++ w ++ str "}")
| jv_obj l x : json_members l x -> json_value (JObj l) (str "{" ++ x ++ str "}")
with json_element : json -> pystr -> Prop :=
| je_intro t w x w' : blanks w -> json_value t x -> blanks w' -> json_element t (w ++ x ++ w')
with json_elements : list json -> pystr -> Prop :=
| jes_one t x : json_element t x -> json_elements [t] x
| jes_more t l x y : json_element t x -> json_elements l y -> json_elements (t :: l) (x ++ str "," ++ y)
with json_members : list (pystr * json) -> pystr -> Prop :=
| jms_one n t w s w' x : blanks w -> json_string n s -> blanks w' -> json_element t x ->
    json_members [(n, t)] (w ++ s ++ w' ++ str ":" ++ x)
| jms_more n t l w s w' x y : blanks w -> json_string n s -> blanks w' -> json_element t x -> json_members l y ->
    json_members ((n, t) :: l) ((w ++ s ++ w' ++ str ":" ++ x) ++ str "," ++ y).
(** No object has two members of the same name. *)
Inductive unique_names : json -> Prop :=
| un_null : unique_names JNull
| un_int z : unique_names (JInt z)
| un_str s : unique_names (JStr s)
| un_arr l : Forall unique_names l -> unique_names (JArr l)
| un_obj l : NoDup (map fst l) -> Forall (fun m => unique_names (snd m)) l -> unique_names (JObj l).

(** ** How keys are shown *)
Inductive shows_value : pyval -> json -> Prop :=
| sv_int z : shows_value (VInt z) (JInt z)
| sv_str s : shows_value (VStr s) (JStr s)
| sv_bytes b s : bytes_literal b s -> shows_value (VBytes b) (JStr s).
Definition shows_dict (d : dict pyval) (t : json) : Prop :=
  exists l, t = JObj l /\ Forall2 (fun kv m => fst kv = fst m /\ shows_value (snd kv) (snd m)) d l.
Definition shows_bytes (b : bytes) (t : json) : Prop := shows_value (VBytes b) t.
Definition shows_key (k : key) (t : json) : Prop :=
  exists h ps f c, t = JObj [(str "header", h); (str "params", JObj [(str "data", ps)]); (str "footer", f); (str "clear", c)] /\
    shows_dict (k_header k) h /\ shows_dict (k_params k) ps /\ shows_dict (k_footer k) f /\ shows_dict (k_clear k) c.
Definition shows_pair (q : pair) (t : json) : Prop :=
  exists a b, t = JArr [a; b] /\ shows_key (pr_public q) a /\ shows_key (pr_private q) b.
Definition shows_opt {A} (sh : A -> json -> Prop) (o : option A) (t : json) : Prop :=
  match o with Some x => sh x t | None => t = JNull end.
Definition shows_list (l : pkl) (t : json) : Prop :=
  exists ds bs h cb o o' db dh pd,
    t = JObj [(str "data", JArr ds); (str "byte_string", bs); (str "header", h); (str "cipher_bytes", cb);
              (str "kdf_options", o); (str "decipher_bytes", db); (str "decipher_bytes_header", dh);
              (str "decipher_padding", pd)] /\
    Forall2 shows_pair (l_pairs l) ds /\ shows_opt shows_bytes (l_byte_string l) bs /\
    shows_opt shows_dict (l_header l) h /\ shows_opt shows_bytes (l_cipher_bytes l) cb /\
    shows_opt (fun d t => t = JObj [(str "data", o')] /\ shows_dict d o') (l_kdf_options l) o /\
    shows_opt shows_bytes (l_decipher_bytes l) db /\ shows_opt shows_dict (l_decipher_header l) dh /\
    shows_opt shows_bytes (l_padding l) pd.
(** A private key file is shown as an object, public key lines as an array. *)
Definition shows (r : parsed) (t : json) : Prop :=
  match r with
  | ParsedList l => shows_list l t
  | ParsedKeys ks => exists ts, t = JArr ts /\ Forall2 shows_key ks ts
  end.
(** Printable ASCII characters and newlines. *)
Definition shown (c : N) : Prop := 32 <= c <= 126 \/ c = 10.
(** ** Reading a text file *)
(** [s] is the text [s0] with every line ending "\r\n" or "\r" replaced by "\n". *)
Inductive newlines_translated : pystr -> pystr -> Prop :=
| nt_nil : newlines_translated [] []
| nt_crlf s0 s : newlines_translated s0 s -> newlines_translated (13 :: 10 :: s0) (10 :: s)
| nt_cr s0 s : (forall r, s0 <> 10 :: r) -> newlines_translated s0 s -> newlines_translated (13 :: s0) (10 :: s)
| nt_other c s0 s : c <> 13 -> newlines_translated s0 s -> newlines_translated (c :: s0) (c :: s).
(** [s] is the text in a file that holds the bytes [b]. *)
Definition text_of_file (b : bytes) (s : pystr) : Prop := exists s0, utf8 s0 b /\ newlines_translated s0 s.
