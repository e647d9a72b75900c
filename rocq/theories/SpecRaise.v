(** What it means that a value cannot be written, and with which exception: the vocabulary of
    C102. Independent of the model's functions. *)
From Verif Require Import PyBase Stream Classes Key Crypto PrivateKeyList.
From Verif Require Import SpecWire SpecKey SpecCrypto SpecList.
Open Scope Z_scope.

(** [cannot t v e]: the value [v] cannot be written as a field of type [t], and the exception
    is [e]. A value of the wrong Python type is a ValueError in a length-prefixed field and a
    struct.error in a fixed-size one (where an integer out of range counts as well). Text that
    has no UTF-8 encoding is a UnicodeEncodeError. An integer for which the library computes
    too small a length, and anything too long for its length prefix, is an OverflowError. *)
Inductive cannot : ftype -> pyval -> exn -> Prop :=
| cannot_kind t v k : prefix_size t = Some k -> ~ conforms t v -> cannot t v ValueError
| cannot_struct t v : prefix_size t = None -> ~ conforms t v -> cannot t v StructError
| cannot_text k s : (~ exists u, utf8 s u) -> cannot (TText k) (VStr s) UnicodeEncodeError
| cannot_gap k z : mpint_gap z -> cannot (TMpint k) (VInt z) OverflowError
| cannot_long_bytes k b : 256 ^ Z.of_nat k <= Z.of_nat (length b) ->
    cannot (TBytes k) (VBytes b) OverflowError
| cannot_long_text k s u : utf8 s u -> 256 ^ Z.of_nat k <= Z.of_nat (length u) ->
    cannot (TText k) (VStr s) OverflowError
| cannot_long_mpint k z :
    (forall u, signed u = z -> 256 ^ Z.of_nat k <= Z.of_nat (length u)) ->
    cannot (TMpint k) (VInt z) OverflowError.

(** Every field is there and can be written. *)
Definition all_written (vals : dict pyval) (ts : list (pystr * ftype)) : Prop :=
  forall x t, In (x, t) ts -> exists v, dget x vals = Some v /\ forall e, ~ cannot t v e.
(** The first field that is missing or cannot be written, and the exception for it. *)
Definition first_fault (vals : dict pyval) (ts : list (pystr * ftype)) (e : exn) : Prop :=
  exists before x t after,
    ts = before ++ (x, t) :: after /\ all_written vals before /\
    ((dget x vals = None /\ e = KeyError (VStr x)) \/ exists v, dget x vals = Some v /\ cannot t v e).
(** The same for a key, whose header, parameters and footer are separate mappings. *)
Definition key_fault (k : key) (params footer : list (pystr * ftype)) (e : exn) : Prop :=
  first_fault (k_header k) [type_field] e \/
  (all_written (k_header k) [type_field] /\ first_fault (k_params k) params e) \/
  (all_written (k_header k) [type_field] /\ all_written (k_params k) params /\ first_fault (k_footer k) footer e).

(** The pairs that are asked for: all, or those with the indices given. *)
Definition asked (l : pkl) (idx : option (list Z)) (q : pair) : Prop :=
  match idx with
  | None => In q (l_pairs l)
  | Some idx => exists i, In i idx /\ at_index (l_pairs l) i q
  end.
Definition count (l : pkl) (idx : option (list Z)) : nat :=
  match idx with None => length (l_pairs l) | Some idx => length idx end.

(** Why packing a list fails, and the exception. *)
Inductive list_fault (e : env) (l : pkl) (given : option pystr) (idx : option (list Z)) (override retain : bool)
    : exn -> Prop :=
(* The KDF or the cipher is not one the library knows. *)
| lf_kdf cv kv : list_names l cv kv -> kv <> VStr (str "none") -> kv <> VStr (str "bcrypt") ->
    list_fault e l given idx override retain (KeyError kv)
| lf_cipher cv kv : list_names l cv kv -> (forall cn, In cn (map fst cipher_table) -> cv <> VStr cn) ->
    list_fault e l given idx override retain (KeyError cv)
(* The name of the cipher cannot be written. *)
| lf_name cv kv x : list_names l cv kv -> cannot (TText 4) cv x ->
    list_fault e l given idx override retain x
(* The KDF options cannot be written, or are too long. *)
| lf_options cv kn ts d x : list_names l cv (VStr kn) -> In (kn, ts) kdf_specs ->
    options_used e l retain kn d -> first_fault d ts x ->
    list_fault e l given idx override retain x
| lf_salt cv salt d : list_names l cv (VStr (str "bcrypt")) -> options_used e l retain (str "bcrypt") d ->
    dget (str "salt") d = Some (VBytes salt) -> 2 ^ 32 <= Z.of_nat (length salt) + 8 ->
    list_fault e l given idx override retain OverflowError
(* Too many keys. *)
| lf_many : 2 ^ 31 <= Z.of_nat (count l idx) ->
    list_fault e l given idx override retain StructError
(* An index is out of range. *)
| lf_index is i : idx = Some is -> In i is -> (i >= Z.of_nat (length (l_pairs l)) \/ i < - Z.of_nat (length (l_pairs l))) ->
    list_fault e l given idx override retain IndexError
(* A key cannot be packed, or is too long. *)
| lf_public q x : asked l idx q -> pack_public_bytes (if override then pr_private q else pr_public q) = Err x ->
    list_fault e l given idx override retain x
| lf_public_long q b : asked l idx q -> pack_public_bytes (if override then pr_private q else pr_public q) = Ok b ->
    2 ^ 32 <= Z.of_nat (length b) ->
    list_fault e l given idx override retain OverflowError
| lf_private q x : asked l idx q -> pack_private_bytes (pr_private q) = Err x ->
    list_fault e l given idx override retain x
| lf_private_long cn kv bs sel privs pad : list_names l (VStr cn) kv -> block_of cn bs ->
    chosen (l_pairs l) idx sel -> Forall2 (fun q b => pack_private_bytes (pr_private q) = Ok b) sel privs ->
    (pad < bs)%nat -> ((8 + length (concat privs) + pad) mod bs = 0)%nat ->
    2 ^ 32 <= Z.of_nat (8 + length (concat privs) + pad) ->
    list_fault e l given idx override retain OverflowError
(* Asking for the passphrase fails. *)
| lf_prompt cv x : list_names l cv (VStr (str "bcrypt")) -> given = None -> e_getpass e = Err x ->
    list_fault e l given idx override retain x
(* The passphrase has no UTF-8 encoding. *)
| lf_passphrase cv pass : list_names l cv (VStr (str "bcrypt")) -> cv <> VStr (str "none") ->
    passphrase_used e (str "bcrypt") given pass -> (~ exists u, utf8 pass u) ->
    list_fault e l given idx override retain UnicodeEncodeError
(* No key can be derived: the KDF is none, the passphrase or the salt is empty, or there are no rounds. *)
| lf_no_kdf cv : list_names l cv (VStr (str "none")) -> cv <> VStr (str "none") ->
    list_fault e l given idx override retain ValueError
| lf_derive cv pass d : list_names l cv (VStr (str "bcrypt")) -> cv <> VStr (str "none") ->
    passphrase_used e (str "bcrypt") given pass -> options_used e l retain (str "bcrypt") d ->
    (pass = [] \/ dget (str "salt") d = Some (VBytes []) \/ dget (str "rounds") d = Some (VInt 0)) ->
    list_fault e l given idx override retain ValueError.

(** ** The order of the causes *)
(** The first of a list of checks that raises, and what it raises. *)
Definition first_of (checks : list (exn -> Prop)) (x : exn) : Prop :=
  exists before c after, checks = before ++ c :: after /\ c x /\ Forall (fun c' => forall y, ~ c' y) before.
(** The index asked for at position [n]. *)
Definition wanted (l : pkl) (idx : option (list Z)) (n : nat) (i : Z) : Prop :=
  match idx with None => i = Z.of_nat n | Some is => nth_error is n = Some i end.
Section Checks.
Variables (e : env) (l : pkl) (given : option pystr) (idx : option (list Z)) (override retain : bool).
Definition check_kdf (x : exn) : Prop :=
  exists cv kv, list_names l cv kv /\ kv <> VStr (str "none") /\ kv <> VStr (str "bcrypt") /\ x = KeyError kv.
Definition check_options (x : exn) : Prop :=
  exists cv kn ts d, list_names l cv (VStr kn) /\ In (kn, ts) kdf_specs /\ options_used e l retain kn d /\ first_fault d ts x.
Definition check_name (x : exn) : Prop := exists cv kv, list_names l cv kv /\ cannot (TText 4) cv x.
Definition check_salt (x : exn) : Prop :=
  exists cv salt d, list_names l cv (VStr (str "bcrypt")) /\ options_used e l retain (str "bcrypt") d /\
    dget (str "salt") d = Some (VBytes salt) /\ 2 ^ 32 <= Z.of_nat (length salt) + 8 /\ x = OverflowError.
Definition check_count (x : exn) : Prop := 2 ^ 31 <= Z.of_nat (count l idx) /\ x = StructError.
Definition check_public (n : nat) (x : exn) : Prop :=
  exists i, wanted l idx n i /\
    (((i >= Z.of_nat (length (l_pairs l)) \/ i < - Z.of_nat (length (l_pairs l))) /\ x = IndexError) \/
     exists q, at_index (l_pairs l) i q /\
       (pack_public_bytes (if override then pr_private q else pr_public q) = Err x \/
        exists b, pack_public_bytes (if override then pr_private q else pr_public q) = Ok b /\
          2 ^ 32 <= Z.of_nat (length b) /\ x = OverflowError)).
Definition check_private (n : nat) (x : exn) : Prop :=
  exists i q, wanted l idx n i /\ at_index (l_pairs l) i q /\ pack_private_bytes (pr_private q) = Err x.
Definition check_cipher (x : exn) : Prop :=
  exists cv kv, list_names l cv kv /\ (forall cn, In cn (map fst cipher_table) -> cv <> VStr cn) /\ x = KeyError cv.
Definition check_prompt (x : exn) : Prop :=
  exists cv, list_names l cv (VStr (str "bcrypt")) /\ given = None /\ e_getpass e = Err x.
Definition check_passphrase (x : exn) : Prop :=
  exists cv pass, list_names l cv (VStr (str "bcrypt")) /\ cv <> VStr (str "none") /\
    passphrase_used e (str "bcrypt") given pass /\ (~ exists u, utf8 pass u) /\ x = UnicodeEncodeError.
Definition check_derive (x : exn) : Prop :=
  x = ValueError /\ exists cv, cv <> VStr (str "none") /\
    (list_names l cv (VStr (str "none")) \/
     (list_names l cv (VStr (str "bcrypt")) /\ exists pass d,
        passphrase_used e (str "bcrypt") given pass /\ options_used e l retain (str "bcrypt") d /\
        (pass = [] \/ dget (str "salt") d = Some (VBytes []) \/ dget (str "rounds") d = Some (VInt 0)))).
Definition check_size (x : exn) : Prop :=
  x = OverflowError /\ exists cn kv bs sel privs pad,
    list_names l (VStr cn) kv /\ block_of cn bs /\
    chosen (l_pairs l) idx sel /\ Forall2 (fun q b => pack_private_bytes (pr_private q) = Ok b) sel privs /\
    (pad < bs)%nat /\ ((8 + length (concat privs) + pad) mod bs = 0)%nat /\
    2 ^ 32 <= Z.of_nat (8 + length (concat privs) + pad).
(** What is checked, in this order. *)
Definition checks : list (exn -> Prop) :=
  [check_kdf; check_options; check_name; check_salt; check_count] ++
  map check_public (seq 0 (count l idx)) ++ map check_private (seq 0 (count l idx)) ++
  [check_cipher; check_prompt; check_passphrase; check_derive; check_size].
End Checks.
