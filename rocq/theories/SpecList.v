(** Specification of private key files, independent of the model's code: OpenSSH's
    PROTOCOL.key. *)
From Verif Require Import PyBase Stream Classes Key Crypto PrivateKeyList.
From Verif Require Import SpecWire SpecKey SpecCrypto.
Open Scope Z_scope.

(** ** The file *)
(** byte[] AUTH_MAGIC; string ciphername; string kdfname; string kdfoptions; uint32 number of
    keys N; string publickey1 .. publickeyN; string encrypted list of private keys. Then, as
    OpenSSH does for authenticated ciphers, the tag ([tail]). *)
Definition magic : bytes := bstr "openssh-key-v1" ++ [x00].
Definition file_of (cipher_name kdf_name : pystr) (options : bytes) (pubs : list bytes)
    (body tail b : bytes) : Prop :=
  exists c k o n ps x,
    wire (TText 4) (VStr cipher_name) c /\ wire (TText 4) (VStr kdf_name) k /\
    prefixed 4 options o /\ length n = 4%nat /\ unsigned n = Z.of_nat (length pubs) /\
    Forall2 (prefixed 4) pubs ps /\ prefixed 4 body x /\
    b = magic ++ c ++ k ++ o ++ n ++ concat ps ++ x ++ tail.

(** KDF options: empty for none; string salt, uint32 rounds for bcrypt. *)
Definition kdf_specs : list (pystr * list (pystr * ftype)) :=
  [(str "none", []); (str "bcrypt", [octets "salt"; uint32 "rounds"])].
(** [options] is the encoding of the options in the mapping [d]. *)
Definition options_of (kdf_name : pystr) (d : dict pyval) (options : bytes) : Prop :=
  exists ts vs, In (kdf_name, ts) kdf_specs /\ restricts (map fst ts) d vs /\
    record_of canonical ts vs options.

(** The plaintext: uint32 checkint twice, the private keys, byte 1, 2, 3, ... *)
Definition counting (pad : bytes) : Prop :=
  forall i v, nth_error pad i = Some v -> Zb v = Z.of_nat i + 1.
Definition plaintext_of (check1 check2 : Z) (privs : list bytes) (pad plain : bytes) : Prop :=
  exists c1 c2, length c1 = 4%nat /\ unsigned c1 = check1 /\ length c2 = 4%nat /\ unsigned c2 = check2 /\
    plain = c1 ++ c2 ++ concat privs ++ pad.

(** [x] is [plain] encrypted with the named cipher, with the key and IV derived from the
    passphrase by the named KDF. *)
Definition enciphers (p : prims) (cipher_name kdf_name : pystr) (d : dict pyval) (pass : pystr)
    (plain x : bytes) : Prop :=
  exists m kl il bs, In (cipher_name, (m, kl, il, bs)) cipher_table /\
    ((m = Plain /\ x = plain) \/
     (m <> Plain /\ kdf_name = str "bcrypt" /\
      exists key iv, length key = kl /\ length iv = il /\
        derives p d pass (kl + il) (key ++ iv) /\ encrypts p m key iv plain x)).
Definition block_of (cipher_name : pystr) (bs : nat) : Prop :=
  exists m kl il, In (cipher_name, (m, kl, il, bs)) cipher_table.
Definition tag_size (cipher_name : pystr) (n : nat) : Prop :=
  exists m kl il bs, In (cipher_name, (m, kl, il, bs)) cipher_table /\
    n = if authenticated m then 16%nat else 0%nat.

(** ** What a list object asks for *)
(** The names of cipher and KDF: from the header if it has both, else none. *)
Definition list_names (l : pkl) (c k : pyval) : Prop :=
  (exists h, l_header l = Some h /\ dget (str "cipher") h = Some c /\ dget (str "kdf") h = Some k) \/
  ((forall h, l_header l = Some h -> dget (str "cipher") h = None \/ dget (str "kdf") h = None) /\
   c = VStr (str "none") /\ k = VStr (str "none")).
(** Python indexing. *)
Definition at_index {A} (l : list A) (i : Z) (x : A) : Prop :=
  (0 <= i /\ nth_error l (Z.to_nat i) = Some x) \/
  (i < 0 /\ 0 <= Z.of_nat (length l) + i /\ nth_error l (Z.to_nat (Z.of_nat (length l) + i)) = Some x).
Definition chosen {A} (l : list A) (idx : option (list Z)) (sel : list A) : Prop :=
  match idx with None => sel = l | Some idx => Forall2 (at_index l) idx sel end.
(** The KDF options used: the retained ones, or a fresh 16-byte salt and 16 rounds. *)
Definition options_used (e : env) (l : pkl) (retain : bool) (kdf_name : pystr) (d : dict pyval) : Prop :=
  (retain = true /\ l_kdf_options l = Some d) \/
  ((retain = false \/ l_kdf_options l = None) /\
   ((kdf_name = str "none" /\ d = []) \/
    (kdf_name = str "bcrypt" /\ d = [(str "salt", VBytes (e_salt e)); (str "rounds", VInt 16)]))).
(** The passphrase used: empty for kdf none, else the one given or the answer to the prompt. *)
Definition passphrase_used (e : env) (kdf_name : pystr) (given : option pystr) (pass : pystr) : Prop :=
  (kdf_name = str "none" /\ pass = []) \/
  (kdf_name <> str "none" /\
   match given with Some s => pass = s | None => e_getpass e = Ok pass end).

(** A pair of a PublicKey and a PrivateKey (of any types). *)
Definition is_pair (q : pair) : Prop :=
  k_kind (pr_public q) = KPub /\ (exists t, is_key t (pr_public q)) /\
  k_kind (pr_private q) = KPriv /\ (exists t, is_key t (pr_private q)).
(** [k'] holds the values [k] has for the fields of its type. *)
Definition same_private (k k' : key) : Prop :=
  exists t pub priv, In (t, (pub, Some priv)) key_specs /\ is_key t k /\ is_key t k' /\
    k_kind k' = KPriv /\ k_header k' = [(str "key_type", VStr t)] /\
    restricts (map fst priv) (k_params k) (k_params k') /\
    restricts [str "comment"] (k_footer k) (k_footer k') /\ k_clear k' = [].
Definition same_public (k k' : key) : Prop :=
  exists t pub priv, In (t, (pub, priv)) key_specs /\ is_key t k /\ is_key t k' /\
    k_kind k' = KPub /\ k_header k' = [(str "key_type", VStr t)] /\
    restricts (map fst pub) (k_params k) (k_params k') /\
    k_footer k' = [] /\ k_clear k' = [].
(** A warning about the file as a whole. *)
Definition file_warning (e : event) : Prop :=
  match e with
  | Warn (WCheckInts | WPairType _ | WPairValues _ | WPadding | WExcess) => True
  | _ => False
  end.

(** [b] is the file for the list [l]: everything pack_bytes is asked to do, in one place. *)
Definition packed (p : prims) (e : env) (l : pkl) (given : option pystr) (idx : option (list Z))
    (override retain : bool) (b : bytes) : Prop :=
  exists cn kn d opts sel pubs privs bs pad plain pass body tag,
    list_names l (VStr cn) (VStr kn) /\
    options_used e l retain kn d /\ options_of kn d opts /\
    (* the keys *)
    chosen (l_pairs l) idx sel /\ Z.of_nat (length sel) < 2 ^ 31 /\
    Forall2 (fun q x => pack_public_bytes (if override then pr_private q else pr_public q) = Ok x) sel pubs /\
    Forall2 (fun q x => pack_private_bytes (pr_private q) = Ok x) sel privs /\
    (* the plaintext and its padding *)
    plaintext_of (e_randbits e) (e_randbits e) privs pad plain /\ block_of cn bs /\
    counting pad /\ (length pad < bs)%nat /\ (length plain mod bs = 0)%nat /\
    (* the ciphertext; a tag is stored outside of the string *)
    passphrase_used e kn given pass /\ enciphers p cn kn d pass plain (body ++ tag) /\ tag_size cn (length tag) /\
    file_of cn kn opts pubs body tag b.

(** ** What parsing returns *)
(** [b] is the private section of the key [k] (PROTOCOL.key: its type, parameters, comment). *)
Definition private_blob (k : key) (b : bytes) : Prop :=
  exists t pub priv, In (t, (pub, Some priv)) key_specs /\ is_key t k /\ k_kind k = KPriv /\
    k_header k = [(str "key_type", VStr t)] /\ dkeys (k_params k) = map fst priv /\
    dkeys (k_footer k) = [str "comment"] /\ k_clear k = [] /\
    record_of wire (type_field :: priv ++ [comment_field]) (k_header k ++ k_params k ++ k_footer k) b.
(** The options, possibly followed by bytes that are not looked at. *)
Definition options_read (kdf_name : pystr) (d : dict pyval) (options : bytes) : Prop :=
  exists ts o junk, In (kdf_name, ts) kdf_specs /\ record_of wire ts d o /\ options = o ++ junk.
(** from_bytes returns [l] for the file [b]: everything it is asked to do, in one place. *)
Definition parsed (p : prims) (e : env) (b : bytes) (given : option pystr) (l : pkl) : Prop :=
  exists cn kn opts pubs body tag extra d pass plain c1 c2 privs pad pairs,
    file_of cn kn opts pubs body (tag ++ extra) b /\ Z.of_nat (length pubs) < 2 ^ 31 /\
    options_read kn d opts /\ passphrase_used e kn given pass /\
    tag_size cn (length tag) /\ enciphers p cn kn d pass plain (body ++ tag) /\
    plaintext_of c1 c2 privs pad plain /\
    Forall2 (fun q x => exists lg, key_from_bytes (p_ec_ok p) KPub x None = (lg, Ok (pr_public q))) pairs pubs /\
    Forall2 (fun q x => private_blob (pr_private q) x) pairs privs /\
    l = mkpkl pairs (Some b)
          (Some [(str "auth_magic", VBytes magic); (str "cipher", VStr cn); (str "kdf", VStr kn);
                 (str "kdf_options", VBytes opts); (str "num_keys", VInt (Z.of_nat (length pubs)))])
          (Some (body ++ tag)) (Some d) (Some plain)
          (Some [(str "check_int_1", VInt c1); (str "check_int_2", VInt c2)]) (Some pad).

(** The warnings about the file that [lg] should have, for block size [bs]. *)
Definition halves_differ_in_type (q : pair) : Prop :=
  dget (str "key_type") (k_header (pr_public q)) <> dget (str "key_type") (k_header (pr_private q)).
Definition halves_differ_in_values (q : pair) : Prop :=
  exists x v v', dget x (k_params (pr_public q)) = Some v /\ dget x (k_params (pr_private q)) = Some v' /\ v <> v'.
Definition good_padding (bs : nat) (plain pad : bytes) : Prop :=
  (length plain mod bs = 0)%nat /\ counting pad /\ (length pad <= bs)%nat.
Definition reports (bs : nat) (c1 c2 : Z) (pairs : list pair) (plain pad : bytes) (lg : list event) : Prop :=
  (In (Warn WCheckInts) lg <-> c1 <> c2) /\
  (forall i, In (Warn (WPairType i)) lg <-> exists q, nth_error pairs i = Some q /\ halves_differ_in_type q) /\
  (forall i, In (Warn (WPairValues i)) lg <-> exists q, nth_error pairs i = Some q /\ halves_differ_in_values q) /\
  (In (Warn WPadding) lg <-> ~ good_padding bs plain pad).
