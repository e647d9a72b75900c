(** Specification of which parts of a private key are secret, and of when two plaintexts differ
    in nothing but those parts. Independent of the model's class table and parser. *)
From Verif Require Import PyBase Stream Crypto PrivateKeyList SpecWire SpecKey SpecCrypto SpecList.
Open Scope Z_scope.

(** The secret fields of each key type: the private exponent, the CRT coefficient and the prime
    factors of an RSA key; the private value of a DSA or ECDSA key; the key handle of a security
    key. (The seed of an Ed25519 key is only a part of a field, see [secret_for].) *)
Definition secret_names : list (pystr * list pystr) :=
  [(str "ssh-rsa", [str "d"; str "iqmp"; str "p"; str "q"]);
   (str "ssh-dss", [str "x"]);
   (str "ecdsa-sha2-nistp256", [str "d"]);
   (str "ecdsa-sha2-nistp384", [str "d"]);
   (str "ecdsa-sha2-nistp521", [str "d"]);
   (str "sk-ecdsa-sha2-nistp256@openssh.com", [str "key_handle"]);
   (str "sk-ssh-ed25519@openssh.com", [str "key_handle"])].
(** [secret_for t k u1 u2]: the contents [u1] and [u2] of field [k] of a private key of type [t]
    differ at most in what is secret: in anything if the whole field is secret, and in the
    first 32 bytes for Ed25519, whose private field is the seed followed by the public key. *)
Definition secret_for (t k : pystr) (u1 u2 : bytes) : Prop :=
  (exists ks, In (t, ks) secret_names /\ In k ks) \/
  (t = str "ssh-ed25519" /\ k = str "private_public" /\
   exists s1 s2 r, u1 = s1 ++ r /\ u2 = s2 ++ r /\ length s1 = length s2 /\ (length s1 <= 32)%nat).

(** [fields_hide secret next fs y1 y2]: the bytes [y1] and [y2], from a field list [fs] on, are the
    same except for the contents of secret fields, which have the same lengths. They may also
    break off inside a secret field, or be the same from some point on, whatever they hold. [next]
    relates what follows the fields. *)
Inductive fields_hide (secret : pystr -> bytes -> bytes -> Prop) (next : bytes -> bytes -> Prop) :
  list (pystr * ftype) -> bytes -> bytes -> Prop :=
| fh_same fs y : fields_hide secret next fs y y
| fh_end y1 y2 : next y1 y2 -> fields_hide secret next [] y1 y2
| fh_public k t fs v x y1 y2 :
    wire t v x -> fields_hide secret next fs y1 y2 ->
    fields_hide secret next ((k, t) :: fs) (x ++ y1) (x ++ y2)
| fh_secret k t fs l u1 u2 y1 y2 :
    secret k u1 u2 -> length l = 4%nat -> unsigned l = Z.of_nat (length u1) -> length u1 = length u2 ->
    fields_hide secret next fs y1 y2 ->
    fields_hide secret next ((k, t) :: fs) (l ++ u1 ++ y1) (l ++ u2 ++ y2)
| fh_cut k t fs l u1 u2 w1 w2 :
    secret k w1 w2 -> length l = 4%nat -> length u1 = length u2 -> Z.of_nat (length u1) < unsigned l ->
    fields_hide secret next ((k, t) :: fs) (l ++ u1) (l ++ u2).

(** Two encodings of a private key that hide their secrets. *)
Definition key_hides (secret : pystr -> pystr -> bytes -> bytes -> Prop) (next : bytes -> bytes -> Prop)
    (y1 y2 : bytes) : Prop :=
  y1 = y2 \/
  exists t pub priv x z1 z2, In (t, (pub, Some priv)) key_specs /\ wire (TText 4) (VStr t) x /\
    y1 = x ++ z1 /\ y2 = x ++ z2 /\
    fields_hide (secret t) next (priv ++ [comment_field]) z1 z2.

(** A public key encoding states its type first. *)
Definition blob_type (b : bytes) (t : pystr) : Prop :=
  exists x r, wire (TText 4) (VStr t) x /\ b = x ++ r.
(** from_bytes compares the public key with the private key field by field, by name: against a DSA
    public key, which has fields p and q, the prime factors p and q of an RSA key are compared. *)
Definition compared (public_blob : bytes) (t k : pystr) : Prop :=
  t = str "ssh-rsa" /\ In k [str "p"; str "q"] /\
  (blob_type public_blob (str "ssh-dss") \/ blob_type public_blob (str "ssh-dss-cert-v01@openssh.com")).

(** Two sequences of private keys, beside the same public keys, that hide their secrets, and
    the same bytes after them. *)
Fixpoint hides (pubs : list bytes) (y1 y2 : bytes) : Prop :=
  match pubs with
  | [] => y1 = y2
  | pub :: pubs' =>
      key_hides (fun t k u1 u2 => secret_for t k u1 u2 /\ ~ compared pub t k) (hides pubs') y1 y2
  end.

(** The same warnings and prompts, and the same exception, with the same arguments, or none. *)
Definition same_outcome {A B} (r1 : W A) (r2 : W B) : Prop :=
  fst r1 = fst r2 /\
  match snd r1, snd r2 with
  | Ok _, Ok _ => True
  | Err e1, Err e2 => e1 = e2
  | _, _ => False
  end.

(** [b] is a file with the given names of cipher and KDF, KDF options and public keys, whose
    decrypted private part is [plain] (for the passphrase that from_bytes uses). *)
Definition opens (p : prims) (e : env) (given : option pystr) (cn kn : pystr) (opts : bytes) (pubs : list bytes)
    (plain b : bytes) : Prop :=
  exists body tag extra d pass,
    file_of cn kn opts pubs body (tag ++ extra) b /\ Z.of_nat (length pubs) < 2 ^ 31 /\
    options_read kn d opts /\ passphrase_used e kn given pass /\
    tag_size cn (length tag) /\ enciphers p cn kn d pass plain (body ++ tag).
