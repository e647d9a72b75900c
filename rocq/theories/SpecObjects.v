(** Specification of class hierarchies: C86. *)
From Verif Require Import PyBase Objects.

(** [s] is [l] with some elements left out. *)
Inductive subsequence {A} : list A -> list A -> Prop :=
| sub_nil : subsequence [] []
| sub_keep x s l : subsequence s l -> subsequence (x :: s) (x :: l)
| sub_skip x s l : subsequence s l -> subsequence s (x :: l).

(** The worlds that class statements make. *)
Inductive declared : world -> Prop :=
| declared_nothing : declared []
| declared_class w c bs abc attrs w' : declared w -> define_class w c bs abc attrs = Ok w' -> declared w'.

(** [c] is a class; [b] is one of its bases. *)
Definition is_class (w : world) (c : pystr) : Prop := exists o, dget c w = Some o.
Definition base_of (w : world) (b c : pystr) : Prop := exists o, dget c w = Some o /\ In b (c_bases o).
(** [k] is [c] or a base of a base ... of [c]. *)
Inductive ancestor (w : world) : pystr -> pystr -> Prop :=
| anc_self c : is_class w c -> ancestor w c c
| anc_base k b c : base_of w b c -> ancestor w k b -> ancestor w k c.
(** The class body of [k] defines [name] as [a]. *)
Definition defines (w : world) (k name : pystr) (a : attr) : Prop :=
  exists o, dget k w = Some o /\ dget name (c_attrs o) = Some a.
(** [a] is what the first class in the MRO of [c] that defines [name] defines it as. *)
Definition first_definition (w : world) (c name : pystr) (a : attr) : Prop :=
  exists before k after, mro_of w c = before ++ k :: after /\ defines w k name a /\
    Forall (fun k' => forall a', ~ defines w k' name a') before.
Definition abstract_method (a : attr) : Prop := exists kd body, a = AMethod kd true body.
(** Abstract methods occur only in classes made by ABCMeta (abc.ABC and its subclasses). *)
Definition abstract_in_abc (w : world) : Prop :=
  forall c o n a, dget c w = Some o -> dget n (c_attrs o) = Some a -> abstract_method a -> c_abc o = true.
(** Looking up [name] from [k], Python asks [c] before it has found a definition. *)
Definition consults (w : world) (k c name : pystr) : Prop :=
  exists before after, mro_of w k = before ++ c :: after /\
    Forall (fun k' => forall a, ~ defines w k' name a) before.

(** ** Names of the library's classes *)
From Verif Require Import Classes Crypto.
Local Open Scope string_scope.
Definition python_name (c : cls) : pystr :=
  str match c with
  | UserDict => "UserDict" | ABC => "ABC" | PascalStyleDict => "PascalStyleDict"
  | PublicKeyParams => "PublicKeyParams" | PrivateKeyParams => "PrivateKeyParams"
  | RSAPub => "RSAPublicKeyParams" | RSAPriv => "RSAPrivateKeyParams"
  | DSSPub => "DSSPublicKeyParams" | DSSPriv => "DSSPrivateKeyParams"
  | ECDSAPub => "ECDSAPublicKeyParams" | ECDSAPriv => "ECDSAPrivateKeyParams"
  | E256Pub => "ECDSA_NISTP256_PublicKeyParams" | E256Priv => "ECDSA_NISTP256_PrivateKeyParams"
  | E384Pub => "ECDSA_NISTP384_PublicKeyParams" | E384Priv => "ECDSA_NISTP384_PrivateKeyParams"
  | E521Pub => "ECDSA_NISTP521_PublicKeyParams" | E521Priv => "ECDSA_NISTP521_PrivateKeyParams"
  | EdPub => "Ed25519PublicKeyParams" | EdPriv => "Ed25519PrivateKeyParams"
  | SKPub => "SecurityKeyPublicKeyParams" | SKPriv => "SecurityKeyPrivateKeyParams"
  | SKE256Pub => "SecurityKey_ECDSA_NISTP256_PublicKeyParams" | SKE256Priv => "SecurityKey_ECDSA_NISTP256_PrivateKeyParams"
  | SKEdPub => "SecurityKey_Ed25519_PublicKeyParams" | SKEdPriv => "SecurityKey_Ed25519_PrivateKeyParams"
  | CertPub => "CertPublicKeyParams" | CertRSA => "Cert_RSA_PublicKeyParams" | CertEd => "Cert_Ed25519_PublicKeyParams"
  | CertDSS => "Cert_DSS_PublicKeyParams" | CertE256 => "Cert_ECDSA_NISTP256_PublicKeyParams"
  | CertE384 => "Cert_ECDSA_NISTP384_PublicKeyParams" | CertE521 => "Cert_ECDSA_NISTP521_PublicKeyParams"
  | CertSKEd => "Cert_SecurityKey_Ed25519_PublicKeyParams" | CertSKE256 => "Cert_SecurityKey_ECDSA_NISTP256_PublicKeyParams"
  end.
Definition cipher_class (c : cipher) : pystr :=
  str match c with
  | NoneCipher => "NoneCipher" | TDesCbc => "TripleDES_CBCCipher"
  | Aes128Ctr => "AES128_CTRCipher" | Aes192Ctr => "AES192_CTRCipher" | Aes256Ctr => "AES256_CTRCipher"
  | Aes128Cbc => "AES128_CBCCipher" | Aes192Cbc => "AES192_CBCCipher" | Aes256Cbc => "AES256_CBCCipher"
  | Aes128Gcm => "AES128_GCMCipher" | Aes256Gcm => "AES256_GCMCipher" | ChaChaPoly => "ChaCha20Poly1305Cipher"
  end.
