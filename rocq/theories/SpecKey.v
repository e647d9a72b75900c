(** Specification of key formats, independent of the model's class table: key type names
    and fields as in RFC 4253 section 6.6 (ssh-rsa, ssh-dss), RFC 5656 section 3.1 (ecdsa),
    RFC 8709 section 4 (ed25519), and OpenSSH's PROTOCOL.u2f (security keys),
    PROTOCOL.certkeys (certificates) and PROTOCOL.key / sshkey.c (private parts). *)
From Verif Require Import PyBase Stream Classes Key SpecWire.

Definition spec_field (k : string) (t : ftype) : pystr * ftype := (str k, t).
Definition mpint (k : string) := spec_field k (TMpint 4).
Definition text (k : string) := spec_field k (TText 4).
Definition octets (k : string) := spec_field k (TBytes 4).
Definition uint8 (k : string) := spec_field k (TInt true false 1).
Definition uint32 (k : string) := spec_field k (TInt true false 4).
Definition uint64 (k : string) := spec_field k (TInt true false 8).

Definition rsa_public := [mpint "e"; mpint "n"].
Definition rsa_private := [mpint "n"; mpint "e"; mpint "d"; mpint "iqmp"; mpint "p"; mpint "q"].
Definition dss_public := [mpint "p"; mpint "q"; mpint "g"; mpint "y"].
Definition dss_private := dss_public ++ [mpint "x"].
Definition ecdsa_public := [text "identifier"; octets "q"].
Definition ecdsa_private := ecdsa_public ++ [mpint "d"].
Definition ed25519_public := [octets "public"].
Definition ed25519_private := [octets "public"; octets "private_public"].
Definition sk_public (base : list (pystr * ftype)) := base ++ [text "application"].
Definition sk_private (base : list (pystr * ftype)) :=
  sk_public base ++ [uint8 "flags"; octets "key_handle"; octets "reserved"].
(** Everything in a certificate but the signature (and the leading type string). *)
Definition cert_signed (base : list (pystr * ftype)) :=
  [octets "nonce"] ++ base ++
  [uint64 "serial"; uint32 "type"; text "key_id"; octets "valid_principals";
   uint64 "valid_after"; uint64 "valid_before"; octets "critical_options";
   octets "extensions"; octets "reserved"; octets "signature_key"].
Definition cert_fields (base : list (pystr * ftype)) := cert_signed base ++ [octets "signature"].

(** Key type name, public fields, private fields (certificates have none). *)
Definition plain_specs : list (pystr * (list (pystr * ftype) * list (pystr * ftype))) :=
  [(str "ssh-rsa", (rsa_public, rsa_private));
   (str "ssh-dss", (dss_public, dss_private));
   (str "ssh-ed25519", (ed25519_public, ed25519_private));
   (str "ecdsa-sha2-nistp256", (ecdsa_public, ecdsa_private));
   (str "ecdsa-sha2-nistp384", (ecdsa_public, ecdsa_private));
   (str "ecdsa-sha2-nistp521", (ecdsa_public, ecdsa_private));
   (str "sk-ecdsa-sha2-nistp256@openssh.com", (sk_public ecdsa_public, sk_private ecdsa_public));
   (str "sk-ssh-ed25519@openssh.com", (sk_public ed25519_public, sk_private ed25519_public))].
Definition cert_specs : list (pystr * list (pystr * ftype)) :=
  [(str "ssh-rsa-cert-v01@openssh.com", rsa_public);
   (str "ssh-dss-cert-v01@openssh.com", dss_public);
   (str "ssh-ed25519-cert-v01@openssh.com", ed25519_public);
   (str "ecdsa-sha2-nistp256-cert-v01@openssh.com", ecdsa_public);
   (str "ecdsa-sha2-nistp384-cert-v01@openssh.com", ecdsa_public);
   (str "ecdsa-sha2-nistp521-cert-v01@openssh.com", ecdsa_public);
   (str "sk-ecdsa-sha2-nistp256-cert-v01@openssh.com", sk_public ecdsa_public);
   (str "sk-ssh-ed25519-cert-v01@openssh.com", sk_public ed25519_public)].
Definition key_specs : list (pystr * (list (pystr * ftype) * option (list (pystr * ftype)))) :=
  map (fun s => (fst s, (fst (snd s), Some (snd (snd s))))) plain_specs ++
  map (fun s => (fst s, (cert_fields (snd s), None))) cert_specs.

(** The header and footer of a key blob. *)
Definition type_field := text "key_type".
Definition comment_field := text "comment".

(** The parameters of a public or private key, from an entry of [key_specs]. *)
Definition fields_of (k : kind) (s : list (pystr * ftype) * option (list (pystr * ftype))) :=
  match k with KPub => Some (fst s) | KPriv => snd s end.
Definition footer_fields (k : kind) : list (pystr * ftype) :=
  match k with KPub => [] | KPriv => [comment_field] end.
(** All fields of a key blob. *)
Definition key_fields (k : kind) (ts : list (pystr * ftype)) : list (pystr * ftype) :=
  type_field :: ts ++ footer_fields k.

(** Two dicts are the same mapping. *)
Definition same_mapping (a b : dict pyval) : Prop := forall k, dget k a = dget k b.
(** Keys of a Python dict are distinct. *)
Definition well_formed (k : key) : Prop :=
  NoDup (dkeys (k_header k)) /\ NoDup (dkeys (k_params k)) /\
  NoDup (dkeys (k_footer k)) /\ NoDup (dkeys (k_clear k)).

(** Key [k] is a key of type [t]: its header says so and its parameters belong to the class
    registered for that type. Every constructor establishes this (Props_Key, C17). *)
Definition is_key (t : pystr) (k : key) : Prop :=
  dget (str "key_type") (k_header k) = Some (VStr t) /\
  params_class (k_kind k) (VStr t) = Ok (k_pcls k).
