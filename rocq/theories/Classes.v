(** The class hierarchy of key parameters and its static properties
    (key_params/*.py). Dispatch follows the C3 method resolution order, which the
    model computes from the base class lists. *)
From Verif Require Import PyBase Stream.

(** UserDict, ABC and PascalStyleDict (pascal_style_byte_stream.py:462) are
    included because the MRO contains them; [object] is left out. *)
Inductive cls :=
| UserDict | ABC | PascalStyleDict
| PublicKeyParams | PrivateKeyParams
| RSAPub | RSAPriv | DSSPub | DSSPriv
| ECDSAPub | ECDSAPriv
| E256Pub | E256Priv | E384Pub | E384Priv | E521Pub | E521Priv
| EdPub | EdPriv
| SKPub | SKPriv | SKE256Pub | SKE256Priv | SKEdPub | SKEdPriv
| CertPub | CertRSA | CertEd | CertDSS | CertE256 | CertE384 | CertE521
| CertSKEd | CertSKE256.

Definition cls_eq_dec (a b : cls) : {a = b} + {a <> b}.
Proof. decide equality. Defined.
Definition cls_eqb (a b : cls) : bool := if cls_eq_dec a b then true else false.
Definition cls_mem (a : cls) (l : list cls) : bool := existsb (cls_eqb a) l.

(** Base class lists, in source order: common.py:37,165; rsa.py:18,103; dss.py:17,110;
    ecdsa.py:21,203,327,351,357,381,387,411; ed25519.py:19,170;
    sk.py:45-48,99-101,164-167,178-181,188-191,202-205;
    cert.py:154,608,618,628,638,649,660,671,682. *)
Definition bases (c : cls) : list cls :=
  match c with
  | UserDict => [] | ABC => []
  | PascalStyleDict => [UserDict; ABC]
  | PublicKeyParams => [PascalStyleDict]
  | PrivateKeyParams => [PublicKeyParams]
  | RSAPub => [PublicKeyParams]
  | RSAPriv => [PrivateKeyParams; RSAPub]
  | DSSPub => [PublicKeyParams]
  | DSSPriv => [PrivateKeyParams; DSSPub]
  | ECDSAPub => [PublicKeyParams; ABC]
  | ECDSAPriv => [PrivateKeyParams; ECDSAPub]
  | E256Pub => [ECDSAPub]
  | E256Priv => [E256Pub; ECDSAPriv]
  | E384Pub => [ECDSAPub]
  | E384Priv => [E384Pub; ECDSAPriv]
  | E521Pub => [ECDSAPub]
  | E521Priv => [E521Pub; ECDSAPriv]
  | EdPub => [PublicKeyParams]
  | EdPriv => [PrivateKeyParams; EdPub]
  | SKPub => [PublicKeyParams; ABC]
  | SKPriv => [PrivateKeyParams; SKPub]
  | SKE256Pub => [SKPub; E256Pub]
  | SKE256Priv => [SKPriv; SKE256Pub]
  | SKEdPub => [SKPub; EdPub]
  | SKEdPriv => [SKPriv; SKEdPub]
  | CertPub => [PublicKeyParams; ABC]
  | CertRSA => [CertPub; RSAPub]
  | CertEd => [CertPub; EdPub]
  | CertDSS => [CertPub; DSSPub]
  | CertE256 => [CertPub; E256Pub]
  | CertE384 => [CertPub; E384Pub]
  | CertE521 => [CertPub; E521Pub]
  | CertSKEd => [CertPub; SKEdPub]
  | CertSKE256 => [CertPub; SKE256Pub]
  end.

(** C3 linearisation (type.mro()). *)
Definition nonempty (l : list cls) : bool := match l with [] => false | _ => true end.
Definition heads_candidate (seqs : list (list cls)) : option cls :=
  find (fun h => negb (existsb (fun s => cls_mem h (tl s)) seqs))
       (flat_map (fun s => match s with [] => [] | h :: _ => [h] end) seqs).
Definition drop_head (h : cls) (s : list cls) : list cls :=
  match s with x :: s' => if cls_eqb x h then s' else s | [] => [] end.
Fixpoint c3_merge (fuel : nat) (seqs : list (list cls)) : list cls :=
  match fuel with
  | O => []
  | S n =>
      let seqs := filter nonempty seqs in
      match heads_candidate seqs with
      | None => []
      | Some h => h :: c3_merge n (map (drop_head h) seqs)
      end
  end.
Fixpoint mro_fuel (fuel : nat) (c : cls) : list cls :=
  match fuel with
  | O => []
  | S n => c :: c3_merge 20 (map (mro_fuel n) (bases c) ++ [bases c])
  end.
Definition mro (c : cls) : list cls := mro_fuel 12 c.

(** issubclass(a, b). *)
Definition issubclass (a b : cls) : bool := cls_mem b (mro a).

(** Attribute lookup along a list of classes. *)
Fixpoint lookup_attr {A} (own : cls -> option A) (l : list cls) : option A :=
  match l with
  | [] => None
  | c :: l' => match own c with Some a => Some a | None => lookup_attr own l' end
  end.

(** get_sk_base_public_key_class: sk.py:72-75, 173-175, 197-199. *)
Definition own_sk_base (c : cls) : option cls :=
  match c with
  | SKPub => Some PublicKeyParams
  | SKE256Pub => Some E256Pub
  | SKEdPub => Some EdPub
  | _ => None
  end.
Definition sk_base (c : cls) : option cls := lookup_attr own_sk_base (mro c).

(** get_cert_base_public_key_class: cert.py:220-226, 613-615, ..., 688-690. *)
Definition own_cert_base (c : cls) : option cls :=
  match c with
  | CertPub => Some PublicKeyParams
  | CertRSA => Some RSAPub
  | CertEd => Some EdPub
  | CertDSS => Some DSSPub
  | CertE256 => Some E256Pub
  | CertE384 => Some E384Pub
  | CertE521 => Some E521Pub
  | CertSKEd => Some SKEdPub
  | CertSKE256 => Some SKE256Pub
  | _ => None
  end.
Definition cert_base (c : cls) : option cls := lookup_attr own_cert_base (mro c).

(** Elliptic curves. *)
Inductive curve := P256 | P384 | P521.
(** get_curve_identifier / get_curve_name / get_curve_oid: ecdsa.py:55-62, 332-348,
    362-378, 392-408; the abstract ECDSAPub returns ''. *)
Definition own_curve (c : cls) : option (option curve) :=
  match c with
  | ECDSAPub => Some None
  | E256Pub => Some (Some P256)
  | E384Pub => Some (Some P384)
  | E521Pub => Some (Some P521)
  | _ => None
  end.
Definition curve_of (c : cls) : option curve :=
  match lookup_attr own_curve (mro c) with Some (Some k) => Some k | _ => None end.
Definition curve_identifier (k : curve) : pystr :=
  match k with P256 => str "nistp256" | P384 => str "nistp384" | P521 => str "nistp521" end.
Definition curve_name (k : curve) : pystr :=
  match k with P256 => str "secp256r1" | P384 => str "secp384r1" | P521 => str "secp521r1" end.
Definition class_curve_identifier (c : cls) : pystr :=
  match curve_of c with Some k => curve_identifier k | None => [] end.
Definition class_curve_name (c : cls) : pystr :=
  match curve_of c with Some k => curve_name k | None => [] end.

(** ** Format instructions: get_format_instructions_dict *)
Definition fld (k : string) (i : finstr) : pystr * finstr := (str k, i).
Definition fB := FPascal BYTES.
Definition fS := FPascal STRING.
Definition fM := FPascal MPINT.

(** cert.py:228-247 *)
Definition cert_prefix : fmt_dict := [fld "nonce" fB].
Definition cert_suffix : fmt_dict :=
  [fld "serial" (FStruct (str ">Q")); fld "type" (FStruct (str ">I"));
   fld "key_id" fS; fld "valid_principals" fB;
   fld "valid_after" (FStruct (str ">Q")); fld "valid_before" (FStruct (str ">Q"));
   fld "critical_options" fB; fld "extensions" fB; fld "reserved" fB;
   fld "signature_key" fB].
Definition cert_signature : fmt_dict := [fld "signature" fB].

(** How a class's own get_format_instructions_dict computes its result: a constant, or
    {**base of cls, **suffix}, or the certificate merge. *)
Inductive fmt_body :=
| BodyConst (f : fmt_dict)
| BodySK (suffix : fmt_dict)
| BodyCert.
(** pascal_style_byte_stream.py:467-474; rsa.py:45-54, 127-140; dss.py:43-54, 138-150;
    ecdsa.py:44-53, 228-238; ed25519.py:38-46, 194-203; sk.py:77-86, 126-138;
    cert.py:249-256. *)
Definition own_format (c : cls) : option fmt_body :=
  match c with
  | PascalStyleDict => Some (BodyConst [])
  | RSAPub => Some (BodyConst [fld "e" fM; fld "n" fM])
  | RSAPriv => Some (BodyConst [fld "n" fM; fld "e" fM; fld "d" fM;
                                fld "iqmp" fM; fld "p" fM; fld "q" fM])
  | DSSPub => Some (BodyConst [fld "p" fM; fld "q" fM; fld "g" fM; fld "y" fM])
  | DSSPriv => Some (BodyConst [fld "p" fM; fld "q" fM; fld "g" fM; fld "y" fM; fld "x" fM])
  | ECDSAPub => Some (BodyConst [fld "identifier" fS; fld "q" fB])
  | ECDSAPriv => Some (BodyConst [fld "identifier" fS; fld "q" fB; fld "d" fM])
  | EdPub => Some (BodyConst [fld "public" fB])
  | EdPriv => Some (BodyConst [fld "public" fB; fld "private_public" fB])
  | SKPub => Some (BodySK [fld "application" fS])
  | SKPriv => Some (BodySK [fld "application" fS; fld "flags" (FStruct (str ">B"));
                            fld "key_handle" fB; fld "reserved" fB])
  | CertPub => Some BodyCert
  | _ => None
  end.
Fixpoint format_fuel (fuel : nat) (c : cls) : fmt_dict :=
  match fuel with
  | O => []
  | S n =>
      match lookup_attr own_format (mro c) with
      | None => []
      | Some (BodyConst f) => f
      | Some (BodySK suffix) =>
          dmerge (match sk_base c with Some b => format_fuel n b | None => [] end) suffix
      | Some BodyCert =>
          dmerge (dmerge (dmerge cert_prefix
            (match cert_base c with Some b => format_fuel n b | None => [] end))
            cert_suffix) cert_signature
      end
  end.
(** cls.FORMAT_INSTRUCTIONS_DICT; nesting is at most cert -> sk -> base. *)
Definition format_of (c : cls) : fmt_dict := format_fuel 4 c.
(** The merge inside pack_signed_bytes, cert.py:524-528. *)
Definition signed_format_of (c : cls) : fmt_dict :=
  dmerge (dmerge cert_prefix
    (match cert_base c with Some b => format_of b | None => [] end)) cert_suffix.

(** ** check_params_are_valid: which check bodies run, in order
    In every override the inherited/explicit calls come first and the class's
    own checks afterwards, so an invocation is a sequence of own bodies. *)
Inductive step := StFormat | StECDSA | StEdPub | StEdPriv | StCert.
Inductive call := CallSuper | CallClass (c : cls) | CallSKBase | CallCertBase.
(** pascal_style_byte_stream.py:480-484; ecdsa.py:161-194; ed25519.py:60-74, 205-228;
    sk.py:88-90; cert.py:570-605. *)
Definition own_check (c : cls) : option (list call * list step) :=
  match c with
  | PascalStyleDict => Some ([], [StFormat])
  | ECDSAPub => Some ([CallSuper], [StECDSA])
  | EdPub => Some ([CallSuper], [StEdPub])
  | EdPriv => Some ([CallClass EdPub; CallClass PrivateKeyParams], [StEdPriv])
  | SKPub => Some ([CallSuper; CallSKBase], [])
  | CertPub => Some ([CallSuper; CallCertBase], [StCert])
  | _ => None
  end.
(** Position of [c] in an MRO: what super() searches. *)
Fixpoint after (c : cls) (l : list cls) : list cls :=
  match l with [] => [] | x :: l' => if cls_eqb x c then l' else after c l' end.
Fixpoint find_check (l : list cls) : option (cls * (list call * list step)) :=
  match l with
  | [] => None
  | c :: l' => match own_check c with Some b => Some (c, b) | None => find_check l' end
  end.
(** [expand fuel self l]: run the first check found along [l], for an object of class
    [self]. super() in class k continues after k in the MRO of [self]. *)
Fixpoint expand (fuel : nat) (self : cls) (l : list cls) : option (list step) :=
  match fuel with
  | O => None
  | S n =>
      match find_check l with
      | None => Some []
      | Some (k, (calls, own)) =>
          let run (cl : call) : option (list step) :=
            match cl with
            | CallSuper => expand n self (after k (mro self))
            | CallClass c => expand n self (mro c)
            | CallSKBase => match sk_base self with Some b => expand n self (mro b) | None => None end
            | CallCertBase => match cert_base self with Some b => expand n self (mro b) | None => None end
            end in
          (fix go (cs : list call) : option (list step) :=
             match cs with
             | [] => Some own
             | cl :: cs' =>
                 match run cl, go cs' with
                 | Some a, Some b => Some (a ++ b)
                 | _, _ => None
                 end
             end) calls
      end
  end.
Definition check_plan (c : cls) : list step :=
  match expand 12 c (mro c) with Some l => l | None => [] end.

(** ** Key type names: key_params/factory.py:46-105 *)
Definition key_type_mapping : dict (cls * option cls) :=
  [(str "ssh-rsa", (RSAPub, Some RSAPriv));
   (str "ssh-ed25519", (EdPub, Some EdPriv));
   (str "ssh-dss", (DSSPub, Some DSSPriv));
   (str "ecdsa-sha2-nistp256", (E256Pub, Some E256Priv));
   (str "ecdsa-sha2-nistp384", (E384Pub, Some E384Priv));
   (str "ecdsa-sha2-nistp521", (E521Pub, Some E521Priv));
   (str "sk-ecdsa-sha2-nistp256@openssh.com", (SKE256Pub, Some SKE256Priv));
   (str "sk-ssh-ed25519@openssh.com", (SKEdPub, Some SKEdPriv));
   (str "ssh-rsa-cert-v01@openssh.com", (CertRSA, None));
   (str "ssh-ed25519-cert-v01@openssh.com", (CertEd, None));
   (str "ssh-dss-cert-v01@openssh.com", (CertDSS, None));
   (str "ecdsa-sha2-nistp256-cert-v01@openssh.com", (CertE256, None));
   (str "ecdsa-sha2-nistp384-cert-v01@openssh.com", (CertE384, None));
   (str "ecdsa-sha2-nistp521-cert-v01@openssh.com", (CertE521, None));
   (str "sk-ssh-ed25519-cert-v01@openssh.com", (CertSKEd, None));
   (str "sk-ecdsa-sha2-nistp256-cert-v01@openssh.com", (CertSKE256, None))].

(** get_public_key_params_class, factory.py:108-124. A key_type that is not a str
    is not a key of the mapping (KeyError). *)
Definition get_public_class (key_type : pyval) : res cls :=
  match key_type with
  | VStr t => do? p <- ditem t key_type_mapping; Ok (fst p)
  | v => Err (KeyError v)
  end.
(** get_private_key_params_class, factory.py:127-148; the message is at 145-147. *)
Definition no_private_class : pyval :=
  VStr (str "No subclass of PrivateKeyParams corresponds to the given key type name").
Definition get_private_class (key_type : pyval) : res cls :=
  match key_type with
  | VStr t => do? p <- ditem t key_type_mapping;
              match snd p with
              | Some c => Ok c
              | None => Err (KeyError no_private_class)
              end
  | v => Err (KeyError v)
  end.
