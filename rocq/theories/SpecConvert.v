(** Specification of conversions, by key type name and independent of the class hierarchy:
    which foreign key objects a key of a given type can be made from, and which parameters
    (RFC 4253, 5656, 8709 names) it then has. *)
From Verif Require Import PyBase Stream Classes Key Convert SpecWire SpecKey.
Open Scope Z_scope.

(** The names of the curves of RFC 5656 in the SSH protocol and in SEC 2. *)
Definition nist_curve (c : curve) : pystr :=
  match c with P256 => str "nistp256" | P384 => str "nistp384" | P521 => str "nistp521" end.
Definition sec_curve (c : curve) : pystr :=
  match c with P256 => str "secp256r1" | P384 => str "secp384r1" | P521 => str "secp521r1" end.

Inductive family := FamRSA | FamDSS | FamEC (c : curve) | FamEd.
Definition family_type (f : family) : pystr :=
  match f with
  | FamRSA => str "ssh-rsa"
  | FamDSS => str "ssh-dss"
  | FamEC P256 => str "ecdsa-sha2-nistp256"
  | FamEC P384 => str "ecdsa-sha2-nistp384"
  | FamEC P521 => str "ecdsa-sha2-nistp521"
  | FamEd => str "ssh-ed25519"
  end.

Section Spec.
Variable x : ext.

(** The public parameters that an object determines for a key of family [f]. *)
Definition public_values (f : family) (o : obj) : option (dict pyval) :=
  match f, o with
  | FamRSA, (ORSAPub n e | ORSAPriv n e _ _ _ _ _ _) =>
      Some [(str "e", VInt e); (str "n", VInt n)]
  | FamDSS, (ODSAPub p q g y | ODSAPriv p q g y _) =>
      Some [(str "p", VInt p); (str "q", VInt q); (str "g", VInt g); (str "y", VInt y)]
  | FamEC c, (OECPub name pt | OECPriv name pt _) =>
      if str_eqb name (sec_curve c)
      then Some [(str "identifier", VStr (nist_curve c)); (str "q", VBytes pt)] else None
  | FamEd, (OEdPub b | OBytes b) => Some [(str "public", VBytes b)]
  | FamEd, OVerifyKey b => if x_nacl x then Some [(str "public", VBytes b)] else None
  | FamEd, OEdPriv s => Some [(str "public", VBytes (x_ed_derive x s))]
  | FamEd, OSigningKey s => if x_nacl x then Some [(str "public", VBytes (x_ed_derive x s))] else None
  | _, _ => None
  end.
(** The private parameters. A 32-byte string is the seed of an Ed25519 private key. *)
Definition private_values (f : family) (o : obj) : option (dict pyval) :=
  let ed s := Some [(str "public", VBytes (x_ed_derive x s));
                    (str "private_public", VBytes (s ++ x_ed_derive x s))] in
  match f, o with
  | FamRSA, ORSAPriv n e d _ _ iqmp p q =>
      Some [(str "n", VInt n); (str "e", VInt e); (str "d", VInt d);
            (str "iqmp", VInt iqmp); (str "p", VInt p); (str "q", VInt q)]
  | FamDSS, ODSAPriv p q g y xv =>
      Some [(str "p", VInt p); (str "q", VInt q); (str "g", VInt g); (str "y", VInt y); (str "x", VInt xv)]
  | FamEC c, OECPriv name pt d =>
      if str_eqb name (sec_curve c)
      then Some [(str "identifier", VStr (nist_curve c)); (str "q", VBytes pt); (str "d", VInt d)] else None
  | FamEd, OEdPriv s => ed s
  | FamEd, OSigningKey s => if x_nacl x then ed s else None
  | FamEd, OBytes s => if (length s =? 32)%nat then ed s else None
  | _, _ => None
  end.
Definition values (f : family) (k : kind) (o : obj) : option (dict pyval) :=
  match k with KPub => public_values f o | KPriv => private_values f o end.

(** What the cryptography and PyNaCl packages guarantee of every object they hand out: points
    are on the curve, raw Ed25519 keys and seeds are 32 bytes. *)
Definition valid_object (o : obj) : Prop :=
  match o with
  | OECPub name pt | OECPriv name pt _ =>
      forall c, name = sec_curve c -> x_ec_point x c pt = Some pt
  | OEdPub b | OVerifyKey b | OBytes b => Z.of_nat (length b) = 32
  | OEdPriv s | OSigningKey s => Z.of_nat (length s) = 32
  | _ => True
  end /\ forall s, Z.of_nat (length s) = 32 -> Z.of_nat (length (x_ed_derive x s)) = 32.

(** Parameters [d] describe a key that exists: the point is in uncompressed form and on the
    curve it claims; an Ed25519 public key is bytes, and a private key's public half is the one
    its seed determines. *)
Definition consistent (f : family) (k : kind) (d : dict pyval) : Prop :=
  match f with
  | FamRSA | FamDSS => True
  | FamEC c => dget (str "identifier") d = Some (VStr (nist_curve c)) /\
               forall q, dget (str "q") d = Some (VBytes q) -> x_ec_point x c q = Some q
  | FamEd => match k with
             | KPub => forall v, dget (str "public") d = Some v -> exists b, v = VBytes b
             | KPriv => exists s, Z.of_nat (length s) = 32 /\
                 dget (str "public") d = Some (VBytes (x_ed_derive x s)) /\
                 dget (str "private_public") d = Some (VBytes (s ++ x_ed_derive x s))
             end
  end.
(** The types of key objects that hold a key of family [f] and kind [k]. *)
Definition foreign_types (f : family) (k : kind) : list ext_type :=
  match f, k with
  | FamRSA, KPub => [TyRSAPub] | FamRSA, KPriv => [TyRSAPriv]
  | FamDSS, KPub => [TyDSAPub] | FamDSS, KPriv => [TyDSAPriv]
  | FamEC _, KPub => [TyECPub] | FamEC _, KPriv => [TyECPriv]
  | FamEd, KPub => [TyEdPub; TyBytes] ++ (if x_nacl x then [TyVerifyKey] else [])
  | FamEd, KPriv => [TyEdPriv; TyBytes] ++ (if x_nacl x then [TySigningKey] else [])
  end.
End Spec.
(** Objects of the public-key classes of the two packages, and byte strings. *)
Definition public_object (o : obj) : bool :=
  match o with
  | ORSAPriv _ _ _ _ _ _ _ _ | ODSAPriv _ _ _ _ _ | OECPriv _ _ _ | OEdPriv _ | OSigningKey _ | OOther _ => false
  | _ => true
  end.
(** [o] determines the parameters of a key of family [f]. *)
Definition gives (x : ext) (kd : kind) (o : obj) (f : family) : bool :=
  match values x f kd o with Some _ => true | None => false end.
Definition families : list family := [FamRSA; FamDSS; FamEC P256; FamEC P384; FamEC P521; FamEd].
(** What convert_from raises when it is called on a base class. The search through the
    subclasses ends in an attempt to make an object of the abstract class (TypeError), at a
    security-key or certificate class that finds the first of its additional fields missing
    (KeyError), or without a result (ValueError). *)
Definition base_outcome (x : ext) (kd : kind) (o : obj) : exn :=
  if existsb (gives x KPriv o) families then TypeError
  else if gives x KPub o (FamEC P256) || gives x KPub o FamEd then KeyError (VStr (str "application"))
  else match kd with
       | KPub => if existsb (gives x KPub o) families then TypeError else ValueError
       | KPriv => ValueError
       end.
Definition sk_outcome (x : ext) (o : obj) : exn :=
  if public_object o && (gives x KPub o (FamEC P256) || gives x KPub o FamEd)
  then KeyError (VStr (str "application")) else ValueError.
Definition cert_outcome (x : ext) (o : obj) : exn :=
  if public_object o && existsb (gives x KPub o) families then KeyError (VStr (str "nonce")) else ValueError.
Definition abstract_outcomes (x : ext) (o : obj) : list (cls * exn) :=
  [(PublicKeyParams, base_outcome x KPub o); (PrivateKeyParams, base_outcome x KPriv o);
   (SKPub, sk_outcome x o); (SKPriv, sk_outcome x o); (CertPub, cert_outcome x o)].
(** Parameters [d] hold exactly the fields of a key of family [f] and kind [k] that matter,
    as the mapping [v]. *)
Definition holds (d v : dict pyval) : Prop := forall k w, dget k v = Some w -> dget k d = Some w.
(** destination_class is exactly the type [t]. *)
Definition exactly (t : ext_type) : dest := DClass (ext_type_eqb t).
