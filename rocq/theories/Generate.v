(** Key generation with its keyword arguments: generate_private_params of the key parameter
    classes and PublicPrivateKeyPair.generate. Here the generators of the cryptography package
    are functions of what they are asked for, and return key objects; PrivateKeyList.v has the
    same functions for given generator results. *)
From Verif Require Import PyBase IntBytes Utf8 StructFmt Stream Text Classes Key Crypto PrivateKeyList Convert.
Open Scope Z_scope.

(** A call of rsa.generate_private_key(public_exponent, key_size), dsa.generate_private_key(size),
    ec.generate_private_key(curve) or Ed25519PrivateKey.generate(). *)
Inductive request :=
| AskRSA (public_exponent key_size : pyval)
| AskDSA (key_size : pyval)
| AskEC (c : curve)
| AskEd25519.

Section Generate.

Variable x : ext.
Variable gen : request -> res obj.

(** get_public_exponent and get_key_size: rsa.py:142-159, dss.py:152-157. *)
Definition rsa_public_exponent : pyval := VInt 65537.
Definition rsa_key_size : pyval := VInt 4096.
Definition dss_key_size : pyval := VInt 1024.
(** kwargs[k] if k in kwargs else default *)
Definition kwarg (k : string) (default : pyval) (kwargs : dict pyval) : pyval :=
  match dget (str k) kwargs with Some v => v | None => default end.

(** generate_private_params up to the construction of cls: rsa.py:166-203, dss.py:164-193,
    ecdsa.py:258-275, ed25519.py:247-264, sk.py:140-145. Key objects are observed through
    the accessors of Convert.v; the generators return objects of their own type, so the
    arms for other objects are unreachable. *)
Definition rsa_generate (kwargs : dict pyval) : res (dict pyval) :=
  do? o <- gen (AskRSA (kwarg "e" rsa_public_exponent kwargs) (kwarg "key_size" rsa_key_size kwargs));
  match o with
  | ORSAPriv n e d _ _ iqmp p q =>
      Ok [(str "n", VInt n); (str "e", VInt e); (str "d", VInt d);
          (str "iqmp", VInt iqmp); (str "p", VInt p); (str "q", VInt q)]
  | _ => Err AttributeError
  end.
Definition dss_generate : res (dict pyval) :=
  do? o <- gen (AskDSA dss_key_size);
  match o with
  | ODSAPriv p q g y x =>
      Ok [(str "p", VInt p); (str "q", VInt q); (str "g", VInt g); (str "y", VInt y); (str "x", VInt x)]
  | _ => Err AttributeError
  end.
Definition ec_generate (self : cls) : res (dict pyval) :=
  match curve_of self with
  | None => Err ValueError
  | Some c =>
      do? o <- gen (AskEC c);
      match o with
      | OECPriv _ pt d =>
          Ok [(str "identifier", VStr (class_curve_identifier self)); (str "q", VBytes pt); (str "d", VInt d)]
      | _ => Err AttributeError
      end
  end.
Definition ed_generate : res (dict pyval) :=
  do? o <- gen AskEd25519;
  match o with
  | OEdPriv seed =>
      let pub := x_ed_derive x seed in
      Ok [(str "public", VBytes pub); (str "private_public", VBytes (seed ++ pub))]
  | _ => Err AttributeError
  end.
Definition own_generator (kwargs : dict pyval) (self c : cls) : option (res (dict pyval)) :=
  match c with
  | RSAPriv => Some (rsa_generate kwargs)
  | DSSPriv => Some dss_generate
  | ECDSAPriv => Some (ec_generate self)
  | EdPriv => Some ed_generate
  | SKPriv => Some (Err NotImplementedError)
  | PrivateKeyParams => Some (Ok [])
  | _ => None
  end.
(** cls.generate_private_params with keyword arguments, by MRO; ecdsa.py:260-263 delegates from the abstract ECDSA class
    to nistp256. [construct] (Convert.v) is the call of cls. *)
Definition delegate (c : cls) : cls := if cls_eqb c ECDSAPriv then E256Priv else c.
Definition class_generate (c : cls) (kwargs : dict pyval) : W (cls * dict pyval) :=
  let c := delegate c in
  match lookup_attr (own_generator kwargs c) (mro c) with
  | Some r => do d <- wlift r; construct x c d
  | None => werr AttributeError
  end.
(** PublicPrivateKeyPair.generate, private_key_list.py:47-85. *)
Definition generate_pair (key_type comment : pystr) (kwargs : dict pyval) : W pair :=
  do c <- wlift (get_private_class (VStr key_type));
  do r <- class_generate c kwargs;
  do priv <- new_key (x_ec_ok x) (parse_pub (x_ec_ok x)) KPriv [(str "key_type", VStr key_type)] (snd r)
               [(str "comment", VStr comment)] None;
  do pub <- new_key (x_ec_ok x) (parse_pub (x_ec_ok x)) KPub [(str "key_type", VStr key_type)] (snd r) [] None;
  wret (mkpair pub priv).
End Generate.
