(** Conversion between key parameters and key objects of other packages:
    key_params/common.py:55-157 and the conversion_functions of rsa.py, dss.py, ecdsa.py and
    ed25519.py. *)
From Verif Require Import PyBase IntBytes Utf8 StructFmt Stream Text Classes Key.
Open Scope Z_scope.

(** Objects that conversion functions take and return, by what their documented accessors
    return: numbers of RSA/DSA keys; curve.name, X9.62 uncompressed point and private value of
    EC keys; raw bytes of Ed25519 keys. The public half of an Ed25519 private key is derived
    from its seed by [x_ed_derive]. [OOther] is any object that is an instance of none of
    the listed types. *)
Inductive obj :=
| ORSAPub (n e : Z)
| ORSAPriv (n e d dmp1 dmq1 iqmp p q : Z)
| ODSAPub (p q g y : Z)
| ODSAPriv (p q g y x : Z)
| OECPub (name : pystr) (point : bytes)
| OECPriv (name : pystr) (point : bytes) (d : Z)
| OEdPub (public : bytes)
| OEdPriv (seed : bytes)
| OVerifyKey (public : bytes)
| OSigningKey (seed : bytes)
| OBytes (b : bytes)
| OOther (n : N).

(** The types that occur as keys of conversion_functions(). *)
Inductive ext_type :=
| TyRSAPub | TyRSAPriv | TyDSAPub | TyDSAPriv | TyECPub | TyECPriv
| TyEdPub | TyEdPriv | TyVerifyKey | TySigningKey | TyBytes.
Definition ext_type_eqb (a b : ext_type) : bool :=
  match a, b with
  | TyRSAPub, TyRSAPub | TyRSAPriv, TyRSAPriv | TyDSAPub, TyDSAPub | TyDSAPriv, TyDSAPriv
  | TyECPub, TyECPub | TyECPriv, TyECPriv | TyEdPub, TyEdPub | TyEdPriv, TyEdPriv
  | TyVerifyKey, TyVerifyKey | TySigningKey, TySigningKey | TyBytes, TyBytes => true
  | _, _ => false
  end.
Definition obj_type (o : obj) : option ext_type :=
  match o with
  | ORSAPub _ _ => Some TyRSAPub | ORSAPriv _ _ _ _ _ _ _ _ => Some TyRSAPriv
  | ODSAPub _ _ _ _ => Some TyDSAPub | ODSAPriv _ _ _ _ _ => Some TyDSAPriv
  | OECPub _ _ => Some TyECPub | OECPriv _ _ _ => Some TyECPriv
  | OEdPub _ => Some TyEdPub | OEdPriv _ => Some TyEdPriv
  | OVerifyKey _ => Some TyVerifyKey | OSigningKey _ => Some TySigningKey
  | OBytes _ => Some TyBytes
  | OOther _ => None
  end.
(** isinstance(o, t). *)
Definition obj_isinstance (o : obj) (t : ext_type) : bool :=
  match obj_type o with Some t' => ext_type_eqb t' t | None => false end.

(** The argument of convert_to: not a class, or a class, given by which of the types above
    are subclasses of it. *)
Inductive dest := DNotClass | DClass (superclass_of : ext_type -> bool).

(** The cryptography and PyNaCl operations. Constructing a key object from numbers succeeds
    or raises; the object returns the numbers it was made from. [x_ec_point c q] is
    from_encoded_point(c, q) (None: ValueError) followed by the uncompressed encoding. *)
Record ext := mkext {
  x_nacl : bool;                                        (* nacl.signing can be imported *)
  x_rsa_pub : Z -> Z -> res unit;                       (* e n *)
  x_rsa_priv : Z -> Z -> Z -> Z -> Z -> Z -> Z -> Z -> res unit; (* p q d dmp1 dmq1 iqmp e n *)
  x_dsa_pub : Z -> Z -> Z -> Z -> res unit;             (* y p q g *)
  x_dsa_priv : Z -> Z -> Z -> Z -> Z -> res unit;       (* x y p q g *)
  x_ec_point : curve -> bytes -> option bytes;
  x_ec_priv : curve -> Z -> bytes -> res unit;          (* private value, point *)
  x_ed_derive : bytes -> bytes }.                       (* seed to public key *)

(** ** Class facts used by the conversion *)
(** The order in which the classes are defined when key_params is imported: __init__.py:6
    imports cert.py, which imports common, dss, ecdsa, ed25519, rsa and sk (cert.py:13-22). *)
Definition definition_order : list cls :=
  [PascalStyleDict; PublicKeyParams; PrivateKeyParams; DSSPub; DSSPriv;
   ECDSAPub; ECDSAPriv; E256Pub; E256Priv; E384Pub; E384Priv; E521Pub; E521Priv;
   EdPub; EdPriv; RSAPub; RSAPriv; SKPub; SKPriv; SKE256Pub; SKE256Priv; SKEdPub; SKEdPriv;
   CertPub; CertRSA; CertEd; CertDSS; CertE256; CertE384; CertE521; CertSKEd; CertSKE256].
(** cls.__subclasses__(): direct subclasses in order of definition. *)
Definition subclasses (c : cls) : list cls :=
  filter (fun k => cls_mem c (bases k)) definition_order.

(** Abstract methods and their overrides; [Some true] is an abstract definition.
    get_format_instructions_dict: pascal_style_byte_stream.py:469-474 and [own_format];
    generate_private_params: common.py:175-192, rsa.py:166, dss.py:164, ecdsa.py:240,
    ed25519.py:230, sk.py:140; get_sk_base_public_key_class: sk.py:72-75 and [own_sk_base];
    get_cert_base_public_key_class: cert.py:220-226 and [own_cert_base];
    get_curve_identifier, get_curve_name, get_curve_oid: ecdsa.py:55-88 and [own_curve]. *)
Definition own_abstract_format (c : cls) : option bool :=
  match c with
  | PascalStyleDict => Some true
  | _ => match own_format c with Some _ => Some false | None => None end
  end.
Definition own_abstract_generate (c : cls) : option bool :=
  match c with
  | PrivateKeyParams => Some true
  | RSAPriv | DSSPriv | ECDSAPriv | EdPriv | SKPriv => Some false
  | _ => None
  end.
Definition own_abstract_sk (c : cls) : option bool :=
  match c with
  | SKPub => Some true
  | _ => match own_sk_base c with Some _ => Some false | None => None end
  end.
Definition own_abstract_cert (c : cls) : option bool :=
  match c with
  | CertPub => Some true
  | _ => match own_cert_base c with Some _ => Some false | None => None end
  end.
Definition own_abstract_curve (c : cls) : option bool :=
  match c with
  | ECDSAPub => Some true
  | _ => match own_curve c with Some _ => Some false | None => None end
  end.
(** utils.is_abstract, utils.py:9-14: an inherited abstract method is not overridden. *)
Definition is_abstract (c : cls) : bool :=
  existsb (fun own => match lookup_attr own (mro c) with Some b => b | None => false end)
    [own_abstract_format; own_abstract_generate; own_abstract_sk; own_abstract_cert;
     own_abstract_curve].

(** ** conversion_functions *)
(** Arguments of numbers classes must be int (TypeError). *)
Definition want_int (v : pyval) : res Z :=
  match v with VInt z => Ok z | _ => Err TypeError end.
(** Arguments of from_encoded_point, from_public_bytes, from_private_bytes, VerifyKey and
    SigningKey must be bytes (TypeError). Objects other than int, str and tuple, which may be
    bytes-like, are not modelled. *)
Definition want_bytes (v : pyval) : res bytes :=
  match v with VBytes b => Ok b | VOther _ => Err Unmodelled | _ => Err TypeError end.
(** bytes(v) of the built-in type: an int gives that many zero bytes (ValueError if negative,
    OverflowError from 2^63 - 33 on, since 33 bytes are needed besides), a tuple the bytes with its
    values. Memory is unlimited. *)
Definition byte_of_item (v : pyval) : res byte :=
  match v with
  | VInt z => if (0 <=? z) && (z <? 256) then Ok (bZ z) else Err ValueError
  | VOther _ => Err Unmodelled
  | _ => Err TypeError
  end.
Definition py_bytes (v : pyval) : res bytes :=
  match v with
  | VBytes b => Ok b
  | VInt z => if z <? 0 then Err ValueError
              else if ssize_max - 33 <? z then Err OverflowError
              else Ok (repeat x00 (Z.to_nat z))
  | VTuple l => rmap byte_of_item l
  | VStr _ => Err TypeError
  | VOther _ => Err Unmodelled
  end.
(** v[:n]. *)
Definition py_prefix (n : nat) (v : pyval) : res pyval :=
  match v with
  | VBytes b => Ok (VBytes (firstn n b))
  | VStr s => Ok (VStr (firstn n s))
  | VTuple l => Ok (VTuple (firstn n l))
  | VInt _ => Err TypeError
  | VOther _ => Err Unmodelled
  end.
Definition int_item (k : string) (d : dict pyval) : res Z := do? v <- ditem (str k) d; want_int v.
(** rsa_crt_dmp1: d % (p - 1), ZeroDivisionError for p = 1. *)
Definition rsa_crt (d p : Z) : res Z := if p =? 1 then Err OtherError else Ok (d mod (p - 1)).
(** Ed25519 constructors: ValueError unless there are 32 bytes. *)
Definition raw32 (b : bytes) : res bytes :=
  if (length b =? ed_key_size)%nat then Ok b else Err ValueError.

Record conversion := mkconv {
  cv_type : ext_type;
  cv_from : obj -> res (option (dict pyval));   (* object_to_mapping; None as in ecdsa.py:131 *)
  cv_to : dict pyval -> res obj }.              (* mapping_to_object *)

Section Conversions.
Variable x : ext.

(** rsa.py:57-94. The arms for objects of another type are unreachable: object_to_mapping is
    applied to instances only. *)
Definition conv_rsa_pub : conversion := mkconv TyRSAPub
  (fun o => match o with
            | ORSAPub n e => Ok (Some [(str "e", VInt e); (str "n", VInt n)])
            | _ => Err AttributeError
            end)
  (fun d => do? e <- ditem (str "e") d;
            do? n <- ditem (str "n") d;
            do? e <- want_int e; do? n <- want_int n;
            do? _ <- x_rsa_pub x e n;
            Ok (ORSAPub n e)).
(** rsa.py:205-258 *)
Definition conv_rsa_priv : conversion := mkconv TyRSAPriv
  (fun o => match o with
            | ORSAPriv n e d _ _ iqmp p q =>
                Ok (Some [(str "n", VInt n); (str "e", VInt e); (str "d", VInt d);
                          (str "iqmp", VInt iqmp); (str "p", VInt p); (str "q", VInt q)])
            | _ => Err AttributeError
            end)
  (fun m => do? p <- ditem (str "p") m;
            do? q <- ditem (str "q") m;
            do? d <- ditem (str "d") m;
            do? d <- want_int d; do? p <- want_int p; do? dmp1 <- rsa_crt d p;
            do? q <- want_int q; do? dmq1 <- rsa_crt d q;
            do? iqmp <- ditem (str "iqmp") m;
            do? e <- ditem (str "e") m;
            do? n <- ditem (str "n") m;
            do? e <- want_int e; do? n <- want_int n; do? iqmp <- want_int iqmp;
            do? _ <- x_rsa_priv x p q d dmp1 dmq1 iqmp e n;
            Ok (ORSAPriv n e d dmp1 dmq1 iqmp p q)).
(** dss.py:56-103 *)
Definition conv_dsa_pub : conversion := mkconv TyDSAPub
  (fun o => match o with
            | ODSAPub p q g y =>
                Ok (Some [(str "p", VInt p); (str "q", VInt q); (str "g", VInt g); (str "y", VInt y)])
            | _ => Err AttributeError
            end)
  (fun m => do? y <- ditem (str "y") m;
            do? p <- ditem (str "p") m;
            do? q <- ditem (str "q") m;
            do? g <- ditem (str "g") m;
            do? p <- want_int p; do? q <- want_int q; do? g <- want_int g; do? y <- want_int y;
            do? _ <- x_dsa_pub x y p q g;
            Ok (ODSAPub p q g y)).
(** dss.py:195-245 *)
Definition conv_dsa_priv : conversion := mkconv TyDSAPriv
  (fun o => match o with
            | ODSAPriv p q g y x =>
                Ok (Some [(str "p", VInt p); (str "q", VInt q); (str "g", VInt g);
                          (str "y", VInt y); (str "x", VInt x)])
            | _ => Err AttributeError
            end)
  (fun m => do? xv <- ditem (str "x") m;
            do? y <- ditem (str "y") m;
            do? p <- ditem (str "p") m;
            do? q <- ditem (str "q") m;
            do? g <- ditem (str "g") m;
            do? p <- want_int p; do? q <- want_int q; do? g <- want_int g; do? y <- want_int y;
            do? xv <- want_int xv;
            do? _ <- x_dsa_priv x xv y p q g;
            Ok (ODSAPriv p q g y xv)).
(** ecdsa.py:108-160; [c] is cls. ObjectIdentifier('') of an abstract class is ValueError. *)
Definition ec_point_of (c : cls) (q : pyval) : res (curve * bytes) :=
  match curve_of c with
  | None => Err ValueError
  | Some k =>
      do? b <- want_bytes q;
      match x_ec_point x k b with Some pt => Ok (k, pt) | None => Err ValueError end
  end.
Definition conv_ec_pub (c : cls) : conversion := mkconv TyECPub
  (fun o => match o with
            | OECPub name pt =>
                if negb (str_eqb name (class_curve_name c)) then Ok None
                else Ok (Some [(str "identifier", VStr (class_curve_identifier c)); (str "q", VBytes pt)])
            | _ => Err AttributeError
            end)
  (fun m => do? i <- ditem (str "identifier") m;
            if negb (val_eqb i (VStr (class_curve_identifier c))) then Err ValueError
            else
              do? q <- ditem (str "q") m;
              do? kp <- ec_point_of c q;
              Ok (OECPub (curve_name (fst kp)) (snd kp))).
(** ecdsa.py:277-325 *)
Definition conv_ec_priv (c : cls) : conversion := mkconv TyECPriv
  (fun o => match o with
            | OECPriv name pt d =>
                if negb (str_eqb name (class_curve_name c)) then Ok None
                else Ok (Some [(str "identifier", VStr (class_curve_identifier c));
                               (str "q", VBytes pt); (str "d", VInt d)])
            | _ => Err AttributeError
            end)
  (fun m => do? dv <- ditem (str "d") m;
            do? q <- ditem (str "q") m;
            do? kp <- ec_point_of c q;
            do? d <- want_int dv;
            do? _ <- x_ec_priv x (fst kp) d (snd kp);
            Ok (OECPriv (curve_name (fst kp)) (snd kp) d)).
(** ed25519.py:76-161 *)
Definition ed_public (b : bytes) : dict pyval := [(str "public", VBytes b)].
Definition convs_ed_pub : list conversion :=
  [mkconv TyEdPub
     (fun o => match o with OEdPub b => Ok (Some (ed_public b)) | _ => Err AttributeError end)
     (fun m => do? v <- ditem (str "public") m; do? b <- want_bytes v; do? b <- raw32 b; Ok (OEdPub b));
   mkconv TyBytes
     (fun o => match o with OBytes b => Ok (Some (ed_public b)) | _ => Err AttributeError end)
     (fun m => do? v <- ditem (str "public") m; do? b <- py_bytes v; Ok (OBytes b))]
  ++ (if x_nacl x then
        [mkconv TyVerifyKey
           (fun o => match o with OVerifyKey b => Ok (Some (ed_public b)) | _ => Err AttributeError end)
           (fun m => do? v <- ditem (str "public") m; do? b <- want_bytes v; do? b <- raw32 b; Ok (OVerifyKey b))]
      else []).
(** ed25519.py:266-379 *)
Definition ed_private (seed : bytes) : dict pyval :=
  [(str "public", VBytes (x_ed_derive x seed)); (str "private_public", VBytes (seed ++ x_ed_derive x seed))].
Definition ed_seed (m : dict pyval) : res pyval :=
  do? v <- ditem (str "private_public") m; py_prefix ed_key_size v.
Definition convs_ed_priv : list conversion :=
  [mkconv TyEdPriv
     (fun o => match o with OEdPriv s => Ok (Some (ed_private s)) | _ => Err AttributeError end)
     (fun m => do? v <- ed_seed m; do? s <- want_bytes v; do? s <- raw32 s; Ok (OEdPriv s));
   mkconv TyBytes
     (fun o => match o with
               | OBytes b => do? s <- raw32 b; Ok (Some (ed_private s))
               | _ => Err AttributeError
               end)
     (fun m => do? v <- ed_seed m; do? s <- py_bytes v; Ok (OBytes s))]
  ++ (if x_nacl x then
        [mkconv TySigningKey
           (fun o => match o with OSigningKey s => Ok (Some (ed_private s)) | _ => Err AttributeError end)
           (fun m => do? v <- ed_seed m; do? s <- want_bytes v; do? s <- raw32 s; Ok (OSigningKey s))]
      else []).

(** The class whose conversion_functions body runs, and what it returns for [cls] = self;
    common.py:102-115 returns {}. *)
Definition own_conversions (self c : cls) : option (list conversion) :=
  match c with
  | PublicKeyParams => Some []
  | RSAPub => Some [conv_rsa_pub]
  | RSAPriv => Some [conv_rsa_priv]
  | DSSPub => Some [conv_dsa_pub]
  | DSSPriv => Some [conv_dsa_priv]
  | ECDSAPub => Some [conv_ec_pub self]
  | ECDSAPriv => Some [conv_ec_priv self]
  | EdPub => Some convs_ed_pub
  | EdPriv => Some convs_ed_priv
  | _ => None
  end.
Definition conversion_functions (c : cls) : list conversion :=
  match lookup_attr (own_conversions c) (mro c) with Some l => l | None => [] end.

(** ** convert_from *)
(** Validation of EC points uses the same from_encoded_point. *)
Definition x_ec_ok (k : curve) (q : bytes) : bool :=
  match x_ec_point x k q with Some _ => true | None => false end.

(** cls(params): TypeError for an abstract class. *)
Definition construct (c : cls) (d : dict pyval) : W (cls * dict pyval) :=
  if is_abstract c then werr TypeError
  else new_params x_ec_ok (parse_pub x_ec_ok) c d ;; wret (c, d).

Section From.
(** [build] is [construct] below. *)
Variable build : cls -> dict pyval -> W (cls * dict pyval).

(** common.py:79-83 *)
Definition own_mapping (c : cls) (o : obj) : res (option (dict pyval)) :=
  match find (fun cv => obj_isinstance o (cv_type cv)) (conversion_functions c) with
  | Some cv => cv_from cv o
  | None => Ok None
  end.
(** The loop of common.py:84-91: the first subclass that does not raise ValueError. *)
Fixpoint first_subclass (conv : cls -> W (cls * dict pyval)) (l : list cls) : W (option (cls * dict pyval)) :=
  match l with
  | [] => wret None
  | c :: l' =>
      do r <- wcatch (do y <- conv c; wret (Some y)) is_value_error (fun _ => wret None);
      match r with
      | Some y => wret (Some y)
      | None => first_subclass conv l'
      end
  end.
(** {k: params_dict[k] for k in cls.FORMAT_INSTRUCTIONS_DICT}, common.py:93-96 *)
Definition restrict (c : cls) (d : dict pyval) : res (dict pyval) :=
  rmap (fun k => do? v <- ditem k d; Ok (k, v)) (dkeys (format_of c)).
(** PublicKeyParams.convert_from, common.py:55-100. *)
Definition common_convert_from (conv : cls -> W (cls * dict pyval)) (c : cls) (o : obj) : W (cls * dict pyval) :=
  do own <- wlift (own_mapping c o);
  do found <- match own with
              | Some d => wret (Some d)
              | None => do r <- first_subclass conv (subclasses c);
                        wret (match r with Some y => Some (snd y) | None => None end)
              end;
  match found with
  | Some d => do d <- wlift (restrict c d); build c d
  | None => werr ValueError
  end.
(** ECDSAPublicKeyParams.convert_from, ecdsa.py:96-106. *)
Definition ecdsa_convert_from (conv : cls -> W (cls * dict pyval)) (c : cls) (o : obj) : W (cls * dict pyval) :=
  if is_abstract c then
    do r <- first_subclass conv (filter (fun k => negb (is_abstract k)) (subclasses c));
    match r with
    | Some y => wret y
    | None => common_convert_from conv c o
    end
  else common_convert_from conv c o.
(** cls.convert_from(o): the inherited method by MRO, calling itself on subclasses. *)
Fixpoint convert_from_fuel (fuel : nat) (c : cls) (o : obj) : W (cls * dict pyval) :=
  match fuel with
  | O => werr OutOfFuel
  | S n =>
      let conv k := convert_from_fuel n k o in
      if issubclass c ECDSAPub then ecdsa_convert_from conv c o else common_convert_from conv c o
  end.
End From.
(** The class tree below PublicKeyParams has depth 5. *)
Definition convert_from (c : cls) (o : obj) : W (cls * dict pyval) :=
  convert_from_fuel construct 8 c o.

(** ** convert_to, common.py:117-157 *)
(** supercls in __mro__ up to the first that is not a PublicKeyParams. *)
Fixpoint params_classes (l : list cls) : list cls :=
  match l with
  | [] => []
  | c :: l' => if issubclass c PublicKeyParams then c :: params_classes l' else []
  end.
Definition convert_to (c : cls) (d : dict pyval) (t : dest) : res obj :=
  match t with
  | DNotClass => Err ValueError
  | DClass super =>
      match find (fun cv => super (cv_type cv)) (flat_map conversion_functions (params_classes (mro c))) with
      | Some cv => cv_to cv d
      | None => Err ValueError
      end
  end.
End Conversions.
