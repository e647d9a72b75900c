(** key_params (validation and certificate/security-key accessors) and key.py. *)
From Verif Require Import PyBase IntBytes Utf8 StructFmt Stream Text Repr Classes.
Open Scope Z_scope.

(** PublicKey / PrivateKey (key.py:339, 381). *)
Inductive kind := KPub | KPriv.

(** A Key instance (key.py:125-147). [k_pcls] is type(self.params), [k_params] its data. *)
Record key := mkkey {
  k_kind : kind;
  k_header : dict pyval;
  k_pcls : cls;
  k_params : dict pyval;
  k_footer : dict pyval;
  k_clear : dict pyval }.

(** HEADER_FORMAT_INSTRUCTIONS_DICT: key.py:344-357, 386-396. *)
Definition header_fmt (k : kind) : fmt_dict := [fld "key_type" fS].
(** FOOTER_FORMAT_INSTRUCTIONS_DICT: key.py:359-370, 398-408. *)
Definition footer_fmt (k : kind) : fmt_dict :=
  match k with KPub => [] | KPriv => [fld "comment" fS] end.

(** PascalStyleByteStream(v) for a value v of a parameter: only bytes are accepted. (BytesIO also
    accepts None and bytes-like objects such as a bytearray; here [VOther] stands for neither.) *)
Definition stream_of_val (v : pyval) : res stream :=
  match v with VBytes b => Ok (stream_of b) | _ => Err TypeError end.

(** ** Certificates: pure accessors *)
(** CertPrincipalType, cert.py:28-37. *)
Inductive principal_type := USER | HOST.
Definition principal_value (t : principal_type) : Z := match t with USER => 1 | HOST => 2 end.
Definition principal_eqb (a b : principal_type) : bool :=
  match a, b with USER, USER | HOST, HOST => true | _, _ => false end.

(** CertCriticalOption and CertExtension, cert.py:64-151: name and valid principal types. *)
Inductive cert_option :=
| FORCE_COMMAND | SOURCE_ADDRESS | VERIFY_REQUIRED
| NO_TOUCH_REQUIRED | PERMIT_X11_FORWARDING | PERMIT_AGENT_FORWARDING
| PERMIT_PORT_FORWARDING | PERMIT_PTY | PERMIT_USER_RC.
Definition option_name (o : cert_option) : pystr :=
  match o with
  | FORCE_COMMAND => str "force-command"
  | SOURCE_ADDRESS => str "source-address"
  | VERIFY_REQUIRED => str "verify-required"
  | NO_TOUCH_REQUIRED => str "no-touch-required"
  | PERMIT_X11_FORWARDING => str "permit-x11-forwarding"
  | PERMIT_AGENT_FORWARDING => str "permit-agent-forwarding"
  | PERMIT_PORT_FORWARDING => str "permit-port-forwarding"
  | PERMIT_PTY => str "permit-pty"
  | PERMIT_USER_RC => str "permit-user-rc"
  end.
Definition option_valid_types (o : cert_option) : list principal_type :=
  match o with
  | FORCE_COMMAND => [USER] | SOURCE_ADDRESS => [USER] | VERIFY_REQUIRED => [USER]
  | NO_TOUCH_REQUIRED => [USER] | PERMIT_X11_FORWARDING => [USER]
  | PERMIT_AGENT_FORWARDING => [USER] | PERMIT_PORT_FORWARDING => [USER]
  | PERMIT_PTY => [USER] | PERMIT_USER_RC => [USER]
  end.
(** An option argument: a CertOption member or a str. *)
Inductive option_arg := OptEnum (o : cert_option) | OptStr (s : pystr).

(** get_type, cert.py:258-266. *)
Definition get_type (d : dict pyval) : res principal_type :=
  do? v <- ditem (str "type") d;
  match find (fun t => val_eqb v (VInt (principal_value t))) [USER; HOST] with
  | Some t => Ok t
  | None => Err ValueError
  end.
(** set_type, cert.py:268-273. *)
Definition set_type (t : principal_type) (d : dict pyval) : dict pyval :=
  dset (str "type") (VInt (principal_value t)) d.

Fixpoint rmap {A B} (f : A -> res B) (l : list A) : res (list B) :=
  match l with
  | [] => Ok []
  | x :: l' => do? y <- f x; do? r <- rmap f l'; Ok (y :: r)
  end.

(** get_valid_principals, cert.py:275-288. *)
Definition get_valid_principals (d : dict pyval) : res (list pyval) :=
  do? v <- ditem (str "valid_principals") d;
  do? s <- stream_of_val v;
  do? l <- snd (read_repeatedly [fld "principal" fS] s);
  rmap (ditem (str "principal")) l.

(** Run a writer on a fresh stream and take getvalue(). *)
Definition pack_with (w : P unit) : res bytes :=
  match w (stream_of []) with
  | (s, Ok _) => Ok (getvalue s)
  | (_, Err e) => Err e
  end.

(** pack_list, cert.py:290-310. *)
Definition pack_list (l : list pyval) (i : finstr) : res bytes :=
  pack_with (write_repeatedly [fld "item" i] (map (fun v => [(str "item", v)]) l)).
(** set_valid_principals, cert.py:312-320. *)
Definition set_valid_principals (l : list pyval) (d : dict pyval) : res (dict pyval) :=
  do? b <- pack_list l fS; Ok (dset (str "valid_principals") (VBytes b) d).

(** _get_option_values_dict, cert.py:346-363. The keys read with STRING are str
    values; the last match arm is not reachable. *)
Fixpoint collect_options (param : pystr) (acc : dict pyval) (l : list (dict pyval)) : W (dict pyval) :=
  match l with
  | [] => wret acc
  | inner :: l' =>
      match dget (str "option") inner, dget (str "value") inner with
      | Some (VStr o), Some v =>
          wwhen (dmem o acc) (wwarn (WCertDuplicate o param)) ;;
          collect_options param (dset o v acc) l'
      | _, _ => werr (KeyError (VStr (str "option")))
      end
  end.
Definition options_fmt : fmt_dict := [fld "option" fS; fld "value" fB].
Definition get_option_values_dict (param : pystr) (d : dict pyval) : W (dict pyval) :=
  do v <- wlift (ditem param d);
  do s <- wlift (stream_of_val v);
  do l <- wlift (snd (read_repeatedly options_fmt s));
  collect_options param [] l.

(** The guard of cert.py:370-374 and 456-461. *)
Definition option_guard (o : option_arg) (d : dict pyval) : res unit :=
  match o with
  | OptEnum o => do? t <- get_type d;
                 if existsb (principal_eqb t) (option_valid_types o) then Ok tt else Err ValueError
  | OptStr _ => Ok tt
  end.
Definition option_key (o : option_arg) : pystr :=
  match o with OptEnum o => option_name o | OptStr s => s end.
(** _get_option_from_param, cert.py:365-380. *)
Definition get_option_from_param (param : pystr) (o : option_arg) (d : dict pyval) : W (option pyval) :=
  do _ <- wlift (option_guard o d);
  do opts <- get_option_values_dict param d;
  wret (match find (fun kv => str_eqb (option_key o) (fst kv)) opts with
        | Some (k, _) => dget k opts
        | None => None
        end).
(** get_critical_option, get_extension_value: cert.py:382-416. *)
Definition get_critical_option := get_option_from_param (str "critical_options").
Definition get_extension_value := get_option_from_param (str "extensions").

(** pack_options, cert.py:418-448. *)
Definition pack_options (opts : dict pyval) (i : finstr) : res bytes :=
  do? l <- rmap (fun o => do? v <- ditem o opts;
                          Ok [(str "option", VStr o); (str "value", v)])
                (sorted_strs (dkeys opts));
  pack_with (write_repeatedly [fld "option" fS; fld "value" i] l).
(** _set_option_for_param, cert.py:450-470; the result is the new params data. *)
Definition set_option_for_param (param : pystr) (o : option_arg) (v : pyval)
    (d : dict pyval) : W (dict pyval) :=
  do _ <- wlift (option_guard o d);
  do opts <- get_option_values_dict param d;
  do b <- wlift (pack_options (dset (option_key o) v opts) fB);
  wret (dset param (VBytes b) d).
(** set_critical_option, set_extension_value: cert.py:472-510. *)
Definition set_critical_option := set_option_for_param (str "critical_options").
Definition set_extension_value := set_option_for_param (str "extensions").

(** pack_signed_bytes, cert.py:512-531. *)
Definition pack_signed_bytes (c : cls) (d : dict pyval) : res bytes :=
  pack_with (write_dict (signed_format_of c) d).

(** ** Security key flags (sk.py:18-42, 147-161) *)
Inductive sk_flag := USER_PRESENCE_REQUIRED | USER_VERIFICATION_REQUIRED | RESIDENT_KEY.
Definition flag_value (f : sk_flag) : Z :=
  match f with USER_PRESENCE_REQUIRED => 1 | USER_VERIFICATION_REQUIRED => 4 | RESIDENT_KEY => 32 end.
(** self['flags'] & flag.value; the operand must be an int. *)
Definition get_flag (f : sk_flag) (d : dict pyval) : res bool :=
  do? v <- ditem (str "flags") d;
  match v with
  | VInt z => Ok (negb (Z.land z (flag_value f) =? 0))
  | _ => Err TypeError
  end.
Definition set_flag (f : sk_flag) (new_value : bool) (d : dict pyval) : res (dict pyval) :=
  do? current <- get_flag f d;
  do? v <- ditem (str "flags") d;
  match v with
  | VInt z =>
      if new_value && negb current then Ok (dset (str "flags") (VInt (z + flag_value f)) d)
      else if negb new_value && current then Ok (dset (str "flags") (VInt (z - flag_value f)) d)
      else Ok d
  | _ => Err TypeError
  end.

(** ** pack_public_bytes, pack_private_bytes (key.py:256-291, 441-466) *)
(** type(self.params).mro() filtered, key.py:271-279. *)
Definition first_public_class (c : cls) : cls :=
  match find (fun t => negb (issubclass t PrivateKeyParams)) (mro c) with
  | Some t => t
  | None => PublicKeyParams
  end.
Definition pack_public_bytes (k : key) : res bytes :=
  pack_with (
    do! _ <- write_dict (header_fmt KPub) (k_header k);
    do! _ <- write_dict (format_of (first_public_class (k_pcls k))) (k_params k);
    write_dict (footer_fmt KPub) (k_footer k)).
Definition pack_private_bytes (k : key) : res bytes :=
  pack_with (
    do! _ <- write_dict (header_fmt KPriv) (k_header k);
    do! _ <- write_dict (format_of (k_pcls k)) (k_params k);
    write_dict (footer_fmt KPriv) (k_footer k)).

(** str(v) for the values that reach pack_public_string; str() of other classes is not modelled. *)
Definition to_str (v : pyval) : res pystr :=
  match v with
  | VStr s => Ok s
  | VInt z => Ok (int_repr z)
  | VBytes b => Ok (bytes_repr b)
  | _ => Err Unmodelled
  end.
Definition opt_comment (use : bool) (d : dict pyval) : res pystr :=
  if use then
    match dget (str "comment") d with
    | Some v => do? s <- to_str v; Ok (str " " ++ s)
    | None => Ok []
    end
  else Ok [].
(** pack_public_string, key.py:293-327. *)
Definition pack_public_string (use_footer use_clear : bool) (k : key) : res pystr :=
  do? v <- ditem (str "key_type") (k_header k);
  do? b <- pack_public_bytes k;
  do? t <- to_str v;
  do? c1 <- opt_comment use_footer (k_footer k);
  do? c2 <- opt_comment use_clear (k_clear k);
  Ok (t ++ str " " ++ b64encode b ++ c1 ++ c2 ++ [10%N]).

(** set_signature_key, cert.py:552-568. *)
Definition set_signature_key (sk : key) (d : dict pyval) : res (dict pyval) :=
  if issubclass (k_pcls sk) CertPub then Err ValueError
  else do? b <- pack_public_bytes sk; Ok (dset (str "signature_key") (VBytes b) d).

(** ** Validation and parsing *)
Section Parsing.
(** ec.EllipticCurvePublicKey.from_encoded_point(curve, q) does not raise ValueError. *)
Variable ec_ok : curve -> bytes -> bool.

(** Ed25519 KEY_SIZE, ed25519.py:48-58. *)
Definition ed_key_size : nat := 32.

Definition get_bytes (k : string) (d : dict pyval) : option bytes :=
  match dget (str k) d with Some (VBytes b) => Some b | _ => None end.

(** ecdsa.py:175-194 *)
Definition check_ecdsa (c : cls) (d : dict pyval) : W unit :=
  match dget (str "identifier") d with
  | None => wret tt
  | Some i =>
      wwhen (negb (val_eqb (VStr (class_curve_identifier c)) i)) (wwarn WCurve) ;;
      match get_bytes "q" d with
      | None => wret tt
      | Some q =>
          let ok := match curve_of c with Some k => ec_ok k q | None => false end in
          wwhen (negb ok) (wwarn WPoint)
      end
  end.
(** ed25519.py:71-74 *)
Definition check_ed_pub (d : dict pyval) : W unit :=
  match get_bytes "public" d with
  | None => wret tt
  | Some p => wwhen (negb (length p =? ed_key_size)%nat) (wwarn WEdPublicLength)
  end.
(** ed25519.py:219-228 *)
Definition check_ed_priv (d : dict pyval) : W unit :=
  match get_bytes "private_public" d, get_bytes "public" d with
  | Some pp, Some p =>
      let tail := skipn ed_key_size pp in
      wwhen (negb (bytes_eqb tail p)) (wwarn WEdMismatch) ;;
      wwhen (negb (length tail =? ed_key_size)%nat) (wwarn WEdPrivateLength)
  | _, _ => wret tt
  end.

(** get_signature_key, cert.py:536-550; [parse_pub] is PublicKey.from_bytes.
    PublicKey.from_bytes of a non-bytes value raises TypeError in BytesIO. *)
Definition get_signature_key (parse_pub : bytes -> W key) (d : dict pyval) : W key :=
  do v <- wlift (ditem (str "signature_key") d);
  match v with
  | VBytes b =>
      do k <- parse_pub b;
      wwhen (issubclass (k_pcls k) CertPub) (wwarn WCertCA) ;;
      wret k
  | _ => werr TypeError
  end.

Definition wdiscard {A} (x : W A) : W unit := wbind x (fun _ => wret tt).
Definition is_authority_error (e : exn) : bool :=
  is_value_error e || is_eof_error e || match e with TypeError => true | _ => false end.
(** cert.py:574-605 *)
Definition check_cert (parse_pub : bytes -> W key) (d : dict pyval) : W unit :=
  (if dmem (str "type") d then
     wcatch (wdiscard (wlift (get_type d))) is_value_error (fun _ => wwarn WCertType)
   else wret tt) ;;
  (match get_bytes "valid_principals" d with
   | Some _ => wcatch (wdiscard (wlift (get_valid_principals d))) is_eof_error
                      (fun _ => wwarn WCertPrincipals)
   | None => wret tt
   end) ;;
  (match get_bytes "critical_options" d with
   | Some _ => wcatch (wdiscard (get_option_values_dict (str "critical_options") d)) is_eof_error
                      (fun _ => wwarn WCertCritical)
   | None => wret tt
   end) ;;
  (match get_bytes "extensions" d with
   | Some _ => wcatch (wdiscard (get_option_values_dict (str "extensions") d)) is_eof_error
                      (fun _ => wwarn WCertExtensions)
   | None => wret tt
   end) ;;
  (match get_bytes "signature_key" d with
   | Some _ => wcatch (wdiscard (get_signature_key parse_pub d)) is_authority_error
                      (fun _ => wwarn WCertAuthority)
   | None => wret tt
   end).

Definition check_step (parse_pub : bytes -> W key) (c : cls) (d : dict pyval) (s : step) : W unit :=
  match s with
  | StFormat => check_dict d (format_of c)
  | StECDSA => check_ecdsa c d
  | StEdPub => check_ed_pub d
  | StEdPriv => check_ed_priv d
  | StCert => check_cert parse_pub d
  end.
Fixpoint run_steps (parse_pub : bytes -> W key) (c : cls) (d : dict pyval) (l : list step) : W unit :=
  match l with
  | [] => wret tt
  | s :: l' => check_step parse_pub c d s ;; run_steps parse_pub c d l'
  end.
(** cls(params): PascalStyleDict.__init__ (pascal_style_byte_stream.py:463-465) for a
    concrete class; the data is a copy of the argument. *)
Definition new_params (parse_pub : bytes -> W key) (c : cls) (d : dict pyval) : W unit :=
  run_steps parse_pub c d (check_plan c).

(** get_public_key_params_class / get_private_key_params_class, as selected by
    create_key_params_dict and create_key_params (key.py:83-103, 373-378, 410-439). *)
Definition params_class (k : kind) (key_type : pyval) : res cls :=
  match k with KPub => get_public_class key_type | KPriv => get_private_class key_type end.

(** Key.__init__, key.py:125-147. *)
Definition new_key (parse_pub : bytes -> W key) (k : kind)
    (header params footer : dict pyval) (clear : option (dict pyval)) : W key :=
  check_dict header (header_fmt k) ;;
  do kt <- wlift (ditem (str "key_type") header);
  do c <- wlift (params_class k kt);
  new_params parse_pub c params ;;
  check_dict footer (footer_fmt k) ;;
  wret (mkkey k header c params footer (match clear with Some d => d | None => [] end)).

(** The reads of Key.from_byte_stream, key.py:168-179. *)
Definition read_key_parts (k : kind) : P (dict pyval * dict pyval * dict pyval) :=
  do! header <- read_dict (header_fmt k);
  do! kt <- plift (ditem (str "key_type") header);
  do! c <- plift (params_class k kt);
  do! params <- read_dict (format_of c);
  do! footer <- read_dict (footer_fmt k);
  pret (header, params, footer).
(** Key.from_byte_stream, key.py:149-181. *)
Definition key_from_stream (parse_pub : bytes -> W key) (k : kind) (clear : option (dict pyval))
    (s : stream) : stream * W key :=
  match read_key_parts k s with
  | (s', Ok (header, params, footer)) => (s', new_key parse_pub k header params footer clear)
  | (s', Err e) => (s', werr e)
  end.
(** Key.from_bytes, key.py:183-215. byte_stream.read() returns the unread bytes. *)
Definition key_from_bytes_with (parse_pub : bytes -> W key) (k : kind) (b : bytes)
    (clear : option (dict pyval)) : W key :=
  let '(s', w) := key_from_stream parse_pub k clear (stream_of b) in
  do key <- w;
  match unread s' with
  | [] => wret key
  | remainder =>
      wwarn WExcess ;;
      wret (mkkey (k_kind key) (k_header key) (k_pcls key) (k_params key) (k_footer key)
                  (dset (str "remainder") (VBytes remainder) (k_clear key)))
  end.

(** PublicKey.from_bytes calls itself on the signature key of a certificate. *)
Fixpoint parse_pub_fuel (fuel : nat) (b : bytes) : W key :=
  match fuel with
  | O => werr OutOfFuel
  | S n => key_from_bytes_with (parse_pub_fuel n) KPub b None
  end.
Definition parse_pub (b : bytes) : W key := parse_pub_fuel (S (length b)) b.

(** PublicKey.from_bytes / PrivateKey.from_bytes. *)
Definition key_from_bytes (k : kind) (b : bytes) (clear : option (dict pyval)) : W key :=
  key_from_bytes_with parse_pub k b clear.

(** Key.from_string, key.py:217-254. key_split[1] is IndexError without a space. *)
Definition key_from_string (k : kind) (s : pystr) : W key :=
  match split_max (cp " ") 2 s with
  | key_type_clear :: key_b64 :: rest =>
      let comment_clear := match rest with c :: _ => c | [] => [] end in
      do key_bytes <- wlift (b64decode key_b64);
      do public_key <- key_from_bytes k key_bytes
           (Some [(str "key_type", VStr key_type_clear); (str "comment", VStr comment_clear)]);
      do kt <- wlift (ditem (str "key_type") (k_header public_key));
      wwhen (negb (val_eqb kt (VStr key_type_clear))) (wwarn WClearType) ;;
      wret public_key
  | _ => werr IndexError
  end.

End Parsing.

(** Key.__eq__, key.py:329-336. dict == dict compares as mappings; params are compared by
    UserDict/Mapping equality (dict(self.items()) == dict(other.items())), which does
    not compare the params class. *)
Definition dict_eqb (a b : dict pyval) : bool :=
  (length a =? length b)%nat &&
  forallb (fun kv => match dget (fst kv) b with Some v => val_eqb (snd kv) v | None => false end) a.
Definition kind_eqb (a b : kind) : bool :=
  match a, b with KPub, KPub | KPriv, KPriv => true | _, _ => false end.
Definition key_eqb (a b : key) : bool :=
  kind_eqb (k_kind a) (k_kind b) && dict_eqb (k_header a) (k_header b)
  && dict_eqb (k_params a) (k_params b) && dict_eqb (k_footer a) (k_footer b)
  && dict_eqb (k_clear a) (k_clear b).
