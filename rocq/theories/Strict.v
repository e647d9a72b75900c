(** The program while Python's warnings filter raises some warnings as exceptions: [python -W error],
    [warnings.simplefilter('error')] or a filter for certain messages. In Python [warnings.warn] then
    raises the warning, a UserWarning, instead of showing it, and the program unwinds as for any other
    exception: a UserWarning is not a ValueError, EOFError, TypeError or NotImplementedError, so that of
    the except clauses of the code only [except BaseException] catches it.

    Every function that can warn is here again, with the same text, over runs that may end with a raised
    warning. The functions that cannot warn are those of the other files. *)
From Verif Require Import PyBase IntBytes Utf8 StructFmt Stream Text Classes Key Crypto PrivateKeyList
  Json Convert Generate.
Open Scope Z_scope.

(** How a run ends. *)
Inductive outcome (A : Type) := Returns (a : A) | Raises (e : exn) | RaisesWarning (w : warning).
Arguments Returns {A} a.
Arguments Raises {A} e.
Arguments RaisesWarning {A} w.
(** The warnings shown and passphrases asked for, then the end. *)
Definition Q (A : Type) : Type := (list event * outcome A)%type.
Definition of_res {A} (r : res A) : outcome A :=
  match r with Ok a => Returns a | Err e => Raises e end.
Definition qret {A} (a : A) : Q A := ([], Returns a).
Definition qerr {A} (e : exn) : Q A := ([], Raises e).
Definition qlift {A} (r : res A) : Q A := ([], of_res r).
Definition qbind {A B} (x : Q A) (f : A -> Q B) : Q B :=
  match x with
  | (l, Returns a) => let '(l', r) := f a in (l ++ l', r)
  | (l, Raises e) => (l, Raises e)
  | (l, RaisesWarning w) => (l, RaisesWarning w)
  end.
Notation "'doq' x <- e ; f" := (qbind e (fun x => f))
  (at level 200, x pattern, e at level 100, f at level 200).
Definition qseq {A} (x : Q unit) (y : Q A) : Q A := qbind x (fun _ => y).
Notation "x ;;; y" := (qseq x y) (at level 199, right associativity).
Definition qwhen (b : bool) (x : Q unit) : Q unit := if b then x else qret tt.
(** [except] clauses that name exceptions do not catch a raised warning. *)
Definition qcatch {A} (x : Q A) (h : exn -> bool) (f : exn -> Q A) : Q A :=
  match x with
  | (l, Raises e) => if h e then let '(l', r) := f e in (l ++ l', r) else x
  | _ => x
  end.
Definition SQ (A : Type) := stream -> stream * Q A.
Definition sqbind {A B} (x : SQ A) (f : A -> SQ B) : SQ B :=
  fun s => match x s with
           | (s', (l, Returns a)) => let '(s2, (l2, r)) := f a s' in (s2, (l ++ l2, r))
           | (s', (l, Raises e)) => (s', (l, Raises e))
           | (s', (l, RaisesWarning w)) => (s', (l, RaisesWarning w))
           end.
Notation "'dosq' x <- e ; f" := (sqbind e (fun x => f))
  (at level 200, x pattern, e at level 100, f at level 200).
Definition sqp {A} (x : P A) : SQ A := fun s => let '(s', r) := x s in (s', ([], of_res r)).
Definition sqq {A} (x : Q A) : SQ A := fun s => (s, x).

Section Filter.
(** The warnings that the filter turns into exceptions. *)
Variable raising : warning -> bool.
(** [warnings.warn]: every call in the code passes a message of class UserWarning. *)
Definition qwarn (w : warning) : Q unit :=
  if raising w then ([], RaisesWarning w) else ([Warn w], Returns tt).

(** pascal_style_byte_stream.py:410-459, as in Stream.v. *)
Definition q_check_field (target : dict pyval) (k : pystr) (i : finstr) : Q unit :=
  match dget k target with
  | None => qwarn (WMissing k)
  | Some v =>
      match i with
      | FStruct fmt =>
          match struct_pack fmt [v] with
          | Ok _ => qret tt
          | Err StructError => qwarn (WFormatted k fmt)
          | Err e => qerr e
          end
      | FPascal p | FPascalSize p _ =>
          if is_instance v p then qret tt else qwarn (WClass k (class_name p))
      | FBad => qerr ValueError
      end
  end.
Fixpoint q_check_dict (target : dict pyval) (f : fmt_dict) : Q unit :=
  match f with
  | [] => qret tt
  | (k, i) :: f' => q_check_field target k i ;;; q_check_dict target f'
  end.

(** Certificate options, cert.py:346-510, as in Key.v. *)
Fixpoint q_collect_options (param : pystr) (acc : dict pyval) (l : list (dict pyval)) : Q (dict pyval) :=
  match l with
  | [] => qret acc
  | inner :: l' =>
      match dget (str "option") inner, dget (str "value") inner with
      | Some (VStr o), Some v =>
          qwhen (dmem o acc) (qwarn (WCertDuplicate o param)) ;;;
          q_collect_options param (dset o v acc) l'
      | _, _ => qerr (KeyError (VStr (str "option")))
      end
  end.
Definition q_get_option_values_dict (param : pystr) (d : dict pyval) : Q (dict pyval) :=
  doq v <- qlift (ditem param d);
  doq s <- qlift (stream_of_val v);
  doq l <- qlift (snd (read_repeatedly options_fmt s));
  q_collect_options param [] l.
Definition q_get_option_from_param (param : pystr) (o : option_arg) (d : dict pyval) : Q (option pyval) :=
  doq _ <- qlift (option_guard o d);
  doq opts <- q_get_option_values_dict param d;
  qret (match find (fun kv => str_eqb (option_key o) (fst kv)) opts with
        | Some (k, _) => dget k opts
        | None => None
        end).
Definition q_set_option_for_param (param : pystr) (o : option_arg) (v : pyval)
    (d : dict pyval) : Q (dict pyval) :=
  doq _ <- qlift (option_guard o d);
  doq opts <- q_get_option_values_dict param d;
  doq b <- qlift (pack_options (dset (option_key o) v opts) fB);
  qret (dset param (VBytes b) d).
Definition q_get_critical_option := q_get_option_from_param (str "critical_options").
Definition q_get_extension_value := q_get_option_from_param (str "extensions").
Definition q_set_critical_option := q_set_option_for_param (str "critical_options").
Definition q_set_extension_value := q_set_option_for_param (str "extensions").

Section Parsing.
Variable ec_ok : curve -> bytes -> bool.

(** ecdsa.py:175-194, ed25519.py:71-74 and 219-228, cert.py:536-550 and 574-605, as in Key.v. *)
Definition q_check_ecdsa (c : cls) (d : dict pyval) : Q unit :=
  match dget (str "identifier") d with
  | None => qret tt
  | Some i =>
      qwhen (negb (val_eqb (VStr (class_curve_identifier c)) i)) (qwarn WCurve) ;;;
      match get_bytes "q" d with
      | None => qret tt
      | Some q =>
          let ok := match curve_of c with Some k => ec_ok k q | None => false end in
          qwhen (negb ok) (qwarn WPoint)
      end
  end.
Definition q_check_ed_pub (d : dict pyval) : Q unit :=
  match get_bytes "public" d with
  | None => qret tt
  | Some p => qwhen (negb (length p =? ed_key_size)%nat) (qwarn WEdPublicLength)
  end.
Definition q_check_ed_priv (d : dict pyval) : Q unit :=
  match get_bytes "private_public" d, get_bytes "public" d with
  | Some pp, Some p =>
      let tail := skipn ed_key_size pp in
      qwhen (negb (bytes_eqb tail p)) (qwarn WEdMismatch) ;;;
      qwhen (negb (length tail =? ed_key_size)%nat) (qwarn WEdPrivateLength)
  | _, _ => qret tt
  end.
Definition q_get_signature_key (q_parse_pub : bytes -> Q key) (d : dict pyval) : Q key :=
  doq v <- qlift (ditem (str "signature_key") d);
  match v with
  | VBytes b =>
      doq k <- q_parse_pub b;
      qwhen (issubclass (k_pcls k) CertPub) (qwarn WCertCA) ;;;
      qret k
  | _ => qerr TypeError
  end.
Definition qdiscard {A} (x : Q A) : Q unit := qbind x (fun _ => qret tt).
Definition q_check_cert (q_parse_pub : bytes -> Q key) (d : dict pyval) : Q unit :=
  (if dmem (str "type") d then
     qcatch (qdiscard (qlift (get_type d))) is_value_error (fun _ => qwarn WCertType)
   else qret tt) ;;;
  (match get_bytes "valid_principals" d with
   | Some _ => qcatch (qdiscard (qlift (get_valid_principals d))) is_eof_error
                      (fun _ => qwarn WCertPrincipals)
   | None => qret tt
   end) ;;;
  (match get_bytes "critical_options" d with
   | Some _ => qcatch (qdiscard (q_get_option_values_dict (str "critical_options") d)) is_eof_error
                      (fun _ => qwarn WCertCritical)
   | None => qret tt
   end) ;;;
  (match get_bytes "extensions" d with
   | Some _ => qcatch (qdiscard (q_get_option_values_dict (str "extensions") d)) is_eof_error
                      (fun _ => qwarn WCertExtensions)
   | None => qret tt
   end) ;;;
  (match get_bytes "signature_key" d with
   | Some _ => qcatch (qdiscard (q_get_signature_key q_parse_pub d)) is_authority_error
                      (fun _ => qwarn WCertAuthority)
   | None => qret tt
   end).
Definition q_check_step (q_parse_pub : bytes -> Q key) (c : cls) (d : dict pyval) (s : step) : Q unit :=
  match s with
  | StFormat => q_check_dict d (format_of c)
  | StECDSA => q_check_ecdsa c d
  | StEdPub => q_check_ed_pub d
  | StEdPriv => q_check_ed_priv d
  | StCert => q_check_cert q_parse_pub d
  end.
Fixpoint q_run_steps (q_parse_pub : bytes -> Q key) (c : cls) (d : dict pyval) (l : list step) : Q unit :=
  match l with
  | [] => qret tt
  | s :: l' => q_check_step q_parse_pub c d s ;;; q_run_steps q_parse_pub c d l'
  end.

(** PascalStyleDict.__init__ and Key.__init__: pascal_style_byte_stream.py:463-465, key.py:125-147. *)
Definition q_new_params (q_parse_pub : bytes -> Q key) (c : cls) (d : dict pyval) : Q unit :=
  q_run_steps q_parse_pub c d (check_plan c).
Definition q_new_key (q_parse_pub : bytes -> Q key) (k : kind)
    (header params footer : dict pyval) (clear : option (dict pyval)) : Q key :=
  q_check_dict header (header_fmt k) ;;;
  doq kt <- qlift (ditem (str "key_type") header);
  doq c <- qlift (params_class k kt);
  q_new_params q_parse_pub c params ;;;
  q_check_dict footer (footer_fmt k) ;;;
  qret (mkkey k header c params footer (match clear with Some d => d | None => [] end)).

(** Key.from_byte_stream, from_bytes and from_string: key.py:149-254. *)
Definition q_key_from_stream (q_parse_pub : bytes -> Q key) (k : kind) (clear : option (dict pyval))
    (s : stream) : stream * Q key :=
  match read_key_parts k s with
  | (s', Ok (header, params, footer)) => (s', q_new_key q_parse_pub k header params footer clear)
  | (s', Err e) => (s', qerr e)
  end.
Definition q_key_from_bytes_with (q_parse_pub : bytes -> Q key) (k : kind) (b : bytes)
    (clear : option (dict pyval)) : Q key :=
  let '(s', w) := q_key_from_stream q_parse_pub k clear (stream_of b) in
  doq key <- w;
  match unread s' with
  | [] => qret key
  | remainder =>
      qwarn WExcess ;;;
      qret (mkkey (k_kind key) (k_header key) (k_pcls key) (k_params key) (k_footer key)
                  (dset (str "remainder") (VBytes remainder) (k_clear key)))
  end.
Fixpoint q_parse_pub_fuel (fuel : nat) (b : bytes) : Q key :=
  match fuel with
  | O => qerr OutOfFuel
  | S n => q_key_from_bytes_with (q_parse_pub_fuel n) KPub b None
  end.
Definition q_parse_pub (b : bytes) : Q key := q_parse_pub_fuel (S (length b)) b.
Definition q_key_from_bytes (k : kind) (b : bytes) (clear : option (dict pyval)) : Q key :=
  q_key_from_bytes_with q_parse_pub k b clear.
Definition q_key_from_string (k : kind) (s : pystr) : Q key :=
  match split_max (cp " ") 2 s with
  | key_type_clear :: key_b64 :: rest =>
      let comment_clear := match rest with c :: _ => c | [] => [] end in
      doq key_bytes <- qlift (b64decode key_b64);
      doq public_key <- q_key_from_bytes k key_bytes
           (Some [(str "key_type", VStr key_type_clear); (str "comment", VStr comment_clear)]);
      doq kt <- qlift (ditem (str "key_type") (k_header public_key));
      qwhen (negb (val_eqb kt (VStr key_type_clear))) (qwarn WClearType) ;;;
      qret public_key
  | _ => qerr IndexError
  end.

End Parsing.

(** Key derivation options: PascalStyleDict.__init__, as in Crypto.v. *)
Definition q_new_kdf (k : kdf) (d : dict pyval) : Q unit := q_check_dict d (kdf_format k).

Section List_.
Variable p : prims.
Definition q_pub_from_bytes := q_key_from_bytes (p_ec_ok p) KPub.

(** PrivateKeyList.from_bytes, private_key_list.py:235-338, as in PrivateKeyList.v. *)
Fixpoint q_read_pubs (fuel : nat) (n : Z) : SQ (list key) :=
  if n <=? 0 then sqq (qret [])
  else
    match fuel with
    | O => sqq (qerr OutOfFuel)
    | S f =>
        dosq b <- sqp (read_instr fB);
        match b with
        | VBytes b =>
            dosq k <- sqq (q_pub_from_bytes b None);
            dosq r <- q_read_pubs f (n - 1);
            sqq (qret (k :: r))
        | _ => sqq (qerr TypeError)
        end
    end.
Fixpoint q_read_privs (i : nat) (pubs : list key) : SQ (list pair) :=
  match pubs with
  | [] => sqq (qret [])
  | pub :: pubs' =>
      dosq priv <- (fun s => q_key_from_stream (p_ec_ok p) (q_parse_pub (p_ec_ok p)) KPriv None s);
      dosq kt1 <- sqq (qlift (ditem (str "key_type") (k_header pub)));
      dosq kt2 <- sqq (qlift (ditem (str "key_type") (k_header priv)));
      dosq _ <- sqq (qwhen (negb (val_eqb kt1 kt2)) (qwarn (WPairType i)));
      dosq _ <- sqq (qwhen (negb (shared_equal (k_params pub) (k_params priv))) (qwarn (WPairValues i)));
      dosq r <- q_read_privs (S i) pubs';
      sqq (qret (mkpair pub priv :: r))
  end.
Definition q_get_passphrase (e : env) (given : option pystr) : Q pystr :=
  match given with
  | Some s => qret s
  | None => ([Prompt], of_res (e_getpass e))
  end.
Definition q_parse_deciphered (c : cipher) (pubs : list key) (plain : bytes)
    : Q (list pair * dict pyval * bytes) :=
  snd ((dosq dheader <- sqp (read_dict decipher_header_fmt);
        dosq c1 <- sqq (qlift (ditem (str "check_int_1") dheader));
        dosq c2 <- sqq (qlift (ditem (str "check_int_2") dheader));
        dosq _ <- sqq (qwhen (negb (val_eqb c1 c2)) (qwarn WCheckInts));
        dosq pairs <- q_read_privs 0 pubs;
        dosq padding <- sqp (bio_read (-1));
        dosq _ <- sqq (qwhen (negb (padding_ok c (length plain) padding)) (qwarn WPadding));
        sqq (qret (pairs, dheader, padding)))
       (stream_of plain)).
Definition q_from_bytes_try (e : env) (b : bytes) (passphrase : option pystr) : Q pkl :=
  snd ((dosq header <- sqp (read_dict list_header_fmt);
        dosq magic <- sqq (qlift (ditem (str "auth_magic") header));
        dosq _ <- sqq (if val_eqb magic (VBytes auth_magic) then qret tt else qerr ValueError);
        dosq n <- sqq (qlift (do? v <- ditem (str "num_keys") header; as_int v));
        dosq _ <- sqq (if n <? 0 then qerr ValueError else qret tt);
        dosq pubs <- q_read_pubs (length b) n;
        dosq cv <- sqp (read_instr fB);
        dosq cipher_bytes <- sqq (qlift (as_bytes cv));
        dosq kv <- sqq (qlift (ditem (str "kdf") header));
        dosq k <- sqq (qlift (get_kdf kv));
        dosq ov <- sqq (qlift (ditem (str "kdf_options") header));
        dosq os <- sqq (qlift (stream_of_val ov));
        dosq options <- sqq (qlift (snd (read_dict (kdf_format k) os)));
        dosq _ <- sqq (q_new_kdf k options);
        dosq ciph <- sqq (qlift (ditem (str "cipher") header));
        dosq c <- sqq (qlift (get_cipher ciph));
        dosq pass <- sqq (match k with
                         | KdfNone => qret []
                         | KdfBcrypt => q_get_passphrase e passphrase
                         end);
        dosq tag <- (if is_integrity c then sqp (read_fixed_bytes (Z.of_nat (tag_length c)))
                    else sqq (qret []));
        dosq _ <- sqq (q_new_kdf k options);
        dosq plain <- sqq (qlift (cipher_decrypt p c k options pass (cipher_bytes ++ tag)));
        dosq r <- sqq (q_parse_deciphered c pubs plain);
        let '(pairs, dheader, padding) := r in
        sqq (qret (mkpkl pairs (Some b) (Some header) (Some (cipher_bytes ++ tag))
                         (Some options) (Some plain) (Some dheader) (Some padding))))
       (stream_of b)).

(** The except clauses, private_key_list.py:339-344: [except BaseException] also catches a raised
    warning, which becomes a ValueError. *)
Definition q_list_from_bytes (e : env) (b : bytes) (passphrase : option pystr) : Q pkl :=
  match q_from_bytes_try e b passphrase with
  | (l, Raises x) => (l, Raises (reraise x))
  | (l, RaisesWarning _) => (l, Raises ValueError)
  | r => r
  end.

(** PrivateKeyList.from_string, private_key_list.py:379-416. *)
Definition q_list_from_string (e : env) (s : pystr) (passphrase : option pystr) : Q pkl :=
  let key_lines := splitlines s in
  match key_lines with
  | [] => qerr IndexError
  | first :: _ =>
      if negb (str_eqb first pem_header) || negb (str_eqb (last key_lines []) pem_footer)
      then qerr ValueError
      else
        doq key_bytes <- qlift (b64decode (List.concat (removelast (tl key_lines))));
        q_list_from_bytes e key_bytes passphrase
  end.

(** PrivateKeyList.pack_bytes and pack_string, private_key_list.py:470-655. *)
Definition q_list_pack_bytes (e : env) (l : pkl) (passphrase : option pystr)
    (include_indices : option (list Z)) (override retain : bool) : Q bytes :=
  let '(cv, kv) := list_cipher_kdf l in
  doq options <- match (if retain then l_kdf_options l else None) with
                | Some d => qret d
                | None => doq k <- qlift (get_kdf kv);
                          q_new_kdf k (kdf_generate k (e_salt e)) ;;;
                          qret (kdf_generate k (e_salt e))
                end;
  let idx := match include_indices with
             | Some i => i
             | None => map Z.of_nat (seq 0 (length (l_pairs l)))
             end in
  doq k <- qlift (get_kdf kv);
  doq options_bytes <- qlift (pack_with (write_dict (kdf_format k) options));
  doq prefix <- qlift (pack_with (
    do! _ <- write_dict list_header_fmt
               [(str "auth_magic", VBytes auth_magic); (str "cipher", cv); (str "kdf", kv);
                (str "kdf_options", VBytes options_bytes);
                (str "num_keys", VInt (Z.of_nat (length idx)))];
    write_pubs l override idx));
  doq plain <- qlift (pack_plain e l cv idx);
  doq pass <- (if val_eqb kv (VStr (str "none")) then qret []
              else q_get_passphrase e passphrase);
  doq c <- qlift (get_cipher cv);
  q_new_kdf k options ;;;
  doq cipher_bytes <- qlift (cipher_encrypt p c k options pass plain);
  let body := if is_integrity c then slice_butlast (tag_length c) cipher_bytes else cipher_bytes in
  let tag := if is_integrity c then slice_last (tag_length c) cipher_bytes else [] in
  qlift (pack_with (fun s0 =>
    (do! _ <- write_instr fB (VBytes body);
     fun s => (bio_write tag s, Ok tt)) (bio_write prefix s0))).
Definition q_list_pack_string (e : env) (l : pkl) (passphrase : option pystr)
    (include_indices : option (list Z)) (override retain : bool) : Q pystr :=
  doq b <- q_list_pack_bytes e l passphrase include_indices override retain;
  let t := b64encode b in
  qret (pem_header ++ [10%N] ++ str_join [10%N] (wrap (length t) t)
        ++ [10%N] ++ pem_footer ++ [10%N]).

(** __main__.py:19-45, as in PrivateKeyList.v and Json.v. *)
Fixpoint q_parse_lines (i : nat) (lines : list pystr) : Q (list key) :=
  match lines with
  | [] => qret []
  | line :: lines' =>
      doq o <- qcatch (doq k <- q_key_from_string (p_ec_ok p) KPub line; qret (Some k))
                     is_line_error (fun _ => qwarn (WLine i) ;;; qret None);
      doq r <- q_parse_lines (S i) lines';
      qret (match o with Some k => k :: r | None => r end)
  end.
Definition q_main_parse (e : env) (file_contents : pystr) (passphrase : option pystr) : Q parsed :=
  if starts_with pem_header file_contents then
    doq l <- q_list_from_string e file_contents passphrase; qret (ParsedList l)
  else
    doq l <- q_parse_lines 0 (splitlines file_contents); qret (ParsedKeys l).
Definition q_main_output (e : env) (file_contents : pystr) (passphrase : option pystr) : Q pystr :=
  doq r <- q_main_parse e file_contents passphrase; qret (output_of r).
Definition q_main_command (e : env) (file : bytes) (passphrase : option pystr) : Q pystr :=
  doq file_contents <- qlift (read_text file);
  q_main_output e file_contents passphrase.

End List_.

Section Ext.
Variable x : ext.

(** cls(params) and convert_from, common.py:55-100 and ecdsa.py:96-106, as in Convert.v. *)
Definition q_construct (c : cls) (d : dict pyval) : Q (cls * dict pyval) :=
  if is_abstract c then qerr TypeError
  else q_new_params (x_ec_ok x) (q_parse_pub (x_ec_ok x)) c d ;;; qret (c, d).

Section From.
Variable build : cls -> dict pyval -> Q (cls * dict pyval).
Fixpoint q_first_subclass (conv : cls -> Q (cls * dict pyval)) (l : list cls) : Q (option (cls * dict pyval)) :=
  match l with
  | [] => qret None
  | c :: l' =>
      doq r <- qcatch (doq y <- conv c; qret (Some y)) is_value_error (fun _ => qret None);
      match r with
      | Some y => qret (Some y)
      | None => q_first_subclass conv l'
      end
  end.
Definition q_common_convert_from (conv : cls -> Q (cls * dict pyval)) (c : cls) (o : obj) : Q (cls * dict pyval) :=
  doq own <- qlift (own_mapping x c o);
  doq found <- match own with
              | Some d => qret (Some d)
              | None => doq r <- q_first_subclass conv (subclasses c);
                        qret (match r with Some y => Some (snd y) | None => None end)
              end;
  match found with
  | Some d => doq d <- qlift (restrict c d); build c d
  | None => qerr ValueError
  end.
Definition q_ecdsa_convert_from (conv : cls -> Q (cls * dict pyval)) (c : cls) (o : obj) : Q (cls * dict pyval) :=
  if is_abstract c then
    doq r <- q_first_subclass conv (filter (fun k => negb (is_abstract k)) (subclasses c));
    match r with
    | Some y => qret y
    | None => q_common_convert_from conv c o
    end
  else q_common_convert_from conv c o.
Fixpoint q_convert_from_fuel (fuel : nat) (c : cls) (o : obj) : Q (cls * dict pyval) :=
  match fuel with
  | O => qerr OutOfFuel
  | S n =>
      let conv k := q_convert_from_fuel n k o in
      if issubclass c ECDSAPub then q_ecdsa_convert_from conv c o else q_common_convert_from conv c o
  end.

End From.
Definition q_convert_from (c : cls) (o : obj) : Q (cls * dict pyval) :=
  q_convert_from_fuel q_construct 8 c o.

(** generate_private_params and PublicPrivateKeyPair.generate, private_key_list.py:47-85, as in Generate.v. *)

Variable gen : request -> res obj.
Definition q_class_generate (c : cls) (kwargs : dict pyval) : Q (cls * dict pyval) :=
  let c := delegate c in
  match lookup_attr (own_generator x gen kwargs c) (mro c) with
  | Some r => doq d <- qlift r; q_construct c d
  | None => qerr AttributeError
  end.
Definition q_generate_pair (key_type comment : pystr) (kwargs : dict pyval) : Q pair :=
  doq c <- qlift (get_private_class (VStr key_type));
  doq r <- q_class_generate c kwargs;
  doq priv <- q_new_key (x_ec_ok x) (q_parse_pub (x_ec_ok x)) KPriv [(str "key_type", VStr key_type)] (snd r)
               [(str "comment", VStr comment)] None;
  doq pub <- q_new_key (x_ec_ok x) (q_parse_pub (x_ec_ok x)) KPub [(str "key_type", VStr key_type)] (snd r) [] None;
  qret (mkpair pub priv).

End Ext.
End Filter.
