(** Parsing with a count of the calls of BytesIO.read. Each function below is the function of
    Stream.v, Key.v or PrivateKeyList.v of the same name, line by line, with a counter beside its
    result; every loop of the parsers reads from a stream in each of its rounds, so that the count also
    bounds the rounds. What reads no stream is taken over as it is, at no cost. *)
From Verif Require Import PyBase IntBytes Utf8 StructFmt Stream Text Classes Key Crypto PrivateKeyList.
Open Scope Z_scope.

Definition CP (A : Type) := stream -> nat * (stream * res A).
Definition cp {A} (x : P A) : CP A := fun s => (0%nat, x s).
Definition cpbind {A B} (x : CP A) (f : A -> CP B) : CP B := fun s =>
  match x s with
  | (n, (s', Ok a)) => let '(m, r) := f a s' in ((n + m)%nat, r)
  | (n, (s', Err e)) => (n, (s', Err e))
  end.
Definition CW (A : Type) := (nat * W A)%type.
Definition cw {A} (x : W A) : CW A := (0%nat, x).
Definition cwbind {A B} (x : CW A) (f : A -> CW B) : CW B :=
  match x with
  | (n, (l, Ok a)) => let '(m, (l', r)) := f a in ((n + m)%nat, (l ++ l', r))
  | (n, (l, Err e)) => (n, (l, Err e))
  end.
Definition cwcatch {A} (x : CW A) (h : exn -> bool) (f : exn -> W A) : CW A :=
  (fst x, wcatch (snd x) h f).
Definition CSW (A : Type) := stream -> nat * (stream * W A).
Definition cswbind {A B} (x : CSW A) (f : A -> CSW B) : CSW B := fun s =>
  match x s with
  | (n, (s', (l, Ok a))) => let '(m, (s2, (l2, r))) := f a s' in ((n + m)%nat, (s2, (l ++ l2, r)))
  | (n, (s', (l, Err e))) => (n, (s', (l, Err e)))
  end.
Definition cswp {A} (x : CP A) : CSW A := fun s => let '(n, (s', r)) := x s in (n, (s', ([], r))).
Definition csww {A} (x : CW A) : CSW A := fun s => (fst x, (s, snd x)).
Notation "'dop' x <- e ; f" := (cpbind e (fun x => f))
  (at level 200, x pattern, e at level 100, f at level 200).
Notation "'dow' x <- e ; f" := (cwbind e (fun x => f))
  (at level 200, x pattern, e at level 100, f at level 200).
Notation "'docs' x <- e ; f" := (cswbind e (fun x => f))
  (at level 200, x pattern, e at level 100, f at level 200).

(** BytesIO.read: what is counted. *)
Definition c_read (n : Z) : CP bytes := fun s => (1%nat, bio_read n s).
(** read_fixed_bytes, pascal_style_byte_stream.py:228-248. *)
Definition c_fixed (num_bytes : Z) : CP bytes :=
  dop read_bytes <- c_read num_bytes;
  cp (if Z.of_nat (length read_bytes) <? num_bytes then
        (if (length read_bytes =? 0)%nat
         then perr (EOFError true (str "Underlying bytestream is empty"))
         else perr (EOFError false (str "Fewer than 'num_bytes' bytes remaining in the underlying bytestream")))
      else pret read_bytes).
(** read_pascal_bytes, lines 250-274. *)
Definition c_pascal (size : Z) : CP bytes :=
  if size <=? 0 then cp (perr ValueError)
  else dop l <- c_fixed size; c_fixed (int_from_bytes l false).
(** read_from_format_instruction, lines 96-154. *)
Definition c_instr (f : finstr) : CP pyval :=
  match f with
  | FStruct fmt =>
      dop calcsize <- cp (plift (struct_calcsize fmt));
      dop read_bytes <- c_fixed calcsize;
      cp (do! read_unpack <- plift (struct_unpack fmt read_bytes);
          match read_unpack with
          | [v] => pret v
          | l => pret (VTuple l)
          end)
  | FPascal i | FPascalSize i _ =>
      let size := match f with FPascalSize _ n => n | _ => default_size end in
      dop read_bytes <- c_pascal size;
      cp (match i with
          | BYTES => pret (VBytes read_bytes)
          | STRING => do! s <- plift (utf8_decode read_bytes); pret (VStr s)
          | MPINT => pret (VInt (int_from_bytes read_bytes true))
          end)
  | FBad => cp (perr ValueError)
  end.
(** read_from_format_instructions_dict, lines 156-189. *)
Fixpoint c_dict (f : fmt_dict) : CP (dict pyval) :=
  match f with
  | [] => cp (pret [])
  | (k, i) :: f' => dop v <- c_instr i; dop r <- c_dict f'; cp (pret ((k, v) :: r))
  end.
(** read_repeatedly_from_format_instructions_dict, lines 191-226. *)
Fixpoint c_loop (fuel : nat) (f : fmt_dict) (acc : list (dict pyval)) : CP (list (dict pyval)) := fun s =>
  match fuel with
  | O => (0%nat, (s, Err OutOfFuel))
  | S n =>
      match c_dict f s with
      | (c, (s', Ok d)) => let '(c', r) := c_loop n f (acc ++ [d]) s' in ((c + c')%nat, r)
      | (c, (s', Err (EOFError true _))) => (c, (s', Ok acc))
      | (c, (s', Err e)) => (c, (s', Err e))
      end
  end.
Definition c_repeatedly (f : fmt_dict) : CP (list (dict pyval)) := fun s =>
  match f with
  | [] => (0%nat, (s, Err ValueError))
  | _ => c_loop (S (length (unread s))) f [] s
  end.

(** get_valid_principals, cert.py:275-288. *)
Definition c_principals (d : dict pyval) : CW (list pyval) :=
  dow v <- cw (wlift (ditem (str "valid_principals") d));
  dow s <- cw (wlift (stream_of_val v));
  dow l <- (let '(n, (_, r)) := c_repeatedly [fld "principal" fS] s in (n, wlift r));
  cw (wlift (rmap (ditem (str "principal")) l)).
(** _get_option_values_dict, cert.py:346-363. *)
Definition c_options (param : pystr) (d : dict pyval) : CW (dict pyval) :=
  dow v <- cw (wlift (ditem param d));
  dow s <- cw (wlift (stream_of_val v));
  dow l <- (let '(n, (_, r)) := c_repeatedly options_fmt s in (n, wlift r));
  cw (collect_options param [] l).

Section Counted.
Variable ec_ok : curve -> bytes -> bool.

(** get_signature_key, cert.py:536-550. *)
Definition c_authority (pp : bytes -> CW key) (d : dict pyval) : CW key :=
  dow v <- cw (wlift (ditem (str "signature_key") d));
  match v with
  | VBytes b =>
      dow k <- pp b;
      cw (wwhen (issubclass (k_pcls k) CertPub) (wwarn WCertCA) ;; wret k)
  | _ => cw (werr TypeError)
  end.
Definition cdiscard {A} (x : CW A) : CW unit := cwbind x (fun _ => cw (wret tt)).
(** cert.py:574-605 *)
Definition c_check_cert (pp : bytes -> CW key) (d : dict pyval) : CW unit :=
  dow _ <- cw (if dmem (str "type") d then
                 wcatch (wdiscard (wlift (get_type d))) is_value_error (fun _ => wwarn WCertType)
               else wret tt);
  dow _ <- match get_bytes "valid_principals" d with
           | Some _ => cwcatch (cdiscard (c_principals d)) is_eof_error (fun _ => wwarn WCertPrincipals)
           | None => cw (wret tt)
           end;
  dow _ <- match get_bytes "critical_options" d with
           | Some _ => cwcatch (cdiscard (c_options (str "critical_options") d)) is_eof_error
                               (fun _ => wwarn WCertCritical)
           | None => cw (wret tt)
           end;
  dow _ <- match get_bytes "extensions" d with
           | Some _ => cwcatch (cdiscard (c_options (str "extensions") d)) is_eof_error
                               (fun _ => wwarn WCertExtensions)
           | None => cw (wret tt)
           end;
  match get_bytes "signature_key" d with
  | Some _ => cwcatch (cdiscard (c_authority pp d)) is_authority_error (fun _ => wwarn WCertAuthority)
  | None => cw (wret tt)
  end.
(** Of the steps of check_params_are_valid (Classes.v, Key.v) only the one for certificates reads. *)
Definition c_check_step (pp : bytes -> CW key) (c : cls) (d : dict pyval) (s : step) : CW unit :=
  match s with
  | StFormat => cw (check_dict d (format_of c))
  | StECDSA => cw (check_ecdsa ec_ok c d)
  | StEdPub => cw (check_ed_pub d)
  | StEdPriv => cw (check_ed_priv d)
  | StCert => c_check_cert pp d
  end.
Fixpoint c_run_steps (pp : bytes -> CW key) (c : cls) (d : dict pyval) (l : list step) : CW unit :=
  match l with
  | [] => cw (wret tt)
  | s :: l' => dow _ <- c_check_step pp c d s; c_run_steps pp c d l'
  end.
(** PascalStyleDict.__init__, pascal_style_byte_stream.py:463-465. *)
Definition c_new_params (pp : bytes -> CW key) (c : cls) (d : dict pyval) : CW unit :=
  c_run_steps pp c d (check_plan c).
(** Key.__init__, key.py:125-147. *)
Definition c_new_key (pp : bytes -> CW key) (k : kind)
    (header params footer : dict pyval) (clear : option (dict pyval)) : CW key :=
  dow _ <- cw (check_dict header (header_fmt k));
  dow kt <- cw (wlift (ditem (str "key_type") header));
  dow c <- cw (wlift (params_class k kt));
  dow _ <- c_new_params pp c params;
  cw (check_dict footer (footer_fmt k) ;;
      wret (mkkey k header c params footer (match clear with Some d => d | None => [] end))).
(** Key.from_byte_stream, key.py:149-181. *)
Definition c_key_parts (k : kind) : CP (dict pyval * dict pyval * dict pyval) :=
  dop header <- c_dict (header_fmt k);
  dop kt <- cp (plift (ditem (str "key_type") header));
  dop c <- cp (plift (params_class k kt));
  dop params <- c_dict (format_of c);
  dop footer <- c_dict (footer_fmt k);
  cp (pret (header, params, footer)).
Definition c_key_from_stream (pp : bytes -> CW key) (k : kind) (clear : option (dict pyval)) : CSW key := fun s =>
  match c_key_parts k s with
  | (n, (s', Ok (header, params, footer))) =>
      let '(m, w) := c_new_key pp k header params footer clear in ((n + m)%nat, (s', w))
  | (n, (s', Err e)) => (n, (s', werr e))
  end.
(** Key.from_bytes, key.py:183-215; first the lines from 210 on. *)
Definition c_remainder (s : stream) (k : key) : CW key :=
  dow remainder <- (let '(m, (_, r)) := c_read (-1) s in (m, wlift r));
  cw (match remainder with
      | [] => wret k
      | _ =>
          wwarn WExcess ;;
          wret (mkkey (k_kind k) (k_header k) (k_pcls k) (k_params k) (k_footer k)
                      (dset (str "remainder") (VBytes remainder) (k_clear k)))
      end).
Definition c_key_from_bytes_with (pp : bytes -> CW key) (k : kind) (b : bytes)
    (clear : option (dict pyval)) : CW key :=
  let '(n, (s', w)) := c_key_from_stream pp k clear (stream_of b) in
  dow key <- (n, w); c_remainder s' key.
(** PublicKey.from_bytes calls itself on the key of the authority; all the reads are counted. *)
Fixpoint c_parse_pub_fuel (fuel : nat) (b : bytes) : CW key :=
  match fuel with
  | O => cw (werr OutOfFuel)
  | S n => c_key_from_bytes_with (c_parse_pub_fuel n) KPub b None
  end.
Definition c_parse_pub (b : bytes) : CW key := c_parse_pub_fuel (S (length b)) b.
Definition c_key_from_bytes (k : kind) (b : bytes) (clear : option (dict pyval)) : CW key :=
  c_key_from_bytes_with c_parse_pub k b clear.
End Counted.

Section List_.
Variable p : prims.

(** private_key_list.py:249-256 *)
Fixpoint c_read_pubs (fuel : nat) (n : Z) : CSW (list key) :=
  if n <=? 0 then csww (cw (wret []))
  else
    match fuel with
    | O => csww (cw (werr OutOfFuel))
    | S f =>
        docs b <- cswp (c_instr fB);
        match b with
        | VBytes b =>
            docs k <- csww (c_key_from_bytes (p_ec_ok p) KPub b None);
            docs r <- c_read_pubs f (n - 1);
            csww (cw (wret (k :: r)))
        | _ => csww (cw (werr TypeError))
        end
    end.
(** Lines 301-326. *)
Fixpoint c_read_privs (i : nat) (pubs : list key) : CSW (list pair) :=
  match pubs with
  | [] => csww (cw (wret []))
  | pub :: pubs' =>
      docs priv <- c_key_from_stream (p_ec_ok p) (c_parse_pub (p_ec_ok p)) KPriv None;
      docs kt1 <- csww (cw (wlift (ditem (str "key_type") (k_header pub))));
      docs kt2 <- csww (cw (wlift (ditem (str "key_type") (k_header priv))));
      docs _ <- csww (cw (wwhen (negb (val_eqb kt1 kt2)) (wwarn (WPairType i))));
      docs _ <- csww (cw (wwhen (negb (shared_equal (k_params pub) (k_params priv))) (wwarn (WPairValues i))));
      docs r <- c_read_privs (S i) pubs';
      csww (cw (wret (mkpair pub priv :: r)))
  end.
(** Lines 289-338. *)
Definition c_parse_deciphered (c : cipher) (pubs : list key) (plain : bytes)
    : CW (list pair * dict pyval * bytes) :=
  let '(n, (_, w)) :=
    (docs dheader <- cswp (c_dict decipher_header_fmt);
     docs c1 <- csww (cw (wlift (ditem (str "check_int_1") dheader)));
     docs c2 <- csww (cw (wlift (ditem (str "check_int_2") dheader)));
     docs _ <- csww (cw (wwhen (negb (val_eqb c1 c2)) (wwarn WCheckInts)));
     docs pairs <- c_read_privs 0 pubs;
     docs padding <- cswp (c_read (-1));
     docs _ <- csww (cw (wwhen (negb (padding_ok c (length plain) padding)) (wwarn WPadding)));
     csww (cw (wret (pairs, dheader, padding))))
    (stream_of plain) in
  (n, w).
(** PrivateKeyList.from_bytes, lines 205-355. *)
Definition c_from_bytes_try (e : env) (b : bytes) (passphrase : option pystr) : CW pkl :=
  let '(n, (_, w)) :=
    (docs header <- cswp (c_dict list_header_fmt);
     docs magic <- csww (cw (wlift (ditem (str "auth_magic") header)));
     docs _ <- csww (cw (if val_eqb magic (VBytes auth_magic) then wret tt else werr ValueError));
     docs n <- csww (cw (wlift (do? v <- ditem (str "num_keys") header; as_int v)));
     docs _ <- csww (cw (if n <? 0 then werr ValueError else wret tt));
     docs pubs <- c_read_pubs (length b) n;
     docs cv <- cswp (c_instr fB);
     docs cipher_bytes <- csww (cw (wlift (as_bytes cv)));
     docs kv <- csww (cw (wlift (ditem (str "kdf") header)));
     docs k <- csww (cw (wlift (get_kdf kv)));
     docs ov <- csww (cw (wlift (ditem (str "kdf_options") header)));
     docs os <- csww (cw (wlift (stream_of_val ov)));
     docs options <- csww (let '(m, (_, r)) := c_dict (kdf_format k) os in (m, wlift r));
     docs _ <- csww (cw (new_kdf k options));
     docs ciph <- csww (cw (wlift (ditem (str "cipher") header)));
     docs c <- csww (cw (wlift (get_cipher ciph)));
     docs pass <- csww (cw (match k with
                            | KdfNone => wret []
                            | KdfBcrypt => get_passphrase e passphrase
                            end));
     docs tag <- (if is_integrity c then cswp (c_fixed (Z.of_nat (tag_length c)))
                  else csww (cw (wret [])));
     docs _ <- csww (cw (new_kdf k options));
     docs plain <- csww (cw (wlift (cipher_decrypt p c k options pass (cipher_bytes ++ tag))));
     docs r <- csww (c_parse_deciphered c pubs plain);
     let '(pairs, dheader, padding) := r in
     csww (cw (wret (mkpkl pairs (Some b) (Some header) (Some (cipher_bytes ++ tag))
                           (Some options) (Some plain) (Some dheader) (Some padding)))))
    (stream_of b) in
  (n, w).
Definition c_list_from_bytes (e : env) (b : bytes) (passphrase : option pystr) : CW pkl :=
  match c_from_bytes_try e b passphrase with
  | (n, (l, Err x)) => (n, (l, Err (reraise x)))
  | r => r
  end.
End List_.
