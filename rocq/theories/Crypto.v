(** kdf_options/*.py and cipher/*.py. *)
From Verif Require Import PyBase IntBytes Utf8 StructFmt Stream Classes.
Open Scope Z_scope.

(** Cryptographic primitives supplied by the bcrypt and cryptography packages. They are
    parameters of the model; key streams are functions from byte index to byte. *)
Record prims := mkprims {
  p_bcrypt : bytes -> bytes -> Z -> Z -> bytes;   (* password salt length rounds *)
  p_aes_enc : bytes -> bytes -> bytes;            (* key block *)
  p_aes_dec : bytes -> bytes -> bytes;
  p_tdes_enc : bytes -> bytes -> bytes;
  p_tdes_dec : bytes -> bytes -> bytes;
  p_chacha : bytes -> bytes -> nat -> byte;       (* key nonce index *)
  p_poly1305 : bytes -> bytes -> bytes;           (* key message *)
  p_gcm_stream : bytes -> bytes -> nat -> byte;   (* key iv index *)
  p_gcm_tag : bytes -> bytes -> bytes -> bytes;   (* key iv ciphertext *)
  p_ec_ok : curve -> bytes -> bool                (* the point decodes *) }.

(** ** Python slices of bytes *)
(** b[:n], b[-n:], b[:-n] for n >= 0; note b[-0:] is b and b[:-0] is empty. *)
Definition slice_to (n : nat) (b : bytes) : bytes := firstn n b.
Definition slice_last (n : nat) (b : bytes) : bytes :=
  match n with O => b | _ => skipn (length b - n) b end.
Definition slice_butlast (n : nat) (b : bytes) : bytes :=
  match n with O => [] | _ => firstn (length b - n) b end.

(** ** KDF options (kdf_options/*.py) *)
Inductive kdf := KdfNone | KdfBcrypt.
(** _KDF_MAPPING, factory.py:12-15, and get_kdf_options_class, 18-34. *)
Definition kdf_mapping : dict kdf := [(str "none", KdfNone); (str "bcrypt", KdfBcrypt)].
Definition get_kdf (v : pyval) : res kdf :=
  match v with VStr s => ditem s kdf_mapping | v => Err (KeyError v) end.
(** FORMAT_INSTRUCTIONS_DICT: none.py:39-49, bcrypt_options.py:71-85. *)
Definition kdf_format (k : kdf) : fmt_dict :=
  match k with
  | KdfNone => []
  | KdfBcrypt => [fld "salt" fB; fld "rounds" (FStruct (str ">I"))]
  end.
(** kdf_class(mapping): PascalStyleDict.__init__. *)
Definition new_kdf (k : kdf) (d : dict pyval) : W unit := check_dict d (kdf_format k).
(** generate_options() without keyword arguments: none.py:51-61, bcrypt_options.py:87-113
    (SALT_LENGTH = 16, ROUNDS = 16, lines 30-40); [salt] is secrets.token_bytes(16). *)
Definition kdf_generate (k : kdf) (salt : bytes) : dict pyval :=
  match k with
  | KdfNone => []
  | KdfBcrypt => [(str "salt", VBytes salt); (str "rounds", VInt 16)]
  end.

(** bcrypt.kdf(password, salt, desired_key_bytes, rounds, ignore_few_rounds=True):
    argument checks of the bcrypt package, then the primitive. *)
Definition bcrypt_kdf (p : prims) (password : bytes) (salt rounds : pyval) (len : Z) : res bytes :=
  match salt, rounds with
  | VBytes s, VInt r =>
      if (length password =? 0)%nat || (length s =? 0)%nat then Err ValueError
      else if (len <=? 0) || (512 <? len) then Err ValueError
      else if r <? 1 then Err ValueError
      else if 2 ^ 32 <=? r then Err OverflowError
      else Ok (p_bcrypt p password s len r)
  | _, _ => Err TypeError
  end.
(** derive_key: none.py:24-37, bcrypt_options.py:42-69. *)
Definition derive_key (p : prims) (k : kdf) (d : dict pyval) (passphrase : pystr) (len : Z) : res bytes :=
  match k with
  | KdfNone => Ok []
  | KdfBcrypt =>
      do? password <- utf8_encode passphrase;
      do? salt <- ditem (str "salt") d;
      do? rounds <- ditem (str "rounds") d;
      bcrypt_kdf p password salt rounds len
  end.

(** ** Modes of operation of the cryptography package *)
Definition byte_xor (a b : byte) : byte := bZ (Z.lxor (Zb a) (Zb b)).
Fixpoint xor_bytes (a b : bytes) : bytes :=
  match a, b with
  | x :: a', y :: b' => byte_xor x y :: xor_bytes a' b'
  | _, _ => []
  end.
(** xor with the key stream [ks] from index [i] on: CipherContext.update of a stream cipher. *)
Fixpoint xor_stream (ks : nat -> byte) (i : nat) (b : bytes) : bytes :=
  match b with
  | [] => []
  | x :: b' => byte_xor x (ks i) :: xor_stream ks (S i) b'
  end.
(** CTR: key stream block j is E(iv + j mod 2^128). *)
Definition ctr_stream (enc : bytes -> bytes) (iv : bytes) (i : nat) : byte :=
  nth (i mod 16) (enc (be_bytes 16 (be_value iv + Z.of_nat (i / 16)))) x00.
Fixpoint chunks (fuel n : nat) (b : bytes) : list bytes :=
  match fuel with
  | O => []
  | S f => match b with [] => [] | _ => firstn n b :: chunks f n (skipn n b) end
  end.
Fixpoint cbc_enc (enc : bytes -> bytes) (prev : bytes) (l : list bytes) : bytes :=
  match l with
  | [] => []
  | x :: l' => let c := enc (xor_bytes x prev) in c ++ cbc_enc enc c l'
  end.
Fixpoint cbc_dec (dec : bytes -> bytes) (prev : bytes) (l : list bytes) : bytes :=
  match l with
  | [] => []
  | c :: l' => xor_bytes (dec c) prev ++ cbc_dec dec c l'
  end.

(** ** Ciphers (cipher/*.py) *)
Inductive cipher :=
| NoneCipher | TDesCbc
| Aes128Ctr | Aes192Ctr | Aes256Ctr
| Aes128Cbc | Aes192Cbc | Aes256Cbc
| Aes128Gcm | Aes256Gcm | ChaChaPoly.

(** _CIPHER_MAPPING, factory.py:16-29, and get_cipher_class, 32-47. *)
Definition cipher_mapping : dict cipher :=
  [(str "none", NoneCipher); (str "3des-cbc", TDesCbc);
   (str "aes128-ctr", Aes128Ctr); (str "aes192-ctr", Aes192Ctr); (str "aes256-ctr", Aes256Ctr);
   (str "aes128-cbc", Aes128Cbc); (str "aes192-cbc", Aes192Cbc); (str "aes256-cbc", Aes256Cbc);
   (str "rijndael-cbc@lysator.liu.se", Aes256Cbc);
   (str "aes128-gcm@openssh.com", Aes128Gcm); (str "aes256-gcm@openssh.com", Aes256Gcm);
   (str "chacha20-poly1305@openssh.com", ChaChaPoly)].
Definition get_cipher (v : pyval) : res cipher :=
  match v with VStr s => ditem s cipher_mapping | v => Err (KeyError v) end.

(** BLOCK_SIZE: none.py:53-59, confidentiality.py:90-94, 219-223, integrity.py:67-71, 142-147. *)
Definition block_size (c : cipher) : nat :=
  match c with NoneCipher | TDesCbc | ChaChaPoly => 8 | _ => 16 end.
(** KEY_LENGTH: confidentiality.py:126-156, 179-209, 241-246; integrity.py:106-123, 149-156. *)
Definition key_length (c : cipher) : nat :=
  match c with
  | NoneCipher => 0
  | TDesCbc => 24
  | Aes128Ctr | Aes128Cbc | Aes128Gcm => 16
  | Aes192Ctr | Aes192Cbc => 24
  | Aes256Ctr | Aes256Cbc | Aes256Gcm => 32
  | ChaChaPoly => 64
  end.
(** IV_LENGTH: common.py:93-99 (default: the block size); integrity.py:54-59, 158-167. *)
Definition iv_length (c : cipher) : nat :=
  match c with
  | NoneCipher => 0
  | TDesCbc => 8
  | Aes128Gcm | Aes256Gcm => 12
  | ChaChaPoly => 0
  | _ => 16
  end.
(** issubclass(c, ConfidentialityIntegrityCipher): integrity.py:48, 100, 113, 126. *)
Definition is_integrity (c : cipher) : bool :=
  match c with Aes128Gcm | Aes256Gcm | ChaChaPoly => true | _ => false end.
(** TAG_LENGTH: integrity.py:61-65, 169-173 (only for integrity ciphers). *)
Definition tag_length (c : cipher) : nat := 16.

Section Ciphers.
Variable p : prims.

(** algorithms.AES(key) requires 16, 24 or 32 bytes. *)
Definition aes_key_ok (k : bytes) : bool :=
  let n := length k in ((n =? 16) || (n =? 24) || (n =? 32))%nat.
(** algorithms.TripleDES(key): 8, 16 or 24 bytes, expanded to 24. *)
Definition tdes_key (k : bytes) : option bytes :=
  let n := length k in
  if (n =? 8)%nat then Some (k ++ k ++ k)
  else if (n =? 16)%nat then Some (k ++ firstn 8 k)
  else if (n =? 24)%nat then Some k else None.

(** ConfidentialityOnlyCipher.encrypt_with_key_iv / decrypt_with_key_iv,
    confidentiality.py:47-82: update + finalize. Wrong key or IV sizes and, for CBC, a
    length that is not a multiple of the block size are ValueErrors. *)
Definition ctr_crypt (b key iv : bytes) : res bytes :=
  if aes_key_ok key && (length iv =? 16)%nat
  then Ok (xor_stream (ctr_stream (p_aes_enc p key) iv) 0 b)
  else Err ValueError.
Definition cbc_crypt (encrypting : bool) (bs : nat) (f : bytes -> bytes) (b iv : bytes) : res bytes :=
  if (length iv =? bs)%nat && (length b mod bs =? 0)%nat
  then Ok ((if encrypting then cbc_enc else cbc_dec) f iv (chunks (length b) bs b))
  else Err ValueError.

(** aead.AESGCM(key).encrypt(iv, data, None) / decrypt. *)
Definition gcm_nonce_ok (iv : bytes) : bool := ((8 <=? length iv) && (length iv <=? 128))%nat.
Definition gcm_encrypt (b key iv : bytes) : res bytes :=
  if negb (aes_key_ok key) then Err ValueError
  else if negb (gcm_nonce_ok iv) then Err ValueError
  else let c := xor_stream (p_gcm_stream p key iv) 0 b in Ok (c ++ p_gcm_tag p key iv c).
Definition gcm_decrypt (b key iv : bytes) : res bytes :=
  if negb (aes_key_ok key) then Err ValueError
  else if negb (gcm_nonce_ok iv) then Err ValueError
  else if (length b <? 16)%nat then Err InvalidTag
  else
    let c := slice_butlast 16 b in
    if bytes_eqb (p_gcm_tag p key iv c) (slice_last 16 b)
    then Ok (xor_stream (p_gcm_stream p key iv) 0 c)
    else Err InvalidTag.

(** ChaCha20Poly1305Cipher, integrity.py:175-316. *)
Definition chacha_key_length : nat := key_length ChaChaPoly / 2.       (* 175-183 *)
Definition chacha_nonce : bytes := repeat x00 16.                       (* 186-199 *)
Definition chacha_block : nat := 64.                                    (* 208-217 *)
Definition poly_key_length : nat := 32.                                 (* 222-229 *)
Definition chacha_encrypt (b key : bytes) : res bytes :=               (* 237-275 *)
  let key1 := slice_to chacha_key_length key in
  if negb (length key1 =? 32)%nat then Err ValueError
  else
    let ks := p_chacha p key1 chacha_nonce in
    let poly_key := slice_to poly_key_length (xor_stream ks 0 (repeat x00 chacha_block)) in
    let c := xor_stream ks chacha_block b in
    Ok (c ++ p_poly1305 p poly_key c).
Definition chacha_decrypt (b key : bytes) : res bytes :=               (* 277-316 *)
  let key1 := slice_to chacha_key_length key in
  let c := slice_butlast (tag_length ChaChaPoly) b in
  let tag := slice_last (tag_length ChaChaPoly) b in
  if negb (length key1 =? 32)%nat then Err ValueError
  else
    let ks := p_chacha p key1 chacha_nonce in
    let poly_key := slice_to poly_key_length (xor_stream ks 0 (repeat x00 chacha_block)) in
    if bytes_eqb (p_poly1305 p poly_key c) tag
    then Ok (xor_stream ks chacha_block c)
    else Err InvalidSignature.

(** encrypt_with_key_iv / decrypt_with_key_iv, by class. *)
Definition encrypt_with_key_iv (c : cipher) (b key iv : bytes) : res bytes :=
  match c with
  | NoneCipher => Ok b
  | TDesCbc => match tdes_key key with
               | Some k => cbc_crypt true 8 (p_tdes_enc p k) b iv
               | None => Err ValueError
               end
  | Aes128Ctr | Aes192Ctr | Aes256Ctr => ctr_crypt b key iv
  | Aes128Cbc | Aes192Cbc | Aes256Cbc =>
      if aes_key_ok key then cbc_crypt true 16 (p_aes_enc p key) b iv else Err ValueError
  | Aes128Gcm | Aes256Gcm => gcm_encrypt b key iv
  | ChaChaPoly => chacha_encrypt b key
  end.
Definition decrypt_with_key_iv (c : cipher) (b key iv : bytes) : res bytes :=
  match c with
  | NoneCipher => Ok b
  | TDesCbc => match tdes_key key with
               | Some k => cbc_crypt false 8 (p_tdes_dec p k) b iv
               | None => Err ValueError
               end
  | Aes128Ctr | Aes192Ctr | Aes256Ctr => ctr_crypt b key iv
  | Aes128Cbc | Aes192Cbc | Aes256Cbc =>
      if aes_key_ok key then cbc_crypt false 16 (p_aes_dec p key) b iv else Err ValueError
  | Aes128Gcm | Aes256Gcm => gcm_decrypt b key iv
  | ChaChaPoly => chacha_decrypt b key
  end.

(** encrypt / decrypt: common.py:156-186; none.py:13-51. *)
Definition cipher_encrypt (c : cipher) (k : kdf) (d : dict pyval) (pass : pystr) (b : bytes) : res bytes :=
  match c with
  | NoneCipher => Ok b
  | _ =>
      do? r <- derive_key p k d pass (Z.of_nat (key_length c + iv_length c));
      encrypt_with_key_iv c b (slice_to (key_length c) r) (slice_last (iv_length c) r)
  end.
Definition cipher_decrypt (c : cipher) (k : kdf) (d : dict pyval) (pass : pystr) (b : bytes) : res bytes :=
  match c with
  | NoneCipher => Ok b
  | _ =>
      do? r <- derive_key p k d pass (Z.of_nat (key_length c + iv_length c));
      decrypt_with_key_iv c b (slice_to (key_length c) r) (slice_last (iv_length c) r)
  end.
End Ciphers.
