(** Specification of the ciphers, independent of the model's code: modes of operation (NIST
    SP 800-38A, 800-38D, OpenSSH's PROTOCOL.chacha20poly1305) and the parameters of the
    ciphers of OpenSSH (cipher.c). The primitives are those of the record [prims]. *)
From Verif Require Import PyBase Classes Crypto SpecWire.
Open Scope Z_scope.

(** What is assumed of the primitives: block ciphers are length-preserving permutations,
    tags have 16 bytes, bcrypt_pbkdf returns as many bytes as asked for. *)
Record sound_prims (p : prims) : Prop := {
  sp_aes : forall k b, In (length k) [16; 24; 32]%nat -> length b = 16%nat ->
    p_aes_dec p k (p_aes_enc p k b) = b /\ p_aes_enc p k (p_aes_dec p k b) = b /\
    length (p_aes_enc p k b) = 16%nat /\ length (p_aes_dec p k b) = 16%nat;
  sp_tdes : forall k b, length k = 24%nat -> length b = 8%nat ->
    p_tdes_dec p k (p_tdes_enc p k b) = b /\ p_tdes_enc p k (p_tdes_dec p k b) = b /\
    length (p_tdes_enc p k b) = 8%nat /\ length (p_tdes_dec p k b) = 8%nat;
  sp_poly1305 : forall k m, length (p_poly1305 p k m) = 16%nat;
  sp_gcm_tag : forall k iv c, length (p_gcm_tag p k iv c) = 16%nat;
  sp_bcrypt : forall pw s n r, 0 < n -> length (p_bcrypt p pw s n r) = Z.to_nat n }.

(** [v] is the exclusive or of [a] and [b]. *)
Definition xored (a b v : byte) : Prop := Zb v = Z.lxor (Zb a) (Zb b).
(** Stream encryption: byte [i] is combined with byte [i] of the key stream. *)
Definition stream_xor (ks : nat -> byte -> Prop) (b x : bytes) : Prop :=
  length x = length b /\
  forall i u v, nth_error b i = Some u -> nth_error x i = Some v -> exists y, ks i y /\ xored u y v.
(** CTR (SP 800-38A 6.5): the i-th byte belongs to the block E(iv + i/16). *)
Definition ctr_bytes (E : bytes -> bytes) (iv : bytes) (i : nat) (y : byte) : Prop :=
  exists counter, length counter = 16%nat /\
    unsigned counter = (unsigned iv + Z.of_nat (i / 16)) mod 2 ^ 128 /\
    nth_error (E counter) (i mod 16) = Some y.
(** CBC (SP 800-38A 6.2). *)
Inductive cbc (n : nat) (E : bytes -> bytes) : bytes -> bytes -> bytes -> Prop :=
| cbc_nil prev : cbc n E prev [] []
| cbc_block prev block u p q :
    length block = n -> stream_xor (fun i y => nth_error prev i = Some y) block u ->
    cbc n E (E u) p q -> cbc n E prev (block ++ p) (E u ++ q).

Inductive mode := Plain | Tdes_cbc | Aes_ctr | Aes_cbc | Aes_gcm | Chacha20_poly1305.
(** Name, mode, key length, IV length, block size. *)
Definition cipher_table : list (pystr * (mode * nat * nat * nat)) :=
  [(str "none", (Plain, 0, 0, 8)); (str "3des-cbc", (Tdes_cbc, 24, 8, 8));
   (str "aes128-ctr", (Aes_ctr, 16, 16, 16)); (str "aes192-ctr", (Aes_ctr, 24, 16, 16));
   (str "aes256-ctr", (Aes_ctr, 32, 16, 16));
   (str "aes128-cbc", (Aes_cbc, 16, 16, 16)); (str "aes192-cbc", (Aes_cbc, 24, 16, 16));
   (str "aes256-cbc", (Aes_cbc, 32, 16, 16)); (str "rijndael-cbc@lysator.liu.se", (Aes_cbc, 32, 16, 16));
   (str "aes128-gcm@openssh.com", (Aes_gcm, 16, 12, 16)); (str "aes256-gcm@openssh.com", (Aes_gcm, 32, 12, 16));
   (str "chacha20-poly1305@openssh.com", (Chacha20_poly1305, 64, 0, 8))]%nat.
Definition authenticated (m : mode) : bool :=
  match m with Aes_gcm | Chacha20_poly1305 => true | _ => false end.

(** [encrypts p m key iv b x]: [x] is the encryption of [b]; with a 16-byte tag at the end for
    the authenticated ciphers. *)
Definition encrypts (p : prims) (m : mode) (key iv b x : bytes) : Prop :=
  match m with
  | Plain => x = b
  | Tdes_cbc => cbc 8 (p_tdes_enc p key) iv b x
  | Aes_ctr => stream_xor (ctr_bytes (p_aes_enc p key) iv) b x
  | Aes_cbc => cbc 16 (p_aes_enc p key) iv b x
  | Aes_gcm => exists c, stream_xor (fun i y => y = p_gcm_stream p key iv i) b c /\
      x = c ++ p_gcm_tag p key iv c
  | Chacha20_poly1305 =>
      (* key stream bytes 0-31 are the Poly1305 key, byte 64 is the first to encrypt with;
         only the first half of the key is used *)
      let ks := p_chacha p (firstn 32 key) (repeat x00 16) in
      exists c, stream_xor (fun i y => y = ks (64 + i)%nat) b c /\
        x = c ++ p_poly1305 p (map ks (seq 0 32)) c
  end.

(** [derives p opts pass n r]: bcrypt with these options and passphrase is well-defined and
    gives the [n] bytes [r]. *)
Definition derives (p : prims) (opts : dict pyval) (pass : pystr) (n : nat) (r : bytes) : Prop :=
  exists pw salt rounds,
    utf8 pass pw /\ pw <> [] /\
    dget (str "salt") opts = Some (VBytes salt) /\ salt <> [] /\
    dget (str "rounds") opts = Some (VInt rounds) /\ 1 <= rounds < 2 ^ 32 /\
    r = p_bcrypt p pw salt (Z.of_nat n) rounds.
