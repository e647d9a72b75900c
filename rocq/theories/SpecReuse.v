(** Specification for C89 and C92: two encryptions under the same key and IV. *)
From Verif Require Import PyBase SpecWire SpecCrypto.
Open Scope Z_scope.

(** The ciphers that combine the plaintext with a key stream: counter mode, GCM, ChaCha20. *)
Definition stream_mode (m : mode) : bool :=
  match m with Aes_ctr | Aes_gcm | Chacha20_poly1305 => true | _ => false end.
Definition is_stream_cipher (cipher_name : pystr) : Prop :=
  exists m kl il bs, In (cipher_name, (m, kl, il, bs)) cipher_table /\ stream_mode m = true.
Definition is_counter_mode (cipher_name : pystr) : Prop :=
  exists kl il bs, In (cipher_name, (Aes_ctr, kl, il, bs)) cipher_table.
(** Wherever all four have a byte, the exclusive or of [x] and [x'] is that of [y] and [y']. *)
Definition differ_alike (x x' y y' : bytes) : Prop :=
  forall i a a' b b', nth_error x i = Some a -> nth_error x' i = Some a' ->
    nth_error y i = Some b -> nth_error y' i = Some b' ->
    Z.lxor (Zb a) (Zb a') = Z.lxor (Zb b) (Zb b').

(** The ciphers in CBC mode, with their block size. *)
Definition is_cbc_cipher (cipher_name : pystr) (n : nat) : Prop :=
  exists m kl, In (cipher_name, (m, kl, n, n)) cipher_table /\ (m = Tdes_cbc \/ m = Aes_cbc).
(** Block number [j], from 0, of [n] bytes. *)
Definition block (n j : nat) (b : bytes) : bytes := firstn n (skipn (n * j) b).
