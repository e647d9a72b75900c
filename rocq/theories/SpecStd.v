(** Definitions of the standards that the tables and constants of Std.v have to agree with, written
    without using them: arithmetic in GF(2^8) (FIPS 197, section 4), the S-box of AES (FIPS 197,
    5.1.1), roots of primes (FIPS 180-4, 4.2.3 and 5.3.5), points of the NIST curves (SEC 1, 2.3.4). *)
From Verif Require Import PyBase Classes Crypto SpecWire SpecKey SpecCrypto.
Open Scope Z_scope.

(** ** GF(2^8) *)
(** The product of polynomials over GF(2); coefficients are the bits of the numbers, and the
    second has degree less than 8. *)
Definition polynomial_product (a b : Z) : Z :=
  fold_right (fun i r => if Z.testbit b i then Z.lxor (Z.shiftl a i) r else r) 0 [0; 1; 2; 3; 4; 5; 6; 7].
(** [c] is the product of [a] and [b] modulo x^8 + x^4 + x^3 + x + 1. *)
Definition gf_product (a b c : byte) : Prop :=
  exists q, 0 <= q < 256 /\
    polynomial_product (Zb a) (Zb b) = Z.lxor (polynomial_product (2 ^ 8 + 2 ^ 4 + 2 ^ 3 + 2 + 1) q) (Zb c).
(** The S-box: the multiplicative inverse (0 for 0), then an affine map over GF(2). *)
Definition aes_substitution (b s : byte) : Prop :=
  exists i, (b = x00 -> i = x00) /\ (b <> x00 -> gf_product b i x01) /\
    forall k, 0 <= k < 8 ->
      Z.testbit (Zb s) k =
      xorb (Z.testbit (Zb i) k) (xorb (Z.testbit (Zb i) ((k + 4) mod 8)) (xorb (Z.testbit (Zb i) ((k + 5) mod 8))
        (xorb (Z.testbit (Zb i) ((k + 6) mod 8)) (xorb (Z.testbit (Zb i) ((k + 7) mod 8)) (Z.testbit 99 k))))).

(** ** Constants of SHA-512 *)
(** [k] is the first 64 bits of the fractional part of the [n]-th root of [a]. *)
Definition root_fraction (n a k : Z) : Prop :=
  0 <= k < 2 ^ 64 /\
  exists whole, let r := whole * 2 ^ 64 + k in r ^ n <= a * (2 ^ 64) ^ n < (r + 1) ^ n.
Definition prime_number (a : Z) : Prop := 1 < a /\ forall d, 1 < d < a -> a mod d <> 0.
(** The first [n] primes, in order. *)
Definition first_primes (n : nat) (l : list Z) : Prop :=
  length l = n /\ (forall i j x y, (i < j)%nat -> nth_error l i = Some x -> nth_error l j = Some y -> x < y) /\
  forall a, In a l <-> prime_number a /\ forall x, nth_error l (n - 1) = Some x -> a <= x.

(** ** Points *)
(** The curves y^2 = x^3 - 3x + b over the integers modulo p. *)
Definition nist_curve (c : curve) : Z * Z * nat :=
  match c with
  | P256 => (2 ^ 256 - 2 ^ 224 + 2 ^ 192 + 2 ^ 96 - 1,
             0x5ac635d8aa3a93e7b3ebbd55769886bc651d06b0cc53b0f63bce3c3e27d2604b, 32%nat)
  | P384 => (2 ^ 384 - 2 ^ 128 - 2 ^ 96 + 2 ^ 32 - 1,
             0xb3312fa7e23ee7e4988e056be3f82d19181d9c6efe8141120314088f5013875ac656398d8a2ed19d2a85c8edd3ec2aef, 48%nat)
  | P521 => (2 ^ 521 - 1,
             0x51953eb9618e1c9a1f929a21a0b68540eea2da725b99b315f3b8b489918ef109e156193951ec7e937b1652c0bd3bb1bf073573df883d2c34f1ef451fd46b503f00,
             66%nat)
  end.
Definition on_curve (c : curve) (x y : Z) : Prop :=
  let '(p, b, _) := nist_curve c in
  0 <= x < p /\ 0 <= y < p /\ (y * y - (x * x * x - 3 * x + b)) mod p = 0.
(** The octet strings of a point: 04 and both coordinates, or 02 or 03 and the first. *)
Definition uncompressed_point (c : curve) (x y : Z) (q : bytes) : Prop :=
  exists a b, q = x04 :: a ++ b /\ length a = snd (nist_curve c) /\ length b = snd (nist_curve c) /\
    unsigned a = x /\ unsigned b = y.
Definition compressed_point (c : curve) (x : Z) (q : bytes) : Prop :=
  exists t a, q = t :: a /\ (t = x02 \/ t = x03) /\ length a = snd (nist_curve c) /\ unsigned a = x.

(** ** Padding of SHA-512 (FIPS 180-4 5.1.2) *)
(** The message, a bit 1, the least number of bits 0, and the length in bits as 128 bits: whole
    blocks of 128 bytes. *)
Definition sha512_message (m padded : bytes) : Prop :=
  exists k len, padded = m ++ x80 :: repeat x00 k ++ len /\ (k < 128)%nat /\ (length padded mod 128 = 0)%nat /\
    length len = 16%nat /\ unsigned len = (8 * Z.of_nat (length m)) mod 2 ^ 128.

(** ** bcrypt_pbkdf (OpenBSD lib/libutil/bcrypt_pbkdf.c) *)
(** The hashes of one block: the first of the given text, each other one of its predecessor. *)
Inductive hash_chain (H : bytes -> bytes) (text : bytes) : list bytes -> Prop :=
| hc_one : hash_chain H text [H text]
| hc_more hs h : hash_chain H text (hs ++ [h]) -> hash_chain H text (hs ++ [h; H h]).
(** Byte [v] is the exclusive or of the bytes at [i] of the hashes. *)
Inductive xored_all (i : nat) : list bytes -> byte -> Prop :=
| xa_one h v : nth_error h i = Some v -> xored_all i [h] v
| xa_more hs h x y v : xored_all i hs x -> nth_error h i = Some y -> xored x y v -> xored_all i (hs ++ [h]) v.
(** The output: [len] bytes from blocks of 32, spread so that consecutive bytes are from different
    blocks; block [c] is numbered c + 1 in its text. *)
Definition derived (H : bytes -> bytes) (salt : bytes) (len rounds : nat) (out : bytes) : Prop :=
  length out = len /\
  exists blocks, (32 * blocks < len + 32)%nat /\ (len <= 32 * blocks)%nat /\
    forall i c, (c < blocks)%nat -> (i * blocks + c < len)%nat ->
    exists number hs v, length number = 4%nat /\ unsigned number = (Z.of_nat c + 1) mod 2 ^ 32 /\
      hash_chain H (salt ++ number) hs /\ length hs = rounds /\ xored_all i hs v /\
      nth_error out (i * blocks + c) = Some v.

(** ** bcrypt_hash (OpenBSD lib/libutil/bcrypt_pbkdf.c), over the key setup and the encryption of
    Blowfish: [expand data key] and [encrypt]. *)
(** [ws] are the 32-bit big-endian words of [b]. *)
Definition words (b : bytes) (ws : list N) : Prop :=
  exists pieces, b = concat pieces /\ Forall2 (fun p w => length p = 4%nat /\ unsigned p = Z.of_N w) pieces ws.
Inductive times {A} (step : A -> A -> Prop) : nat -> A -> A -> Prop :=
| times_none a : times step 0 a a
| times_more n a b c : step a b -> times step n b c -> times step (S n) a c.
(** Each pair of words is encrypted. *)
Inductive pairwise (encrypt : N * N -> N * N) : list N -> list N -> Prop :=
| pw_nil : pairwise encrypt [] []
| pw_pair a b x y l l' : encrypt (a, b) = (x, y) -> pairwise encrypt l l' -> pairwise encrypt (a :: b :: l) (x :: y :: l').
Definition bcrypt_hashed {State} (expand : list N -> list N -> State -> State) (encrypt : State -> N * N -> N * N)
    (initial : State) (pass salt out : bytes) : Prop :=
  exists key data state text cipher pieces, words pass key /\ words salt data /\
    times (fun s s' => s' = expand [0%N] key (expand [0%N] data s)) 64 (expand data key initial) state /\
    words (bstr "OxychromaticBlowfishSwatDynamite") text /\ times (pairwise (encrypt state)) 64 text cipher /\
    (* the words of the result are little-endian *)
    Forall2 (fun p w => length p = 4%nat /\ unsigned (rev p) = Z.of_N w mod 2 ^ 32) pieces cipher /\ out = concat pieces.
