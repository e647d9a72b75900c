(** The cryptographic algorithms that the packages cryptography and bcrypt compute for the library,
    written from the published standards. They make one concrete value of the record [prims]
    (Crypto.v): [std_prims]. The rest of the model does not depend on this file.
    Each section names the calls of the library that reach the algorithm. *)
From Verif Require Import PyBase Classes Crypto StdTables.
Open Scope nat_scope.

(** ** Bits, bytes and words *)
(** The bits of bytes, most significant first, and back. *)
Definition byte_bits (b : byte) : list bool :=
  let '(b0, (b1, (b2, (b3, (b4, (b5, (b6, b7))))))) := Byte.to_bits b in [b7; b6; b5; b4; b3; b2; b1; b0].
Definition bits_of (b : bytes) : list bool := flat_map byte_bits b.
Fixpoint of_bits (l : list bool) : bytes :=
  match l with
  | b7 :: b6 :: b5 :: b4 :: b3 :: b2 :: b1 :: b0 :: r =>
      Byte.of_bits (b0, (b1, (b2, (b3, (b4, (b5, (b6, b7))))))) :: of_bits r
  | _ => []
  end.
Fixpoint xor_bits (a b : list bool) : list bool :=
  match a, b with
  | x :: a', y :: b' => xorb x y :: xor_bits a' b'
  | _, _ => []
  end.
(** Unsigned integers in [n] bytes, modulo 256^n: little-endian and big-endian. *)
Definition byte_of (n : N) : byte := match Byte.of_N (n mod 256) with Some b => b | None => x00 end.
Fixpoint le_bytes (n : nat) (v : N) : bytes :=
  match n with O => [] | S m => byte_of v :: le_bytes m (v / 256) end.
Definition big_bytes (n : nat) (v : N) : bytes := rev (le_bytes n v).
Fixpoint le_val (b : bytes) : N := match b with [] => 0 | x :: r => Byte.to_N x + 256 * le_val r end%N.
Definition big_val (b : bytes) : N := le_val (rev b).
(** [b] cut into pieces of [n] bytes (the last may be shorter). *)
Definition cut (n : nat) (b : bytes) : list bytes := chunks (length b) n b.

(** ** AES, FIPS 197 (called at cipher/confidentiality.py:101-103, integrity.py:80-97) *)
(** 4.2.1: multiplication by x in GF(2^8). *)
Definition xtime (b : byte) : byte :=
  let '(b0, (b1, (b2, (b3, (b4, (b5, (b6, b7))))))) := Byte.to_bits b in
  Byte.of_bits (b7, (xorb b0 b7, (b1, (xorb b2 b7, (xorb b3 b7, (b4, (b5, b6))))))).
Definition mul2 := xtime.
Definition mul3 b := byte_xor (xtime b) b.
Definition mul4 b := xtime (xtime b).
Definition mul8 b := xtime (xtime (xtime b)).
Definition mul9 b := byte_xor (mul8 b) b.
Definition mulb b := byte_xor (byte_xor (mul8 b) (mul2 b)) b.
Definition muld b := byte_xor (byte_xor (mul8 b) (mul4 b)) b.
Definition mule b := byte_xor (byte_xor (mul8 b) (mul4 b)) (mul2 b).
(** 5.1.1-5.1.3, 5.3.1-5.3.3; the state is the list of its columns, one after another. *)
Definition sub_bytes (s : bytes) : bytes := map sbox s.
Definition inv_sub_bytes (s : bytes) : bytes := map inv_sbox s.
Definition pick (t : list nat) (s : bytes) : bytes := map (fun i => nth i s x00) t.
Definition shift_rows := pick [0; 5; 10; 15; 4; 9; 14; 3; 8; 13; 2; 7; 12; 1; 6; 11].
Definition inv_shift_rows := pick [0; 13; 10; 7; 4; 1; 14; 11; 8; 5; 2; 15; 12; 9; 6; 3].
Definition xor4 a b c d := byte_xor (byte_xor a b) (byte_xor c d).
Fixpoint mix_columns (s : bytes) : bytes :=
  match s with
  | a :: b :: c :: d :: r =>
      xor4 (mul2 a) (mul3 b) c d :: xor4 a (mul2 b) (mul3 c) d ::
      xor4 a b (mul2 c) (mul3 d) :: xor4 (mul3 a) b c (mul2 d) :: mix_columns r
  | _ => []
  end.
Fixpoint inv_mix_columns (s : bytes) : bytes :=
  match s with
  | a :: b :: c :: d :: r =>
      xor4 (mule a) (mulb b) (muld c) (mul9 d) :: xor4 (mul9 a) (mule b) (mulb c) (muld d) ::
      xor4 (muld a) (mul9 b) (mule c) (mulb d) :: xor4 (mulb a) (muld b) (mul9 c) (mule d) :: inv_mix_columns r
  | _ => []
  end.
(** 5.2: [w] has the words so far, the latest first; word [i] follows. *)
Definition rot_word (w : bytes) : bytes := match w with x :: r => r ++ [x] | [] => [] end.
Definition next_word (nk i : nat) (rcon : byte) (w : list bytes) : bytes :=
  let temp := nth 0 w [] in
  let temp' :=
    if i mod nk =? 0 then xor_bytes (sub_bytes (rot_word temp)) [rcon; x00; x00; x00]
    else if (6 <? nk) && (i mod nk =? 4) then sub_bytes temp else temp in
  xor_bytes (nth (nk - 1) w []) temp'.
Fixpoint expand_words (n nk i : nat) (rcon : byte) (w : list bytes) : list bytes :=
  match n with
  | O => w
  | S m => expand_words m nk (S i) (if i mod nk =? 0 then xtime rcon else rcon) (next_word nk i rcon w :: w)
  end.
Definition round_keys (key : bytes) : list bytes :=
  let nk := length key / 4 in
  let words := rev (expand_words (4 * (nk + 7) - nk) nk nk x01 (rev (cut 4 key))) in
  cut 16 (concat words).
(** 5.1 and 5.3: the first round key is added alone; the last round has no column mixing. *)
Fixpoint rounds (ks : list bytes) (s : bytes) : bytes :=
  match ks with
  | [] => s
  | [k] => xor_bytes (shift_rows (sub_bytes s)) k
  | k :: r => rounds r (xor_bytes (mix_columns (shift_rows (sub_bytes s))) k)
  end.
Fixpoint inv_rounds (ks : list bytes) (s : bytes) : bytes :=
  match ks with
  | [] => s
  | [k] => inv_sub_bytes (inv_shift_rows (xor_bytes s k))
  | k :: r => inv_sub_bytes (inv_shift_rows (inv_mix_columns (xor_bytes (inv_rounds r s) k)))
  end.
Definition aes_enc (key block : bytes) : bytes :=
  match round_keys key with k0 :: ks => rounds ks (xor_bytes block k0) | [] => block end.
Definition aes_dec (key block : bytes) : bytes :=
  match round_keys key with k0 :: ks => xor_bytes (inv_rounds ks block) k0 | [] => block end.

(** ** Triple DES, FIPS 46-3 (called at cipher/confidentiality.py:230-232) *)
Definition permute (t : list nat) (l : list bool) : list bool := map (fun i => nth (i - 1) l false) t.
Definition num (l : list bool) : nat := fold_left (fun a (b : bool) => 2 * a + (if b then 1 else 0)) l 0.
Definition nibble (n : nat) : list bool := [8 <=? n; 4 <=? n mod 8; 2 <=? n mod 4; n mod 2 =? 1].
Definition sbox_des (t : list nat) (six : list bool) : list bool :=
  match six with
  | [b1; b2; b3; b4; b5; b6] => nibble (nth (16 * num [b1; b6] + num [b2; b3; b4; b5]) t 0)
  | _ => []
  end.
Fixpoint sboxes (ts : list (list nat)) (l : list bool) : list bool :=
  match ts with [] => [] | t :: r => sbox_des t (firstn 6 l) ++ sboxes r (skipn 6 l) end.
(** The function f of a round. *)
Definition des_f (r k : list bool) : list bool := permute des_p (sboxes des_s (xor_bits (permute des_e r) k)).
Fixpoint feistel (ks : list (list bool)) (l r : list bool) : list bool * list bool :=
  match ks with [] => (l, r) | k :: rest => feistel rest r (xor_bits l (des_f r k)) end.
Definition rotate (n : nat) (l : list bool) : list bool := skipn n l ++ firstn n l.
Fixpoint des_schedule (shifts : list nat) (c d : list bool) : list (list bool) :=
  match shifts with
  | [] => []
  | n :: r => let c' := rotate n c in let d' := rotate n d in permute des_pc2 (c' ++ d') :: des_schedule r c' d'
  end.
Definition des_keys (key : bytes) : list (list bool) :=
  let k := permute des_pc1 (bits_of key) in des_schedule des_shifts (firstn 28 k) (skipn 28 k).
Definition des_block (ks : list (list bool)) (block : bytes) : bytes :=
  let b := permute des_ip (bits_of block) in
  let '(l, r) := feistel ks (firstn 32 b) (skipn 32 b) in
  of_bits (permute des_fp (r ++ l)).
Definition des_enc (key block : bytes) : bytes := des_block (des_keys key) block.
Definition des_dec (key block : bytes) : bytes := des_block (rev (des_keys key)) block.
Definition tdes_enc (key block : bytes) : bytes :=
  des_enc (skipn 16 key) (des_dec (firstn 8 (skipn 8 key)) (des_enc (firstn 8 key) block)).
Definition tdes_dec (key block : bytes) : bytes :=
  des_dec (firstn 8 key) (des_enc (firstn 8 (skipn 8 key)) (des_dec (skipn 16 key) block)).

Open Scope N_scope.

(** ** ChaCha20 (RFC 8439) with a 64-bit block counter, as OpenSSL computes it (called at
    cipher/integrity.py:250-266, 293-306) *)
Definition add32 (a b : N) : N := (a + b) mod 4294967296.
Definition rol32 (k a : N) : N := N.lor (N.shiftl a k mod 4294967296) (N.shiftr a (32 - k)).
Definition quarter (q : N * N * N * N) : N * N * N * N :=
  let '(a, b, c, d) := q in
  let a := add32 a b in let d := rol32 16 (N.lxor d a) in
  let c := add32 c d in let b := rol32 12 (N.lxor b c) in
  let a := add32 a b in let d := rol32 8 (N.lxor d a) in
  let c := add32 c d in let b := rol32 7 (N.lxor b c) in
  (a, b, c, d).
Definition double_round (s : list N) : list N :=
  match s with
  | [a; b; c; d; e; f; g; h; i; j; k; l; m; n; o; p] =>
      let '(a, e, i, m) := quarter (a, e, i, m) in
      let '(b, f, j, n) := quarter (b, f, j, n) in
      let '(c, g, k, o) := quarter (c, g, k, o) in
      let '(d, h, l, p) := quarter (d, h, l, p) in
      let '(a, f, k, p) := quarter (a, f, k, p) in
      let '(b, g, l, m) := quarter (b, g, l, m) in
      let '(c, h, i, n) := quarter (c, h, i, n) in
      let '(d, e, j, o) := quarter (d, e, j, o) in
      [a; b; c; d; e; f; g; h; i; j; k; l; m; n; o; p]
  | _ => s
  end.
Fixpoint add_words (a b : list N) : list N :=
  match a, b with x :: a', y :: b' => add32 x y :: add_words a' b' | _, _ => [] end.
Definition chacha_block (key nonce : bytes) (counter : N) : bytes :=
  let start := (le_val (firstn 8 nonce) + counter) mod 18446744073709551616 in
  let s := [0x61707865; 0x3320646e; 0x79622d32; 0x6b206574] ++ map le_val (cut 4 key) ++
           [start mod 4294967296; start / 4294967296] ++ map le_val (cut 4 (skipn 8 nonce)) in
  flat_map (le_bytes 4) (add_words (Nat.iter 10 double_round s) s).
Definition chacha_stream (key nonce : bytes) (i : nat) : byte :=
  nth (i mod 64)%nat (chacha_block key nonce (N.of_nat (i / 64))) x00.

(** ** Poly1305, RFC 8439 2.5 (called at cipher/integrity.py:270-273, 308-312) *)
Definition poly1305 (key message : bytes) : bytes :=
  let r := N.land (le_val (firstn 16 key)) 0x0ffffffc0ffffffc0ffffffc0fffffff in
  let s := le_val (skipn 16 key) in
  let acc := fold_left (fun a piece => (a + le_val (piece ++ [x01])) * r mod 0x3fffffffffffffffffffffffffffffffb)
                       (cut 16 message) 0 in
  le_bytes 16 (acc + s).

(** ** AES-GCM, NIST SP 800-38D, without additional data (called at cipher/integrity.py:80-84, 93-97) *)
(** 6.3: multiplication of blocks. *)
Fixpoint gf_mul (bits : nat) (x v z : N) : N :=
  match bits with
  | O => z
  | S m => gf_mul m x (if N.odd v then N.lxor (N.div2 v) 0xe1000000000000000000000000000000 else N.div2 v)
                  (if N.testbit x (N.of_nat m) then N.lxor z v else z)
  end.
Definition ghash (h : N) (b : bytes) : N :=
  fold_left (fun y piece => gf_mul 128 (N.lxor y (big_val piece)) h 0) (cut 16 b) 0.
Definition pad16 (b : bytes) : bytes := b ++ repeat x00 ((16 - length b mod 16) mod 16).
Definition gcm_h (key : bytes) : N := big_val (aes_enc key (repeat x00 16)).
Definition gcm_j0 (key iv : bytes) : bytes :=
  if (length iv =? 12)%nat then iv ++ [x00; x00; x00; x01]
  else big_bytes 16 (ghash (gcm_h key) (pad16 iv ++ big_bytes 16 (8 * N.of_nat (length iv)))).
(** 6.2: the last 32 bits are incremented. *)
Definition inc32 (k : N) (b : bytes) : bytes := firstn 12 b ++ big_bytes 4 (big_val (skipn 12 b) + k).
Definition gcm_stream (key iv : bytes) (i : nat) : byte :=
  nth (i mod 16)%nat (aes_enc key (inc32 (1 + N.of_nat (i / 16)) (gcm_j0 key iv))) x00.
Definition gcm_tag (key iv c : bytes) : bytes :=
  big_bytes 16 (N.lxor (ghash (gcm_h key) (pad16 c ++ big_bytes 16 (8 * N.of_nat (length c))))
                       (big_val (aes_enc key (gcm_j0 key iv)))).

(** ** SHA-512, FIPS 180-4 (used by bcrypt_pbkdf) *)
Definition add64 (a b : N) : N := (a + b) mod 18446744073709551616.
Definition ror64 (k a : N) : N := N.lor (N.shiftr a k) (N.shiftl a (64 - k) mod 18446744073709551616).
Definition not64 (a : N) : N := N.lxor a 18446744073709551615.
Definition ch x y z := N.lxor (N.land x y) (N.land (not64 x) z).
Definition maj x y z := N.lxor (N.lxor (N.land x y) (N.land x z)) (N.land y z).
Definition big_sigma0 x := N.lxor (N.lxor (ror64 28 x) (ror64 34 x)) (ror64 39 x).
Definition big_sigma1 x := N.lxor (N.lxor (ror64 14 x) (ror64 18 x)) (ror64 41 x).
Definition sigma0 x := N.lxor (N.lxor (ror64 1 x) (ror64 8 x)) (N.shiftr x 7).
Definition sigma1 x := N.lxor (N.lxor (ror64 19 x) (ror64 61 x)) (N.shiftr x 6).
(** The schedule; [w] has the latest word first. *)
Definition schedule_step (w : list N) : list N :=
  add64 (add64 (sigma1 (nth 1 w 0)) (nth 6 w 0)) (add64 (sigma0 (nth 14 w 0)) (nth 15 w 0)) :: w.
Definition sha512_round (s : list N) (kw : N * N) : list N :=
  match s with
  | [a; b; c; d; e; f; g; h] =>
      let t1 := add64 (add64 h (big_sigma1 e)) (add64 (ch e f g) (add64 (fst kw) (snd kw))) in
      let t2 := add64 (big_sigma0 a) (maj a b c) in
      [add64 t1 t2; a; b; c; add64 d t1; e; f; g]
  | _ => s
  end.
Fixpoint add_words64 (a b : list N) : list N :=
  match a, b with x :: a', y :: b' => add64 x y :: add_words64 a' b' | _, _ => [] end.
Definition sha512_block (h : list N) (block : bytes) : list N :=
  let w := rev (Nat.iter 64 schedule_step (rev (map big_val (cut 8 block)))) in
  add_words64 (fold_left sha512_round (combine sha512_k w) h) h.
Definition sha512 (m : bytes) : bytes :=
  let padded := m ++ [x80] ++ repeat x00 ((239 - length m mod 128) mod 128) ++ big_bytes 16 (8 * N.of_nat (length m)) in
  flat_map (big_bytes 8) (fold_left sha512_block (cut 128 padded) sha512_h).

(** ** bcrypt_pbkdf, OpenBSD lib/libutil/bcrypt_pbkdf.c, over Blowfish (called at
    kdf_options/bcrypt_options.py:63-69) *)
(** An S-box as a binary tree. *)
Inductive tree := Leaf (v : N) | Node (l r : tree).
Fixpoint build (depth : nat) (l : list N) : tree :=
  match depth with
  | O => Leaf (nth 0 l 0)
  | S d => Node (build d (firstn (2 ^ d) l)) (build d (skipn (2 ^ d) l))
  end.
(** The entry whose index has its bits at position [pos] and below in [w]. *)
Fixpoint lookup (t : tree) (w pos : N) : N :=
  match t with Leaf v => v | Node l r => lookup (if N.testbit w pos then r else l) w (pos - 1) end.
Fixpoint update (t : tree) (w pos v : N) : tree :=
  match t with
  | Leaf _ => Leaf v
  | Node l r => if N.testbit w pos then Node l (update r w (pos - 1) v) else Node (update l w (pos - 1) v) r
  end.
Record blowfish := mkbf { bf_p : list N; bf_s0 : tree; bf_s1 : tree; bf_s2 : tree; bf_s3 : tree }.
Definition bf_init : blowfish :=
  mkbf blowfish_p (build 8 (firstn 256 blowfish_s)) (build 8 (firstn 256 (skipn 256 blowfish_s)))
       (build 8 (firstn 256 (skipn 512 blowfish_s))) (build 8 (skipn 768 blowfish_s)).
Definition bf_f (s : blowfish) (x : N) : N :=
  add32 (N.lxor (add32 (lookup (bf_s0 s) x 31) (lookup (bf_s1 s) x 23)) (lookup (bf_s2 s) x 15)) (lookup (bf_s3 s) x 7).
Fixpoint bf_rounds (s : blowfish) (ps : list N) (l r : N) : N * N :=
  match ps with
  | [p16; p17] => (N.lxor r p17, N.lxor l p16)
  | p :: ps' => let l := N.lxor l p in bf_rounds s ps' (N.lxor r (bf_f s l)) l
  | [] => (l, r)
  end.
Definition encipher (s : blowfish) (lr : N * N) : N * N := bf_rounds s (bf_p s) (fst lr) (snd lr).
(** The next word of the endless repetition of [all], of which [cur] is unread. *)
Definition next_cyclic (all cur : list N) : N * list N :=
  match cur with x :: r => (x, r) | [] => (nth 0 all 0, tl all) end.
Fixpoint xor_cyclic (ps all cur : list N) : list N :=
  match ps with
  | [] => []
  | p :: r => let '(k, cur') := next_cyclic all cur in N.lxor p k :: xor_cyclic r all cur'
  end.
Definition set_nth (i : nat) (v : N) (l : list N) : list N := firstn i l ++ v :: skipn (S i) l.
(** Where the next two words go: entries 2i and 2i+1 of the P-array (box 0) or of S-box 1..4. *)
Definition put (box : nat) (i : nat) (lr : N * N) (s : blowfish) : blowfish :=
  let set t := let w := N.of_nat (2 * i) in update (update t w 7 (fst lr)) (w + 1) 7 (snd lr) in
  match box, s with
  | 0, mkbf p s0 s1 s2 s3 => mkbf (set_nth (2 * i) (fst lr) (set_nth (2 * i + 1) (snd lr) p)) s0 s1 s2 s3
  | 1, mkbf p s0 s1 s2 s3 => mkbf p (set s0) s1 s2 s3
  | 2, mkbf p s0 s1 s2 s3 => mkbf p s0 (set s1) s2 s3
  | 3, mkbf p s0 s1 s2 s3 => mkbf p s0 s1 (set s2) s3
  | _, mkbf p s0 s1 s2 s3 => mkbf p s0 s1 s2 (set s3)
  end%nat.
Definition places : list (nat * nat) :=
  (map (pair 0) (seq 0 9) ++ map (pair 1) (seq 0 128) ++ map (pair 2) (seq 0 128) ++
   map (pair 3) (seq 0 128) ++ map (pair 4) (seq 0 128))%nat.
(** Blowfish_expandstate(data, key); Blowfish_expand0state(key) is the case of zero data. *)
Fixpoint expand_places (data : list N) (ps : list (nat * nat)) (cur : list N) (lr : N * N) (s : blowfish) : blowfish :=
  match ps with
  | [] => s
  | (box, i) :: r =>
      let '(d0, cur) := next_cyclic data cur in
      let '(d1, cur) := next_cyclic data cur in
      let lr := encipher s (N.lxor (fst lr) d0, N.lxor (snd lr) d1) in
      expand_places data r cur lr (put box i lr s)
  end.
Definition expand_state (data key : list N) (s : blowfish) : blowfish :=
  expand_places data places data (0, 0)
    (mkbf (xor_cyclic (bf_p s) key key) (bf_s0 s) (bf_s1 s) (bf_s2 s) (bf_s3 s)).
Fixpoint encipher_all (s : blowfish) (l : list N) : list N :=
  match l with
  | a :: b :: r => let '(x, y) := encipher s (a, b) in x :: y :: encipher_all s r
  | _ => []
  end.
Definition bcrypt_hash (sha2pass sha2salt : bytes) : bytes :=
  let pass := map big_val (cut 4 sha2pass) in
  let salt := map big_val (cut 4 sha2salt) in
  let s := Nat.iter 64 (fun s => expand_state [0] pass (expand_state [0] salt s)) (expand_state salt pass bf_init) in
  let text := map big_val (cut 4 (bstr "OxychromaticBlowfishSwatDynamite")) in
  flat_map (le_bytes 4) (Nat.iter 64 (encipher_all s) text).
(** The further rounds: salt, latest hash and exclusive or so far. *)
Definition bcrypt_round (sha2pass : bytes) (st : bytes * bytes) : bytes * bytes :=
  let h := bcrypt_hash sha2pass (sha512 (fst st)) in (h, xor_bytes (snd st) h).
Definition bcrypt_block (sha2pass salt : bytes) (count : nat) (rounds : Z) : bytes :=
  let h := bcrypt_hash sha2pass (sha512 (salt ++ big_bytes 4 (N.of_nat count))) in
  snd (N.iter (Z.to_N (rounds - 1)) (bcrypt_round sha2pass) (h, h)).
(** Byte j of the result is byte j / stride of block j mod stride. *)
Definition bcrypt_pbkdf (pass salt : bytes) (len rounds : Z) : bytes :=
  let n := Z.to_nat len in
  let stride := ((n + 31) / 32)%nat in
  let sha2pass := sha512 pass in
  let blocks := map (fun c => bcrypt_block sha2pass salt (S c) rounds) (seq 0 stride) in
  map (fun j => nth (j / stride) (nth (j mod stride) blocks []) x00)%nat (seq 0 n).

(** ** Points of the NIST curves, SEC 1 2.3.4 and FIPS 186-4 D.1.2 (called at
    key_params/ecdsa.py:149-152, 186-189, 313-316) *)
Open Scope Z_scope.
Definition curve_p (c : curve) : Z :=
  match c with
  | P256 => 2 ^ 256 - 2 ^ 224 + 2 ^ 192 + 2 ^ 96 - 1
  | P384 => 2 ^ 384 - 2 ^ 128 - 2 ^ 96 + 2 ^ 32 - 1
  | P521 => 2 ^ 521 - 1
  end.
Definition curve_b (c : curve) : Z :=
  match c with
  | P256 => 0x5ac635d8aa3a93e7b3ebbd55769886bc651d06b0cc53b0f63bce3c3e27d2604b
  | P384 => 0xb3312fa7e23ee7e4988e056be3f82d19181d9c6efe8141120314088f5013875ac656398d8a2ed19d2a85c8edd3ec2aef
  | P521 => 0x51953eb9618e1c9a1f929a21a0b68540eea2da725b99b315f3b8b489918ef109e156193951ec7e937b1652c0bd3bb1bf073573df883d2c34f1ef451fd46b503f00
  end.
Definition curve_bytes (c : curve) : nat := match c with P256 => 32 | P384 => 48 | P521 => 66 end%nat.
Fixpoint pow_mod (a : Z) (e : positive) (m : Z) : Z :=
  match e with
  | xH => a mod m
  | xO e' => let r := pow_mod a e' m in r * r mod m
  | xI e' => let r := pow_mod a e' m in r * r mod m * a mod m
  end.
(** EllipticCurvePublicKey.from_encoded_point accepts the bytes. *)
Definition ec_point_ok (c : curve) (q : bytes) : bool :=
  let p := curve_p c in
  let n := curve_bytes c in
  let rhs x := (x * x * x - 3 * x + curve_b c) mod p in
  match q with
  | x04 :: r =>
      let x := Z.of_N (big_val (firstn n r)) in
      let y := Z.of_N (big_val (skipn n r)) in
      (length r =? 2 * n)%nat && (x <? p) && (y <? p) && (y * y mod p =? rhs x)
  | x02 :: r | x03 :: r =>
      let x := Z.of_N (big_val r) in
      (* p mod 4 = 3: if the right hand side is a square, this is its root *)
      let y := pow_mod (rhs x) (Z.to_pos ((p + 1) / 4)) p in
      (length r =? n)%nat && (x <? p) && (y * y mod p =? rhs x)
  | _ => false
  end.

Definition std_prims : prims :=
  mkprims bcrypt_pbkdf aes_enc aes_dec tdes_enc tdes_dec chacha_stream poly1305 gcm_stream gcm_tag ec_point_ok.
