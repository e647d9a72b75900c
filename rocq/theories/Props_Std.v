(** The ciphers of the standards: C83. Nothing is assumed of the primitives here. *)
From Verif Require Import PyBase IntBytes Utf8 StructFmt Stream Text Classes Key Crypto PrivateKeyList StdTables Std ProofFermat.
From Verif Require Import SpecWire SpecKey SpecText SpecCrypto SpecList SpecStd.
From Verif Require Import ProofBase ProofInt ProofUtf8 ProofWire ProofRecord ProofKey ProofCrypto ProofList ProofStd.
From Verif Require Import Props_Stream Props_Key Props_Crypto ProofRead Props_List Props_Parse Props_Round Props_Flow.
Open Scope Z_scope.

(** ** The algorithms *)
(** AES and triple DES are permutations of blocks, with the decryption functions as inverses; tags
    have 16 bytes; derived keys have the length asked for. *)
Theorem C83_algorithms_sound : sound_prims std_prims.
Proof. exact std_sound. Qed.

(** The S-box of AES and the multiplications of MixColumns are those of GF(2^8). *)
Definition all_bytes : list byte := map (fun n => bZ (Z.of_nat n)) (seq 0 256).
Lemma all_bytes_in b : In b all_bytes.
Proof.
  unfold all_bytes. apply in_map_iff. exists (Z.to_nat (Zb b)). pose proof (Zb_range b). split.
  - rewrite Z2Nat.id by lia. apply bZ_Zb.
  - apply in_seq. lia.
Qed.
Lemma by_bytes (f : byte -> bool) : forallb f all_bytes = true -> forall b, f b = true.
Proof. intros H b. apply (proj1 (forallb_forall f all_bytes) H). apply all_bytes_in. Qed.
(* the quotient of a polynomial of degree at most 14 *)
Definition quotient (v : Z) : Z :=
  snd (fold_left (fun '(r, q) i => if Z.testbit r (i + 8) then (Z.lxor r (Z.shiftl 283 i), q + 2 ^ i) else (r, q))
         [7; 6; 5; 4; 3; 2; 1; 0] (v, 0)).
Definition product_ok (a b c : byte) : bool :=
  let v := polynomial_product (Zb a) (Zb b) in
  let q := quotient v in
  (0 <=? q) && (q <? 256) && (v =? Z.lxor (polynomial_product 283 q) (Zb c)).
Lemma product_ok_sound a b c : product_ok a b c = true -> gf_product a b c.
Proof.
  unfold product_ok. rewrite !andb_true_iff, Z.eqb_eq, Z.leb_le, Z.ltb_lt. intros ((A & B) & C).
  exists (quotient (polynomial_product (Zb a) (Zb b))). split; [lia|]. exact C.
Qed.
(* b to the power 254 *)
Definition inverse (b : byte) : byte :=
  let mul a c := bZ (let v := polynomial_product (Zb a) (Zb c) in Z.lxor v (polynomial_product 283 (quotient v))) in
  let b2 := mul b b in let b3 := mul b2 b in let b6 := mul b3 b3 in let b12 := mul b6 b6 in let b15 := mul b12 b3 in
  let b30 := mul b15 b15 in let b60 := mul b30 b30 in let b120 := mul b60 b60 in let b126 := mul b120 b6 in
  let b127 := mul b126 b in mul b127 b127.
Definition substitution_ok (b : byte) : bool :=
  let i := inverse b in
  (if Byte.eqb b x00 then Byte.eqb i x00 else product_ok b i x01) &&
  forallb (fun k => Bool.eqb (Z.testbit (Zb (sbox b)) k)
      (xorb (Z.testbit (Zb i) k) (xorb (Z.testbit (Zb i) ((k + 4) mod 8)) (xorb (Z.testbit (Zb i) ((k + 5) mod 8))
        (xorb (Z.testbit (Zb i) ((k + 6) mod 8)) (xorb (Z.testbit (Zb i) ((k + 7) mod 8)) (Z.testbit 99 k)))))))
    [0; 1; 2; 3; 4; 5; 6; 7].
Theorem C83_aes_tables b :
  aes_substitution b (sbox b) /\ inv_sbox (sbox b) = b /\
  gf_product x02 b (mul2 b) /\ gf_product x03 b (mul3 b) /\
  gf_product x09 b (mul9 b) /\ gf_product x0b b (mulb b) /\ gf_product x0d b (muld b) /\ gf_product x0e b (mule b).
Proof.
  assert (substitution_ok b = true) as H by (revert b; apply by_bytes; vm_compute; reflexivity).
  split.
  { unfold substitution_ok in H. apply andb_true_iff in H as (A & B). exists (inverse b). split; [|split].
    - intros ->. reflexivity.
    - intros N. destruct (Byte.eqb b x00) eqn:E; [apply Byte.byte_dec_bl in E; contradiction|]. apply product_ok_sound, A.
    - intros k Hk. rewrite forallb_forall in B. specialize (B k). apply eqb_prop. apply B.
      assert (k = 0 \/ k = 1 \/ k = 2 \/ k = 3 \/ k = 4 \/ k = 5 \/ k = 6 \/ k = 7) as D by lia. clear - D. cbn. intuition. }
  split; [destruct b; reflexivity|].
  assert (forall a f, forallb (fun b => product_ok a b (f b)) all_bytes = true -> gf_product a b (f b)) as G.
  { intros a f Ha. apply product_ok_sound. exact (by_bytes (fun b => product_ok a b (f b)) Ha b). }
  repeat split; apply G; vm_compute; reflexivity.
Qed.

(** The constants of SHA-512 are the fractional parts of the cube roots of the first 80 primes and
    of the square roots of the first 8. *)
Definition primes_below (bound : Z) : list Z :=
  filter (fun a => forallb (fun d => negb (a mod d =? 0)) (map Z.of_nat (seq 2 (Z.to_nat a - 2))))
    (map Z.of_nat (seq 2 (Z.to_nat bound - 2))).
Definition primes : list Z := primes_below 410.
Lemma primes_below_iff bound a : In a (primes_below bound) <-> prime_number a /\ a < bound.
Proof.
  unfold primes_below. rewrite filter_In, forallb_forall, in_map_iff. split.
  - intros ((n & <- & I) & F). apply in_seq in I. split; [split; [lia|]|lia].
    intros d Hd M. specialize (F d). rewrite in_map_iff in F.
    assert (negb (Z.of_nat n mod d =? 0) = true) as G.
    { apply F. exists (Z.to_nat d). split; [lia|]. apply in_seq. lia. }
    rewrite M in G. discriminate.
  - intros ((A & B) & C). split.
    + exists (Z.to_nat a). split; [lia|]. apply in_seq. lia.
    + intros d I. apply in_map_iff in I as (n & <- & I). apply in_seq in I. apply negb_true_iff, Z.eqb_neq. apply B. lia.
Qed.
Fixpoint increasing (l : list Z) : bool :=
  match l with x :: (y :: _) as r => (x <? y) && increasing r | _ => true end.
Lemma increasing_tail x l : increasing (x :: l) = true -> increasing l = true /\ (forall y, In y l -> x < y).
Proof.
  revert x. induction l as [|y l IH]; intros x H; [split; [reflexivity|intros y []]|].
  cbn [increasing] in H. apply andb_true_iff in H as (A & B). apply Z.ltb_lt in A. split; [exact B|].
  destruct (IH y B) as (_ & C). intros z [<-|I]; [exact A|]. specialize (C z I). lia.
Qed.
Lemma increasing_nth l : increasing l = true ->
  forall i j x y, (i < j)%nat -> nth_error l i = Some x -> nth_error l j = Some y -> x < y.
Proof.
  induction l as [|a l IH]; intros H i j x y L Hi Hj; [destruct i; discriminate|].
  apply increasing_tail in H as (H & C). destruct j as [|j]; [lia|]. destruct i as [|i].
  - injection Hi as <-. apply C. eapply nth_error_In. exact Hj.
  - apply (IH H i j); [lia|exact Hi|exact Hj].
Qed.
Lemma primes_80 : first_primes 80 primes.
Proof.
  split; [vm_compute; reflexivity|]. split; [apply increasing_nth; vm_compute; reflexivity|].
  assert (nth_error primes 79 = Some 409) as E by (vm_compute; reflexivity).
  intros a. unfold primes at 1. rewrite primes_below_iff. change (80 - 1)%nat with 79%nat. split.
  - intros (A & B). split; [exact A|]. intros x Hx. assert (x = 409) as -> by congruence. clear - B. lia.
  - intros (A & C). split; [exact A|]. specialize (C 409 E). clear - C. lia.
Qed.
Lemma first_primes_prefix n m l : (n <= m)%nat -> (0 < n)%nat -> first_primes m l -> first_primes n (firstn n l).
Proof.
  intros L P (A & B & C).
  assert (forall i x, nth_error (firstn n l) i = Some x -> nth_error l i = Some x /\ (i < n)%nat) as F.
  { intros i x H. assert (i < length (firstn n l))%nat as Hi by (apply nth_error_Some; congruence).
    rewrite firstn_length in Hi. split; [|lia]. rewrite <- (firstn_skipn n l), nth_error_app1; [exact H|rewrite firstn_length; lia]. }
  assert (forall i x, nth_error l i = Some x -> (i < n)%nat -> nth_error (firstn n l) i = Some x) as G.
  { intros i x H Hi. rewrite <- H. rewrite <- (firstn_skipn n l) at 2. rewrite nth_error_app1; [reflexivity|]. rewrite firstn_length. lia. }
  split; [rewrite firstn_length; lia|]. split.
  - intros i j x y Hij Hi Hj. apply F in Hi, Hj. apply (B i j); tauto.
  - intros a. split.
    + intros I. apply In_nth_error in I as (i & Hi). apply F in Hi as (Hi & Li). split.
      * apply (proj1 (C a)). eapply nth_error_In. exact Hi.
      * intros x Hx. apply F in Hx as (Hx & _). destruct (Nat.eq_dec i (n - 1)) as [->|N]; [assert (a = x) by congruence; lia|].
        apply Z.lt_le_incl. apply (B i (n - 1)%nat); [lia|exact Hi|exact Hx].
    + intros (Pa & La). destruct (nth_error l (n - 1)) as [x|] eqn:Ex; [|apply nth_error_None in Ex; lia].
      specialize (La x (G _ _ Ex ltac:(lia))).
      assert (In a l) as I.
      { apply C. split; [exact Pa|]. intros y Hy. destruct (Nat.eq_dec n m) as [->|N]; [assert (x = y) by congruence; lia|].
        pose proof (B (n - 1)%nat (m - 1)%nat x y ltac:(lia) Ex Hy). lia. }
      apply In_nth_error in I as (i & Hi). apply (nth_error_In _ i). apply G; [exact Hi|].
      destruct (Nat.lt_ge_cases i n) as [K|K]; [exact K|]. pose proof (B (n - 1)%nat i x a ltac:(lia) Ex Hi). lia.
Qed.
(* whole parts of roots *)
Fixpoint whole_root (fuel : nat) (n a r : Z) : Z :=
  match fuel with O => r | S f => if (r + 1) ^ n <=? a then whole_root f n a (r + 1) else r end.
Definition root_ok (n : Z) (ak : Z * N) : bool :=
  let (a, k) := ak in let r := whole_root 30 n a 1 * 2 ^ 64 + Z.of_N k in
  (Z.of_N k <? 2 ^ 64) && (r ^ n <=? a * (2 ^ 64) ^ n) && (a * (2 ^ 64) ^ n <? (r + 1) ^ n).
Lemma roots n ps ks : length ps = length ks -> forallb (root_ok n) (combine ps ks) = true ->
  Forall2 (fun a k => root_fraction n a (Z.of_N k)) ps ks.
Proof.
  revert ks. induction ps as [|a ps IH]; intros [|k ks] L H; try discriminate; constructor.
  - cbn [combine forallb] in H. apply andb_true_iff in H as (H & _). unfold root_ok in H.
    rewrite !andb_true_iff, Z.leb_le, !Z.ltb_lt in H. destruct H as ((A & B) & C). split; [lia|].
    exists (whole_root 30 n a 1). split; assumption.
  - cbn [combine forallb] in H. apply andb_true_iff in H as (_ & H). apply IH; [cbn in L; lia|exact H].
Qed.
Theorem C83_sha512_constants :
  (exists ps, first_primes 80 ps /\ Forall2 (fun a k => root_fraction 3 a (Z.of_N k)) ps sha512_k) /\
  (exists ps, first_primes 8 ps /\ Forall2 (fun a k => root_fraction 2 a (Z.of_N k)) ps sha512_h).
Proof.
  split.
  - exists primes. split; [exact primes_80|]. apply roots; vm_compute; reflexivity.
  - exists (firstn 8 primes). split; [apply (first_primes_prefix 8 80); [lia|lia|exact primes_80]|]. apply roots; vm_compute; reflexivity.
Qed.

(** Only encodings of points of the named curve are accepted, and every uncompressed encoding of a
    point is. *)
Lemma le_val_app a b : le_val (a ++ b) = (le_val a + 256 ^ N.of_nat (length a) * le_val b)%N.
Proof.
  induction a as [|x a IH]; [cbn [app le_val length]; change (256 ^ N.of_nat 0)%N with 1%N; lia|].
  cbn [app le_val length]. rewrite IH, Nat2N.inj_succ, N.pow_succ_r'. lia.
Qed.
Lemma big_val_unsigned b : Z.of_N (big_val b) = unsigned b.
Proof.
  unfold big_val. induction b as [|x b IH]; [reflexivity|]. cbn [rev unsigned]. rewrite le_val_app, rev_length. cbn [le_val].
  rewrite N2Z.inj_add, IH, N2Z.inj_mul, N2Z.inj_pow, nat_N_Z. unfold Zb. lia.
Qed.
(** Messages are padded as the standard says. *)
Lemma byte_of_value v : Z.of_N (Byte.to_N (byte_of v)) = Z.of_N v mod 256.
Proof.
  unfold byte_of. pose proof (N.mod_upper_bound v 256 ltac:(discriminate)) as U.
  destruct (Byte.of_N (v mod 256)) as [b|] eqn:E; [apply Byte.to_of_N in E; rewrite E; apply N2Z.inj_mod|].
  apply Byte.of_N_None_iff in E. lia.
Qed.
Lemma le_val_bytes n v : Z.of_N (le_val (le_bytes n v)) = Z.of_N v mod 256 ^ Z.of_nat n.
Proof.
  revert v. induction n as [|n IH]; intros v; [cbn; rewrite Z.mod_1_r; reflexivity|].
  cbn [le_bytes le_val]. rewrite N2Z.inj_add, N2Z.inj_mul, IH, byte_of_value, N2Z.inj_div, Nat2Z.inj_succ, Z.pow_succ_r by lia.
  change (Z.of_N 256) with 256. rewrite Z.rem_mul_r by lia. reflexivity.
Qed.
Lemma big_bytes_unsigned n v : unsigned (big_bytes n v) = Z.of_N v mod 256 ^ Z.of_nat n.
Proof. rewrite <- big_val_unsigned. unfold big_val, big_bytes. rewrite rev_involutive. apply le_val_bytes. Qed.
Theorem C83_sha512_padding m :
  exists padded, sha512_message m padded /\
    sha512 m = flat_map (big_bytes 8) (fold_left sha512_block (cut 128 padded) sha512_h).
Proof.
  eexists. split; [|reflexivity]. eexists _, _. split; [reflexivity|].
  split; [apply Nat.mod_upper_bound; discriminate|]. split; [|split].
  - rewrite !app_length, repeat_length, big_bytes_length. change (length [x80]) with 1%nat.
    pose proof (Nat.div_mod (length m) 128 ltac:(discriminate)) as D. pose proof (Nat.mod_upper_bound (length m) 128 ltac:(discriminate)) as U.
    set (r := (length m mod 128)%nat) in *. set (q := (length m / 128)%nat) in *.
    destruct (Nat.lt_ge_cases r 112) as [L|L].
    + replace ((239 - r) mod 128)%nat with (111 - r)%nat.
      * replace (length m + (1 + (111 - r + 16)))%nat with ((q + 1) * 128)%nat by lia. apply Nat.mod_mul. discriminate.
      * replace (239 - r)%nat with (111 - r + 1 * 128)%nat by lia. rewrite Nat.mod_add, Nat.mod_small by lia. reflexivity.
    + rewrite (Nat.mod_small (239 - r)) by lia. replace (length m + (1 + (239 - r + 16)))%nat with ((q + 2) * 128)%nat by lia. apply Nat.mod_mul. discriminate.
  - apply big_bytes_length.
  - rewrite big_bytes_unsigned. change (256 ^ Z.of_nat 16) with (2 ^ 128). f_equal. lia.
Qed.
(** Key derivation is made of hashes as in the original. *)
Lemma encipher_all_length s l : length l = 8%nat -> length (encipher_all s l) = 8%nat.
Proof.
  intros H. do 9 (destruct l as [|? l]; try discriminate). cbn [encipher_all].
  repeat (destruct (encipher s _) as [? ?]; cbn [length]). reflexivity.
Qed.
Lemma bcrypt_hash_length a b : length (bcrypt_hash a b) = 32%nat.
Proof.
  unfold bcrypt_hash. cbv zeta. generalize (Nat.iter 64 (fun s => expand_state [0%N] (map big_val (cut 4 a)) (expand_state [0%N] (map big_val (cut 4 b)) s)) (expand_state (map big_val (cut 4 b)) (map big_val (cut 4 a)) bf_init)).
  intros s. assert (forall n l, length l = 8%nat -> length (Nat.iter n (encipher_all s) l) = 8%nat) as I
    by (intros n l Hl; induction n as [|n IH]; [exact Hl|]; cbn [Nat.iter nat_rect]; apply encipher_all_length, IH).
  assert (length (map big_val (cut 4 (bstr "OxychromaticBlowfishSwatDynamite"))) = 8%nat) as L8 by (vm_compute; reflexivity).
  pose proof (I 64%nat _ L8) as L. clear I L8. remember (Nat.iter 64 (encipher_all s) _) as l eqn:E. clear E.
  do 9 (destruct l as [|? l]; try discriminate). cbn [flat_map]. rewrite !app_length, !le_bytes_length. reflexivity.
Qed.
Lemma bcrypt_block_chain pass salt count rounds : 1 <= rounds ->
  exists hs, hash_chain (fun s => bcrypt_hash pass (sha512 s)) (salt ++ big_bytes 4 (N.of_nat count)) hs /\
    length hs = Z.to_nat rounds /\ forall i, (i < 32)%nat -> exists v, xored_all i hs v /\ nth_error (bcrypt_block pass salt count rounds) i = Some v.
Proof.
  intros R. Opaque bcrypt_hash sha512. unfold bcrypt_block. set (H := fun s => bcrypt_hash pass (sha512 s)). set (text := salt ++ big_bytes 4 (N.of_nat count)).
  change (bcrypt_hash pass (sha512 text)) with (H text).
  replace (Z.to_nat rounds) with (S (N.to_nat (Z.to_N (rounds - 1)))) by lia.
  generalize (Z.to_N (rounds - 1)). clear R rounds. intros n.
  assert (forall s, length (H s) = 32%nat) as LH by (intros s; unfold H; exact (bcrypt_hash_length _ _)).
  assert (let st := N.iter n (bcrypt_round pass) (H text, H text) in
    exists hs, hash_chain H text (hs ++ [fst st]) /\ length hs = N.to_nat n /\ length (fst st) = 32%nat /\ length (snd st) = 32%nat /\
      forall i, (i < 32)%nat -> exists v, xored_all i (hs ++ [fst st]) v /\ nth_error (snd st) i = Some v) as K.
  { cbv zeta. induction n as [|n IH] using N.peano_ind.
    - exists []. cbn [N.iter fst snd app]. split; [constructor|]. split; [reflexivity|]. do 2 (split; [apply LH|]).
      intros i Hi. destruct (nth_error (H text) i) as [v|] eqn:E; [|apply nth_error_None in E; rewrite LH in E; lia].
      exists v. split; [apply xa_one; exact E|reflexivity].
    - rewrite N.iter_succ. destruct (N.iter n (bcrypt_round pass) (H text, H text)) as [h x]. cbn [fst snd] in IH.
      destruct IH as (hs & C & L & Lh & Lx & X). unfold bcrypt_round. cbn [fst snd]. change (bcrypt_hash pass (sha512 h)) with (H h).
      exists (hs ++ [h]). split; [rewrite <- app_assoc; cbn [app]; constructor; exact C|].
      split; [rewrite app_length; cbn [length]; lia|]. split; [apply LH|].
      split; [rewrite xor_bytes_length; [exact Lx|rewrite LH; exact Lx]|].
      intros i Hi. destruct (X i Hi) as (v & Xv & Ev). destruct (nth_error (H h) i) as [w|] eqn:E; [|apply nth_error_None in E; rewrite LH in E; lia].
      exists (byte_xor v w). split; [|apply xor_bytes_nth; assumption].
      eapply xa_more; [exact Xv|exact E|apply xored_byte_xor; reflexivity]. }
  cbv zeta in K. destruct K as (hs & C & L & _ & _ & X). exists (hs ++ [fst (N.iter n (bcrypt_round pass) (H text, H text))]).
  split; [exact C|]. split; [rewrite app_length; cbn [length]; lia|exact X].
Qed.
Transparent bcrypt_hash sha512.
Lemma words_cut n b : length b = (4 * n)%nat -> words b (map big_val (cut 4 b)).
Proof.
  intros L. unfold cut. assert (n <= length b)%nat as Le by lia. revert Le. generalize (length b) as fuel. revert b L.
  induction n as [|n IH]; intros b L fuel Le.
  - destruct b; [|cbn [length] in L; lia]. destruct fuel; exists []; (split; [reflexivity|constructor]).
  - destruct fuel as [|fuel]; [lia|]. destruct b as [|b0 [|b1 [|b2 [|b3 b]]]]; cbn [length] in L; try lia.
    destruct (IH b ltac:(cbn [length] in L; lia) fuel ltac:(lia)) as (ps & E & F).
    exists ([b0; b1; b2; b3] :: ps). split; [cbn [concat app]; rewrite <- E; reflexivity|].
    cbn [chunks map]. constructor; [|exact F]. split; [reflexivity|]. rewrite <- big_val_unsigned. reflexivity.
Qed.
Lemma times_iter {A} (f : A -> A) n a : times (fun x y => y = f x) n a (Nat.iter n f a).
Proof.
  revert a. induction n as [|n IH]; intros a; [constructor|]. apply (times_more _ n a (f a)); [reflexivity|].
  replace (Nat.iter (S n) f a) with (Nat.iter n f (f a)); [apply IH|]. clear IH. induction n as [|n IH]; [reflexivity|].
  cbn [Nat.iter] in *. change (f (Nat.iter n f (f a)) = f (f (Nat.iter n f a))). f_equal. exact IH.
Qed.
Lemma encipher_all_pairwise s l : Nat.even (length l) = true -> pairwise (encipher s) l (encipher_all s l) /\ length (encipher_all s l) = length l.
Proof.
  assert (forall n l, (length l <= n)%nat -> Nat.even (length l) = true -> pairwise (encipher s) l (encipher_all s l) /\ length (encipher_all s l) = length l) as K.
  { clear l. induction n as [|n IH]; intros [|a [|b l]] L E; try discriminate; cbn [length] in *; try lia; try (split; [constructor|reflexivity]).
    cbn [encipher_all]. destruct (encipher s (a, b)) as [x y] eqn:X. destruct (IH l ltac:(lia) E) as (P & Q).
    split; [constructor; [exact X|exact P]|cbn [length]; rewrite Q; reflexivity]. }
  intros E. apply (K (length l)); [lia|exact E].
Qed.
Lemma times_pairwise s n l : Nat.even (length l) = true -> times (pairwise (encipher s)) n l (Nat.iter n (encipher_all s) l).
Proof.
  revert l. induction n as [|n IH]; intros l E; [constructor|].
  destruct (encipher_all_pairwise s l E) as (P & Q). apply (times_more _ n l (encipher_all s l)); [exact P|].
  replace (Nat.iter (S n) (encipher_all s) l) with (Nat.iter n (encipher_all s) (encipher_all s l)); [apply IH; rewrite Q; exact E|].
  clear. generalize (encipher_all s) as f. intros f. induction n as [|n IH]; [reflexivity|].
  change (f (Nat.iter n f (f l)) = f (f (Nat.iter n f l))). f_equal. exact IH.
Qed.
(** bcrypt_hash of whole numbers of words (it is applied to SHA-512 digests of 64 bytes). *)
Theorem C83_bcrypt_hash pass salt n m :
  length pass = (4 * n)%nat -> length salt = (4 * m)%nat ->
  bcrypt_hashed expand_state encipher bf_init pass salt (bcrypt_hash pass salt).
Proof.
  intros Lp Ls. unfold bcrypt_hash. cbv zeta. unfold bcrypt_hashed.
  pose proof (words_cut n pass Lp) as Wp. pose proof (words_cut m salt Ls) as Ws.
  pose proof (words_cut 8 (bstr "OxychromaticBlowfishSwatDynamite") eq_refl) as Wt.
  assert (Nat.even (length (map big_val (cut 4 (bstr "OxychromaticBlowfishSwatDynamite")))) = true) as Et by reflexivity.
  revert Wp Ws Wt Et. generalize (map big_val (cut 4 pass)) as key. generalize (map big_val (cut 4 salt)) as data.
  generalize (map big_val (cut 4 (bstr "OxychromaticBlowfishSwatDynamite"))) as text.
  generalize (bstr "OxychromaticBlowfishSwatDynamite") as magic. intros magic text data key Wp Ws Wt Et.
  pose proof (times_iter (fun s => expand_state [0%N] key (expand_state [0%N] data s)) 64 (expand_state data key bf_init)) as T.
  revert T. generalize (Nat.iter 64 (fun s => expand_state [0%N] key (expand_state [0%N] data s)) (expand_state data key bf_init)) as state.
  intros state T. pose proof (times_pairwise state 64 text Et) as C. revert C.
  generalize (Nat.iter 64 (encipher_all state) text) as cipher. intros cipher C.
  exists key, data, state, text, cipher, (map (le_bytes 4) cipher).
  split; [exact Wp|]. split; [exact Ws|]. split; [exact T|]. split; [exact Wt|]. split; [exact C|]. split; [|apply flat_map_concat_map].
  clear C. induction cipher as [|w l IH]; constructor; [|exact IH].
  split; [apply le_bytes_length|]. exact (big_bytes_unsigned 4 w).
Qed.
Theorem C83_bcrypt_pbkdf pass salt len rounds :
  0 <= len -> 1 <= rounds ->
  derived (fun s => bcrypt_hash (sha512 pass) (sha512 s)) salt (Z.to_nat len) (Z.to_nat rounds) (bcrypt_pbkdf pass salt len rounds).
Proof.
  intros L R. unfold bcrypt_pbkdf. set (n := Z.to_nat len). set (stride := ((n + 31) / 32)%nat).
  split; [rewrite map_length, seq_length; reflexivity|]. exists stride.
  pose proof (Nat.div_mod (n + 31) 32 ltac:(discriminate)) as D. pose proof (Nat.mod_upper_bound (n + 31) 32 ltac:(discriminate)) as U. fold stride in D.
  split; [lia|]. split; [lia|]. intros i c Hc Hi.
  destruct (bcrypt_block_chain (sha512 pass) salt (S c) rounds R) as (hs & C & Lh & X).
  destruct (X i) as (v & Xv & Ev); [nia|].
  exists (big_bytes 4 (N.of_nat (S c))), hs, v. split; [apply big_bytes_length|].
  split; [rewrite big_bytes_unsigned; change (256 ^ Z.of_nat 4) with (2 ^ 32); f_equal; lia|].
  split; [exact C|]. split; [exact Lh|]. split; [exact Xv|].
  rewrite nth_error_map. rewrite (nth_error_nth' _ 0%nat) by (rewrite seq_length; exact Hi).
  rewrite seq_nth by exact Hi. cbn [option_map]. f_equal.
  assert (((0 + (i * stride + c)) / stride)%nat = i /\ ((0 + (i * stride + c)) mod stride)%nat = c) as (-> & ->).
  { rewrite Nat.add_0_l, (Nat.add_comm (i * stride)). split; [rewrite Nat.div_add, Nat.div_small by lia; reflexivity|rewrite Nat.mod_add, Nat.mod_small by lia; reflexivity]. }
  rewrite (nth_indep _ [] (bcrypt_block (sha512 pass) salt (S 0) rounds)) by (rewrite map_length, seq_length; exact Hc).
  rewrite (map_nth (fun c => bcrypt_block (sha512 pass) salt (S c) rounds) _ 0%nat), seq_nth by exact Hc.
  apply nth_error_nth. exact Ev.
Qed.

Theorem C83_points c q :
  (ec_point_ok c q = true -> exists x y, on_curve c x y /\ (uncompressed_point c x y q \/ compressed_point c x q)) /\
  (forall x y, on_curve c x y -> uncompressed_point c x y q -> ec_point_ok c q = true).
Proof.
  assert (nist_curve c = (curve_p c, curve_b c, curve_bytes c)) as Ec
    by (unfold nist_curve, curve_p, curve_b, curve_bytes; destruct c; reflexivity).
  assert (0 < curve_p c) as Pp by (destruct c; vm_compute; reflexivity).
  assert (snd (nist_curve c) = curve_bytes c) as En by (rewrite Ec; reflexivity).
  assert (forall x y, y * y mod curve_p c = (x * x * x - 3 * x + curve_b c) mod curve_p c <->
                      (y * y - (x * x * x - 3 * x + curve_b c)) mod curve_p c = 0) as Em.
  { intros x y. split; intros H.
    - rewrite Zminus_mod, H, Z.sub_diag. apply Zmod_0_l.
    - replace (y * y) with ((y * y - (x * x * x - 3 * x + curve_b c)) + (x * x * x - 3 * x + curve_b c)) by lia.
      rewrite Z.add_mod, H by lia. rewrite Z.add_0_l, Z.mod_mod by lia. reflexivity. }
  assert (forall b, 0 <= unsigned b) as U by (intros b; apply unsigned_range).
  split.
  - intros H. unfold ec_point_ok in H. cbv zeta in H.
    assert (forall t r, (t = x02 \/ t = x03) -> q = t :: r ->
      ((length r =? curve_bytes c)%nat && (Z.of_N (big_val r) <? curve_p c) &&
       (let y := pow_mod ((Z.of_N (big_val r) * Z.of_N (big_val r) * Z.of_N (big_val r) - 3 * Z.of_N (big_val r) + curve_b c) mod curve_p c)
            (Z.to_pos ((curve_p c + 1) / 4)) (curve_p c) in
        y * y mod curve_p c =? (Z.of_N (big_val r) * Z.of_N (big_val r) * Z.of_N (big_val r) - 3 * Z.of_N (big_val r) + curve_b c) mod curve_p c)) = true ->
      exists x y, on_curve c x y /\ (uncompressed_point c x y q \/ compressed_point c x q)) as Comp.
    { intros t r Ht -> K. cbv zeta in K. rewrite !andb_true_iff, Nat.eqb_eq, Z.ltb_lt, Z.eqb_eq in K. destruct K as ((L & Lx) & E).
      rewrite big_val_unsigned in *. set (y := pow_mod _ _ _) in E.
      exists (unsigned r), (y mod curve_p c). split.
      - unfold on_curve. rewrite Ec. split; [split; [apply U|exact Lx]|]. split; [apply Z.mod_pos_bound; lia|]. apply Em.
        rewrite <- Z.mul_mod by lia. exact E.
      - right. exists t, r. rewrite En. auto. }
    destruct q as [|t r]; [discriminate|].
    destruct (Byte.byte_eq_dec t x02) as [->|N2]; [exact (Comp x02 r (or_introl eq_refl) eq_refl H)|].
    destruct (Byte.byte_eq_dec t x03) as [->|N3]; [exact (Comp x03 r (or_intror eq_refl) eq_refl H)|].
    assert (t = x04) as -> by (destruct t; try discriminate H; try contradiction; reflexivity).
    rewrite !andb_true_iff, Nat.eqb_eq, !Z.ltb_lt, Z.eqb_eq in H. destruct H as (((L & Lx) & Ly) & E).
    rewrite !big_val_unsigned in *.
    exists (unsigned (firstn (curve_bytes c) r)), (unsigned (skipn (curve_bytes c) r)). split.
    + unfold on_curve. rewrite Ec. split; [split; [apply U|exact Lx]|]. split; [split; [apply U|exact Ly]|]. apply Em. exact E.
    + left. exists (firstn (curve_bytes c) r), (skipn (curve_bytes c) r). rewrite En, firstn_skipn, firstn_length, skipn_length.
      repeat split; lia.
  - intros x y O (a & b & -> & La & Lb & <- & <-). rewrite En in La, Lb. unfold on_curve in O. rewrite Ec in O. destruct O as (Ox & Oy & O).
    unfold ec_point_ok. cbv zeta. rewrite <- La. rewrite firstn_app, Nat.sub_diag, firstn_all, firstn_O, app_nil_r.
    rewrite skipn_app, Nat.sub_diag, skipn_all, skipn_O. cbn [app]. rewrite !big_val_unsigned.
    rewrite !andb_true_iff, Nat.eqb_eq, !Z.ltb_lt, Z.eqb_eq. rewrite app_length. apply Em in O. repeat split; lia.
Qed.

(** A compressed point is accepted if there is a point with that first coordinate, as the moduli are
    primes (a hypothesis here: their primality is well known but not proved in this development). *)
Theorem C83_compressed_points c q x y : Znumtheory.prime (fst (fst (nist_curve c))) ->
  on_curve c x y -> compressed_point c x q -> ec_point_ok c q = true.
Proof.
  assert (nist_curve c = (curve_p c, curve_b c, curve_bytes c)) as Ec
    by (unfold nist_curve, curve_p, curve_b, curve_bytes; destruct c; reflexivity).
  unfold on_curve, compressed_point. rewrite Ec. cbn [fst snd]. intros Pr (Hx & Hy & E) (t & r & -> & Ht & Lr & <-).
  assert (curve_p c mod 4 = 3) as M by (destruct c; vm_compute; reflexivity).
  assert (0 < curve_p c) as Pp by lia. set (s := unsigned r * unsigned r * unsigned r - 3 * unsigned r + curve_b c) in *.
  assert (y * y mod curve_p c = s mod curve_p c) as Em.
  { replace (y * y) with ((y * y - s) + s) by lia. rewrite Z.add_mod, E by lia. rewrite Z.add_0_l, Z.mod_mod by lia. reflexivity. }
  pose proof (root_mod (curve_p c) s y Pr M (proj1 Hy) Em) as R. cbv zeta in R.
  assert ((length r =? curve_bytes c)%nat && (Z.of_N (big_val r) <? curve_p c) &&
          (let x := Z.of_N (big_val r) in let s := (x * x * x - 3 * x + curve_b c) mod curve_p c in
           let y := pow_mod s (Z.to_pos ((curve_p c + 1) / 4)) (curve_p c) in y * y mod curve_p c =? s) = true) as K.
  { rewrite !andb_true_iff, Nat.eqb_eq, Z.ltb_lt, Z.eqb_eq. cbv zeta. rewrite big_val_unsigned. fold s. rewrite R. split; [split; [exact Lr|lia]|reflexivity]. }
  destruct Ht as [->| ->]; exact K.
Qed.

(** ** The library with these algorithms *)
(** What a cipher decrypts is what it encrypts, for every cipher, KDF, options and passphrase. *)
Theorem C83_decrypt_inverts_encrypt c k d pass b x :
  cipher_decrypt std_prims c k d pass x = Ok b <-> cipher_encrypt std_prims c k d pass b = Ok x.
Proof. apply C37_decrypt_inverts_encrypt. exact std_sound. Qed.

(** Keys protected with any encrypting cipher and a passphrase can be read again with it: packing
    succeeds, and so does parsing, which gives the same private keys in order. *)
Theorem C83_protected_keys_survive e e' l cn m kl il bs idx sel pubs privs pass pw :
  list_names l (VStr cn) (VStr (str "bcrypt")) -> In (cn, (m, kl, il, bs)) cipher_table ->
  chosen (l_pairs l) idx sel -> Forall is_pair sel ->
  Forall2 (fun q x => pack_public_bytes (pr_private q) = Ok x) sel pubs ->
  Forall2 (fun q x => pack_private_bytes (pr_private q) = Ok x) sel privs ->
  Z.of_nat (512 + length (concat pubs) + 4 * length sel + length (concat privs)) < 2 ^ 31 ->
  utf8 pass pw -> pw <> [] -> length (e_salt e) = 16%nat -> 0 <= e_randbits e < 2 ^ 32 ->
  exists b lg l', snd (list_pack_bytes std_prims e l (Some pass) idx true false) = Ok b /\
    list_from_bytes std_prims e' b (Some pass) = (lg, Ok l') /\
    Forall2 (fun q q' => same_private (pr_private q) (pr_private q') /\
                         same_public (pr_private q) (pr_public q')) sel (l_pairs l') /\
    (forall ev, In ev lg -> ~ file_warning ev).
Proof.
  intros Hn Hc Hs Ip Fp Fv Hsz Hu Np Ls Hr.
  set (d := [(str "salt", VBytes (e_salt e)); (str "rounds", VInt 16)]).
  assert (e_salt e <> []) as Ns by (intros E; rewrite E in Ls; discriminate).
  assert (exists opts, options_of (str "bcrypt") d opts /\ (length opts <= 256)%nat) as (opts & Ho & Lo).
  { destruct (prefixed_exists (e_salt e) ltac:(rewrite Ls; reflexivity)) as (sb & Hsb).
    destruct (word_exists 16 ltac:(lia)) as (rb & Lrb & Urb).
    exists (sb ++ rb ++ []). split; [|rewrite !app_length, (prefixed_length _ _ _ Hsb), Ls; cbn [length]; lia].
    exists [octets "salt"; uint32 "rounds"], d. split; [right; left; reflexivity|]. split; [split; [reflexivity|intros; reflexivity]|].
    constructor; [|constructor; [|constructor]].
    - split; [constructor; exact Hsb|]. intros b' W. assert (b' = sb) as ->; [|lia]. refine (wire_functional (TBytes 4) _ b' sb _ W (wire_bytes _ _ _ Hsb)). discriminate.
    - assert (wire (TInt true false 4) (VInt 16) rb) as Wr by (constructor; [exact Lrb|symmetry; exact Urb]).
      split; [exact Wr|]. intros b' W. assert (b' = rb) as ->; [|lia]. refine (wire_functional (TInt true false 4) _ b' rb _ W Wr). discriminate. }
  assert (forall n, exists r, derives std_prims d pass n r) as Hd.
  { intros n. eexists. exists pw, (e_salt e), 16. repeat split; try assumption; try lia; reflexivity. }
  destruct (C24_pack_succeeds std_prims e l (Some pass) idx true false cn (str "bcrypt") m kl il bs d opts sel pubs privs pass) as (b & Eb & Lb);
    try assumption.
  - exact std_sound.
  - right. split; [left; reflexivity|]. right. split; reflexivity.
  - right. split; [discriminate|reflexivity].
  - intros _. split; [reflexivity|apply Hd].
  - lia.
  - destruct (C24_roundtrip std_prims e e' l (Some pass) (Some pass) idx true false b sel std_sound Lb Eb Hs Ip ltac:(discriminate))
      as (lg & l' & El & F & _ & _ & W).
    { intros kn ps [A|(A & B)]; [left; exact A|right; split; [exact A|exact B]]. }
    exists b, lg, l'. split; [exact Eb|]. split; [exact El|]. split; [exact F|]. intros ev I. exact (W eq_refl ev I).
Qed.

(** Every file of this size that can be read can be rewritten with any cipher and any passphrase
    that is not empty, and then read with that one. *)
Theorem C83_changing_the_passphrase_works e1 e2 e3 b1 given1 lg1 l l2 cn m kl il bs new pw :
  Z.of_nat (length b1) < 2 ^ 31 - 512 ->
  list_from_bytes std_prims e1 b1 given1 = (lg1, Ok l) ->
  Forall (fun q => writable_params (pr_public q) /\ writable_params (pr_private q)) (l_pairs l) ->
  l_pairs l2 = l_pairs l -> list_names l2 (VStr cn) (VStr (str "bcrypt")) ->
  In (cn, (m, kl, il, bs)) cipher_table ->
  0 <= e_randbits e2 < 2 ^ 32 -> length (e_salt e2) = 16%nat -> utf8 new pw -> pw <> [] ->
  exists b2 lg l3, snd (list_pack_bytes std_prims e2 l2 (Some new) None false false) = Ok b2 /\
    list_from_bytes std_prims e3 b2 (Some new) = (lg, Ok l3) /\
    Forall2 (fun q q' => pr_private q' = pr_private q /\ pr_public q' = without_clear (pr_public q)) (l_pairs l) (l_pairs l3).
Proof.
  intros L H G El Hn Ic Hr Ls Hu Np.
  eapply (C73_changing_the_passphrase_works std_prims e1 e2 e3 b1 given1 lg1 l l2 cn m kl il bs new); try eassumption; [exact std_sound|].
  exists pw, (e_salt e2), 16. split; [exact Hu|]. split; [exact Np|]. split; [reflexivity|].
  split; [intros E; rewrite E in Ls; discriminate|]. split; [reflexivity|]. split; [lia|reflexivity].
Qed.

(** ** Published vectors *)
Fixpoint hex_of (s : string) : list Z :=
  let v c := let n := Z.of_N (Ascii.N_of_ascii c) in if n <? 58 then n - 48 else n - 87 in
  match s with
  | String a (String c r) => 16 * v a + v c :: hex_of r
  | _ => []
  end.
Definition hex (s : string) : bytes := map bZ (hex_of s).
(** FIPS 197 appendix C; FIPS 180-4 (SHA-512 of abc); RFC 8439 2.3.2 and 2.5.2; the generators of the curves
    P-256 and P-384. *)
Example C83_vectors :
  aes_enc (hex "000102030405060708090a0b0c0d0e0f") (hex "00112233445566778899aabbccddeeff") = hex "69c4e0d86a7b0430d8cdb78070b4c55a" /\
  aes_enc (hex "000102030405060708090a0b0c0d0e0f1011121314151617") (hex "00112233445566778899aabbccddeeff") = hex "dda97ca4864cdfe06eaf70a0ec0d7191" /\
  aes_enc (hex "000102030405060708090a0b0c0d0e0f101112131415161718191a1b1c1d1e1f") (hex "00112233445566778899aabbccddeeff") = hex "8ea2b7ca516745bfeafc49904b496089" /\
  sha512 (bstr "abc") = hex "ddaf35a193617abacc417349ae20413112e6fa4e89a97ea20a9eeee64b55d39a2192992a274fc1a836ba3c23a3feebbd454d4423643ce80e2a9ac94fa54ca49f" /\
  firstn 16 (Std.chacha_block (hex "000102030405060708090a0b0c0d0e0f101112131415161718191a1b1c1d1e1f") (hex "01000000000000090000004a00000000") 0) = hex "10f1e7e4d13b5915500fdd1fa32071c4" /\
  poly1305 (hex "85d6be7857556d337f4452fe42d506a80103808afb0db2fd4abff6af4149f51b") (bstr "Cryptographic Forum Research Group") = hex "a8061dc1305136c6c22b8baf0c0127a9" /\
  ec_point_ok P256 (hex "046b17d1f2e12c4247f8bce6e563a440f277037d812deb33a0f4a13945d898c2964fe342e2fe1a7f9b8ee7eb4a7c0f9e162bce33576b315ececbb6406837bf51f5") = true /\
  ec_point_ok P256 (hex "046b17d1f2e12c4247f8bce6e563a440f277037d812deb33a0f4a13945d898c2964fe342e2fe1a7f9b8ee7eb4a7c0f9e162bce33576b315ececbb6406837bf51f6") = false /\
  ec_point_ok P384 (hex "04aa87ca22be8b05378eb1c71ef320ad746e1d3b628ba79b9859f741e082542a385502f25dbf55296c3a545e3872760ab73617de4a96262c6f5d9e98bf9292dc29f8f41dbd289a147ce9da3113b5f0b8c00a60b1ce1d7e819d7a431d7c90ea0e5f") = true.
Proof. do 8 (split; [vm_compute; reflexivity|]). vm_compute. reflexivity. Qed.
(** NIST SP 800-67 (three different DES keys), test case 3 of the GCM specification (four blocks), and the
    generator of P-521. *)
Example C83_more_vectors :
  map (tdes_enc (hex "0123456789abcdef23456789abcdef01456789abcdef0123")) (cut 8 (bstr "The qufck brown fox jump")) =
    [hex "a826fd8ce53b855f"; hex "cce21c8112256fe6"; hex "68d5c05dd9b6b900"] /\
  encrypt_with_key_iv std_prims Aes128Gcm
    (hex "d9313225f88406e5a55909c5aff5269a86a7a9531534f7da2e4c303d8a318a721c3c0c95956809532fcf0e2449a6b525b16aedf5aa0de657ba637b391aafd255")
    (hex "feffe9928665731c6d6a8f9467308308") (hex "cafebabefacedbaddecaf888") =
    Ok (hex "42831ec2217774244b7221b784d0d49ce3aa212f2c02a4e035c17e2329aca12e21d514b25466931c7d8f6a5aac84aa051ba30b396a0aac973d58e091473f59854d5c2af327cd64a62cf35abd2ba6fab4") /\
  ec_point_ok P521 (hex "0400c6858e06b70404e9cd9e3ecb662395b4429c648139053fb521f828af606b4d3dbaa14b5e77efe75928fe1dc127a2ffa8de3348b3c1856a429bf97e7e31c2e5bd66011839296a789a3bc0045c8a5fb42c7d1bd998f54449579b446817afbd17273e662c97ee72995ef42640c550b9013fad0761353c7086a272c24088be94769fd16650") = true.
Proof. do 2 (split; [vm_compute; reflexivity|]). vm_compute. reflexivity. Qed.
(** RFC 8439 A.1, test vectors 1 and 2: the key stream where one block ends and the next begins. *)
Example C83_chacha_stream_vector :
  map (Std.chacha_stream (repeat x00 32) (repeat x00 16)) [0; 1; 62; 63; 64; 65; 126; 127]%nat = hex "76b865869f074d6f".
Proof. vm_compute. reflexivity. Qed.
(** Blowfish, on which bcrypt_hash is built: a test vector of Eric Young's set. *)
Example C83_blowfish_vector :
  encipher (expand_state [0%N] [0x01234567; 0x89ABCDEF]%N bf_init) (0x11111111, 0x11111111)%N = (0x61F9C380, 0x2281B096)%N.
Proof. vm_compute. reflexivity. Qed.

(** The key setup with a salt: no published vector; the value was computed by a separate
    implementation, in Python, that also gives the vector above. *)
Example C83_salted_blowfish_vector :
  encipher (expand_state (map (fun i => 0x01020304 * (i + 1) mod 2 ^ 32)%N (map N.of_nat (seq 0 16)))
    (map (fun i => (0x89ABCDEF + 0x1111111 * i) mod 2 ^ 32)%N (map N.of_nat (seq 0 16))) bf_init) (0xFEDCBA98, 0x76543210)%N
  = (0x92C7DA1E, 0x9E79F0F7)%N.
Proof. vm_compute. reflexivity. Qed.

(** tests/test_cipher.py:53-325: cipher, key followed by IV, plaintext, ciphertext. The vectors of 3DES, the
    first of AES256-CTR, those of CBC, the first of each AES-GCM. *)
Definition test_vectors : list (cipher * (bytes * bytes * bytes)) :=
  [(TDesCbc, (hex "0101010101010101010101010101010101010101010101010000000000000000", hex "8000000000000000", hex "95f8a5e5dd31d900"));
   (TDesCbc, (hex "8001010101010101800101010101010180010101010101010000000000000000", hex "0000000000000000", hex "95a8d72813daa94d"));
   (Aes256Ctr, (hex "776beff2851db06f4c8a0542c8696f6c6a81af1eec96b4d37fc1d689e6c1c10400000060db5672c97aa8f0b200000001", hex "53696e676c6520626c6f636b206d7367", hex "145ad01dbf824ec7560863dc71e3e0c0"));
   (Aes128Cbc, (hex "0000000000000000000000000000000000000000000000000000000000000000", hex "f34481ec3cc627bacd5dc3fb08f273e6", hex "0336763e966d92595a567cc9ce537f5e"));
   (Aes192Cbc, (hex "00000000000000000000000000000000000000000000000000000000000000000000000000000000", hex "1b077a6af4b7f98229de786d7516b639", hex "275cfc0413d8ccb70513c3859b1d0f72"));
   (Aes256Cbc, (hex "000000000000000000000000000000000000000000000000000000000000000000000000000000000000000000000000", hex "014730f80ac625fe84f026c60bfd547d", hex "5c9d844ed46f9885085e5d6a4f94c7d7"));
   (Aes128Gcm, (hex "00000000000000000000000000000000000000000000000000000000", hex "00000000000000000000000000000000", hex "0388dace60b6a392f328c2b971b2fe78ab6e47d42cec13bdf53a67b21257bddf"));
   (Aes256Gcm, (hex "0000000000000000000000000000000000000000000000000000000000000000000000000000000000000000", hex "00000000000000000000000000000000", hex "cea7403d4d606b6e074ec5d3baf39d18d0d1c8a799996bf0265b98b5d48ab919"))].
(** The two functions test_encrypt and test_decrypt (test_cipher.py:328-344) compute this value; TestIdentityKDF
    (11-21) returns the passphrase as the derived bytes. They return it and assert nothing. *)
Definition test_encrypt (v : cipher * (bytes * bytes * bytes)) : bool :=
  let '(c, (r, plain, text)) := v in
  match encrypt_with_key_iv std_prims c plain (slice_to (key_length c) r) (slice_last (iv_length c) r) with
  | Ok x => bytes_eqb x text | Err _ => false end.
Definition test_decrypt (v : cipher * (bytes * bytes * bytes)) : bool :=
  let '(c, (r, plain, text)) := v in
  match decrypt_with_key_iv std_prims c text (slice_to (key_length c) r) (slice_last (iv_length c) r) with
  | Ok x => bytes_eqb x plain | Err _ => false end.
Example C83_project_vectors : forallb test_encrypt test_vectors = true /\ forallb test_decrypt test_vectors = true.
Proof. split; vm_compute; reflexivity. Qed.
(** The vectors of AES128-CTR and AES192-CTR (test_cipher.py:80-147) lack the block counter of RFC 3686, so the
    returned value is False; with the counter it is True. *)
Example C83_unasserted_vector :
  test_encrypt (Aes128Ctr, (hex "ae6852f8121067cc4bf7a5765577f39e000000300000000000000000",
      hex "53696e676c6520626c6f636b206d7367", hex "e4095d4fb7a7b3792d6175a3261311b8")) = false /\
  test_encrypt (Aes128Ctr, (hex "ae6852f8121067cc4bf7a5765577f39e00000030000000000000000000000001",
      hex "53696e676c6520626c6f636b206d7367", hex "e4095d4fb7a7b3792d6175a3261311b8")) = true.
Proof. split; vm_compute; reflexivity. Qed.

(** ** A list that meets the hypotheses *)
(** Two pairs under AES256-GCM. *)
Example C83_example :
  list_names ex_list (VStr (str "aes256-gcm@openssh.com")) (VStr (str "bcrypt")) /\
  In (str "aes256-gcm@openssh.com", (Aes_gcm, 32, 12, 16)%nat) cipher_table /\
  chosen (l_pairs ex_list) None ex_pairs /\ Forall is_pair ex_pairs /\
  (exists pubs privs, Forall2 (fun q x => pack_public_bytes (pr_private q) = Ok x) ex_pairs pubs /\
     Forall2 (fun q x => pack_private_bytes (pr_private q) = Ok x) ex_pairs privs /\
     Z.of_nat (512 + length (concat pubs) + 4 * length ex_pairs + length (concat privs)) < 2 ^ 31) /\
  utf8 (str "pw") (bstr "pw") /\ length (e_salt ex_env) = 16%nat /\ 0 <= e_randbits ex_env < 2 ^ 32.
Proof.
  split; [exact ex_names|]. split; [cbn; auto 12|]. split; [reflexivity|]. split; [exact (proj1 ex_pairs_ok)|].
  split. { eexists _, _. split; [|split]; [repeat constructor; vm_compute; reflexivity| |]; [repeat constructor; vm_compute; reflexivity|vm_compute; reflexivity]. }
  split; [apply utf8_encode_iff; vm_compute; reflexivity|]. split; [reflexivity|]. vm_compute. split; [discriminate|reflexivity].
Qed.

Print Assumptions C83_algorithms_sound.
Print Assumptions C83_aes_tables.
Print Assumptions C83_sha512_constants.
Print Assumptions C83_sha512_padding.
Print Assumptions C83_bcrypt_hash.
Print Assumptions C83_bcrypt_pbkdf.
Print Assumptions C83_points.
Print Assumptions C83_compressed_points.
Print Assumptions C83_decrypt_inverts_encrypt.
Print Assumptions C83_protected_keys_survive.
Print Assumptions C83_changing_the_passphrase_works.
