(** Properties of ciphers: C36, C37. *)
From Verif Require Import PyBase IntBytes Utf8 StructFmt Stream Classes Crypto SpecWire SpecCrypto.
From Verif Require Import ProofBase ProofInt ProofUtf8 ProofWire ProofCrypto.
Open Scope Z_scope.

(** Primitives that satisfy [sound_prims], for the examples (not secure). *)
Definition toy_hash (b : bytes) : Z := fold_left (fun a x => (3 * a + Zb x) mod 65536) b 1.
Definition toy_tag (a b c : bytes) : bytes := be_bytes 16 (toy_hash a + 3 * toy_hash b + 5 * toy_hash c).
Definition toy_prims : prims := mkprims
  (fun pw s n r => map (fun i => bZ (Z.of_nat i * r + toy_hash pw + toy_hash s)) (seq 0 (Z.to_nat n)))
  (fun k b => rev (map (fun x => bZ (Zb x + 1)) b)) (fun k b => map (fun x => bZ (Zb x - 1)) (rev b))
  (fun k b => rev (map (fun x => bZ (Zb x + 2)) b)) (fun k b => map (fun x => bZ (Zb x - 2)) (rev b))
  (fun k n i => bZ (Zb (hd x00 k) + Z.of_nat i)) (fun k m => toy_tag k m [])
  (fun k iv i => bZ (Zb (hd x00 k) + Zb (hd x00 iv) + Z.of_nat i)) toy_tag
  (fun c q => (length q =? 65)%nat).
Lemma toy_shift d b : map (fun x => bZ (Zb x - d)) (map (fun x => bZ (Zb x + d)) b) = b.
Proof.
  rewrite map_map. rewrite <- (map_id b) at 2. apply map_ext. intros x.
  apply Zb_inj. rewrite !Zb_bZ. rewrite Zminus_mod_idemp_l. rewrite Z.add_simpl_r. apply Z.mod_small, Zb_range.
Qed.
Lemma toy_shift' d b : map (fun x => bZ (Zb x + d)) (map (fun x => bZ (Zb x - d)) b) = b.
Proof.
  rewrite map_map. rewrite <- (map_id b) at 2. apply map_ext. intros x.
  apply Zb_inj. rewrite !Zb_bZ. rewrite Zplus_mod_idemp_l. rewrite Z.sub_add. apply Z.mod_small, Zb_range.
Qed.
Lemma toy_sound : sound_prims toy_prims.
Proof.
  constructor.
  - intros k b _ L. cbn [p_aes_enc p_aes_dec toy_prims]. rewrite rev_involutive, toy_shift, toy_shift', rev_involutive.
    rewrite rev_length, !map_length, rev_length. auto.
  - intros k b _ L. cbn [p_tdes_enc p_tdes_dec toy_prims]. rewrite rev_involutive, toy_shift, toy_shift', rev_involutive.
    rewrite rev_length, !map_length, rev_length. auto.
  - intros. apply be_bytes_length.
  - intros. apply be_bytes_length.
  - intros. cbn [p_bcrypt toy_prims]. rewrite map_length, seq_length. reflexivity.
Qed.
Definition toy_opts : dict pyval := [(str "salt", VBytes (map bZ [1; 2; 3])); (str "rounds", VInt 16)].
Definition toy_text : bytes := map bZ [1; 2; 3; 4; 5; 6; 7; 8; 9; 10; 11; 12; 13; 14; 15; 16].

(** ** C37 *)
(** The supported ciphers are those of the table. *)
Theorem C37_supported_ciphers name :
  (exists c, get_cipher (VStr name) = Ok c) <-> In name (map fst cipher_table).
Proof.
  split.
  - intros (c & H). apply get_cipher_table in H as (n & E & H). injection E as ->.
    apply in_map_iff. eexists. split; [|exact H]. reflexivity.
  - intros H. apply in_map_iff in H as ((n & (((m & kl) & il) & bs)) & <- & H).
    destruct (cipher_table_spec _ _ _ _ _ H) as (c & E & _). exists c. exact E.
Qed.
(** Encryption with bcrypt: the derived material is the key followed by the IV, of exactly
    the lengths of the table, and the result is the specified encryption. *)
Theorem C37_key_and_iv p name m kl il bs c d pass b x :
  sound_prims p -> In (name, (m, kl, il, bs)) cipher_table -> get_cipher (VStr name) = Ok c -> m <> Plain ->
  cipher_encrypt p c KdfBcrypt d pass b = Ok x <->
  exists key iv, length key = kl /\ length iv = il /\
    derives p d pass (kl + il) (key ++ iv) /\ encrypts p m key iv b x.
Proof.
  intros S H Hc Nm. destruct (cipher_table_spec _ _ _ _ _ H) as (c' & Hc' & -> & -> & -> & -> & _).
  assert (c' = c) as -> by congruence. apply encrypt_bcrypt; [exact S|]. intros ->. apply Nm. reflexivity.
Qed.
(** Every cipher decrypts what it encrypts, and nothing else, with either KDF. *)
Theorem C37_decrypt_inverts_encrypt p c k d pass b x :
  sound_prims p -> cipher_decrypt p c k d pass x = Ok b <-> cipher_encrypt p c k d pass b = Ok x.
Proof. intros S. apply cipher_decrypt_encrypt. exact S. Qed.
(** Whenever bcrypt accepts the options and passphrase, whole blocks can be encrypted; the
    result is as long as the plaintext, plus 16 bytes of tag for authenticated ciphers. *)
Theorem C37_encrypt_succeeds p name m kl il bs c d pass b r :
  sound_prims p -> In (name, (m, kl, il, bs)) cipher_table -> get_cipher (VStr name) = Ok c ->
  (m <> Plain -> derives p d pass (kl + il) r) -> (length b mod bs = 0)%nat ->
  exists x, cipher_encrypt p c KdfBcrypt d pass b = Ok x /\
    length x = (length b + if authenticated m then 16 else 0)%nat.
Proof.
  intros S H Hc Hr Hb. destruct (cipher_table_spec _ _ _ _ _ H) as (c' & Hc' & -> & -> & -> & -> & _).
  assert (c' = c) as -> by congruence.
  assert (exists x, cipher_encrypt p c KdfBcrypt d pass b = Ok x) as (x & Ex).
  { destruct (match c with NoneCipher => true | _ => false end) eqn:En.
    { destruct c; try discriminate. eexists; reflexivity. }
    assert (0 < key_length c + iv_length c <= 512)%nat as Hn by (destruct c; cbn; try lia; discriminate).
    specialize (Hr ltac:(destruct c; discriminate)). pose proof (derives_length _ _ _ _ _ S (proj1 Hn) Hr) as Lr.
    apply derive_bcrypt in Hr; [|exact Hn].
    assert (length (slice_to (key_length c) r) = key_length c) as Lk by (unfold slice_to; rewrite firstn_length; lia).
    assert (iv_length c <> 0%nat -> length (slice_last (iv_length c) r) = iv_length c) as Li.
    { intros Z. apply (slice_split (key_length c)); [exact Lr|lia]. }
    assert (forall k, length k = 24%nat -> exists k', tdes_key k = Some k') as Td
      by (intros k L; unfold tdes_key; rewrite L; eexists; reflexivity).
    assert (In (length (slice_to (key_length c) r)) [16; 24; 32]%nat -> aes_key_ok (slice_to (key_length c) r) = true) as Ak
      by apply aes_key_ok_iff.
    unfold cipher_encrypt. destruct c; try discriminate; rewrite Hr; cbn [rbind encrypt_with_key_iv];
      cbn [key_length iv_length block_size] in *;
      try (rewrite Ak by (rewrite Lk; simpl; tauto));
      try (unfold ctr_crypt, gcm_encrypt; rewrite Ak by (rewrite Lk; simpl; tauto));
      try (unfold cbc_crypt; rewrite Li by discriminate; rewrite Hb; eexists; reflexivity);
      try (rewrite Li by discriminate; eexists; reflexivity);
      try (unfold gcm_nonce_ok; rewrite Li by discriminate; eexists; reflexivity).
    - destruct (Td _ Lk) as (k' & ->). unfold cbc_crypt. rewrite Li by discriminate. rewrite Hb. eexists; reflexivity.
    - unfold chacha_encrypt. change chacha_key_length with 32%nat. unfold slice_to at 1. rewrite firstn_length.
      rewrite Lk. cbn [Nat.min Nat.eqb negb]. eexists; reflexivity. }
  exists x. split; [exact Ex|].
  destruct (match c with NoneCipher => true | _ => false end) eqn:En.
  - destruct c; try discriminate. cbn in Ex. injection Ex as <-. cbn. lia.
  - apply encrypt_bcrypt in Ex as (key & iv & Lk & Li & _ & He); [|exact S|intros ->; discriminate].
    eapply encrypts_length; [exact S| | |exact He]; intros Hm; split; try (rewrite Li; destruct c; try discriminate; reflexivity);
      rewrite Lk; destruct c; try discriminate; simpl; tauto.
Qed.
(** Without a KDF only the cipher none works. *)
Theorem C37_no_kdf p c d pass b :
  (c = NoneCipher -> cipher_encrypt p c KdfNone d pass b = Ok b /\ cipher_decrypt p c KdfNone d pass b = Ok b) /\
  (c <> NoneCipher -> cipher_encrypt p c KdfNone d pass b = Err ValueError /\ cipher_decrypt p c KdfNone d pass b = Err ValueError).
Proof. split; [intros ->; split; reflexivity|]. intros N. destruct c; try congruence; split; reflexivity. Qed.
Example C37_example :
  sound_prims toy_prims /\ derives toy_prims toy_opts (str "pw") 32 (p_bcrypt toy_prims (bstr "pw") (map bZ [1; 2; 3]) 32 16) /\
  (exists x, cipher_encrypt toy_prims Aes128Cbc KdfBcrypt toy_opts (str "pw") toy_text = Ok x /\ length x = 16%nat /\ x <> toy_text /\
     cipher_decrypt toy_prims Aes128Cbc KdfBcrypt toy_opts (str "pw") x = Ok toy_text).
Proof.
  split; [exact toy_sound|]. split.
  - exists (bstr "pw"), (map bZ [1; 2; 3]), 16. split; [apply utf8_encode_iff; vm_compute; reflexivity|].
    repeat split; try discriminate; vm_compute; reflexivity.
  - eexists. split; [vm_compute; reflexivity|]. split; [reflexivity|]. split; [discriminate|vm_compute; reflexivity].
Qed.

(** ** C36 *)
(** An authenticated cipher decrypts [x] to [b] exactly if [x] is the ciphertext of [b]
    followed by its tag, under the derived key. *)
Theorem C36_only_genuine_ciphertexts p name m kl il bs c d pass b x :
  sound_prims p -> In (name, (m, kl, il, bs)) cipher_table -> get_cipher (VStr name) = Ok c -> authenticated m = true ->
  cipher_decrypt p c KdfBcrypt d pass x = Ok b <->
  exists key iv, length key = kl /\ length iv = il /\
    derives p d pass (kl + il) (key ++ iv) /\ encrypts p m key iv b x.
Proof.
  intros S H Hc Ha. rewrite (C37_decrypt_inverts_encrypt p c KdfBcrypt d pass b x S).
  eapply C37_key_and_iv; try eassumption. intros ->. discriminate.
Qed.
(** Anything else raises; in particular no two inputs have the same plaintext, so any change
    to a ciphertext or its tag is either rejected or changes the plaintext. *)
Theorem C36_anything_else_raises p c k d pass x :
  sound_prims p -> (forall b, cipher_encrypt p c k d pass b <> Ok x) ->
  exists e, cipher_decrypt p c k d pass x = Err e.
Proof.
  intros S N. destruct (cipher_decrypt p c k d pass x) as [b|e] eqn:E; [|eexists; reflexivity].
  exfalso. apply (N b). apply C37_decrypt_inverts_encrypt; assumption.
Qed.
Theorem C36_no_two_ciphertexts p c k d pass x x' b :
  sound_prims p -> cipher_decrypt p c k d pass x = Ok b -> cipher_decrypt p c k d pass x' = Ok b -> x = x'.
Proof. intros S H H'. apply C37_decrypt_inverts_encrypt in H, H'; [|assumption..]. congruence. Qed.
(** Wrong tags: with the key derived, the exception is InvalidTag or InvalidSignature. *)
Theorem C36_wrong_tag p name m kl il bs c d pass key iv body tag :
  sound_prims p -> In (name, (m, kl, il, bs)) cipher_table -> get_cipher (VStr name) = Ok c -> authenticated m = true ->
  length key = kl -> length iv = il -> derives p d pass (kl + il) (key ++ iv) -> length tag = 16%nat ->
  (forall b x, encrypts p m key iv b x -> x <> body ++ tag) ->
  cipher_decrypt p c KdfBcrypt d pass (body ++ tag) = Err (match m with Aes_gcm => InvalidTag | _ => InvalidSignature end).
Proof.
  intros S H Hc Ha Lk Li Hd Lt N. destruct (cipher_table_spec _ _ _ _ _ H) as (c' & Hc' & Em & Ek & Ei & Eb & Ea).
  assert (c' = c) as -> by congruence.
  assert (0 < kl + il <= 512)%nat as Hn by (rewrite Ek, Ei; rewrite Em in Ha; clear - Ha; destruct c; try discriminate; cbn; lia).
  apply derive_bcrypt in Hd; [|exact Hn].
  assert (slice_to (length key) (key ++ iv) = key) as Sk by (unfold slice_to; apply firstn_app_exact; congruence).
  assert (iv <> [] -> slice_last (length iv) (key ++ iv) = iv) as Si.
  { intros Ni. unfold slice_last. destruct (length iv) eqn:E; [destruct iv; [congruence|discriminate]|]. rewrite <- E, app_length.
    replace (length key + length iv - length iv)%nat with (length key) by lia. apply skipn_app_exact. reflexivity. }
  rewrite <- Lk, <- Li in *. clear Lk Li.
  assert (mode_of c = Aes_gcm -> gcm_decrypt p (body ++ tag) key iv = Err InvalidTag) as Hg.
  { intros Hm. unfold gcm_decrypt. cbv zeta.
    assert (In (length key) [16; 24; 32]%nat) as Hk by (rewrite Ek; destruct c; try discriminate; simpl; tauto).
    rewrite (proj2 (aes_key_ok_iff key) Hk). cbn [negb].
    assert (length iv = 12%nat) as Li by (rewrite Ei; destruct c; try discriminate; reflexivity).
    unfold gcm_nonce_ok. rewrite Li. cbn [andb Nat.leb negb]. destruct (Nat.ltb _ _); [reflexivity|].
    destruct (slice_tag body tag Lt) as (-> & ->).
    destruct (bytes_eqb_reflect (p_gcm_tag p key iv body) tag) as [Et|]; [|reflexivity]. exfalso.
    apply (N (xor_stream (p_gcm_stream p key iv) 0 body) (body ++ tag)); [|reflexivity]. rewrite Em, Hm. cbn [encrypts].
    exists body. rewrite Et. split; [|reflexivity]. apply (stream_xor_iff _ (p_gcm_stream p key iv) 0); [intros; reflexivity|].
    rewrite xor_stream_twice. reflexivity. }
  assert (length key = 64%nat -> mode_of c = Chacha20_poly1305 -> chacha_decrypt p (body ++ tag) key = Err InvalidSignature) as Hch.
  { intros L64 Hm. unfold chacha_decrypt. cbv zeta. change chacha_key_length with 32%nat. change (tag_length ChaChaPoly) with 16%nat.
    unfold slice_to at 1. rewrite firstn_length, L64. cbn [Nat.min Nat.eqb negb]. rewrite poly_key.
    destruct (slice_tag body tag Lt) as (-> & ->). unfold slice_to. change chacha_nonce with (repeat x00 16).
    set (ks := p_chacha p (firstn 32 key) (repeat x00 16)).
    match goal with |- context [bytes_eqb ?u ?v] => destruct (bytes_eqb_reflect u v) as [Et|] end; [|reflexivity]. exfalso.
    apply (N (xor_stream ks 64 body) (body ++ tag)); [|reflexivity]. rewrite Em, Hm. cbn [encrypts].
    exists body. fold ks. rewrite Et. split; [|reflexivity]. apply (stream_xor_iff _ ks 64); [intros; reflexivity|].
    rewrite xor_stream_twice. reflexivity. }
  rewrite Em in *. unfold cipher_decrypt.
  destruct c; try discriminate; rewrite <- Ek, <- Ei, Hd; cbn [rbind decrypt_with_key_iv mode_of]; rewrite Sk.
  - rewrite Si by (destruct iv; [discriminate|congruence]). apply Hg; reflexivity.
  - rewrite Si by (destruct iv; [discriminate|congruence]). apply Hg; reflexivity.
  - apply Hch; [exact Ek|reflexivity].
Qed.
Example C36_example :
  (exists x, cipher_encrypt toy_prims ChaChaPoly KdfBcrypt toy_opts (str "pw") toy_text = Ok x /\ length x = 32%nat /\
     cipher_decrypt toy_prims ChaChaPoly KdfBcrypt toy_opts (str "pw") x = Ok toy_text /\
     cipher_decrypt toy_prims ChaChaPoly KdfBcrypt toy_opts (str "pw") (x00 :: tl x) = Err InvalidSignature) /\
  (exists x, cipher_encrypt toy_prims Aes256Gcm KdfBcrypt toy_opts (str "pw") toy_text = Ok x /\ length x = 32%nat /\
     cipher_decrypt toy_prims Aes256Gcm KdfBcrypt toy_opts (str "pw") x = Ok toy_text /\
     cipher_decrypt toy_prims Aes256Gcm KdfBcrypt toy_opts (str "pw") (removelast x) = Err InvalidTag).
Proof.
  split; (eexists; split; [vm_compute; reflexivity|]; split; [reflexivity|]; split; [vm_compute; reflexivity|vm_compute; reflexivity]).
Qed.

Print Assumptions C37_supported_ciphers.
Print Assumptions C37_key_and_iv.
Print Assumptions C37_decrypt_inverts_encrypt.
Print Assumptions C37_encrypt_succeeds.
Print Assumptions C37_no_kdf.
Print Assumptions C36_only_genuine_ciphertexts.
Print Assumptions C36_anything_else_raises.
Print Assumptions C36_no_two_ciphertexts.
Print Assumptions C36_wrong_tag.
