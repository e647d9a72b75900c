(** Lemmas about ciphers. *)
From Verif Require Import PyBase IntBytes Utf8 StructFmt Stream Classes Crypto SpecWire SpecCrypto.
From Verif Require Import ProofBase ProofInt ProofUtf8 ProofWire.
Open Scope Z_scope.

Lemma Some_inj {A} (a b : A) : Some a = Some b -> a = b. Proof. congruence. Qed.
Lemma Ok_inj {A} (a b : A) : Ok a = Ok b -> a = b. Proof. congruence. Qed.
(** ** Exclusive or *)
Lemma lxor_byte a b : 0 <= a < 256 -> 0 <= b < 256 -> 0 <= Z.lxor a b < 256.
Proof.
  intros Ha Hb. split; [apply Z.lxor_nonneg; lia|].
  destruct (Z.eq_dec (Z.lxor a b) 0) as [->|N]; [lia|].
  assert (0 <= Z.lxor a b) by (apply Z.lxor_nonneg; lia).
  apply Z.log2_lt_pow2 with (b := 8); [lia|].
  pose proof (Z.log2_lxor a b ltac:(lia) ltac:(lia)) as L.
  assert (forall x, 0 <= x < 256 -> Z.log2 x < 8) as B.
  { intros x Hx. destruct (Z.eq_dec x 0) as [->|]; [cbn; lia|]. apply Z.log2_lt_pow2; lia. }
  pose proof (B a Ha). pose proof (B b Hb). lia.
Qed.
Lemma xored_byte_xor a b v : xored a b v <-> v = byte_xor a b.
Proof.
  unfold xored, byte_xor. assert (Zb (bZ (Z.lxor (Zb a) (Zb b))) = Z.lxor (Zb a) (Zb b)) as E.
  { rewrite Zb_bZ. apply Z.mod_small, lxor_byte; apply Zb_range. }
  split; [|intros ->; exact E]. intros H. apply Zb_inj. congruence.
Qed.
Lemma byte_xor_twice a b : byte_xor (byte_xor a b) b = a.
Proof.
  apply Zb_inj. pose proof (proj2 (xored_byte_xor (byte_xor a b) b _) eq_refl) as ->.
  pose proof (proj2 (xored_byte_xor a b _) eq_refl) as ->.
  rewrite Z.lxor_assoc, Z.lxor_nilpotent, Z.lxor_0_r. reflexivity.
Qed.

(** ** Streams *)
Lemma xor_stream_length ks i b : length (xor_stream ks i b) = length b.
Proof. revert i; induction b; intros; cbn [xor_stream length]; auto. Qed.
Lemma xor_stream_twice ks i b : xor_stream ks i (xor_stream ks i b) = b.
Proof. revert i; induction b as [|x b IH]; intros i; cbn [xor_stream]; [reflexivity|]. rewrite byte_xor_twice, IH. reflexivity. Qed.
Lemma xor_stream_nth ks i b j : nth_error (xor_stream ks i b) j = option_map (fun x => byte_xor x (ks (i + j)%nat)) (nth_error b j).
Proof.
  revert i j; induction b as [|x b IH]; intros i j; cbn [xor_stream].
  - destruct j; reflexivity.
  - destruct j as [|j]; cbn [nth_error option_map]; [rewrite Nat.add_0_r; reflexivity|].
    rewrite IH. rewrite <- Nat.add_succ_comm. reflexivity.
Qed.
Lemma list_eq_nth {A} (a b : list A) : length a = length b ->
  (forall i u v, nth_error a i = Some u -> nth_error b i = Some v -> u = v) -> a = b.
Proof.
  revert b; induction a as [|x a IH]; intros [|y b] L H; try discriminate; [reflexivity|].
  f_equal; [apply (H 0%nat); reflexivity|]. apply IH; [cbn in L; congruence|]. intros i. apply (H (S i)).
Qed.
Lemma stream_xor_iff R ks off b x :
  (forall i, (i < length b)%nat -> forall y, R i y <-> y = ks (off + i)%nat) ->
  stream_xor R b x <-> x = xor_stream ks off b.
Proof.
  intros HR. split.
  - intros (L & H). apply list_eq_nth; [rewrite xor_stream_length; exact L|].
    intros i u v Hu Hv. rewrite xor_stream_nth in Hv. destruct (nth_error b i) as [w|] eqn:Hw; [|discriminate].
    cbn [option_map] in Hv. injection Hv as <-. destruct (H _ _ _ Hw Hu) as (y & Hy & X).
    apply HR in Hy; [|apply nth_error_Some; congruence]. apply xored_byte_xor in X. congruence.
  - intros ->. split; [apply xor_stream_length|]. intros i u v Hu Hv. rewrite xor_stream_nth, Hu in Hv.
    cbn [option_map] in Hv. injection Hv as <-. exists (ks (off + i)%nat). split; [|apply xored_byte_xor; reflexivity].
    apply HR; [apply nth_error_Some; congruence|reflexivity].
Qed.

(** ** CBC *)
Lemma xor_bytes_length a b : length a = length b -> length (xor_bytes a b) = length a.
Proof. revert b; induction a; intros [|y b] H; cbn [xor_bytes length] in *; try discriminate; auto. Qed.
Lemma xor_bytes_twice a b : length a = length b -> xor_bytes (xor_bytes a b) b = a.
Proof.
  revert b; induction a as [|x a IH]; intros [|y b] H; cbn [xor_bytes length] in *; try discriminate; [reflexivity|].
  rewrite byte_xor_twice, IH by congruence. reflexivity.
Qed.
Lemma xor_bytes_nth a b i x y : nth_error a i = Some x -> nth_error b i = Some y -> nth_error (xor_bytes a b) i = Some (byte_xor x y).
Proof.
  revert b i; induction a as [|u a IH]; intros [|v b] [|i]; cbn [nth_error xor_bytes]; try discriminate; [congruence|apply IH].
Qed.
Lemma stream_xor_bytes a b u : length a = length b ->
  stream_xor (fun i y => nth_error b i = Some y) a u <-> u = xor_bytes a b.
Proof.
  intros L. split.
  - intros (Lu & H). apply list_eq_nth; [rewrite xor_bytes_length; assumption|]. intros i x y Hx Hy.
    destruct (nth_error a i) as [w|] eqn:Hw; [|exfalso; apply nth_error_None in Hw; assert (i < length u)%nat by (apply nth_error_Some; congruence); lia].
    destruct (H _ _ _ Hw Hx) as (z & Hz & X). apply xored_byte_xor in X.
    rewrite (xor_bytes_nth _ _ _ _ _ Hw Hz) in Hy. congruence.
  - intros ->. split; [apply xor_bytes_length; assumption|]. intros i x y Hx Hy.
    destruct (nth_error b i) as [w|] eqn:Hw; [|exfalso; apply nth_error_None in Hw; assert (i < length a)%nat by (apply nth_error_Some; congruence); lia].
    rewrite (xor_bytes_nth _ _ _ _ _ Hx Hw) in Hy. injection Hy as <-. exists w. split; [reflexivity|apply xored_byte_xor; reflexivity].
Qed.

Lemma chunks_fuel n f b : (0 < n)%nat -> (length b <= f)%nat -> chunks f n b = chunks (length b) n b.
Proof.
  intros Hn. revert b. induction f as [f IH] using (well_founded_induction Nat.lt_wf_0). intros b L.
  destruct f as [|f]; [destruct b; [reflexivity|cbn in L; lia]|].
  destruct b as [|x b]; [reflexivity|]. cbn [chunks length]. f_equal.
  assert (length (skipn n (x :: b)) <= length b)%nat as Ls by (rewrite skipn_length; cbn [length]; lia).
  cbn [length] in L. rewrite (IH f) by lia. rewrite (IH (length b)) by lia. reflexivity.
Qed.
Lemma chunks_block n u b : (0 < n)%nat -> length u = n -> chunks (length (u ++ b)) n (u ++ b) = u :: chunks (length b) n b.
Proof.
  intros Hn L. rewrite app_length. destruct u as [|x u]; [cbn in L; lia|].
  cbn [length Nat.add chunks app]. change (x :: u ++ b) with ((x :: u) ++ b).
  rewrite firstn_app_exact, skipn_app_exact by (symmetry; exact L).
  f_equal. apply chunks_fuel; lia.
Qed.
(** Lists of whole blocks. *)
Inductive blocks (n : nat) : bytes -> Prop :=
| blocks_nil : blocks n []
| blocks_cons u b : length u = n -> blocks n b -> blocks n (u ++ b).
Lemma blocks_iff n b : (0 < n)%nat -> blocks n b <-> (length b mod n = 0)%nat.
Proof.
  intros Hn. split.
  - induction 1 as [|u b Lu B IH]; [apply Nat.mod_0_l; lia|].
    rewrite app_length, Lu, Nat.add_comm. rewrite <- (Nat.mul_1_l n) at 1. rewrite Nat.mod_add by lia. exact IH.
  - remember (length b) as m eqn:Em. revert b Em. induction m as [m IH] using (well_founded_induction Nat.lt_wf_0).
    intros b Em M. destruct b as [|x b]; [constructor|].
    assert (n <= m)%nat as Hm.
    { destruct (Nat.le_gt_cases n m) as [|Lt]; [assumption|]. rewrite Nat.mod_small in M by exact Lt. cbn in Em. lia. }
    rewrite <- (firstn_skipn n (x :: b)). constructor.
    + rewrite firstn_length. lia.
    + apply (IH (m - n)%nat); [lia|rewrite skipn_length; lia|].
      replace m with (m - n + 1 * n)%nat in M by lia. rewrite Nat.mod_add in M by lia. exact M.
Qed.
Lemma blocks_app_length n b : blocks n b -> (n <> 0)%nat -> exists k, length b = (k * n)%nat.
Proof. induction 1 as [|u b L B IH]; intros Hn; [exists 0%nat; reflexivity|]. destruct (IH Hn) as (k & E). exists (S k). rewrite app_length. lia. Qed.

Section Cbc.
Variables (n : nat) (E D : bytes -> bytes).
Hypothesis Hn : (0 < n)%nat.
Hypothesis HDE : forall b, length b = n -> D (E b) = b.
Hypothesis HED : forall b, length b = n -> E (D b) = b.
Hypothesis HE : forall b, length b = n -> length (E b) = n.
Hypothesis HD : forall b, length b = n -> length (D b) = n.

Lemma cbc_enc_blocks iv b : blocks n b -> length iv = n ->
  blocks n (cbc_enc E iv (chunks (length b) n b)) /\
  length (cbc_enc E iv (chunks (length b) n b)) = length b /\
  cbc_dec D iv (chunks (length b) n (cbc_enc E iv (chunks (length b) n b))) = b.
Proof.
  intros B; revert iv; induction B as [|u b L B IH]; intros iv Hiv; [repeat split; constructor|].
  rewrite chunks_block by assumption. cbn [cbc_enc]. set (c := E (xor_bytes u iv)).
  assert (length (xor_bytes u iv) = n) as Lx by (rewrite xor_bytes_length; congruence).
  assert (length c = n) as Lc by (apply HE; exact Lx).
  destruct (IH c Lc) as (B' & L' & R). split; [constructor; assumption|].
  split; [rewrite !app_length; lia|].
  match goal with |- cbc_dec D iv (chunks _ n ?x) = _ => replace (length (u ++ b)) with (length x) by (rewrite !app_length; lia) end.
  rewrite chunks_block by assumption.
  cbn [cbc_dec]. unfold c at 1. rewrite HDE by exact Lx. rewrite xor_bytes_twice by congruence.
  rewrite L', R. reflexivity.
Qed.
Lemma cbc_dec_blocks iv b : blocks n b -> length iv = n ->
  blocks n (cbc_dec D iv (chunks (length b) n b)) /\
  length (cbc_dec D iv (chunks (length b) n b)) = length b /\
  cbc_enc E iv (chunks (length b) n (cbc_dec D iv (chunks (length b) n b))) = b.
Proof.
  intros B; revert iv; induction B as [|u b L B IH]; intros iv Hiv; [repeat split; constructor|].
  rewrite chunks_block by assumption. cbn [cbc_dec].
  assert (length (xor_bytes (D u) iv) = n) as Lx by (rewrite xor_bytes_length by (rewrite HD; congruence); apply HD; exact L).
  destruct (IH u L) as (B' & L' & R). split; [constructor; assumption|].
  split; [rewrite !app_length; lia|].
  match goal with |- cbc_enc E iv (chunks _ n ?x) = _ => replace (length (u ++ b)) with (length x) by (rewrite !app_length; lia) end.
  rewrite chunks_block by assumption.
  cbn [cbc_enc]. rewrite xor_bytes_twice by (rewrite HD by exact L; congruence). rewrite HED by exact L.
  rewrite L', R. reflexivity.
Qed.
Lemma cbc_iff iv b x : length iv = n ->
  cbc n E iv b x <-> blocks n b /\ x = cbc_enc E iv (chunks (length b) n b).
Proof.
  intros Hiv. split.
  - intros C. revert Hiv. induction C as [prev|prev u v p q L X C IH]; intros Hiv; [split; [constructor|reflexivity]|].
    apply stream_xor_bytes in X; [|congruence]. subst v.
    assert (length (E (xor_bytes u prev)) = n) as Lc by (apply HE; rewrite xor_bytes_length; congruence).
    destruct (IH Lc) as (B & ->). split; [constructor; assumption|].
    rewrite chunks_block by assumption. reflexivity.
  - intros (B & ->). revert iv Hiv. induction B as [|u b L B IH]; intros iv Hiv; [constructor|].
    rewrite chunks_block by assumption. cbn [cbc_enc]. apply cbc_block; [exact L| |].
    + apply stream_xor_bytes; [congruence|reflexivity].
    + apply IH. apply HE. rewrite xor_bytes_length; congruence.
Qed.
End Cbc.

(** ** Slices *)
Lemma slice_split (n m : nat) r : length r = (n + m)%nat -> (0 < m)%nat ->
  r = slice_to n r ++ slice_last m r /\ length (slice_to n r) = n /\ length (slice_last m r) = m.
Proof.
  intros L Hm. unfold slice_to, slice_last. destruct m as [|m]; [lia|].
  replace (length r - S m)%nat with n by lia. rewrite firstn_skipn, firstn_length, skipn_length. repeat split; lia.
Qed.
Lemma slice_tag c tag : length tag = 16%nat ->
  slice_butlast 16 (c ++ tag) = c /\ slice_last 16 (c ++ tag) = tag.
Proof.
  intros L. unfold slice_butlast, slice_last. rewrite app_length, L.
  replace (length c + 16 - 16)%nat with (length c) by lia.
  rewrite firstn_app_exact, skipn_app_exact by reflexivity. auto.
Qed.
Lemma slice_join b : (16 <= length b)%nat -> b = slice_butlast 16 b ++ slice_last 16 b.
Proof. intros L. unfold slice_butlast, slice_last. symmetry. apply firstn_skipn. Qed.
Lemma slice_short b : (length b < 16)%nat -> slice_last 16 b = b.
Proof. intros L. unfold slice_last. replace (length b - 16)%nat with 0%nat by lia. reflexivity. Qed.

(** ** The cipher table *)
Definition mode_of (c : cipher) : mode :=
  match c with
  | NoneCipher => Plain | TDesCbc => Tdes_cbc
  | Aes128Ctr | Aes192Ctr | Aes256Ctr => Aes_ctr
  | Aes128Cbc | Aes192Cbc | Aes256Cbc => Aes_cbc
  | Aes128Gcm | Aes256Gcm => Aes_gcm
  | ChaChaPoly => Chacha20_poly1305
  end.
Lemma cipher_table_spec name m kl il bs :
  In (name, (m, kl, il, bs)) cipher_table ->
  exists c, get_cipher (VStr name) = Ok c /\ m = mode_of c /\ kl = key_length c /\ il = iv_length c /\
    bs = block_size c /\ authenticated m = is_integrity c.
Proof.
  intros H. unfold cipher_table in H. cbn [In] in H.
  repeat (destruct H as [H|H]; [injection H as <- <- <- <- <-; eexists; split; [vm_compute; reflexivity|repeat split]|]).
  destruct H.
Qed.
Lemma get_cipher_table v c : get_cipher v = Ok c ->
  exists name, v = VStr name /\ In (name, (mode_of c, key_length c, iv_length c, block_size c)) cipher_table.
Proof.
  destruct v; try discriminate. cbn [get_cipher]. unfold ditem, cipher_mapping. cbn [dget]. intros H. exists s. split; [reflexivity|].
  repeat match type of H with
  | match (if str_eqb ?a ?b then _ else _) with _ => _ end = _ =>
      destruct (str_eqb_reflect a b) as [->|_]; [injection H as <-; cbn [cipher_table mode_of key_length iv_length block_size In]; tauto|]
  end. discriminate.
Qed.
Lemma get_cipher_errors v e : get_cipher v = Err e -> (exists o, e = KeyError o).
Proof. destruct v; cbn [get_cipher]; intros H; try (injection H as <-; eauto; fail). unfold ditem in H. destruct (dget s cipher_mapping); [discriminate|]. injection H as <-. eauto. Qed.

(** ** Key derivation *)
Lemma derive_bcrypt p d pass n r : (0 < n <= 512)%nat ->
  derive_key p KdfBcrypt d pass (Z.of_nat n) = Ok r <-> derives p d pass n r.
Proof.
  intros Hn. cbn [derive_key]. unfold derives. split.
  - intros H. apply rbind_ok in H as (pw & Epw & H). apply rbind_ok in H as (sv & Es & H).
    apply rbind_ok in H as (rv & Er & H). apply utf8_encode_iff in Epw.
    unfold ditem in *. destruct (dget (str "salt") d) as [sv'|] eqn:Gs; [|discriminate]. injection Es as ->.
    destruct (dget (str "rounds") d) as [rv'|] eqn:Gr; [|discriminate]. injection Er as ->.
    unfold bcrypt_kdf in H. destruct sv; try discriminate. destruct rv as [rounds| | | |]; try discriminate.
    destruct ((length pw =? 0)%nat || (length b =? 0)%nat) eqn:E1; [discriminate|].
    apply orb_false_iff in E1 as (E1 & E2). apply Nat.eqb_neq in E1, E2.
    destruct ((Z.of_nat n <=? 0) || (512 <? Z.of_nat n)); [discriminate|].
    destruct (Z.ltb_spec rounds 1); [discriminate|]. destruct (Z.leb_spec (2 ^ 32) rounds); [discriminate|].
    injection H as <-. exists pw, b, rounds. repeat split; auto; try lia; intros ->; cbn in *; lia.
  - intros (pw & salt & rounds & U & Npw & Gs & Ns & Gr & Hr & ->).
    apply utf8_encode_iff in U. rewrite U. cbn [rbind]. unfold ditem. rewrite Gs, Gr. cbn [rbind bcrypt_kdf].
    destruct pw as [|x pw]; [congruence|]. destruct salt as [|y salt]; [congruence|]. cbn [length Nat.eqb orb].
    destruct (Z.leb_spec (Z.of_nat n) 0); [lia|]. destruct (Z.ltb_spec 512 (Z.of_nat n)); [lia|]. cbn [orb].
    destruct (Z.ltb_spec rounds 1); [lia|]. destruct (Z.leb_spec (2 ^ 32) rounds); [lia|]. reflexivity.
Qed.
Lemma derives_length p d pass n r : sound_prims p -> (0 < n)%nat -> derives p d pass n r -> length r = n.
Proof. intros S Hn (pw & salt & rounds & _ & _ & _ & _ & _ & _ & ->). rewrite (sp_bcrypt p S) by lia. lia. Qed.

(** ** Encryption is the specified one *)
Section Prims.
Variable p : prims.
Hypothesis S : sound_prims p.

Lemma aes_key_ok_iff k : aes_key_ok k = true <-> In (length k) [16; 24; 32]%nat.
Proof.
  unfold aes_key_ok. rewrite !orb_true_iff, !Nat.eqb_eq. cbn [In]. intuition.
Qed.
Lemma ctr_bytes_iff key iv i y : In (length key) [16; 24; 32]%nat -> length iv = 16%nat ->
  ctr_bytes (p_aes_enc p key) iv i y <-> y = ctr_stream (p_aes_enc p key) iv i.
Proof.
  intros Hk Hiv. unfold ctr_bytes, ctr_stream.
  assert (forall counter, length counter = 16%nat ->
    unsigned counter = (unsigned iv + Z.of_nat (i / 16)) mod 2 ^ 128 <->
    counter = be_bytes 16 (be_value iv + Z.of_nat (i / 16))) as A.
  { intros counter Lc. rewrite !unsigned_be. split.
    - intros H. apply be_value_inj; [rewrite be_bytes_length; exact Lc|].
      rewrite be_value_be_bytes. exact H.
    - intros ->. rewrite be_value_be_bytes. reflexivity. }
  assert (length (p_aes_enc p key (be_bytes 16 (be_value iv + Z.of_nat (i / 16)))) = 16%nat) as L16
    by (apply (sp_aes p S); [exact Hk|apply be_bytes_length]).
  split.
  - intros (counter & Lc & Hc & Hy). apply (A _ Lc) in Hc as ->. symmetry. apply nth_error_nth. exact Hy.
  - intros ->. exists (be_bytes 16 (be_value iv + Z.of_nat (i / 16))). split; [apply be_bytes_length|].
    split; [apply A; [apply be_bytes_length|reflexivity]|]. apply nth_error_nth'. rewrite L16.
    apply Nat.mod_upper_bound. lia.
Qed.
Lemma poly_key ks : slice_to poly_key_length (xor_stream ks 0 (repeat x00 chacha_block)) = map ks (seq 0 32).
Proof.
  assert (forall n i, xor_stream ks i (repeat x00 n) = map ks (seq i n)) as A.
  { induction n as [|n IH]; intros i; [reflexivity|]. cbn [repeat xor_stream seq map]. rewrite IH. f_equal.
    apply Zb_inj. pose proof (proj2 (xored_byte_xor x00 (ks i) _) eq_refl) as ->. reflexivity. }
  unfold slice_to, poly_key_length, chacha_block. rewrite A. cbn [seq map firstn]. reflexivity.
Qed.
Lemma encrypt_spec c key iv b x :
  length key = key_length c -> (iv_length c <> 0%nat -> length iv = iv_length c) ->
  encrypt_with_key_iv p c b key iv = Ok x <-> encrypts p (mode_of c) key iv b x.
Proof.
  intros Hk Hiv.
  assert (forall n, key_length c = n -> In n [16; 24; 32]%nat -> In (length key) [16; 24; 32]%nat) as HA by (intros n <- ?; congruence).
  assert (In (length key) [16; 24; 32]%nat -> length iv = 16%nat ->
    ctr_crypt p b key iv = Ok x <-> stream_xor (ctr_bytes (p_aes_enc p key) iv) b x) as Hctr.
  { intros H1 H2. unfold ctr_crypt. rewrite (proj2 (aes_key_ok_iff key) H1), H2. cbn [andb Nat.eqb].
    rewrite (stream_xor_iff _ (ctr_stream (p_aes_enc p key) iv) 0) by (intros; apply ctr_bytes_iff; assumption).
    split; congruence. }
  assert (In (length key) [16; 24; 32]%nat -> length iv = 16%nat ->
    (if aes_key_ok key then cbc_crypt true 16 (p_aes_enc p key) b iv else Err ValueError) = Ok x <->
    cbc 16 (p_aes_enc p key) iv b x) as Hcbc.
  { intros H1 H2. rewrite (proj2 (aes_key_ok_iff key) H1). unfold cbc_crypt. rewrite H2, Nat.eqb_refl. cbn [andb].
    rewrite (cbc_iff 16 (p_aes_enc p key)); [|lia|intros; apply (sp_aes p S); assumption|exact H2].
    rewrite blocks_iff by lia. destruct (Nat.eqb_spec (length b mod 16) 0) as [E|E]; split.
    - intros K; injection K as <-. auto.
    - intros (_ & ->). reflexivity.
    - discriminate.
    - intros (K & _). contradiction. }
  assert (In (length key) [16; 24; 32]%nat -> length iv = 12%nat ->
    gcm_encrypt p b key iv = Ok x <-> encrypts p Aes_gcm key iv b x) as Hgcm.
  { intros H1 H2. unfold gcm_encrypt. rewrite (proj2 (aes_key_ok_iff key) H1).
    unfold gcm_nonce_ok. rewrite H2. cbn [negb andb Nat.leb encrypts]. split.
    - intros K; injection K as <-. eexists. split; [|reflexivity].
      apply (stream_xor_iff _ (p_gcm_stream p key iv) 0); [|reflexivity]. intros; reflexivity.
    - intros (cc & X & ->). apply (stream_xor_iff _ (p_gcm_stream p key iv) 0) in X; [|intros; reflexivity]. subst cc. reflexivity. }
  destruct c; cbn [encrypt_with_key_iv mode_of] in *; cbn [iv_length key_length] in Hk, Hiv;
    try (rewrite ?Hctr, ?Hcbc, ?Hgcm by (try (rewrite Hk; simpl; tauto); apply Hiv; discriminate); reflexivity).
  - cbn [encrypts]. split; congruence.
  - cbn [encrypts]. unfold tdes_key. rewrite Hk. cbn [Nat.eqb]. unfold cbc_crypt. rewrite Hiv by discriminate. cbn [andb Nat.eqb].
    rewrite (cbc_iff 8 (p_tdes_enc p key)); [|lia|intros; apply (sp_tdes p S); assumption|apply Hiv; discriminate].
    rewrite blocks_iff by lia. destruct (Nat.eqb_spec (length b mod 8) 0) as [E|E]; split.
    + intros K; injection K as <-. auto.
    + intros (_ & ->). reflexivity.
    + discriminate.
    + intros (K & _). contradiction.
  - unfold chacha_encrypt. change chacha_key_length with 32%nat. unfold slice_to at 1. rewrite firstn_length, Hk. cbn [Nat.min Nat.eqb negb].
    cbn [encrypts]. unfold slice_to at 1 2 3. change chacha_nonce with (repeat x00 16).
    set (ks := p_chacha p (firstn 32 key) (repeat x00 16)). rewrite poly_key. split.
    + intros K; injection K as <-. eexists. split; [|reflexivity].
      apply (stream_xor_iff _ ks chacha_block); [|reflexivity]. intros; reflexivity.
    + intros (cc & X & ->). apply (stream_xor_iff _ ks chacha_block) in X; [|intros; reflexivity]. subst cc. reflexivity.
Qed.

(** Decryption is the inverse relation. *)
Lemma decrypt_encrypt c key iv b x :
  decrypt_with_key_iv p c x key iv = Ok b <-> encrypt_with_key_iv p c b key iv = Ok x.
Proof.
  assert (ctr_crypt p x key iv = Ok b <-> ctr_crypt p b key iv = Ok x) as Hctr.
  { unfold ctr_crypt. destruct (_ && _); [|split; discriminate].
    split; intros K; injection K as <-; rewrite xor_stream_twice; reflexivity. }
  assert (forall n E D, (0 < n)%nat ->
    (forall b, length b = n -> D (E b) = b) -> (forall b, length b = n -> E (D b) = b) ->
    (forall b, length b = n -> length (E b) = n) -> (forall b, length b = n -> length (D b) = n) ->
    cbc_crypt false n D x iv = Ok b <-> cbc_crypt true n E b iv = Ok x) as Hcbc.
  { intros n E D Hn HDE HED HE HD. unfold cbc_crypt.
    destruct (Nat.eqb_spec (length iv) n) as [Li|Ni]; cbn [andb]; [|split; discriminate]. split.
    - destruct (Nat.eqb_spec (length x mod n) 0) as [Ex|Ex]; [|discriminate].
      intros K; injection K as <-. apply blocks_iff in Ex; [|exact Hn].
      destruct (cbc_dec_blocks n E D Hn HDE HED HE HD iv x Ex Li) as (B & L & R).
      apply blocks_iff in B; [|exact Hn]. rewrite B. cbn [Nat.eqb]. rewrite L, R. reflexivity.
    - destruct (Nat.eqb_spec (length b mod n) 0) as [Ex|Ex]; [|discriminate].
      intros K; injection K as <-. apply blocks_iff in Ex; [|exact Hn].
      destruct (cbc_enc_blocks n E D Hn HDE HED HE HD iv b Ex Li) as (B & L & R).
      apply blocks_iff in B; [|exact Hn]. rewrite B. cbn [Nat.eqb]. rewrite L, R. reflexivity. }
  assert ((if aes_key_ok key then cbc_crypt false 16 (p_aes_dec p key) x iv else Err ValueError) = Ok b <->
          (if aes_key_ok key then cbc_crypt true 16 (p_aes_enc p key) b iv else Err ValueError) = Ok x) as Haes.
  { destruct (aes_key_ok key) eqn:Ek; [|split; discriminate]. apply aes_key_ok_iff in Ek.
    apply Hcbc; [lia| | | |]; intros u Lu; apply (sp_aes p S); assumption. }
  assert (gcm_decrypt p x key iv = Ok b <-> gcm_encrypt p b key iv = Ok x) as Hgcm.
  { unfold gcm_decrypt, gcm_encrypt. cbv zeta. destruct (negb (aes_key_ok key)); [split; discriminate|].
    destruct (negb (gcm_nonce_ok iv)); [split; discriminate|]. split.
    - destruct (Nat.ltb_spec (length x) 16) as [|Lx]; [discriminate|].
      match goal with |- context [bytes_eqb ?u ?v] => destruct (bytes_eqb_reflect u v) as [Et|] end; [|discriminate].
      intros K. apply Ok_inj in K as <-. rewrite xor_stream_twice, Et, <- (slice_join x Lx). reflexivity.
    - intros K; injection K as <-. set (cc := xor_stream (p_gcm_stream p key iv) 0 b).
      pose proof (sp_gcm_tag p S key iv cc) as Lt. destruct (slice_tag cc _ Lt) as (-> & ->).
      rewrite app_length, Lt. destruct (Nat.ltb_spec (length cc + 16) 16); [lia|].
      rewrite bytes_eqb_refl. unfold cc. rewrite xor_stream_twice. reflexivity. }
  assert (chacha_decrypt p x key = Ok b <-> chacha_encrypt p b key = Ok x) as Hcha.
  { unfold chacha_decrypt, chacha_encrypt. cbv zeta. destruct (negb _); [split; discriminate|].
    change (tag_length ChaChaPoly) with 16%nat. rewrite poly_key.
    set (ks := p_chacha p (slice_to chacha_key_length key) chacha_nonce). split.
    - match goal with |- context [bytes_eqb ?u ?v] => destruct (bytes_eqb_reflect u v) as [Et|] end; [|discriminate].
      intros K. apply Ok_inj in K as <-. rewrite xor_stream_twice, Et. f_equal. symmetry. apply slice_join.
      destruct (Nat.le_gt_cases 16 (length x)) as [|Lt]; [assumption|]. exfalso.
      rewrite (slice_short x Lt) in Et. apply (f_equal (@length _)) in Et. rewrite (sp_poly1305 p S) in Et. lia.
    - intros K; injection K as <-.
      match goal with |- context [xor_stream ks chacha_block b ++ ?tg] => pose proof (sp_poly1305 p S (map ks (seq 0 32)) (xor_stream ks chacha_block b)) as Lt;
        destruct (slice_tag (xor_stream ks chacha_block b) tg Lt) as (-> & ->) end.
      rewrite bytes_eqb_refl, xor_stream_twice. reflexivity. }
  destruct c; cbn [encrypt_with_key_iv decrypt_with_key_iv]; auto.
  - split; congruence.
  - destruct (tdes_key key) as [k|] eqn:Ek; [|split; discriminate].
    assert (length k = 24%nat) as Lk.
    { unfold tdes_key in Ek. destruct (Nat.eqb_spec (length key) 8) as [L|]; [injection Ek as <-; rewrite !app_length; lia|].
      destruct (Nat.eqb_spec (length key) 16) as [L|]; [apply Some_inj in Ek as <-; rewrite app_length, firstn_length; lia|].
      destruct (Nat.eqb_spec (length key) 24) as [L|]; [injection Ek as <-; exact L|discriminate]. }
    apply Hcbc; [lia| | | |]; intros u Lu; apply (sp_tdes p S); assumption.
Qed.
Lemma cipher_decrypt_encrypt c k d pass b x :
  cipher_decrypt p c k d pass x = Ok b <-> cipher_encrypt p c k d pass b = Ok x.
Proof.
  unfold cipher_decrypt, cipher_encrypt.
  destruct c; try (split; congruence);
    (match goal with |- context [derive_key p k d pass ?n] => destruct (derive_key p k d pass n) end;
     cbn [rbind]; [apply decrypt_encrypt|split; discriminate]).
Qed.
(** ** Lengths *)
Lemma encrypts_length m key iv b x :
  (m = Aes_cbc -> length iv = 16%nat /\ In (length key) [16; 24; 32]%nat) -> (m = Tdes_cbc -> length iv = 8%nat /\ length key = 24%nat) ->
  encrypts p m key iv b x -> length x = (length b + if authenticated m then 16 else 0)%nat.
Proof.
  intros Ha Ht. destruct m; cbn [encrypts authenticated].
  - intros ->. lia.
  - destruct (Ht eq_refl) as (Hi & Hk). intros C.
    apply (cbc_iff 8 (p_tdes_enc p key)) in C as (B & ->); [|lia|intros; apply (sp_tdes p S); assumption|exact Hi].
    destruct (cbc_enc_blocks 8 (p_tdes_enc p key) (p_tdes_dec p key)) with (iv := iv) (b := b) as (_ & L & _); auto; try lia;
      intros; apply (sp_tdes p S); assumption.
  - intros (L & _). lia.
  - destruct (Ha eq_refl) as (Hi & Hk). intros C.
    apply (cbc_iff 16 (p_aes_enc p key)) in C as (B & ->); [|lia|intros; apply (sp_aes p S); assumption|exact Hi].
    destruct (cbc_enc_blocks 16 (p_aes_enc p key) (p_aes_dec p key)) with (iv := iv) (b := b) as (_ & L & _); auto; try lia;
      intros; apply (sp_aes p S); assumption.
  - intros (c & (L & _) & ->). rewrite app_length, (sp_gcm_tag p S). lia.
  - intros (c & (L & _) & ->). rewrite app_length, (sp_poly1305 p S). lia.
Qed.
End Prims.

Lemma encrypt_bcrypt p c d pass b x : sound_prims p -> c <> NoneCipher ->
  cipher_encrypt p c KdfBcrypt d pass b = Ok x <->
  exists key iv, length key = key_length c /\ length iv = iv_length c /\
    derives p d pass (key_length c + iv_length c) (key ++ iv) /\ encrypts p (mode_of c) key iv b x.
Proof.
  intros S Nc.
  assert (0 < key_length c + iv_length c <= 512)%nat as Hn by (destruct c; cbn; try lia; congruence).
  assert (cipher_encrypt p c KdfBcrypt d pass b =
    do? r <- derive_key p KdfBcrypt d pass (Z.of_nat (key_length c + iv_length c));
    encrypt_with_key_iv p c b (slice_to (key_length c) r) (slice_last (iv_length c) r)) as -> by (destruct c; try reflexivity; congruence).
  split.
  - intros H. apply rbind_ok in H as (r & Er & H). apply derive_bcrypt in Er; [|exact Hn].
    pose proof (derives_length _ _ _ _ _ S (proj1 Hn) Er) as Lr.
    destruct (Nat.eq_dec (iv_length c) 0) as [Z|NZ].
    + rewrite Z, Nat.add_0_r in Lr. exists r, []. rewrite Z in *. rewrite app_nil_r. split; [exact Lr|]. split; [reflexivity|].
      split; [exact Er|].
      assert (mode_of c = Chacha20_poly1305) as Hm by (destruct c; cbn in Z; try discriminate; try reflexivity; congruence).
      apply encrypt_spec in H; [|exact S|unfold slice_to; rewrite firstn_length; lia|congruence].
      unfold slice_to in H. rewrite firstn_all2 in H by lia. rewrite Hm in *. exact H.
    + destruct (slice_split (key_length c) (iv_length c) r Lr ltac:(lia)) as (E & L1 & L2).
      exists (slice_to (key_length c) r), (slice_last (iv_length c) r). rewrite <- E.
      split; [exact L1|]. split; [exact L2|]. split; [exact Er|]. apply encrypt_spec in H; auto.
  - intros (key & iv & Lk & Li & Hd & He). apply derive_bcrypt in Hd; [|exact Hn]. rewrite Hd. cbn [rbind].
    destruct (Nat.eq_dec (iv_length c) 0) as [Z|NZ].
    + rewrite Z in *. destruct iv; [|discriminate]. rewrite app_nil_r in *. apply encrypt_spec; [exact S|unfold slice_to; rewrite firstn_length; lia|congruence|].
      assert (mode_of c = Chacha20_poly1305) as Hm by (destruct c; cbn in Z; try discriminate; try reflexivity; congruence).
      unfold slice_to. rewrite firstn_all2 by lia. rewrite Hm in *. exact He.
    + assert (slice_to (key_length c) (key ++ iv) = key) as -> by (unfold slice_to; apply firstn_app_exact; congruence).
      assert (slice_last (iv_length c) (key ++ iv) = iv) as ->.
      { unfold slice_last. destruct (iv_length c) eqn:E; [congruence|]. rewrite <- Li, app_length.
        replace (length key + length iv - length iv)%nat with (length key) by lia. apply skipn_app_exact. reflexivity. }
      apply encrypt_spec; auto.
Qed.
