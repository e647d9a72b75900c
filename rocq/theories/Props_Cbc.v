(** Property C92: what CBC and the other ciphers without authentication give away, and what they let
    be changed. *)
From Verif Require Import PyBase IntBytes Utf8 StructFmt Stream Text Classes Key Crypto PrivateKeyList.
From Verif Require Import SpecWire SpecKey SpecText SpecCrypto SpecList SpecReuse.
From Verif Require Import ProofBase ProofInt ProofUtf8 ProofWire ProofRecord ProofKey ProofLog ProofErr ProofText ProofCrypto ProofList ProofRead.
From Verif Require Import Props_Key Props_Crypto Props_List Props_Parse Props_Round Props_Edit Props_Flow Props_Reuse.
Open Scope Z_scope.

(** ** CBC, block by block *)
Lemma block_0 n u b : length u = n -> block n 0 (u ++ b) = u.
Proof. intros <-. unfold block. rewrite Nat.mul_0_r. cbn [skipn]. apply firstn_app_exact. Qed.
Lemma block_S n j u b : length u = n -> block n (S j) (u ++ b) = block n j b.
Proof.
  intros <-. unfold block. rewrite Nat.mul_succ_r, Nat.add_comm. f_equal.
  rewrite skipn_app. replace (length u + length u * j - length u)%nat with (length u * j)%nat by lia.
  rewrite skipn_all2 by lia. reflexivity.
Qed.
Lemma block_nil n j : block n j [] = [].
Proof. unfold block. rewrite skipn_nil. apply firstn_nil. Qed.
Lemma block_length n j b b' : length b = length b' -> length (block n j b) = length (block n j b').
Proof. intros L. unfold block. rewrite !firstn_length, !skipn_length, L. reflexivity. Qed.

Section Blocks.
Variables (n : nat) (E D : bytes -> bytes).
Hypothesis Hn : (0 < n)%nat.
Hypothesis HDE : forall b, length b = n -> D (E b) = b.
Hypothesis HED : forall b, length b = n -> E (D b) = b.
Hypothesis HE : forall b, length b = n -> length (E b) = n.
Hypothesis HD : forall b, length b = n -> length (D b) = n.

Lemma E_inj u u' : length u = n -> length u' = n -> E u = E u' -> u = u'.
Proof. intros L L' Q. rewrite <- (HDE u L), <- (HDE u' L'), Q. reflexivity. Qed.
Lemma cbc_length prev b x : cbc n E prev b x -> length x = length b.
Proof.
  induction 1 as [prev|prev c u b x L X C IH]; [reflexivity|].
  rewrite !app_length, HE by (rewrite <- L; exact (proj1 X)). lia.
Qed.
(** The same start: equal beginnings go to equal beginnings, and come from them. *)
Lemma cbc_beginnings k : forall prev b x b' x', length prev = n -> cbc n E prev b x -> cbc n E prev b' x' ->
  firstn (n * k) x = firstn (n * k) x' <-> firstn (n * k) b = firstn (n * k) b'.
Proof.
  assert (forall k (u r : bytes), length u = n -> firstn (n * S k) (u ++ r) = u ++ firstn (n * k) r) as F.
  { intros k0 u r <-. rewrite Nat.mul_succ_r, Nat.add_comm, firstn_app, firstn_all2 by lia. do 2 f_equal. lia. }
  assert (forall k (u r : bytes), length u = n -> [] <> firstn (n * S k) (u ++ r)) as N.
  { intros k0 u r L Q. rewrite F in Q by exact L. destruct u; [cbn in L; lia|discriminate]. }
  induction k as [|k IH]; intros prev b x b' x' Lp C C'; [rewrite Nat.mul_0_r; split; reflexivity|].
  destruct C as [prev|prev c u b x L X C]; inversion C' as [prev' Ep Eb Ex|prev' c' u' b2 x2 L' X' C2 Ep Eb Ex]; subst prev' b' x'.
  - split; reflexivity.
  - pose proof (HE u' (eq_trans (proj1 X') L')) as Le. rewrite !firstn_nil.
    split; intros Q; exfalso; revert Q; apply N; assumption.
  - pose proof (HE u (eq_trans (proj1 X) L)) as Le. rewrite !firstn_nil.
    split; intros Q; exfalso; symmetry in Q; revert Q; apply N; assumption.
  - assert (length u = n) as Lu by (rewrite <- L; exact (proj1 X)).
    assert (length u' = n) as Lu' by (rewrite <- L'; exact (proj1 X')).
    apply stream_xor_bytes in X; [|congruence]. apply stream_xor_bytes in X'; [|congruence].
    rewrite !F by (auto; congruence).
    split; intros Q; apply app_inv_len in Q as (Qu & Q); try congruence.
    + apply E_inj in Qu; [|assumption..]. rewrite <- Qu in C2, X'.
      assert (c = c') as <- by (rewrite <- (xor_bytes_twice c prev), <- (xor_bytes_twice c' prev) by congruence; congruence).
      f_equal. exact (proj1 (IH (E u) b x b2 x2 (HE u Lu) C C2) Q).
    + rewrite !HE by assumption. reflexivity.
    + rewrite <- Qu in X'. assert (u = u') as Eu by congruence. rewrite <- Eu in C2 |- *. f_equal. exact (proj2 (IH (E u) b x b2 x2 (HE u Lu) C C2) Q).
Qed.
(** Equal blocks of ciphertext: the blocks of plaintext differ as the blocks of ciphertext before. *)
Lemma xor_differ a a' b b' u : length a = length b -> length a' = length b' ->
  u = xor_bytes a b -> u = xor_bytes a' b' -> differ_alike a a' b b'.
Proof.
  intros L L' H H' i x x' y y' X X' Y Y'.
  pose proof (xor_bytes_nth _ _ _ _ _ X Y) as Q. pose proof (xor_bytes_nth _ _ _ _ _ X' Y') as Q'.
  rewrite <- H in Q. rewrite <- H' in Q'. rewrite Q in Q'. injection Q' as Q'.
  apply (f_equal Zb) in Q'. rewrite (proj2 (xored_byte_xor x y _) eq_refl), (proj2 (xored_byte_xor x' y' _) eq_refl) in Q'.
  apply Z.lxor_eq_0_iff. apply Z.lxor_eq_0_iff in Q'. rewrite <- Q' at 1.
  rewrite !Z.lxor_assoc. f_equal. rewrite (Z.lxor_comm (Zb x') _), !Z.lxor_assoc. f_equal. apply Z.lxor_comm.
Qed.
Lemma cbc_equal_blocks j : forall prev prev' b x b' x', length prev = n -> length prev' = n ->
  cbc n E prev b x -> cbc n E prev' b' x' -> block n j x = block n j x' ->
  differ_alike (block n j b) (block n j b') (block n j (prev ++ x)) (block n j (prev' ++ x')).
Proof.
  induction j as [|j IH]; intros prev prev' b x b' x' Lp Lp' C C' Q;
    destruct C as [prev|prev c u b x L X C]; try (rewrite block_nil; intros [|i] ? ? ? ? X; discriminate X);
    destruct C' as [prev'|prev' c' u' b2 x2 L' X' C2]; try (rewrite (block_nil n _); intros [|i] ? ? ? ? _ X'; discriminate X').
  - assert (length u = n) as Lu by (rewrite <- L; exact (proj1 X)).
    assert (length u' = n) as Lu' by (rewrite <- L'; exact (proj1 X')).
    rewrite !block_0 in * by auto. apply E_inj in Q; [|assumption..]. subst u'.
    apply stream_xor_bytes in X; [|congruence]. apply stream_xor_bytes in X'; [|congruence].
    eapply xor_differ; [| |exact X|exact X']; congruence.
  - assert (length u = n) as Lu by (rewrite <- L; exact (proj1 X)).
    assert (length u' = n) as Lu' by (rewrite <- L'; exact (proj1 X')).
    rewrite !block_S in * by auto. apply IH; auto.
Qed.
(** Whatever whole blocks follow, they decrypt to something. *)
Lemma cbc_more prev b x more : length prev = n -> cbc n E prev b x -> blocks n more ->
  exists rest, length rest = length more /\ cbc n E prev (b ++ rest) (x ++ more).
Proof.
  intros Lp C M. revert Lp. induction C as [prev|prev c u b x L X C IH]; intros Lp.
  - cbn [app]. revert prev Lp. induction M as [|v more L M IH]; intros prev Lp; [exists []; split; [reflexivity|constructor]|].
    destruct (IH v L) as (rest & Lr & C). exists (xor_bytes (D v) prev ++ rest).
    assert (length (xor_bytes (D v) prev) = n) as Lx by (rewrite xor_bytes_length; rewrite HD; congruence).
    split; [rewrite !app_length; lia|]. rewrite <- (HED v L) in C. rewrite <- (HED v L) at 2. apply cbc_block; [exact Lx| |exact C].
    apply stream_xor_bytes; [congruence|]. rewrite xor_bytes_twice by (rewrite HD; congruence). reflexivity.
  - destruct IH as (rest & Lr & C'); [apply HE; rewrite <- L; exact (proj1 X)|].
    exists rest. split; [exact Lr|]. rewrite <- !app_assoc. apply cbc_block; assumption.
Qed.
End Blocks.

(** The block function of a cipher in CBC mode. *)
Definition cbc_keyed (p : prims) (m : mode) (key : bytes) : (bytes -> bytes) * (bytes -> bytes) :=
  match m with Tdes_cbc => (p_tdes_enc p key, p_tdes_dec p key) | _ => (p_aes_enc p key, p_aes_dec p key) end.
Lemma cbc_cipher_facts p cn n m kl : sound_prims p -> In (cn, (m, kl, n, n)) cipher_table -> m = Tdes_cbc \/ m = Aes_cbc ->
  (0 < n)%nat /\ forall key, length key = kl ->
    let '(E, D) := cbc_keyed p m key in
    (forall b, length b = n -> D (E b) = b) /\ (forall b, length b = n -> E (D b) = b) /\
    (forall b, length b = n -> length (E b) = n) /\ (forall b, length b = n -> length (D b) = n) /\
    forall iv b x, encrypts p m key iv b x <-> cbc n E iv b x.
Proof.
  intros S I M. assert ((m = Tdes_cbc /\ kl = 24 /\ n = 8 \/ m = Aes_cbc /\ In kl [16; 24; 32] /\ n = 16)%nat) as [(-> & -> & ->)|(-> & Ik & ->)].
  { clear - I M. unfold cipher_table in I. cbn [In] in I.
    repeat (destruct I as [I|I]; [injection I; intros; subst; try (destruct M; discriminate); cbn [In]; auto 7|]). destruct I. }
  - split; [lia|]. intros key Lk. cbn [cbc_keyed encrypts].
    repeat split; intros; try assumption; destruct (sp_tdes p S key b Lk H) as (? & ? & ? & ?); assumption.
  - split; [lia|]. intros key <-. cbn [cbc_keyed encrypts].
    repeat split; intros; try assumption; destruct (sp_aes p S key b Ik H) as (? & ? & ? & ?); assumption.
Qed.

Lemma options_read_fun kn d d' opts : options_read kn d opts -> options_read kn d' opts -> d = d'.
Proof.
  intros (ts & o & junk & I & R & ->) (ts' & o' & junk' & I' & R' & Q).
  assert (ts = ts') as <-.
  { unfold kdf_specs in I, I'. cbn [In] in I, I'. destruct I as [I|[I|[]]], I' as [I'|[I'|[]]]; try congruence; injection I as E _; injection I' as E' _; rewrite <- E in E'; discriminate E'. }
  exact (proj1 (proj2 (record_prefix_free _ _ _ _ _ _ _ R R' Q))).
Qed.
Lemma cbc_no_tag cn n (tag : bytes) : is_cbc_cipher cn n -> tag_size cn (length tag) -> tag = [].
Proof.
  intros (m & kl & I & M) (m' & kl' & il' & bs' & I' & T). pose proof (row_unique _ _ _ _ _ _ _ _ _ I I') as Q. injection Q as <- _ _ _.
  destruct M as [-> | ->]; destruct tag; try reflexivity; discriminate.
Qed.
(** Two encryptions with the same key: one block function, one IV. *)
Lemma enciphers_cbc p cn n kn d pass b1 x1 b2 x2 :
  sound_prims p -> is_cbc_cipher cn n -> enciphers p cn kn d pass b1 x1 -> enciphers p cn kn d pass b2 x2 ->
  exists E D iv, (0 < n)%nat /\ length iv = n /\
    (forall b, length b = n -> D (E b) = b) /\ (forall b, length b = n -> E (D b) = b) /\
    (forall b, length b = n -> length (E b) = n) /\ (forall b, length b = n -> length (D b) = n) /\
    cbc n E iv b1 x1 /\ cbc n E iv b2 x2.
Proof.
  intros S (m & kl & I & M) (m1 & kl1 & il1 & bs1 & I1 & H1) (m2 & kl2 & il2 & bs2 & I2 & H2).
  pose proof (row_unique _ _ _ _ _ _ _ _ _ I I1) as Q. injection Q as <- <- <- <-.
  pose proof (row_unique _ _ _ _ _ _ _ _ _ I I2) as Q. injection Q as <- <- <- <-.
  destruct H1 as [(-> & _)|(_ & _ & key & iv & Lk & Li & D1 & H1)]; [destruct M; discriminate|].
  destruct H2 as [(-> & _)|(_ & _ & key' & iv' & Lk' & Li' & D2 & H2)]; [destruct M; discriminate|].
  pose proof (derives_fun _ _ _ _ _ _ D1 D2) as Q. apply app_tags in Q as (<- & <-); [|congruence].
  destruct (cbc_cipher_facts _ _ _ _ _ S I M) as (Hn & F). specialize (F key Lk). destruct (cbc_keyed p m key) as [E D].
  destruct F as (F1 & F2 & F3 & F4 & F5). exists E, D, iv. apply F5 in H1. apply F5 in H2. auto 12.
Qed.

(** ** C92 *)
(** Two files are written for any lists with the same cipher in CBC mode, options and passphrase.
    Their encrypted sections begin with the same blocks exactly as far as their private keys do. *)
Theorem C92_same_options_reveal_common_beginnings p e1 e2 l1 l2 given1 given2 idx1 idx2 ov1 ov2 retain1 retain2 b1 b2 cn n d pass :
  sound_prims p -> is_cbc_cipher cn n ->
  snd (list_pack_bytes p e1 l1 given1 idx1 ov1 retain1) = Ok b1 ->
  snd (list_pack_bytes p e2 l2 given2 idx2 ov2 retain2) = Ok b2 ->
  list_names l1 (VStr cn) (VStr (str "bcrypt")) -> list_names l2 (VStr cn) (VStr (str "bcrypt")) ->
  options_used e1 l1 retain1 (str "bcrypt") d -> options_used e2 l2 retain2 (str "bcrypt") d ->
  passphrase_used e1 (str "bcrypt") given1 pass -> passphrase_used e2 (str "bcrypt") given2 pass ->
  exists opts pubs1 body1 sel1 privs1 pad1 plain1 pubs2 body2 sel2 privs2 pad2 plain2,
    file_of cn (str "bcrypt") opts pubs1 body1 [] b1 /\ file_of cn (str "bcrypt") opts pubs2 body2 [] b2 /\
    chosen (l_pairs l1) idx1 sel1 /\ Forall2 (fun q x => pack_private_bytes (pr_private q) = Ok x) sel1 privs1 /\
    chosen (l_pairs l2) idx2 sel2 /\ Forall2 (fun q x => pack_private_bytes (pr_private q) = Ok x) sel2 privs2 /\
    plaintext_of (e_randbits e1) (e_randbits e1) privs1 pad1 plain1 /\
    plaintext_of (e_randbits e2) (e_randbits e2) privs2 pad2 plain2 /\
    length body1 = length plain1 /\ length body2 = length plain2 /\
    forall k, firstn (n * k) body1 = firstn (n * k) body2 <-> firstn (n * k) plain1 = firstn (n * k) plain2.
Proof.
  intros S C H1 H2 N1 N2 D1 D2 W1 W2. apply (pack_layout _ _ _ _ _ _ _ _ S) in H1. apply (pack_layout _ _ _ _ _ _ _ _ S) in H2.
  destruct H1 as (cn1 & kn1 & d1 & o1 & s1 & p1 & v1 & bs1 & pad1 & plain1 & pass1 & body1 & tag1 &
    N1' & D1' & O1 & C1 & _ & _ & V1 & X1 & _ & _ & _ & _ & W1' & E1 & T1 & L1).
  destruct H2 as (cn2 & kn2 & d2 & o2 & s2 & p2 & v2 & bs2 & pad2 & plain2 & pass2 & body2 & tag2 &
    N2' & D2' & O2 & C2 & _ & _ & V2 & X2 & _ & _ & _ & _ & W2' & E2 & T2 & L2).
  destruct (list_names_fun _ _ _ _ _ N1 N1') as (A & B). injection A as <-. injection B as <-.
  destruct (list_names_fun _ _ _ _ _ N2 N2') as (A & B). injection A as <-. injection B as <-.
  rewrite <- (options_used_fun _ _ _ _ _ _ D1 D1') in *. rewrite <- (options_used_fun _ _ _ _ _ _ D2 D2') in *.
  rewrite <- (passphrase_used_fun _ _ _ _ _ W1 W1') in *. rewrite <- (passphrase_used_fun _ _ _ _ _ W2 W2') in *.
  rewrite <- (options_of_fun _ _ _ _ O1 O2) in *.
  rewrite (cbc_no_tag _ _ _ C T1), app_nil_r in E1. rewrite (cbc_no_tag _ _ _ C T2), app_nil_r in E2.
  rewrite (cbc_no_tag _ _ _ C T1) in L1. rewrite (cbc_no_tag _ _ _ C T2) in L2.
  destruct (enciphers_cbc _ _ _ _ _ _ _ _ _ _ S C E1 E2) as (E & D & iv & Hn & Li & F1 & F2 & F3 & F4 & G1 & G2).
  exists o1, p1, body1, s1, v1, pad1, plain1, p2, body2, s2, v2, pad2, plain2. repeat (split; [assumption|]).
  split; [eapply (cbc_length n E D); eassumption|]. split; [eapply (cbc_length n E D); eassumption|].
  intros k. eapply (cbc_beginnings n E D); eassumption.
Qed.

(** A file is changed in its encrypted section and both are read with the same passphrase. Where
    the sections have the same block, the plaintexts differ exactly as the blocks before it do;
    if these are the same too, or there is none, the plaintexts have the same block: what is
    changed affects the same block and the next, and in the next every bit that is changed. *)
Theorem C92_altered_blocks p e e' given given' cn n kn opts pubs body body' tail tail' b b' l l' plain plain' :
  sound_prims p -> Z.of_nat (length b) <= ssize_max -> Z.of_nat (length b') <= ssize_max -> is_cbc_cipher cn n ->
  file_of cn kn opts pubs body tail b -> file_of cn kn opts pubs body' tail' b' ->
  snd (list_from_bytes p e b given) = Ok l -> snd (list_from_bytes p e' b' given') = Ok l' ->
  (exists pass, passphrase_used e kn given pass /\ passphrase_used e' kn given' pass) ->
  l_decipher_bytes l = Some plain -> l_decipher_bytes l' = Some plain' ->
  length plain = length body /\ length plain' = length body' /\
  forall j, block n j body = block n j body' ->
    match j with
    | O => block n 0 plain = block n 0 plain'
    | S i => differ_alike (block n j plain) (block n j plain') (block n i body) (block n i body') /\
             (block n i body = block n i body' -> block n j plain = block n j plain')
    end.
Proof.
  intros Sp Lb Lb' C L L' H H' (pass0 & W0 & W0') Hp Hp'.
  apply (C58_from_bytes_exact _ _ _ _ _ Sp Lb) in H. apply (C58_from_bytes_exact _ _ _ _ _ Sp Lb') in H'.
  destruct H as (cn1 & kn1 & opts1 & pubs1 & body1 & tag1 & extra1 & d1 & pass1 & plain1 & c11 & c21 & privs1 & pad1 & pairs1 &
    M1 & _ & O1 & W1 & T1 & E1 & _ & _ & _ & ->).
  destruct H' as (cn2 & kn2 & opts2 & pubs2 & body2 & tag2 & extra2 & d2 & pass2 & plain2 & c12 & c22 & privs2 & pad2 & pairs2 &
    M2 & _ & O2 & W2 & T2 & E2 & _ & _ & _ & ->).
  destruct (C29_layout_unambiguous _ _ _ _ _ _ _ _ _ _ _ _ _ _ [] [] L M1 eq_refl) as (<- & <- & <- & <- & <- & _).
  destruct (C29_layout_unambiguous _ _ _ _ _ _ _ _ _ _ _ _ _ _ [] [] L' M2 eq_refl) as (<- & <- & <- & <- & <- & _).
  cbn [l_decipher_bytes] in Hp, Hp'. injection Hp as ->. injection Hp' as ->.
  rewrite <- (options_read_fun _ _ _ _ O1 O2) in E2.
  rewrite <- (passphrase_used_fun _ _ _ _ _ W0 W1) in E1. rewrite <- (passphrase_used_fun _ _ _ _ _ W0' W2) in E2.
  rewrite (cbc_no_tag _ _ _ C T1), app_nil_r in E1. rewrite (cbc_no_tag _ _ _ C T2), app_nil_r in E2.
  destruct (enciphers_cbc _ _ _ _ _ _ _ _ _ _ Sp C E1 E2) as (E & D & iv & Hn & Li & F1 & F2 & F3 & F4 & G1 & G2).
  assert (length body = length plain) as Q1 by (eapply (cbc_length n E D); eassumption).
  assert (length body' = length plain') as Q2 by (eapply (cbc_length n E D); eassumption).
  split; [congruence|]. split; [congruence|]. intros j Hj.
  assert (differ_alike (block n j plain) (block n j plain') (block n j (iv ++ body)) (block n j (iv ++ body'))) as A by (eapply (cbc_equal_blocks n E D); eassumption).
  assert (length (block n j plain) = length (block n j plain')) as Lj.
  { rewrite (block_length n j plain body), (block_length n j plain' body'), Hj by congruence. reflexivity. }
  assert (forall c, differ_alike (block n j plain) (block n j plain') c c -> length c = n -> block n j plain = block n j plain') as Same.
  { intros c Ac Lc. apply list_eq_nth; [exact Lj|]. intros i x x' X X'.
    destruct (nth_error c i) as [y|] eqn:Y.
    - specialize (Ac _ _ _ _ _ X X' Y Y). rewrite Z.lxor_nilpotent in Ac. apply Z.lxor_eq in Ac. apply Zb_inj. exact Ac.
    - apply nth_error_None in Y. assert (i < length (block n j plain))%nat as Hi by (apply nth_error_Some; congruence).
      unfold block in Hi. rewrite firstn_length in Hi. lia. }
  destruct j as [|i].
  - rewrite !(block_0 n iv) in A by exact Li. exact (Same _ A Li).
  - rewrite !(block_S n i iv) in A by exact Li. split; [exact A|]. intros Hi. rewrite <- Hi in A.
    destruct (Nat.le_gt_cases (n * S i) (length body)) as [Le|Gt].
    + apply (Same _ A). unfold block. rewrite firstn_length, skipn_length. lia.
    + assert (block n (S i) plain = []) as N1 by (unfold block; rewrite skipn_all2 by lia; apply firstn_nil).
      assert (block n (S i) body = []) as N0 by (unfold block; rewrite skipn_all2 by lia; apply firstn_nil).
      rewrite N1 in Lj |- *. destruct (block n (S i) plain'); [reflexivity|discriminate].
Qed.

(** Whatever follows the ciphertext decrypts to something, for the ciphers without a tag. *)
Lemma enciphers_more p cn kn d pass plain body more bs :
  sound_prims p -> tag_size cn 0 -> block_of cn bs -> (length more mod bs = 0)%nat ->
  enciphers p cn kn d pass plain body ->
  exists rest, length rest = length more /\ enciphers p cn kn d pass (plain ++ rest) (body ++ more).
Proof.
  intros S (m0 & kl0 & il0 & bs0 & I0 & T) (m1 & kl1 & il1 & I1) M (m & kl & il & bs' & I & H).
  pose proof (row_unique _ _ _ _ _ _ _ _ _ I I0) as Q. injection Q as <- <- <- <-.
  pose proof (row_unique _ _ _ _ _ _ _ _ _ I I1) as Q. injection Q as <- <- <- <-.
  destruct H as [(-> & ->)|(Np & Kn & key & iv & Lk & Li & D & H)].
  { exists more. split; [reflexivity|]. exists Plain, kl, il, bs'. auto. }
  enough (exists rest, length rest = length more /\ encrypts p m key iv (plain ++ rest) (body ++ more)) as (rest & Lr & X).
  { exists rest. split; [exact Lr|]. exists m, kl, il, bs'. split; [exact I|]. right. split; [exact Np|]. split; [exact Kn|].
    exists key, iv. auto. }
  destruct (match m with Aes_ctr => true | _ => false end) eqn:Em.
  - destruct m; try discriminate Em. cbn [encrypts] in *.
    assert (In kl [16; 24; 32]%nat /\ il = 16%nat) as (Ik & ->).
    { clear - I. unfold cipher_table in I. cbn [In] in I.
      repeat (destruct I as [I|I]; [injection I; intros; subst; try discriminate; cbn [In]; auto 6|]). destruct I. }
    set (ks := ctr_stream (p_aes_enc p key) iv).
    assert (forall b x, stream_xor (ctr_bytes (p_aes_enc p key) iv) b x <-> x = xor_stream ks 0 b) as F.
    { intros b x. apply stream_xor_iff. intros i _ y. apply (ctr_bytes_iff _ S); [rewrite Lk; exact Ik|exact Li]. }
    apply F in H. exists (skipn (length plain) (xor_stream ks 0 (body ++ more))).
    assert (firstn (length plain) (xor_stream ks 0 (body ++ more)) = plain) as Fp.
    { assert (forall i a b, firstn (length a) (xor_stream ks i (a ++ b)) = xor_stream ks i a) as G.
      { intros i a; revert i; induction a as [|x a IH]; intros i b; [reflexivity|]. cbn [app xor_stream length firstn]. rewrite IH. reflexivity. }
      rewrite <- (xor_stream_length ks 0 plain), <- H, G, H. apply xor_stream_twice. }
    split; [rewrite skipn_length, xor_stream_length, app_length, H, xor_stream_length; lia|].
    apply F. rewrite <- Fp at 1. rewrite firstn_skipn, xor_stream_twice. reflexivity.
  - assert (m = Tdes_cbc \/ m = Aes_cbc) as Mc by (destruct m; try discriminate Em; try discriminate T; auto; congruence).
    assert (il = bs') as ->.
    { clear - I Mc. unfold cipher_table in I. cbn [In] in I.
      repeat (destruct I as [I|I]; [injection I; intros; subst; try reflexivity; destruct Mc; discriminate|]). destruct I. }
    destruct (cbc_cipher_facts _ _ _ _ _ S I Mc) as (Hn & F). specialize (F key Lk). destruct (cbc_keyed p m key) as [E D'].
    destruct F as (F1 & F2 & F3 & F4 & F5). apply F5 in H.
    destruct (cbc_more _ _ D' Hn F1 F2 F3 F4 _ _ _ more Li H (proj2 (blocks_iff _ _ Hn) M)) as (rest & Lr & C).
    exists rest. split; [exact Lr|]. apply F5. exact C.
Qed.
(** None of the ciphers without a tag authenticates the end of the encrypted section: with any
    whole blocks whatsoever appended to it, the file is read to the same keys, and what the
    blocks decrypt to is taken for padding. No passphrase is needed to make such a file. *)
Theorem C92_appended_blocks_accepted p e given cn kn opts pubs body more tail b b' bs l plain pad :
  sound_prims p -> Z.of_nat (length b) <= ssize_max -> Z.of_nat (length b') <= ssize_max ->
  tag_size cn 0 -> block_of cn bs -> (length more mod bs = 0)%nat ->
  file_of cn kn opts pubs body tail b -> file_of cn kn opts pubs (body ++ more) tail b' ->
  snd (list_from_bytes p e b given) = Ok l -> l_decipher_bytes l = Some plain -> l_padding l = Some pad ->
  exists l' rest, snd (list_from_bytes p e b' given) = Ok l' /\ l_pairs l' = l_pairs l /\
    l_header l' = l_header l /\ l_decipher_header l' = l_decipher_header l /\ length rest = length more /\
    l_decipher_bytes l' = Some (plain ++ rest) /\ l_padding l' = Some (pad ++ rest).
Proof.
  intros S Lb Lb' T0 B M L L' H Hp Hd.
  apply (C58_from_bytes_exact _ _ _ _ _ S Lb) in H.
  destruct H as (cn1 & kn1 & opts1 & pubs1 & body1 & tag1 & extra1 & d1 & pass1 & plain1 & c1 & c2 & privs & pad1 & pairs &
    M1 & Np & O & W & T & E & X & Fp & Fv & ->).
  destruct (C29_layout_unambiguous _ _ _ _ _ _ _ _ _ _ _ _ _ _ [] [] L M1 eq_refl) as (<- & <- & <- & <- & <- & Et).
  rewrite !app_nil_r in Et. cbn [l_decipher_bytes l_padding] in Hp, Hd. injection Hp as ->. injection Hd as ->.
  pose proof (tag_size_fun _ _ _ T T0) as Z. destruct tag1; [|discriminate]. cbn [app] in Et. subst tail. rewrite app_nil_r in E.
  destruct (enciphers_more _ _ _ _ _ _ _ _ _ S T0 B M E) as (rest & Lr & E').
  eexists _, rest. split; [apply (C58_from_bytes_exact _ _ _ _ _ S Lb')|].
  - exists cn, kn, opts, pubs, (body ++ more), [], extra1, d1, pass1, (plain ++ rest), c1, c2, privs, (pad ++ rest), pairs.
    cbn [app]. rewrite app_nil_r. repeat (split; [assumption|]). split; [|split; [exact Fp|split; [exact Fv|reflexivity]]].
    destruct X as (k1 & k2 & A1 & A2 & A3 & A4 & ->). exists k1, k2. rewrite <- !app_assoc. auto.
  - cbn. auto 10.
Qed.
(** Such files exist for every file, and are made by changing the length field. *)
Theorem C92_other_body cn kn opts pubs body tail b :
  file_of cn kn opts pubs body tail b ->
  exists first z, b = first ++ z ++ body ++ tail /\ length z = 4%nat /\ unsigned z = Z.of_nat (length body) /\
    forall z' body' tail', length z' = 4%nat -> unsigned z' = Z.of_nat (length body') ->
      file_of cn kn opts pubs body' tail' (first ++ z' ++ body' ++ tail').
Proof.
  intros (c & k & o & n & ps & x & Wc & Wk & Po & Ln & Un & Fps & (z & Lz & Uz & ->) & ->).
  exists (magic ++ c ++ k ++ o ++ n ++ concat ps), z. split; [rewrite <- !app_assoc; reflexivity|]. split; [exact Lz|]. split; [exact Uz|].
  intros z' body' tail' Lz' Uz'. exists c, k, o, n, ps, (z' ++ body'). repeat (split; [assumption|]).
  split; [exists z'; auto|rewrite <- !app_assoc; reflexivity].
Qed.

(** ** Concrete cases *)
(** The lists of C89_example with a cipher in CBC mode. The encrypted section is of 12 blocks; the
    Ed25519 private value is in the blocks 3 to 7 and the seed is in 3, 4 and 5. *)
Definition ex_cbc (pairs : list pair) : pkl :=
  mkpkl pairs None (Some [(str "cipher", VStr (str "aes256-cbc")); (str "kdf", VStr (str "bcrypt"))])
    None (Some ex_options) None None None.
Definition ex_cbc_file (pairs : list pair) : bytes :=
  match snd (list_pack_bytes toy_prims ex_env (ex_cbc pairs) (Some (str "pw")) None true true) with Ok b => b | Err _ => [] end.
Definition ex_cbc_body (pairs : list pair) : bytes := skipn 156 (ex_cbc_file pairs).
(** Bit 0 changed in byte 67 of the encrypted section, which is in block 4. *)
Definition ex_cbc_altered : bytes :=
  firstn 67 (ex_cbc_body ex_pairs) ++ map (byte_xor x01) (firstn 1 (skipn 67 (ex_cbc_body ex_pairs))) ++ skipn 68 (ex_cbc_body ex_pairs).
Definition ex_cbc_with (length_field body : bytes) : bytes := firstn 152 (ex_cbc_file ex_pairs) ++ length_field ++ body.
Definition ex_more : bytes := bstr "sixteen bytes..!".
Definition ex_result (b : bytes) : list event * option (bytes * bytes * list pair) :=
  match list_from_bytes toy_prims ex_env b (Some (str "pw")) with
  | (lg, Ok l) => (lg, match l_decipher_bytes l, l_padding l with Some x, Some y => Some (x, y, l_pairs l) | _, _ => None end)
  | (lg, Err _) => (lg, None)
  end.
Lemma ex_other_body cn kn opts pubs body b z' body' : file_of cn kn opts pubs body [] b ->
  length b = 348%nat -> length body = 192%nat -> length z' = 4%nat -> unsigned z' = Z.of_nat (length body') ->
  file_of cn kn opts pubs body' [] (firstn 152 b ++ z' ++ body').
Proof.
  intros L Lb Lbody Lz' Uz'. destruct (C92_other_body _ _ _ _ _ _ _ L) as (first & z & E & Lz & _ & G).
  specialize (G z' body' [] Lz' Uz'). rewrite app_nil_r in G.
  rewrite E. rewrite E, !app_length, Lbody, Lz in Lb. cbn [length] in Lb.
  replace 152%nat with (length first) by lia. rewrite firstn_app_exact. exact G.
Qed.
(** The layout of a file that is read and was written. *)
Lemma ex_layout p e l given d pass n cn b l' : sound_prims p -> is_cbc_cipher cn n -> Z.of_nat (length b) <= ssize_max ->
  snd (list_pack_bytes p e l given None true true) = Ok b -> list_names l (VStr cn) (VStr (str "bcrypt")) ->
  options_used e l true (str "bcrypt") d -> passphrase_used e (str "bcrypt") given pass ->
  snd (list_from_bytes p e b given) = Ok l' -> exists opts pubs body, l_cipher_bytes l' = Some body /\
    file_of cn (str "bcrypt") opts pubs body [] b.
Proof.
  intros S C Ls H N O W R.
  destruct (C92_same_options_reveal_common_beginnings _ _ _ _ _ _ _ _ _ _ _ _ _ _ _ _ _ _ _ S C H H N N O O W W)
    as (opts & pubs & body & sel & privs & pad & plain & _ & _ & _ & _ & _ & _ & L & _).
  apply (C58_from_bytes_exact _ _ _ _ _ S Ls) in R.
  destruct R as (cn1 & kn1 & opts1 & pubs1 & body1 & tag1 & extra1 & d1 & pass1 & plain1 & c1 & c2 & privs1 & pad1 & pairs &
    M1 & _ & _ & _ & T & _ & _ & _ & _ & ->).
  destruct (C29_layout_unambiguous _ _ _ _ _ _ _ _ _ _ _ _ _ _ [] [] L M1 eq_refl) as (<- & <- & <- & <- & <- & _).
  exists opts, pubs, body. split; [|exact L]. cbn [l_cipher_bytes]. rewrite (cbc_no_tag _ _ _ C T), app_nil_r. reflexivity.
Qed.
Example C92_example :
  is_cbc_cipher (str "aes256-cbc") 16 /\ is_cbc_cipher (str "3des-cbc") 8 /\ tag_size (str "aes256-cbc") 0 /\ block_of (str "aes256-cbc") 16 /\
  list_names (ex_cbc ex_pairs) (VStr (str "aes256-cbc")) (VStr (str "bcrypt")) /\
  options_used ex_env (ex_cbc ex_pairs) true (str "bcrypt") ex_options /\
  snd (list_pack_bytes toy_prims ex_env (ex_cbc ex_pairs) (Some (str "pw")) None true true) = Ok (ex_cbc_file ex_pairs) /\
  snd (list_pack_bytes toy_prims ex_env (ex_cbc ex_pairs') (Some (str "pw")) None true true) = Ok (ex_cbc_file ex_pairs') /\
  (* the two lists differ in the seed only *)
  firstn (16 * 3) (ex_cbc_body ex_pairs) = firstn (16 * 3) (ex_cbc_body ex_pairs') /\
  firstn (16 * 4) (ex_cbc_body ex_pairs) <> firstn (16 * 4) (ex_cbc_body ex_pairs') /\
  (* the files *)
  (exists opts pubs,
    file_of (str "aes256-cbc") (str "bcrypt") opts pubs (ex_cbc_body ex_pairs) [] (ex_cbc_file ex_pairs) /\
    file_of (str "aes256-cbc") (str "bcrypt") opts pubs ex_cbc_altered [] (ex_cbc_with [x00; x00; x00; xc0] ex_cbc_altered) /\
    file_of (str "aes256-cbc") (str "bcrypt") opts pubs (ex_cbc_body ex_pairs ++ ex_more) []
      (ex_cbc_with [x00; x00; x00; xd0] (ex_cbc_body ex_pairs ++ ex_more))) /\
  (* the original, the altered and the extended file are read *)
  exists plain plain' pad rest pairs',
    ex_result (ex_cbc_file ex_pairs) = ([], Some (plain, pad, ex_pairs)) /\
    ex_result (ex_cbc_with [x00; x00; x00; xc0] ex_cbc_altered) = ([], Some (plain', pad, pairs')) /\
    map (fun j => bytes_eqb (block 16 j plain) (block 16 j plain')) (seq 0 12) =
      [true; true; true; true; false; false; true; true; true; true; true; true] /\
    map (byte_xor x01) (firstn 1 (skipn 83 plain)) = firstn 1 (skipn 83 plain') /\
    ex_result (ex_cbc_with [x00; x00; x00; xd0] (ex_cbc_body ex_pairs ++ ex_more)) =
      ([Warn WPadding], Some (plain ++ rest, pad ++ rest, ex_pairs)).
Proof.
  split; [do 2 eexists; split; [unfold cipher_table; do 7 right; left; reflexivity|right; reflexivity]|].
  split; [do 2 eexists; split; [unfold cipher_table; do 1 right; left; reflexivity|left; reflexivity]|].
  split; [do 4 eexists; split; [unfold cipher_table; do 7 right; left; reflexivity|reflexivity]|].
  split; [do 3 eexists; unfold cipher_table; do 7 right; left; reflexivity|].
  split; [left; eexists; split; [reflexivity|split; reflexivity]|].
  split; [left; split; reflexivity|].
  split; [vm_compute; reflexivity|]. split; [vm_compute; reflexivity|]. split; [vm_compute; reflexivity|].
  split; [vm_compute; discriminate|]. split.
  - assert (is_cbc_cipher (str "aes256-cbc") 16) as C
      by (do 2 eexists; split; [unfold cipher_table; do 7 right; left; reflexivity|right; reflexivity]).
    assert (list_names (ex_cbc ex_pairs) (VStr (str "aes256-cbc")) (VStr (str "bcrypt"))) as N
      by (left; eexists; split; [reflexivity|split; reflexivity]).
    assert (options_used ex_env (ex_cbc ex_pairs) true (str "bcrypt") ex_options) as O by (left; split; reflexivity).
    assert (passphrase_used ex_env (str "bcrypt") (Some (str "pw")) (str "pw")) as W by (right; split; [discriminate|reflexivity]).
    assert (snd (list_pack_bytes toy_prims ex_env (ex_cbc ex_pairs) (Some (str "pw")) None true true) = Ok (ex_cbc_file ex_pairs)) as H by (vm_compute; reflexivity).
    assert (exists l, snd (list_from_bytes toy_prims ex_env (ex_cbc_file ex_pairs) (Some (str "pw"))) = Ok l /\
      l_cipher_bytes l = Some (ex_cbc_body ex_pairs)) as (l & R & Hb) by (eexists; split; vm_compute; reflexivity).
    assert (length (ex_cbc_file ex_pairs) = 348%nat) as Lf by (vm_compute; reflexivity).
    assert (length (ex_cbc_body ex_pairs) = 192%nat) as Lbd by (vm_compute; reflexivity).
    assert (length ex_cbc_altered = 192%nat) as La by (vm_compute; reflexivity).
    assert (length (ex_cbc_body ex_pairs ++ ex_more) = 208%nat) as Lm by (vm_compute; reflexivity).
    unfold ex_cbc_with.
    revert H R Hb Lf Lbd La Lm. generalize (ex_cbc_file ex_pairs), (ex_cbc_body ex_pairs), ex_cbc_altered.
    intros b body body' H R Hb Lf Lbd La Lm.
    assert (Z.of_nat (length b) <= ssize_max) as Ls by (rewrite Lf; vm_compute; discriminate).
    destruct (ex_layout _ _ _ _ _ _ _ _ _ _ toy_sound C Ls H N O W R) as (opts & pubs & body1 & Hb1 & L).
    assert (body1 = body) as -> by congruence.
    exists opts, pubs. split; [exact L|]. split; (eapply ex_other_body; [exact L|exact Lf|exact Lbd|reflexivity|]).
    + rewrite La. reflexivity.
    + rewrite Lm. reflexivity.
  - exists (match snd (ex_result (ex_cbc_file ex_pairs)) with Some (x, _, _) => x | None => [] end),
      (match snd (ex_result (ex_cbc_with [x00; x00; x00; xc0] ex_cbc_altered)) with Some (x, _, _) => x | None => [] end),
      [x01; x02; x03; x04],
      (match snd (ex_result (ex_cbc_with [x00; x00; x00; xd0] (ex_cbc_body ex_pairs ++ ex_more))) with Some (x, _, _) => skipn 192 x | None => [] end),
      (match snd (ex_result (ex_cbc_with [x00; x00; x00; xc0] ex_cbc_altered)) with Some (_, _, x) => x | None => [] end).
    split; [vm_compute; reflexivity|]. split; [vm_compute; reflexivity|]. split; [vm_compute; reflexivity|].
    split; vm_compute; reflexivity.
Qed.

Print Assumptions C92_same_options_reveal_common_beginnings.
Print Assumptions C92_altered_blocks.
Print Assumptions C92_appended_blocks_accepted.
Print Assumptions C92_other_body.
