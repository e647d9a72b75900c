(** Property C89: what packing twice with the same KDF options gives away, and what can be done to
    a file that is encrypted without authentication. *)
From Verif Require Import PyBase IntBytes Utf8 StructFmt Stream Text Classes Key Crypto PrivateKeyList.
From Verif Require Import SpecWire SpecKey SpecText SpecCrypto SpecList SpecReuse.
From Verif Require Import ProofBase ProofInt ProofUtf8 ProofWire ProofRecord ProofKey ProofLog ProofErr ProofText ProofCrypto ProofList ProofRead.
From Verif Require Import Props_Key Props_Crypto Props_List Props_Parse Props_Round Props_Edit Props_Flow.
Open Scope Z_scope.

Lemma row_unique cn m kl il bs m' kl' il' bs' :
  In (cn, (m, kl, il, bs)) cipher_table -> In (cn, (m', kl', il', bs')) cipher_table ->
  (m, kl, il, bs) = (m', kl', il', bs').
Proof.
  intros H H'. apply cipher_table_spec in H as (c & E & -> & -> & -> & -> & _), H' as (c' & E' & -> & -> & -> & -> & _).
  assert (c' = c) as -> by congruence. reflexivity.
Qed.

(** ** The key stream *)
Lemma streams_differ_alike (R : nat -> byte -> Prop) b1 b2 x1 x2 :
  (forall i y y', R i y -> R i y' -> y = y') -> stream_xor R b1 x1 -> stream_xor R b2 x2 -> differ_alike x1 x2 b1 b2.
Proof.
  intros F (_ & H1) (_ & H2) i v1 v2 u1 u2 X1 X2 B1 B2.
  destruct (H1 _ _ _ B1 X1) as (y & Y1 & E1). destruct (H2 _ _ _ B2 X2) as (y' & Y2 & E2).
  assert (y' = y) as -> by (eapply F; eassumption). unfold xored in *. rewrite E1, E2.
  rewrite (Z.lxor_comm (Zb u2)), Z.lxor_assoc, <- (Z.lxor_assoc (Zb y)), Z.lxor_nilpotent, Z.lxor_0_l. reflexivity.
Qed.
Lemma ctr_bytes_fun E iv i y y' : ctr_bytes E iv i y -> ctr_bytes E iv i y' -> y = y'.
Proof.
  intros (c & L & U & N) (c' & L' & U' & N'). assert (c = c') as <- by (rewrite !unsigned_be in *; apply be_value_inj; congruence).
  congruence.
Qed.
Lemma firstn_app_exact {A} (a b : list A) : firstn (length a) (a ++ b) = a.
Proof. rewrite firstn_app, Nat.sub_diag, firstn_all, firstn_O, app_nil_r. reflexivity. Qed.
Lemma app_tags {A} (a b c d : list A) : a ++ b = c ++ d -> length b = length d -> a = c /\ b = d.
Proof.
  intros E L. assert (length a = length c) as La by (apply (f_equal (@length A)) in E; rewrite !app_length in E; lia).
  split; [rewrite <- (firstn_app_exact a b), <- (firstn_app_exact c d), E, La; reflexivity|].
  apply (app_inv_head a). rewrite E. f_equal. rewrite <- (firstn_app_exact a b), E, La. symmetry. apply firstn_app_exact.
Qed.
Lemma derives_fun p d pass n r r' : derives p d pass n r -> derives p d pass n r' -> r = r'.
Proof.
  intros (pw & s & k & U & _ & S & _ & K & _ & ->) (pw' & s' & k' & U' & _ & S' & _ & K' & _ & ->).
  assert (s = s') as <- by congruence. assert (k = k') as <- by congruence.
  assert (pw = pw') as <- by (eapply utf8_functional; eassumption). reflexivity.
Qed.
Lemma enciphers_alike p cn d pass plain1 plain2 body1 tag1 body2 tag2 :
  sound_prims p -> is_stream_cipher cn -> tag_size cn (length tag1) -> tag_size cn (length tag2) ->
  enciphers p cn (str "bcrypt") d pass plain1 (body1 ++ tag1) -> enciphers p cn (str "bcrypt") d pass plain2 (body2 ++ tag2) ->
  length body1 = length plain1 /\ differ_alike body1 body2 plain1 plain2.
Proof.
  intros S (m & kl & il & bs & I & M) (m1 & kl1 & il1 & bs1 & I1 & T1) (m2 & kl2 & il2 & bs2 & I2 & T2)
    (m3 & kl3 & il3 & bs3 & I3 & H1) (m4 & kl4 & il4 & bs4 & I4 & H2).
  pose proof (row_unique _ _ _ _ _ _ _ _ _ I I1) as Q. injection Q as <- <- <- <-.
  pose proof (row_unique _ _ _ _ _ _ _ _ _ I I2) as Q. injection Q as <- <- <- <-.
  pose proof (row_unique _ _ _ _ _ _ _ _ _ I I3) as Q. injection Q as <- <- <- <-.
  pose proof (row_unique _ _ _ _ _ _ _ _ _ I I4) as Q. injection Q as <- <- <- <-.
  destruct H1 as [(-> & _)|(_ & _ & key & iv & Lk & Li & D1 & H1)]; [discriminate|].
  destruct H2 as [(-> & _)|(_ & _ & key' & iv' & Lk' & Li' & D2 & H2)]; [discriminate|].
  pose proof (derives_fun _ _ _ _ _ _ D1 D2) as Q. apply app_tags in Q as (<- & <-); [|congruence].
  destruct m; try discriminate M; cbn [authenticated] in T1, T2; cbn [encrypts] in H1, H2.
  - destruct tag1; [|discriminate]. destruct tag2; [|discriminate]. rewrite app_nil_r in *.
    split; [exact (proj1 H1)|]. eapply streams_differ_alike; [|exact H1|exact H2]. intros i y y'. apply ctr_bytes_fun.
  - destruct H1 as (c1 & X1 & E1), H2 as (c2 & X2 & E2).
    apply app_tags in E1 as (-> & _); [|rewrite (sp_gcm_tag p S); exact T1].
    apply app_tags in E2 as (-> & _); [|rewrite (sp_gcm_tag p S); exact T2].
    split; [exact (proj1 X1)|]. eapply streams_differ_alike; [|exact X1|exact X2]. cbn. congruence.
  - destruct H1 as (c1 & X1 & E1), H2 as (c2 & X2 & E2).
    apply app_tags in E1 as (-> & _); [|rewrite (sp_poly1305 p S); exact T1].
    apply app_tags in E2 as (-> & _); [|rewrite (sp_poly1305 p S); exact T2].
    split; [exact (proj1 X1)|]. eapply streams_differ_alike; [|exact X1|exact X2]. cbn. congruence.
Qed.

Lemma options_used_fun e l retain kn d d' : options_used e l retain kn d -> options_used e l retain kn d' -> d = d'.
Proof.
  intros [(-> & H)|(Hr & H)] [(Er & H')|(Hr' & H')]; try congruence.
  - destruct Hr'; congruence.
  - destruct Hr; congruence.
  - destruct H as [(-> & ->)|(-> & ->)], H' as [(E & ->)|(E & ->)]; try reflexivity; discriminate E.
Qed.
Lemma passphrase_used_fun e kn given pass pass' : passphrase_used e kn given pass -> passphrase_used e kn given pass' -> pass = pass'.
Proof. intros [(E & ->)|(N & H)] [(E' & ->)|(N' & H')]; try congruence. destruct given; congruence. Qed.

Lemma options_of_fun kn d o o' : options_of kn d o -> options_of kn d o' -> o = o'.
Proof.
  intros (ts & vs & I & R & Q) (ts' & vs' & I' & R' & Q').
  assert (ts = ts') as <-.
  { unfold kdf_specs in I, I'. cbn [In] in I, I'. destruct I as [I|[I|[]]], I' as [I'|[I'|[]]]; try congruence; injection I as E _; injection I' as E' _; rewrite <- E in E'; discriminate E'. }
  assert (NoDup (map fst ts)) as Nd by (unfold kdf_specs in I; cbn [In] in I; destruct I as [I|[I|[]]]; injection I as _ <-; cbn [map fst octets uint32]; repeat constructor; cbn; intuition discriminate).
  assert (vs = vs') as <- by exact (restricts_unique _ _ _ _ Nd R R'). eapply record_canonical_functional; eassumption.
Qed.

(** ** C89 *)
(** Two files are written for any lists with the same stream cipher, options and passphrase. Each
    has the plaintext of its own private keys; but their encrypted sections differ exactly where
    and how the plaintexts differ: whoever has both files has the exclusive or of the private keys. *)
Theorem C89_same_options_reveal_differences p e1 e2 l1 l2 given1 given2 idx1 idx2 ov1 ov2 retain1 retain2 b1 b2 cn d pass :
  sound_prims p -> is_stream_cipher cn ->
  snd (list_pack_bytes p e1 l1 given1 idx1 ov1 retain1) = Ok b1 ->
  snd (list_pack_bytes p e2 l2 given2 idx2 ov2 retain2) = Ok b2 ->
  list_names l1 (VStr cn) (VStr (str "bcrypt")) -> list_names l2 (VStr cn) (VStr (str "bcrypt")) ->
  options_used e1 l1 retain1 (str "bcrypt") d -> options_used e2 l2 retain2 (str "bcrypt") d ->
  passphrase_used e1 (str "bcrypt") given1 pass -> passphrase_used e2 (str "bcrypt") given2 pass ->
  exists opts pubs1 body1 tag1 sel1 privs1 pad1 plain1 pubs2 body2 tag2 sel2 privs2 pad2 plain2,
    file_of cn (str "bcrypt") opts pubs1 body1 tag1 b1 /\ file_of cn (str "bcrypt") opts pubs2 body2 tag2 b2 /\
    chosen (l_pairs l1) idx1 sel1 /\ Forall2 (fun q x => pack_private_bytes (pr_private q) = Ok x) sel1 privs1 /\
    chosen (l_pairs l2) idx2 sel2 /\ Forall2 (fun q x => pack_private_bytes (pr_private q) = Ok x) sel2 privs2 /\
    plaintext_of (e_randbits e1) (e_randbits e1) privs1 pad1 plain1 /\
    plaintext_of (e_randbits e2) (e_randbits e2) privs2 pad2 plain2 /\
    length body1 = length plain1 /\ length body2 = length plain2 /\
    differ_alike body1 body2 plain1 plain2.
Proof.
  intros S C H1 H2 N1 N2 D1 D2 W1 W2. apply (pack_layout _ _ _ _ _ _ _ _ S) in H1. apply (pack_layout _ _ _ _ _ _ _ _ S) in H2.
  destruct H1 as (cn1 & kn1 & d1 & o1 & s1 & p1 & v1 & bs1 & pad1 & plain1 & pass1 & body1 & tag1 &
    N1' & D1' & O1 & C1 & _ & _ & V1 & X1 & _ & _ & _ & _ & W1' & E1 & T1 & L1).
  destruct H2 as (cn2 & kn2 & d2 & o2 & s2 & p2 & v2 & bs2 & pad2 & plain2 & pass2 & body2 & tag2 &
    N2' & D2' & O2 & C2 & _ & _ & V2 & X2 & _ & _ & _ & _ & W2' & E2 & T2 & L2).
  destruct (list_names_fun _ _ _ _ _ N1 N1') as (A & B). injection A as <-. injection B as <-.
  destruct (list_names_fun _ _ _ _ _ N2 N2') as (A & B). injection A as <-. injection B as <-.
  rewrite <- (options_used_fun _ _ _ _ _ _ D1 D1') in *. rewrite <- (options_used_fun _ _ _ _ _ _ D2 D2') in *.
  rewrite <- (passphrase_used_fun _ _ _ _ _ W1 W1') in *. rewrite <- (passphrase_used_fun _ _ _ _ _ W2 W2') in *.
  rewrite <- (options_of_fun _ _ _ _ O1 O2) in *.
  destruct (enciphers_alike _ _ _ _ _ _ _ _ _ _ S C T1 T2 E1 E2) as (Le1 & Al).
  destruct (enciphers_alike _ _ _ _ _ _ _ _ _ _ S C T2 T1 E2 E1) as (Le2 & _).
  exists o1, p1, body1, tag1, s1, v1, pad1, plain1, p2, body2, tag2, s2, v2, pad2, plain2. repeat (split; [assumption|]). assumption.
Qed.

(** By default this cannot happen unless the random salts coincide: the files hold the salt
    that was drawn, and 16 rounds, and the key is derived from them. *)
Theorem C89_fresh_salt_by_default p e l given idx ov b cn :
  sound_prims p -> list_names l (VStr cn) (VStr (str "bcrypt")) ->
  snd (list_pack_bytes p e l given idx ov false) = Ok b ->
  exists opts pubs body tag plain pass, file_of cn (str "bcrypt") opts pubs body tag b /\
    record_of wire [octets "salt"; uint32 "rounds"] [(str "salt", VBytes (e_salt e)); (str "rounds", VInt 16)] opts /\
    passphrase_used e (str "bcrypt") given pass /\
    enciphers p cn (str "bcrypt") [(str "salt", VBytes (e_salt e)); (str "rounds", VInt 16)] pass plain (body ++ tag).
Proof.
  intros S N H. apply (pack_layout _ _ _ _ _ _ _ _ S) in H.
  destruct H as (cn1 & kn1 & d1 & o1 & s1 & p1 & v1 & bs1 & pad1 & plain1 & pass1 & body1 & tag1 &
    N' & D' & O & _ & _ & _ & _ & _ & _ & _ & _ & _ & W & E & T & L).
  destruct (list_names_fun _ _ _ _ _ N N') as (A & B). injection A as <-. injection B as <-.
  assert (options_used e l false (str "bcrypt") [(str "salt", VBytes (e_salt e)); (str "rounds", VInt 16)]) as D
    by (right; split; [left; reflexivity|right; split; reflexivity]).
  rewrite <- (options_used_fun _ _ _ _ _ _ D D') in *.
  exists o1, p1, body1, tag1, plain1, pass1. repeat (split; [assumption|]). split; [|split; assumption].
  destruct O as (ts & vs & I & R & Q). unfold kdf_specs in I. cbn [In] in I.
  destruct I as [I|[I|[]]]; [injection I as I _; discriminate I|]. injection I as <-. cbn [map fst octets uint32] in R.
  assert (vs = [(str "salt", VBytes (e_salt e)); (str "rounds", VInt 16)]) as <-.
  { eapply restricts_unique; [|exact R|]; [repeat constructor; cbn; intuition discriminate|].
    split; [reflexivity|]. intros; reflexivity. }
  eapply record_canonical_wire. exact Q.
Qed.

(** Counter mode does not authenticate. Take a file that parses, and any other private section of
    the same length for the same public keys. Changing the encrypted section of the file in
    exactly the places, and in the same way, in which the private sections differ gives a file
    that parses, with the same passphrase, to the other private keys: no passphrase is needed to
    make it. *)
Theorem C89_counter_mode_is_malleable p e b given l cn h plain pairs' c1' c2' privs' pad' plain' :
  sound_prims p -> Z.of_nat (length b) <= ssize_max ->
  snd (list_from_bytes p e b given) = Ok l ->
  l_header l = Some h -> dget (str "cipher") h = Some (VStr cn) -> is_counter_mode cn ->
  l_decipher_bytes l = Some plain ->
  plaintext_of c1' c2' privs' pad' plain' -> length plain' = length plain ->
  Forall2 (fun q x => private_blob (pr_private q) x) pairs' privs' ->
  map pr_public pairs' = map pr_public (l_pairs l) ->
  exists first body body' rest b' l', b = first ++ body ++ rest /\ b' = first ++ body' ++ rest /\
    length body = length plain /\ length body' = length plain /\ differ_alike body body' plain plain' /\
    snd (list_from_bytes p e b' given) = Ok l' /\ l_pairs l' = pairs' /\ l_decipher_bytes l' = Some plain'.
Proof.
  intros S Lb H Hh Hc (kl & il & bs & I) Hp X' Lp F' M.
  apply (C58_from_bytes_exact _ _ _ _ _ S Lb) in H.
  destruct H as (cn0 & kn & opts & pubs & body & tag & extra & d & pass & pl & c1 & c2 & privs & pad & pairs &
    L & Np & Or & W & T & E & X & Fp & Fv & ->).
  cbn [l_header l_decipher_bytes l_pairs] in *. injection Hp as ->. injection Hh as <-. vm_compute in Hc. injection Hc as ->.
  assert (tag = []) as ->.
  { destruct T as (m & ? & ? & ? & I' & Lt). pose proof (row_unique _ _ _ _ _ _ _ _ _ I I') as Q. injection Q as <- _ _ _.
    destruct tag; [reflexivity|discriminate]. }
  rewrite app_nil_r in *. cbn [app] in L.
  destruct E as (m & kl' & il' & bs' & I' & E). pose proof (row_unique _ _ _ _ _ _ _ _ _ I I') as Q. injection Q as <- <- <- <-.
  destruct E as [(Q & _)|(_ & Kn & key & iv & Lk & Li & D & E)]; [discriminate|]. cbn [encrypts] in E.
  assert (In kl [16; 24; 32]%nat /\ il = 16%nat) as (Ik & ->).
  { clear - I. unfold cipher_table in I. cbn [In] in I.
    repeat (destruct I as [I|I]; [injection I; intros; subst; try discriminate; cbn [In]; auto 6|]). destruct I. }
  set (body' := xor_stream (ctr_stream (p_aes_enc p key) iv) 0 plain').
  assert (stream_xor (ctr_bytes (p_aes_enc p key) iv) plain' body') as E'.
  { apply (stream_xor_iff _ (ctr_stream (p_aes_enc p key) iv) 0); [|reflexivity].
    intros i _ y. apply (ctr_bytes_iff _ S); [rewrite Lk; exact Ik|exact Li]. }
  assert (length body = length plain) as Lbody by exact (proj1 E).
  assert (length body' = length plain) as Lbody' by (rewrite <- Lp; exact (proj1 E')).
  assert (exists first, b = first ++ body ++ extra /\ file_of cn kn opts pubs body' extra (first ++ body' ++ extra)) as (first & Eb & L').
  { destruct L as (c & k & o & n & ps & x & Wc & Wk & Po & Ln & Un & Fps & Px & ->).
    destruct Px as (z & Lz & Uz & ->).
    exists (magic ++ c ++ k ++ o ++ n ++ concat ps ++ z). split; [rewrite <- !app_assoc; reflexivity|].
    exists c, k, o, n, ps, (z ++ body'). repeat (split; [assumption|]). split; [|rewrite <- !app_assoc; reflexivity].
    exists z. rewrite Lbody', <- Lbody. auto. }
  eexists first, body, body', extra, (first ++ body' ++ extra), _. split; [exact Eb|]. split; [reflexivity|]. split; [exact Lbody|].
  split; [exact Lbody'|]. split; [eapply streams_differ_alike; [|exact E|exact E']; intros i y y'; apply ctr_bytes_fun|].
  split; [apply C58_from_bytes_exact; [exact S| |]|].
  - rewrite Eb in Lb. rewrite !app_length in *. lia.
  - exists cn, kn, opts, pubs, body', [], extra, d, pass, plain', c1', c2', privs', pad', pairs'. cbn [app]. rewrite app_nil_r.
    repeat (split; [assumption|]). split; [|split; [exact X'|split; [|split; [exact F'|reflexivity]]]].
    + exists Aes_ctr, kl, 16%nat, bs. split; [exact I|]. right. split; [discriminate|]. split; [exact Kn|]. exists key, iv. auto.
    + clear - Fp M. revert pairs' M. induction Fp as [|q x qs xs Hq Fp IH]; intros [|q' qs'] M; try discriminate; constructor.
      * cbn [map] in M. injection M as -> _. exact Hq.
      * apply IH. cbn [map] in M. congruence.
  - split; reflexivity.
Qed.

(** ** Concrete cases *)
(** The lists of C72_example in counter mode, with retained options: the second has another seed
    (32 bytes 7 instead of 1) for the Ed25519 key. *)
Definition ex_ctr (pairs : list pair) : pkl :=
  mkpkl pairs None (Some [(str "cipher", VStr (str "aes256-ctr")); (str "kdf", VStr (str "bcrypt"))])
    None (Some ex_options) None None None.
Definition ex_ctr_file (pairs : list pair) : bytes :=
  match snd (list_pack_bytes toy_prims ex_env (ex_ctr pairs) (Some (str "pw")) None true true) with Ok b => b | Err _ => [] end.
(** Exclusive or with 6 at the 32 bytes from [n] on. *)
Definition ex_flip (n : nat) (b : bytes) : bytes :=
  firstn n b ++ map (fun x => byte_xor x x06) (firstn 32 (skipn n b)) ++ skipn (n + 32) b.
Example C89_example :
  is_stream_cipher (str "aes256-ctr") /\ is_counter_mode (str "aes256-ctr") /\
  list_names (ex_ctr ex_pairs) (VStr (str "aes256-ctr")) (VStr (str "bcrypt")) /\
  options_used ex_env (ex_ctr ex_pairs) true (str "bcrypt") ex_options /\
  snd (list_pack_bytes toy_prims ex_env (ex_ctr ex_pairs) (Some (str "pw")) None true true) = Ok (ex_ctr_file ex_pairs) /\
  snd (list_pack_bytes toy_prims ex_env (ex_ctr ex_pairs') (Some (str "pw")) None true true) = Ok (ex_ctr_file ex_pairs') /\
  ex_ctr_file ex_pairs <> ex_ctr_file ex_pairs' /\
  (exists n l l', ex_flip n (ex_ctr_file ex_pairs) = ex_ctr_file ex_pairs' /\
    list_from_bytes toy_prims ex_env (ex_ctr_file ex_pairs) (Some (str "pw")) = ([], Ok l) /\ l_pairs l = ex_pairs /\
    list_from_bytes toy_prims ex_env (ex_flip n (ex_ctr_file ex_pairs)) (Some (str "pw")) = ([], Ok l') /\ l_pairs l' = ex_pairs').
Proof.
  split; [do 4 eexists; split; [unfold cipher_table; do 4 right; left; reflexivity|reflexivity]|].
  split; [do 3 eexists; unfold cipher_table; do 4 right; left; reflexivity|].
  split; [left; eexists; split; [reflexivity|split; reflexivity]|].
  split; [left; split; reflexivity|].
  split; [vm_compute; reflexivity|]. split; [vm_compute; reflexivity|]. split; [vm_compute; discriminate|].
  exists 219%nat. do 2 eexists. split; [vm_compute; reflexivity|]. split; [vm_compute; reflexivity|].
  split; [vm_compute; reflexivity|]. split; [vm_compute; reflexivity|]. vm_compute; reflexivity.
Qed.

Print Assumptions C89_same_options_reveal_differences.
Print Assumptions C89_fresh_salt_by_default.
Print Assumptions C89_counter_mode_is_malleable.
