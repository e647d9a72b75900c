(** What exceptions and warnings of parsing tell about the secret parts of private keys: C79. *)
From Verif Require Import PyBase IntBytes Utf8 StructFmt Stream Text Classes Key Crypto PrivateKeyList.
From Verif Require Import SpecWire SpecKey SpecText SpecCrypto SpecList SpecWarn SpecSecret.
From Verif Require Import ProofBase ProofInt ProofUtf8 ProofWire ProofRecord ProofKey ProofLog ProofErr ProofText ProofCrypto ProofList ProofRead Props_Crypto Props_List Props_Armor Props_Warn ProofSecret.
Open Scope Z_scope.

(** ** C79 *)
(** PrivateKey.from_bytes. *)
Theorem C79_private_key_outcome ec b1 b2 clear :
  Z.of_nat (length b1) <= ssize_max -> Z.of_nat (length b2) <= ssize_max ->
  key_hides secret_for eq b1 b2 ->
  same_outcome (key_from_bytes ec KPriv b1 clear) (key_from_bytes ec KPriv b2 clear).
Proof. intros L1 L2 H. apply (key_bytes_hides ec (parse_pub ec) secret_for (fun _ _ _ _ S => S) b1 b2 clear H L1 L2). Qed.

Lemma same_outcome_bind {A A' B B'} (x : W A) (x' : W A') (f : A -> W B) (f' : A' -> W B') :
  same_outcome x x' -> (forall a a', snd x = Ok a -> snd x' = Ok a' -> same_outcome (f a) (f' a')) ->
  same_outcome (wbind x f) (wbind x' f').
Proof.
  unfold same_outcome. destruct x as [l [a|e]], x' as [l' [a'|e']]; cbn [fst snd wbind]; try tauto.
  intros (<- & _) H. destruct (H a a' eq_refl eq_refl) as (H1 & H2). destruct (f a) as [m r], (f' a') as [m' r']. cbn [fst snd] in *.
  subst m'. auto.
Qed.
Lemma same_outcome_refl {A} (x : W A) : same_outcome x x.
Proof. split; [reflexivity|]. destruct (snd x); auto. Qed.

Ltac same_step := apply same_outcome_bind; [apply same_outcome_refl|]; 
  let a := fresh "a" in let Ha := fresh "Ha" in let Ha' := fresh "Ha'" in
  intros a ? Ha Ha'; rewrite Ha in Ha'; injection Ha' as <-.
(** PrivateKeyList.from_bytes: the warnings, the prompts and the exception, both before it is wrapped
    into a ValueError (the wrapping exception refers to it as its cause) and after. *)
Theorem C79_file_outcome p e given cn kn opts pubs check y1 y2 b1 b2 :
  sound_prims p -> Z.of_nat (length b1) <= ssize_max -> Z.of_nat (length b2) <= ssize_max ->
  length check = 8%nat -> hides pubs y1 y2 ->
  opens p e given cn kn opts pubs (check ++ y1) b1 -> opens p e given cn kn opts pubs (check ++ y2) b2 ->
  same_outcome (from_bytes_try p e b1 given) (from_bytes_try p e b2 given) /\
  same_outcome (list_from_bytes p e b1 given) (list_from_bytes p e b2 given).
Proof.
  intros S L1 L2 Lc H (body1 & tag1 & extra1 & d1 & pass1 & F1 & N1 & O1 & P1 & T1 & E1)
    (body2 & tag2 & extra2 & d2 & pass2 & F2 & N2 & O2 & P2 & T2 & E2).
  assert (same_outcome (from_bytes_try p e b1 given) (from_bytes_try p e b2 given)) as K.
  2: { split; [exact K|]. unfold same_outcome, list_from_bytes in *. destruct (from_bytes_try p e b1 given) as [l1 [r1|x1]], (from_bytes_try p e b2 given) as [l2 [r2|x2]];
         cbn [fst snd] in *; try tauto. destruct K as (<- & <-). auto. }
  rewrite (from_bytes_file p _ _ _ _ _ _ _ _ _ F1 N1 L1), (from_bytes_file p _ _ _ _ _ _ _ _ _ F2 N2 L2). unfold parse_file.
  assert (Z.of_nat (length opts) <= ssize_max /\ Z.of_nat (length (body1 ++ tag1)) <= ssize_max) as (Lo & Lx).
  { destruct F1 as (c0 & k0 & o0 & n0 & ps0 & x0 & _ & _ & Po & _ & _ & _ & Px & Eb).
    apply prefixed_length in Po. apply prefixed_length in Px.
    assert (length b1 = length magic + length c0 + length k0 + length o0 + length n0 + length (concat ps0) + length x0 + length tag1 + length extra1)%nat as Lb
      by (rewrite Eb, !app_length; lia). rewrite app_length. lia. }
  apply same_outcome_bind; [apply same_outcome_refl|]. intros ks ks' Hk Hk'. rewrite Hk in Hk'. injection Hk' as <-.
  destruct (wmap (fun b => pub_from_bytes p b None) pubs) as [lg rk] eqn:Ew. cbn [snd] in Hk. subst rk. apply wmap_pub_of in Ew.
  assert (exists k, get_kdf (VStr kn) = Ok k) as (k & Ek).
  { destruct O1 as (ts & o & junk & [E|[E|[]]] & _); injection E as <- <-; eexists; reflexivity. }
  assert (exists c, get_cipher (VStr cn) = Ok c) as (c & Ec).
  { destruct T1 as (m & kl & il & bs & Hin & _). destruct (cipher_table_spec _ _ _ _ _ Hin) as (c' & E & _). exists c'. exact E. }
  apply (options_read_iff p kn k d1 opts Ek Lo) in O1. apply (options_read_iff p kn k d2 opts Ek Lo) in O2.
  rewrite O1 in O2. injection O2 as <-.
  assert (pass1 = pass2) as <-.
  { destruct P1 as [(A & ->)|(A & P1)], P2 as [(B & ->)|(B & P2)]; try congruence. destruct given; congruence. }
  rewrite Ek. same_step. cbn [wlift snd] in Ha. injection Ha as <-.
  rewrite O1. same_step. cbn [wlift snd] in Ha. injection Ha as <-.
  same_step. clear Ha.
  rewrite Ec. same_step. cbn [wlift snd] in Ha. injection Ha as <-.
  same_step.
  assert (a0 = pass1) as ->.
  { apply get_kdf_iff in Ek as [(E & ->)|(E & ->)]; injection E as ->.
    - cbn in Ha. injection Ha as <-. destruct P1 as [(_ & ->)|(N & _)]; [reflexivity|congruence].
    - destruct P1 as [(E & _)|(_ & P1)]; [discriminate|]. unfold get_passphrase in Ha. destruct given; cbn in Ha; congruence. }
  clear Ha. apply (tag_size_iff _ _ _ Ec) in T1, T2.
  rewrite (proj2 (tag_read p c (tag1 ++ extra1) tag1) (ex_intro _ extra1 (conj eq_refl T1))).
  rewrite (proj2 (tag_read p c (tag2 ++ extra2) tag2) (ex_intro _ extra2 (conj eq_refl T2))).
  apply same_outcome_bind; [split; [reflexivity|exact I]|]. intros g g' Hg Hg'. cbn [wlift snd] in Hg, Hg'. injection Hg as <-. injection Hg' as <-.
  same_step. clear Ha.
  pose proof (encrypt_tag _ _ _ _ _ _ _ _ S Ec E1) as Le.
  apply (enciphers_iff _ _ _ _ _ _ _ _ _ S Ec Ek) in E1, E2.
  apply cipher_decrypt_encrypt in E1, E2; try exact S. rewrite E1, E2.
  apply same_outcome_bind; [split; [reflexivity|exact I]|]. intros g g' Hg Hg'. cbn [wlift snd] in Hg, Hg'. injection Hg as <-. injection Hg' as <-.
  apply same_outcome_bind; [apply (deciphered_hides p c pubs ks check y1 y2 Ew Lc H); lia|].
  intros [[q1 h1] r1] [[q2 h2] r2] _ _. split; [reflexivity|exact I].
Qed.

(** PrivateKeyList.from_string: any armored texts of such files. *)
Theorem C79_text_outcome p e given cn kn opts pubs check y1 y2 b1 b2 s1 s2 ls1 ls2 :
  sound_prims p -> Z.of_nat (length b1) <= ssize_max -> Z.of_nat (length b2) <= ssize_max ->
  length check = 8%nat -> hides pubs y1 y2 ->
  opens p e given cn kn opts pubs (check ++ y1) b1 -> opens p e given cn kn opts pubs (check ++ y2) b2 ->
  armored s1 ls1 -> base64 b1 (concat ls1) -> armored s2 ls2 -> base64 b2 (concat ls2) ->
  same_outcome (list_from_string p e s1 given) (list_from_string p e s2 given).
Proof.
  intros S L1 L2 Lc H O1 O2 A1 B1 A2 B2.
  rewrite (C30_armored_text_is_decoded _ _ _ _ _ A1), (C30_armored_text_is_decoded _ _ _ _ _ A2), (base64_decode _ _ B1), (base64_decode _ _ B2).
  apply (C79_file_outcome p e given cn kn opts pubs check y1 y2 b1 b2 S L1 L2 Lc H O1 O2).
Qed.

(** ** Examples *)
Definition e4 (u : bytes) : bytes := be_bytes 4 (Z.of_nat (length u)) ++ u.
Definition ex_check : bytes := [x01; x02; x03; x04; x01; x02; x03; x04].
Definition ex_wrap (pub plain : bytes) : bytes :=
  magic ++ e4 (bstr "none") ++ e4 (bstr "none") ++ e4 [] ++ [x00; x00; x00; x01] ++ e4 pub ++ e4 plain.
Definition ex_rsa_blob : bytes := e4 (bstr "ssh-rsa") ++ e4 [x03] ++ e4 [x21].
Definition ex_dss_blob : bytes := e4 (bstr "ssh-dss") ++ e4 [x0b] ++ e4 [x03] ++ e4 [x02] ++ e4 [x04].
(** A private RSA key (n = 33, e = 3) with the given d, iqmp, p, q and comment. *)
Definition ex_secret (d iqmp p q comment rest : bytes) : bytes :=
  e4 (bstr "ssh-rsa") ++ e4 [x21] ++ e4 [x03] ++ e4 d ++ e4 iqmp ++ e4 p ++ e4 q ++ e4 comment ++ rest.

Lemma e4_prefixed u : Z.of_nat (length u) < 2 ^ 32 -> prefixed 4 u (e4 u).
Proof.
  intros L. exists (be_bytes 4 (Z.of_nat (length u))). split; [apply be_bytes_length|]. split; [|reflexivity].
  rewrite unsigned_be, be_value_be_bytes. apply Z.mod_small. change (256 ^ Z.of_nat 4) with (2 ^ 32). lia.
Qed.
Lemma ex_opens pub plain : Z.of_nat (length pub) < 2 ^ 32 -> Z.of_nat (length plain) < 2 ^ 32 ->
  opens toy_prims ex_env None (str "none") (str "none") [] [pub] plain (ex_wrap pub plain).
Proof.
  intros Lp Ll. exists plain, [], [], [], []. split; [|split; [|split; [|split; [|split]]]].
  - exists (e4 (bstr "none")), (e4 (bstr "none")), (e4 []), [x00; x00; x00; x01], [e4 pub], (e4 plain).
    assert (wire (TText 4) (VStr (str "none")) (e4 (bstr "none"))) as W.
    { apply (wire_text 4 _ (bstr "none")); [|apply e4_prefixed; reflexivity].
      apply utf8_encode_iff. reflexivity. }
    split; [exact W|]. split; [exact W|]. split; [apply e4_prefixed; reflexivity|]. split; [reflexivity|]. split; [reflexivity|].
    split; [constructor; [apply e4_prefixed; exact Lp|constructor]|]. split; [apply e4_prefixed; exact Ll|].
    unfold ex_wrap. cbn [concat]. rewrite !app_nil_r. reflexivity.
  - reflexivity.
  - exists [], [], []. split; [left; reflexivity|]. split; [constructor|reflexivity].
  - left. auto.
  - exists Plain, 0%nat, 0%nat, 8%nat. split; [left; reflexivity|reflexivity].
  - exists Plain, 0%nat, 0%nat, 8%nat. split; [left; reflexivity|]. left. split; [reflexivity|]. rewrite app_nil_r. reflexivity.
Qed.
Lemma ex_fields d1 d2 i1 i2 p1 p2 q1 q2 c rest (sec : pystr -> bytes -> bytes -> Prop) next :
  length d1 = length d2 -> length i1 = length i2 -> length p1 = length p2 -> length q1 = length q2 ->
  Z.of_nat (length d1) < 2 ^ 32 -> Z.of_nat (length i1) < 2 ^ 32 -> Z.of_nat (length p1) < 2 ^ 32 -> Z.of_nat (length q1) < 2 ^ 32 ->
  sec (str "d") d1 d2 -> sec (str "iqmp") i1 i2 -> sec (str "p") p1 p2 -> sec (str "q") q1 q2 ->
  fields_hide sec next (rsa_private ++ [comment_field])
    (e4 [x21] ++ e4 [x03] ++ e4 d1 ++ e4 i1 ++ e4 p1 ++ e4 q1 ++ e4 c ++ rest)
    (e4 [x21] ++ e4 [x03] ++ e4 d2 ++ e4 i2 ++ e4 p2 ++ e4 q2 ++ e4 c ++ rest).
Proof.
  intros L1 L2 L3 L4 B1 B2 B3 B4 S1 S2 S3 S4.
  assert (forall k t fs u1 u2 y1 y2, length u1 = length u2 -> Z.of_nat (length u1) < 2 ^ 32 -> sec k u1 u2 ->
    fields_hide sec next fs y1 y2 -> fields_hide sec next ((k, t) :: fs) (e4 u1 ++ y1) (e4 u2 ++ y2)) as K.
  { intros k t fs u1 u2 y1 y2 L B S H. unfold e4. rewrite <- L, <- !app_assoc. destruct (e4_prefixed u1 B) as (l & Ll & Ul & El).
    unfold e4 in El. apply app_inv_tail in El. rewrite El. apply fh_secret; assumption. }
  unfold rsa_private, comment_field, mpint, text, spec_field. cbn [app].
  apply (fh_public _ _ _ _ _ (VInt 33)); [apply (wire_mpint 4 [x21]); apply e4_prefixed; reflexivity|].
  apply (fh_public _ _ _ _ _ (VInt 3)); [apply (wire_mpint 4 [x03]); apply e4_prefixed; reflexivity|].
  apply K; auto. apply K; auto. apply K; auto. apply K; auto. apply fh_same.
Qed.

(** Two keys that differ in all their secrets, and whose comment is not UTF-8. *)
Definition ex_bad1 : bytes := ex_secret [x07] [x04] [x03] [x0b] [xff] [x01].
Definition ex_bad2 : bytes := ex_secret [x1b] [x02] [x05] [x0d] [xff] [x01].
Lemma rsa_secret k u1 u2 : In k [str "d"; str "iqmp"; str "p"; str "q"] -> secret_for (str "ssh-rsa") k u1 u2.
Proof. intros H. left. eexists. split; [left; reflexivity|exact H]. Qed.
Lemma wire_type t u : utf8_encode t = Ok u -> Z.of_nat (length u) < 2 ^ 32 -> wire (TText 4) (VStr t) (e4 u).
Proof. intros E L. apply (wire_text 4 _ u); [apply utf8_encode_iff; exact E|apply e4_prefixed; exact L]. Qed.
Lemma ex_blob_type : forall t, blob_type ex_rsa_blob t -> t = str "ssh-rsa".
Proof.
  intros t (x & r & W & E).
  assert (wire (TText 4) (VStr (str "ssh-rsa")) (e4 (bstr "ssh-rsa"))) as W' by (apply wire_type; reflexivity).
  destruct (wire_prefix_free _ _ _ _ _ _ _ W W' (eq_sym E)) as (_ & K & _). injection K as ->. reflexivity.
Qed.
Example C79_example :
  hides [ex_rsa_blob] ex_bad1 ex_bad2 /\ ex_bad1 <> ex_bad2 /\
  opens toy_prims ex_env None (str "none") (str "none") [] [ex_rsa_blob] (ex_check ++ ex_bad1) (ex_wrap ex_rsa_blob (ex_check ++ ex_bad1)) /\
  opens toy_prims ex_env None (str "none") (str "none") [] [ex_rsa_blob] (ex_check ++ ex_bad2) (ex_wrap ex_rsa_blob (ex_check ++ ex_bad2)) /\
  from_bytes_try toy_prims ex_env (ex_wrap ex_rsa_blob (ex_check ++ ex_bad1)) None = ([], Err (UnicodeDecodeError [xff])) /\
  from_bytes_try toy_prims ex_env (ex_wrap ex_rsa_blob (ex_check ++ ex_bad2)) None = ([], Err (UnicodeDecodeError [xff])) /\
  key_hides secret_for eq ex_bad1 ex_bad2.
Proof.
  assert (forall k, ~ compared ex_rsa_blob (str "ssh-rsa") k) as N.
  { intros k (_ & _ & [B|B]); apply ex_blob_type in B; discriminate. }
  split; [|split; [discriminate|split; [|split; [|split; [|split]]]]].
  - right. exists (str "ssh-rsa"), rsa_public, rsa_private, (e4 (bstr "ssh-rsa")). do 2 eexists.
    split; [left; reflexivity|]. split; [apply wire_type; reflexivity|]. split; [reflexivity|]. split; [reflexivity|].
    apply ex_fields; try reflexivity; (split; [apply rsa_secret; simpl; auto|apply N]).
  - apply ex_opens; reflexivity.
  - apply ex_opens; reflexivity.
  - vm_compute. reflexivity.
  - vm_compute. reflexivity.
  - right. exists (str "ssh-rsa"), rsa_public, rsa_private, (e4 (bstr "ssh-rsa")). do 2 eexists.
    split; [left; reflexivity|]. split; [apply wire_type; reflexivity|]. split; [reflexivity|]. split; [reflexivity|].
    apply ex_fields; try reflexivity; apply rsa_secret; simpl; auto.
Qed.

(** Against a DSA public key with p = 11 and q = 3, whether there is a warning tells whether the
    prime factors of an RSA private key are 11 and 3: the condition about [compared] fields is needed. *)
Theorem C79_compared_fields_refuted :
  exists pub y1 y2, key_hides secret_for eq y1 y2 /\
    opens toy_prims ex_env None (str "none") (str "none") [] [pub] (ex_check ++ y1) (ex_wrap pub (ex_check ++ y1)) /\
    opens toy_prims ex_env None (str "none") (str "none") [] [pub] (ex_check ++ y2) (ex_wrap pub (ex_check ++ y2)) /\
    In (Warn (WPairValues 0)) (fst (list_from_bytes toy_prims ex_env (ex_wrap pub (ex_check ++ y1)) None)) /\
    ~ In (Warn (WPairValues 0)) (fst (list_from_bytes toy_prims ex_env (ex_wrap pub (ex_check ++ y2)) None)).
Proof.
  exists ex_dss_blob, (ex_secret [x07] [x04] [x0d] [x03] [x63] []), (ex_secret [x07] [x04] [x0b] [x03] [x63] []).
  split; [|split; [|split; [|split]]].
  - right. exists (str "ssh-rsa"), rsa_public, rsa_private, (e4 (bstr "ssh-rsa")). do 2 eexists.
    split; [left; reflexivity|]. split; [apply wire_type; reflexivity|]. split; [reflexivity|]. split; [reflexivity|].
    apply ex_fields; try reflexivity; apply rsa_secret; simpl; auto.
  - apply ex_opens; reflexivity.
  - apply ex_opens; reflexivity.
  - vm_compute. auto.
  - intros H. vm_compute in H. repeat (destruct H as [H|H]; [discriminate|]). exact H.
Qed.

Print Assumptions C79_private_key_outcome.
Print Assumptions C79_file_outcome.
Print Assumptions C79_text_outcome.
Print Assumptions C79_compared_fields_refuted.
