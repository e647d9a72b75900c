(** Property C100: what parsing keeps is no larger than what it was given. *)
From Verif Require Import PyBase IntBytes Utf8 StructFmt Stream Text Classes Key Crypto PrivateKeyList.
From Verif Require Import SpecWire SpecKey SpecCrypto SpecList SpecSize ProofBase ProofInt ProofUtf8 ProofWire ProofRecord ProofKey ProofCrypto ProofList
  Props_Depth Props_Crypto Props_List.
Open Scope Z_scope.

Lemma dict_fits_more d a b : dict_fits d a -> (a <= b)%nat -> dict_fits d b.
Proof. intros H L. destruct H; [constructor|]. econstructor; try eassumption. lia. Qed.
Lemma dict_fits_app d d' n : dict_fits (d ++ d') n -> exists a b, dict_fits d a /\ dict_fits d' b /\ (a + b <= n)%nat.
Proof.
  revert n. induction d as [|(k, v) d IH]; intros n H; [exists 0%nat, n; split; [constructor|auto]|]. inversion H; subst.
  match goal with X : dict_fits (d ++ d') _ |- _ => apply IH in X as (a1 & b1 & A & B & L) end.
  eexists _, b1. split; [econstructor; [eassumption|exact A|apply Nat.le_refl]|]. split; [exact B|lia].
Qed.
Lemma signed_fits u : Z.abs (signed u) < 256 ^ Z.of_nat (length u).
Proof.
  pose proof (unsigned_range u) as R. unfold signed. destruct u as [|x r]; [reflexivity|].
  destruct (Z.leb_spec 128 (Zb x)); [|lia]. cbn [unsigned] in *. pose proof (unsigned_range r).
  assert (0 < 256 ^ Z.of_nat (length r)) by (apply Z.pow_pos_nonneg; lia). nia.
Qed.
Lemma wire_fits t v b : wire t v b -> fits v (length b).
Proof.
  intros W. inversion W as [k v0 b0 P|k s u b0 U P|k u b0 P|big sgn sz z b0 L Ez|n b0 L]; subst.
  - apply prefixed_length in P. constructor. lia.
  - apply prefixed_length in P. econstructor; [exact U|lia].
  - apply prefixed_length in P. constructor. pose proof (signed_fits u). eapply Z.lt_le_trans; [exact H|]. apply Z.pow_le_mono_r; lia.
  - constructor. set (c := if big then b else rev b). replace (length b) with (length c) by (unfold c; destruct big; [reflexivity|apply rev_length]).
    destruct sgn; [apply signed_fits|]. pose proof (unsigned_range c). lia.
  - constructor. lia.
Qed.
Lemma record_fits ts vs b : record_of wire ts vs b -> dict_fits vs (length b).
Proof.
  induction 1 as [|k t ts v vs b bs W R IH]; [constructor|]. rewrite app_length. econstructor; [apply (wire_fits _ _ _ W)|exact IH|lia].
Qed.
Lemma three_fit h ps fo n : dict_fits (h ++ ps ++ fo) n -> exists a b c, dict_fits h a /\ dict_fits ps b /\ dict_fits fo c /\ (a + b + c <= n)%nat.
Proof.
  intros H. apply dict_fits_app in H as (a & x & A & X & L). apply dict_fits_app in X as (b & c & B & C & L').
  exists a, b, c. repeat (split; [assumption|]). lia.
Qed.

(** A key is made of at most as many bytes as it was parsed from, what follows it in them included:
    no declared length makes it larger. *)
Theorem C100_key ec kd b k : snd (key_from_bytes ec kd b None) = Ok k -> key_fits k (length b).
Proof.
  destruct (key_from_bytes ec kd b None) as [lg r] eqn:H. cbn [snd]. intros ->.
  unfold key_from_bytes, key_from_bytes_with in H.
  destruct (key_from_stream ec (parse_pub ec) kd None (stream_of b)) as [s' w] eqn:E.
  apply wbind_inv in H as (l0 & k0 & l2 & -> & E1 & _). unfold key_from_stream in E.
  destruct (read_key_parts kd (stream_of b)) as [s1 [[[h ps] fo]|]] eqn:R; [|discriminate]. injection E as -> N.
  apply new_key_inv in N as (kt & c & l1 & _ & _ & -> & _).
  apply read_key_parts_sound in R as (t & pub & priv & ts & b0 & _ & _ & -> & Rec & _ & _ & U & _).
  change (unread (stream_of b)) with b in U. apply record_fits, three_fit in Rec as (x & y & z & X & Y & Z & L).
  destruct (unread s') as [|r0 r] eqn:Er; cbn [snd wret wseq wwarn wbind] in E1; injection E1 as _ <-.
  - exists x, y, z, 0%nat. cbn [k_header k_params k_footer k_clear]. repeat (split; [assumption|]). split; [constructor|].
    rewrite U, app_length. cbn [length]. lia.
  - exists x, y, z, (length (r0 :: r)). cbn [k_header k_params k_footer k_clear]. repeat (split; [assumption|]).
    split; [|rewrite U, app_length; lia]. cbn [dset]. econstructor; [constructor; apply Nat.le_refl|constructor|]. rewrite Nat.add_0_r. apply Nat.le_refl.
Qed.

Lemma concat_prefixed pubs ps : Forall2 (prefixed 4) pubs ps -> length (concat ps) = (4 * length pubs + length (concat pubs))%nat.
Proof.
  induction 1 as [|u x pubs ps P F IH]; [reflexivity|]. cbn [concat length]. rewrite !app_length, IH. apply prefixed_length in P. lia.
Qed.
Lemma pairs_fits ec pairs pubs privs :
  Forall2 (fun q x => exists lg, key_from_bytes ec KPub x None = (lg, Ok (pr_public q))) pairs pubs ->
  Forall2 (fun q x => private_blob (pr_private q) x) pairs privs ->
  pairs_fit pairs (length (concat pubs) + length (concat privs)).
Proof.
  intros F. revert privs. induction F as [|q x pairs pubs (lg & Hq) F IH]; intros privs G; inversion G as [|? y ? privs' B G']; subst; [constructor|].
  cbn [concat]. rewrite !app_length. assert (key_fits (pr_public q) (length x)) as A by (apply (C100_key ec KPub); rewrite Hq; reflexivity).
  assert (key_fits (pr_private q) (length y)) as A'.
  { destruct B as (t & pub & priv & _ & _ & _ & _ & _ & _ & Ec & R). apply record_fits, three_fit in R as (a & b & c & X & Y & Z & L).
    exists a, b, c, 0%nat. rewrite Ec. repeat (split; [assumption|]). split; [constructor|lia]. }
  econstructor; [exact A|exact A'|apply IH, G'|lia].
Qed.

(** The keys of a list, public and private, are together no larger than the file, of which there are at
    least four bytes for each pair; and with all that the list keeps besides (the file itself, the
    ciphertext, the plaintext, the header, ...) the list is at most four times as large. *)
Theorem C100_list p e b given l :
  sound_prims p -> Z.of_nat (length b) <= ssize_max -> snd (list_from_bytes p e b given) = Ok l ->
  pairs_fit (l_pairs l) (length b) /\ (4 * length (l_pairs l) <= length b)%nat /\ list_fits l (4 * length b).
Proof.
  intros S L H. apply (C58_from_bytes_exact p e b given l S L) in H.
  destruct H as (cn & kn & opts & pubs & body & tag & extra & d & pass & plain & c1 & c2 & privs & pad & pairs &
    F & Hn & O & _ & T & E & P & Fp & Fq & ->).
  destruct F as (c & k & o & n & ps & x & Wc & Wk & Po & Ln & Un & Fps & Px & Eb).
  destruct O as (ts & o1 & junk & _ & Ro & ->). destruct P as (w1 & w2 & L1 & U1 & L2 & U2 & Ep).
  assert (length plain <= length body + length tag)%nat as Lp.
  { destruct E as (m & kl & il & bs & Ht & K). destruct (cipher_table_spec _ _ _ _ _ Ht) as (c' & Ec & _).
    assert (length (body ++ tag) = (length plain + if is_integrity c' then 16 else 0)%nat) as X.
    { eapply encrypt_tag; [exact S|exact Ec|]. exists m, kl, il, bs. split; [exact Ht|exact K]. }
    rewrite app_length in X. lia. }
  apply prefixed_length in Po. apply prefixed_length in Px. pose proof (concat_prefixed _ _ Fps) as Lps.
  assert (length pairs = length pubs) as Lq by (clear -Fp; induction Fp; cbn [length]; congruence).
  assert (length b = 15 + length c + length k + length o + 4 + length (concat ps) + length x + length tag + length extra)%nat as Lb.
  { rewrite Eb, !app_length, Ln. change (length magic) with 15%nat. lia. }
  assert (length plain = 8 + length (concat privs) + length pad)%nat as Lpl by (rewrite Ep, !app_length, L1, L2; lia).
  rewrite app_length in Po.
  pose proof (pairs_fits _ _ _ _ Fp Fq) as Q.
  assert (forall m, (length (concat pubs) + length (concat privs) <= m)%nat -> pairs_fit pairs m) as Q'.
  { intros m Hm. destruct Q as [|q l' a' b' c0 n0 A B C Hs]; [constructor|]. econstructor; try eassumption. lia. }
  cbn [l_pairs]. split; [apply Q'; lia|]. split; [lia|].
  exists (length b), (15 + length c + length k + length o + 4)%nat, (length body + length tag)%nat, (length o)%nat, (length plain), 8%nat, (length pad),
    (length (concat pubs) + length (concat privs))%nat.
  cbn [l_byte_string l_header l_cipher_bytes l_kdf_options l_decipher_bytes l_decipher_header l_padding l_pairs opt_fits].
  unfold bytes_fit. split; [apply Nat.le_refl|]. split.
  { apply (dict_fits_cons _ _ _ 15 (length c + length k + length o + 4)); [constructor; change (length magic) with 15%nat; lia| |lia].
    apply (dict_fits_cons _ _ _ (length c) (length k + length o + 4)); [apply (wire_fits _ _ _ Wc)| |lia].
    apply (dict_fits_cons _ _ _ (length k) (length o + 4)); [apply (wire_fits _ _ _ Wk)| |lia].
    apply (dict_fits_cons _ _ _ (length o) 4); [constructor; rewrite app_length; lia| |lia].
    apply (dict_fits_cons _ _ _ 4 0); [|constructor|lia]. constructor. rewrite <- Un, <- Ln. pose proof (unsigned_range n). lia. }
  split; [rewrite app_length; apply Nat.le_refl|].
  split; [apply dict_fits_more with (length o1); [apply (record_fits _ _ _ Ro)|lia]|].
  split; [apply Nat.le_refl|]. split.
  { apply (dict_fits_cons _ _ _ 4 4); [|apply (dict_fits_cons _ _ _ 4 0); [|constructor|lia]|lia]; constructor;
      [rewrite <- U1, <- L1; pose proof (unsigned_range w1)|rewrite <- U2, <- L2; pose proof (unsigned_range w2)]; lia. }
  split; [apply Nat.le_refl|]. split; [exact Q|]. lia.
Qed.

(** The file of two keys of Props_List (376 bytes) and a key with a comment in its rest. *)
Example C100_example :
  (exists l, snd (list_from_bytes toy_prims ex_env ex_file (Some (str "pw"))) = Ok l /\ length (l_pairs l) = 2%nat) /\
  length ex_file = 376%nat /\ Z.of_nat (length ex_file) <= ssize_max /\ sound_prims toy_prims /\
  (exists k, snd (key_from_bytes (fun _ _ => true) KPub (shells 2 ++ [x01; x02]) None) = Ok k /\ k_clear k = [(str "remainder", VBytes [x01; x02])]) /\
  ~ fits (VInt 256) 1 /\ ~ dict_fits [(str "a", VBytes [x01; x02]); (str "b", VInt (-1))] 2.
Proof.
  split; [eexists; split; vm_compute; reflexivity|]. split; [reflexivity|]. split; [vm_compute; discriminate|]. split; [exact toy_sound|].
  split; [eexists; split; vm_compute; reflexivity|]. split.
  - intros H. inversion H; subst. match goal with X : Z.abs _ < _ |- _ => vm_compute in X; discriminate end.
  - intros H. inversion H as [|? ? ? a b ? F D Ls]; subst. inversion F; subst. inversion D as [|? ? ? a' b' ? F' D' Ls']; subst. inversion F'; subst.
    cbn [length] in *. assert (a' = 0)%nat as -> by lia. match goal with X : Z.abs _ < _ |- _ => vm_compute in X; discriminate end.
Qed.

Print Assumptions C100_key.
Print Assumptions C100_list.
