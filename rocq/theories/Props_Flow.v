(** Properties of whole workflows: what private values can influence in a packed file (C72),
    re-encrypting and splitting parsed files (C73). *)
From Verif Require Import PyBase IntBytes Utf8 StructFmt Stream Text Classes Key Crypto PrivateKeyList.
From Verif Require Import SpecWire SpecKey SpecText SpecCrypto SpecList.
From Verif Require Import ProofBase ProofInt ProofUtf8 ProofWire ProofRecord ProofKey ProofLog ProofErr ProofText ProofCrypto ProofList ProofRead.
From Verif Require Import Props_Key Props_Crypto Props_List Props_Parse Props_Round Props_Edit.
Open Scope Z_scope.

(** ** C72 *)
Lemma forall2_same {A B C} (f : A -> res C) (g : B -> res C) l1 l2 x y :
  Forall2 (fun a b => f a = g b) l1 l2 -> Forall2 (fun a c => f a = Ok c) l1 x -> Forall2 (fun b c => g b = Ok c) l2 y -> x = y.
Proof.
  intros F. revert x y. induction F as [|a b l1 l2 E F IH]; intros x y Fx Fy; inversion Fx; inversion Fy; subst; [reflexivity|].
  f_equal; [congruence|auto].
Qed.
Lemma list_names_fun l c k c' k' : list_names l c k -> list_names l c' k' -> c = c' /\ k = k'.
Proof. intros H H'. apply list_names_iff in H. apply list_names_iff in H'. split; congruence. Qed.

(** Pack any two lists with the same cipher and KDF names and options, whose public sections
    agree. The files have a common first part, which holds the header and the public keys;
    what follows is the encrypted section. If that is the same, so are the files. *)
Theorem C72_private_values_only_in_ciphertext p e1 e2 l1 l2 given1 given2 idx1 idx2 ov1 ov2 retain1 retain2 b1 b2 cn kn d sel1 sel2 :
  sound_prims p ->
  snd (list_pack_bytes p e1 l1 given1 idx1 ov1 retain1) = Ok b1 ->
  snd (list_pack_bytes p e2 l2 given2 idx2 ov2 retain2) = Ok b2 ->
  list_names l1 (VStr cn) (VStr kn) -> list_names l2 (VStr cn) (VStr kn) ->
  options_used e1 l1 retain1 kn d -> options_used e2 l2 retain2 kn d ->
  chosen (l_pairs l1) idx1 sel1 -> chosen (l_pairs l2) idx2 sel2 ->
  Forall2 (fun q1 q2 => pack_public_bytes (if ov1 then pr_private q1 else pr_public q1) =
                        pack_public_bytes (if ov2 then pr_private q2 else pr_public q2)) sel1 sel2 ->
  exists common body1 tag1 body2 tag2 x1 x2 pass1 pass2 plain1 plain2,
    prefixed 4 body1 x1 /\ prefixed 4 body2 x2 /\
    b1 = common ++ x1 ++ tag1 /\ b2 = common ++ x2 ++ tag2 /\
    passphrase_used e1 kn given1 pass1 /\ passphrase_used e2 kn given2 pass2 /\
    enciphers p cn kn d pass1 plain1 (body1 ++ tag1) /\ enciphers p cn kn d pass2 plain2 (body2 ++ tag2) /\
    (body1 ++ tag1 = body2 ++ tag2 -> b1 = b2) /\
    (length plain1 = length plain2 -> length b1 = length b2).
Proof.
  intros S H1 H2 N1 N2 D1 D2 C1 C2 F. apply (pack_layout _ _ _ _ _ _ _ _ S) in H1. apply (pack_layout _ _ _ _ _ _ _ _ S) in H2.
  destruct H1 as (cn1 & kn1 & d1 & o1 & s1 & p1 & v1 & bs1 & pad1 & plain1 & pass1 & body1 & tag1 &
    N1' & D1' & O1 & C1' & _ & P1 & _ & _ & _ & _ & _ & _ & W1 & E1 & T1 & L1).
  destruct H2 as (cn2 & kn2 & d2 & o2 & s2 & p2 & v2 & bs2 & pad2 & plain2 & pass2 & body2 & tag2 &
    N2' & D2' & O2 & C2' & _ & P2 & _ & _ & _ & _ & _ & _ & W2 & E2 & T2 & L2).
  destruct (list_names_fun _ _ _ _ _ N1 N1') as (A & B). injection A as <-. injection B as <-.
  destruct (list_names_fun _ _ _ _ _ N2 N2') as (A & B). injection A as <-. injection B as <-.
  assert (forall e l retain, options_used e l retain kn d -> forall d', options_used e l retain kn d' -> d' = d) as Od.
  { clear. intros e l retain [(-> & H)|(Hr & H)] d' [(Er & H')|(Hr' & H')]; try congruence.
    - destruct Hr'; congruence.
    - destruct Hr; congruence.
    - destruct H as [(-> & ->)|(-> & ->)], H' as [(E & ->)|(E & ->)]; try reflexivity; discriminate E. }
  rewrite (Od _ _ _ D1 _ D1') in *. rewrite (Od _ _ _ D2 _ D2') in *.
  rewrite (chosen_fun _ _ _ _ C1' C1) in *. rewrite (chosen_fun _ _ _ _ C2' C2) in *.
  assert (p1 = p2) as <- by (eapply (forall2_same _ _ _ _ _ _ F); eassumption).
  assert (o1 = o2) as <-.
  { destruct O1 as (ts & vs & I & R & Q), O2 as (ts' & vs' & I' & R' & Q').
    assert (ts = ts') as <-.
    { unfold kdf_specs in I, I'. cbn [In] in I, I'. destruct I as [I|[I|[]]], I' as [I'|[I'|[]]]; try congruence; injection I as E _; injection I' as E' _; rewrite <- E in E'; discriminate E'. }
    assert (NoDup (map fst ts)) as Nd by (unfold kdf_specs in I; cbn [In] in I; destruct I as [I|[I|[]]]; injection I as _ <-; cbn [map fst octets uint32]; repeat constructor; cbn; intuition discriminate).
    assert (vs = vs') as <- by exact (restricts_unique _ _ _ _ Nd R R'). eapply record_canonical_functional; eassumption. }
  destruct L1 as (c & k & o & n & ps & x & Wc & Wk & Po & Ln & Un & Fp & Px & ->).
  destruct L2 as (c' & k' & o' & n' & ps' & x' & Wc' & Wk' & Po' & Ln' & Un' & Fp' & Px' & ->).
  assert (c = c') as <- by (eapply wire_functional; [| |]; [|exact Wc|exact Wc']; intros ? ?; discriminate).
  assert (k = k') as <- by (eapply wire_functional; [| |]; [|exact Wk|exact Wk']; intros ? ?; discriminate).
  assert (o = o') as <- by (eapply prefixed_functional; eassumption).
  assert (n = n') as <- by (rewrite !unsigned_be in *; apply be_value_inj; congruence).
  assert (ps = ps') as <-.
  { clear - Fp Fp'. revert ps' Fp'. induction Fp as [|u v us vs P Fp IH]; intros ps' F'; inversion F' as [|? v' ? vs' P' F2]; subst; [reflexivity|].
    f_equal; [eapply prefixed_functional; eassumption|apply IH; assumption]. }
  assert (length tag1 = length tag2) as Lt.
  { destruct T1 as (m & kl & il & bs & I & E). destruct T2 as (m' & kl' & il' & bs' & I' & E').
    destruct (cipher_table_spec _ _ _ _ _ I) as (cc & G & M & _ & _ & _ & A). destruct (cipher_table_spec _ _ _ _ _ I') as (cc' & G' & M' & _ & _ & _ & A').
    assert (cc = cc') as <- by congruence. rewrite E, E', A, A'. reflexivity. }
  exists (magic ++ c ++ k ++ o ++ n ++ concat ps), body1, tag1, body2, tag2, x, x', pass1, pass2, plain1, plain2.
  split; [exact Px|]. split; [exact Px'|]. split; [rewrite <- !app_assoc; reflexivity|]. split; [rewrite <- !app_assoc; reflexivity|].
  do 4 (split; [assumption|]). split.
  - intros E. assert (length body1 = length body2) as Lb by (apply (f_equal (@length byte)) in E; rewrite !app_length in E; lia).
    destruct (app_inv_len _ _ _ _ E Lb) as (<- & <-). assert (x = x') as <- by (eapply prefixed_functional; eassumption). reflexivity.
  - intros Lp. destruct T1 as (m & kl & il & bs & I & _). destruct (cipher_table_spec _ _ _ _ _ I) as (cc & G & _).
    pose proof (encrypt_tag _ _ _ _ _ _ _ _ S G E1) as X1. pose proof (encrypt_tag _ _ _ _ _ _ _ _ S G E2) as X2. rewrite app_length in X1, X2.
    pose proof (prefixed_length _ _ _ Px). pose proof (prefixed_length _ _ _ Px'). rewrite !app_length. lia.
Qed.

(** ** C73 *)
(** The same key without what was found outside of it (remainder, clear text). *)
Definition without_clear (k : key) : key := mkkey (k_kind k) (k_header k) (k_pcls k) (k_params k) (k_footer k) [].

Lemma restricts_self ks d d' : NoDup ks -> dkeys d = ks -> restricts ks d d' -> d' = d.
Proof. intros N E R. refine (restricts_unique ks d d' d N R _). split; [exact E|reflexivity]. Qed.
Lemma is_key_cls t k k' : is_key t k -> is_key t k' -> k_kind k = k_kind k' -> k_pcls k = k_pcls k'.
Proof. intros (_ & A) (_ & B) E. rewrite E in A. rewrite A in B. injection B as B. exact B. Qed.
Lemma same_private_parsed k k' x : private_blob k x -> same_private k k' -> k' = k.
Proof.
  intros (t & pub & priv & Hs & Hk & Kd & Hh & Hp & Hf & Hc & _) (t' & pub' & priv' & Hs' & Hk1 & Hk2 & Kd' & Hh' & Rp & Rf & Hc').
  assert (t' = t) as -> by (destruct Hk as (G & _), Hk1 as (G1 & _); rewrite G in G1; injection G1 as G1; symmetry; exact G1).
  pose proof (key_specs_fun _ _ _ Hs Hs') as E. injection E as <- <-.
  pose proof (is_key_cls _ _ _ Hk2 Hk ltac:(congruence)) as Ec.
  destruct (spec_private _ _ _ Hs) as (c & _ & _ & Nd & _).
  apply (restricts_self _ _ _ Nd Hp) in Rp. apply (restricts_self [str "comment"] _ _ (nodup_one _) Hf) in Rf.
  destruct k as [a1 a2 a3 a4 a5 a6], k' as [b1 b2 b3 b4 b5 b6]. cbn [k_kind k_header k_pcls k_params k_footer k_clear] in *. subst. reflexivity.
Qed.

Lemma same_public_parsed ec x lg k k' : key_from_bytes ec KPub x None = (lg, Ok k) -> same_public k k' -> k' = without_clear k.
Proof.
  intros H (t & pub & priv & Hs & Hk1 & Hk2 & Kd & Hh & Rp & Hf & Hc).
  destruct (key_from_bytes_sound _ _ _ _ _ _ H) as (t1 & pub1 & priv1 & ts & ps & fo & b & rest & c & l1 & k1 & Hs1 & Ft & _ & Hp & Hfo & Hcl & _ & _ & Ek1 & E).
  cbn [fields_of fst] in Ft. injection Ft as <-.
  assert (without_clear k = mkkey KPub [(str "key_type", VStr t1)] c ps fo []) as ->.
  { destruct rest; destruct E as (_ & ->); rewrite Ek1; reflexivity. }
  assert (k_header k = [(str "key_type", VStr t1)] /\ k_params k = ps /\ k_kind k = KPub /\ k_pcls k = c) as (Eh & Ep & Ekk & Ec).
  { destruct rest; destruct E as (_ & ->); rewrite Ek1; repeat split. }
  assert (t1 = t) as -> by (destruct Hk1 as (G & _); rewrite Eh in G; cbn [dget] in G; rewrite str_eqb_refl in G; congruence).
  pose proof (key_specs_fun _ _ _ Hs Hs1) as Es. injection Es as <- <-.
  destruct (spec_public _ _ _ Hs) as (c' & _ & _ & Nd & _).
  assert (dkeys (k_params k) = map fst pub) as Hp' by (rewrite Ep; symmetry; exact Hp).
  apply (restricts_self _ _ _ Nd Hp') in Rp.
  pose proof (is_key_cls _ _ _ Hk2 Hk1 ltac:(congruence)) as Ec'.
  assert (fo = []) as -> by (destruct fo; [reflexivity|discriminate Hfo]).
  destruct k' as [y1 y2 y3 y4 y5 y6]. cbn [k_kind k_header k_pcls k_params k_footer k_clear] in *. congruence.
Qed.

(** A file is parsed; any of its pairs, in any order, are put in a list with any cipher and KDF
    (another passphrase, another cipher, some of the keys only); the list is packed. Parsing the
    result with the new passphrase gives the selected pairs with identical private keys, and the
    identical public keys (up to bytes that followed a key inside its string, which were reported
    when the first file was parsed, and are dropped). *)
Theorem C73_rewriting_keeps_the_keys p e1 e2 e3 b1 given1 lg1 l l2 given2 given3 idx ov retain b2 sel :
  sound_prims p -> Z.of_nat (length b1) <= ssize_max -> Z.of_nat (length b2) <= ssize_max ->
  list_from_bytes p e1 b1 given1 = (lg1, Ok l) ->
  incl (l_pairs l2) (l_pairs l) ->
  snd (list_pack_bytes p e2 l2 given2 idx ov retain) = Ok b2 ->
  chosen (l_pairs l2) idx sel ->
  (forall kn pass, passphrase_used e2 kn given2 pass -> passphrase_used e3 kn given3 pass) ->
  exists lg l3, list_from_bytes p e3 b2 given3 = (lg, Ok l3) /\
    Forall2 (fun q q' => pr_private q' = pr_private q /\
                         (ov = false -> pr_public q' = without_clear (pr_public q)) /\
                         (ov = true -> same_public (pr_private q) (pr_public q'))) sel (l_pairs l3) /\
    ~ In (Warn WCheckInts) lg /\ ~ In (Warn WPadding) lg.
Proof.
  intros S L1 L2 H1 I H2 C Hpass. destruct (parsed_pairs _ _ _ _ _ _ S L1 H1) as (Ip & Rp & _).
  assert (incl sel (l_pairs l2)) as Is.
  { destruct idx as [idx|]; cbn [chosen] in C; [|subst; apply incl_refl]. clear - C. induction C as [|i x idx sel H C IH]; intros y Y; [destruct Y|].
    destruct Y as [<-|Y]; [|exact (IH y Y)]. destruct H as [(_ & H)|(_ & _ & H)]; apply nth_error_In in H; exact H. }
  assert (Forall is_pair sel) as Ips by (rewrite Forall_forall in Ip |- *; intros q Q; apply Ip, I, Is, Q).
  assert (Forall (fun q => reparses (p_ec_ok p) (pr_public q)) sel) as Rps by (rewrite Forall_forall in Rp |- *; intros q Q; apply Rp, I, Is, Q).
  destruct (C24_roundtrip p e2 e3 l2 given2 given3 idx ov retain b2 sel S L2 H2 C Ips (fun _ => Rps) Hpass) as (lg & l3 & E & F & N1 & N2 & _).
  exists lg, l3. split; [exact E|]. split; [|split; assumption].
  assert (snd (list_from_bytes p e1 b1 given1) = Ok l) as E1 by (rewrite H1; reflexivity).
  apply (C58_from_bytes_exact p e1 b1 given1 l S L1) in E1.
  destruct E1 as (cn & kn & opts & pubs & body & tag & extra & d & pass & plain & c1 & c2 & privs & pad & pairs &
    _ & _ & _ & _ & _ & _ & _ & Fp & Fv & El).
  assert (l_pairs l = pairs) as Epairs by (rewrite El; reflexivity). rewrite Epairs in I. clear El.
  assert (forall q, In q pairs -> (exists x lg, key_from_bytes (p_ec_ok p) KPub x None = (lg, Ok (pr_public q))) /\ exists x, private_blob (pr_private q) x) as Hq.
  { clear - Fp Fv. revert privs Fv. induction Fp as [|q x pairs pubs (lg & H) Fp IH]; intros privs Fv q' Q; [destruct Q|].
    inversion Fv as [|? y ? privs' B Fv']; subst. destruct Q as [<-|Q]; [|eapply IH; eassumption]. split; [exists x, lg; exact H|exists y; exact B]. }
  assert (forall q, In q sel -> In q pairs) as Iq by (intros q Q; apply I, Is, Q). clear - F Iq Hq.
  induction F as [|q q' sel0 qs (A & B) F IH]; constructor; [|apply IH; intros; apply Iq; right; assumption].
  destruct (Hq q (Iq q (or_introl eq_refl))) as ((x & lg & Hx) & y & Hy).
  split; [exact (same_private_parsed _ _ _ Hy A)|]. split; intros ->; [exact (same_public_parsed _ _ _ _ _ Hx B)|exact B].
Qed.
(** With no such bytes in the public keys, the pairs are the same objects' values. *)
Theorem C73_rewriting_is_identity p e1 e2 e3 b1 given1 lg1 l l2 given2 given3 idx retain b2 sel :
  sound_prims p -> Z.of_nat (length b1) <= ssize_max -> Z.of_nat (length b2) <= ssize_max ->
  list_from_bytes p e1 b1 given1 = (lg1, Ok l) ->
  Forall (fun q => k_clear (pr_public q) = []) (l_pairs l) ->
  incl (l_pairs l2) (l_pairs l) ->
  snd (list_pack_bytes p e2 l2 given2 idx false retain) = Ok b2 ->
  chosen (l_pairs l2) idx sel ->
  (forall kn pass, passphrase_used e2 kn given2 pass -> passphrase_used e3 kn given3 pass) ->
  exists lg l3, list_from_bytes p e3 b2 given3 = (lg, Ok l3) /\ l_pairs l3 = sel.
Proof.
  intros S L1 L2 H1 Hc I H2 C Hpass.
  destruct (C73_rewriting_keeps_the_keys p e1 e2 e3 b1 given1 lg1 l l2 given2 given3 idx false retain b2 sel S L1 L2 H1 I H2 C Hpass) as (lg & l3 & E & F & _).
  exists lg, l3. split; [exact E|].
  assert (incl sel (l_pairs l)) as Is.
  { intros x X. apply I. destruct idx as [idx|]; cbn [chosen] in C; [|subst; exact X]. clear - C X. induction C as [|i y idx sel H C IH]; [destruct X|].
    destruct X as [<-|X]; [|exact (IH X)]. destruct H as [(_ & H)|(_ & _ & H)]; apply nth_error_In in H; exact H. }
  rewrite Forall_forall in Hc. assert (forall q, In q sel -> k_clear (pr_public q) = []) as Hs by (intros q Q; apply Hc, Is, Q). clear - F Hs.
  induction F as [|q q' sel0 qs (A & B & _) F IH]; [reflexivity|]. f_equal; [|apply IH; intros; apply Hs; right; assumption].
  specialize (B eq_refl). specialize (Hs q (or_introl eq_refl)). destruct q as [pu pv], q' as [pu' pv']. cbn [pr_private pr_public] in *.
  rewrite A, B. destruct pu as [a1 a2 a3 a4 a5 a6]. cbn [k_clear] in Hs. subst. reflexivity.
Qed.

(** *** A parsed file can be packed again *)
Lemma shorten t v b : wire t v b -> writable v t -> Z.of_nat (length b) <= ssize_max ->
  exists b', canonical t v b' /\ (length b' <= length b)%nat.
Proof.
  intros W Wr L. assert ((forall k, t <> TMpint k) -> exists b', canonical t v b' /\ (length b' <= length b)%nat) as K.
  { intros N. exists b. split; [|lia]. split; [exact W|]. intros b' W'. rewrite (wire_functional t v b' b); auto. }
  destruct t; try (apply K; intros; discriminate). clear K. inversion W as [| |k0 u b0 Pf| |]; subst. cbn [writable] in Wr.
  pose proof (prefixed_length _ _ _ Pf) as Lu. pose proof (mpint_len_shortest _ u eq_refl) as M.
  destruct (write_mpint_succeeds (signed u) ltac:(lia) Wr) as (u' & Hu).
  pose proof (proj1 (write_mpint_payload_iff _ _) Hu) as (S' & L' & _).
  destruct Pf as (pl & Lpl & Vl & ->). rewrite unsigned_be in Vl. pose proof (be_value_range pl) as Rg.
  assert (prefixed k u' (be_bytes k (Z.of_nat (length u')) ++ u')) as Pf'.
  { eexists. split; [apply be_bytes_length|]. split; [|reflexivity]. rewrite unsigned_be, be_value_be_bytes. apply Z.mod_small. rewrite Lpl in *. lia. }
  exists (be_bytes k (Z.of_nat (length u')) ++ u'). rewrite <- S'. split.
  - split; [constructor; exact Pf'|]. intros b' W'. inversion W' as [| |? w b1 Pw Ew| |]; subst. rewrite (prefixed_length _ _ _ Pf'), (prefixed_length _ _ _ Pw).
    pose proof (mpint_len_shortest _ w eq_refl) as Mw. match goal with E : signed w = _ |- _ => rewrite E in Mw end. rewrite S' in Mw. lia.
  - rewrite !app_length, be_bytes_length. lia.
Qed.
Lemma shorten_record ts vs b : record_of wire ts vs b -> NoDup (map fst ts) -> no_gap ts vs -> Z.of_nat (length b) <= ssize_max ->
  exists b', record_of canonical ts vs b' /\ (length b' <= length b)%nat.
Proof.
  intros R. induction R as [|k t ts v vs b bs W R IH]; intros N G L; [exists []; split; [constructor|cbn; lia]|].
  cbn [map fst] in N. inversion N as [|? ? Nk N']; subst. rewrite app_length in L.
  assert (writable v t) as Wr.
  { destruct t; cbn [writable]; auto. destruct v; auto. eapply (G k); [left; reflexivity|]. cbn [dget]. rewrite str_eqb_refl. reflexivity. }
  destruct (shorten _ _ _ W Wr ltac:(lia)) as (b1 & C1 & L1).
  destruct (IH N') as (b2 & C2 & L2); [|lia|exists (b1 ++ b2); split; [constructor; assumption|rewrite !app_length; lia]].
  intros x j z Hin Hg. apply (G x j z); [right; exact Hin|]. cbn [dget]. destruct (str_eqb_reflect x k) as [->|Ne]; [|exact Hg].
  exfalso. apply Nk. apply in_map_iff. exists (k, TMpint j). auto.
Qed.
(** No parameter is one of the negative integers that cannot be written (C05). No key that
    OpenSSH generates has a negative parameter. *)
Definition writable_params (k : key) : Prop := forall x z, dget x (k_params k) = Some (VInt z) -> ~ mpint_gap z.
Lemma spec_fields_nodup t pub priv : In (t, (pub, priv)) key_specs ->
  NoDup (map fst (type_field :: pub)) /\ forall ps, priv = Some ps -> NoDup (map fst (type_field :: ps ++ [comment_field])).
Proof.
  intros H. each_spec H; injection H as <- <- <-; (split; [apply nodupb_sound; vm_compute; reflexivity|]);
    intros ps E; try discriminate E; injection E as <-; apply nodupb_sound; vm_compute; reflexivity.
Qed.
Lemma parsed_public_packs ec x lg k : key_from_bytes ec KPub x None = (lg, Ok k) -> writable_params k -> Z.of_nat (length x) <= ssize_max ->
  exists y, pack_public_bytes k = Ok y /\ (length y <= length x)%nat.
Proof.
  intros H G L. pose proof (C17_parsed_keys_have_types _ _ _ _ _ _ H) as (Kd & t0 & _ & _ & _ & Hk0).
  destruct (key_from_bytes_sound _ _ _ _ _ _ H) as (t & pub & priv & ts & ps & fo & b & rest & c & l1 & k1 & Hs & Ft & R & Hp & Hfo & Hcl & Ex & _ & Ek1 & E).
  cbn [fields_of fst] in Ft. injection Ft as <-.
  assert (k_header k = [(str "key_type", VStr t)] /\ k_params k = ps) as (Eh & Ep) by (destruct rest; destruct E as (_ & ->); rewrite Ek1; split; reflexivity).
  assert (t0 = t) as -> by (destruct Hk0 as (G0 & _); rewrite Eh in G0; cbn [dget] in G0; rewrite str_eqb_refl in G0; congruence).
  assert (fo = []) as -> by (destruct fo; [reflexivity|discriminate Hfo]).
  unfold key_fields in R. cbn [footer_fields] in R. rewrite !app_nil_r in R.
  subst x. rewrite app_length in *. destruct (spec_fields_nodup _ _ _ Hs) as (Nd & _).
  assert (no_gap (type_field :: pub) ([(str "key_type", VStr t)] ++ ps)) as Ng.
  { intros y j z [Ey|Hin] Hg; [discriminate Ey|]. cbn [app dget] in Hg. destruct (str_eqb_reflect y (str "key_type")) as [Ey|Ne]; [discriminate Hg|]. apply (G y z). rewrite Ep. exact Hg. }
  destruct (shorten_record _ _ _ R Nd Ng ltac:(lia)) as (y & C & Ly). exists y. split; [|lia].
  apply (pack_public_intro t pub priv k ps y Hs Hk0); [|exact C| |lia].
  - rewrite Ep. split; [symmetry; exact Hp|reflexivity].
  - intros a j z Hin Hg. apply (G a z). rewrite Ep. exact Hg.
Qed.
Lemma dget_either x (a b : dict pyval) : dget x (a ++ b) = match dget x a with Some v => Some v | None => dget x b end.
Proof. induction a as [|(y, v) a IH]; [reflexivity|]. cbn [app dget]. destruct (str_eqb x y); [reflexivity|exact IH]. Qed.
Lemma parsed_private_packs k x : private_blob k x -> writable_params k -> Z.of_nat (length x) <= ssize_max ->
  exists y, pack_private_bytes k = Ok y /\ (length y <= length x)%nat.
Proof.
  intros (t & pub & priv & Hs & Hk & Kd & Eh & Ep & Ef & Ec & R) G L.
  destruct (spec_fields_nodup _ _ _ Hs) as (_ & Nd). specialize (Nd _ eq_refl).
  destruct (k_footer k) as [|(ck, co) [|]] eqn:F; try discriminate Ef. cbn [dkeys map fst] in Ef. injection Ef as ->. rewrite Eh in R.
  assert (In (str "comment", TText 4) (type_field :: priv ++ [comment_field])) as Ic by (right; apply in_or_app; right; left; reflexivity).
  assert (no_gap (type_field :: priv ++ [comment_field]) ([(str "key_type", VStr t)] ++ k_params k ++ [(str "comment", co)])) as Ng.
  { intros y j z Hin Hg. assert (y <> str "comment") as Nc by (intros ->; pose proof (nodup_in_type _ _ _ _ Nd Hin Ic); discriminate).
    cbn [app dget] in Hg. destruct (str_eqb_reflect y (str "key_type")) as [Ey|Ne]; [discriminate Hg|]. rewrite (dget_either y (k_params k)) in Hg.
    destruct (dget y (k_params k)) as [v|] eqn:D; [apply (G y z); congruence|]. cbn [dget] in Hg. destruct (str_eqb_reflect y (str "comment")); [contradiction|discriminate]. }
  destruct (shorten_record _ _ _ R Nd Ng L) as (y & C & Ly). exists y. split; [|exact Ly].
  apply (pack_private_intro t pub priv k (k_params k) co y Hs Hk Kd); [| |exact C| |lia].
  - split; [exact Ep|reflexivity].
  - rewrite F. cbn [dget]. rewrite str_eqb_refl. reflexivity.
  - intros a j z Hin Hg. apply (G a z Hg).
Qed.
Lemma concat_le (xs ys : list bytes) : Forall2 (fun y x => (length y <= length x)%nat) ys xs -> (length (concat ys) <= length (concat xs))%nat.
Proof. intros F. induction F as [|y x ys xs H F IH]; [cbn; lia|]. cbn [concat]. rewrite !app_length. lia. Qed.
Lemma prefixed_sum pubs ps : Forall2 (prefixed 4) pubs ps -> length (concat ps) = (length (concat pubs) + 4 * length pubs)%nat.
Proof. intros F. induction F as [|y x ys xs H F IH]; [reflexivity|]. cbn [concat length]. rewrite !app_length, (prefixed_length _ _ _ H). lia. Qed.
(** Changing the passphrase, or encrypting, of any file that can be parsed works: pack_bytes
    succeeds, and parsing the result with the new passphrase gives back the keys. *)
Theorem C73_changing_the_passphrase_works p e1 e2 e3 b1 given1 lg1 l l2 cn m kl il bs new r :
  sound_prims p -> Z.of_nat (length b1) < 2 ^ 31 - 512 ->
  list_from_bytes p e1 b1 given1 = (lg1, Ok l) ->
  Forall (fun q => writable_params (pr_public q) /\ writable_params (pr_private q)) (l_pairs l) ->
  l_pairs l2 = l_pairs l -> list_names l2 (VStr cn) (VStr (str "bcrypt")) ->
  In (cn, (m, kl, il, bs)) cipher_table ->
  0 <= e_randbits e2 < 2 ^ 32 -> length (e_salt e2) = 16%nat ->
  derives p [(str "salt", VBytes (e_salt e2)); (str "rounds", VInt 16)] new (kl + il) r ->
  exists b2 lg l3, snd (list_pack_bytes p e2 l2 (Some new) None false false) = Ok b2 /\
    list_from_bytes p e3 b2 (Some new) = (lg, Ok l3) /\
    Forall2 (fun q q' => pr_private q' = pr_private q /\ pr_public q' = without_clear (pr_public q)) (l_pairs l) (l_pairs l3).
Proof.
  intros S L1 H1 G El2 Hn Ic Hr Hsalt Hd.
  assert (2 ^ 31 < ssize_max) as Hss by reflexivity.
  assert (snd (list_from_bytes p e1 b1 given1) = Ok l) as E1 by (rewrite H1; reflexivity).
  apply (C58_from_bytes_exact p e1 b1 given1 l S ltac:(lia)) in E1.
  destruct E1 as (cn1 & kn1 & opts1 & pubs1 & body1 & tag1 & extra1 & d1 & pass1 & plain1 & c1 & c2 & privs1 & pad1 & pairs &
    Hf & _ & _ & _ & Ht & He & Hpl & Fp & Fv & El).
  assert (l_pairs l = pairs) as Epairs by (rewrite El; reflexivity). clear El.
  assert (Z.of_nat (length (concat pubs1)) + 4 * Z.of_nat (length pubs1) + Z.of_nat (length (concat privs1)) <= Z.of_nat (length b1)) as Lsum.
  { destruct Hf as (c & k & o & n & ps & x & _ & _ & _ & _ & _ & Hps & Hx & ->). apply prefixed_length in Hx. apply prefixed_sum in Hps.
    destruct Ht as (m1 & kl1 & il1 & bs1 & I1 & Lt). destruct (cipher_table_spec _ _ _ _ _ I1) as (cc & Ec & Em & _ & _ & _ & Ea).
    pose proof (encrypt_tag _ _ _ _ _ _ _ _ S Ec He) as Le. rewrite app_length in Le. rewrite <- Ea in Le.
    destruct Hpl as (w1 & w2 & _ & _ & _ & _ & Epl). apply (f_equal (@length byte)) in Epl. rewrite !app_length in Epl. rewrite !app_length. lia. }
  assert (length pubs1 = length pairs) as Lpp by (symmetry; exact (Forall2_len _ _ _ Fp)).
  rewrite Epairs in G.
  assert (exists pubs, Forall2 (fun q x => pack_public_bytes (pr_public q) = Ok x) pairs pubs /\ Forall2 (fun y x => (length y <= length x)%nat) pubs pubs1) as (pubs & Hpubs & Lpubs).
  { assert (Z.of_nat (length (concat pubs1)) <= ssize_max) as B by lia. clear - Fp G B.
    induction Fp as [|q x pairs pubs (lg & H) Fp IH]; [exists []; split; constructor|]. inversion G as [|? ? (G1 & _) G']; subst. cbn [concat] in B. rewrite app_length in B.
    destruct (parsed_public_packs _ _ _ _ H G1 ltac:(lia)) as (y & Hy & Ly). destruct (IH G' ltac:(lia)) as (ys & A1 & A2). exists (y :: ys). split; constructor; assumption. }
  assert (exists privs, Forall2 (fun q x => pack_private_bytes (pr_private q) = Ok x) pairs privs /\ Forall2 (fun y x => (length y <= length x)%nat) privs privs1) as (privs & Hprivs & Lprivs).
  { assert (Z.of_nat (length (concat privs1)) <= ssize_max) as B by lia. clear - Fv G B.
    induction Fv as [|q x pairs privs H Fv IH]; [exists []; split; constructor|]. inversion G as [|? ? (_ & G1) G']; subst. cbn [concat] in B. rewrite app_length in B.
    destruct (parsed_private_packs _ _ H G1 ltac:(lia)) as (y & Hy & Ly). destruct (IH G' ltac:(lia)) as (ys & A1 & A2). exists (y :: ys). split; constructor; assumption. }
  apply concat_le in Lpubs. apply concat_le in Lprivs.
  set (d := [(str "salt", VBytes (e_salt e2)); (str "rounds", VInt 16)]) in *.
  assert (exists opts, options_of (str "bcrypt") d opts /\ length opts = 24%nat) as (opts & Ho & Lo).
  { destruct (prefixed_exists (e_salt e2) ltac:(rewrite Hsalt; reflexivity)) as (sb & Hsb).
    destruct (word_exists 16 ltac:(lia)) as (rb & Lrb & Urb).
    exists (sb ++ rb ++ []). split; [|rewrite !app_length, (prefixed_length _ _ _ Hsb), Hsalt; cbn [length]; lia].
    exists [octets "salt"; uint32 "rounds"], d. split; [right; left; reflexivity|]. split; [split; [reflexivity|intros; reflexivity]|].
    constructor; [|constructor; [|constructor]].
    - split; [constructor; exact Hsb|]. intros b' W. assert (b' = sb) as ->; [|lia]. refine (wire_functional (TBytes 4) _ b' sb _ W (wire_bytes _ _ _ Hsb)). discriminate.
    - assert (wire (TInt true false 4) (VInt 16) rb) as Wr by (constructor; [exact Lrb|symmetry; exact Urb]).
      split; [exact Wr|]. intros b' W. assert (b' = rb) as ->; [|lia]. refine (wire_functional (TInt true false 4) _ b' rb _ W Wr). discriminate. }
  destruct (C24_pack_succeeds p e2 l2 (Some new) None false false cn (str "bcrypt") m kl il bs d opts (l_pairs l2) pubs privs new S Hn Ic) as (b2 & E2 & L2).
  - right. split; [left; reflexivity|]. right. split; reflexivity.
  - exact Ho.
  - reflexivity.
  - rewrite El2, Epairs. exact Hpubs.
  - rewrite El2, Epairs. exact Hprivs.
  - exact Hr.
  - right. split; [intros K; discriminate K|reflexivity].
  - intros _. split; [reflexivity|exists r; exact Hd].
  - rewrite El2, Epairs, Lo. lia.
  - assert (forall kn pass, passphrase_used e2 kn (Some new) pass -> passphrase_used e3 kn (Some new) pass) as Hpass by (intros ? ? K; exact K).
    destruct (C73_rewriting_keeps_the_keys p e1 e2 e3 b1 given1 lg1 l l2 (Some new) (Some new) None false false b2 (l_pairs l2) S ltac:(lia) L2 H1
      ltac:(rewrite El2; apply incl_refl) E2 eq_refl Hpass) as (lg & l3 & E3 & F & _).
    exists b2, lg, l3. split; [exact E2|]. split; [exact E3|]. rewrite <- El2. clear - F. induction F as [|q q' qs qs' (A & B & _) F IH]; constructor; [auto|exact IH].
Qed.

(** ** Concrete cases *)
(** Another secret for the first key: the files have the same length, and agree up to the
    encrypted section. *)
Definition ex_pairs' : list pair :=
  [mkpair ex_ed_public (mkkey KPriv (k_header ex_ed) EdPriv
     [(str "public", VBytes ex_ed_pub); (str "private_public", VBytes (repeat x07 32 ++ ex_ed_pub))] (k_footer ex_ed) []);
   mkpair ex_rsa_public ex_rsa].
Definition ex_list' : pkl := mkpkl ex_pairs' None (l_header ex_list) None None None None None.
Definition ex_file' : bytes := Eval vm_compute in
  match snd (list_pack_bytes toy_prims ex_env ex_list' (Some (str "pw")) None true false) with Ok b => b | Err _ => [] end.
Definition ex_options : dict pyval := [(str "salt", VBytes (e_salt ex_env)); (str "rounds", VInt 16)].
Lemma ex_names : list_names ex_list (VStr (str "aes256-gcm@openssh.com")) (VStr (str "bcrypt")).
Proof. left. eexists. split; [reflexivity|split; reflexivity]. Qed.
Lemma ex_options_used l : options_used ex_env l false (str "bcrypt") ex_options.
Proof. right. split; [left; reflexivity|]. right. split; reflexivity. Qed.
Example C72_example :
  snd (list_pack_bytes toy_prims ex_env ex_list (Some (str "pw")) None true false) = Ok ex_file /\
  snd (list_pack_bytes toy_prims ex_env ex_list' (Some (str "pw")) None true false) = Ok ex_file' /\
  list_names ex_list (VStr (str "aes256-gcm@openssh.com")) (VStr (str "bcrypt")) /\
  list_names ex_list' (VStr (str "aes256-gcm@openssh.com")) (VStr (str "bcrypt")) /\
  options_used ex_env ex_list false (str "bcrypt") ex_options /\ options_used ex_env ex_list' false (str "bcrypt") ex_options /\
  Forall2 (fun q1 q2 => pack_public_bytes (pr_private q1) = pack_public_bytes (pr_private q2)) ex_pairs ex_pairs' /\
  ex_file <> ex_file' /\ length ex_file = length ex_file' /\ firstn 150 ex_file = firstn 150 ex_file'.
Proof.
  split; [vm_compute; reflexivity|]. split; [vm_compute; reflexivity|]. split; [exact ex_names|]. split; [exact ex_names|].
  split; [apply ex_options_used|]. split; [apply ex_options_used|].
  split; [constructor; [vm_compute; reflexivity|constructor; [vm_compute; reflexivity|constructor]]|].
  split; [discriminate|]. split; vm_compute; reflexivity.
Qed.
(** The keys of [ex_file], in the other order, under another cipher and passphrase. *)
Definition ex_rewritten : pkl :=
  mkpkl (rev (l_pairs ex_parsed)) None (Some [(str "cipher", VStr (str "aes128-cbc")); (str "kdf", VStr (str "bcrypt"))]) None None None None None.
Example C73_example :
  list_from_bytes toy_prims ex_env ex_file None = ([Prompt], Ok ex_parsed) /\
  Forall (fun q => k_clear (pr_public q) = []) (l_pairs ex_parsed) /\ incl (l_pairs ex_rewritten) (l_pairs ex_parsed) /\
  Forall (fun q => writable_params (pr_public q) /\ writable_params (pr_private q)) (l_pairs ex_parsed) /\
  derives toy_prims ex_options (str "new") (16 + 16) (p_bcrypt toy_prims (bstr "new") (e_salt ex_env) 32 16) /\
  exists b, snd (list_pack_bytes toy_prims ex_env ex_rewritten (Some (str "new")) None false false) = Ok b /\
    exists lg l3, list_from_bytes toy_prims ex_env b (Some (str "new")) = (lg, Ok l3) /\ l_pairs l3 = rev (l_pairs ex_parsed).
Proof.
  split; [vm_compute; reflexivity|]. split; [repeat constructor|].
  split; [intros q Q; apply (proj2 (in_rev (l_pairs ex_parsed) q)); exact Q|].
  assert (forall d : dict pyval, Forall (fun v => match snd v with VInt z => 0 <= z | _ => True end) d ->
    forall x z, dget x d = Some (VInt z) -> ~ mpint_gap z) as Hd.
  { intros d F x z H (j & _ & G). assert (0 <= z) as Hz.
    { clear - F H. induction F as [|(y, v) d Hv F IH]; [discriminate|]. cbn [dget] in H. destruct (str_eqb x y); [injection H as ->; exact Hv|exact (IH H)]. }
    pose proof (Z.pow_nonneg 2 (8 * j - 1)). lia. }
  split; [constructor; [|constructor; [|constructor]]; split; unfold writable_params; apply Hd; repeat constructor; cbn; lia|].
  split.
  { exists (bstr "new"), (e_salt ex_env), 16. split; [apply (proj1 (utf8_encode_iff _ _)); vm_compute; reflexivity|]. split; [discriminate|].
    split; [reflexivity|]. split; [discriminate|]. split; [reflexivity|]. split; [lia|reflexivity]. }
  eexists. split; [vm_compute; reflexivity|]. do 2 eexists. split; [vm_compute; reflexivity|reflexivity].
Qed.

Print Assumptions C72_private_values_only_in_ciphertext.
Print Assumptions C73_rewriting_keeps_the_keys.
Print Assumptions C73_rewriting_is_identity.
Print Assumptions C73_changing_the_passphrase_works.
