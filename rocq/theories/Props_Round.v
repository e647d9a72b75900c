(** Packing and parsing private key lists: C24, C39 (survival), C59. *)
From Verif Require Import PyBase IntBytes Utf8 StructFmt Stream Text Classes Key Crypto PrivateKeyList.
From Verif Require Import SpecWire SpecKey SpecText SpecCrypto SpecList.
From Verif Require Import ProofBase ProofInt ProofUtf8 ProofWire ProofRecord ProofKey ProofLog ProofErr ProofText ProofCrypto ProofList.
From Verif Require Import Props_Stream Props_Key Props_Crypto ProofRead Props_List Props_Parse.
Open Scope Z_scope.

(** ** Keys *)
Lemma private_key_type t k : is_key t k -> k_kind k = KPriv -> exists pub priv, In (t, (pub, Some priv)) key_specs.
Proof.
  intros (_ & Hc) Ek. rewrite Ek in Hc. cbn [params_class] in Hc.
  destruct (in_dec (list_eq_dec N.eq_dec) t (map fst key_specs)) as [I|N].
  - apply in_map_iff in I as ((t' & (pub & [priv|])) & <- & I); [exists pub, priv; exact I|].
    cbn [fst] in *. rewrite (spec_cert_no_private _ _ I) in Hc. discriminate.
  - apply unknown_type in N as (_ & N). rewrite N in Hc. discriminate.
Qed.
Lemma packed_private k t x : is_key t k -> k_kind k = KPriv -> pack_private_bytes k = Ok x ->
  exists k', private_blob k' x /\ same_private k k'.
Proof.
  intros Hk Ek E. destruct (private_key_type _ _ Hk Ek) as (pub & priv & Hs).
  destruct (pack_private_layout _ _ _ _ _ Hs Hk Ek E) as (vs & co & Rs & Gc & R).
  assert (is_key t (mkkey KPriv [(str "key_type", VStr t)] (k_pcls k) vs [(str "comment", co)] [])) as Hk'.
  { split; [cbn [k_header dget]; rewrite str_eqb_refl; reflexivity|]. destruct Hk as (_ & Hc). rewrite Ek in Hc. exact Hc. }
  eexists. split.
  - exists t, pub, priv. split; [exact Hs|]. split; [exact Hk'|]. do 2 (split; [reflexivity|]).
    split; [exact (proj1 Rs)|]. do 2 (split; [reflexivity|]). apply record_canonical_wire in R. exact R.
  - exists t, pub, priv. split; [exact Hs|]. split; [exact Hk|]. split; [exact Hk'|]. do 2 (split; [reflexivity|]).
    split; [exact Rs|]. split; [|reflexivity]. split; [reflexivity|]. intros y [<-|[]]. cbn [k_footer dget]. rewrite str_eqb_refl, Gc. reflexivity.
Qed.
Lemma packed_public ec k t pub priv x : In (t, (pub, Some priv)) key_specs -> is_key t k ->
  pack_public_bytes k = Ok x -> Z.of_nat (length x) <= ssize_max ->
  exists lg k', key_from_bytes ec KPub x None = (lg, Ok k') /\ ~ In (Warn WExcess) lg /\ same_public k k'.
Proof.
  intros Hs Hk E L. destruct (C17_public_bytes_roundtrip ec _ _ _ _ _ Hs Hk E L) as (lg & k' & E' & X & A1 & A2 & A3 & A4 & A5 & A6).
  exists lg, k'. split; [exact E'|]. split; [exact X|]. exists t, pub, (Some priv). auto 10.
Qed.
Lemma is_key_fun t t' k : is_key t k -> is_key t' k -> t = t'.
Proof. intros (A & _) (B & _). congruence. Qed.
Lemma dget_In_keys {A} k (d : dict A) v : dget k d = Some v -> In k (dkeys d).
Proof.
  intros G. destruct (in_dec (list_eq_dec N.eq_dec) k (dkeys d)) as [I|N]; [exact I|].
  apply dget_None in N. congruence.
Qed.
(** The halves of a pair read back from one private key agree. *)
Lemma same_halves_agree k pub' priv' : same_public k pub' -> same_private k priv' ->
  ~ halves_differ_in_type (mkpair pub' priv') /\ ~ halves_differ_in_values (mkpair pub' priv').
Proof.
  intros (t & pb & pv & Hs & Hk & Hk1 & _ & Eh & R & _) (t' & pb' & pv' & Hs' & Hk' & Hk2 & _ & Eh' & R' & _).
  pose proof (is_key_fun _ _ _ Hk Hk') as <-. split.
  - intros D. apply D. cbn [pr_public pr_private]. rewrite Eh, Eh'. reflexivity.
  - intros (x & v & v' & G & G' & N). cbn [pr_public pr_private] in *. apply N.
    destruct R as (D & R), R' as (D' & R').
    assert (In x (map fst pb)) as I by (rewrite <- D; eapply dget_In_keys; exact G).
    assert (In x (map fst pv')) as I' by (rewrite <- D'; eapply dget_In_keys; exact G').
    rewrite (R x I) in G. rewrite (R' x I') in G'. congruence.
Qed.

(** ** The log *)
Lemma in_wbind {A B} ev (x : W A) (f : A -> W B) : In ev (fst (wbind x f)) ->
  In ev (fst x) \/ exists l a, x = (l, Ok a) /\ In ev (fst (f a)).
Proof.
  destruct x as [l [a|e]]; cbn [wbind fst]; [|auto]. destruct (f a) as [l2 r] eqn:E. cbn [fst]. intros H.
  apply in_app_or in H as [H|H]; [auto|]. right. exists l, a. rewrite E. auto.
Qed.
Lemma private_no_excess ec s s' lg k : key_from_stream ec (parse_pub ec) KPriv None s = (s', (lg, Ok k)) -> ~ In (Warn WExcess) lg.
Proof.
  intros H. destruct (key_from_stream_sound _ _ _ _ _ _ _ _ H) as (t & pub & priv & ts & ps & fo & b & c & Hs & Hf & _ & _ & _ & _ & _ & _ & Nk & _).
  cbn [fields_of snd] in Hf. subst priv.
  assert (dget (str "key_type") [(str "key_type", VStr t)] = Some (VStr t)) as G by (cbn [dget]; rewrite str_eqb_refl; reflexivity).
  destruct (new_key_plain_no_excess ec (parse_pub ec) KPriv t pub ts _ ps fo None Hs G) as (l & k' & Nk' & X).
  rewrite Nk in Nk'. injection Nk' as -> _. exact X.
Qed.
Lemma when_no_excess b w s s1 l u : sww (wwhen b (wwarn w)) s = (s1, (l, Ok u)) -> w <> WExcess -> ~ In (Warn WExcess) l.
Proof. unfold sww. destruct b; intros H N; injection H as _ <- _; cbn; [intros [K|[]]; congruence|auto]. Qed.
Lemma read_privs_no_excess p i pubs s s' lg r : read_privs p i pubs s = (s', (lg, Ok r)) -> ~ In (Warn WExcess) lg.
Proof.
  revert i s s' lg r. induction pubs as [|pub pubs IH]; intros i s s' lg r H; cbn [read_privs] in H.
  - injection H as _ <- _. intros [].
  - apply swbind_inv in H as (s1 & l1 & priv & l1' & H1 & H & ->). apply private_no_excess in H1.
    apply swbind_inv in H as (s2 & l2 & kt1 & l2' & H2 & H & ->). unfold sww, wlift in H2. injection H2 as _ <- _.
    apply swbind_inv in H as (s3 & l3 & kt2 & l3' & H2 & H & ->). unfold sww, wlift in H2. injection H2 as _ <- _.
    apply swbind_inv in H as (s4 & l4 & [] & l4' & H4 & H & ->).
    apply swbind_inv in H as (s5 & l5 & [] & l5' & H5 & H & ->).
    apply swbind_inv in H as (s6 & l6 & r' & l6' & H6 & H & ->). apply IH in H6. unfold sww, wret in H. injection H as _ <- _.
    intros K. rewrite !in_app_iff in K. cbn [In] in K.
    assert (~ In (Warn WExcess) l4) by (eapply when_no_excess; [exact H4|discriminate]).
    assert (~ In (Warn WExcess) l5) by (eapply when_no_excess; [exact H5|discriminate]).
    tauto.
Qed.
Lemma parse_deciphered_no_excess p c pubs plain lg r : parse_deciphered p c pubs plain = (lg, Ok r) -> ~ In (Warn WExcess) lg.
Proof.
  unfold parse_deciphered. intros H.
  match type of H with snd (?m ?s) = _ => destruct (m s) as [s0 w] eqn:E end. cbn [snd] in H. subst w.
  apply swbind_inv in E as (s1 & l1 & dh & l1' & H1 & E & ->). unfold swp in H1. destruct (read_dict _ _). injection H1 as _ <- _.
  apply swbind_inv in E as (s2 & l2 & v1 & l2' & H1 & E & ->). unfold sww, wlift in H1. injection H1 as _ <- _.
  apply swbind_inv in E as (s3 & l3 & v2 & l3' & H1 & E & ->). unfold sww, wlift in H1. injection H1 as _ <- _.
  apply swbind_inv in E as (s4 & l4 & [] & l4' & H4 & E & ->).
  apply swbind_inv in E as (s5 & l5 & prs & l5' & H5 & E & ->). apply read_privs_no_excess in H5.
  apply swbind_inv in E as (s6 & l6 & pad & l6' & H6 & E & ->). unfold swp in H6. rewrite read_rest in H6. injection H6 as _ <- _.
  apply swbind_inv in E as (s7 & l7 & [] & l7' & H7 & E & ->). unfold sww, wret in E. injection E as _ <- _.
  intros K. rewrite !in_app_iff in K. cbn [In] in K.
  assert (~ In (Warn WExcess) l4) by (eapply when_no_excess; [exact H4|discriminate]).
  assert (~ In (Warn WExcess) l7) by (eapply when_no_excess; [exact H7|discriminate]).
  tauto.
Qed.
Lemma new_kdf_no_excess k d : ~ In (Warn WExcess) (fst (new_kdf k d)).
Proof. apply no_excess_check_dict. Qed.
Lemma parse_no_excess p e b cn kn opts pubs body tail given lg l :
  file_of cn kn opts pubs body tail b -> Z.of_nat (length pubs) < 2 ^ 31 -> Z.of_nat (length b) <= ssize_max ->
  Forall (fun x => ~ In (Warn WExcess) (fst (key_from_bytes (p_ec_ok p) KPub x None))) pubs ->
  from_bytes_try p e b given = (lg, Ok l) -> ~ In (Warn WExcess) lg.
Proof.
  intros Hf Hn L F H. rewrite (from_bytes_file _ _ _ _ _ _ _ _ _ _ Hf Hn L) in H. unfold parse_file in H.
  apply wbind_inv in H as (l1 & keys & l1' & H1 & H & ->).
  assert (~ In (Warn WExcess) l1) as N1.
  { clear - F H1. revert l1 keys H1. induction F as [|x pubs Nx F IH]; intros l1 keys H; cbn [wmap] in H.
    - injection H as <- _. intros [].
    - apply wbind_inv in H as (l2 & k & l3 & E & H & ->). apply wbind_inv in H as (l4 & r & l5 & E' & H & ->). injection H as <- _.
      unfold pub_from_bytes in E. rewrite E in Nx. cbn [fst] in Nx. apply IH in E'. rewrite !in_app_iff. cbn [In]. tauto. }
  apply wbind_inv in H as (l2 & k & l2' & H2 & H & ->). apply wlift_inv in H2 as (-> & _).
  apply wbind_inv in H as (l3 & d & l3' & H2 & H & ->). apply wlift_inv in H2 as (-> & _).
  apply wbind_inv in H as (l4 & [] & l4' & H4 & H & ->). pose proof (new_kdf_no_excess k d) as N4. rewrite H4 in N4.
  apply wbind_inv in H as (l5 & c & l5' & H2 & H & ->). apply wlift_inv in H2 as (-> & _).
  apply wbind_inv in H as (l6 & pw & l6' & H6 & H & ->).
  assert (~ In (Warn WExcess) l6) as N6.
  { destruct k; [injection H6 as <- _; intros []|]. destruct given; injection H6 as <- _; cbn; intuition discriminate. }
  apply wbind_inv in H as (l7 & tag & l7' & H2 & H & ->). apply wlift_inv in H2 as (-> & _).
  apply wbind_inv in H as (l8 & [] & l8' & H2 & H & ->). rewrite H4 in H2. injection H2 as <-.
  apply wbind_inv in H as (l9 & plain & l9' & H2 & H & ->). apply wlift_inv in H2 as (-> & _).
  apply wbind_inv in H as (l10 & ((prs & dh) & pad) & l10' & H2 & H & ->). apply parse_deciphered_no_excess in H2.
  injection H as <- _. rewrite !in_app_iff. cbn [In fst] in *. tauto.
Qed.

(** ** C24 *)
Lemma packed_options kn d opts : options_of kn d opts -> exists d', options_read kn d' opts /\
  (forall x, dget x d' = None \/ dget x d' = dget x d) /\ (kn = str "bcrypt" -> dget (str "salt") d' = dget (str "salt") d /\ dget (str "rounds") d' = dget (str "rounds") d).
Proof.
  intros (ts & vs & Hin & (Dk & R) & Rec). exists vs. split; [exists ts, opts, []; split; [exact Hin|]; split; [apply record_canonical_wire; exact Rec|rewrite app_nil_r; reflexivity]|].
  split.
  - intros x. destruct (dget x vs) as [v|] eqn:E; [|auto]. right. rewrite <- E. apply R. rewrite <- Dk. eapply dget_In_keys. exact E.
  - intros ->. destruct Hin as [H|[H|[]]]; injection H; intros; [discriminate|]. subst ts. split; apply R; cbn; auto.
Qed.
Lemma enciphers_options p cn kn d d' pass plain x : 
  (kn = str "bcrypt" -> dget (str "salt") d' = dget (str "salt") d /\ dget (str "rounds") d' = dget (str "rounds") d) ->
  enciphers p cn kn d pass plain x -> enciphers p cn kn d' pass plain x.
Proof.
  intros E (m & kl & il & bs & H & [K|(N & Ek & key & iv & L1 & L2 & (pw & salt & rounds & A1 & A2 & A3 & A4 & A5 & A6) & Enc)]); exists m, kl, il, bs; (split; [exact H|]); [auto|].
  right. split; [exact N|]. split; [exact Ek|]. exists key, iv. do 2 (split; [assumption|]). split; [|exact Enc].
  destruct (E Ek) as (E1 & E2). exists pw, salt, rounds. rewrite E1, E2. auto 10.
Qed.
Lemma Forall2_length_le {A} (R : A -> bytes -> Prop) sel xs (n : Z) : Forall2 R sel xs -> Z.of_nat (length (concat xs)) <= n ->
  Forall2 (fun a x => R a x /\ Z.of_nat (length x) <= n) sel xs.
Proof.
  intros F. induction F as [|a x sel xs H F IH]; intros L; constructor; cbn [concat] in L; rewrite app_length in L; [split; [exact H|lia]|apply IH; lia].
Qed.
Lemma concat_prefixed_length us xs : Forall2 (prefixed 4) us xs -> (length (concat us) <= length (concat xs))%nat.
Proof. intros F. induction F as [|u x us xs H F IH]; [lia|]. cbn [concat]. rewrite !app_length. apply prefixed_length in H. lia. Qed.
Lemma choose_keys {A B C} (R : A -> B -> Prop) (S : A -> B -> C -> Prop) la lb :
  Forall2 R la lb -> (forall a b, In a la -> R a b -> exists c, S a b c) -> exists lc, length lc = length la /\ Forall2 (fun ab c => S (fst ab) (snd ab) c) (combine la lb) lc.
Proof.
  intros F. induction F as [|a b la lb H F IH]; intros E; [exists []; split; [reflexivity|constructor]|].
  destruct (E a b (or_introl eq_refl) H) as (c & Hc). destruct IH as (lc & L & Fc); [intros; apply E; [right|]; assumption|].
  exists (c :: lc). split; [cbn; lia|]. cbn [combine]. constructor; [exact Hc|exact Fc].
Qed.
(** What the round trip needs of the public half that is packed: that packing it gives a
    parseable key. It is so for all plain types, and for all constructed public keys. *)
Definition reparses (ec : curve -> bytes -> bool) (k : key) : Prop :=
  (exists t pub priv, In (t, (pub, Some priv)) key_specs /\ is_key t k) \/
  (exists h ps fo cl lg, new_key ec (parse_pub ec) KPub h ps fo cl = (lg, Ok k)).
Lemma reparses_public ec k x : reparses ec k -> pack_public_bytes k = Ok x -> Z.of_nat (length x) <= ssize_max ->
  exists lg k', key_from_bytes ec KPub x None = (lg, Ok k') /\ same_public k k'.
Proof.
  intros [(t & pub & priv & Hs & Hk)|(h & ps & fo & cl & lg & Nk)] E L.
  - destruct (packed_public ec k t pub priv x Hs Hk E L) as (lg & k' & H & _ & S). eauto.
  - destruct (C17_constructed_keys_have_types _ _ _ _ _ _ _ _ Nk) as (_ & t & pub & priv & Hs & Hk).
    destruct (C17_constructed_public_key_roundtrip _ _ _ _ _ _ _ _ _ _ _ Hs Nk Hk E L) as (k' & H & A1 & A2 & A3 & A4 & A5 & A6).
    exists lg, k'. split; [exact H|]. exists t, pub, priv. auto 10.
Qed.
Lemma chosen_fun {A} (l : list A) idx a b : chosen l idx a -> chosen l idx b -> a = b.
Proof.
  destruct idx as [idx|]; cbn [chosen]; [|congruence]. intros F. revert b. induction F as [|i x idx a H F IH]; intros b F'; inversion F' as [|? y ? b' H' F2]; subst; [reflexivity|].
  f_equal; [|apply IH; exact F2]. destruct H as [(P & H)|(P & Q & H)], H' as [(P' & H')|(P' & Q' & H')]; try lia; congruence.
Qed.
(** The pairs that parsing the packed keys gives. *)
Lemma reparsed_pairs p ov sel pubs privs n :
  Z.of_nat n <= ssize_max -> (length (concat pubs) <= n)%nat -> (length (concat privs) <= n)%nat ->
  Forall is_pair sel ->
  (ov = false -> Forall (fun q => reparses (p_ec_ok p) (pr_public q)) sel) ->
  Forall2 (fun q x => pack_public_bytes (if ov then pr_private q else pr_public q) = Ok x) sel pubs ->
  Forall2 (fun q x => pack_private_bytes (pr_private q) = Ok x) sel privs ->
  exists pairs,
    Forall2 (fun q q' => same_private (pr_private q) (pr_private q') /\
                         same_public (if ov then pr_private q else pr_public q) (pr_public q')) sel pairs /\
    Forall2 (fun q' x => exists lg, key_from_bytes (p_ec_ok p) KPub x None = (lg, Ok (pr_public q'))) pairs pubs /\
    Forall2 (fun q' x => private_blob (pr_private q') x) pairs privs /\
    (ov = true -> Forall (fun x => ~ In (Warn WExcess) (fst (key_from_bytes (p_ec_ok p) KPub x None))) pubs).
Proof.
  intros Hn Lp Lv Ip Rp F. revert privs Lv. induction F as [|q x sel pubs Hx F IH]; intros privs Lv G; inversion G as [|? y ? privs' Hy G']; subst.
  - exists []. repeat split; constructor.
  - cbn [concat] in Lp, Lv. rewrite app_length in Lp, Lv.
    apply Forall_cons_iff in Ip as (Iq & Ip). destruct Iq as (Ku & (tu & Hu) & Kv & (tv & Hv)).
    destruct (IH ltac:(lia) Ip ltac:(intros E; specialize (Rp E); apply Forall_cons_iff in Rp; tauto) privs' ltac:(lia) G')
      as (pairs & P1 & P2 & P3 & P4).
    destruct (packed_private _ _ _ Hv Kv Hy) as (kv & Bv & Sv).
    assert (exists lg ku, key_from_bytes (p_ec_ok p) KPub x None = (lg, Ok ku) /\ (ov = true -> ~ In (Warn WExcess) lg) /\
              same_public (if ov then pr_private q else pr_public q) ku) as (lg & ku & Eu & Xu & Su).
    { destruct ov.
      - destruct (private_key_type _ _ Hv Kv) as (pub & priv & Hs).
        destruct (packed_public (p_ec_ok p) _ _ _ _ _ Hs Hv Hx ltac:(lia)) as (lg & ku & A & B & C). exists lg, ku. auto.
      - specialize (Rp eq_refl). apply Forall_cons_iff in Rp as (Rq & _).
        destruct (reparses_public _ _ _ Rq Hx ltac:(lia)) as (lg & ku & A & B). exists lg, ku. split; [exact A|]. split; [discriminate|exact B]. }
    exists (mkpair ku kv :: pairs). cbn [pr_public pr_private].
    split; [constructor; [auto|exact P1]|]. split; [constructor; [exists lg; exact Eu|exact P2]|].
    split; [constructor; [exact Bv|exact P3]|]. intros E. constructor; [rewrite Eu; exact (Xu E)|auto].
Qed.
Lemma packed_parsed p e e' l given given' idx ov retain b sel :
  sound_prims p -> Z.of_nat (length b) <= ssize_max ->
  packed p e l given idx ov retain b ->
  chosen (l_pairs l) idx sel -> Forall is_pair sel ->
  (ov = false -> Forall (fun q => reparses (p_ec_ok p) (pr_public q)) sel) ->
  (forall kn pass, passphrase_used e kn given pass -> passphrase_used e' kn given' pass) ->
  exists cn kn d vs opts pubs privs bs pad plain pass body tag pairs l' lg,
    list_names l (VStr cn) (VStr kn) /\ options_used e l retain kn d /\
    (exists ts, In (kn, ts) kdf_specs /\ restricts (map fst ts) d vs /\ record_of canonical ts vs opts) /\
    Z.of_nat (length sel) < 2 ^ 31 /\
    Forall2 (fun q x => pack_public_bytes (if ov then pr_private q else pr_public q) = Ok x) sel pubs /\
    Forall2 (fun q x => pack_private_bytes (pr_private q) = Ok x) sel privs /\
    plaintext_of (e_randbits e) (e_randbits e) privs pad plain /\ block_of cn bs /\
    counting pad /\ (length pad < bs)%nat /\ (length plain mod bs = 0)%nat /\
    passphrase_used e kn given pass /\ enciphers p cn kn vs pass plain (body ++ tag) /\ tag_size cn (length tag) /\
    file_of cn kn opts pubs body tag b /\
    Forall2 (fun q q' => same_private (pr_private q) (pr_private q') /\
                         same_public (if ov then pr_private q else pr_public q) (pr_public q')) sel pairs /\
    l' = mkpkl pairs (Some b) (Some (file_header (VStr cn) (VStr kn) opts (length pubs))) (Some (body ++ tag)) (Some vs)
           (Some plain) (Some (check_header (e_randbits e) (e_randbits e))) (Some pad) /\
    list_from_bytes p e' b given' = (lg, Ok l') /\ reports bs (e_randbits e) (e_randbits e) pairs plain pad lg /\
    (ov = true -> ~ In (Warn WExcess) lg).
Proof.
  intros S L (cn & kn & d & opts & sel' & pubs & privs & bs & pad & plain & pass & body & tag &
    Hn & Hd & (ts & vs & Hts & Rvs & Rec) & Hsel' & Hc & Fp & Fv & Pl & Hbs & Cp & Lpad & Mp & Hpw & He & Ht & Hf) Hsel Ip Rp Hpass.
  pose proof (chosen_fun _ _ _ _ Hsel Hsel') as <-. clear Hsel'.
  assert (options_of kn d opts) as Ho by (exists ts, vs; auto).
  assert (kn = str "bcrypt" -> dget (str "salt") vs = dget (str "salt") d /\ dget (str "rounds") vs = dget (str "rounds") d) as Ag.
  { intros ->. destruct Hts as [H|[H|[]]]; injection H; intros; [discriminate|]. subst ts. destruct Rvs as (_ & R). split; apply R; cbn; auto. }
  pose proof (enciphers_options _ _ _ _ _ _ _ _ Ag He) as He'.
  assert (length (concat pubs) <= length b /\ length body + length tag <= length b)%nat as (Lp & Lb).
  { destruct Hf as (c & k & o & n & ps & x & _ & _ & _ & _ & _ & Fps & Px & ->). apply concat_prefixed_length in Fps. apply prefixed_length in Px.
    rewrite !app_length. lia. }
  assert (length (concat privs) <= length b)%nat as Lv.
  { destruct (block_name _ _ Hbs) as (c & Ec). pose proof (encrypt_tag _ _ _ _ _ _ _ _ S Ec He) as Lx. rewrite app_length in Lx.
    destruct Pl as (c1 & c2 & L1 & _ & L2 & _ & ->). rewrite !app_length in Lx. lia. }
  destruct (reparsed_pairs p ov sel pubs privs (length b) L Lp Lv Ip Rp Fp Fv) as (pairs & P1 & P2 & P3 & P4).
  set (l' := mkpkl pairs (Some b) (Some (file_header (VStr cn) (VStr kn) opts (length pubs))) (Some (body ++ tag)) (Some vs)
           (Some plain) (Some (check_header (e_randbits e) (e_randbits e))) (Some pad)).
  assert (Z.of_nat (length pubs) < 2 ^ 31) as Hcp by (rewrite <- (Forall2_len _ _ _ Fp); exact Hc).
  assert (parsed p e' b given' l') as Hp.
  { exists cn, kn, opts, pubs, body, tag, [], vs, pass, plain, (e_randbits e), (e_randbits e), privs, pad, pairs.
    rewrite app_nil_r. split; [exact Hf|]. split; [exact Hcp|].
    split; [exists ts, opts, []; split; [exact Hts|]; split; [apply record_canonical_wire; exact Rec|rewrite app_nil_r; reflexivity]|].
    split; [apply Hpass; exact Hpw|]. split; [exact Ht|]. split; [exact He'|]. split; [exact Pl|]. split; [exact P2|]. split; [exact P3|reflexivity]. }
  destruct (parse_complete p e' b given' l' S L Hp) as (lg & E).
  exists cn, kn, d, vs, opts, pubs, privs, bs, pad, plain, pass, body, tag, pairs, l', lg.
  split; [exact Hn|]. split; [exact Hd|]. split; [exists ts; auto|]. repeat (split; [assumption|]). split; [reflexivity|].
  split; [apply list_from_bytes_ok; exact E|]. split.
  - destruct (parse_sound p e' b given' lg l' S L E) as
      (cn' & kn' & opts' & pubs' & body' & tag' & extra' & d' & pass' & plain' & c1' & c2' & privs' & pad' & pairs' & c' & k' & lg1 & lg2 &
       _ & _ & _ & _ & _ & _ & _ & _ & _ & El & Ec & _ & _ & _ & R & _).
    unfold l' in El. injection El; intros; subst.
    apply (block_of_iff _ _ _ Ec) in Hbs as ->. exact R.
  - intros E0. eapply parse_no_excess; [exact Hf|exact Hcp|exact L|exact (P4 E0)|exact E].
Qed.
(** Whatever list of pairs is packed, with whatever supported cipher and KDF: if packing
    succeeds, parsing with the same passphrase succeeds and gives the same private keys, in
    order, with the public halves that were asked for. *)
Theorem C24_roundtrip p e e' l given given' idx ov retain b sel :
  sound_prims p -> Z.of_nat (length b) <= ssize_max ->
  snd (list_pack_bytes p e l given idx ov retain) = Ok b ->
  chosen (l_pairs l) idx sel -> Forall is_pair sel ->
  (ov = false -> Forall (fun q => reparses (p_ec_ok p) (pr_public q)) sel) ->
  (forall kn pass, passphrase_used e kn given pass -> passphrase_used e' kn given' pass) ->
  exists lg l', list_from_bytes p e' b given' = (lg, Ok l') /\
    Forall2 (fun q q' => same_private (pr_private q) (pr_private q') /\
                         same_public (if ov then pr_private q else pr_public q) (pr_public q')) sel (l_pairs l') /\
    ~ In (Warn WCheckInts) lg /\ ~ In (Warn WPadding) lg /\
    (ov = true -> forall ev, In ev lg -> ~ file_warning ev).
Proof.
  intros S L H Hsel Ip Rp Hpass. apply (pack_layout _ _ _ _ _ _ _ _ S) in H.
  destruct (packed_parsed p e e' l given given' idx ov retain b sel S L H Hsel Ip Rp Hpass) as
    (cn & kn & d & vs & opts & pubs & privs & bs & pad & plain & pass & body & tag & pairs & l' & lg &
     _ & _ & _ & _ & _ & _ & _ & _ & Cp & Lp & Mp & _ & _ & _ & _ & P1 & -> & E & (R1 & R2 & R3 & R4) & X).
  exists lg. eexists. split; [exact E|]. cbn [l_pairs]. split; [exact P1|].
  assert (~ In (Warn WCheckInts) lg) as N1 by (intros K; apply R1 in K; congruence).
  assert (~ In (Warn WPadding) lg) as N2.
  { intros K. apply R4 in K. apply K. split; [exact Mp|]. split; [exact Cp|lia]. }
  split; [exact N1|]. split; [exact N2|].
  intros -> ev Hev Hw.
  assert (forall i q', nth_error pairs i = Some q' -> ~ halves_differ_in_type q' /\ ~ halves_differ_in_values q') as Ag.
  { intros i q' Hi. assert (In q' pairs) as Iq by (eapply nth_error_In; exact Hi). clear - P1 Iq.
    induction P1 as [|q q1 sel pairs (A & B) P1 IH]; [destruct Iq|]. destruct Iq as [->|Iq]; [|auto].
    destruct q' as [pu pv]. cbn [pr_public pr_private] in A, B. apply (same_halves_agree (pr_private q)); assumption. }
  destruct ev as [w|]; [|contradiction]. destruct w; try contradiction.
  - exact (X eq_refl Hev).
  - apply R2 in Hev as (q' & Hi & D). destruct (Ag _ _ Hi). contradiction.
  - apply R3 in Hev as (q' & Hi & D). destruct (Ag _ _ Hi). contradiction.
Qed.

(** ** C59 *)
Lemma pub_in_priv t pub priv x : In (t, (pub, Some priv)) key_specs -> In x (map fst pub) -> In x (map fst priv).
Proof.
  intros H. assert (forallb (fun s => match snd (snd s) with Some priv => forallb (fun x => existsb (str_eqb x) (map fst priv)) (map fst (fst (snd s))) | None => true end) key_specs = true) as T by (vm_compute; reflexivity).
  rewrite forallb_forall in T. specialize (T _ H). cbn [fst snd] in T. rewrite forallb_forall in T. intros Hx. specialize (T _ Hx).
  apply existsb_exists in T as (y & Hy & E). destruct (str_eqb_reflect x y) as [->|]; [exact Hy|discriminate].
Qed.
Lemma same_public_packs k k' : same_public k k' -> pack_public_bytes k' = pack_public_bytes k.
Proof.
  intros (t & pub & priv & Hs & Hk & Hk' & _ & _ & (_ & R) & _).
  apply (C19_no_private_parameter_in_public_bytes t pub priv k' k Hs Hk' Hk). exact R.
Qed.
Lemma same_private_packs_public k k' : same_private k k' -> pack_public_bytes k' = pack_public_bytes k.
Proof.
  intros (t & pub & priv & Hs & Hk & Hk' & _ & _ & (_ & R) & _).
  apply (C19_no_private_parameter_in_public_bytes t pub _ k' k Hs Hk' Hk). intros x Hx. apply R. eapply pub_in_priv; eassumption.
Qed.
Lemma same_private_packs k k' x : same_private k k' -> k_kind k = KPriv -> Z.of_nat (length x) <= ssize_max ->
  pack_private_bytes k = Ok x -> pack_private_bytes k' = Ok x.
Proof.
  intros (t & pub & priv & Hs & Hk & Hk' & Ek' & Eh & R & (Df & Rf) & _) Ek L H.
  apply (C22_private_layout t pub priv k x Hs Hk Ek L) in H as (vs & co & Rs & G & Gc & Rec).
  destruct (spec_private _ _ _ Hs) as (c & _ & _ & Nd & _). pose proof (restricts_unique _ _ _ _ Nd R Rs) as Ev.
  apply (C22_private_layout t pub priv k' x Hs Hk' Ek' L). exists vs, co. rewrite Ev.
  split; [split; [exact (proj1 Rs)|reflexivity]|]. split; [exact G|]. split; [rewrite Rf, Gc; [reflexivity|left; reflexivity]|exact Rec].
Qed.
(** Parsing a packed file and packing the result again, with the same passphrase, the same
    check number and retain_kdf_options_if_present, gives the file back. *)
Theorem C59_repack_is_identity p e e' e2 l given given' given2 idx ov retain b sel lg l' :
  sound_prims p -> Z.of_nat (length b) <= ssize_max ->
  snd (list_pack_bytes p e l given idx ov retain) = Ok b ->
  chosen (l_pairs l) idx sel -> Forall is_pair sel ->
  (ov = false -> Forall (fun q => reparses (p_ec_ok p) (pr_public q)) sel) ->
  (forall kn pass, passphrase_used e kn given pass -> passphrase_used e' kn given' pass) ->
  (forall kn pass, passphrase_used e kn given pass -> passphrase_used e2 kn given2 pass) ->
  list_from_bytes p e' b given' = (lg, Ok l') ->
  e_randbits e2 = e_randbits e ->
  snd (list_pack_bytes p e2 l' given2 None ov true) = Ok b.
Proof.
  intros S L H Hsel Ip Rp Hp Hp2 Hl Er. apply (pack_layout _ _ _ _ _ _ _ _ S) in H.
  destruct (packed_parsed p e e' l given given' idx ov retain b sel S L H Hsel Ip Rp Hp) as
    (cn & kn & d & vs & opts & pubs & privs & bs & pad & plain & pass & body & tag & pairs & l0 & lg0 &
     Hn & Hd & (ts & Hts & Rvs & Rec) & Hc & Fp & Fv & Pl & Hbs & Cp & Lp & Mp & Hpw & He & Ht & Hf & P1 & -> & E & _).
  rewrite Hl in E. injection E as -> ->.
  assert (length (concat privs) <= length b)%nat as Lv.
  { destruct (block_name _ _ Hbs) as (c & Ec). pose proof (encrypt_tag _ _ _ _ _ _ _ _ S Ec He) as Lx. rewrite app_length in Lx.
    destruct Hf as (c' & k & o & n & ps & x & _ & _ & _ & _ & _ & Fps & Px & ->). apply prefixed_length in Px. rewrite !app_length.
    destruct Pl as (c1 & c2 & L1 & _ & L2 & _ & ->). rewrite !app_length in Lx. lia. }
  apply (pack_complete _ _ _ _ _ _ _ _ S); [|exact L].
  exists cn, kn, vs, opts, pairs, pubs, privs, bs, pad, plain, pass, body, tag. cbn [l_pairs l_kdf_options l_header].
  split; [left; eexists; split; [reflexivity|split; reflexivity]|].
  split; [left; split; reflexivity|].
  split; [exists ts, vs; split; [exact Hts|]; split; [split; [exact (proj1 Rvs)|reflexivity]|exact Rec]|].
  split; [reflexivity|]. split; [rewrite <- (Forall2_len _ _ _ P1); exact Hc|].
  split.
  { clear - P1 Fp. revert pubs Fp. induction P1 as [|q q' sel pairs (A & B) P1 IH]; intros pubs Fp; inversion Fp as [|? x ? pubs' Hx Fp']; subst; constructor; [|apply IH; exact Fp'].
    rewrite <- Hx. destruct ov; [apply same_private_packs_public; exact A|apply same_public_packs; exact B]. }
  split.
  { assert (Z.of_nat (length (concat privs)) <= ssize_max) as Lz by lia. clear - P1 Fv Ip Lz. revert privs Fv Lz.
    induction P1 as [|q q' sel pairs (A & B) P1 IH]; intros privs Fv Lz; inversion Fv as [|? x ? privs' Hx Fv']; subst; constructor.
    - cbn [concat] in Lz. rewrite app_length in Lz. apply Forall_cons_iff in Ip as ((_ & _ & Kv & _) & _). eapply same_private_packs; try eassumption. lia.
    - cbn [concat] in Lz. rewrite app_length in Lz. apply Forall_cons_iff in Ip as (_ & Ip). apply IH; [exact Ip|exact Fv'|lia]. }
  rewrite Er. repeat (split; [assumption|]). split; [apply Hp2; exact Hpw|]. split; [exact He|]. split; [exact Ht|exact Hf].
Qed.

(** ** C39 *)
(** Options survive parsing, packing with retain_kdf_options_if_present and parsing again. *)
Theorem C39_options_survive p e1 e2 e3 l b b' given1 given2 given3 idx ov lg lg' l1 :
  sound_prims p -> Z.of_nat (length b) <= ssize_max -> Z.of_nat (length b') <= ssize_max ->
  list_from_bytes p e1 b given1 = (lg, Ok l) ->
  snd (list_pack_bytes p e2 l given2 idx ov true) = Ok b' ->
  list_from_bytes p e3 b' given3 = (lg', Ok l1) ->
  l_kdf_options l1 = l_kdf_options l /\
  exists h h1, l_header l = Some h /\ l_header l1 = Some h1 /\
    dget (str "cipher") h1 = dget (str "cipher") h /\ dget (str "kdf") h1 = dget (str "kdf") h.
Proof.
  intros S L L' H1 H2 H3. apply list_from_bytes_ok in H1, H3.
  destruct (parse_sound p e1 b given1 lg l S L H1) as
    (cn & kn & opts & pubs & body & tag & extra & d & pass & plain & c1 & c2 & privs & pad & pairs & c & k & lg1 & lg2 & _ & _ & (ts & o & junk & Hts & Ro & _) & _ & _ & _ & _ & _ & _ & -> & _).
  apply (pack_layout _ _ _ _ _ _ _ _ S) in H2.
  destruct H2 as (cn' & kn' & d' & opts' & sel & pubs' & privs' & bs' & pad' & plain' & pass' & body' & tag' &
    Hn & Hd & (ts' & vs & Hts' & Rvs & Rec) & _ & _ & _ & _ & _ & _ & _ & _ & _ & _ & _ & _ & Hf).
  assert (cn' = cn /\ kn' = kn) as (-> & ->).
  { destruct Hn as [(h & Eh & A & B)|(N & _)].
    - cbn [l_header] in Eh. injection Eh as <-. cbn in A, B. injection A as ->. injection B as ->. split; reflexivity.
    - exfalso. destruct (N _ eq_refl) as [K|K]; cbn in K; discriminate. }
  destruct Hd as [(_ & Ed)|([K|K] & _)]; [|discriminate|discriminate]. cbn [l_kdf_options] in Ed. injection Ed as <-.
  destruct (parse_sound p e3 b' given3 lg' l1 S L' H3) as
    (cn2 & kn2 & opts2 & pubs2 & body2 & tag2 & extra2 & d2 & pass2 & plain2 & c12 & c22 & privs2 & pad2 & pairs2 & cc2 & k2 & lg12 & lg22 & Hf2 & _ & (ts2 & o2 & junk2 & Hts2 & Ro2 & Eo) & _ & _ & _ & _ & _ & _ & -> & _).
  destruct (C29_layout_unambiguous _ _ _ _ _ _ _ _ _ _ _ _ _ _ [] [] Hf2 Hf eq_refl) as (-> & -> & -> & _).
  assert (exists kk, get_kdf (VStr kn) = Ok kk) as (kk & Ek) by (destruct Hts as [T|[T|[]]]; injection T as <- _; eexists; reflexivity).
  destruct (kdf_specs_fun _ _ _ Hts Ek) as (_ & E1). destruct (kdf_specs_fun _ _ _ Hts' Ek) as (_ & E2). destruct (kdf_specs_fun _ _ _ Hts2 Ek) as (_ & E3).
  subst ts' ts2. rewrite <- E1 in *. 
  assert (dkeys d = map fst ts) as Dd by (apply (record_keys _ _ _ _ Ro)).
  assert (NoDup (map fst ts)) as Nd by (subst ts; destruct kk; [constructor|apply nodupb_sound; reflexivity]).
  assert (vs = d) as -> by (apply (restricts_unique (map fst ts) d); [exact Nd|exact Rvs|split; [exact Dd|reflexivity]]).
  apply record_canonical_wire in Rec.
  assert (o2 ++ junk2 = opts' ++ []) as Eo' by (rewrite app_nil_r; symmetry; exact Eo).
  destruct (record_prefix_free _ _ _ _ _ _ _ Ro2 Rec Eo') as (_ & -> & _).
  split; [reflexivity|]. eexists _, _. split; [reflexivity|]. split; [reflexivity|]. split; reflexivity.
Qed.

(** ** When packing succeeds *)
Lemma prefixed_exists u : Z.of_nat (length u) < 2 ^ 31 -> exists b, prefixed 4 u b.
Proof.
  intros L. exists (be_bytes 4 (Z.of_nat (length u)) ++ u), (be_bytes 4 (Z.of_nat (length u))).
  rewrite be_bytes_length, unsigned_be, be_value_be_bytes. change (256 ^ Z.of_nat 4) with (2 ^ 32).
  split; [reflexivity|]. split; [apply Z.mod_small; lia|reflexivity].
Qed.
Lemma prefixed_all us : Z.of_nat (length (concat us)) < 2 ^ 31 ->
  exists xs, Forall2 (prefixed 4) us xs /\ length (concat xs) = (length (concat us) + 4 * length us)%nat.
Proof.
  induction us as [|u us IH]; intros L; [exists []; split; [constructor|reflexivity]|]. cbn [concat] in L. rewrite app_length in L.
  destruct (prefixed_exists u ltac:(lia)) as (x & Hx). destruct (IH ltac:(lia)) as (xs & Hxs & Ex).
  exists (x :: xs). split; [constructor; assumption|]. cbn [concat length]. rewrite !app_length, Ex. apply prefixed_length in Hx. lia.
Qed.
Lemma name_text (names : list pystr) s :
  forallb (fun s => match utf8_encode s with Ok u => (length u <=? 29)%nat | _ => false end) names = true ->
  In s names -> exists u b, utf8 s u /\ prefixed 4 u b /\ (length b <= 33)%nat.
Proof.
  intros T H. rewrite forallb_forall in T. specialize (T _ H). destruct (utf8_encode s) as [u|] eqn:E; [|discriminate].
  apply Nat.leb_le in T. destruct (prefixed_exists u) as (b & Hb); [lia|]. exists u, b. split; [apply utf8_encode_iff; exact E|].
  split; [exact Hb|]. apply prefixed_length in Hb. lia.
Qed.
Lemma word_exists n : 0 <= n < 2 ^ 32 -> exists b, length b = 4%nat /\ unsigned b = n.
Proof.
  intros H. exists (be_bytes 4 n). rewrite be_bytes_length, unsigned_be, be_value_be_bytes. split; [reflexivity|].
  apply Z.mod_small. exact H.
Qed.
(** Packing succeeds whenever the names are supported, each key can be packed, the options
    can be encoded, the cipher's key can be derived from the passphrase, and the file stays
    below 2 GiB. *)
Theorem C24_pack_succeeds p e l given idx (ov retain : bool) cn kn m kl il bs d opts sel pubs privs pass :
  sound_prims p ->
  list_names l (VStr cn) (VStr kn) -> In (cn, (m, kl, il, bs)) cipher_table ->
  options_used e l retain kn d -> options_of kn d opts ->
  chosen (l_pairs l) idx sel ->
  Forall2 (fun q x => pack_public_bytes (if ov then pr_private q else pr_public q) = Ok x) sel pubs ->
  Forall2 (fun q x => pack_private_bytes (pr_private q) = Ok x) sel privs ->
  0 <= e_randbits e < 2 ^ 32 ->
  passphrase_used e kn given pass ->
  (m <> Plain -> kn = str "bcrypt" /\ exists r, derives p d pass (kl + il) r) ->
  Z.of_nat (256 + length opts + length (concat pubs) + 4 * length sel + length (concat privs)) < 2 ^ 31 ->
  exists b, snd (list_pack_bytes p e l given idx ov retain) = Ok b /\ Z.of_nat (length b) <= ssize_max.
Proof.
  intros Sp Hn Hc Hd Ho Hs Fp Fv Hr Hpw Hk Hsz.
  destruct (cipher_table_spec _ _ _ _ _ Hc) as (c & Ec & Em & -> & -> & -> & Ea).
  destruct (options_name _ _ _ Ho) as (k & Ek).
  destruct (word_exists _ Hr) as (ci & Lci & Uci).
  set (n := (8 + length (concat privs))%nat).
  destruct (padding_for_ok c n) as (P1 & P2 & P3).
  set (pad := padding_for c n) in *. set (plain := ci ++ ci ++ concat privs ++ pad).
  assert (length plain = (n + length pad)%nat) as Lp by (unfold plain, n; rewrite !app_length, Lci; lia).
  assert (block_size c <= 16)%nat as Hb by (destruct c; cbn; lia).
  assert (exists x, cipher_encrypt p c k d pass plain = Ok x /\ length x = (length plain + if authenticated m then 16 else 0)%nat) as (x & Ex & Lx).
  { destruct m.
    - exists plain. split; [|cbn; lia]. destruct c; try discriminate Em. reflexivity.
    - destruct (Hk ltac:(discriminate)) as (-> & r & Dr). assert (k = KdfBcrypt) as -> by (vm_compute in Ek; congruence).
      apply (C37_encrypt_succeeds p cn _ _ _ _ c d pass plain r Sp Hc Ec); [intros _; exact Dr|rewrite Lp; exact P3].
    - destruct (Hk ltac:(discriminate)) as (-> & r & Dr). assert (k = KdfBcrypt) as -> by (vm_compute in Ek; congruence).
      apply (C37_encrypt_succeeds p cn _ _ _ _ c d pass plain r Sp Hc Ec); [intros _; exact Dr|rewrite Lp; exact P3].
    - destruct (Hk ltac:(discriminate)) as (-> & r & Dr). assert (k = KdfBcrypt) as -> by (vm_compute in Ek; congruence).
      apply (C37_encrypt_succeeds p cn _ _ _ _ c d pass plain r Sp Hc Ec); [intros _; exact Dr|rewrite Lp; exact P3].
    - destruct (Hk ltac:(discriminate)) as (-> & r & Dr). assert (k = KdfBcrypt) as -> by (vm_compute in Ek; congruence).
      apply (C37_encrypt_succeeds p cn _ _ _ _ c d pass plain r Sp Hc Ec); [intros _; exact Dr|rewrite Lp; exact P3].
    - destruct (Hk ltac:(discriminate)) as (-> & r & Dr). assert (k = KdfBcrypt) as -> by (vm_compute in Ek; congruence).
      apply (C37_encrypt_succeeds p cn _ _ _ _ c d pass plain r Sp Hc Ec); [intros _; exact Dr|rewrite Lp; exact P3]. }
  set (body := firstn (length plain) x). set (tag := skipn (length plain) x).
  assert (body ++ tag = x) as Ebt by apply firstn_skipn.
  assert (length body = length plain) as Lb by (unfold body; rewrite firstn_length; lia).
  assert (length tag = if authenticated m then 16 else 0)%nat as Lt by (unfold tag; rewrite skipn_length; lia).
  destruct (name_text (map fst cipher_table) cn ltac:(vm_compute; reflexivity) (in_map fst _ _ Hc)) as (cu & cb & Uc & Pc & Lc).
  assert (In kn (map fst kdf_specs)) as Ik by (destruct Ho as (ts & vs & I & _); exact (in_map fst _ _ I)).
  destruct (name_text (map fst kdf_specs) kn ltac:(vm_compute; reflexivity) Ik) as (ku & kb & Uk & Pk & Lk).
  pose proof (Forall2_len _ _ _ Fp) as Lfp.
  destruct (prefixed_exists opts ltac:(lia)) as (ob & Hob).
  destruct (word_exists (Z.of_nat (length pubs)) ltac:(lia)) as (nb & Lnb & Unb).
  destruct (prefixed_all pubs ltac:(lia)) as (ps & Hps & Lps).
  destruct (prefixed_exists body ltac:(lia)) as (xb & Hxb).
  pose proof (prefixed_length _ _ _ Hob). pose proof (prefixed_length _ _ _ Hxb).
  exists (magic ++ cb ++ kb ++ ob ++ nb ++ concat ps ++ xb ++ tag).
  assert (Z.of_nat (length (magic ++ cb ++ kb ++ ob ++ nb ++ concat ps ++ xb ++ tag)) <= ssize_max) as Lall.
  { rewrite !app_length. change (length magic) with 15%nat. assert (length tag <= 16)%nat by (rewrite Lt; destruct (authenticated m); lia).
    change (@length (list byte) pubs) with (@length bytes pubs) in Lps. assert (n = 8 + length (concat privs))%nat by reflexivity. assert (2 ^ 31 < ssize_max) by reflexivity. lia. }
  split; [|exact Lall]. apply pack_complete; [exact Sp| |exact Lall].
  exists cn, kn, d, opts, sel, pubs, privs, (block_size c), pad, plain, pass, body, tag.
    split; [exact Hn|]. split; [exact Hd|]. split; [exact Ho|]. split; [exact Hs|]. split; [lia|]. split; [exact Fp|]. split; [exact Fv|].
    split; [exists ci, ci; auto|]. split; [eexists _, _, _; exact Hc|]. split; [exact P1|]. split; [exact P2|]. split; [rewrite Lp; exact P3|].
    split; [exact Hpw|]. split; [rewrite Ebt; apply (enciphers_iff p cn kn c k d pass plain x Sp Ec Ek); exact Ex|].
    split; [eexists _, _, _, _; split; [exact Hc|exact Lt]|].
    exists cb, kb, ob, nb, ps, xb. split; [econstructor; eassumption|]. split; [econstructor; eassumption|].
    split; [exact Hob|]. split; [exact Lnb|]. split; [exact Unb|]. split; [exact Hps|]. split; [exact Hxb|reflexivity].
Qed.

(** ** Concrete lists *)
Lemma ex_pairs_ok : Forall is_pair ex_pairs /\ Forall (fun q => reparses (p_ec_ok toy_prims) (pr_public q)) ex_pairs.
Proof.
  assert (is_key (str "ssh-ed25519") ex_ed_public /\ is_key (str "ssh-ed25519") ex_ed /\
          is_key (str "ssh-rsa") ex_rsa_public /\ is_key (str "ssh-rsa") ex_rsa) as (A & B & C & D)
    by (repeat split; reflexivity).
  split.
  - constructor; [|constructor; [|constructor]]; (split; [reflexivity|]); (split; [eexists; eassumption|]); (split; [reflexivity|]); eexists; eassumption.
  - constructor; [|constructor; [|constructor]]; left.
    + eexists (str "ssh-ed25519"), _, _. split; [|exact A]. in_specs.
    + eexists (str "ssh-rsa"), _, _. split; [|exact C]. in_specs.
Qed.
(** Packing, parsing and packing again: with options retained, the same file; and the
    hypotheses of C24 and C59 are met. *)
Example C24_example :
  snd (list_pack_bytes toy_prims ex_env ex_list (Some (str "pw")) None true false) = Ok ex_file /\
  chosen (l_pairs ex_list) None ex_pairs /\ Forall is_pair ex_pairs /\
  Forall (fun q => reparses (p_ec_ok toy_prims) (pr_public q)) ex_pairs /\
  (forall kn pass, passphrase_used ex_env kn (Some (str "pw")) pass -> passphrase_used ex_env kn None pass) /\
  list_from_bytes toy_prims ex_env ex_file None = ([Prompt], Ok ex_parsed).
Proof.
  split; [vm_compute; reflexivity|]. split; [reflexivity|]. split; [apply ex_pairs_ok|]. split; [apply ex_pairs_ok|].
  split; [|vm_compute; reflexivity].
  intros kn pass [H|(N & H)]; [left; exact H|right]. split; [exact N|]. subst. reflexivity.
Qed.
Example C59_example :
  snd (list_pack_bytes toy_prims ex_env ex_parsed (Some (str "pw")) None true true) = Ok ex_file /\
  (* without retaining the options, a fresh salt makes another file *)
  exists b, snd (list_pack_bytes toy_prims (mkenv (Ok []) 305419896 (repeat x00 16)) ex_parsed (Some (str "pw")) None true false) = Ok b /\ b <> ex_file.
Proof. split; [vm_compute; reflexivity|]. eexists. split; [vm_compute; reflexivity|discriminate]. Qed.
(** The list that from_list makes for kdf bcrypt when no options are given cannot be packed
    with retain_kdf_options_if_present: its options are the empty mapping. *)
Theorem C39_retain_default_options_refuted :
  exists l, from_list [PairItem (Some ex_ed_public) (Some ex_ed)] (str "aes256-ctr") (str "bcrypt") None = Ok l /\
    snd (list_pack_bytes toy_prims ex_env l (Some (str "pw")) None true true) = Err (KeyError (VStr (str "salt"))) /\
    exists b, snd (list_pack_bytes toy_prims ex_env l (Some (str "pw")) None true false) = Ok b.
Proof.
  eexists. split; [reflexivity|]. split; [vm_compute; reflexivity|]. eexists. vm_compute. reflexivity.
Qed.

Print Assumptions C24_roundtrip.
Print Assumptions C59_repack_is_identity.
Print Assumptions C39_options_survive.
Print Assumptions C24_pack_succeeds.
Print Assumptions C39_retain_default_options_refuted.
