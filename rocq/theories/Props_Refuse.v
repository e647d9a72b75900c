(** When the user is asked for a passphrase, and what is refused before: C84. *)
From Verif Require Import PyBase IntBytes Utf8 StructFmt Stream Text Classes Key Crypto PrivateKeyList.
From Verif Require Import SpecWire SpecKey SpecText SpecCrypto SpecList.
From Verif Require Import ProofBase ProofInt ProofUtf8 ProofWire ProofRecord ProofKey ProofLog ProofErr ProofText ProofCrypto ProofList.
From Verif Require Import Props_Stream Props_Key Props_Crypto ProofRead Props_List Props_Parse.
Open Scope Z_scope.

(** ** Names *)
(** [v] names one of the ciphers, or KDFs, of the table. A value that is not text names none. *)
Definition names_cipher (v : pyval) : Prop := exists cn, v = VStr cn /\ In cn (map fst cipher_table).
Definition names_kdf (v : pyval) : Prop := v = VStr (str "none") \/ v = VStr (str "bcrypt").

Lemma get_cipher_supported v : (exists c, get_cipher v = Ok c) <-> names_cipher v.
Proof.
  split.
  - intros (c & H). destruct (get_cipher_str _ _ H) as (cn & ->). exists cn. split; [reflexivity|].
    apply C37_supported_ciphers. exists c. exact H.
  - intros (cn & -> & H). apply C37_supported_ciphers. exact H.
Qed.
Lemma get_kdf_supported v : (exists k, get_kdf v = Ok k) <-> names_kdf v.
Proof.
  split.
  - intros (k & H). apply get_kdf_iff in H as [(-> & _)|(-> & _)]; [left|right]; reflexivity.
  - intros [-> | ->]; eexists; reflexivity.
Qed.
(** Looking up a cipher or KDF class by name: a KeyError holding the name, for every value
    that is not one of the supported names. *)
Theorem C84_unknown_cipher_class v : ~ names_cipher v <-> get_cipher v = Err (KeyError v).
Proof.
  rewrite <- get_cipher_supported. split.
  - intros H. destruct v; try reflexivity. cbn [get_cipher] in *. unfold ditem in *.
    destruct (dget s cipher_mapping); [exfalso; apply H; eexists; reflexivity|reflexivity].
  - intros -> (c & H). discriminate.
Qed.
Theorem C84_unknown_kdf_class v : ~ names_kdf v <-> get_kdf v = Err (KeyError v).
Proof.
  rewrite <- get_kdf_supported. split.
  - intros H. destruct v; try reflexivity. cbn [get_kdf] in *. unfold ditem in *.
    destruct (dget s kdf_mapping); [exfalso; apply H; eexists; reflexivity|reflexivity].
  - intros -> (c & H). discriminate.
Qed.

(** ** Packing *)
Lemma w_prompt {A B} (f : W A) (g : A -> W B) : In Prompt (fst (wbind f g)) <->
  In Prompt (fst f) \/ exists a, snd f = Ok a /\ In Prompt (fst (g a)).
Proof.
  unfold wbind. destruct f as [l [a|x]]; cbn [fst snd].
  - destruct (g a) as [l2 r] eqn:E. cbn [fst]. rewrite in_app_iff. split.
    + intros [H|H]; [left; exact H|]. right. exists a. rewrite E. auto.
    + intros [H|(a' & H & K)]; [auto|]. injection H as <-. rewrite E in K. auto.
  - split; [auto|]. intros [H|(a & H & _)]; [exact H|discriminate].
Qed.
(** An unsupported KDF: pack_bytes raises the KeyError at once, without a warning or a prompt,
    whatever the keys, the indices, the passphrase and the options. *)
Theorem C84_pack_unsupported_kdf p e l c v given idx ov retain :
  list_names l c v -> ~ names_kdf v ->
  list_pack_bytes p e l given idx ov retain = ([], Err (KeyError v)).
Proof.
  intros Hn Nk. apply list_names_iff in Hn. apply C84_unknown_kdf_class in Nk. rewrite list_pack_eq, Hn. cbn [fst snd].
  unfold pack_selected, options_for. rewrite Nk. destruct retain; [destruct (l_kdf_options l)|]; reflexivity.
Qed.
(** The user is asked exactly if no passphrase is given, the list names a supported cipher and
    KDF bcrypt, and everything that is packed before the encryption can be packed. *)
Definition packable (e : env) (l : pkl) (idx : option (list Z)) (override retain : bool) (cn : pystr) : Prop :=
  exists d opts sel pubs privs plain b,
    list_names l (VStr cn) (VStr (str "bcrypt")) /\ In cn (map fst cipher_table) /\
    options_used e l retain (str "bcrypt") d /\ options_of (str "bcrypt") d opts /\
    chosen (l_pairs l) idx sel /\ Z.of_nat (length sel) < 2 ^ 31 /\
    Forall2 (fun q x => pack_public_bytes (if override then pr_private q else pr_public q) = Ok x) sel pubs /\
    Forall2 (fun q x => pack_private_bytes (pr_private q) = Ok x) sel privs /\
    plaintext_of (e_randbits e) (e_randbits e) privs [] plain /\
    file_of cn (str "bcrypt") opts pubs [] [] b.
Lemma nil_prefixed : prefixed 4 [] (map bZ [0; 0; 0; 0]).
Proof. apply octets_iff. vm_compute. reflexivity. Qed.
Lemma pack_prompts_only_if p e l given idx ov retain :
  In Prompt (fst (list_pack_bytes p e l given idx ov retain)) ->
  given = None /\ exists cn, packable e l idx ov retain cn.
Proof.
  intros H. destruct given as [pw|]; [exfalso; exact (C35_pack_with_passphrase _ _ _ _ _ _ _ H)|]. split; [reflexivity|].
  rewrite list_pack_eq in H. destruct (list_cipher_kdf l) as [cv kv] eqn:En. cbn [fst snd] in H.
  apply list_names_iff in En. unfold pack_selected in H.
  apply w_prompt in H as [H|(d & Hd & H)]; [exfalso; exact (keylog_prompt _ (keylog_options _ _ _ _) H)|].
  apply w_prompt in H as [[]|(k & Hk & H)]. rewrite snd_wlift in Hk.
  apply w_prompt in H as [[]|(ob & Hob & H)]. rewrite snd_wlift in Hob.
  apply w_prompt in H as [[]|(prefix & Hpre & H)]. rewrite snd_wlift in Hpre.
  apply rbind_ok in Hpre as (h & Hh & Hpre). apply rbind_ok in Hpre as (ps & Hps & _).
  apply w_prompt in H as [[]|(plain & Hpl & H)]. rewrite snd_wlift in Hpl.
  apply rbind_ok in Hpl as (a & Ha & Hpl). apply rbind_ok in Hpl as (pb & Hpb & Hpl). apply rbind_ok in Hpl as (c & Hc & _).
  apply w_prompt in H as [H|(pw & _ & H)].
  - assert (kv = VStr (str "bcrypt")) as ->.
    { apply get_kdf_iff in Hk as [(-> & _)|(-> & _)]; [|reflexivity]. rewrite val_eqb_refl in H. contradiction. }
    clear H. destruct (get_cipher_str _ _ Hc) as (cn & ->).
    apply (options_for_iff _ _ _ _ _ _ Hk) in Hd.
    destruct (pubs_sel _ _ _ Hps) as (sel & Es). rewrite Es in Hps, Hpb, Hh. rewrite map_length in Hh.
    apply chosen_iff in Es. apply pubs_bytes_iff in Hps as (pubs & xs & Hpubs & Hxs & ->).
    apply privs_bytes_iff in Hpb as (privs & Hprivs & ->).
    apply file_header_iff in Hh as (c1 & k1 & o1 & n1 & Hc1 & Hk1 & Ho1 & Ln & Un & Sn & ->).
    apply check_ints_iff in Ha as (ci & Lci & Uci & ->).
    exists cn, d, ob, sel, pubs, privs, (ci ++ ci ++ concat privs ++ []), (magic ++ c1 ++ k1 ++ o1 ++ n1 ++ concat xs ++ map bZ [0;0;0;0] ++ []).
    split; [exact En|]. split; [apply C37_supported_ciphers; exists c; exact Hc|]. split; [exact Hd|].
    split; [eapply options_sound; eassumption|]. do 4 (split; [assumption|]). split; [exists ci, ci; auto|].
    exists c1, k1, o1, n1, xs, (map bZ [0;0;0;0]). rewrite <- (Forall2_len _ _ _ Hpubs). do 6 (split; [assumption|]). split; [exact nil_prefixed|]. reflexivity.
  - exfalso. apply w_prompt in H as [[]|(c' & _ & H)]. unfold wseq in H.
    apply w_prompt in H as [H|([] & _ & H)]; [exact (new_kdf_prompt _ _ H)|].
    apply w_prompt in H as [[]|(x & _ & [])].
Qed.
Lemma pack_prompts_if p e l idx ov retain cn :
  packable e l idx ov retain cn ->
  In Prompt (fst (list_pack_bytes p e l None idx ov retain)).
Proof.
  intros (d & ob & sel & pubs & privs & plain & b & En & Hcn & Hd & Ho & Es & Sn & Hpubs & Hprivs
    & (ci & ci2 & Lci & Uci & Lci2 & Uci2 & _) & (c1 & k1 & o1 & n1 & xs & y & Hc1 & Hk1 & Ho1 & Ln & Un & Hxs & Hy & _)).
  rewrite list_pack_eq. rewrite (proj2 (list_names_iff _ _ _) En). cbn [fst snd]. unfold pack_selected.
  apply C37_supported_ciphers in Hcn as (c & Hc).
  assert (get_kdf (VStr (str "bcrypt")) = Ok KdfBcrypt) as Hk by reflexivity.
  apply chosen_iff in Es. rewrite Es. rewrite map_length.
  pose proof (proj2 (options_for_iff _ _ _ _ _ _ Hk) Hd) as Hd'.
  assert (Z.of_nat (length ob) <= ssize_max) as Lob.
  { destruct Ho1 as (lb & Llb & Ul & _). pose proof (unsigned_range lb) as R. rewrite Ul, Llb in R.
    unfold ssize_max. change (256 ^ Z.of_nat 4) with (2 ^ 32) in R. lia. }
  apply w_prompt. right. exists d. split; [exact Hd'|]. apply w_prompt. right. exists KdfBcrypt. split; [exact Hk|].
  apply w_prompt. right. exists ob. split; [rewrite snd_wlift; eapply options_complete; eassumption|].
  apply w_prompt. right. exists ((magic ++ c1 ++ k1 ++ o1 ++ n1) ++ concat xs). split.
  { rewrite snd_wlift. apply rbind_ok. exists (magic ++ c1 ++ k1 ++ o1 ++ n1). split.
    - apply file_header_iff. exists c1, k1, o1, n1. rewrite (Forall2_len _ _ _ Hpubs) in *. repeat (split; [assumption|]). reflexivity.
    - rewrite (proj2 (pubs_bytes_iff _ _ _) (ex_intro _ pubs (ex_intro _ xs (conj Hpubs (conj Hxs eq_refl))))). reflexivity. }
  apply w_prompt. right. eexists. split.
  { rewrite snd_wlift. rewrite (proj2 (check_ints_iff _ _) (ex_intro _ ci (conj Lci (conj Uci eq_refl)))). cbn [rbind].
    rewrite (proj2 (privs_bytes_iff _ _) (ex_intro _ privs (conj Hprivs eq_refl))). cbn [rbind]. rewrite Hc. cbn [rbind]. reflexivity. }
  apply w_prompt. left. left. reflexivity.
Qed.
Theorem C84_pack_prompts_iff p e l given idx ov retain :
  In Prompt (fst (list_pack_bytes p e l given idx ov retain)) <->
  given = None /\ exists cn, packable e l idx ov retain cn.
Proof.
  split; [apply pack_prompts_only_if|]. intros (-> & cn & H). exact (pack_prompts_if _ _ _ _ _ _ _ H).
Qed.
Lemma list_names_fun l c k c' k' : list_names l c k -> list_names l c' k' -> c = c' /\ k = k'.
Proof. intros H H'. apply list_names_iff in H, H'. rewrite H in H'. injection H' as <- <-. auto. Qed.
(** An unsupported cipher: nothing is packed and the user is not asked. *)
Theorem C84_pack_unsupported_cipher p e l v k given idx ov retain :
  list_names l v k -> ~ names_cipher v ->
  ~ In Prompt (fst (list_pack_bytes p e l given idx ov retain)) /\
  exists x, snd (list_pack_bytes p e l given idx ov retain) = Err x.
Proof.
  intros Hn Nc. split.
  - intros H. apply C84_pack_prompts_iff in H as (_ & cn & d & opts & sel & pubs & privs & plain & b & Hn' & Hc & _).
    destruct (list_names_fun _ _ _ _ _ Hn Hn') as (-> & _). apply Nc. exists cn. auto.
  - destruct (snd (list_pack_bytes p e l given idx ov retain)) as [b|x] eqn:H; [exfalso|eauto].
    rewrite list_pack_eq in H. apply list_names_iff in Hn. rewrite Hn in H. cbn [fst snd] in H. unfold pack_selected in H.
    do 4 (apply snd_wbind in H as (? & _ & H)). apply snd_wbind in H as (plain & Hpl & _). rewrite snd_wlift in Hpl.
    apply rbind_ok in Hpl as (? & _ & Hpl). apply rbind_ok in Hpl as (? & _ & Hpl). apply rbind_ok in Hpl as (c & Hc & _).
    apply Nc, get_cipher_supported. exists c. exact Hc.
Qed.
(** If everything else can be packed, the error is a KeyError holding the cipher's name. *)
Theorem C84_pack_unknown_cipher_name p e l cn kn given idx (ov retain : bool) d opts sel pubs privs plain b :
  list_names l (VStr cn) (VStr kn) -> ~ In cn (map fst cipher_table) ->
  options_used e l retain kn d -> options_of kn d opts ->
  chosen (l_pairs l) idx sel -> Z.of_nat (length sel) < 2 ^ 31 ->
  Forall2 (fun q x => pack_public_bytes (if ov then pr_private q else pr_public q) = Ok x) sel pubs ->
  Forall2 (fun q x => pack_private_bytes (pr_private q) = Ok x) sel privs ->
  plaintext_of (e_randbits e) (e_randbits e) privs [] plain -> file_of cn kn opts pubs [] [] b ->
  snd (list_pack_bytes p e l given idx ov retain) = Err (KeyError (VStr cn)).
Proof.
  intros En Hcn Hd Ho Es Sn Hpubs Hprivs
    (ci & ci2 & Lci & Uci & Lci2 & Uci2 & _) (c1 & k1 & o1 & n1 & xs & y & Hc1 & Hk1 & Ho1 & Ln & Un & Hxs & Hy & _).
  rewrite list_pack_eq. rewrite (proj2 (list_names_iff _ _ _) En). cbn [fst snd]. unfold pack_selected.
  assert (get_cipher (VStr cn) = Err (KeyError (VStr cn))) as Hc.
  { apply C84_unknown_cipher_class. intros (cn' & E & H). injection E as <-. exact (Hcn H). }
  destruct (options_name _ _ _ Ho) as (k & Hk).
  apply chosen_iff in Es. rewrite Es. rewrite map_length.
  pose proof (proj2 (options_for_iff _ _ _ _ _ _ Hk) Hd) as Hd'.
  assert (Z.of_nat (length opts) <= ssize_max) as Lob.
  { destruct Ho1 as (lb & Llb & Ul & _). pose proof (unsigned_range lb) as R. rewrite Ul, Llb in R.
    unfold ssize_max. change (256 ^ Z.of_nat 4) with (2 ^ 32) in R. lia. }
  destruct (options_for e l retain (VStr kn)) as [l1 r1]. cbn [snd] in Hd'. subst r1. cbn [wbind].
  rewrite Hk. cbn [wlift wbind]. rewrite (options_complete _ _ _ _ Hk Ho Lob). cbn [wbind].
  rewrite (proj2 (file_header_iff cn kn opts (length sel) (magic ++ c1 ++ k1 ++ o1 ++ n1))).
  2:{ exists c1, k1, o1, n1. rewrite (Forall2_len _ _ _ Hpubs) in *. repeat (split; [assumption|]). reflexivity. }
  cbn [rbind]. rewrite (proj2 (pubs_bytes_iff _ _ _) (ex_intro _ pubs (ex_intro _ xs (conj Hpubs (conj Hxs eq_refl))))). cbn [rbind wbind].
  rewrite (proj2 (check_ints_iff _ _) (ex_intro _ ci (conj Lci (conj Uci eq_refl)))). cbn [rbind].
  rewrite (proj2 (privs_bytes_iff _ _) (ex_intro _ privs (conj Hprivs eq_refl))). cbn [rbind]. rewrite Hc. cbn [rbind wbind]. reflexivity.
Qed.

(** ** Parsing *)
(** The user is asked exactly if no passphrase is given and the input is laid out as a file
    that names a supported cipher and KDF bcrypt, whose options and public keys can be read. *)
Definition readable (p : prims) (b : bytes) (cn : pystr) : Prop :=
  exists opts pubs body tail d keys,
    file_of cn (str "bcrypt") opts pubs body tail b /\ Z.of_nat (length pubs) < 2 ^ 31 /\
    In cn (map fst cipher_table) /\ options_read (str "bcrypt") d opts /\
    Forall2 (fun k x => exists lg, key_from_bytes (p_ec_ok p) KPub x None = (lg, Ok k)) keys pubs.
Lemma wmap_pubs_keylog p pubs : keylog (wmap (fun b => pub_from_bytes p b None) pubs).
Proof.
  induction pubs as [|x pubs IH]; cbn [wmap]; [apply keylog_ret|].
  apply keylog_bind; [apply keylog_from_bytes|]. intros k. apply keylog_bind; [exact IH|]. intros r. apply keylog_ret.
Qed.
Lemma file_options_size cn kn opts pubs body tail b :
  file_of cn kn opts pubs body tail b -> Z.of_nat (length b) <= ssize_max -> Z.of_nat (length opts) <= ssize_max.
Proof.
  intros (c0 & k0 & o0 & n0 & ps0 & x0 & _ & _ & Po & _ & _ & _ & _ & ->) Hb. apply prefixed_length in Po.
  rewrite !app_length in Hb. lia.
Qed.
Theorem C84_parse_prompts_iff p e b given : Z.of_nat (length b) <= ssize_max ->
  In Prompt (fst (list_from_bytes p e b given)) <-> given = None /\ exists cn, readable p b cn.
Proof.
  intros Hb. rewrite list_from_bytes_log. split.
  - intros H. destruct (prompt_layout _ _ _ _ H) as (-> & cn & opts & pubs & body & tail & Hf & Hn). split; [reflexivity|].
    exists cn, opts, pubs, body, tail. rewrite (from_bytes_file _ _ _ _ _ _ _ _ _ _ Hf Hn Hb) in H. unfold parse_file in H.
    apply w_prompt in H as [H|(keys & Hkeys & H)]; [exfalso; exact (keylog_prompt _ (wmap_pubs_keylog _ _) H)|].
    destruct (wmap _ pubs) as [lk rk] eqn:Ek. cbn [snd] in Hkeys. subst rk. apply wmap_pubs in Ek as (Fk & _).
    apply w_prompt in H as [[]|(k & Hk & H)]. rewrite snd_wlift in Hk.
    apply w_prompt in H as [[]|(d & Hd & H)]. rewrite snd_wlift in Hd.
    apply w_prompt in H as [H|([] & _ & H)]; [exfalso; exact (new_kdf_prompt _ _ H)|].
    apply w_prompt in H as [[]|(c & Hc & H)]. rewrite snd_wlift in Hc.
    exists d, keys. split; [exact Hf|]. split; [exact Hn|]. split; [apply C37_supported_ciphers; exists c; exact Hc|].
    split; [exact (proj1 (options_read_iff p _ _ _ _ Hk (file_options_size _ _ _ _ _ _ _ Hf Hb)) Hd)|exact Fk].
  - intros (-> & cn & opts & pubs & body & tail & d & keys & Hf & Hn & Hcn & Hd & Fk).
    rewrite (from_bytes_file _ _ _ _ _ _ _ _ _ _ Hf Hn Hb). unfold parse_file.
    apply C37_supported_ciphers in Hcn as (c & Hc). assert (get_kdf (VStr (str "bcrypt")) = Ok KdfBcrypt) as Hk by reflexivity.
    destruct (wmap_pubs_complete _ _ _ Fk) as (lk & Ekeys).
    apply (proj2 (options_read_iff p _ _ _ _ Hk (file_options_size _ _ _ _ _ _ _ Hf Hb))) in Hd.
    apply w_prompt. right. exists keys. split; [rewrite Ekeys; reflexivity|].
    apply w_prompt. right. exists KdfBcrypt. split; [exact Hk|]. apply w_prompt. right. exists d. split; [exact Hd|].
    apply w_prompt. right. exists tt. split; [apply new_kdf_ok|]. apply w_prompt. right. exists c. split; [exact Hc|].
    apply w_prompt. left. left. reflexivity.
Qed.
(** A file that names an unsupported cipher or KDF: a ValueError, without asking, and the same
    whatever passphrase is given. *)
Theorem C84_parse_unsupported p e e' b given given' cn kn opts pubs body tail :
  Z.of_nat (length b) <= ssize_max ->
  (forall y, e_getpass e = Err y -> is_model_error y = false) ->
  file_of cn kn opts pubs body tail b -> Z.of_nat (length pubs) < 2 ^ 31 ->
  ~ names_cipher (VStr cn) \/ ~ names_kdf (VStr kn) ->
  exists lg x, list_from_bytes p e b given = (lg, Err x) /\ is_value_error x = true /\ ~ In Prompt lg /\
    list_from_bytes p e' b given' = (lg, Err x).
Proof.
  intros Hb Hg Hf Hn Hu.
  assert (forall e given, ~ In Prompt (fst (list_from_bytes p e b given))) as N.
  { intros e0 g H. apply (C84_parse_prompts_iff _ _ _ _ Hb) in H as (_ & cn' & opts' & pubs' & body' & tail' & d & keys & Hf' & _ & Hc & _).
    destruct (C29_layout_unambiguous _ _ _ _ _ _ _ _ _ _ _ _ _ _ [] [] Hf Hf' eq_refl) as (-> & -> & _).
    destruct Hu as [Hu|Hu]; apply Hu; [exists cn'; auto|right; reflexivity]. }
  assert (forall e' given', list_from_bytes p e' b given' = list_from_bytes p e b given) as Same.
  { intros e0 g0. transitivity (list_from_bytes p e b None); [|symmetry]; apply C35_parse_not_prompted_no_effect, N. }
  destruct (list_from_bytes p e b given) as [lg [l|x]] eqn:H.
  - exfalso. assert (from_bytes_try p e b given = (lg, Ok l)) as H'.
    { unfold list_from_bytes in H. destruct (from_bytes_try p e b given) as [? [?|?]]; [exact H|discriminate]. }
    rewrite (from_bytes_file _ _ _ _ _ _ _ _ _ _ Hf Hn Hb) in H'. apply (f_equal snd) in H'. cbn [snd] in H'. unfold parse_file in H'.
    apply snd_wbind in H' as (? & _ & H'). apply snd_wbind in H' as (k & Hk & H'). rewrite snd_wlift in Hk.
    apply snd_wbind in H' as (? & _ & H'). apply snd_wbind in H' as (? & _ & H'). apply snd_wbind in H' as (c & Hc & _). rewrite snd_wlift in Hc.
    destruct Hu as [Hu|Hu]; apply Hu; [apply get_cipher_supported; eauto|apply get_kdf_supported; eauto].
  - exists lg, x. split; [reflexivity|]. split; [exact (C27_only_value_error _ _ _ _ _ _ Hg H)|].
    split; [specialize (N e given); rewrite H in N; exact N|]. apply Same.
Qed.

(** ** Concrete cases *)
Definition ex_named (c k : pyval) : pkl := mkpkl ex_pairs None (Some [(str "cipher", c); (str "kdf", k)]) None None None None None.
(** The file of C24's example with the last three letters of the cipher's name changed. *)
Definition ex_file_net : bytes := Eval vm_compute in firstn 38 ex_file ++ bstr "net" ++ skipn 41 ex_file.
Definition piece (i n : nat) : bytes := firstn n (skipn i ex_file).
Lemma text_wire s x : instr_bytes fS (VStr s) = Ok x -> wire (TText 4) (VStr s) x.
Proof. apply text_iff. Qed.
Lemma octets_prefixed u x : instr_bytes fB (VBytes u) = Ok x -> prefixed 4 u x.
Proof. apply octets_iff. Qed.
Lemma ex_layout cn c b :
  instr_bytes fS (VStr cn) = Ok c -> magic ++ c ++ skipn 41 ex_file = b ->
  file_of cn (str "bcrypt") (piece 55 24) [piece 87 51; piece 142 22] (piece 168 192) (piece 360 16) b.
Proof.
  intros Hc <-. exists c, (piece 41 10), (piece 51 28), (piece 79 4), [piece 83 55; piece 138 26], (piece 164 196).
  split; [apply text_wire; exact Hc|]. split; [apply text_wire; vm_compute; reflexivity|].
  split; [apply octets_prefixed; vm_compute; reflexivity|]. split; [vm_compute; reflexivity|]. split; [vm_compute; reflexivity|].
  split; [constructor; [apply octets_prefixed; vm_compute; reflexivity|constructor; [apply octets_prefixed; vm_compute; reflexivity|constructor]]|].
  split; [apply octets_prefixed; vm_compute; reflexivity|]. reflexivity.
Qed.
(** Unsupported names of every sort, asking and not asking; and what is not known before the
    passphrase is asked for: that the tag after the ciphertext is incomplete. *)
Example C84_example :
  list_names (ex_named (VStr (str "none")) (VStr (str "scrypt"))) (VStr (str "none")) (VStr (str "scrypt")) /\
  list_pack_bytes toy_prims ex_env (ex_named (VStr (str "none")) (VStr (str "scrypt"))) None None true false = ([], Err (KeyError (VStr (str "scrypt")))) /\
  list_pack_bytes toy_prims ex_env (ex_named (VStr (str "none")) (VInt 5)) None (Some [7]) true true = ([], Err (KeyError (VInt 5))) /\
  list_pack_bytes toy_prims ex_env (ex_named (VStr (str "rot13")) (VStr (str "bcrypt"))) None None true false = ([], Err (KeyError (VStr (str "rot13")))) /\
  packable ex_env ex_list None true false (str "aes256-gcm@openssh.com") /\
  readable toy_prims ex_file (str "aes256-gcm@openssh.com") /\
  (exists opts pubs body tail, file_of (str "aes256-gcm@openssh.net") (str "bcrypt") opts pubs body tail ex_file_net /\ length pubs = 2%nat) /\
  list_from_bytes toy_prims ex_env ex_file_net None = ([], Err ValueError) /\
  list_from_bytes toy_prims ex_env (removelast ex_file) None = ([Prompt], Err ValueError).
Proof.
  split; [left; eexists; split; [reflexivity|split; reflexivity]|]. do 3 (split; [vm_compute; reflexivity|]).
  split.
  { assert (In Prompt (fst (list_pack_bytes toy_prims ex_env ex_list None None true false))) as H by (vm_compute; auto).
    destruct (proj1 (C84_pack_prompts_iff toy_prims ex_env ex_list None None true false) H) as (_ & cn & K).
    assert (VStr cn = VStr (str "aes256-gcm@openssh.com")) as E.
    { destruct K as (d & opts & sel & pubs & privs & plain & b & Hn & _). symmetry.
      refine (proj1 (list_names_fun ex_list _ (VStr (str "bcrypt")) _ _ _ Hn)). left. eexists. split; [reflexivity|split; reflexivity]. }
    injection E as ->. exact K. }
  assert (file_of (str "aes256-gcm@openssh.com") (str "bcrypt") (piece 55 24) [piece 87 51; piece 142 22] (piece 168 192) (piece 360 16) ex_file) as F.
  { apply (ex_layout (str "aes256-gcm@openssh.com") (piece 15 26) ex_file); vm_compute; reflexivity. }
  split.
  { assert (In Prompt (fst (list_from_bytes toy_prims ex_env ex_file None))) as H by (vm_compute; auto).
    destruct (proj1 (C84_parse_prompts_iff toy_prims ex_env ex_file None ltac:(vm_compute; discriminate)) H) as (_ & cn & K).
    assert (K' := K). destruct K' as (opts & pubs & body & tail & d & keys & Hf & _).
    pose proof (C29_layout_unambiguous _ _ _ _ _ _ _ _ _ _ _ _ _ _ [] [] F Hf eq_refl) as (<- & _). exact K. }
  split; [|split; vm_compute; reflexivity].
  exists (piece 55 24), [piece 87 51; piece 142 22], (piece 168 192), (piece 360 16). split; [|reflexivity].
  apply (ex_layout (str "aes256-gcm@openssh.net") (map bZ [0; 0; 0; 22] ++ bstr "aes256-gcm@openssh.net") ex_file_net); vm_compute; reflexivity.
Qed.

Print Assumptions C84_unknown_cipher_class.
Print Assumptions C84_unknown_kdf_class.
Print Assumptions C84_pack_unsupported_kdf.
Print Assumptions C84_pack_prompts_iff.
Print Assumptions C84_pack_unsupported_cipher.
Print Assumptions C84_pack_unknown_cipher_name.
Print Assumptions C84_parse_prompts_iff.
Print Assumptions C84_parse_unsupported.
