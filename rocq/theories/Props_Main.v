(** The command on files that the library wrote: C81. *)
From Verif Require Import PyBase Utf8 Stream Text Classes Key Crypto PrivateKeyList Json
  SpecWire SpecKey SpecText SpecCrypto SpecList SpecJson SpecMain ProofBase ProofKey ProofText ProofLog ProofJson ProofUtf8
  Props_Key Props_Crypto Props_Text Props_List Props_Armor Props_Round Props_Json.
Open Scope Z_scope.

Lemma added_comment_of use d c c' : added_comment use d c -> comment_of use d c' -> c' = c.
Proof.
  unfold added_comment, comment_of. destruct use; [|congruence].
  destruct (dget (str "comment") d) as [v|]; [|congruence].
  intros (s & -> & ->) (s' & V & ->). inversion V. reflexivity.
Qed.
Lemma no_cr_translated s : ~ In 13%N s -> newlines_translated s s.
Proof. induction s as [|c s IH]; intros N; constructor; cbn in N; intuition. Qed.
Lemma types_fine : Forall (fun x : pystr * _ => (forall r, fst x <> 45%N :: r) /\ unbroken (fst x)) key_specs.
Proof.
  repeat (apply Forall_cons; [cbn [fst]; split; [discriminate|intros c Hc K; vm_compute in Hc; unfold boundaries in K; cbn [In] in K; lia]|]).
  constructor.
Qed.

(** One line; [l] is the line without its final newline, possibly with another comment. *)
Lemma written_line_parses ec k c s :
  reparses ec k -> written_line k c s -> Z.of_nat (length s) <= ssize_max ->
  exists t b sep, s = (t ++ 32%N :: b64encode b ++ sep) ++ [10%N] /\ (c = [] /\ sep = [] \/ sep = 32%N :: c) /\
    unbroken t /\ (forall r, t <> 45%N :: r) /\ t <> [] /\ wordlike t /\
    exists lg, (forall ev, In ev lg -> ~ line_message ev) /\
    forall l a, key_line l t (b64encode b) a ->
    exists k', key_from_string ec KPub l = (lg, Ok k') /\ key_with_comment k a k'.
Proof.
  intros Rp (uf & uc & c1 & c2 & E & A1 & A2 & Sep) L.
  assert (exists t pub priv, In (t, (pub, priv)) key_specs /\ is_key t k) as (t & pub & priv & Hs & Hk).
  { destruct Rp as [(t & pub & priv & Hs & Hk)|(h & ps & fo & cl & lg & Nk)]; [eauto 6|].
    destruct (C17_constructed_keys_have_types _ _ _ _ _ _ _ _ Nk) as (_ & t & pub & priv & Hs & Hk). eauto 6. }
  destruct (packed_line _ _ _ _ _ _ _ Hs Hk E) as (b & c1' & c2' & b64 & Eb & H1 & H2 & Es & _ & _).
  rewrite (added_comment_of _ _ _ _ A1 H1), (added_comment_of _ _ _ _ A2 H2) in Es. clear c1' c2' b64 H1 H2.
  assert (Z.of_nat (length b) <= ssize_max) as Lb.
  { rewrite Es, !app_length in L. pose proof (b64encode_length b). lia. }
  destruct (reparses_public _ _ _ Rp Eb Lb) as (lg & k' & Ek & t' & pub' & priv' & Hs' & Hk' & Ik & Kk & Eh & Rs & Ef & Ec).
  assert (t' = t) as -> by (destruct Hk as (Hk & _), Hk' as (Hk' & _); congruence).
  pose proof (proj1 (Forall_forall _ _) types_fine _ Hs) as (Nt & Ut). cbn [fst] in Nt, Ut.
  exists t, b, (c1 ++ c2). split. { rewrite Es, <- !app_assoc. cbn. rewrite <- !app_assoc. reflexivity. }
  split. { destruct Sep as [(S1 & ->)|S1]; [left; auto|right; exact S1]. }
  split; [exact Ut|]. split; [exact Nt|].
  split. { intros ->. vm_compute in Hs. repeat destruct Hs as [Hs|Hs]; try discriminate; contradiction. }
  split; [exact (type_wordlike _ _ _ Hs)|].
  exists lg. split.
  { intros ev Hev Lm. assert (key_warning ev = false) as F by (destruct ev as [[]|]; cbn in Lm; try contradiction; reflexivity).
    pose proof (keylog_not_in _ ev (keylog_from_bytes ec KPub b None) F) as N. rewrite Ek in N. exact (N Hev). }
  intros l a KL. rewrite (key_from_string_line _ _ _ _ _ _ KL), (base64_decode _ _ (b64encode_base64 b)).
  rewrite (key_from_bytes_clear _ _ _ (clear_dict t a) _ _ Ek Ec).
  cbn [k_header]. rewrite Eh. cbn [dget]. rewrite str_eqb_refl, val_eqb_refl, app_nil_r.
  eexists. split; [reflexivity|]. exists t, pub', priv'. cbn [k_kind k_header k_pcls k_params k_footer k_clear].
  do 2 (split; [assumption|]). rewrite <- Eh. split; [exact Ik|]. rewrite Eh. auto 10.
Qed.
Lemma unbroken_app a b : unbroken a -> unbroken b -> unbroken (a ++ b).
Proof. intros A B c H. apply in_app_or in H as [H|H]; auto. Qed.
Lemma unbroken_b64 b : unbroken (b64encode b).
Proof.
  intros c Hc. pose proof (base64_char_range _ _ (b64encode_base64 b) c Hc) as R. unfold boundaries. cbn [In]. lia.
Qed.
Lemma unbroken_space s : unbroken s -> unbroken (32%N :: s).
Proof. intros H c [<-|K]; [unfold boundaries; cbn [In]; lia|auto]. Qed.
Lemma unbroken_cr l : unbroken l -> ~ In 13%N l.
Proof. intros U K. apply (U _ K). unfold boundaries. cbn. auto 10. Qed.
Lemma not_begin t r rest : t <> [] -> (forall r, t <> 45%N :: r) -> t ++ r <> begin_line ++ rest.
Proof.
  intros N D E. destruct t as [|x t]; [congruence|].
  apply (f_equal (fun l => match l with [] => 0%N | c :: _ => c end)) in E. cbn in E. subst x. eapply D. reflexivity.
Qed.
(** The whole file. *)
Lemma written_lines_parse ec kcs ss :
  Forall2 (fun kc s => reparses ec (fst kc) /\ written_line (fst kc) (snd kc) s /\ unbroken (snd kc)) kcs ss ->
  Z.of_nat (length (concat ss)) <= ssize_max ->
  (forall rest, concat ss <> begin_line ++ rest) /\ ~ In 13%N (concat ss) /\
  exists ls ks, lines (concat ss) ls /\ Forall2 (fun kc k' => key_with_comment (fst kc) (snd kc) k') kcs ks /\
    forall i, exists lg, line_results ec i ls ks lg /\ forall ev, In ev lg -> ~ line_message ev.
Proof.
  induction 1 as [|[k c] s kcs ss (Rp & W & U) H IH]; intros L; cbn [concat].
  - split; [discriminate|]. split; [intros []|]. exists [], []. split; [constructor|]. split; [constructor|].
    intros i. exists []. split; [constructor|intros ? []].
  - cbn [fst snd] in *. cbn [concat] in L. rewrite app_length in L.
    destruct (written_line_parses _ _ _ _ Rp W ltac:(lia)) as (t & b & sep & -> & Sep & Ut & Nt & Net & Wt & lg & M & P).
    destruct (IH ltac:(lia)) as (_ & Ncr & ls & ks & Hl & Hk & Hr).
    assert (unbroken (t ++ 32%N :: b64encode b ++ sep)) as Ul.
    { apply unbroken_app; [exact Ut|]. apply unbroken_space. apply unbroken_app; [apply unbroken_b64|].
      destruct Sep as [(_ & ->)| ->]; [intros ? []|apply unbroken_space; exact U]. }
    assert (key_line (t ++ 32%N :: b64encode b ++ sep) t (b64encode b) c) as KL.
    { destruct Sep as [(-> & ->)| ->].
      - rewrite app_nil_r. apply key_line_plain; [exact Wt|apply base64_wordlike].
      - apply key_line_comment; [exact Wt|apply base64_wordlike]. }
    destruct (P _ _ KL) as (k' & Ek & Kc).
    split. { intros rest. rewrite <- !app_assoc. apply not_begin; assumption. }
    split. { intros K. apply in_app_or in K as [K|K]; [|exact (Ncr K)]. apply in_app_or in K as [K|[K|[]]]; [|discriminate]. exact (unbroken_cr _ Ul K). }
    exists ((t ++ 32%N :: b64encode b ++ sep) :: ls), (k' :: ks). split.
    { rewrite <- app_assoc. apply lines_break; [exact Ul|unfold boundaries; cbn; auto| |exact Hl]. intros (K & _). discriminate. }
    split; [constructor; assumption|]. intros i. destruct (Hr (S i)) as (lg' & R & M').
    exists (lg ++ lg'). split; [apply lr_key; assumption|]. intros ev K. apply in_app_or in K as [K|K]; auto.
Qed.

(** ** C81 *)
(** A private key file: the JSON object printed shows the pairs that were packed. *)
Theorem C81_private_file p e e' l given given' idx ov retain s sel file :
  sound_prims p -> Z.of_nat (length s) <= ssize_max ->
  snd (list_pack_string p e l given idx ov retain) = Ok s -> utf8 s file ->
  chosen (l_pairs l) idx sel -> Forall is_pair sel ->
  (ov = false -> Forall (fun q => reparses (p_ec_ok p) (pr_public q)) sel) ->
  (forall kn pass, passphrase_used e kn given pass -> passphrase_used e' kn given' pass) ->
  exists lg x t l', main_command p e' file given' = (lg, Ok x) /\ json_text t x /\ shows_list l' t /\
    Forall2 (fun q q' => same_private (pr_private q) (pr_private q') /\
                         same_public (if ov then pr_private q else pr_public q) (pr_public q')) sel (l_pairs l') /\
    ~ In (Warn WCheckInts) lg /\ ~ In (Warn WPadding) lg /\
    (ov = true -> forall ev, In ev lg -> ~ file_warning ev).
Proof.
  intros S L Hs Hf Hsel Ip Rp Hpass. pose proof (C32_armor_format p e l given idx ov retain S) as F.
  destruct (list_pack_bytes p e l given idx ov retain) as [lg [b|x]] eqn:E; [|rewrite F in Hs; discriminate].
  destruct F as (ls & s' & Es & Eu & _ & B). rewrite Es in Hs. cbn [snd] in Hs. injection Hs as ->.
  assert (Z.of_nat (length b) <= ssize_max) as Lb.
  { pose proof (b64encode_length b) as K. rewrite <- (base64_functional _ _ _ B (b64encode_base64 b)) in K.
    rewrite Eu in L. unfold unlines in L. cbn [map concat] in L. rewrite map_app, concat_app, !app_length in L.
    assert (length (concat ls) <= length (concat (map (fun l => l ++ newline) ls)))%nat.
    { clear. induction ls as [|y ls IH]; cbn [map concat]; [lia|]. rewrite !app_length. lia. }
    eapply Z.le_trans; [|exact L]. apply Nat2Z.inj_le. etransitivity; [exact K|]. etransitivity; [exact H|].
    etransitivity; [apply Nat.le_add_r|apply Nat.le_add_l]. }
  destruct (C24_roundtrip p e e' l given given' idx ov retain b sel S Lb) as (lg' & l' & El & P & N1 & N2 & N3);
    [rewrite E; reflexivity|assumption..|].
  assert (text_of_file file s) as T.
  { exists s. split; [exact Hf|]. apply no_cr_translated. rewrite Eu. unfold unlines. intros K.
    apply in_concat in K as (y & Hy & K). apply in_map_iff in Hy as (z & <- & Hz).
    apply in_app_or in K as [K|[K|[]]]; [|discriminate].
    destruct Hz as [<-|Hz]; [vm_compute in K; lia|]. apply in_app_or in Hz as [Hz|[<-|[]]]; [|vm_compute in K; lia].
    pose proof (C32_base64_chars _ _ B) as U. rewrite Forall_forall in U. exact (unbroken_cr _ (U _ Hz) K). }
  assert (main_parse p e' s given' = (lg', Ok (ParsedList l'))) as Em.
  { unfold main_parse. assert (starts_with pem_header s = true) as -> by (rewrite Eu; reflexivity).
    rewrite (C31_armor_roundtrip p e e' l given idx ov retain lg b s given' S E Es), El. cbn [wbind wret]. rewrite app_nil_r. reflexivity. }
  destruct (proj1 (proj1 (C65_output_exactly_on_success p e' file given') s T) _ _ Em) as (x & Ex).
  destruct (C65_output_is_json _ _ _ _ _ _ Ex) as (s1 & r & t & T1 & R1 & Sh & _ & J & _).
  assert (s1 = s) as -> by (eapply text_of_file_fun; eassumption). rewrite Em in R1. injection R1 as <-.
  exists lg', x, t, l'. auto 10.
Qed.
(** A public key file: the JSON array printed shows the keys that were packed, in order, with
    their comments, and no line is reported, if no comment contains a line boundary. *)
Theorem C81_public_file_partial p e given kcs ss file :
  Forall2 (fun kc s => reparses (p_ec_ok p) (fst kc) /\ written_line (fst kc) (snd kc) s /\ unbroken (snd kc)) kcs ss ->
  Z.of_nat (length (concat ss)) <= ssize_max -> utf8 (concat ss) file ->
  exists lg x ts ks, main_command p e file given = (lg, Ok x) /\ json_text (JArr ts) x /\ Forall2 shows_key ks ts /\
    Forall2 (fun kc k' => key_with_comment (fst kc) (snd kc) k') kcs ks /\
    forall ev, In ev lg -> ~ line_message ev.
Proof.
  intros H L Hf. destruct (written_lines_parse _ _ _ H L) as (Nb & Ncr & ls & ks & Hl & Hk & R).
  destruct (R 0%nat) as (lg & Hr & M).
  assert (main_parse p e (concat ss) given = (lg, Ok (ParsedKeys ks))) as Em
    by (apply C55_lines_parsed_or_reported_partial; eauto).
  assert (text_of_file file (concat ss)) as T by (exists (concat ss); split; [exact Hf|apply no_cr_translated; exact Ncr]).
  destruct (proj1 (proj1 (C65_output_exactly_on_success p e file given) _ T) _ _ Em) as (x & Ex).
  destruct (C65_output_is_json _ _ _ _ _ _ Ex) as (s1 & r & t & T1 & R1 & Sh & _ & J & _).
  assert (s1 = concat ss) as -> by (eapply text_of_file_fun; eassumption). rewrite Em in R1. injection R1 as <-.
  destruct Sh as (ts & -> & Sh). exists lg, x, ts, ks. auto 10.
Qed.
(** Missing above: comments with a line boundary. pack_public_string writes them as they are, so
    what follows a line boundary in a comment is read as further lines of the file. (A carriage
    return is a newline when the file is read.) *)
Theorem C81_line_boundary_in_comment p e given k a x r s :
  reparses (p_ec_ok p) k -> written_line k (a ++ x :: r) s -> unbroken a -> In x boundaries -> x <> 13%N ->
  Z.of_nat (length s) <= ssize_max ->
  exists lg k', key_with_comment k a k' /\ (forall ev, In ev lg -> ~ line_message ev) /\
    forall ls ks lg', lines (r ++ newline) ls -> line_results (p_ec_ok p) 1 ls ks lg' ->
      main_parse p e s given = (lg ++ lg', Ok (ParsedKeys (k' :: ks))).
Proof.
  intros Rp W U Hx Nx L.
  destruct (written_line_parses _ _ _ _ Rp W L) as (t & b & sep & -> & Sep & Ut & Nt & Net & Wt & lg & M & P).
  destruct Sep as [(K & _)| ->]; [apply app_eq_nil in K as (_ & K); discriminate|].
  destruct (P (t ++ 32%N :: b64encode b ++ 32%N :: a) a) as (k' & Ek & Kc).
  { apply key_line_comment; [exact Wt|apply base64_wordlike]. }
  exists lg, k'. split; [exact Kc|]. split; [exact M|]. intros ls ks lg' Hl Hr.
  apply C55_lines_parsed_or_reported_partial.
  { intros rest. rewrite <- !app_assoc. apply not_begin; assumption. }
  exists ((t ++ 32%N :: b64encode b ++ 32%N :: a) :: ls). split; [|apply lr_key; assumption].
  replace ((t ++ 32%N :: b64encode b ++ 32%N :: a ++ x :: r) ++ [10%N])
    with ((t ++ 32%N :: b64encode b ++ 32%N :: a) ++ x :: (r ++ newline)).
  - apply lines_break; [|exact Hx|intros (K & _); contradiction|exact Hl].
    apply unbroken_app; [exact Ut|]. apply unbroken_space. apply unbroken_app; [apply unbroken_b64|apply unbroken_space; exact U].
  - unfold newline. rewrite <- !app_assoc. cbn. rewrite <- !app_assoc. cbn. rewrite <- !app_assoc. reflexivity.
Qed.
(** So a comment can add keys to the file. *)
Definition ex_added : pystr := match pack_public_string true true ex_ed with Ok s => removelast s | Err _ => [] end.
Definition ex_comment : pystr := str "toy" ++ newline ++ ex_added.
Definition ex_rsa_comment (c : pystr) : key :=
  mkkey KPriv (k_header ex_rsa) RSAPriv (k_params ex_rsa) [(str "comment", VStr c)] [].
Lemma ex_rsa_comment_reparses ec c : reparses ec (ex_rsa_comment c).
Proof. left. eexists (str "ssh-rsa"), _, _. split; [in_specs|split; reflexivity]. Qed.
Lemma ex_ed_reparses ec : reparses ec ex_ed.
Proof. left. eexists (str "ssh-ed25519"), _, _. split; [in_specs|split; reflexivity]. Qed.
Lemma ex_rsa_comment_written c s : pack_public_string true false (ex_rsa_comment c) = Ok s -> written_line (ex_rsa_comment c) c s.
Proof. intros E. exists true, false, (str " " ++ c), []. split; [exact E|]. split; [eexists; split; reflexivity|]. split; [reflexivity|]. right. apply app_nil_r. Qed.
Theorem C81_comments_refuted p e given :
  exists k c s k1 k2, reparses (p_ec_ok p) k /\ written_line k c s /\ is_key (str "ssh-rsa") k /\
    main_parse p e s given = ([], Ok (ParsedKeys [k1; k2])) /\ is_key (str "ssh-ed25519") k2.
Proof.
  eexists (ex_rsa_comment ex_comment), ex_comment, _, _, _. split; [apply ex_rsa_comment_reparses|].
  split; [apply ex_rsa_comment_written; vm_compute; reflexivity|]. split; [split; reflexivity|].
  split; [vm_compute; reflexivity|split; reflexivity].
Qed.

(** An RSA and an Ed25519 key, two lines, the first with a comment that contains a space. *)
Definition ex_two : list (key * pystr) := [(ex_rsa_comment (str "a b"), str "a b"); (ex_ed, str "me@host")].
Definition line_of (k : key) : pystr := match pack_public_string true false k with Ok s => s | Err _ => [] end.
Example C81_example :
  (exists file, Forall2 (fun kc s => reparses ex_ec (fst kc) /\ written_line (fst kc) (snd kc) s /\ unbroken (snd kc))
      ex_two (map (fun kc => line_of (fst kc)) ex_two) /\
    Z.of_nat (length (concat (map (fun kc => line_of (fst kc)) ex_two))) <= ssize_max /\
    utf8 (concat (map (fun kc => line_of (fst kc)) ex_two)) file) /\
  (exists file, snd (list_pack_string toy_prims ex_env ex_list (Some (str "pw")) None true false) = Ok ex_text /\
    utf8 ex_text file /\ Z.of_nat (length ex_text) <= ssize_max).
Proof.
  split.
  - eexists. split; [|split; [vm_compute; discriminate|apply utf8_encode_iff; vm_compute; reflexivity]].
    constructor; [|constructor; [|constructor]]; cbn [fst snd].
    + split; [apply ex_rsa_comment_reparses|]. split; [apply ex_rsa_comment_written; vm_compute; reflexivity|].
      intros c Hc K. vm_compute in Hc, K. lia.
    + split; [apply ex_ed_reparses|]. split.
      { exists true, false, (str " " ++ str "me@host"), []. split; [vm_compute; reflexivity|].
        split; [eexists; split; reflexivity|]. split; [reflexivity|]. right. reflexivity. }
      intros c Hc K. vm_compute in Hc, K. lia.
  - eexists. split; [vm_compute; reflexivity|]. split; [apply utf8_encode_iff; vm_compute; reflexivity|vm_compute; discriminate].
Qed.

Print Assumptions C81_private_file.
Print Assumptions C81_public_file_partial.
Print Assumptions C81_line_boundary_in_comment.
Print Assumptions C81_comments_refuted.
