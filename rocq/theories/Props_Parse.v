(** Properties of parsing private key files: C29, C35, C38, C40. *)
From Verif Require Import PyBase IntBytes Utf8 StructFmt Stream Text Classes Key Crypto PrivateKeyList.
From Verif Require Import SpecWire SpecKey SpecText SpecCrypto SpecList.
From Verif Require Import ProofBase ProofInt ProofUtf8 ProofWire ProofRecord ProofKey ProofLog ProofErr ProofText ProofCrypto ProofList.
From Verif Require Import Props_Stream Props_Key Props_Crypto ProofRead Props_List.
Open Scope Z_scope.

(** ** The layout is prefix-free *)
Lemma app_inv_len {A} (a a' b b' : list A) : a ++ b = a' ++ b' -> length a = length a' -> a = a' /\ b = b'.
Proof. intros E L. apply app_eq_app in E as (l & [(-> & ->)|(-> & ->)]); rewrite app_length in L; (destruct l; [rewrite app_nil_r; auto|cbn in L; lia]). Qed.
Lemma prefixed_free u u' b b' r r' : prefixed 4 u b -> prefixed 4 u' b' -> b ++ r = b' ++ r' -> u = u' /\ r = r'.
Proof.
  intros P P' E. pose proof (prefixed_prefix_free _ _ _ _ _ _ _ P P' E) as <-. apply app_inv_head in E as <-.
  split; [|reflexivity]. destruct P as (l & L & _ & ->), P' as (l' & L' & _ & E). apply app_inv_len in E as (_ & E); [exact E|congruence].
Qed.
Lemma prefixed_list_free us us' bs bs' r r' : Forall2 (prefixed 4) us bs -> Forall2 (prefixed 4) us' bs' -> length us = length us' ->
  concat bs ++ r = concat bs' ++ r' -> us = us' /\ r = r'.
Proof.
  intros F. revert us' bs'. induction F as [|u b us bs P F IH]; intros us' bs' F' L E; destruct F' as [|u' b' us' bs' P' F']; try discriminate.
  - auto.
  - cbn [concat] in E. rewrite <- !app_assoc in E. destruct (prefixed_free _ _ _ _ _ _ P P' E) as (<- & E').
    destruct (IH _ _ F' ltac:(cbn in L; lia) E') as (<- & <-). auto.
Qed.
Theorem C29_layout_unambiguous cn kn opts pubs body tail b cn' kn' opts' pubs' body' tail' b' r r' :
  file_of cn kn opts pubs body tail b -> file_of cn' kn' opts' pubs' body' tail' b' -> b ++ r = b' ++ r' ->
  cn = cn' /\ kn = kn' /\ opts = opts' /\ pubs = pubs' /\ body = body' /\ tail ++ r = tail' ++ r'.
Proof.
  intros (c & k & o & n & ps & x & Wc & Wk & Po & Ln & Un & F & Px & ->) (c' & k' & o' & n' & ps' & x' & Wc' & Wk' & Po' & Ln' & Un' & F' & Px' & ->) E.
  rewrite <- !app_assoc in E. apply app_inv_head in E.
  destruct (wire_prefix_free _ _ _ _ _ _ _ Wc Wc' E) as (_ & Ec & E1). injection Ec as <-.
  destruct (wire_prefix_free _ _ _ _ _ _ _ Wk Wk' E1) as (_ & Ek & E2). injection Ek as <-.
  destruct (prefixed_free _ _ _ _ _ _ Po Po' E2) as (<- & E3).
  apply app_inv_len in E3 as (<- & E4); [|congruence].
  assert (length pubs = length pubs') as Lp by lia.
  destruct (prefixed_list_free _ _ _ _ _ _ F F' Lp E4) as (<- & E5).
  destruct (prefixed_free _ _ _ _ _ _ Px Px' E5) as (<- & E6). auto 10.
Qed.
Lemma tag_size_fun cn n n' : tag_size cn n -> tag_size cn n' -> n = n'.
Proof.
  intros H H'. assert (exists c, get_cipher (VStr cn) = Ok c) as (c & Ec).
  { destruct H as (m & kl & il & bs & Hin & _). destruct (cipher_table_spec _ _ _ _ _ Hin) as (c' & E & _). exists c'. exact E. }
  apply (tag_size_iff _ _ _ Ec) in H. apply (tag_size_iff _ _ _ Ec) in H'. congruence.
Qed.
(** No strict prefix of a file that ends with its tag is parsed, with any passphrase. *)
Theorem C29_truncated_file_rejected p e cn kn opts pubs body tag b b0 r given :
  sound_prims p -> (forall y, e_getpass e = Err y -> is_model_error y = false) ->
  Z.of_nat (length b) <= ssize_max ->
  file_of cn kn opts pubs body tag b -> tag_size cn (length tag) ->
  b = b0 ++ r -> r <> [] ->
  exists lg x, list_from_bytes p e b0 given = (lg, Err x) /\ is_value_error x = true.
Proof.
  intros S G L Hf Ht -> Nr. rewrite app_length in L. destruct (list_from_bytes p e b0 given) as [lg [l|x]] eqn:E.
  2: { exists lg, x. split; [reflexivity|]. eapply C27_only_value_error; eassumption. }
  exfalso. apply list_from_bytes_ok in E.
  destruct (parse_sound p e b0 given lg l S ltac:(lia) E) as
    (cn' & kn' & opts' & pubs' & body' & tag' & extra & d & pass & plain & c1 & c2 & privs & pad & pairs & c & k & lg1 & lg2 & Hf' & _ & _ & _ & Ht' & _).
  assert (b0 ++ r = (b0 ++ r) ++ []) as E0 by (rewrite app_nil_r; reflexivity).
  destruct (C29_layout_unambiguous _ _ _ _ _ _ _ _ _ _ _ _ _ _ _ _ Hf' Hf E0) as (-> & -> & -> & -> & -> & E1).
  pose proof (tag_size_fun _ _ _ Ht Ht') as Lt. apply (f_equal (@length byte)) in E1. rewrite !app_length in E1.
  destruct r; [congruence|]. cbn [length] in E1. lia.
Qed.
Theorem C29_truncated_output_rejected p e e' l given idx ov retain b b0 r given' :
  sound_prims p -> (forall y, e_getpass e' = Err y -> is_model_error y = false) ->
  Z.of_nat (length b) <= ssize_max ->
  snd (list_pack_bytes p e l given idx ov retain) = Ok b -> b = b0 ++ r -> r <> [] ->
  exists lg x, list_from_bytes p e' b0 given' = (lg, Err x) /\ is_value_error x = true.
Proof.
  intros S G L H E N. apply (pack_layout _ _ _ _ _ _ _ _ S) in H.
  destruct H as (cn & kn & d & opts & sel & pubs & privs & bs & pad & plain & pass & body & tag & H).
  eapply (C29_truncated_file_rejected p e' cn kn opts pubs body tag b); try eassumption; tauto.
Qed.

(** ** C35 *)
Lemma sw_prompt {A B} (f : SW A) (g : A -> SW B) s : In Prompt (fst (snd (swbind f g s))) ->
  In Prompt (fst (snd (f s))) \/ exists s1 l a, f s = (s1, (l, Ok a)) /\ In Prompt (fst (snd (g a s1))).
Proof.
  unfold swbind. destruct (f s) as [s1 [l [a|x]]]; cbn [fst snd]; [|auto].
  destruct (g a s1) as [s2 [l2 r]] eqn:E. cbn [fst snd]. intros H. apply in_app_or in H as [H|H]; [auto|].
  right. exists s1, l, a. rewrite E. auto.
Qed.
Lemma keylog_prompt {A} (w : W A) : keylog w -> ~ In Prompt (fst w).
Proof. intros K H. exact (keylog_not_in _ Prompt K eq_refl H). Qed.
Lemma new_kdf_prompt k d : ~ In Prompt (fst (new_kdf k d)).
Proof. apply keylog_prompt. apply keylog_check_dict. Qed.
Lemma read_pubs_prompt p fuel n s : ~ In Prompt (fst (snd (read_pubs p fuel n s))).
Proof.
  revert n s. induction fuel as [|fuel IH]; intros n s H; cbn [read_pubs] in H; destruct (n <=? 0); try (cbn in H; contradiction).
  apply sw_prompt in H as [H|(s1 & l & v & E & H)]; [rewrite snd_swp in H; contradiction|].
  destruct v; try (cbn in H; contradiction).
  apply sw_prompt in H as [H|(s2 & l2 & k & E2 & H)]; [exact (keylog_prompt _ (keylog_from_bytes _ _ _ _) H)|].
  apply sw_prompt in H as [H|(s3 & l3 & r & E3 & H)]; [exact (IH _ _ H)|cbn in H; contradiction].
Qed.
Lemma wwhen_prompt b x : ~ In Prompt (fst x) -> ~ In Prompt (fst (wwhen b x)).
Proof. destruct b; [auto|intros _ []]. Qed.
Lemma warn_prompt w : ~ In Prompt (fst (wwarn w)).
Proof. intros [H|[]]. discriminate. Qed.
Lemma read_privs_prompt p i pubs s : ~ In Prompt (fst (snd (read_privs p i pubs s))).
Proof.
  revert i s. induction pubs as [|pub pubs IH]; intros i s H; cbn [read_privs] in H; [cbn in H; contradiction|].
  apply sw_prompt in H as [H|(s1 & l & v & E & H)].
  { refine (keylog_prompt _ _ H). apply keylog_from_stream. intros b. apply keylog_parse_pub. }
  apply sw_prompt in H as [H|(s2 & l2 & k & E2 & H)]; [contradiction|].
  apply sw_prompt in H as [H|(s3 & l3 & r & E3 & H)]; [contradiction|].
  apply sw_prompt in H as [H|(s4 & l4 & [] & E4 & H)]; [exact (wwhen_prompt _ _ (warn_prompt _) H)|].
  apply sw_prompt in H as [H|(s5 & l5 & [] & E5 & H)]; [exact (wwhen_prompt _ _ (warn_prompt _) H)|].
  apply sw_prompt in H as [H|(s6 & l6 & r' & E6 & H)]; [exact (IH _ _ H)|cbn in H; contradiction].
Qed.
Lemma parse_deciphered_prompt p c pubs plain : ~ In Prompt (fst (parse_deciphered p c pubs plain)).
Proof.
  intros H. unfold parse_deciphered in H.
  apply sw_prompt in H as [H|(s1 & l1 & dh & E1 & H)]; [rewrite snd_swp in H; contradiction|].
  apply sw_prompt in H as [H|(s2 & l2 & c1 & E2 & H)]; [contradiction|].
  apply sw_prompt in H as [H|(s3 & l3 & c2 & E3 & H)]; [contradiction|].
  apply sw_prompt in H as [H|(s4 & l4 & [] & E4 & H)]; [exact (wwhen_prompt _ _ (warn_prompt _) H)|].
  apply sw_prompt in H as [H|(s5 & l5 & prs & E5 & H)]; [exact (read_privs_prompt _ _ _ _ H)|].
  apply sw_prompt in H as [H|(s6 & l6 & pad & E6 & H)]; [rewrite snd_swp in H; contradiction|].
  apply sw_prompt in H as [H|(s7 & l7 & [] & E7 & H)]; [exact (wwhen_prompt _ _ (warn_prompt _) H)|].
  contradiction.
Qed.
Lemma prompt_layout p e b given : In Prompt (fst (from_bytes_try p e b given)) ->
  given = None /\ exists cn opts pubs body tail, file_of cn (str "bcrypt") opts pubs body tail b /\ Z.of_nat (length pubs) < 2 ^ 31.
Proof.
  unfold from_bytes_try. intros E.
  apply sw_prompt in E as [H|(s1 & l1 & hd & H & E)]; [rewrite snd_swp in H; contradiction|].
  unfold swp in H. destruct (read_dict list_header_fmt (stream_of b)) as [s1' r] eqn:R. injection H as -> _ ->.
  apply (read_dict_sound _ _ _ _ _ header_types_ok) in R as (h & Rh & Uh & Es).
  apply header_record_inv in Rh as (m & cn & kn & opts & z & c & k & o & n & -> & Wc & Wk & Po & Ln & Sn & ->).
  change (unread (stream_of b)) with b in Uh.
  match type of E with In _ (fst (snd (swbind (sww (wlift (ditem _ ?h))) _ _))) => set (hd := h) in * end.
  apply sw_prompt in E as [H|(s2 & l3 & v1 & H & E)]; [contradiction|]. unfold sww, wlift in H.
  change (ditem (str "auth_magic") hd) with (Ok (VBytes m)) in H. injection H as <- _ <-.
  apply sw_prompt in E as [H|(s2 & l5 & [] & H & E)]; [destruct (val_eqb _ _); contradiction|]. unfold sww in H.
  destruct (val_eqb_reflect (VBytes m) (VBytes auth_magic)) as [Em|Em]; [|discriminate]. injection Em as ->.
  injection H as <- _.
  apply sw_prompt in E as [H|(s2 & l7 & v3 & H & E)]; [contradiction|]. unfold sww, wlift in H.
  change (ditem (str "num_keys") hd) with (Ok (VInt z)) in H. injection H as <- _ <-.
  apply sw_prompt in E as [H|(s2 & l9 & [] & H & E)]; [destruct (z <? 0); contradiction|]. unfold sww in H.
  destruct (z <? 0) eqn:Ez; [discriminate|]. injection H as <- _. apply Z.ltb_ge in Ez.
  apply sw_prompt in E as [H|(s3 & l11 & ks & Hp & E)]; [exfalso; exact (read_pubs_prompt _ _ _ _ H)|].
  apply read_pubs_sound in Hp as (pubs & xs & F & L & Lk & U & Es3); [|exact Ez].
  apply sw_prompt in E as [H|(s4 & l13 & cv & H & E)]; [rewrite snd_swp in H; contradiction|].
  unfold swp in H. destruct (read_instr fB s3) as [s4' r] eqn:R. injection H as -> _ ->.
  apply read_octets_sound in R as (body & x & -> & Px & Ux & _).
  pose proof (signed_lt p n Ln) as Bn. rewrite Sn in Bn. apply signed_nonneg in Sn as (Un & Bz); [|exact Ez].
  assert (file_of cn kn opts pubs body (unread s4) b) as Hf.
  { exists c, k, o, n, xs, x. do 4 (split; [assumption|]). split; [rewrite L; exact Un|]. split; [exact F|]. split; [exact Px|].
    rewrite Uh, U, Ux, <- !app_assoc. reflexivity. }
  apply sw_prompt in E as [H|(s5 & l15 & cb & H & E)]; [contradiction|]. clear H.
  apply sw_prompt in E as [H|(s6 & l16 & kv & H & E)]; [contradiction|].
  unfold sww, wlift in H. change (ditem (str "kdf") hd) with (Ok (VStr kn)) in H. injection H as _ _ <-.
  apply sw_prompt in E as [H|(s7 & l17 & kd & H & E)]; [contradiction|].
  assert (get_kdf (VStr kn) = Ok kd) as Ek by (unfold sww, wlift in H; injection H as _ _ H; exact H). clear H.
  apply sw_prompt in E as [H|(s8 & l18 & ov & H & E)]; [contradiction|]. clear H.
  apply sw_prompt in E as [H|(s9 & l19 & os & H & E)]; [contradiction|]. clear H.
  apply sw_prompt in E as [H|(s10 & l20 & op & H & E)]; [contradiction|]. clear H.
  apply sw_prompt in E as [H|(s11 & l21 & [] & H & E)]; [exfalso; exact (new_kdf_prompt _ _ H)|]. clear H.
  apply sw_prompt in E as [H|(s12 & l22 & ci & H & E)]; [contradiction|]. clear H.
  apply sw_prompt in E as [H|(s13 & l23 & cc & H & E)]; [contradiction|]. clear H.
  apply sw_prompt in E as [H|(s14 & l24 & pw & H & E)].
  { destruct kd; [contradiction|]. destruct given; [contradiction|]. split; [reflexivity|].
    apply get_kdf_iff in Ek as [(_ & K)|(K & _)]; [discriminate|]. injection K as ->.
    exists cn, opts, pubs, body, (unread s4). split; [exact Hf|rewrite L; exact Bn]. }
  clear H. exfalso.
  apply sw_prompt in E as [H|(s15 & l25 & tg & H & E)]; [destruct (is_integrity cc); [rewrite snd_swp in H|]; contradiction|]. clear H.
  apply sw_prompt in E as [H|(s16 & l26 & [] & H & E)]; [exact (new_kdf_prompt _ _ H)|]. clear H.
  apply sw_prompt in E as [H|(s17 & l27 & pl & H & E)]; [contradiction|]. clear H.
  apply sw_prompt in E as [H|(s18 & l28 & ((prs & dh) & pad) & H & E)]; [exact (parse_deciphered_prompt _ _ _ _ H)|contradiction].
Qed.
Lemma list_from_bytes_log p e b given : fst (list_from_bytes p e b given) = fst (from_bytes_try p e b given).
Proof. unfold list_from_bytes. destruct (from_bytes_try p e b given) as [l [a|x]]; reflexivity. Qed.
(** The user is only prompted if no passphrase is given and the file names kdf bcrypt. *)
Theorem C35_parse_prompt_only_if_needed p e b given :
  In Prompt (fst (list_from_bytes p e b given)) ->
  given = None /\ exists cn opts pubs body tail, file_of cn (str "bcrypt") opts pubs body tail b.
Proof.
  rewrite list_from_bytes_log. intros H. apply prompt_layout in H as (E & cn & opts & pubs & body & tail & Hf & _).
  split; [exact E|]. exists cn, opts, pubs, body, tail. exact Hf.
Qed.

(** Either the user is prompted or what they would answer has no effect. *)
Definition blind {A} (w w' : W A) : Prop := In Prompt (fst w) \/ w = w'.
Definition sblind {A} (f f' : SW A) : Prop := forall s, In Prompt (fst (snd (f s))) \/ f s = f' s.
Lemma sblind_refl {A} (f : SW A) : sblind f f. Proof. intros s. auto. Qed.
Lemma sblind_bind {A B} (f f' : SW A) (g g' : A -> SW B) :
  sblind f f' -> (forall a, sblind (g a) (g' a)) -> sblind (swbind f g) (swbind f' g').
Proof.
  intros F G s. unfold swbind. destruct (F s) as [H|<-].
  - left. destruct (f s) as [s1 [l [a|x]]]; cbn [fst snd] in *; [|exact H].
    destruct (g a s1) as [s2 [l2 r]]. cbn [fst snd]. apply in_or_app. auto.
  - destruct (f s) as [s1 [l [a|x]]]; [|auto]. destruct (G a s1) as [H|<-]; [|auto].
    left. destruct (g a s1) as [s2 [l2 r]]. cbn [fst snd] in *. apply in_or_app. auto.
Qed.
Theorem C35_parse_not_prompted_no_effect p e b e' given' :
  ~ In Prompt (fst (list_from_bytes p e b None)) ->
  list_from_bytes p e' b given' = list_from_bytes p e b None.
Proof.
  rewrite list_from_bytes_log. intros N.
  assert (In Prompt (fst (from_bytes_try p e b None)) \/ from_bytes_try p e b None = from_bytes_try p e' b given') as [H|H]; [|contradiction|unfold list_from_bytes; rewrite H; reflexivity].
  unfold from_bytes_try. 
  refine (match (_ : sblind _ _) (stream_of b) with or_introl H => or_introl H | or_intror H => or_intror (f_equal snd H) end).
  do 16 (apply sblind_bind; [apply sblind_refl|intros ?]).
  apply sblind_bind; [|intros ?].
  { intros s. match goal with |- context [match ?k with KdfNone => _ | KdfBcrypt => _ end] => destruct k end; [right; reflexivity|].
    left. left. reflexivity. }
  apply sblind_refl.
Qed.
(** The answer to the prompt is used as if it had been passed: same result, and the same
    events apart from the prompt. *)
Definition not_a_prompt (ev : event) : bool := match ev with Prompt => false | _ => true end.
Definition alike {A} (f f' : SW A) : Prop := forall s, fst (f s) = fst (f' s) /\ snd (snd (f s)) = snd (snd (f' s)) /\
  filter not_a_prompt (fst (snd (f s))) = filter not_a_prompt (fst (snd (f' s))).
Lemma alike_refl {A} (f : SW A) : alike f f. Proof. intros s. auto. Qed.
Lemma alike_bind {A B} (f f' : SW A) (g g' : A -> SW B) :
  alike f f' -> (forall a, alike (g a) (g' a)) -> alike (swbind f g) (swbind f' g').
Proof.
  intros F G s. unfold swbind. destruct (F s) as (F1 & F2 & F3).
  destruct (f s) as [s1 [l r]], (f' s) as [s1' [l' r']]. cbn [fst snd] in *. subst s1' r'.
  destruct r as [a|x]; [|auto]. destruct (G a s1) as (G1 & G2 & G3).
  destruct (g a s1) as [s2 [l2 r2]], (g' a s1) as [s2' [l2' r2']]. cbn [fst snd] in *. subst. rewrite !filter_app, F3, G3. auto.
Qed.
Lemma from_bytes_answer p e e' b pw : e_getpass e = Ok pw ->
  snd (from_bytes_try p e b None) = snd (from_bytes_try p e' b (Some pw)) /\
  filter not_a_prompt (fst (from_bytes_try p e b None)) = filter not_a_prompt (fst (from_bytes_try p e' b (Some pw))).
Proof.
  intros Hp. unfold from_bytes_try. refine (proj2 ((_ : alike _ _) (stream_of b))).
  do 16 (apply alike_bind; [apply alike_refl|intros ?]).
  apply alike_bind; [|intros ?].
  { intros s. match goal with |- context [match ?k with KdfNone => _ | KdfBcrypt => _ end] => destruct k end; [auto|].
    unfold sww, get_passphrase, wret. cbn [fst snd]. split; [reflexivity|]. split; [exact Hp|reflexivity]. }
  apply alike_refl.
Qed.
Theorem C35_parse_answer_is_used p e e' b pw :
  e_getpass e = Ok pw ->
  snd (list_from_bytes p e b None) = snd (list_from_bytes p e' b (Some pw)) /\
  filter not_a_prompt (fst (list_from_bytes p e b None)) = fst (list_from_bytes p e' b (Some pw)).
Proof.
  intros Hp. pose proof (from_bytes_answer p e e' b pw Hp) as (E1 & E2).
  assert (filter not_a_prompt (fst (from_bytes_try p e' b (Some pw))) = fst (from_bytes_try p e' b (Some pw))) as E3.
  { pose proof (fun H => proj1 (prompt_layout p e' b (Some pw) H)) as N.
    assert (~ In Prompt (fst (from_bytes_try p e' b (Some pw)))) as N' by (intros H; discriminate (N H)). clear - N'.
    induction (fst (from_bytes_try p e' b (Some pw))) as [|ev l IH]; [reflexivity|]. cbn [filter].
    destruct ev; cbn [not_a_prompt]; [|exfalso; apply N'; left; reflexivity]. rewrite IH; [reflexivity|]. intros H. apply N'. right. exact H. }
  rewrite !list_from_bytes_log, E2, E3. split; [|reflexivity]. unfold list_from_bytes.
  destruct (from_bytes_try p e b None) as [l r], (from_bytes_try p e' b (Some pw)) as [l' r']. cbn [snd] in E1. subst r'. destruct r; reflexivity.
Qed.
(** A file with kdf none is parsed without a prompt, and the passphrase has no effect. *)
Theorem C35_parse_without_kdf p e b given cn opts pubs body tail :
  file_of cn (str "none") opts pubs body tail b ->
  ~ In Prompt (fst (list_from_bytes p e b given)) /\
  forall e' given', list_from_bytes p e' b given' = list_from_bytes p e b given.
Proof.
  intros Hf.
  assert (forall e given, ~ In Prompt (fst (list_from_bytes p e b given))) as N.
  { intros e0 g H. apply C35_parse_prompt_only_if_needed in H as (_ & cn' & opts' & pubs' & body' & tail' & Hf').
    destruct (C29_layout_unambiguous _ _ _ _ _ _ _ _ _ _ _ _ _ _ [] [] Hf Hf' eq_refl) as (_ & K & _). discriminate. }
  split; [apply N|]. intros e' given'. transitivity (list_from_bytes p e b None); [|symmetry]; apply C35_parse_not_prompted_no_effect, N.
Qed.
(** Parsing a file with another KDF without giving the passphrase asks for it exactly once. *)
Theorem C35_parse_prompts_once p e b given lg l cn kn opts pubs body tail :
  sound_prims p -> Z.of_nat (length b) <= ssize_max ->
  list_from_bytes p e b given = (lg, Ok l) -> file_of cn kn opts pubs body tail b ->
  length (filter (fun ev => negb (not_a_prompt ev)) lg) =
    match given with Some _ => 0%nat | None => if str_eqb kn (str "none") then 0%nat else 1%nat end.
Proof.
  intros S L H Hf. apply list_from_bytes_ok in H.
  destruct (parse_sound p e b given lg l S L H) as
    (cn' & kn' & opts' & pubs' & body' & tag & extra & d & pass & plain & c1 & c2 & privs & pad & pairs & c & k & lg1 & lg2 & Hf' & _ & _ & _ & _ & _ & _ & _ & _ & _ & _ & Ek & -> & K1 & _ & K2).
  destruct (C29_layout_unambiguous _ _ _ _ _ _ _ _ _ _ _ _ _ _ [] [] Hf Hf' eq_refl) as (_ & -> & _).
  assert (forall l, (~ In Prompt l) -> filter (fun ev => negb (not_a_prompt ev)) l = []) as N.
  { intros l0. induction l0 as [|[w|] l0 IH]; intros Hn; [reflexivity| |].
    - cbn. apply IH. intros K. apply Hn. right. exact K.
    - exfalso. apply Hn. left. reflexivity. }
  rewrite !filter_app, !app_length, (N lg1), (N lg2).
  - cbn [length]. rewrite Nat.add_0_r. cbn [plus]. apply get_kdf_iff in Ek as [(E & ->)|(E & ->)]; injection E as ->; destruct given; reflexivity.
  - intros K. rewrite Forall_forall in K2. specialize (K2 _ K). destruct K2 as [K2|[K2|K2]]; [destruct K2 as [K2|(? & [K2|K2])]; discriminate|discriminate|discriminate].
  - intros K. rewrite Forall_forall in K1. specialize (K1 _ K). discriminate.
Qed.

(** ** C38 *)
Theorem C38_inconsistencies_reported p e b given lg l :
  sound_prims p -> Z.of_nat (length b) <= ssize_max ->
  list_from_bytes p e b given = (lg, Ok l) ->
  exists h cn c1 c2 privs plain pad bs,
    l_header l = Some h /\ dget (str "cipher") h = Some (VStr cn) /\ block_of cn bs /\
    l_decipher_bytes l = Some plain /\ l_padding l = Some pad /\
    plaintext_of c1 c2 privs pad plain /\ Forall2 (fun q x => private_blob (pr_private q) x) (l_pairs l) privs /\
    reports bs c1 c2 (l_pairs l) plain pad lg.
Proof.
  intros S L H. apply list_from_bytes_ok in H.
  destruct (parse_sound p e b given lg l S L H) as
    (cn & kn & opts & pubs & body & tag & extra & d & pass & plain & c1 & c2 & privs & pad & pairs & c & k & lg1 & lg2 & _ & _ & _ & _ & _ & _ & Hp & _ & F & -> & Ec & _ & _ & _ & R & _).
  exists (file_header (VStr cn) (VStr kn) opts (length pubs)), cn, c1, c2, privs, plain, pad, (block_size c).
  split; [reflexivity|]. split; [reflexivity|]. split; [apply (block_of_iff _ _ _ Ec); reflexivity|].
  do 2 (split; [reflexivity|]). split; [exact Hp|]. split; [exact F|exact R].
Qed.

(** ** C40 *)
Lemma read_dict_more f ts b junk d : format_types f ts -> Z.of_nat (length b) <= ssize_max ->
  snd (read_dict f (stream_of b)) = Ok d -> snd (read_dict f (stream_of (b ++ junk))) = Ok d.
Proof.
  intros T L H. destruct (read_dict f (stream_of b)) as [s' r] eqn:R. cbn [snd] in H. subst r.
  apply (read_dict_sound _ _ _ _ _ T) in R as (o & Ro & U & _). change (unread (stream_of b)) with b in U.
  rewrite (read_dict_complete f ts (stream_of (b ++ junk)) _ _ (unread s' ++ junk) T Ro); [reflexivity| |].
  - rewrite U, app_length in L. lia.
  - change (unread (stream_of (b ++ junk))) with (b ++ junk). rewrite U at 1. rewrite <- app_assoc. reflexivity.
Qed.
Lemma wlift_bind_err {A B} x (f : A -> W B) : wbind (wlift (Err x)) f = ([], Err x).
Proof. reflexivity. Qed.
Definition with_file (l : pkl) (b : bytes) (h : option (dict pyval)) : pkl :=
  mkpkl (l_pairs l) (Some b) h (l_cipher_bytes l) (l_kdf_options l) (l_decipher_bytes l) (l_decipher_header l) (l_padding l).
Lemma parse_file_more p e b b' cn kn opts junk pubs body tail x given lg l :
  Z.of_nat (length opts) <= ssize_max ->
  parse_file p e b cn kn opts pubs body tail given = (lg, Ok l) ->
  parse_file p e b' cn kn (opts ++ junk) pubs body (tail ++ x) given =
    (lg, Ok (with_file l b' (Some (file_header (VStr cn) (VStr kn) (opts ++ junk) (length pubs))))).
Proof.
  intros Lo H. unfold parse_file in *.
  apply wbind_inv in H as (l1 & keys & l1' & -> & H & ->). cbn [wbind].
  apply wbind_inv in H as (l2 & k & l2' & H1 & H & ->). apply wlift_inv in H1 as (-> & ->). rewrite wbind_lift.
  apply wbind_inv in H as (l3 & d & l3' & H1 & H & ->). apply wlift_inv in H1 as (-> & Ed).
  rewrite (read_dict_more _ _ _ junk _ (proj1 (kdf_dict_types k)) Lo Ed), wbind_lift.
  apply wbind_inv in H as (l4 & [] & l4' & H1 & H & ->). rewrite H1. cbn [wbind].
  apply wbind_inv in H as (l5 & c & l5' & H2 & H & ->). apply wlift_inv in H2 as (-> & ->). rewrite wbind_lift.
  apply wbind_inv in H as (l6 & pw & l6' & -> & H & ->). cbn [wbind].
  apply wbind_inv in H as (l7 & tag & l7' & H2 & H & ->). apply wlift_inv in H2 as (-> & Et).
  apply (tag_read p) in Et as (extra & -> & Lt).
  rewrite (proj2 (tag_read p c ((tag ++ extra) ++ x) tag)), wbind_lift by (exists (extra ++ x); rewrite <- app_assoc; auto).
  apply wbind_inv in H as (l8 & [] & l8' & H2 & H & ->). rewrite H1 in H2. injection H2 as <-. cbn [wbind].
  apply wbind_inv in H as (l9 & plain & l9' & H2 & H & ->). apply wlift_inv in H2 as (-> & ->). rewrite wbind_lift.
  apply wbind_inv in H as (l10 & ((prs & dh) & pad) & l10' & -> & H & ->). cbn [wbind].
  injection H as <- <-. cbn [wret]. rewrite app_nil_r. reflexivity.
Qed.
(** Bytes after the ciphertext and tag are neither rejected nor reported: the result is the
    same, except for the copy of the input. *)
Theorem C40_trailing_bytes_ignored p e b x given lg l :
  Z.of_nat (length (b ++ x)) <= ssize_max ->
  list_from_bytes p e b given = (lg, Ok l) ->
  list_from_bytes p e (b ++ x) given = (lg, Ok (with_file l (b ++ x) (l_header l))).
Proof.
  intros L H. apply list_from_bytes_ok in H. apply list_from_bytes_ok. rewrite app_length in L.
  destruct (from_bytes_layout _ _ _ _ _ _ H) as (cn & kn & opts & pubs & body & tail & Hf & Hn).
  assert (file_of cn kn opts pubs body (tail ++ x) (b ++ x)) as Hf'.
  { destruct Hf as (c & k & o & n & ps & y & H1 & H2 & H3 & H4 & H5 & H6 & H7 & ->). exists c, k, o, n, ps, y.
    do 7 (split; [assumption|]). rewrite <- !app_assoc. reflexivity. }
  assert (Z.of_nat (length opts) <= ssize_max) as Lo.
  { destruct Hf as (c0 & k0 & o0 & n0 & ps0 & x0 & _ & _ & Po & _ & _ & _ & _ & ->). apply prefixed_length in Po. rewrite !app_length in L. lia. }
  rewrite (from_bytes_file _ _ _ _ _ _ _ _ _ _ Hf Hn ltac:(lia)) in H.
  rewrite (from_bytes_file _ _ _ _ _ _ _ _ _ _ Hf' Hn ltac:(rewrite app_length; lia)).
  pose proof (parse_file_more p e b (b ++ x) cn kn opts [] pubs body tail x given lg l Lo H) as K. rewrite app_nil_r in K. rewrite K.
  f_equal. f_equal. unfold with_file. f_equal.
  unfold parse_file in H. repeat (apply wbind_inv in H as (? & ? & ? & _ & H & _)).
  match type of H with match ?r with _ => _ end = _ => destruct r as ((? & ?) & ?) end. injection H as _ <-. reflexivity.
Qed.
(** Nor are bytes inside the KDF options field, after the options. *)
Theorem C40_options_junk_ignored p e b b' junk given lg l cn kn opts pubs body tail :
  Z.of_nat (length b) <= ssize_max -> Z.of_nat (length b') <= ssize_max ->
  file_of cn kn opts pubs body tail b -> file_of cn kn (opts ++ junk) pubs body tail b' ->
  list_from_bytes p e b given = (lg, Ok l) ->
  exists h, list_from_bytes p e b' given = (lg, Ok (with_file l b' (Some h))) /\ dget (str "kdf_options") h = Some (VBytes (opts ++ junk)).
Proof.
  intros L L' Hf Hf' H. apply list_from_bytes_ok in H.
  destruct (from_bytes_layout _ _ _ _ _ _ H) as (cn0 & kn0 & opts0 & pubs0 & body0 & tail0 & Hf0 & Hn).
  destruct (C29_layout_unambiguous _ _ _ _ _ _ _ _ _ _ _ _ _ _ [] [] Hf Hf0 eq_refl) as (<- & <- & <- & <- & <- & _).
  assert (Z.of_nat (length opts) <= ssize_max) as Lo.
  { destruct Hf as (c0 & k0 & o0 & n0 & ps0 & x0 & _ & _ & Po & _ & _ & _ & _ & ->). apply prefixed_length in Po. rewrite !app_length in L. lia. }
  rewrite (from_bytes_file _ _ _ _ _ _ _ _ _ _ Hf Hn L) in H.
  pose proof (parse_file_more p e b b' cn kn opts junk pubs body tail [] given lg l Lo H) as K. rewrite app_nil_r in K.
  eexists. split; [apply list_from_bytes_ok; rewrite (from_bytes_file _ _ _ _ _ _ _ _ _ _ Hf' Hn L'); exact K|reflexivity].
Qed.

(** ** Concrete files *)
(** Whatever is cut off the end of the concrete file: it is not parsed. *)
Example C29_example :
  ex_file = firstn 375 ex_file ++ skipn 375 ex_file /\ skipn 375 ex_file <> [] /\
  (exists x, list_from_bytes toy_prims ex_env (firstn 375 ex_file) (Some (str "pw")) = ([], Err x) /\ is_value_error x = true) /\
  (exists x, list_from_bytes toy_prims ex_env (firstn 100 ex_file) (Some (str "pw")) = ([], Err x) /\ is_value_error x = true).
Proof.
  split; [vm_compute; reflexivity|]. split; [vm_compute; discriminate|].
  split; eexists; (split; [vm_compute; reflexivity|reflexivity]).
Qed.
Example C35_parse_example :
  list_from_bytes toy_prims ex_env ex_file None = ([Prompt], Ok ex_parsed) /\
  fst (list_from_bytes toy_prims ex_env ex_plain_file None) = [] /\
  exists l, snd (list_from_bytes toy_prims ex_env ex_plain_file None) = Ok l /\ l_pairs l = ex_pairs.
Proof.
  split; [vm_compute; reflexivity|]. split; [vm_compute; reflexivity|]. eexists. split; [vm_compute; reflexivity|vm_compute; reflexivity].
Qed.
(** A file whose public halves were swapped, a plain file with other check bytes, and one with
    other padding. *)
Definition ex_swapped_file : bytes := Eval vm_compute in
  match snd (list_pack_bytes toy_prims ex_env ex_swapped (Some (str "pw")) None false false) with Ok b => b | Err _ => [] end.
Definition set_nth (n : nat) (x : byte) (b : bytes) : bytes := firstn n b ++ x :: skipn (S n) b.
Example C38_example :
  fst (list_from_bytes toy_prims ex_env ex_swapped_file (Some (str "pw"))) = [Warn (WPairType 0); Warn (WPairType 1)] /\
  (exists n l, list_from_bytes toy_prims ex_env (set_nth n x00 ex_plain_file) None = ([Warn WCheckInts], Ok l)) /\
  (exists l, list_from_bytes toy_prims ex_env (set_nth (length ex_plain_file - 1) x00 ex_plain_file) None = ([Warn WPadding], Ok l)).
Proof.
  split; [vm_compute; reflexivity|].
  split; [exists 129%nat|]; eexists; vm_compute; reflexivity.
Qed.
(** The concrete file followed by two bytes. *)
Example C40_example :
  Z.of_nat (length (ex_file ++ [x07; x08])) <= ssize_max /\
  list_from_bytes toy_prims ex_env ex_file (Some (str "pw")) = ([], Ok ex_parsed) /\
  (exists l, list_from_bytes toy_prims ex_env (ex_file ++ [x07; x08]) (Some (str "pw")) = ([], Ok l) /\
    l_pairs l = l_pairs ex_parsed /\ l_pairs l = ex_pairs) /\
  exists cn kn opts pubs body tail, file_of cn kn opts pubs body tail ex_file.
Proof.
  assert (E : list_from_bytes toy_prims ex_env ex_file (Some (str "pw")) = ([], Ok ex_parsed)) by (vm_compute; reflexivity).
  split; [vm_compute; discriminate|]. split; [exact E|]. split.
  - exists (with_file ex_parsed (ex_file ++ [x07; x08]) (l_header ex_parsed)).
    split; [exact (C40_trailing_bytes_ignored toy_prims ex_env ex_file [x07; x08] (Some (str "pw")) [] ex_parsed ltac:(vm_compute; discriminate) E)|].
    split; [reflexivity|vm_compute; reflexivity].
  - pose proof (proj1 (list_from_bytes_ok toy_prims ex_env ex_file (Some (str "pw")) [] ex_parsed) E) as E'.
    destruct (from_bytes_layout toy_prims ex_env ex_file (Some (str "pw")) [] ex_parsed E') as (cn & kn & opts & pubs & body & tail & Hf & _).
    exists cn, kn, opts, pubs, body, tail. exact Hf.
Qed.
(** Beyond that nothing is ignored: two files from which the same header (with the raw KDF
    options) and ciphertext are read, and which have the same public key blobs, differ only in
    what follows the tag. *)
Theorem C40_rest_of_the_file_matters_partial p e e' b b' given given' lg lg' l l' cn kn opts pubs body tail cn' kn' opts' body' tail' :
  sound_prims p -> Z.of_nat (length b) <= ssize_max -> Z.of_nat (length b') <= ssize_max ->
  list_from_bytes p e b given = (lg, Ok l) -> list_from_bytes p e' b' given' = (lg', Ok l') ->
  l_header l = l_header l' -> l_cipher_bytes l = l_cipher_bytes l' ->
  file_of cn kn opts pubs body tail b -> file_of cn' kn' opts' pubs body' tail' b' ->
  exists core x x', b = core ++ x /\ b' = core ++ x'.
Proof.
  intros S L L' H H' Eh Ec Hf Hf'.
  assert (snd (list_from_bytes p e b given) = Ok l) as P by (rewrite H; reflexivity).
  assert (snd (list_from_bytes p e' b' given') = Ok l') as P' by (rewrite H'; reflexivity).
  apply (C58_from_bytes_exact _ _ _ _ _ S L) in P. apply (C58_from_bytes_exact _ _ _ _ _ S L') in P'.
  destruct P as (cn1 & kn1 & opts1 & pubs1 & body1 & tag1 & extra1 & d1 & pass1 & plain1 & c11 & c21 & privs1 & pad1 & pairs1 &
    F1 & _ & _ & _ & T1 & _ & _ & _ & _ & ->).
  destruct P' as (cn2 & kn2 & opts2 & pubs2 & body2 & tag2 & extra2 & d2 & pass2 & plain2 & c12 & c22 & privs2 & pad2 & pairs2 &
    F2 & _ & _ & _ & T2 & _ & _ & _ & _ & ->).
  destruct (C29_layout_unambiguous _ _ _ _ _ _ _ _ _ _ _ _ _ _ [] [] Hf F1 eq_refl) as (<- & <- & <- & <- & <- & _).
  destruct (C29_layout_unambiguous _ _ _ _ _ _ _ _ _ _ _ _ _ _ [] [] Hf' F2 eq_refl) as (<- & <- & <- & <- & <- & _).
  cbn [l_header l_cipher_bytes] in Eh, Ec. injection Eh as <- <- <-. injection Ec as Ec.
  assert (length tag1 = length tag2) as Lt.
  { destruct T1 as (m & kl & il & bs & I & E). destruct T2 as (m' & kl' & il' & bs' & I' & E').
    destruct (cipher_table_spec _ _ _ _ _ I) as (c & G & M & _ & _ & _ & A). destruct (cipher_table_spec _ _ _ _ _ I') as (c' & G' & M' & _ & _ & _ & A').
    assert (c = c') as <- by congruence. rewrite E, E', A, A'. reflexivity. }
  assert (body = body' /\ tag1 = tag2) as (<- & <-).
  { assert (length body = length body') as Lb by (apply (f_equal (@length byte)) in Ec; rewrite !app_length in Ec; lia).
    destruct (app_inv_len _ _ _ _ Ec Lb). auto. }
  destruct F1 as (c & k & o & n & ps & x & W1 & W2 & W3 & W4 & W5 & W6 & W7 & ->).
  exists (magic ++ c ++ k ++ o ++ n ++ concat ps ++ x ++ tag1), extra1, extra2.
  split; [rewrite <- !app_assoc; reflexivity|].
  eapply C25_layout_functional; [exact F2|]. exists c, k, o, n, ps, x. do 7 (split; [assumption|]). rewrite <- !app_assoc. reflexivity.
Qed.
(** So, not every byte is accounted for: two files that differ are parsed alike. *)
Theorem C40_every_byte_matters_refuted :
  exists b b' lg l l', b <> b' /\ list_from_bytes toy_prims ex_env b (Some (str "pw")) = (lg, Ok l) /\
    list_from_bytes toy_prims ex_env b' (Some (str "pw")) = (lg, Ok l') /\ lg = [] /\
    l_pairs l = l_pairs l' /\ l_header l = l_header l' /\ l_kdf_options l = l_kdf_options l' /\
    l_cipher_bytes l = l_cipher_bytes l' /\ l_padding l = l_padding l'.
Proof.
  exists ex_file, (ex_file ++ bstr "anything"), [], ex_parsed, (with_file ex_parsed (ex_file ++ bstr "anything") (l_header ex_parsed)).
  split; [vm_compute; discriminate|]. split; [vm_compute; reflexivity|]. split; [vm_compute; reflexivity|]. repeat split.
Qed.

Print Assumptions C29_layout_unambiguous.
Print Assumptions C29_truncated_file_rejected.
Print Assumptions C29_truncated_output_rejected.
Print Assumptions C35_parse_prompt_only_if_needed.
Print Assumptions C35_parse_not_prompted_no_effect.
Print Assumptions C35_parse_answer_is_used.
Print Assumptions C35_parse_without_kdf.
Print Assumptions C35_parse_prompts_once.
Print Assumptions C38_inconsistencies_reported.
Print Assumptions C40_trailing_bytes_ignored.
Print Assumptions C40_options_junk_ignored.
Print Assumptions C40_every_byte_matters_refuted.
Print Assumptions C40_rest_of_the_file_matters_partial.
