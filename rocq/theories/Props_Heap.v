(** Which objects are shared, and through which a change is seen: C78. *)
From Verif Require Import PyBase Classes Key Crypto PrivateKeyList UserList Convert Generate Heap SpecHeap ProofBase ProofHeap.
From Verif Require Import Props_Crypto Props_List Props_Generate.
From Coq Require Import Lia.
Open Scope nat_scope.

(** ** Lemmas *)
Lemma app_same {strict} h n : good_in strict h -> all_the_same h (h ++ n).
Proof.
  intros G r L. split; [|split; [eapply key_at_app; eassumption|eapply list_at_app; eassumption]].
  unfold dict_at. rewrite nth_app_lt by exact L. reflexivity.
Qed.
Lemma grown_same {strict} h h' : good_in strict h -> grown h h' -> all_the_same h h'.
Proof. intros G (n & ->). eapply app_same. exact G. Qed.
Lemma store_beyond {A} (h n : list A) s o : length h <= s -> replace_nth s o (h ++ n) = h ++ replace_nth (s - length h) o n.
Proof.
  revert s. induction h as [|a h IH]; intros s L; cbn [length app] in *; [rewrite Nat.sub_0_r; reflexivity|].
  destruct s as [|s]; [lia|]. cbn. rewrite IH by lia. reflexivity.
Qed.
Lemma store_same_before h h1 s o : good h -> grown h h1 -> length h <= s -> all_the_same h (store s o h1).
Proof. intros G (n & ->) L. unfold store. rewrite store_beyond by exact L. eapply app_same. exact G. Qed.

(** A key whose dictionaries are all beyond the first [n] objects. *)
Definition beyond (n : nat) (h : heap) (r : loc) : Prop :=
  is_keyo h r /\ forall w s, part_ref h r w = Some s -> n <= s.
Lemma part_later h h' r w : later h h' -> is_keyo h r -> part_ref h' r w = part_ref h r w.
Proof. intros L (k & E). unfold part_ref. rewrite E, (later_key _ _ _ _ L E). reflexivity. Qed.
Lemma beyond_later n h h' r : later h h' -> beyond n h r -> beyond n h' r.
Proof. intros L (K & P). split; [eapply later_keyo; eassumption|]. intros w s. rewrite (part_later _ _ _ _ L K). apply P. Qed.
Lemma part_at_least h n r w s : (exists m, n = h ++ m) -> good h -> r < length h -> part_ref n r w = Some s -> s < length h.
Proof.
  intros (m & ->) G L E. unfold part_ref in E. rewrite nth_app_lt in E by exact L.
  destruct (part_dict h r w s G) as (D & _); [exact E|]. apply dict_lt. exact D.
Qed.

Section Histories.
Variable p : prims.
Variable x : ext.
Variable gen : request -> res obj.
Notation step := (step p x gen).
Notation run := (run p x gen).
Notation reachable := (reachable p x gen).

Lemma step_beyond n c h r : good h -> changes_only_first n c -> beyond n h r -> key_at (fst (step c h)) r = key_at h r.
Proof.
  intros G C (K & B). pose proof (proj2 (step_ok p x gen c h G)) as S.
  destruct c; try (eapply grown_key_at; [exact G|exact S|apply keyo_lt; exact K]).
  - cbn in C. destruct S as [->|(d0 & E & ->)]; [reflexivity|]. eapply store_key_at; [exact E|exact I|discriminate|].
    intros w P. specialize (B w _ P). lia.
  - destruct S as [->|(lo & q & q' & _ & E & ->)]; [reflexivity|]. eapply key_at_seq; eassumption.
Qed.
Lemma run_beyond n cs h r : good h -> Forall (changes_only_first n) cs -> beyond n h r -> key_at (run cs h) r = key_at h r.
Proof.
  revert h. induction cs as [|c cs IH]; intros h G F B; [reflexivity|]. inversion F; subst. cbn [Heap.run].
  rewrite IH; [apply (step_beyond n); assumption|apply step_good; exact G|assumption|].
  eapply beyond_later; [eapply step_later; exact G|exact B].
Qed.

(** A list all of whose parts are beyond the first [n] objects. *)
Definition list_beyond (n : nat) (h : heap) (r : loc) : Prop :=
  n <= r /\ exists lo q, nth_error h r = Some (HList lo) /\ refs_at h r = Some q /\
    (forall a b, In (a, b) q -> beyond n h a /\ beyond n h b) /\
    (forall s, lo_header lo = Some s \/ lo_kdf_options lo = Some s \/ lo_decipher_header lo = Some s -> n <= s).
Lemma step_refs n c h r : good h -> changes_only_first n c -> n <= r -> (exists lo, nth_error h r = Some (HList lo)) ->
  refs_at (fst (step c h)) r = refs_at h r.
Proof.
  intros G C L (lo & N). pose proof (proj2 (step_ok p x gen c h G)) as S.
  assert (r < length h) as R by (apply nth_error_Some; congruence).
  destruct c; try (destruct S as (m & S); rewrite S; eapply refs_at_app; eassumption).
  - destruct S as [->|(d0 & E & ->)]; [reflexivity|]. unfold refs_at. unfold store at 1. rewrite store_other by congruence. rewrite N.
    destruct (proj2 G _ _ N) as ((q & Q) & _). unfold store. rewrite store_other by congruence. reflexivity.
  - cbn in C. destruct S as [->|(lo' & q & q' & N' & E & ->)]; [reflexivity|].
    destruct (refs_at_store _ _ _ _ q' G N' E) as (_ & _ & O). apply O. lia.
Qed.
Lemma step_dict n c h s : good h -> changes_only_first n c -> n <= s -> is_dict h s -> dict_at (fst (step c h)) s = dict_at h s.
Proof.
  intros G C L D. pose proof (proj2 (step_ok p x gen c h G)) as S.
  destruct c; try (destruct S as (m & S); rewrite S; apply dict_at_app; exact D).
  - cbn in C. destruct S as [->|(d0 & E & ->)]; [reflexivity|]. apply dict_at_store. lia.
  - destruct S as [->|(lo' & q & q' & N' & E & ->)]; [reflexivity|]. eapply dict_at_seq. exact E.
Qed.
Lemma step_list n c h r : good h -> changes_only_first n c -> list_beyond n h r ->
  list_at (fst (step c h)) r = list_at h r /\ list_beyond n (fst (step c h)) r.
Proof.
  intros G C (L & lo & q & N & R & B & A). pose proof (step_later p x gen c h G) as T.
  pose proof (later_list _ _ _ _ T N) as N'.
  assert (refs_at (fst (step c h)) r = Some q) as R' by (rewrite (step_refs n) by eauto; exact R).
  split.
  - unfold list_at. rewrite N, N', R, R'. destruct (proj2 G _ _ N) as (_ & A1 & A2 & A3).
    assert (forall o, attr_ok h o -> (forall s, o = Some s -> n <= s) -> attribute_at (fst (step c h)) o = attribute_at h o) as AT.
    { intros o K M. apply attribute_at_eq. intros s E. apply (step_dict n); auto. }
    rewrite (AT (lo_header lo)), (AT (lo_kdf_options lo)), (AT (lo_decipher_header lo)) by auto.
    rewrite (pairs_at_eq h (fst (step c h)) q); [reflexivity|]. intros a b K. destruct (B a b K). split; apply (step_beyond n); assumption.
  - split; [exact L|]. exists lo, q. split; [exact N'|]. split; [exact R'|]. split; [|exact A].
    intros a b K. destruct (B a b K). split; eapply beyond_later; eassumption.
Qed.
Lemma run_list n cs h r : good h -> Forall (changes_only_first n) cs -> list_beyond n h r -> list_at (run cs h) r = list_at h r.
Proof.
  revert h. induction cs as [|c cs IH]; intros h G F B; [reflexivity|]. inversion F; subst. cbn [Heap.run].
  destruct (step_list n c h r) as (E & B'); auto. rewrite <- E. apply IH; [apply step_good; exact G|assumption|exact B'].
Qed.
Lemma mutate_is h r d h' an : step (Mutate r d) h = (h', an) -> is_dict h r -> h' = store r (HDict d) h /\ an = Ok (Ref r).
Proof. cbn. intros E D. apply dict_at_dict in D as (d0 & D). rewrite D in E. injection E as <- <-. auto. Qed.
Lemma pair_seen_at h refs ps i q : pairs_at h refs = Some ps -> nth_error refs i = Some q -> exists y, nth_error ps i = Some y /\ pair_at h q = Some y.
Proof.
  intros P. apply pairs_at_Forall2 in P. revert i. induction P as [|a b l ps E _ IH]; intros [|i] N; try discriminate.
  - injection N as <-. exists b. auto.
  - apply IH. exact N.
Qed.
Lemma list_pairs_at h l v : list_at h l = Some v -> exists lo q, nth_error h l = Some (HList lo) /\ refs_at h l = Some q /\ pairs_at h q = Some (l_pairs v).
Proof.
  unfold list_at. destruct (nth_error h l) as [[| | | lo]|] eqn:N; try discriminate. destruct (refs_at h l) as [q|]; [|discriminate].
  destruct (pairs_at h q) as [ps|] eqn:P; [|discriminate].
  destruct (attribute_at h (lo_header lo)); [|discriminate]. destruct (attribute_at h (lo_kdf_options lo)); [|discriminate].
  destruct (attribute_at h (lo_decipher_header lo)); [|discriminate]. intros [= <-]. exists lo, q. auto.
Qed.

(** ** Theorems *)
(** Changing a dictionary of a key changes that dictionary of that key, and no other key. *)
Theorem C78_keys_share_nothing h a w s d h' an :
  reachable h -> part_ref h a w = Some s -> step (Mutate s d) h = (h', an) ->
  exists k, key_at h a = Some k /\ key_at h' a = Some (with_part w d k) /\
    forall b, b <> a -> key_at h' b = key_at h b.
Proof.
  intros R P S. apply reachable_good in R. destruct (part_dict _ _ _ _ R P) as (D & _). destruct (mutate_is _ _ _ _ _ S D) as (-> & _).
  destruct (mutate_part h a w s d R P) as (k & K & K'). exists k. split; [exact K|]. split; [exact K'|]. intros b N.
  destruct D as (d0 & D). eapply store_key_at; [exact D|exact I|discriminate|]. intros w' Q. apply N. symmetry. eapply proj1, parts_apart; eassumption.
Qed.
(** It is seen in every list, at every position, that holds the key. *)
Theorem C78_lists_show_changes h a w s d h' an k l refs i q :
  reachable h -> part_ref h a w = Some s -> key_at h a = Some k -> step (Mutate s d) h = (h', an) ->
  refs_at h l = Some refs -> nth_error refs i = Some q ->
  exists v' y, list_at h' l = Some v' /\ nth_error (l_pairs v') i = Some y /\
    (fst q = a -> pr_public y = with_part w d k) /\ (snd q = a -> pr_private y = with_part w d k).
Proof.
  intros R P K S L N. destruct (C78_keys_share_nothing _ _ _ _ _ _ _ R P S) as (k' & K' & K2 & _). rewrite K in K'. injection K' as <-.
  apply reachable_good in R. destruct (part_dict _ _ _ _ R P) as (D & _). destruct (mutate_is _ _ _ _ _ S D) as (E & _).
  assert (good h') as G' by (pose proof (step_good p x gen (Mutate s d) h R) as G'; rewrite S in G'; exact G').
  destruct D as (d0 & D).
  assert (exists lo, nth_error h l = Some (HList lo)) as (lo & NL).
  { unfold refs_at in L. destruct (nth_error h l) as [[| | | lo]|]; try discriminate. eauto. }
  assert (nth_error h' l = Some (HList lo)) as NL'.
  { rewrite E. unfold store. rewrite store_other by congruence. exact NL. }
  destruct (list_seen h' l lo G' NL') as (q' & ps & R' & Q' & PS & v' & V & VP). exists v'.
  assert (q' = refs) as ->.
  { unfold refs_at in L. rewrite NL in L. destruct (nth_error h (lo_data lo)) as [[| | q0 |]|] eqn:Q0; try discriminate. injection L as ->.
    rewrite E in Q'. unfold store in Q'. rewrite store_other in Q' by congruence. congruence. }
  destruct (pair_seen_at _ _ _ _ _ PS N) as (y & Y & YP). exists y. rewrite VP. split; [exact V|]. split; [exact Y|].
  unfold pair_at in YP. destruct (key_at h' (fst q)) eqn:F1; [|discriminate]. destruct (key_at h' (snd q)) eqn:F2; [|discriminate].
  injection YP as <-. cbn. split; intros EQ; rewrite EQ in *; congruence.
Qed.
(** A key that the constructor, from_bytes or from_string makes is a new one, and shares
    nothing with any object that was there before, in particular not with the arguments: it
    keeps its contents whatever is done to those, and nothing done to it is seen in those. *)
Theorem C78_new_keys_are_fresh h c k h1 an :
  reachable h -> makes_key p h c k -> step c h = (h1, an) ->
  exists r, an = Ok (Ref r) /\ length h <= r /\ key_at h1 r = Some k /\ all_the_same h h1 /\
    (forall cs, Forall (changes_only_first (length h)) cs -> key_at (run cs h1) r = Some k) /\
    (forall w s d h2 an2, part_ref h1 r w = Some s -> step (Mutate s d) h1 = (h2, an2) -> all_the_same h h2).
Proof.
  intros R M S. apply reachable_good in R.
  assert (exists r, alloc_key k h = (h1, r) /\ an = Ok (Ref r)) as (r & A & ->).
  { destruct M as [t rh rp rf rc a b c d k A B C D E|t b rc d k A E|t s k E]; cbn [Heap.step] in S.
    - rewrite A, B, C, D, E in S. destruct (alloc_key k h) as (h2, r). injection S as <- <-. eauto.
    - rewrite A, E in S. destruct (alloc_key k h) as (h2, r). injection S as <- <-. eauto.
    - rewrite E in S. destruct (alloc_key k h) as (h2, r). injection S as <- <-. eauto. }
  destruct (alloc_key_ok _ _ _ _ R A) as (G1 & W1 & L1 & K1 & P1).
  exists r. split; [reflexivity|]. split; [lia|]. split; [exact K1|]. split; [eapply grown_same; eassumption|]. split.
  - intros cs F. rewrite <- K1. eapply run_beyond; [exact G1|exact F|]. split; [eapply key_at_key; exact K1|exact P1].
  - intros w s d h2 an2 P S2. destruct (part_dict _ _ _ _ G1 P) as (D & _). destruct (mutate_is _ _ _ _ _ S2 D) as (-> & _).
    eapply store_same_before; [exact R|exact W1|]. eapply P1. exact P.
Qed.
(** So are the two keys of a generated pair, and they are two. *)
Theorem C78_generated_pairs_are_fresh h t comment kw q h1 an :
  reachable h -> snd (generate_pair x gen t comment kw) = Ok q -> step (NewPair t comment kw) h = (h1, an) ->
  exists a b, an = Ok (Pair (a, b)) /\ length h <= a /\ length h <= b /\ a <> b /\ pair_at h1 (a, b) = Some q /\ all_the_same h h1 /\
    (forall cs, Forall (changes_only_first (length h)) cs -> pair_at (run cs h1) (a, b) = Some q).
Proof.
  intros R M S. apply reachable_good in R. cbn [Heap.step] in S. rewrite M in S. destruct (alloc_pair q h) as (h2, (a, b)) eqn:A. injection S as <- <-.
  destruct (alloc_pair_ok _ _ _ _ R A) as (G1 & W1 & (L1 & L2) & N & K1). cbn [fst snd] in L1, L2, N.
  exists a, b. split; [reflexivity|]. split; [lia|]. split; [lia|]. split; [exact N|]. split; [exact K1|]. split; [eapply grown_same; eassumption|].
  intros cs F. rewrite <- K1. unfold alloc_pair in A.
  destruct (alloc_key (pr_public q) h) as (ha, ra) eqn:A1. destruct (alloc_key (pr_private q) ha) as (hb, rb) eqn:A2. injection A as <- <- <-.
  destruct (alloc_key_ok _ _ _ _ R A1) as (Ga & Wa & La & Ka & Pa). destruct (alloc_key_ok _ _ _ _ Ga A2) as (Gb & Wb & Lb & Kb & Pb).
  assert (beyond (length h) ha ra) as Ba by (split; [eapply key_at_key; exact Ka|exact Pa]).
  assert (beyond (length h) hb rb) as Bb.
  { split; [eapply key_at_key; exact Kb|]. intros w s P. specialize (Pb w s P). apply grown_length in Wa. lia. }
  apply pair_at_eq; (eapply run_beyond; [exact Gb|exact F|]); [|exact Bb]. eapply beyond_later; [apply grown_later; exact Wb|exact Ba].
Qed.
Lemma alloc_pairs_beyond l h h' r : good h -> alloc_pairs l h = (h', r) -> forall a b, In (a, b) r -> beyond (length h) h' a /\ beyond (length h) h' b.
Proof.
  revert h h' r. induction l as [|q l IH]; intros h h' r G E a b I; cbn [alloc_pairs] in E.
  - injection E as <- <-. destruct I.
  - destruct (alloc_pair q h) as (h1, (ra, rb)) eqn:A. destruct (alloc_pairs l h1) as (h2, r2) eqn:B. injection E as <- <-.
    destruct (alloc_pair_ok _ _ _ _ G A) as (G1 & W1 & _). destruct (alloc_pairs_ok _ _ _ _ G1 B) as (G2 & W2 & _).
    destruct I as [I|I].
    + injection I as -> ->. unfold alloc_pair in A.
      destruct (alloc_key (pr_public q) h) as (ha, ra) eqn:A1. destruct (alloc_key (pr_private q) ha) as (hb, rb) eqn:A2. injection A as <- <- <-.
      destruct (alloc_key_ok _ _ _ _ G A1) as (Ga & Wa & La & Ka & Pa). destruct (alloc_key_ok _ _ _ _ Ga A2) as (Gb & Wb & Lb & Kb & Pb).
      assert (beyond (length h) ha ra) as Ba by (split; [eapply key_at_key; exact Ka|exact Pa]).
      split; (eapply beyond_later; [apply grown_later; exact W2|]).
      * eapply beyond_later; [apply grown_later; exact Wb|exact Ba].
      * split; [eapply key_at_key; exact Kb|]. intros w s P. specialize (Pb w s P). apply grown_length in Wa. lia.
    + destruct (IH _ _ _ G1 B a b I) as ((X1 & X2) & (Y1 & Y2)). apply grown_length in W1.
      split; split; auto; intros w s P; [specialize (X2 w s P)|specialize (Y2 w s P)]; lia.
Qed.
(** A parsed list shares nothing either: not the keys, not the header, not the options. *)
Theorem C78_parsed_lists_are_fresh h e b pw v h1 an :
  reachable h -> snd (list_from_bytes p e b pw) = Ok v -> step (ParseList e b pw) h = (h1, an) ->
  exists r, an = Ok (Ref r) /\ length h <= r /\ list_at h1 r = Some v /\ all_the_same h h1 /\
    (forall cs, Forall (changes_only_first (length h)) cs -> list_at (run cs h1) r = Some v).
Proof.
  intros R M S. apply reachable_good in R. pose proof (step_ok p x gen (ParseList e b pw) h R) as (G' & W'). rewrite S in G', W'. cbn [fst] in G', W'.
  cbn [Heap.step] in S. rewrite M in S.
  destruct (alloc_pairs (l_pairs v) h) as (h0, refs) eqn:E0. destruct (alloc_pairs_ok _ _ _ _ R E0) as (G0 & W0 & _ & P0).
  destruct (alloc_option (l_header v) h0) as (ha, hd) eqn:E1. destruct (alloc_option_ok _ _ _ _ G0 E1) as (G1 & W1 & A1 & L1).
  destruct (alloc_option (l_kdf_options v) ha) as (h2, ko) eqn:E2. destruct (alloc_option_ok _ _ _ _ G1 E2) as (G2 & W2 & A2 & L2).
  destruct (alloc_option (l_decipher_header v) h2) as (h3, dh) eqn:E3. destruct (alloc_option_ok _ _ _ _ G2 E3) as (G3 & W3 & A3 & L3).
  unfold alloc_list in S. injection S as <- <-.
  destruct (list_block_ok h3 refs (mklo (length h3) (l_byte_string v) hd (l_cipher_bytes v) ko (l_decipher_bytes v) dh (l_padding v))
              (l_pairs v) (l_header v) (l_kdf_options v) (l_decipher_header v) G3 eq_refl) as (G4 & W4 & L4 & R4 & N4 & V4).
  { eapply grown_pairs_at; [exact G2|exact W3|]. eapply grown_pairs_at; [exact G1|exact W2|]. eapply grown_pairs_at; [exact G0|exact W1|exact P0]. }
  { eapply grown_attr; [exact W3|]. eapply grown_attr; [exact W2|exact A1]. }
  { eapply grown_attr; [exact W3|exact A2]. }
  { exact A3. }
  apply grown_length in W0 as Z0, W1 as Z1, W2 as Z2, W3 as Z3.
  cbn [lo_byte_string lo_cipher_bytes lo_decipher_bytes lo_padding] in V4.
  assert (list_at (h3 ++ [HSeq refs; HList (mklo (length h3) (l_byte_string v) hd (l_cipher_bytes v) ko (l_decipher_bytes v) dh (l_padding v))]) (length h3 + 1) = Some v) as V.
  { rewrite V4. destruct v; reflexivity. }
  exists (length h3 + 1). split; [reflexivity|]. split; [lia|]. split; [exact V|]. split; [eapply grown_same; eassumption|].
  intros cs F. rewrite <- V. eapply run_list; [exact G4|exact F|]. split; [lia|].
  eexists. exists refs. split; [exact N4|]. split; [exact R4|]. split.
  - intros u u' I. destruct (alloc_pairs_beyond _ _ _ _ R E0 u u' I). split; (eapply beyond_later; [|eassumption]); apply grown_later;
      (eapply grown_trans; [exact W1|]; eapply grown_trans; [exact W2|]; eapply grown_trans; [exact W3|exact W4]).
  - cbn. intros s [K|[K|K]]; [specialize (L1 s K)|specialize (L2 s K)|specialize (L3 s K)]; lia.
Qed.
Definition shown (h : heap) (q : pair_refs) : pair :=
  match pair_at h q with Some y => y | None => mkpair (mkkey KPub [] EdPub [] [] []) (mkkey KPub [] EdPub [] [] []) end.
Lemma pairs_shown h l ps : pairs_at h l = Some ps -> ps = map (shown h) l.
Proof.
  intros P. apply pairs_at_Forall2 in P. induction P as [|q y l ps E _ IH]; [reflexivity|]. cbn. rewrite <- IH. unfold shown. rewrite E. reflexivity.
Qed.
Lemma shown_all h xs ys : Forall2 (fun q y => pair_at h q = Some y) xs ys -> ys = map (shown h) xs /\ pairs_at h xs = Some ys.
Proof. intros F. apply pairs_at_Forall2 in F. split; [apply pairs_shown; exact F|exact F]. Qed.
Lemma edit_shown h e e' : edit_shows h e e' -> e' = edit_map (shown h) e /\ exists ps, pairs_at h (edit_refs e) = Some ps.
Proof.
  assert (forall q y, pair_at h q = Some y -> shown h q = y /\ exists ps, pairs_at h [q] = Some ps) as ONE.
  { intros q y E. unfold shown. cbn. rewrite E. eauto. }
  intros S. destruct S; cbn [edit_map edit_refs].
  all: try (destruct (ONE _ _ H) as (-> & ?)); try (destruct (shown_all _ _ _ H) as (-> & ?)); split; try reflexivity; try (exists []; reflexivity); eauto.
Qed.
Lemma derive_shown h d d' : derive_shows h d d' -> d' = derive_map (shown h) d /\ exists ps, pairs_at h (derive_refs d) = Some ps.
Proof. intros S. destruct S; cbn [derive_map derive_refs]; try (destruct (shown_all _ _ _ H) as (-> & ?)); split; try reflexivity; try (exists []; reflexivity); eauto. Qed.
(** Editing a list in place does to it what the method does to a list of the pairs that it
    shows, raises what that raises, and changes no other list, no key and no dictionary. *)
Theorem C78_edits_change_one_list h l v e e' h' an :
  reachable h -> list_at h l = Some v -> edit_shows h e e' -> step (EditList l e) h = (h', an) ->
  match apply_op (Edit e') v with
  | Ok v' => an = Ok (Ref l) /\ list_at h' l = Some v'
  | Err ex => an = Err ex /\ h' = h
  end /\
  (forall r, r <> l -> list_at h' r = list_at h r) /\ (forall r, key_at h' r = key_at h r) /\ (forall r, dict_at h' r = dict_at h r).
Proof.
  intros R V E S. apply reachable_good in R. destruct (edit_shown _ _ _ E) as (-> & ps & P). clear E.
  destruct (list_pairs_at _ _ _ V) as (lo & q & N & Q & VP). cbn [Heap.step] in S. rewrite N, Q, P in S.
  pose proof (pairs_shown _ _ _ VP) as VS.
  assert (edit_data (edit_map (shown h) e) (l_pairs v) = rfmap (shown h) (edit_items (same_pair h) e q)) as ED.
  { unfold edit_data. rewrite VS. apply edit_items_map. intros y K z I. unfold same_pair.
    assert (forall u, In u q -> exists w, pair_at h u = Some w) as SEEN.
    { clear -VP. apply pairs_at_Forall2 in VP. induction VP as [|a b l m E _ IH]; [contradiction|]. intros u [->|I]; eauto. }
    destruct (SEEN z I) as (wz & WZ). unfold shown. rewrite WZ. destruct K as [->|(-> & J)].
    - cbn in P. destruct (pair_at h y) as [wy|]; [|discriminate]. reflexivity.
    - destruct (SEEN y J) as (wy & WY). rewrite WY. reflexivity. }
  cbn [apply_op]. rewrite ED. destruct (edit_items (same_pair h) e q) as [q'|ex] eqn:F; cbn [rfmap rbind].
  2:{ injection S as <- <-. auto. }
  injection S as <- <-. pose proof Q as Q0. unfold refs_at in Q0. rewrite N in Q0.
  destruct (nth_error h (lo_data lo)) as [[| | q0 |]|] eqn:D; try discriminate. injection Q0 as ->.
  destruct (refs_at_store h l lo q q' R N D) as (RR & NN & _).
  split; [split; [reflexivity|]|split; [eapply list_at_other; eassumption|split; intros r; [eapply key_at_seq; eassumption|eapply dict_at_seq; eassumption]]].
  unfold list_at in V |- *. rewrite NN, RR. rewrite N, Q, VP in V. rewrite (pairs_at_seq h _ q) by eassumption. rewrite !(attribute_at_seq h _ q) by assumption.
  destruct (pairs_seen h q' R) as (ps' & P').
  { intros u w I. destruct (edit_items_In _ _ _ _ _ F I) as [J|J]; [eapply refs_keys; eassumption|exact (pairs_at_keys _ _ _ P _ _ J)]. }
  rewrite P'. rewrite (pairs_shown _ _ _ P') in *.
  destruct (attribute_at h (lo_header lo)); [|discriminate]. destruct (attribute_at h (lo_kdf_options lo)); [|discriminate].
  destruct (attribute_at h (lo_decipher_header lo)); [|discriminate]. injection V as <-. reflexivity.
Qed.
(** Slices, copy(), + and * make a new list, with the header and options None and with the same
    key objects; nothing that was there changes. *)
Theorem C78_derived_lists_share_the_keys h l v d d' h' an :
  reachable h -> list_at h l = Some v -> derive_shows h d d' -> step (DeriveList l d) h = (h', an) ->
  match apply_op (Derive d') v with
  | Ok v' => exists r refs refs', an = Ok (Ref r) /\ length h <= r /\ list_at h' r = Some v' /\
               refs_at h l = Some refs /\ refs_at h' r = Some refs' /\ (forall q, In q refs' -> In q refs \/ In q (derive_refs d)) /\
               header_ref h' r = None /\ options_ref h' r = None
  | Err ex => an = Err ex
  end /\ all_the_same h h'.
Proof.
  intros R V E S. apply reachable_good in R. destruct (derive_shown _ _ _ E) as (-> & ps & P). clear E.
  pose proof (proj2 (step_ok p x gen (DeriveList l d) h R)) as W. rewrite S in W. cbn [fst] in W. split; [|eapply grown_same; eassumption]. clear W.
  destruct (list_pairs_at _ _ _ V) as (lo & q & N & Q & VP). cbn [Heap.step] in S. rewrite Q, P in S.
  pose proof (pairs_shown _ _ _ VP) as VS.
  cbn [apply_op]. unfold derive_data. rewrite VS, derive_items_map. destruct (derive_items d q) as [q'|ex] eqn:F; cbn [rfmap rbind].
  2:{ injection S as <- <-. reflexivity. }
  unfold alloc_list in S. injection S as <- <-.
  destruct (pairs_seen h q' R) as (ps' & P').
  { intros u w I. destruct (derive_items_In _ _ _ _ F I) as [J|J]; [eapply refs_keys; eassumption|exact (pairs_at_keys _ _ _ P _ _ J)]. }
  destruct (list_block_ok h q' (mklo (length h) None None None None None None None) ps' None None None R eq_refl P' eq_refl eq_refl eq_refl)
    as (G1 & W1 & L1 & R1 & N1 & V1).
  exists (length h + 1), q, q'. split; [reflexivity|]. split; [lia|]. cbn [new_list l_byte_string l_cipher_bytes l_decipher_bytes l_padding].
  split; [rewrite V1; rewrite (pairs_shown _ _ _ P'); reflexivity|]. split; [exact Q|]. split; [exact R1|].
  split; [intros z I; eapply derive_items_In; eassumption|]. unfold header_ref, options_ref. rewrite N1. auto.
Qed.
(** copy.copy makes a list that shows the same, can be edited apart from the first, and has the
    same header and options dictionaries, not copies of them. *)
Theorem C78_copies h l v h' an :
  reachable h -> list_at h l = Some v -> step (CopyList l) h = (h', an) ->
  exists r, an = Ok (Ref r) /\ length h <= r /\ list_at h' r = Some v /\ all_the_same h h' /\
    refs_at h' r = refs_at h l /\ header_ref h' r = header_ref h l /\ options_ref h' r = options_ref h l.
Proof.
  intros R V S. apply reachable_good in R.
  pose proof (proj2 (step_ok p x gen (CopyList l) h R)) as W. rewrite S in W. cbn [fst] in W.
  destruct (list_pairs_at _ _ _ V) as (lo & q & N & Q & VP). cbn [Heap.step] in S. rewrite N, Q in S. injection S as <- <-.
  pose proof V as V'. unfold list_at in V'. rewrite N, Q, VP in V'.
  destruct (attribute_at h (lo_header lo)) as [a|] eqn:A; [|discriminate]. destruct (attribute_at h (lo_kdf_options lo)) as [b|] eqn:B; [|discriminate].
  destruct (attribute_at h (lo_decipher_header lo)) as [c|] eqn:C; [|discriminate].
  destruct (list_block_ok h q (mklo (length h) (lo_byte_string lo) (lo_header lo) (lo_cipher_bytes lo) (lo_kdf_options lo)
                             (lo_decipher_bytes lo) (lo_decipher_header lo) (lo_padding lo)) (l_pairs v) a b c R eq_refl VP A B C) as (G1 & W1 & L1 & R1 & N1 & V1).
  exists (length h + 1). split; [reflexivity|]. split; [lia|]. split; [rewrite V1; exact V'|]. split; [eapply grown_same; eassumption|].
  split; [rewrite R1; symmetry; exact Q|]. unfold header_ref, options_ref. rewrite N1, N. auto.
Qed.
(** Lists with the same header dictionary: whatever changes it changes the header of each, so
    also the cipher and the key derivation that packing each of them uses. The references stay
    the same ever after. *)
Theorem C78_shared_headers h l s d cs h' an :
  reachable h -> header_ref h l = Some s ->
  header_ref (run cs h) l = Some s /\
  (step (Mutate s d) (run cs h) = (h', an) -> exists v, list_at h' l = Some v /\ l_header v = Some d).
Proof.
  intros R H. apply reachable_good in R. unfold header_ref in *. destruct (nth_error h l) as [[| | | lo]|] eqn:N; try discriminate.
  pose proof (later_list _ _ _ _ (run_later p x gen cs h R) N) as N'. rewrite N'. split; [exact H|]. intros S.
  pose proof (run_good p x gen cs h R) as G. destruct (proj2 G _ _ N') as (_ & A & _). pose proof (A s H) as D.
  destruct (mutate_is _ _ _ _ _ S D) as (E & _). pose proof (step_good p x gen (Mutate s d) _ G) as G'. rewrite S in G'. cbn [fst] in G'.
  destruct D as (d0 & D).
  assert (nth_error h' l = Some (HList lo)) as N2 by (rewrite E; unfold store; rewrite store_other by congruence; exact N').
  destruct (list_seen h' l lo G' N2) as (q & ps & R2 & Q2 & P2 & v & V & VP). exists v. split; [exact V|].
  unfold list_at in V. rewrite N2, R2, P2 in V.
  assert (attribute_at h' (lo_header lo) = Some (Some d)) as AH.
  { rewrite H. cbn. assert (dict_at h' s = Some d) as ->; [|reflexivity]. rewrite E. unfold dict_at, store. rewrite store_same; [reflexivity|].
    apply nth_error_Some. congruence. }
  rewrite AH in V. destruct (attribute_at h' (lo_kdf_options lo)); [|discriminate]. destruct (attribute_at h' (lo_decipher_header lo)); [|discriminate].
  injection V as <-. reflexivity.
Qed.
(** from_list keeps the keys and the options dictionary that it is given, and makes a header of
    its own. *)
Theorem C78_made_lists_share_the_arguments h refs cipher kdf o d v h' an :
  reachable h -> attribute_at h o = Some d ->
  from_list (map (fun q => PairItem (key_at h (fst q)) (key_at h (snd q))) refs) cipher kdf d = Ok v ->
  step (NewList refs cipher kdf o) h = (h', an) ->
  exists r s, an = Ok (Ref r) /\ length h <= r /\ list_at h' r = Some v /\ all_the_same h h' /\
    refs_at h' r = Some refs /\ header_ref h' r = Some s /\ length h <= s /\
    match o with Some s => options_ref h' r = Some s | None => exists s, options_ref h' r = Some s /\ length h <= s end.
Proof.
  intros R A F S. apply reachable_good in R.
  pose proof (proj2 (step_ok p x gen (NewList refs cipher kdf o) h R)) as W. rewrite S in W. cbn [fst] in W.
  cbn [Heap.step] in S. rewrite A, F in S. pose proof (from_list_shows _ _ _ _ _ _ F) as (P & V1 & V2 & V3 & V4 & V5 & V6 & V7).
  set (hd := [(str "cipher", VStr cipher); (str "kdf", VStr kdf)]) in *. rewrite V6 in S.
  destruct (alloc_dict_ok hd h _ _ R eq_refl) as (G1 & W1 & L1 & D1). set (h1 := h ++ [HDict hd]) in *.
  assert (alloc_option (Some hd) h = (h1, Some (length h))) as AO by reflexivity. rewrite AO in S. clear AO.
  assert (exists h2 ko, (let '(h3, r) := alloc_list refs v (Some (length h)) ko None h2 in (h3, Ok (Ref r))) = (h', an) /\
            good h2 /\ grown h1 h2 /\ attribute_at h2 ko = Some (l_kdf_options v) /\
            match o with Some s => ko = Some s | None => exists s, ko = Some s /\ length h <= s end) as (h2 & ko & E2 & G2 & W2 & A2 & O2).
  { destruct o as [r|].
    - exists h1, (Some r). split; [exact S|]. split; [exact G1|]. split; [apply grown_refl|]. split; [|reflexivity].
      rewrite V7. rewrite (grown_attr _ _ _ _ W1 A). cbn in A. destruct (dict_at h r); [|discriminate]. injection A as <-. reflexivity.
    - cbn in A. injection A as <-. destruct (alloc_option (l_kdf_options v) h1) as (h2, ko) eqn:E2. destruct (alloc_option_ok _ _ _ _ G1 E2) as (G2 & W2 & A2 & L2).
      exists h2, ko. split; [exact S|]. split; [exact G2|]. split; [exact W2|]. split; [exact A2|]. rewrite V7 in E2. cbn in E2. injection E2 as <- <-. eexists. split; [reflexivity|]. apply grown_length in W1. exact W1. }
  clear S. unfold alloc_list in E2. injection E2 as <- <-.
  destruct (list_block_ok h2 refs (mklo (length h2) (l_byte_string v) (Some (length h)) (l_cipher_bytes v) ko (l_decipher_bytes v) None (l_padding v))
              (l_pairs v) (Some hd) (l_kdf_options v) None G2 eq_refl) as (G3 & W3 & L3 & R3 & N3 & LV).
  - eapply grown_pairs_at; [exact G1|exact W2|]. eapply grown_pairs_at; [exact R|exact W1|exact P].
  - eapply grown_attr; [exact W2|]. cbn. rewrite D1. reflexivity.
  - exact A2.
  - reflexivity.
  - apply grown_length in W1 as Z1, W2 as Z2. exists (length h2 + 1), (length h). split; [reflexivity|]. split; [lia|].
    split; [rewrite LV; cbn; destruct v; cbn in *; congruence|]. split; [eapply grown_same; eassumption|]. split; [exact R3|].
    unfold header_ref, options_ref. rewrite N3. cbn. split; [reflexivity|]. split; [lia|]. exact O2.
Qed.
End Histories.

(** Two generated pairs, a list of them to be encrypted, a copy.copy of it and a slice of it.
    Setting the cipher of the copy to none sets that of the first list; the slice has no header;
    the comment of a key is seen in all three, and clearing the copy leaves the others. *)
Definition ex_program : list command :=
  [NewPair (str "ssh-ed25519") (str "me") []; NewPair (str "ssh-ed25519") (str "you") [];
   NewList [(4, 9); (14, 19)] (str "aes256-ctr") (str "bcrypt") None; CopyList 23;
   DeriveList 23 (GetSlice (mkslice None (Some 1%Z) None))].
Definition ex_heap : heap := run toy_prims ex_x ex_gen ex_program [].
Definition ex_in_the_clear : dict pyval := [(str "cipher", VStr (str "none")); (str "kdf", VStr (str "none"))].
Definition ex_made : key := Eval vm_compute in match key_at ex_heap 4 with Some k => k | None => mkkey KPub [] EdPub [] [] [] end.
Example C78_example :
  reachable toy_prims ex_x ex_gen ex_heap /\
  refs_at ex_heap 23 = Some [(4, 9); (14, 19)] /\ refs_at ex_heap 25 = Some [(4, 9); (14, 19)] /\ refs_at ex_heap 27 = Some [(4, 9)] /\
  header_ref ex_heap 23 = Some 20 /\ header_ref ex_heap 25 = Some 20 /\ header_ref ex_heap 27 = None /\
  part_ref ex_heap 9 InFooter = Some 7 /\
  let after c := fst (step toy_prims ex_x ex_gen c ex_heap) in
  option_map l_header (list_at ex_heap 23) = Some (Some [(str "cipher", VStr (str "aes256-ctr")); (str "kdf", VStr (str "bcrypt"))]) /\
  option_map l_header (list_at (after (Mutate 20 ex_in_the_clear)) 23) = Some (Some ex_in_the_clear) /\
  (forall l, In l [23; 25; 27] -> 
     option_map (fun v => map (fun q => k_footer (pr_private q)) (firstn 1 (l_pairs v)))
       (list_at (after (Mutate 7 [(str "comment", VStr (str "us"))])) l) = Some [[(str "comment", VStr (str "us"))]]) /\
  refs_at (after (EditList 25 Clear)) 25 = Some [] /\ refs_at (after (EditList 25 Clear)) 23 = Some [(4, 9); (14, 19)] /\
  edit_shows ex_heap Clear Clear /\
  makes_key toy_prims ex_heap (NewKey KPub 0 1 2 (Some 3)) ex_made.
Proof.
  split; [exists ex_program; reflexivity|]. do 7 (split; [vm_compute; reflexivity|]). intros after.
  do 2 (split; [vm_compute; reflexivity|]).
  split; [intros l [<-|[<-|[<-|[]]]]; vm_compute; reflexivity|].
  split; [vm_compute; reflexivity|]. split; [vm_compute; reflexivity|]. split; [constructor|].
  apply (Mk_new _ _ KPub 0 1 2 (Some 3) (k_header ex_made) (k_params ex_made) (k_footer ex_made) (Some (k_clear ex_made))); vm_compute; reflexivity.
Qed.

Print Assumptions C78_keys_share_nothing.
Print Assumptions C78_lists_show_changes.
Print Assumptions C78_new_keys_are_fresh.
Print Assumptions C78_generated_pairs_are_fresh.
Print Assumptions C78_parsed_lists_are_fresh.
Print Assumptions C78_edits_change_one_list.
Print Assumptions C78_derived_lists_share_the_keys.
Print Assumptions C78_copies.
Print Assumptions C78_shared_headers.
Print Assumptions C78_made_lists_share_the_arguments.
