(** Packing a list while other threads run: C93. *)
From Verif Require Import PyBase IntBytes Utf8 StructFmt Stream Text Classes Key Crypto PrivateKeyList UserList Convert Generate Heap SpecHeap Threads SpecThreads.
From Verif Require Import ProofBase ProofRecord ProofKey ProofList ProofHeap ProofThreads.
From Verif Require Import Props_Crypto Props_List Props_Generate Props_Heap Props_Sign.
From Coq Require Import Lia.
Open Scope nat_scope.

(** ** Lemmas *)
Lemma same_key_refl h k : same_key h h k. Proof. split; reflexivity. Qed.
Lemma same_key_trans a b c k : same_key a b k -> same_key b c k -> same_key a c k.
Proof. intros (P & K) (P' & K'). split; [intros w; rewrite P'; apply P|congruence]. Qed.
Lemma added_refl r h : only_added r h h.
Proof.
  do 3 (split; [auto|]). intros refs E. split; [exists []; rewrite app_nil_r; exact E|]. intros a b _. split; apply same_key_refl.
Qed.
Lemma added_trans r a b c : only_added r a b -> only_added r b c -> only_added r a c.
Proof.
  intros (H1 & O1 & D1 & R1) (H2 & O2 & D2 & R2). split; [congruence|]. split; [congruence|]. split.
  - intros s S. rewrite D2; [apply D1; exact S|]. rewrite H1, O1. exact S.
  - intros refs E. destruct (R1 _ E) as ((m1 & E1) & K1). destruct (R2 _ E1) as ((m2 & E2) & K2). split.
    + exists (m1 ++ m2). rewrite app_assoc. exact E2.
    + intros x y I. destruct (K1 x y I). destruct (K2 x y (in_or_app _ _ _ (or_introl I))). split; eapply same_key_trans; eassumption.
Qed.
Lemma added_from hist r : (forall t, only_added r (hist t) (hist (S t))) -> forall m t, m <= t -> only_added r (hist m) (hist t).
Proof. intros H m t L. induction L; [apply added_refl|eapply added_trans; [eassumption|apply H]]. Qed.
(** The parts of a list that is seen. *)
Lemma list_parts h r v : list_at h r = Some v -> exists lo refs, list_object_at h r = Some lo /\ refs_at h r = Some refs /\
  pairs_at h refs = Some (l_pairs v) /\ attribute_at h (lo_header lo) = Some (l_header v) /\ attribute_at h (lo_kdf_options lo) = Some (l_kdf_options v) /\
  header_ref h r = lo_header lo /\ options_ref h r = lo_kdf_options lo.
Proof.
  unfold list_at, list_object_at, header_ref, options_ref. destruct (nth_error h r) as [[| | |lo]|]; try discriminate.
  destruct (refs_at h r) as [refs|]; [|discriminate]. destruct (pairs_at h refs) as [ps|] eqn:P; [|discriminate].
  destruct (attribute_at h (lo_header lo)) as [hd|] eqn:A; [|discriminate]. destruct (attribute_at h (lo_kdf_options lo)) as [ko|] eqn:B; [|discriminate].
  destruct (attribute_at h (lo_decipher_header lo)); [|discriminate]. intros [= <-]. exists lo, refs. cbn. auto 10.
Qed.
Lemma refs_object h r q : refs_at h r = Some q -> exists lo, list_object_at h r = Some lo /\ header_ref h r = lo_header lo /\ options_ref h r = lo_kdf_options lo.
Proof. unfold refs_at, list_object_at, header_ref, options_ref. destruct (nth_error h r) as [[| | |lo]|]; try discriminate. eauto. Qed.
Section Added.
Variables (hist : nat -> heap) (r : loc) (v : pkl) (m : nat).
Hypothesis kept : forall t, m <= t -> only_added r (hist m) (hist t).
Hypothesis seen : list_at (hist m) r = Some v.
Lemma added_attributes : exists ho oo, forall t, m <= t ->
  (header_of r (hist t) = Some ho /\ attribute_at (hist t) ho = Some (l_header v)) /\
  (kdf_options_of r (hist t) = Some oo /\ attribute_at (hist t) oo = Some (l_kdf_options v)).
Proof.
  destruct (list_parts _ _ _ seen) as (lo & refs & L & R & P & H & O & Eh & Eo).
  exists (lo_header lo), (lo_kdf_options lo). intros t Lt. destruct (kept t Lt) as (K1 & K2 & K3 & K4).
  destruct (K4 _ R) as ((more & R') & _). destruct (refs_object _ _ _ R') as (lo' & L' & Eh' & Eo').
  unfold header_of, kdf_options_of. rewrite L'. cbn [option_map]. rewrite Eh in *. rewrite Eo in *.
  rewrite <- Eh', <- Eo', K1, K2. split; (split; [reflexivity|]).
  - rewrite <- H. apply attribute_at_eq. intros s E. apply K3. left. exact E.
  - rewrite <- O. apply attribute_at_eq. intros s E. apply K3. right. exact E.
Qed.
End Added.
Lemma added_values r h h' v v' : only_added r h h' -> list_at h r = Some v -> list_at h' r = Some v' ->
  l_header v' = l_header v /\ l_kdf_options v' = l_kdf_options v.
Proof.
  intros (H & O & D & _) L L'. destruct (list_parts _ _ _ L) as (lo & q & _ & _ & _ & A & B & Ea & Eb).
  destruct (list_parts _ _ _ L') as (lo' & q' & _ & _ & _ & A' & B' & Ea' & Eb').
  rewrite Ea, Ea' in H. rewrite Eb, Eb' in O. rewrite H in A'. rewrite O in B'.
  rewrite (attribute_at_eq h h' (lo_header lo)) in A' by (intros s E; apply D; left; congruence).
  rewrite (attribute_at_eq h h' (lo_kdf_options lo)) in B' by (intros s E; apply D; right; congruence). split; congruence.
Qed.
Lemma index_app {A} (l more : list A) i : (0 <= i < Z.of_nat (length l))%Z -> py_index (l ++ more) i = py_index l i.
Proof.
  intros L. unfold py_index. rewrite app_length. replace (i <? 0)%Z with false by (symmetry; apply Z.ltb_ge; lia).
  replace ((0 <=? i) && (i <? Z.of_nat (length l + length more)))%Z%bool with true by (symmetry; apply andb_true_intro; split; [apply Z.leb_le|apply Z.ltb_lt]; lia).
  replace ((0 <=? i) && (i <? Z.of_nat (length l)))%Z%bool with true by (symmetry; apply andb_true_intro; split; [apply Z.leb_le|apply Z.ltb_lt]; lia).
  rewrite nth_error_app1 by lia. reflexivity.
Qed.
Lemma tbind_fst {A B} (c : T A) (f : A -> T B) t : (forall a, goes_on (f a)) -> fst (c t) <= fst (tbind c f t).
Proof.
  intros F. unfold tbind. destruct (c t) as [t1 [l [a|x]]]; cbn [fst]; [|lia]. specialize (F a t1). destruct (f a t1) as [t2 [l' o]]. exact F.
Qed.
Ltac on := repeat (first [apply go_w | apply go_look | assumption | (apply go_bind; [|intros ?])]).
Lemma on_dict hist f s : goes_on (t_dict hist f s).
Proof. induction f as [|[k i] f IH]; cbn [t_dict]; on. Qed.
Lemma on_pubs hist r ov ix : goes_on (t_pubs hist r ov ix).
Proof. induction ix as [|i ix IH]; cbn [t_pubs]; unfold t_public; on; apply on_dict. Qed.
Lemma on_privs hist r ix : goes_on (t_privs hist r ix).
Proof. induction ix as [|i ix IH]; cbn [t_privs]; unfold t_private; on; apply on_dict. Qed.
Lemma on_rest p hist e r pass ov cv kv o ix : goes_on (t_rest hist p e r pass ov cv kv o ix).
Proof.
  unfold t_rest. apply go_bind; [apply go_w|intros k]. apply go_bind; [destruct o; [apply go_w|apply on_dict]|intros ob].
  apply go_bind; [apply go_w|intros hd]. apply go_bind; [apply on_pubs|intros pb]. apply go_bind; [apply go_w|intros ck].
  apply go_bind; [apply on_privs|intros pv]. apply go_bind; [apply go_w|intros c]. cbv zeta. apply go_bind; [apply go_w|intros pw].
  apply go_bind; [apply go_w|intros c']. apply go_bind; [destruct o; [apply go_w|apply go_look]|intros d].
  apply go_bind; [apply go_w|intros u]. apply go_bind; [apply go_w|intros x]. apply go_w.
Qed.

Lemma selected_opts p e cv kv l d rs pass ov : pack_selected p e cv kv (l, Ok d) rs pass ov =
  let '(l', o) := pack_selected p e cv kv (wret d) rs pass ov in (l ++ l', o).
Proof. unfold pack_selected, wret. cbn [wbind]. match goal with |- (let '(_, _) := ?b in _) = _ => destruct b as [l5 o5] end. reflexivity. Qed.
(** The moment at which the length of the list is read. *)
Definition at_length (hist : nat -> heap) (e : env) (r : loc) (retain : bool) : nat :=
  fst ((dot (_, kv) <- t_names hist r; t_options hist e r kv retain) 0).
Lemma pack_core p hist e r pass idx ov retain v0 m v refs :
  (forall t, only_added r (hist 0) (hist t)) -> list_at (hist 0) r = Some v0 ->
  (forall t, m <= t -> only_added r (hist m) (hist t)) -> list_at (hist m) r = Some v -> refs_at (hist m) r = Some refs ->
  m <= at_length hist e r retain ->
  (idx = None -> exists q, refs_at (hist (at_length hist e r retain)) r = Some q /\ length q = length refs) ->
  (forall t, m <= t -> exists q, refs_at (hist t) r = Some q /\ forall i, In i (indices v idx) -> py_index q i = py_index refs i) ->
  snd (t_pack p hist e r pass idx ov retain 0) = list_pack_bytes p e v pass idx ov retain /\
  (m <= fst (t_pack p hist e r pass idx ov retain 0)).
Proof.
  intros K0 V0 K V R Lm Len I. rewrite t_pack_parts, list_pack_eq.
  match goal with |- snd ?c = ?w /\ _ => enough (exists t', c = (t', w) /\ m <= t') as (t' & -> & Lt) by (split; [reflexivity|exact Lt]) end.
  destruct (added_values _ _ _ _ _ (K0 m) V0 V) as (Eh & Eo).
  assert (list_cipher_kdf v = list_cipher_kdf v0) as -> by (unfold list_cipher_kdf; rewrite Eh; reflexivity).
  destruct (added_attributes hist r v0 0 (fun t _ => K0 t) V0) as (ho & oo & A).
  pose proof (sees_names hist 0 r v0 ho (fun t L => proj1 (A t L)) 0 (le_n 0)) as (_ & N).
  unfold at_length in *. unfold tbind at 1 in Lm. unfold tbind at 1 in Len. unfold tbind at 1.
  destruct (t_names hist r 0) as [t1 wn]. cbn [snd] in N. subst wn. unfold wret in *. destruct (list_cipher_kdf v0) as [cv kv]. cbn [fst snd] in *.
  assert (options_for e v retain kv = options_for e v0 retain kv) as -> by (unfold options_for; rewrite Eo; reflexivity).
  destruct (sees_options hist 0 r v0 oo (fun t L => proj2 (A t L)) e kv retain) as (w & Sw & W).
  destruct (Sw t1 (Nat.le_0_l _)) as (_ & Ow). unfold tbind at 1.
  destruct (t_options hist e r kv retain t1) as [t2 wo]. cbn [fst snd] in *. subst wo.
  destruct w as [lo' [o|x]], (options_for e v0 retain kv) as [lo [d|x']]; try contradiction; destruct W as (-> & W).
  2: { subst x'. exists t2. split; [reflexivity|exact Lm]. }
  cbn [fst] in *.
  assert (exists t3, t_indices hist r idx t2 = (t3, wret (indices v idx)) /\ m <= t3) as (t3 & J & L3).
  { destruct idx as [ix|]; cbn [t_indices indices]; [exists t2; auto|]. destruct (Len eq_refl) as (q & Q & Lq).
    exists (S t2). split; [|lia]. unfold tbind, look. rewrite Q. cbn.
    destruct (list_parts _ _ _ V) as (lo'' & refs' & _ & R' & P' & _). rewrite R in R'. injection R' as <-.
    apply pairs_at_Forall2 in P'. rewrite (Forall2_len _ _ _ P') in Lq. rewrite Lq. reflexivity. }
  unfold tbind at 1. rewrite J. unfold wret.
  assert (sees m (t_rest hist p e r pass ov cv kv o (indices v idx)) (pack_selected p e cv kv (wret d) (map (py_index (l_pairs v)) (indices v idx)) pass ov)) as SR.
  { destruct (list_parts _ _ _ V) as (lo'' & refs' & _ & R' & P' & _). rewrite R in R'. injection R' as <-.
    apply (sees_rest hist p e r pass ov cv kv m refs); [exact P'|exact I| |eapply options_later; [apply Nat.le_0_l|exact W]].
    intros t a b L In. destruct (K t L) as (_ & _ & _ & K4). destruct (K4 _ R) as (_ & K5). apply K5. exact In. }
  destruct (SR t3 L3) as (F & SS). destruct (t_rest hist p e r pass ov cv kv o (indices v idx) t3) as [t4 [l4 o4]]. cbn [fst snd app] in *.
  exists t4. split; [|exact F]. rewrite (selected_opts _ _ _ _ lo d), <- SS. reflexivity.
Qed.

Section Histories.
Variable p : prims.
Variable x : ext.
Variable gen : request -> res obj.
Notation step := (step p x gen).
Notation run := (run p x gen).
Notation reachable := (reachable p x gen).

Lemma not_disturbing_added r lo h c : good h -> nth_error h r = Some (HList lo) -> not_disturbing r h c -> only_added r h (fst (step c h)).
Proof.
  intros G N D. pose proof (proj2 (step_ok p x gen c h G)) as Sp. pose proof (step_later p x gen c h G) as Lt.
  destruct (proj2 G _ _ N) as ((q & Q) & A1 & A2 & _).
  assert (refs_at h r = Some q) as R by (unfold refs_at; rewrite N, Q; reflexivity).
  enough ((forall s, lo_header lo = Some s \/ lo_kdf_options lo = Some s -> dict_at (fst (step c h)) s = dict_at h s) /\
          (exists more, refs_at (fst (step c h)) r = Some (q ++ more)) /\
          (forall a b, In (a, b) q -> key_at (fst (step c h)) a = key_at h a /\ key_at (fst (step c h)) b = key_at h b)) as (E1 & E2 & E3).
  { unfold only_added, header_ref, options_ref. rewrite (later_list _ _ _ _ Lt N), N. do 2 (split; [reflexivity|]). split; [exact E1|].
    intros refs R'. rewrite R in R'. injection R' as <-. split; [exact E2|]. intros a b I. destruct (refs_keys _ _ _ G R a b I) as (Ka & Kb).
    destruct (E3 a b I). split; (split; [intros w; apply part_later; assumption|assumption]). }
  assert (grown h (fst (step c h)) -> (forall s, lo_header lo = Some s \/ lo_kdf_options lo = Some s -> dict_at (fst (step c h)) s = dict_at h s) /\
          (exists more, refs_at (fst (step c h)) r = Some (q ++ more)) /\
          (forall a b, In (a, b) q -> key_at (fst (step c h)) a = key_at h a /\ key_at (fst (step c h)) b = key_at h b)) as Grow.
  { intros (n & E). rewrite E. split; [|split].
    - intros s Es. apply dict_at_app. destruct Es; auto.
    - exists []. rewrite app_nil_r, (refs_at_app _ _ _ G); [exact R|eapply nth_lt; exact N].
    - intros a b I. destruct (refs_keys _ _ _ G R a b I) as (Ka & Kb). split; eapply key_at_app; try exact G; apply keyo_lt; assumption. }
  destruct c; try (apply Grow; exact Sp).
  - destruct Sp as [E|(d0 & E & E')]; [apply Grow; rewrite E; apply grown_refl|]. rewrite E'. cbn in D. unfold header_ref, options_ref in D. rewrite N in D.
    destruct D as (D1 & D2 & D3). split; [|split].
    + intros s Es. apply dict_at_store. intros ->. destruct Es; auto.
    + exists []. rewrite app_nil_r. unfold refs_at, store. rewrite store_other by congruence. rewrite N. rewrite store_other by congruence. rewrite Q. reflexivity.
    + intros a b I. split; (eapply store_key_at; [exact E|exact Logic.I|discriminate|]); intros w; apply (D3 _ a b w R I).
  - destruct (Nat.eq_dec l r) as [->|Nl].
    + cbn [Heap.step] in *. rewrite N, R in *. destruct (pairs_at h (edit_refs e)) as [z|]; [|apply Grow; apply grown_refl].
      destruct (edit_items (same_pair h) e q) as [q'|err] eqn:Ed; [|apply Grow; apply grown_refl]. cbn [fst] in *.
      assert (exists more, q' = q ++ more) as (more & ->).
      { cbn in D. destruct e; try (exfalso; apply D; reflexivity); cbn in Ed; injection Ed as <-; eauto. }
      destruct (refs_at_store h r lo q (q ++ more) G N Q) as (R' & _ & _). split; [|split].
      * intros s _. eapply dict_at_seq. exact Q.
      * exists more. exact R'.
      * intros a b _. split; eapply key_at_seq; eassumption.
    + destruct Sp as [E|(lo' & q1 & q2 & N' & E & E')]; [apply Grow; rewrite E; apply grown_refl|]. rewrite E'. split; [|split].
      * intros s _. eapply dict_at_seq. exact E.
      * exists []. rewrite app_nil_r. destruct (refs_at_store h l lo' q1 q2 G N' E) as (_ & _ & O). rewrite O by congruence. exact R.
      * intros a b _. split; eapply key_at_seq; eassumption.
Qed.
Lemma none_disturbing_added r cs h v : good h -> list_at h r = Some v -> none_disturbing p x gen r h cs ->
  forall n, only_added r h (run (firstn n cs) h) /\ (exists v, list_at (run (firstn n cs) h) r = Some v) /\
    none_disturbing p x gen r (run (firstn n cs) h) (skipn n cs).
Proof.
  revert h v. induction cs as [|c cs IH]; intros h v G L D n.
  - rewrite firstn_nil, skipn_nil. cbn. split; [apply added_refl|]. eauto.
  - destruct n as [|n]; [cbn [firstn skipn Heap.run]; split; [apply added_refl|eauto]|]. cbn [firstn skipn Heap.run]. destruct D as (D1 & D2).
    destruct (list_pairs_at _ _ _ L) as (lo & q & N & _). pose proof (not_disturbing_added r lo h c G N D1) as A.
    pose proof (step_good p x gen c h G) as G'. pose proof (later_list _ _ _ _ (step_later p x gen c h G) N) as N'.
    destruct (list_seen _ _ _ G' N') as (q' & ps' & _ & _ & _ & v' & L' & _). destruct (IH _ v' G' L' D2 n) as (B & C & E). split; [eapply added_trans; eassumption|auto].
Qed.
Lemma run_app a b h : run (a ++ b) h = run b (run a h).
Proof. revert h. induction a as [|c a IH]; intros h; [reflexivity|]. cbn [app Heap.run]. apply IH. Qed.
Lemma schedule_added r cs h v done : good h -> list_at h r = Some v -> none_disturbing p x gen r h cs -> schedule done ->
  forall t, only_added r (run (firstn (done t) cs) h) (run (firstn (done (S t)) cs) h).
Proof.
  intros G L D Sc t. destruct (none_disturbing_added r cs h v G L D (done t)) as (_ & (v1 & L1) & D1).
  assert (firstn (done (S t)) cs = firstn (done t) cs ++ firstn (done (S t) - done t) (skipn (done t) cs)) as ->.
  { specialize (Sc t). rewrite <- (firstn_skipn (done t) cs) at 1. rewrite firstn_app.
    destruct (Nat.le_gt_cases (length cs) (done t)) as [Le|Gt].
    - rewrite (skipn_all2 cs) by exact Le. rewrite !firstn_nil, !app_nil_r. rewrite firstn_firstn. f_equal. lia.
    - rewrite firstn_firstn, Nat.min_r by lia. f_equal. f_equal. rewrite firstn_length. lia. }
  rewrite run_app. apply (none_disturbing_added r _ _ v1); [|exact L1|exact D1]. apply run_good. exact G.
Qed.
End Histories.

(** ** What a call that returns has seen *)
Lemma tbind_ok {A B} (c : T A) (f : A -> T B) t t' l b : tbind c f t = (t', (l, Ok b)) ->
  exists t1 l1 a l2, c t = (t1, (l1, Ok a)) /\ f a t1 = (t', (l2, Ok b)) /\ l = l1 ++ l2.
Proof.
  unfold tbind. destruct (c t) as [t1 [l1 [a|x]]]; [|discriminate]. destruct (f a t1) as [t2 [l2 o]] eqn:F. intros [= <- <- ->].
  exists t1, l1, a, l2. auto.
Qed.
Lemma tlift_ok {A} (r : res A) t t' l a : tlift r t = (t', (l, Ok a)) -> t' = t /\ l = [] /\ r = Ok a.
Proof. unfold tlift, tw, wlift. intros [= <- <- ->]. auto. Qed.
Lemma look_ok {A} hist (f : heap -> option A) t t' l a : look hist f t = (t', (l, Ok a)) -> t' = S t /\ l = [] /\ f (hist t) = Some a.
Proof. unfold look. destruct (f (hist t)) as [y|]; [|discriminate]. intros [= <- <- <-]. auto. Qed.
Lemma tret_ok {A} (y : A) t t' l a : tret y t = (t', (l, Ok a)) -> t' = t /\ l = [] /\ a = y.
Proof. unfold tret, tw, wret. intros [= <- <- <-]. auto. Qed.
Lemma format_of_nodup c : NoDup (dkeys (format_of c)).
Proof. apply nodupb_sound. destruct c; vm_compute; reflexivity. Qed.
Lemma header_fmt_nodup k : NoDup (dkeys (header_fmt k)). Proof. apply nodupb_sound. destruct k; vm_compute; reflexivity. Qed.
Lemma footer_fmt_nodup k : NoDup (dkeys (footer_fmt k)). Proof. apply nodupb_sound. destruct k; vm_compute; reflexivity. Qed.
Ltac next H := first [apply tret_ok in H | apply tlift_ok in H | apply look_ok in H]; destruct H as (-> & -> & H).
Ltac split_bind H a E := apply tbind_ok in H; destruct H as (? & ? & a & ? & E & H & ->).
Lemma t_dict_ok hist last s f t t' l b : NoDup (dkeys f) -> t_dict hist f s t = (t', (l, Ok b)) -> t' <= last ->
  t <= t' /\ l = [] /\ exists d, dict_bytes f d = Ok b /\ dkeys d = dkeys f /\ forall name v, In (name, v) d -> dict_had hist last s name v.
Proof.
  revert t l b. induction f as [|[k i] f IH]; intros t l b N H Lt; cbn [t_dict] in H.
  - next H. subst b. split; [lia|]. split; [reflexivity|]. exists []. split; [reflexivity|]. split; [reflexivity|]. intros ? ? [].
  - inversion N as [|? ? N1 N2]; subst. split_bind H d0 E1. next E1. split_bind H v E2. next E2. split_bind H b1 E3. next E3.
    split_bind H b2 E4. next H. subst b. destruct (IH _ _ _ N2 E4 Lt) as (Le & -> & d & D1 & D2 & D3).
    split; [lia|]. split; [reflexivity|]. unfold ditem in E2. destruct (dget k d0) as [v'|] eqn:G; [|discriminate]. injection E2 as ->.
    exists ((k, v) :: d). split; [|split].
    + cbn [dict_bytes]. unfold ditem at 1. cbn [dget]. rewrite str_eqb_refl. cbn [rbind]. rewrite E3. cbn [rbind].
      rewrite (dict_bytes_same f ((k, v) :: d) d), D1; [reflexivity|]. intros y Iy. cbn [dget]. destruct (str_eqb y k) eqn:Ey; [|reflexivity].
      apply str_eqb_spec in Ey. subst y. contradiction.
    + unfold dkeys in *. cbn [map fst]. rewrite D2. reflexivity.
    + intros name w [[= <- <-]|I]; [|apply D3; exact I]. exists t, d0. split; [lia|]. auto.
Qed.
Lemma class_seen h k c : class_at h k = Some c -> exists ko, nth_error h k = Some (HKey ko) /\ ko_pcls ko = c.
Proof. unfold class_at. destruct (nth_error h k) as [[|ko| |]|]; try discriminate. intros [= <-]. eauto. Qed.
Section Parts.
Variable hist : nat -> heap.
Variable last : nat.
Lemma made_from_intro k kd tc c ht hs pt ps ft fs hd pd fd :
  tc <= last -> class_at (hist tc) k = Some c ->
  ht <= last -> part_ref (hist ht) k InHeader = Some hs -> (forall name v, In (name, v) hd -> dict_had hist last hs name v) ->
  pt <= last -> part_ref (hist pt) k InParams = Some ps -> (forall name v, In (name, v) pd -> dict_had hist last ps name v) ->
  ft <= last -> part_ref (hist ft) k InFooter = Some fs -> (forall name v, In (name, v) fd -> dict_had hist last fs name v) ->
  made_from hist last k (mkkey kd hd c pd fd []).
Proof.
  intros T1 C T2 P2 H2 T3 P3 H3 T4 P4 H4. split.
  - destruct (class_seen _ _ _ C) as (ko & N & E). exists tc, ko. auto.
  - intros [] name v I; cbn in I; [exists ht, hs|exists pt, ps|exists ft, fs|destruct I]; auto.
Qed.
Lemma t_public_ok k t t' l b : t_public hist k t = (t', (l, Ok b)) -> t' <= last ->
  t <= t' /\ l = [] /\ exists y, made_from hist last k y /\ pack_public_bytes y = Ok b /\ k_kind y = KPub.
Proof.
  intros H Lt. unfold t_public in H. split_bind H hs E1. next E1. split_bind H a E2. split_bind H c E3. next E3. split_bind H ps E4. next E4.
  split_bind H b' E5. split_bind H fs E6. next E6. split_bind H f E7. next H. subst b.
  destruct (t_dict_ok hist last _ _ _ _ _ _ (footer_fmt_nodup KPub) E7 Lt) as (L7 & -> & fd & F1 & _ & F3).
  destruct (t_dict_ok hist last _ _ _ _ _ _ (format_of_nodup _) E5 ltac:(lia)) as (L5 & -> & pd & P1 & _ & P3).
  destruct (t_dict_ok hist last _ _ _ _ _ _ (header_fmt_nodup KPub) E2 ltac:(lia)) as (L2 & -> & hd & H1 & _ & H3).
  split; [lia|]. split; [reflexivity|]. exists (mkkey KPub hd c pd fd []). split; [|split; [|reflexivity]].
  - eapply made_from_intro; [|exact E3| |exact E1|exact H3| |exact E4|exact P3| |exact E6|exact F3]; lia.
  - unfold pack_public_bytes. rewrite pack_three. cbn [k_header k_params k_footer k_pcls]. rewrite H1. cbn [rbind]. rewrite P1. cbn [rbind]. rewrite F1. reflexivity.
Qed.
Lemma t_private_ok k t t' l b : t_private hist k t = (t', (l, Ok b)) -> t' <= last ->
  t <= t' /\ l = [] /\ exists y, made_from hist last k y /\ pack_private_bytes y = Ok b /\ k_kind y = KPriv.
Proof.
  intros H Lt. unfold t_private in H. split_bind H hs E1. next E1. split_bind H a E2. split_bind H c E3. next E3. split_bind H ps E4. next E4.
  split_bind H b' E5. split_bind H fs E6. next E6. split_bind H f E7. next H. subst b.
  destruct (t_dict_ok hist last _ _ _ _ _ _ (footer_fmt_nodup KPriv) E7 Lt) as (L7 & -> & fd & F1 & _ & F3).
  destruct (t_dict_ok hist last _ _ _ _ _ _ (format_of_nodup _) E5 ltac:(lia)) as (L5 & -> & pd & P1 & _ & P3).
  destruct (t_dict_ok hist last _ _ _ _ _ _ (header_fmt_nodup KPriv) E2 ltac:(lia)) as (L2 & -> & hd & H1 & _ & H3).
  split; [lia|]. split; [reflexivity|]. exists (mkkey KPriv hd c pd fd []). split; [|split; [|reflexivity]].
  - eapply made_from_intro; [|exact E3| |exact E1|exact H3| |exact E4|exact P3| |exact E6|exact F3]; lia.
  - unfold pack_private_bytes. rewrite pack_three. cbn [k_header k_params k_footer k_pcls]. rewrite H1. cbn [rbind]. rewrite P1. cbn [rbind]. rewrite F1. reflexivity.
Qed.
Lemma t_pubs_ok r ov ix t t' l b : t_pubs hist r ov ix t = (t', (l, Ok b)) -> t' <= last ->
  t <= t' /\ l = [] /\ exists ys, Forall2 (fun i y => exists q, item_had hist last r i q /\ made_from hist last (if ov then snd q else fst q) y) ix ys /\
    forall sel, map pr_public sel = ys -> pubs_bytes false (map Ok sel) = Ok b.
Proof.
  revert t l b. induction ix as [|i ix IH]; intros t l b H Lt; cbn [t_pubs] in H.
  - next H. subst b. split; [lia|]. split; [reflexivity|]. exists []. split; [constructor|]. intros [|] E; [reflexivity|discriminate].
  - split_bind H refs E1. next E1. split_bind H q E2. next E2. split_bind H y E3. split_bind H z E4. next E4. split_bind H w E5. next H. subst b.
    destruct (IH _ _ _ E5 Lt) as (L5 & -> & ys & F & P). destruct (t_public_ok _ _ _ _ _ E3 ltac:(lia)) as (L3 & -> & k & M & K & _).
    split; [lia|]. split; [reflexivity|]. exists (k :: ys). split.
    + constructor; [|exact F]. exists q. split; [|exact M]. exists t, refs. split; [lia|]. split; [exact E1|apply py_index_iff; exact E2].
    + intros [|s sel] E; [discriminate|]. cbn [map] in E. injection E as Ek Es. cbn [map pubs_bytes rbind]. rewrite Ek, K. cbn [rbind]. rewrite E4. cbn [rbind].
      rewrite (P _ Es). reflexivity.
Qed.
Lemma t_privs_ok r ix t t' l b : t_privs hist r ix t = (t', (l, Ok b)) -> t' <= last ->
  t <= t' /\ l = [] /\ exists ys, Forall2 (fun i y => exists q, item_had hist last r i q /\ made_from hist last (snd q) y) ix ys /\
    forall sel, map pr_private sel = ys -> privs_bytes (map Ok sel) = Ok b.
Proof.
  revert t l b. induction ix as [|i ix IH]; intros t l b H Lt; cbn [t_privs] in H.
  - next H. subst b. split; [lia|]. split; [reflexivity|]. exists []. split; [constructor|]. intros [|] E; [reflexivity|discriminate].
  - split_bind H refs E1. next E1. split_bind H q E2. next E2. split_bind H y E3. split_bind H w E5. next H. subst b.
    destruct (IH _ _ _ E5 Lt) as (L5 & -> & ys & F & P). destruct (t_private_ok _ _ _ _ _ E3 ltac:(lia)) as (L3 & -> & k & M & K & _).
    split; [lia|]. split; [reflexivity|]. exists (k :: ys). split.
    + constructor; [|exact F]. exists q. split; [|exact M]. exists t, refs. split; [lia|]. split; [exact E1|apply py_index_iff; exact E2].
    + intros [|s sel] E; [discriminate|]. cbn [map] in E. injection E as Ek Es. cbn [map privs_bytes rbind]. rewrite Ek, K. cbn [rbind].
      rewrite (P _ Es). reflexivity.
Qed.
Lemma header_item r name d0 t t' l v : t_header hist r t = (t', (l, Ok d0)) -> t' <= last ->
  t <= t' /\ l = [] /\ (dget name d0 = Some v -> header_had hist last r name v).
Proof.
  intros H Lt. unfold t_header in H. split_bind H o E1. next E1. destruct o as [s|].
  - next H. split; [lia|]. split; [reflexivity|]. intros G. exists t, s. split; [lia|]. split.
    + unfold header_of, list_object_at in E1. unfold header_ref. destruct (nth_error (hist t) r) as [[| | |lo]|]; try discriminate. cbn in E1. injection E1 as ->. reflexivity.
    + exists (S t), d0. split; [lia|]. auto.
  - unfold tw, werr in H. discriminate.
Qed.
Lemma t_names_ok r t t' l cv kv : t_names hist r t = (t', (l, Ok (cv, kv))) -> t' <= last ->
  t <= t' /\ l = [] /\ ((header_had hist last r (str "cipher") cv /\ header_had hist last r (str "kdf") kv) \/
             (cv = VStr (str "none") /\ kv = VStr (str "none"))).
Proof.
  intros H Lt. unfold t_names in H. split_bind H o E1. next E1. destruct o as [s|]; [|next H; injection H as -> ->; split; [lia|auto]].
  assert (forall A (c : T A) y y' w, goes_on c -> c y = (y', w) -> y <= y') as OT.
  { intros A c y y' w G E. specialize (G y). rewrite E in G. exact G. }
  assert (goes_on (t_header hist r)) as OH. { unfold t_header. apply go_bind; [apply go_look|intros [?|]; [apply go_look|apply go_w]]. }
  split_bind H d1 E2. pose proof H as H'. apply OT in H'; [|destruct (dmem _ d1); [apply go_bind; [exact OH|intros d; destruct (dmem _ d); on]|apply go_w]].
  destruct (header_item r (str "cipher") d1 _ _ _ cv E2 ltac:(lia)) as (L2 & -> & _). destruct (dmem (str "cipher") d1); [|next H; injection H as -> ->; split; [lia|auto]].
  clear H'. split_bind H d2 E3. pose proof H as H'. apply OT in H'; [|destruct (dmem _ d2); on].
  destruct (header_item r (str "kdf") d2 _ _ _ kv E3 ltac:(lia)) as (L3 & -> & _). destruct (dmem (str "kdf") d2); [|next H; injection H as -> ->; split; [lia|auto]].
  clear H'. split_bind H d3 E4. pose proof H as H'. apply OT in H'; [|on].
  destruct (header_item r (str "cipher") d3 _ _ _ cv E4 ltac:(lia)) as (L4 & -> & C). split_bind H c E5. next E5.
  clear H'. split_bind H d4 E6. pose proof H as H'. apply OT in H'; [|on].
  destruct (header_item r (str "kdf") d4 _ _ _ kv E6 ltac:(lia)) as (L6 & -> & K). split_bind H k E7. next E7. next H. injection H as -> ->.
  split; [lia|]. split; [reflexivity|]. left. unfold ditem in E5, E7. split.
  - apply C. destruct (dget (str "cipher") d3); [congruence|discriminate].
  - apply K. destruct (dget (str "kdf") d4); [congruence|discriminate].
Qed.
End Parts.

(** ** Theorems *)
(** Packing a list that is not changed meanwhile gives what it gives without other threads,
    whatever these do with other objects. *)
Theorem C93_undisturbed p hist e r v pass idx ov retain :
  list_at (hist 0) r = Some v ->
  (forall t, only_added r (hist 0) (hist t) /\ refs_at (hist t) r = refs_at (hist 0) r) ->
  snd (t_pack p hist e r pass idx ov retain 0) = list_pack_bytes p e v pass idx ov retain.
Proof.
  intros L K. destruct (list_parts _ _ _ L) as (lo & refs & _ & R & _).
  apply (pack_core p hist e r pass idx ov retain v 0 v refs); try assumption; try (intros t _; apply K); [intros t; apply K|lia| |].
  - intros _. exists refs. split; [|reflexivity]. rewrite (proj2 (K _)). exact R.
  - intros t _. exists refs. split; [rewrite (proj2 (K t)); exact R|reflexivity].
Qed.
(** If pairs are added at its end meanwhile, it gives the file of the list as it is at one moment of
    the call; the list as it was in the beginning, if the indices are given. *)
Theorem C93_appending p hist e r v0 pass idx ov retain :
  list_at (hist 0) r = Some v0 -> (forall t, list_at (hist t) r <> None) ->
  (forall t, only_added r (hist t) (hist (S t))) -> in_range (length (l_pairs v0)) idx ->
  let '(last, w) := t_pack p hist e r pass idx ov retain 0 in
  exists m v, m <= last /\ list_at (hist m) r = Some v /\ w = list_pack_bytes p e v pass idx ov retain /\
    (idx <> None -> m = 0) /\ exists more, l_pairs v = l_pairs v0 ++ more.
Proof.
  intros L A K I. pose proof (added_from hist r K) as F. destruct (list_parts _ _ _ L) as (lo & refs & _ & R & P & _).
  destruct idx as [ix|].
  - destruct (pack_core p hist e r pass (Some ix) ov retain v0 0 v0 refs) as (E1 & E2); try assumption; try lia; try discriminate.
    + intros t. apply F. lia.
    + intros t L'. apply F. exact L'.
    + intros t L'. destruct (F 0 t L') as (_ & _ & _ & K4). destruct (K4 _ R) as ((more & R') & _). exists (refs ++ more). split; [exact R'|].
      intros i Ii. apply index_app. apply pairs_at_Forall2 in P. rewrite (Forall2_len _ _ _ P). apply (I ix); [reflexivity|exact Ii].
    + destruct (t_pack p hist e r pass (Some ix) ov retain 0) as [last w]. cbn [fst snd] in *. exists 0, v0. split; [lia|]. split; [exact L|]. split; [exact E1|].
      split; [reflexivity|]. exists []. rewrite app_nil_r. reflexivity.
  - set (m := at_length hist e r retain). destruct (list_at (hist m) r) as [v|] eqn:V; [|destruct (A m V)].
    destruct (list_parts _ _ _ V) as (lo' & refs' & _ & R' & P' & _).
    destruct (pack_core p hist e r pass None ov retain v0 m v refs') as (E1 & E2); try assumption; try apply le_n.
    + intros t. apply F. lia.
    + intros t L'. apply F. exact L'.
    + intros _. exists refs'. split; [exact R'|reflexivity].
    + intros t L'. destruct (F m t L') as (_ & _ & _ & K4). destruct (K4 _ R') as ((more & R'') & _). exists (refs' ++ more). split; [exact R''|].
      intros i Ii. cbn [indices] in Ii. apply in_map_iff in Ii as (n & <- & In). apply in_seq in In. apply index_app.
      apply pairs_at_Forall2 in P'. rewrite (Forall2_len _ _ _ P'). lia.
    + destruct (t_pack p hist e r pass None ov retain 0) as [last w]. cbn [fst snd] in *. exists m, v. split; [exact E2|]. split; [exact V|]. split; [exact E1|].
      split; [intros H; destruct (H eq_refl)|]. destruct (F 0 m (Nat.le_0_l _)) as (_ & _ & _ & K4). destruct (K4 _ R) as ((more & R'') & Sk).
      rewrite R' in R''. injection R'' as ->. apply pairs_at_Forall2 in P, P'. apply Forall2_app_inv_l in P' as (p1 & p2 & P1 & P2 & ->).
      exists p2. f_equal. clear -P P1 Sk. revert p1 P1. revert P Sk. generalize (l_pairs v0). induction refs as [|[a b] refs IH]; intros l P Sk p1 P1.
      * inversion P; inversion P1; reflexivity.
      * inversion P as [|? y ? ? Y YS]; subst. inversion P1 as [|? y1 ? ? Y1 YS1]; subst. f_equal.
        { destruct (Sk a b (or_introl eq_refl)) as ((_ & Ka) & (_ & Kb)). rewrite (pair_at_eq (hist 0) (hist m) (a, b) Ka Kb) in Y1. congruence. }
        apply IH; [exact YS| |exact YS1]. intros a' b' I'. apply Sk. right. exact I'.
Qed.
(** The same said of programs: whatever the other threads do, and however the interpreter switches
    between them, as long as they do not change or reorder what is being packed. *)
Theorem C93_other_threads p x gen h cs done e r v0 pass idx ov retain :
  reachable p x gen h -> list_at h r = Some v0 -> none_disturbing p x gen r h cs ->
  schedule done -> done 0 = 0 -> in_range (length (l_pairs v0)) idx ->
  let at_time t := run p x gen (firstn (done t) cs) h in
  let '(last, w) := t_pack p at_time e r pass idx ov retain 0 in
  exists m v, m <= last /\ list_at (at_time m) r = Some v /\ w = list_pack_bytes p e v pass idx ov retain /\
    (idx <> None -> m = 0) /\ exists more, l_pairs v = l_pairs v0 ++ more.
Proof.
  intros Re L D Sc Z I at_time. apply reachable_good in Re as G. apply C93_appending; [|intros t; unfold at_time| |exact I].
  - unfold at_time. rewrite Z. exact L.
  - destruct (none_disturbing_added p x gen r cs h v0 G L D (done t)) as (_ & (v & ->) & _). discriminate.
  - apply (schedule_added p x gen r cs h v0); assumption.
Qed.
Lemma tw_ok {A} (w : W A) t t' l a : tw w t = (t', (l, Ok a)) -> t' = t /\ w = (l, Ok a).
Proof. unfold tw. intros [= <- ->]. auto. Qed.
Lemma t_rest_ok p hist last e r pass ov cv kv d ix t l b :
  t_rest hist p e r pass ov cv kv (Own d) ix t = (last, (l, Ok b)) ->
  exists ys zs, Forall2 (fun i y => exists q, item_had hist last r i q /\ made_from hist last (if ov then snd q else fst q) y) ix ys /\
    Forall2 (fun i y => exists q, item_had hist last r i q /\ made_from hist last (snd q) y) ix zs /\
    forall sel, map pr_public sel = ys -> map pr_private sel = zs ->
      pack_selected p e cv kv (wret d) (map Ok sel) pass false = (l, Ok b).
Proof.
  intros H. assert (forall A (c : T A) y y' w, goes_on c -> c y = (y', w) -> y <= y') as OT.
  { intros A c y y' w G E. specialize (G y). rewrite E in G. exact G. }
  unfold t_rest in H. split_bind H k E1. next E1. split_bind H ob E2. cbn [t_options_bytes] in E2. next E2. split_bind H hdr E3. next E3.
  apply tbind_ok in H as (t4 & l4 & pb & l4' & E4 & H & ->). split_bind H ck E5. next E5. apply tbind_ok in H as (t6 & l6 & pv & l6' & E6 & H & ->).
  split_bind H c E7. next E7. apply tbind_ok in H as (t8 & l8 & pw & l8' & E8 & H & ->). apply tw_ok in E8 as (-> & E8). split_bind H c' E9. next E9.
  split_bind H d' E10. cbn [t_copy] in E10. next E10. subst d'. apply tbind_ok in H as (t11 & l11 & u & l11' & E11 & H & ->). apply tw_ok in E11 as (-> & E11).
  split_bind H x E12. next E12. next H.
  destruct (t_privs_ok hist t6 r ix _ _ _ _ E6 (le_n _)) as (L6 & -> & zs & Fz & Pz).
  destruct (t_pubs_ok hist t6 r ov ix _ _ _ _ E4 L6) as (L4 & -> & ys & Fy & Py).
  exists ys, zs. split; [exact Fy|]. split; [exact Fz|]. intros sel Ey Ez.
  assert (forall A B (a : A) (f : A -> W B), wbind (wlift (Ok a)) f = f a) as L1 by (intros; cbn; destruct (f a); reflexivity).
  assert (length ix = length sel) as Ll by (rewrite (Forall2_len _ _ _ Fy), <- Ey, map_length; reflexivity).
  unfold pack_selected. change (wret d) with (wlift (Ok d)). rewrite L1, E1, L1, map_length.
  rewrite pack_with_dict in E2, E3, E5. rewrite E2, L1. rewrite Ll in E3. rewrite E3. cbn [rbind]. rewrite (Py sel Ey). cbn [rbind]. rewrite L1, E5. cbn [rbind].
  rewrite (Pz sel Ez). cbn [rbind]. rewrite E7. cbn [rbind]. rewrite !L1. rewrite E8. cbn [wbind]. rewrite E7 in E9. injection E9 as ->.
  rewrite L1. unfold wseq. rewrite E11. cbn [wbind]. rewrite <- app_assoc in E12. fold (padding_for c' (length (ck ++ pv))) in E12. rewrite E12, L1.
  rewrite pack_final in H. rewrite H. unfold wlift. rewrite !app_nil_r. reflexivity.
Qed.
Lemma combine_pairs ys zs : length ys = length zs -> exists sel, map pr_public sel = ys /\ map pr_private sel = zs.
Proof.
  revert zs. induction ys as [|y ys IH]; intros [|z zs] E; try discriminate; [exists []; auto|]. injection E as E. destruct (IH _ E) as (sel & <- & <-).
  exists (mkpair y z :: sel). auto.
Qed.
(** Whatever the others do: if the call returns and makes its own options, it returns the file of
    some list. Every value in it is one that the object it was read from had during the call, but
    not all at the same moment, and not the same for the public and the private half. *)
Theorem C93_values_of_the_time_of_the_call p hist e r pass idx ov last l b :
  t_pack p hist e r pass idx ov false 0 = (last, (l, Ok b)) ->
  exists v cv kv ix, list_pack_bytes p e v pass None false false = (l, Ok b) /\
    l_header v = Some [(str "cipher", cv); (str "kdf", kv)] /\
    ((header_had hist last r (str "cipher") cv /\ header_had hist last r (str "kdf") kv) \/
     (cv = VStr (str "none") /\ kv = VStr (str "none"))) /\
    (idx = Some ix \/ idx = None /\ exists n, length_had hist last r n /\ ix = map Z.of_nat (seq 0 n)) /\
    Forall2 (fun i q =>
      (exists q', item_had hist last r i q' /\ made_from hist last (if ov then snd q' else fst q') (pr_public q)) /\
      (exists q', item_had hist last r i q' /\ made_from hist last (snd q') (pr_private q))) ix (l_pairs v).
Proof.
  intros H. rewrite t_pack_parts in H. apply tbind_ok in H as (t1 & l1 & [cv kv] & l1' & E1 & H & ->).
  apply tbind_ok in H as (t2 & l2 & o & l2' & E2 & H & ->). apply tbind_ok in H as (t3 & l3 & ix & l3' & E3 & H & ->).
  assert (forall A (c : T A) y y' w, goes_on c -> c y = (y', w) -> y <= y') as OT.
  { intros A c y y' w G E. specialize (G y). rewrite E in G. exact G. }
  pose proof (OT _ _ _ _ _ (on_rest p hist e r pass ov cv kv o ix) H) as L3.
  assert (goes_on (t_indices hist r idx)) as OI by (destruct idx; [apply go_w|apply go_bind; [apply go_look|intros ?; apply go_w]]).
  pose proof (OT _ _ _ _ _ OI E3) as L2.
  cbn [t_options] in E2. apply tw_ok in E2 as (-> & E2).
  destruct (t_names_ok hist last r _ _ _ _ _ E1 ltac:(lia)) as (_ & -> & Names).
  assert (exists d, o = Own d /\ forall v, options_for e v false kv = (l2, Ok d)) as (d & -> & Od).
  { unfold options_for. destruct (get_kdf kv) as [k|]; unfold wlift in *; cbn [wbind] in *; [|discriminate]. unfold wseq in *.
    destruct (new_kdf k (kdf_generate k (e_salt e))) as [ln [u|]]; cbn in *; [|discriminate]. injection E2 as <- <-. eauto. }
  assert (l3 = [] /\ (idx = Some ix \/ idx = None /\ exists n, length_had hist last r n /\ ix = map Z.of_nat (seq 0 n))) as (-> & Ix).
  { destruct idx as [ix'|]; cbn [t_indices] in E3; [next E3; subst ix'; auto|]. split_bind E3 refs E4. next E4. next E3. split; [reflexivity|]. right.
    split; [reflexivity|]. exists (length refs). split; [|exact E3]. exists t1, refs. split; [lia|]. auto. }
  destruct (t_rest_ok _ _ _ _ _ _ _ _ _ _ _ _ _ _ H) as (ys & zs & Fy & Fz & P).
  destruct (combine_pairs ys zs) as (sel & Ey & Ez); [rewrite <- (Forall2_len _ _ _ Fy), <- (Forall2_len _ _ _ Fz); reflexivity|].
  exists (mkpkl sel None (Some [(str "cipher", cv); (str "kdf", kv)]) None None None None None), cv, kv, ix.
  split; [|split; [reflexivity|split; [exact Names|split; [exact Ix|]]]].
  - rewrite list_pack_eq. cbn [indices l_pairs]. rewrite py_index_all.
    match goal with |- pack_selected _ _ _ _ (options_for _ ?w _ _) _ _ _ = _ =>
      assert (list_cipher_kdf w = (cv, kv)) as -> by reflexivity end. cbn [fst snd]. rewrite Od, selected_opts, (P sel Ey Ez). reflexivity.
  - cbn [l_pairs]. clear -Fy Fz Ey Ez. subst ys zs. revert ix Fy Fz. induction sel as [|s sel IH]; intros ix Fy Fz; cbn [map] in *.
    + inversion Fy; constructor.
    + inversion Fy; subst. inversion Fz; subst. constructor; [split; assumption|]. apply IH; assumption.
Qed.

(** ** What other threads can spoil *)
Definition ex_at (h : heap) (c : command) (n t : nat) : heap :=
  run toy_prims ex_x ex_gen (firstn (if t <? n then 0 else 1) [c]) h.
Lemma ex_at_cases h c n t : ex_at h c n t = h \/ ex_at h c n t = fst (step toy_prims ex_x ex_gen c h).
Proof. unfold ex_at. destruct (t <? n); [left|right]; reflexivity. Qed.
Definition ex_threads_program : list command :=
  [NewPair (str "ssh-ed25519") (str "me") []; NewPair (str "ssh-rsa") (str "you") [(str "key_size", VInt 12); (str "e", VInt 17)];
   NewList [(4, 9)] (str "none") (str "none") None].
Definition ex_threads : heap := Eval vm_compute in run toy_prims ex_x ex_gen ex_threads_program [].
Definition ex_replace : command := EditList 23 (SetItem 0 (14, 19)).
Definition ex_file (h : heap) (r : loc) (pw : option pystr) (retain : bool) : bytes :=
  match list_at h r with
  | Some v => match snd (list_pack_bytes toy_prims ex_env v pw None true retain) with Ok b => b | Err _ => [] end
  | None => []
  end.
Lemma ex_replaced_files m v : list_at (ex_at ex_threads ex_replace 14 m) 23 = Some v -> exists b',
  list_pack_bytes toy_prims ex_env v None None true false = ([], Ok b') /\ length b' <> 162 /\ fst (list_from_bytes toy_prims ex_env b' None) = [].
Proof.
  intros E. exists (ex_file (ex_at ex_threads ex_replace 14 m) 23 None false). unfold ex_file. rewrite E. revert E.
  destruct (ex_at_cases ex_threads ex_replace 14 m) as [H|H]; rewrite H; clear H.
  - intros E. vm_compute in E. injection E as <-. split; [vm_compute; reflexivity|]. split; [vm_compute; discriminate|vm_compute; reflexivity].
  - intros E. vm_compute in E. injection E as <-. split; [vm_compute; reflexivity|]. split; [vm_compute; discriminate|vm_compute; reflexivity].
Qed.
(** A pair that is replaced during the call: the file has the public key of one pair and the private
    key of the other, and it is the file of the list at no moment. *)
Theorem C93_one_moment_refuted : exists p x gen h c n e r v b,
  reachable p x gen h /\ list_at h r = Some v /\
  let at_time t := run p x gen (firstn (if t <? n then 0 else 1) [c]) h in
  snd (t_pack p at_time e r None None true false 0) = ([], Ok b) /\
  fst (list_from_bytes p e b None) = [Warn (WPairType 0)] /\
  forall m v, list_at (at_time m) r = Some v -> exists b',
    list_pack_bytes p e v None None true false = ([], Ok b') /\ b' <> b /\ fst (list_from_bytes p e b' None) = [].
Proof.
  set (v0 := match list_at ex_threads 23 with Some v => v | None => new_list [] end).
  exists toy_prims, ex_x, ex_gen, ex_threads, ex_replace, 14, ex_env, 23, v0,
    (match snd (snd (t_pack toy_prims (ex_at ex_threads ex_replace 14) ex_env 23 None None true false 0)) with Ok b => b | Err _ => [] end).
  split; [exists ex_threads_program; vm_compute; reflexivity|]. split; [vm_compute; reflexivity|]. intros at_time.
  split; [vm_compute; reflexivity|]. split; [vm_compute; reflexivity|].
  intros m v E. destruct (ex_replaced_files m v E) as (b' & B1 & B2 & B3). exists b'. split; [exact B1|]. split; [|exact B3].
  intros ->. apply B2. vm_compute. reflexivity.
Qed.
Definition ex_salt (rounds : Z) : dict pyval := [(str "salt", VBytes [x01; x02; x03; x04]); (str "rounds", VInt rounds)].
Definition ex_retained_program : list command :=
  [NewPair (str "ssh-ed25519") (str "me") []; NewDict (ex_salt 3); NewList [(4, 9)] (str "aes256-ctr") (str "bcrypt") (Some 10)].
Definition ex_retained : heap := Eval vm_compute in run toy_prims ex_x ex_gen ex_retained_program [].
Lemma ex_retained_files m v : list_at (ex_at ex_retained (Mutate 10 (ex_salt 4)) 20 m) 13 = Some v -> exists b',
  list_pack_bytes toy_prims ex_env v (Some (str "pw")) None true true = ([], Ok b') /\ snd (list_from_bytes toy_prims ex_env b' (Some (str "pw"))) <> Err ValueError.
Proof.
  intros E. exists (ex_file (ex_at ex_retained (Mutate 10 (ex_salt 4)) 20 m) 13 (Some (str "pw")) true). unfold ex_file. rewrite E. revert E.
  destruct (ex_at_cases ex_retained (Mutate 10 (ex_salt 4)) 20 m) as [H|H]; rewrite H; clear H.
  - intros E. vm_compute in E. injection E as <-. split; [vm_compute; reflexivity|vm_compute; discriminate].
  - intros E. vm_compute in E. injection E as <-. split; [vm_compute; reflexivity|vm_compute; discriminate].
Qed.
(** Options that are retained and are changed between being written and being used: the file cannot
    be read with the passphrase it was packed with. *)
Theorem C93_readable_refuted : exists p x gen h c n e r v pw b,
  reachable p x gen h /\ list_at h r = Some v /\
  let at_time t := run p x gen (firstn (if t <? n then 0 else 1) [c]) h in
  snd (t_pack p at_time e r (Some pw) None true true 0) = ([], Ok b) /\
  snd (list_from_bytes p e b (Some pw)) = Err ValueError /\
  forall m v, list_at (at_time m) r = Some v -> exists b',
    list_pack_bytes p e v (Some pw) None true true = ([], Ok b') /\ snd (list_from_bytes p e b' (Some pw)) <> Err ValueError.
Proof.
  set (v0 := match list_at ex_retained 13 with Some v => v | None => new_list [] end).
  exists toy_prims, ex_x, ex_gen, ex_retained, (Mutate 10 (ex_salt 4)), 20, ex_env, 13, v0, (str "pw"),
    (match snd (snd (t_pack toy_prims (ex_at ex_retained (Mutate 10 (ex_salt 4)) 20) ex_env 13 (Some (str "pw")) None true true 0)) with Ok b => b | Err _ => [] end).
  split; [exists ex_retained_program; vm_compute; reflexivity|]. split; [vm_compute; reflexivity|]. intros at_time.
  split; [vm_compute; reflexivity|]. split; [vm_compute; reflexivity|].
  intros m v E. apply (ex_retained_files m v E).
Qed.

(** While the list of one Ed25519 pair is packed, another thread gives the RSA key another comment,
    appends its pair to the list and clears a copy of the list. Depending on when it runs, the
    file has one pair or two. *)
Definition ex_comment : dict pyval := [(str "comment", VStr (str "us"))].
Definition ex_others : list command := [Mutate 17 ex_comment; EditList 23 (Append (14, 19)); CopyList 23; EditList 25 Clear].
Definition ex_done (n t : nat) : nat := t - n.
Example C93_example :
  reachable toy_prims ex_x ex_gen ex_threads /\ none_disturbing toy_prims ex_x ex_gen 23 ex_threads ex_others /\
  (exists v, list_at ex_threads 23 = Some v /\ in_range (length (l_pairs v)) None /\ in_range (length (l_pairs v)) (Some [0%Z; 0%Z])) /\
  schedule (ex_done 3) /\ ex_done 3 0 = 0 /\
  (forall n, In n [3; 9] ->
    let '(last, (l, o)) := t_pack toy_prims (fun t => run toy_prims ex_x ex_gen (firstn (ex_done n t) ex_others) ex_threads) ex_env 23 None None true false 0 in
    l = [] /\ match o with Ok b => match snd (list_from_bytes toy_prims ex_env b None) with Ok v => length (l_pairs v) = (if n =? 3 then 2 else 1) | Err _ => False end | Err _ => False end).
Proof.
  split; [exists ex_threads_program; vm_compute; reflexivity|]. split.
  { split; [|split; [exact I|split; [exact I|split; [|exact I]]]].
    - vm_compute. split; [discriminate|]. split; [discriminate|]. intros refs a b w [= <-] [[= <- <-]|[]]. destruct w; split; discriminate.
    - vm_compute. discriminate. }
  split; [eexists; split; [vm_compute; reflexivity|]; split; [discriminate|]; intros l i [= <-] [<-|[<-|[]]]; vm_compute; split; congruence|].
  split; [intros t; unfold ex_done; lia|]. split; [reflexivity|]. intros n [<-|[<-|[]]]; vm_compute; auto.
Qed.

Print Assumptions C93_undisturbed.
Print Assumptions C93_appending.
Print Assumptions C93_other_threads.
Print Assumptions C93_values_of_the_time_of_the_call.
Print Assumptions C93_one_moment_refuted.
Print Assumptions C93_readable_refuted.
