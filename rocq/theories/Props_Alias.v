(** Copies of keys and lists, shared dictionaries, and what a change reaches: C98. *)
From Verif Require Import PyBase Classes Key Crypto PrivateKeyList UserList Convert Generate Heap SpecHeap Alias SpecAlias ProofBase ProofHeap.
From Verif Require Import Props_Crypto Props_List Props_Generate Props_Heap.
From Coq Require Import Lia.
Open Scope nat_scope.

(** ** Lemmas *)
Notation sound := (good_in false).
(** The same kind of object, perhaps with other references. *)
Definition alike (o o' : object) : Prop :=
  match o, o' with HKey _, HKey _ => True | HList l, HList l' => lo_data l = lo_data l' | _, _ => False end.
Lemma store_sorts h a o o' r : nth_error h a = Some o -> alike o o' ->
  (is_dict h r -> is_dict (store a o' h) r) /\ (is_keyo h r -> is_keyo (store a o' h) r) /\ (is_seq h r -> is_seq (store a o' h) r).
Proof.
  intros E A. unfold is_dict, is_keyo, is_seq, store. destruct (Nat.eq_dec a r) as [->|N].
  - rewrite store_same by (eapply nth_lt; exact E). rewrite E. destruct o, o'; try contradiction; repeat split; intros (u & U); try discriminate; eauto.
  - rewrite store_other by exact N. auto.
Qed.
Lemma store_ok h a o o' u : nth_error h a = Some o -> alike o o' -> ok_object h u -> ok_object (store a o' h) u.
Proof.
  intros E A. pose proof (fun r => store_sorts h a o o' r E A) as S. destruct u as [d|ko|q|l]; cbn; [trivial| | |].
  - intros (X1 & X2 & X3 & X4). repeat split; apply S; assumption.
  - intros H u v I. destruct (H u v I). split; apply S; assumption.
  - intros (X1 & X2 & X3 & X4). split; [apply S; exact X1|]. repeat split; intros r R; apply S; auto.
Qed.
Lemma sound_assign h a o o' : sound h -> nth_error h a = Some o -> alike o o' -> ok_object h o' -> sound (store a o' h).
Proof.
  intros G E A K. split.
  - unfold store. rewrite (store_owned (strict := false) a o o'); [apply G|exact E|]. destruct o, o'; try contradiction; cbn; [reflexivity|].
    cbn in A. rewrite A. reflexivity.
  - intros r u U. eapply store_ok; [exact E|exact A|]. unfold store in U. destruct (Nat.eq_dec a r) as [->|N].
    + rewrite store_same in U by (eapply nth_lt; exact E). injection U as <-. exact K.
    + rewrite store_other in U by exact N. exact (proj2 G _ _ U).
Qed.

Section Histories.
Variable p : prims.
Variable x : ext.
Variable gen : request -> res obj.
Notation step := (step p x gen).
Notation astep := (astep p x gen).
Notation arun := (arun p x gen).
Notation areachable := (areachable p x gen).

(** What a command does to the heap. *)
Lemma astep_ok c h : sound h -> let h' := fst (astep c h) in sound h' /\
  match c with
  | Plain (Mutate r d) => h' = h \/ exists d0, nth_error h r = Some (HDict d0) /\ h' = store r (HDict d) h
  | Plain (EditList r _) => h' = h \/ exists lo q q', nth_error h r = Some (HList lo) /\ nth_error h (lo_data lo) = Some (HSeq q) /\
                                 h' = store (lo_data lo) (HSeq q') h
  | Plain _ | CopyKey _ => grown h h'
  | Assign a w s => h' = h \/ exists k, nth_error h a = Some (HKey k) /\ w <> InParams /\ h' = store a (HKey (set_part w s k)) h
  | AssignParams a b => h' = h \/ exists k k', nth_error h a = Some (HKey k) /\ nth_error h b = Some (HKey k') /\
                                   h' = store a (HKey (set_params (ko_pcls k') (ko_params k') k)) h
  | AssignHeader l s => h' = h \/ exists lo, nth_error h l = Some (HList lo) /\ h' = store l (HList (set_header s lo)) h
  | AssignOptions l s => h' = h \/ exists lo, nth_error h l = Some (HList lo) /\ h' = store l (HList (set_options s lo)) h
  end.
Proof.
  intros G. destruct c as [c|r|a w s|a b|l s|l s]; cbn [Alias.astep]; cbn zeta.
  - pose proof (step_ok p x gen c h G) as S. destruct c; exact S.
  - destruct (nth_error h r) as [[|k| |]|] eqn:E; try (split; [exact G|apply grown_refl]). cbn [fst]. split; [|eexists; reflexivity].
    apply good_app; [exact G|constructor|contradiction|]. intros o [<-|[]]. eapply later_ok; [apply later_app|]. exact (proj2 G _ _ E).
  - destruct (nth_error h a) as [[|k| |]|] eqn:E; try solve [cbn; auto]. unfold dict_at. destruct (nth_error h s) as [[d| | |]|] eqn:D; try solve [cbn; auto].
    pose proof (proj2 G _ _ E) as (K1 & K2 & K3 & K4). assert (is_dict h s) as Ds by (eexists; exact D).
    destruct w; cbn [fst]; first [split; [eapply sound_assign; [exact G|exact E|exact I|cbn; auto]|right; exists k; split; [reflexivity|split; [discriminate|reflexivity]]]
                                 |split; [exact G|left; reflexivity]].
  - destruct (nth_error h a) as [[|k| |]|] eqn:E; try solve [cbn; auto]. destruct (nth_error h b) as [[|k'| |]|] eqn:D; try solve [cbn; auto].
    pose proof (proj2 G _ _ E) as (K1 & K2 & K3 & K4). pose proof (proj2 G _ _ D) as (J1 & J2 & J3 & J4).
    cbn [fst]. split; [eapply sound_assign; [exact G|exact E|exact I|cbn; auto]|]. right. exists k, k'. auto.
  - destruct (nth_error h l) as [[| | |lo]|] eqn:E; try solve [cbn; auto]. destruct (attribute_at h s) as [d|] eqn:D; [|cbn; auto].
    pose proof (proj2 G _ _ E) as (K1 & K2 & K3 & K4). assert (attr_ok h s) as Ds by (apply attribute_seen; eauto).
    cbn [fst]. split; [eapply sound_assign; [exact G|exact E|reflexivity|cbn; auto]|]. right. exists lo. auto.
  - destruct (nth_error h l) as [[| | |lo]|] eqn:E; try solve [cbn; auto]. destruct (attribute_at h s) as [d|] eqn:D; [|cbn; auto].
    pose proof (proj2 G _ _ E) as (K1 & K2 & K3 & K4). assert (attr_ok h s) as Ds by (apply attribute_seen; eauto).
    cbn [fst]. split; [eapply sound_assign; [exact G|exact E|reflexivity|cbn; auto]|]. right. exists lo. auto.
Qed.
Lemma astep_sound c h : sound h -> sound (fst (astep c h)).
Proof. intros G. apply (astep_ok c h G). Qed.
Lemma arun_sound cs h : sound h -> sound (arun cs h).
Proof. revert h. induction cs as [|c cs IH]; intros h G; cbn; [exact G|]. apply IH. apply astep_sound. exact G. Qed.
Lemma areachable_sound h : areachable h -> sound h.
Proof. intros (cs & ->). apply arun_sound. apply empty_good. Qed.
Lemma sound_part h a w s : sound h -> part_ref h a w = Some s -> is_dict h s.
Proof. intros G P. apply (part_dict _ _ _ _ G P). Qed.
Lemma part_of_key h a w k : key_at h a = Some k -> exists s, part_ref h a w = Some s /\ dict_at h s = Some (part_of w k).
Proof.
  unfold key_at, part_ref. destruct (nth_error h a) as [[|ko| |]|]; try discriminate.
  destruct (dict_at h (ko_header ko)) eqn:D1; [|discriminate]. destruct (dict_at h (ko_params ko)) eqn:D2; [|discriminate].
  destruct (dict_at h (ko_footer ko)) eqn:D3; [|discriminate]. destruct (dict_at h (ko_clear ko)) eqn:D4; [|discriminate].
  intros [= <-]. destruct w; cbn; eauto.
Qed.

(** ** Changes and the references they are seen through *)
Theorem C98_change_seen_through_references h s d0 d h' an b k :
  areachable h -> dict_at h s = Some d0 -> astep (Plain (Mutate s d)) h = (h', an) -> key_at h b = Some k ->
  key_at h' b = Some (with_parts (is_part h b s) d k) /\ forall w, part_ref h' b w = part_ref h b w.
Proof.
  intros R D S K. cbn in S. rewrite D in S. injection S as <- <-.
  assert (exists d1, nth_error h s = Some (HDict d1)) as (d1 & E).
  { unfold dict_at in D. destruct (nth_error h s) as [[d1| | |]|]; try discriminate. eauto. }
  assert (forall r, dict_at (store s (HDict d) h) r = if r =? s then Some d else dict_at h r) as DS.
  { intros r. destruct (r =? s) eqn:Q.
    - apply Nat.eqb_eq in Q as ->. unfold dict_at, store. rewrite store_same by (eapply nth_lt; exact E). reflexivity.
    - apply Nat.eqb_neq in Q. apply dict_at_store. auto. }
  unfold key_at in K. destruct (nth_error h b) as [[|ko| |]|] eqn:N; try discriminate.
  assert (nth_error (store s (HDict d) h) b = Some (HKey ko)) as N' by (unfold store; rewrite store_other by congruence; exact N).
  split; [|intros w; unfold part_ref; rewrite N, N'; reflexivity].
  unfold key_at. rewrite N', !DS. unfold with_parts, is_part, part_ref. rewrite N.
  destruct (dict_at h (ko_header ko)) eqn:D1; [|discriminate]. destruct (dict_at h (ko_params ko)) eqn:D2; [|discriminate].
  destruct (dict_at h (ko_footer ko)) eqn:D3; [|discriminate]. destruct (dict_at h (ko_clear ko)) eqn:D4; [|discriminate].
  injection K as <-. cbn. destruct (ko_header ko =? s), (ko_params ko =? s), (ko_footer ko =? s), (ko_clear ko =? s); reflexivity.
Qed.

(** ** copy.copy of a key *)
Theorem C98_shallow_copy h r k :
  areachable h -> key_at h r = Some k ->
  exists h' r', astep (CopyKey r) h = (h', Ok (Ref r')) /\ length h <= r' /\
    key_at h' r' = Some k /\ (forall w, part_ref h' r' w = part_ref h r w) /\ all_the_same h h'.
Proof.
  intros R K. apply areachable_sound in R as G. cbn. destruct (nth_error h r) as [[|ko| |]|] eqn:N; try (unfold key_at in K; rewrite N in K; discriminate).
  exists (h ++ [HKey ko]), (length h). split; [reflexivity|]. split; [lia|].
  assert (nth_error (h ++ [HKey ko]) (length h) = Some (HKey ko)) as N' by (rewrite nth_new0; reflexivity).
  assert (key_at (h ++ [HKey ko]) r = Some k) as K' by (rewrite <- K; eapply key_at_app; [exact G|eapply nth_lt; exact N]).
  assert (nth_error (h ++ [HKey ko]) r = Some (HKey ko)) as N1 by (rewrite nth_app_lt; [exact N|eapply nth_lt; exact N]).
  split; [|split].
  - rewrite <- K'. unfold key_at. rewrite N1, N'. reflexivity.
  - intros w. unfold part_ref. rewrite N', N. reflexivity.
  - eapply app_same. exact G.
Qed.
Lemma keeps_key c h r k : sound h -> ~ assigns_to r c -> nth_error h r = Some (HKey k) -> nth_error (fst (astep c h)) r = Some (HKey k).
Proof.
  intros G A N. pose proof (proj2 (astep_ok c h G)) as S. destruct c as [c|r0|a w s|a b|l s|l s].
  - assert (later h (fst (astep (Plain c) h))) as L by exact (step_later p x gen c h G). eapply later_key; eassumption.
  - eapply grown_nth; eassumption.
  - cbn in A. destruct S as [->|(k0 & E & _ & ->)]; [exact N|]. unfold store. rewrite store_other by congruence. exact N.
  - cbn in A. destruct S as [->|(k0 & k1 & E & _ & ->)]; [exact N|]. unfold store. rewrite store_other by congruence. exact N.
  - destruct S as [->|(lo & E & ->)]; [exact N|]. unfold store. rewrite store_other by congruence. exact N.
  - destruct S as [->|(lo & E & ->)]; [exact N|]. unfold store. rewrite store_other by congruence. exact N.
Qed.
(** After copy.copy the key and its copy show the same in every later state, until an attribute
    of one of them is assigned. *)
Theorem C98_shallow_copy_follows h r k h' r' cs :
  areachable h -> key_at h r = Some k -> astep (CopyKey r) h = (h', Ok (Ref r')) ->
  Forall (fun c => ~ assigns_to r c /\ ~ assigns_to r' c) cs ->
  key_at (arun cs h') r' = key_at (arun cs h') r.
Proof.
  intros R K S F. apply areachable_sound in R as G.
  assert (exists ko, nth_error h' r = Some (HKey ko) /\ nth_error h' r' = Some (HKey ko)) as (ko & N & N').
  { cbn in S. destruct (nth_error h r) as [[|ko| |]|] eqn:N; try discriminate. injection S as <- <-. exists ko.
    split; [rewrite nth_app_lt; [exact N|eapply nth_lt; exact N]|rewrite nth_new0; reflexivity]. }
  assert (sound h') as G' by (pose proof (astep_sound (CopyKey r) h G) as Q; rewrite S in Q; exact Q).
  clear K S R G h. revert h' N N' G'. induction F as [|c cs (A & B) _ IH]; intros h N N' G; cbn.
  - unfold key_at. rewrite N, N'. reflexivity.
  - apply IH; [apply keeps_key| apply keeps_key|apply astep_sound]; assumption.
Qed.

(** ** Assignment to an attribute of a key *)
Theorem C98_assignment h a w s d k h' an :
  areachable h -> w <> InParams -> key_at h a = Some k -> dict_at h s = Some d -> astep (Assign a w s) h = (h', an) ->
  an = Ok (Ref a) /\ key_at h' a = Some (with_part w d k) /\ part_ref h' a w = Some s /\
  (forall b w', b <> a \/ w' <> w -> part_ref h' b w' = part_ref h b w') /\
  (forall r, dict_at h' r = dict_at h r) /\ (forall r, refs_at h' r = refs_at h r) /\
  (forall b, b <> a -> key_at h' b = key_at h b).
Proof.
  intros R NW K D S. apply areachable_sound in R as G. cbn in S. rewrite D in S.
  destruct (nth_error h a) as [[|ko| |]|] eqn:N; try (unfold key_at in K; rewrite N in K; discriminate).
  assert (h' = store a (HKey (set_part w s ko)) h /\ an = Ok (Ref a)) as (-> & ->) by (destruct w; try congruence; injection S; auto).
  clear S. set (h' := store _ _ _).
  assert (nth_error h' a = Some (HKey (set_part w s ko))) as N' by (unfold h', store; apply store_same; eapply nth_lt; exact N).
  assert (forall b, b <> a -> nth_error h' b = nth_error h b) as O by (intros b Q; unfold h', store; apply store_other; auto).
  assert (forall r, dict_at h' r = dict_at h r) as DD.
  { intros r. unfold dict_at. destruct (Nat.eq_dec r a) as [->|Q]; [rewrite N, N'; reflexivity|rewrite O by exact Q; reflexivity]. }
  split; [reflexivity|]. split; [|split; [|split; [|split; [exact DD|split]]]].
  - unfold key_at in *. rewrite N'. rewrite N in K. rewrite !DD.
    destruct (dict_at h (ko_header ko)) eqn:D1; [|discriminate]. destruct (dict_at h (ko_params ko)) eqn:D2; [|discriminate].
    destruct (dict_at h (ko_footer ko)) eqn:D3; [|discriminate]. destruct (dict_at h (ko_clear ko)) eqn:D4; [|discriminate].
    injection K as <-. destruct w; cbn; try congruence; rewrite D, ?D1, ?D2, ?D3, ?D4; reflexivity.
  - unfold part_ref. rewrite N'. destruct w; reflexivity.
  - intros b w' Q. unfold part_ref. destruct (Nat.eq_dec b a) as [->|Q']; [|rewrite O by exact Q'; reflexivity].
    rewrite N, N'. destruct Q as [Q|Q]; [congruence|]. destruct w, w'; try congruence; reflexivity.
  - intros r. unfold refs_at. destruct (Nat.eq_dec r a) as [->|Q]; [rewrite N, N'; reflexivity|]. rewrite O by exact Q.
    destruct (nth_error h r) as [[| | |lo]|] eqn:L; try reflexivity. destruct (proj2 G _ _ L) as ((q & E) & _). rewrite O by congruence. reflexivity.
  - intros b Q. unfold key_at. rewrite O by exact Q. destruct (nth_error h b) as [[|kb| |]|]; try reflexivity. rewrite !DD. reflexivity.
Qed.
Theorem C98_assigned_params h a b k k' h' an :
  areachable h -> key_at h a = Some k -> key_at h b = Some k' -> astep (AssignParams a b) h = (h', an) ->
  an = Ok (Ref a) /\ key_at h' a = Some (mkkey (k_kind k) (k_header k) (k_pcls k') (k_params k') (k_footer k) (k_clear k)) /\
  part_ref h' a InParams = part_ref h' b InParams /\ (forall r, dict_at h' r = dict_at h r) /\
  (forall c, c <> a -> key_at h' c = key_at h c).
Proof.
  intros R K K' S. cbn in S. unfold key_at in K, K'.
  destruct (nth_error h a) as [[|ka| |]|] eqn:N; try discriminate. destruct (nth_error h b) as [[|kb| |]|] eqn:M; try discriminate.
  injection S as <- <-. set (h' := store _ _ _).
  assert (nth_error h' a = Some (HKey (set_params (ko_pcls kb) (ko_params kb) ka))) as N' by (unfold h', store; apply store_same; eapply nth_lt; exact N).
  assert (forall c, c <> a -> nth_error h' c = nth_error h c) as O by (intros c Q; unfold h', store; apply store_other; auto).
  assert (forall r, dict_at h' r = dict_at h r) as DD.
  { intros r. unfold dict_at. destruct (Nat.eq_dec r a) as [->|Q]; [rewrite N, N'; reflexivity|rewrite O by exact Q; reflexivity]. }
  split; [reflexivity|]. split; [|split; [|split; [exact DD|]]].
  - unfold key_at. rewrite N', !DD. cbn.
    destruct (dict_at h (ko_header ka)) eqn:D1; [|discriminate]. destruct (dict_at h (ko_params ka)) eqn:D2; [|discriminate].
    destruct (dict_at h (ko_footer ka)) eqn:D3; [|discriminate]. destruct (dict_at h (ko_clear ka)) eqn:D4; [|discriminate].
    destruct (dict_at h (ko_header kb)) eqn:E1; [|discriminate]. destruct (dict_at h (ko_params kb)) eqn:E2; [|discriminate].
    destruct (dict_at h (ko_footer kb)) eqn:E3; [|discriminate]. destruct (dict_at h (ko_clear kb)) eqn:E4; [|discriminate].
    injection K as <-. injection K' as <-. reflexivity.
  - unfold part_ref. rewrite N'. destruct (Nat.eq_dec b a) as [->|Q]; [rewrite N'; reflexivity|]. rewrite O, M by exact Q. reflexivity.
  - intros c Q. unfold key_at. rewrite O by exact Q. destruct (nth_error h c) as [[|kc| |]|]; try reflexivity. rewrite !DD. reflexivity.
Qed.
Lemma keeps_part c h r w s : sound h -> ~ assigns_part r w c -> part_ref h r w = Some s -> part_ref (fst (astep c h)) r w = Some s.
Proof.
  intros G A P. unfold part_ref in P. destruct (nth_error h r) as [[|k| |]|] eqn:N; try discriminate.
  assert (~ assigns_to r c -> part_ref (fst (astep c h)) r w = Some s) as Case1.
  { intros B. unfold part_ref. rewrite (keeps_key c h r k G B N). exact P. }
  pose proof (proj2 (astep_ok c h G)) as S. destruct c as [c|r0|a w0 s0|a b|l s0|l s0]; try (apply Case1; exact (fun z => z)).
  - destruct (Nat.eq_dec a r) as [->|Q]; [|apply Case1; exact Q]. cbn in A.
    destruct S as [->|(k0 & E & _ & ->)]; [unfold part_ref; rewrite N; exact P|]. rewrite N in E. injection E as <-.
    unfold part_ref, store. rewrite store_same by (eapply nth_lt; exact N). rewrite <- P. destruct w, w0; try reflexivity; destruct A; auto.
  - destruct (Nat.eq_dec a r) as [->|Q]; [|apply Case1; exact Q]. cbn in A.
    destruct S as [->|(k0 & k1 & E & _ & ->)]; [unfold part_ref; rewrite N; exact P|]. rewrite N in E. injection E as <-.
    unfold part_ref, store. rewrite store_same by (eapply nth_lt; exact N). rewrite <- P. destruct w; try reflexivity. destruct A; auto.
Qed.
(** Two keys that have a dictionary in common, however that came about, show the same there in
    every later state, until that attribute of one of them is assigned. *)
Theorem C98_shared_parts_follow h a w b w' s cs :
  areachable h -> part_ref h a w = Some s -> part_ref h b w' = Some s ->
  Forall (fun c => ~ assigns_part a w c /\ ~ assigns_part b w' c) cs ->
  exists ka kb, key_at (arun cs h) a = Some ka /\ key_at (arun cs h) b = Some kb /\ part_of w ka = part_of w' kb.
Proof.
  intros R P P' F. apply areachable_sound in R as G. clear R. revert h P P' G. induction F as [|c cs (A & B) _ IH]; intros h P P' G; cbn.
  - assert (forall r u, part_ref h r u = Some s -> exists k, key_at h r = Some k) as Q.
    { intros r u. unfold part_ref. destruct (nth_error h r) as [[|k| |]|] eqn:N; try discriminate. intros _. exact (key_seen _ _ _ G N). }
    destruct (Q _ _ P) as (ka & Ka), (Q _ _ P') as (kb & Kb). exists ka, kb. split; [exact Ka|]. split; [exact Kb|].
    destruct (part_of_key h a w ka Ka) as (s1 & S1 & D1), (part_of_key h b w' kb Kb) as (s2 & S2 & D2). congruence.
  - apply IH; [apply keeps_part|apply keeps_part|apply astep_sound]; assumption.
Qed.

(** ** Assignment to an attribute of a list *)
Lemma store_list_dict h l lo lo' r : nth_error h l = Some (HList lo) -> dict_at (store l (HList lo') h) r = dict_at h r.
Proof.
  intros N. destruct (Nat.eq_dec l r) as [->|Q]; [|apply dict_at_store; exact Q].
  unfold dict_at, store. rewrite store_same by (eapply nth_lt; exact N). rewrite N. reflexivity.
Qed.
Lemma store_list_key h l lo lo' r : nth_error h l = Some (HList lo) -> key_at (store l (HList lo') h) r = key_at h r.
Proof.
  intros N. unfold key_at. destruct (Nat.eq_dec l r) as [->|Q].
  - unfold store at 1. rewrite store_same by (eapply nth_lt; exact N). rewrite N. reflexivity.
  - unfold store at 1. rewrite store_other by exact Q. destruct (nth_error h r) as [[|k| |]|]; try reflexivity.
    rewrite !(store_list_dict h l lo lo') by exact N. reflexivity.
Qed.
Lemma store_list_refs h l lo lo' r : sound h -> nth_error h l = Some (HList lo) -> lo_data lo' = lo_data lo -> refs_at (store l (HList lo') h) r = refs_at h r.
Proof.
  intros G N D. unfold refs_at. destruct (Nat.eq_dec l r) as [->|Q].
  - unfold store at 1. rewrite store_same by (eapply nth_lt; exact N). rewrite N, D. destruct (proj2 G _ _ N) as ((q & E) & _).
    unfold store. rewrite store_other by congruence. reflexivity.
  - unfold store at 1. rewrite store_other by exact Q. destruct (nth_error h r) as [[| | |lr]|] eqn:M; try reflexivity.
    destruct (proj2 G _ _ M) as ((q & E) & _). unfold store. rewrite store_other by congruence. reflexivity.
Qed.
Lemma store_list_at h l lo lo' r : sound h -> nth_error h l = Some (HList lo) -> lo_data lo' = lo_data lo -> r <> l ->
  list_at (store l (HList lo') h) r = list_at h r.
Proof.
  intros G N D Q. unfold list_at. rewrite (store_list_refs h l lo lo' r G N D). unfold store at 1. rewrite store_other by auto.
  destruct (nth_error h r) as [[| | |lr]|]; try reflexivity. destruct (refs_at h r) as [q|]; [|reflexivity].
  rewrite (pairs_at_eq h (store l (HList lo') h) q) by (intros; split; eapply store_list_key; exact N).
  rewrite !(attribute_at_eq h (store l (HList lo') h)) by (intros; eapply store_list_dict; exact N). reflexivity.
Qed.
(** list.header = d: the list has this very dictionary from then on; nothing else changes. *)
Theorem C98_list_assignment h l s d v h' an :
  areachable h -> list_at h l = Some v -> attribute_at h s = Some d ->
  (astep (AssignHeader l s) h = (h', an) ->
     list_at h' l = Some (with_header d v) /\ header_ref h' l = s /\ options_ref h' l = options_ref h l) /\
  (astep (AssignOptions l s) h = (h', an) ->
     list_at h' l = Some (with_options d v) /\ options_ref h' l = s /\ header_ref h' l = header_ref h l) /\
  (astep (AssignHeader l s) h = (h', an) \/ astep (AssignOptions l s) h = (h', an) ->
     an = Ok (Ref l) /\ (forall r, dict_at h' r = dict_at h r /\ key_at h' r = key_at h r /\ refs_at h' r = refs_at h r) /\
     forall r, r <> l -> list_at h' r = list_at h r).
Proof.
  intros R V A. apply areachable_sound in R as G. destruct (list_pairs_at _ _ _ V) as (lo & q & N & Q & P).
  assert (forall lo', lo_data lo' = lo_data lo -> nth_error (store l (HList lo') h) l = Some (HList lo') /\
            refs_at (store l (HList lo') h) l = Some q /\ pairs_at (store l (HList lo') h) q = Some (l_pairs v) /\
            forall o, attribute_at (store l (HList lo') h) o = attribute_at h o) as F.
  { intros lo' D. split; [unfold store; apply store_same; eapply nth_lt; exact N|]. split; [rewrite (store_list_refs h l lo lo' l G N D); exact Q|].
    split; [rewrite <- P; apply pairs_at_eq; intros; split; eapply store_list_key; exact N|]. intros o. apply attribute_at_eq. intros. eapply store_list_dict. exact N. }
  unfold list_at in V. rewrite N, Q, P in V.
  destruct (attribute_at h (lo_header lo)) as [hd|] eqn:A1; [|discriminate]. destruct (attribute_at h (lo_kdf_options lo)) as [ko|] eqn:A2; [|discriminate].
  destruct (attribute_at h (lo_decipher_header lo)) as [dh|] eqn:A3; [|discriminate].
  cbn [Alias.astep]. rewrite N, A. split; [|split].
  - intros [= <- <-]. destruct (F (set_header s lo) eq_refl) as (N' & R' & P' & At). unfold list_at, header_ref, options_ref. rewrite N', R', P', !At, N. cbn.
    rewrite A, A2, A3. injection V as <-. auto.
  - intros [= <- <-]. destruct (F (set_options s lo) eq_refl) as (N' & R' & P' & At). unfold list_at, header_ref, options_ref. rewrite N', R', P', !At, N. cbn.
    rewrite A, A1, A3. injection V as <-. auto.
  - intros S.
    assert (exists lo', lo_data lo' = lo_data lo /\ h' = store l (HList lo') h /\ an = Ok (Ref l)) as (lo' & D & -> & ->).
    { destruct S as [S|S]; injection S as <- <-; eexists; (split; [|split; reflexivity]); reflexivity. }
    split; [reflexivity|]. split; [|intros r; apply (store_list_at h l lo lo' r G N D)].
    intros r. split; [apply (store_list_dict h l lo lo' r N)|]. split; [apply (store_list_key h l lo lo' r N)|apply (store_list_refs h l lo lo' r G N D)].
Qed.
(** The header that a list was given is looked at through that reference until the next
    assignment: whatever happens in between, what the list is written with is what the
    dictionary holds then. *)
Theorem C98_header_follows h l s cs :
  areachable h -> header_ref h l = Some s -> Forall (fun c => ~ assigns_header l c) cs ->
  exists v d, list_at (arun cs h) l = Some v /\ dict_at (arun cs h) s = Some d /\ l_header v = Some d.
Proof.
  intros R H F. apply areachable_sound in R as G. clear R. revert h H G. induction F as [|c cs A _ IH]; intros h H G; cbn.
  - unfold header_ref in H. destruct (nth_error h l) as [[| | |lo]|] eqn:N; try discriminate.
    destruct (list_seen h l lo G N) as (q & ps & Q & _ & P & v & V & _). exists v. destruct (proj2 G _ _ N) as (_ & D & _).
    destruct (proj1 (dict_at_dict h s) (D s H)) as (d & E). exists d. split; [exact V|]. split; [exact E|].
    unfold list_at in V. rewrite N, Q, P, H in V. cbn in V. rewrite E in V.
    destruct (attribute_at h (lo_kdf_options lo)); [|discriminate]. destruct (attribute_at h (lo_decipher_header lo)); [|discriminate]. injection V as <-. reflexivity.
  - apply IH; [|apply astep_sound; exact G]. unfold header_ref in *. destruct (nth_error h l) as [[| | |lo]|] eqn:N; try discriminate.
    pose proof (proj2 (astep_ok c h G)) as S. destruct c as [c|r0|a w s0|a b|l0 s0|l0 s0].
    + assert (later h (fst (astep (Plain c) h))) as L by exact (step_later p x gen c h G). rewrite (later_list _ _ _ _ L N). exact H.
    + rewrite (grown_nth _ _ _ _ S N). exact H.
    + destruct S as [->|(k0 & E & _ & ->)]; [rewrite N; exact H|]. unfold store. rewrite store_other by congruence. rewrite N. exact H.
    + destruct S as [->|(k0 & k1 & E & _ & ->)]; [rewrite N; exact H|]. unfold store. rewrite store_other by congruence. rewrite N. exact H.
    + cbn in A. destruct S as [->|(lo0 & E & ->)]; [rewrite N; exact H|]. unfold store. rewrite store_other by congruence. rewrite N. exact H.
    + destruct S as [->|(lo0 & E & ->)]; [rewrite N; exact H|]. destruct (Nat.eq_dec l0 l) as [->|Q].
      * rewrite N in E. injection E as <-. unfold store. rewrite store_same by (eapply nth_lt; exact N). exact H.
      * unfold store. rewrite store_other by exact Q. rewrite N. exact H.
Qed.

(** ** What a change does not reach *)
(** A set of objects that only refer to each other. *)
Definition closed (h : heap) (S : loc -> Prop) : Prop :=
  forall r, S r ->
    (forall w s, part_ref h r w = Some s -> S s) /\
    (forall q a b, refs_at h r = Some q -> In (a, b) q -> S a /\ S b) /\
    (forall s, header_ref h r = Some s \/ options_ref h r = Some s \/ decipher_ref h r = Some s -> S s).
Definition object_kept (o o' : option object) : Prop :=
  match o with
  | Some (HDict d) => o' = o
  | Some (HKey k) => o' = o
  | Some (HList l) => o' = o
  | Some (HSeq _) => exists q, o' = Some (HSeq q)
  | None => False
  end.
Definition frozen (S : loc -> Prop) (h h' : heap) : Prop :=
  forall r, S r -> object_kept (nth_error h r) (nth_error h' r) /\ refs_at h' r = refs_at h r.
Lemma object_kept_refl h r : r < length h -> object_kept (nth_error h r) (nth_error h r).
Proof. intros L. apply nth_error_Some in L. destruct (nth_error h r) as [[| | |]|]; cbn; eauto. Qed.
Lemma object_kept_trans a b c : object_kept a b -> object_kept b c -> object_kept a c.
Proof. destruct a as [[| | |]|]; cbn; intros A; [subst|subst|destruct A as (q & ->)|subst|contradiction]; auto. Qed.
Lemma object_kept_lt h r o : object_kept o (nth_error h r) -> r < length h.
Proof. intros K. apply nth_error_Some. destruct o as [[| | |]|]; cbn in K; try congruence; destruct K as (q & K); congruence. Qed.
Lemma frozen_step (S : loc -> Prop) c h : sound h -> (forall r, S r -> r < length h) -> (forall r, changes c r -> ~ S r) -> frozen S h (fst (astep c h)).
Proof.
  intros G L C r R. pose proof (L r R) as Lr. pose proof (proj2 (astep_ok c h G)) as St.
  assert (forall h', grown h h' -> object_kept (nth_error h r) (nth_error h' r) /\ refs_at h' r = refs_at h r) as Grow.
  { intros h' (n & ->). rewrite nth_app_lt by exact Lr. split; [apply object_kept_refl; exact Lr|eapply refs_at_app; [exact G|exact Lr]]. }
  pose proof (Grow h (grown_refl h)) as Same.
  assert (forall s o o', nth_error h s = Some o -> (forall q, o <> HSeq q) -> s <> r ->
            object_kept (nth_error h r) (nth_error (store s o' h) r) /\ refs_at (store s o' h) r = refs_at h r) as St1.
  { intros s o o' E NS N. unfold store. rewrite store_other by exact N. split; [apply object_kept_refl; exact Lr|].
    unfold refs_at. rewrite store_other by exact N. destruct (nth_error h r) as [[| | |lo]|] eqn:M; try reflexivity.
    destruct (proj2 G _ _ M) as ((q & Q) & _). rewrite store_other; [reflexivity|]. intros ->. rewrite Q in E. injection E as <-. exact (NS q eq_refl). }
  destruct c as [c|r0|a w s|a b|l s|l s].
  - destruct c as [d|s d|k rh rp rf rc|k b rc|k s|t cm kw|l ci kd op|e b pw|l e|l d|l|r0]; try (apply Grow; exact St).
    + destruct St as [->|(d0 & E & ->)]; [exact Same|]. apply (St1 s (HDict d0)); try discriminate; [exact E|].
      intros ->. exact (C r eq_refl R).
    + destruct St as [->|(lo & q & q' & E & D & ->)]; [exact Same|].
      assert (r <> l) as N by (intros ->; exact (C l eq_refl R)).
      destruct (refs_at_store _ _ _ _ q' G E D) as (_ & _ & O). split; [|apply O; exact N].
      destruct (Nat.eq_dec (lo_data lo) r) as [<-|N'].
      * unfold store. rewrite store_same by (eapply nth_lt; exact D). rewrite D. cbn. eauto.
      * unfold store. rewrite store_other by exact N'. apply object_kept_refl. exact Lr.
  - apply Grow. exact St.
  - destruct St as [->|(k0 & E & _ & ->)]; [exact Same|]. apply (St1 a (HKey k0)); try discriminate; [exact E|].
    intros ->. exact (C r eq_refl R).
  - destruct St as [->|(k0 & k1 & E & _ & ->)]; [exact Same|]. apply (St1 a (HKey k0)); try discriminate; [exact E|].
    intros ->. exact (C r eq_refl R).
  - destruct St as [->|(lo & E & ->)]; [exact Same|]. apply (St1 l (HList lo)); try discriminate; [exact E|].
    intros ->. exact (C r eq_refl R).
  - destruct St as [->|(lo & E & ->)]; [exact Same|]. apply (St1 l (HList lo)); try discriminate; [exact E|].
    intros ->. exact (C r eq_refl R).
Qed.
Lemma frozen_run (S : loc -> Prop) cs h : sound h -> (forall r, S r -> r < length h) -> Forall (fun c => forall r, changes c r -> ~ S r) cs ->
  frozen S h (arun cs h).
Proof.
  intros G L F. revert h G L. induction F as [|c cs C _ IH]; intros h G L; cbn.
  - intros r R. split; [apply object_kept_refl; auto|reflexivity].
  - pose proof (frozen_step S c h G L C) as A. assert (forall r, S r -> r < length (fst (astep c h))) as L'.
    { intros r R. eapply object_kept_lt. apply A. exact R. }
    pose proof (IH _ (astep_sound c h G) L') as B. intros r R. destruct (A r R) as (A1 & A2), (B r R) as (B1 & B2). split.
    + eapply object_kept_trans; eassumption.
    + congruence.
Qed.
Lemma frozen_sees (S : loc -> Prop) h h' : closed h S -> frozen S h h' -> forall r, S r -> same_at h r h' r.
Proof.
  intros C F.
  assert (forall r, S r -> dict_at h' r = dict_at h r) as D.
  { intros r R. destruct (F r R) as (K & _). unfold dict_at. destruct (nth_error h r) as [[| | |]|]; cbn in K; try (rewrite K; reflexivity); [|contradiction].
    destruct K as (q & ->). reflexivity. }
  assert (forall r, S r -> key_at h' r = key_at h r) as KA.
  { intros r R. destruct (F r R) as (K & _), (C r R) as (CP & _). unfold key_at, part_ref in *.
    destruct (nth_error h r) as [[|k| |]|]; cbn in K; try (rewrite K; try reflexivity); try contradiction.
    - rewrite !D; [reflexivity|apply (CP InClear)|apply (CP InFooter)|apply (CP InParams)|apply (CP InHeader)]; reflexivity.
    - destruct K as (q & ->). reflexivity. }
  intros r R. split; [apply D; exact R|]. split; [apply KA; exact R|].
  destruct (F r R) as (K & Q), (C r R) as (_ & CQ & CA). unfold header_ref, options_ref, decipher_ref in CA. unfold list_at. rewrite Q.
  destruct (nth_error h r) as [[| | |lo]|]; cbn in K; try (rewrite K; try reflexivity); try contradiction.
  - destruct K as (q & ->). reflexivity.
  - destruct (refs_at h r) as [q|]; [|reflexivity].
    rewrite (pairs_at_eq h h' q) by (intros u v I; destruct (CQ q u v eq_refl I); split; apply KA; assumption).
    rewrite (attribute_at_eq h h' (lo_header lo)), (attribute_at_eq h h' (lo_kdf_options lo)), (attribute_at_eq h h' (lo_decipher_header lo)); [reflexivity| | |];
      intros s E; apply D; apply CA; auto.
Qed.
Lemma reaches_closed h r : closed h (reaches h r).
Proof.
  intros a A. split; [|split].
  - intros w s P. eapply By_part; eassumption.
  - intros q u v Q I. split; eapply By_pair; eauto.
  - intros s P. eapply By_attribute; eassumption.
Qed.
Lemma closed_lt h r s : sound h -> r < length h -> reaches h r s -> s < length h.
Proof.
  intros G L H. induction H as [|a w s _ IH P|l q a b s _ IH Q I E|l s _ IH E]; [exact L| | |].
  - eapply dict_lt. eapply sound_part; eassumption.
  - destruct (refs_keys _ _ _ G Q a b I). destruct E as [-> | ->]; apply keyo_lt; assumption.
  - unfold header_ref, options_ref, decipher_ref in E. destruct (nth_error h l) as [[| | |lo]|] eqn:N; try (destruct E as [E|[E|E]]; discriminate).
    destruct (proj2 G _ _ N) as (_ & A & B & C). apply dict_lt. destruct E as [E|[E|E]]; auto.
Qed.
(** A program that changes nothing that can be reached from an object leaves what is seen there. *)
Theorem C98_unreached_changes h r cs :
  areachable h -> r < length h -> Forall (fun c => forall s, changes c s -> ~ reaches h r s) cs -> same_at h r (arun cs h) r.
Proof.
  intros R L F. apply areachable_sound in R as G. apply (frozen_sees (reaches h r)); [apply reaches_closed| |constructor].
  apply frozen_run; [exact G| |exact F]. intros s. apply closed_lt; assumption.
Qed.

(** ** copy.deepcopy *)
Lemma moved_at h r : nth_error (h ++ map (moved (length h)) h) (length h + r) = option_map (moved (length h)) (nth_error h r).
Proof. rewrite nth_new. apply nth_error_map. Qed.
Section Deep.
Variable h : heap.
Let n := length h.
Let h' := h ++ map (moved n) h.
Lemma deep_dict r : dict_at h' (n + r) = dict_at h r.
Proof. unfold dict_at, h', n. rewrite moved_at. destruct (nth_error h r) as [[| | |]|]; reflexivity. Qed.
Lemma deep_part r w : part_ref h' (n + r) w = option_map (Nat.add n) (part_ref h r w).
Proof. unfold part_ref, h', n. rewrite moved_at. destruct (nth_error h r) as [[| | |]|]; try reflexivity. destruct w; reflexivity. Qed.
Lemma deep_refs r : refs_at h' (n + r) = option_map (map (fun q => (n + fst q, n + snd q))) (refs_at h r).
Proof.
  unfold refs_at, h', n. rewrite moved_at. destruct (nth_error h r) as [[| | |lo]|]; try reflexivity. cbn. rewrite moved_at.
  destruct (nth_error h (lo_data lo)) as [[| | |]|]; reflexivity.
Qed.
Lemma deep_header r : header_ref h' (n + r) = option_map (Nat.add n) (header_ref h r).
Proof. unfold header_ref, h', n. rewrite moved_at. destruct (nth_error h r) as [[| | |]|]; reflexivity. Qed.
Lemma deep_options r : options_ref h' (n + r) = option_map (Nat.add n) (options_ref h r).
Proof. unfold options_ref, h', n. rewrite moved_at. destruct (nth_error h r) as [[| | |]|]; reflexivity. Qed.
Lemma deep_decipher r : decipher_ref h' (n + r) = option_map (Nat.add n) (decipher_ref h r).
Proof. unfold decipher_ref, h', n. rewrite moved_at. destruct (nth_error h r) as [[| | |]|]; reflexivity. Qed.
Lemma deep_key r : key_at h' (n + r) = key_at h r.
Proof.
  unfold key_at. replace (nth_error h' (n + r)) with (option_map (moved n) (nth_error h r)) by (symmetry; apply moved_at).
  destruct (nth_error h r) as [[|k| |]|]; try reflexivity. cbn. rewrite !deep_dict. reflexivity.
Qed.
Lemma deep_list r : list_at h' (n + r) = list_at h r.
Proof.
  unfold list_at. rewrite deep_refs. replace (nth_error h' (n + r)) with (option_map (moved n) (nth_error h r)) by (symmetry; apply moved_at).
  assert (forall q, pairs_at h' (map (fun q => (n + fst q, n + snd q)) q) = pairs_at h q) as P.
  { induction q as [|(a, b) q IH]; [reflexivity|]. cbn. rewrite IH. unfold pair_at. cbn. rewrite !deep_key. reflexivity. }
  assert (forall o, attribute_at h' (option_map (Nat.add n) o) = attribute_at h o) as A.
  { intros [s|]; [|reflexivity]. cbn. rewrite deep_dict. reflexivity. }
  destruct (nth_error h r) as [[| | |lo]|]; try reflexivity. cbn [option_map moved]. destruct (refs_at h r) as [q|]; [|reflexivity]. cbn [option_map].
  cbn [lo_header lo_kdf_options lo_decipher_header lo_byte_string lo_cipher_bytes lo_decipher_bytes lo_padding]. rewrite P, !A. reflexivity.
Qed.
Lemma deep_reaches r s : reaches h' (n + r) s -> exists s0, s = n + s0 /\ reaches h r s0.
Proof.
  induction 1 as [|a w s _ J P|l q a b s _ J Q I E|l s _ J E]; [|destruct J as (a0 & -> & IH)|destruct J as (l0 & -> & IH)|destruct J as (l0 & -> & IH)].
  - exists r. split; [reflexivity|constructor].
  - rewrite deep_part in P. destruct (part_ref h a0 w) as [s0|] eqn:P0; [|discriminate]. injection P as <-. exists s0. split; [reflexivity|]. eapply By_part; eassumption.
  - rewrite deep_refs in Q. destruct (refs_at h l0) as [q0|] eqn:Q0; [|discriminate]. injection Q as <-.
    apply in_map_iff in I as ((a0, b0) & EI & I). injection EI as <- <-. destruct E as [-> | ->]; (eexists; split; [reflexivity|]; eapply By_pair; eauto).
  - rewrite deep_header, deep_options, deep_decipher in E.
    destruct E as [E|[E|E]]; [destruct (header_ref h l0) as [s0|] eqn:A|destruct (options_ref h l0) as [s0|] eqn:A|destruct (decipher_ref h l0) as [s0|] eqn:A];
      try discriminate; injection E as <-; (exists s0; split; [reflexivity|]; eapply By_attribute; [exact IH|auto]).
Qed.
End Deep.
(** The copy shows the same as the object, and the objects that were there are the same; inside
    the copy the same objects are shared as in the original. *)
Theorem C98_deep_copy h r :
  areachable h -> r < length h ->
  exists h' c, astep (Plain (DeepCopy r)) h = (h', Ok (Ref (c r))) /\ same_at h r h' (c r) /\ all_the_same h h' /\
    (forall a b, c a = c b -> a = b) /\
    (forall a w, part_ref h' (c a) w = option_map c (part_ref h a w)) /\
    (forall l, refs_at h' (c l) = option_map (map (fun q => (c (fst q), c (snd q)))) (refs_at h l)) /\
    (forall l, header_ref h' (c l) = option_map c (header_ref h l) /\ options_ref h' (c l) = option_map c (options_ref h l)).
Proof.
  intros R L. apply areachable_sound in R as G. exists (h ++ map (moved (length h)) h), (Nat.add (length h)). cbn [Alias.astep Heap.step].
  apply Nat.ltb_lt in L as ->. split; [reflexivity|]. split; [split; [apply deep_dict|split; [apply deep_key|apply deep_list]]|].
  split; [eapply app_same; exact G|]. split; [intros a b; lia|]. split; [apply deep_part|]. split; [apply deep_refs|].
  intros l. split; [apply deep_header|apply deep_options].
Qed.
(** Nothing can be reached both from the copy and from an object that was there before. *)
Theorem C98_deep_copy_apart h r h' r' a s :
  areachable h -> astep (Plain (DeepCopy r)) h = (h', Ok (Ref r')) -> a < length h ->
  reaches h' a s -> ~ reaches h' r' s.
Proof.
  intros R S L A B. apply areachable_sound in R as G. cbn [Alias.astep Heap.step] in S. destruct (r <? length h); [|discriminate]. injection S as <- <-.
  apply deep_reaches in B as (s0 & -> & _).
  enough (forall u, reaches (h ++ map (moved (length h)) h) a u -> u < length h) as Q by (specialize (Q _ A); lia).
  clear A s0. intros u H. induction H as [|b w s _ IH P|l q b b' s _ IH Q I E|l s _ IH E]; [exact L| | |].
  - unfold part_ref in P. rewrite nth_app_lt in P by exact IH. apply dict_lt. eapply sound_part; [exact G|]. unfold part_ref. exact P.
  - rewrite (refs_at_app _ _ _ G IH) in Q. destruct (refs_keys _ _ _ G Q b b' I). destruct E as [-> | ->]; apply keyo_lt; assumption.
  - unfold header_ref, options_ref, decipher_ref in E. rewrite nth_app_lt in E by exact IH.
    destruct (nth_error h l) as [[| | |lo]|] eqn:N; try (destruct E as [E|[E|E]]; discriminate).
    destruct (proj2 G _ _ N) as (_ & A & B & C). apply dict_lt. destruct E as [E|[E|E]]; auto.
Qed.
(** So whatever is done to the objects that were there before, the copy stays what it was; and
    whatever is done to objects made from then on, the objects that were there stay what they were. *)
Theorem C98_deep_copy_independent h r h' r' cs :
  areachable h -> astep (Plain (DeepCopy r)) h = (h', Ok (Ref r')) ->
  (Forall (fun c => forall s, changes c s -> s < length h) cs -> same_at h r (arun cs h') r') /\
  (Forall (fun c => forall s, changes c s -> length h <= s) cs -> forall a, a < length h -> same_at h a (arun cs h') a).
Proof.
  intros R S. apply areachable_sound in R as G.
  assert (areachable h') as R'.
  { destruct R as (cs0 & ->). exists (cs0 ++ [Plain (DeepCopy r)]). clear -S. revert S. generalize (@nil object). induction cs0 as [|c cs0 IH]; intros h0 S.
    - cbn [app Alias.arun] in *. rewrite S. reflexivity.
    - cbn in *. apply IH. exact S. }
  assert (r < length h /\ h' = h ++ map (moved (length h)) h /\ r' = length h + r) as (L & -> & ->).
  { cbn [Alias.astep Heap.step] in S. destruct (r <? length h) eqn:Q; [|discriminate]. injection S as <- <-. apply Nat.ltb_lt in Q. auto. }
  set (h' := h ++ _) in *. assert (length h' = length h + length h) as LH by (unfold h'; rewrite app_length, map_length; reflexivity).
  assert (forall a b c u v w, same_at a u b v -> same_at b v c w -> same_at a u c w) as T.
  { intros a b c u v w (A1 & A2 & A3) (B1 & B2 & B3). repeat split; congruence. }
  split; intros F.
  - apply (T _ h' _ _ (length h + r)); [split; [apply deep_dict|split; [apply deep_key|apply deep_list]]|].
    apply C98_unreached_changes; [exact R'|lia|]. eapply Forall_impl; [|exact F]. cbn. intros c C s K Q.
    apply deep_reaches in Q as (s0 & -> & _). specialize (C _ K). lia.
  - intros a La. apply (T _ h' _ _ a); [apply (app_same (strict := false)); assumption|].
    apply C98_unreached_changes; [exact R'|lia|]. eapply Forall_impl; [|exact F]. cbn. intros c C s K Q. specialize (C _ K).
    assert (reaches h' (length h + s) (length h + s)) by constructor.
    destruct (Nat.lt_ge_cases s (length h + length h)) as [Ls|Ls].
    + assert (areachable h) as R0 by exact R. refine (C98_deep_copy_apart h (s - length h) h' s a s R0 _ La Q (Here _ _)).
      cbn [Alias.astep Heap.step]. replace (s - length h <? length h) with true by (symmetry; apply Nat.ltb_lt; lia). fold h'. f_equal. f_equal. f_equal. lia.
    + assert (a < length h') as La' by lia. pose proof (closed_lt _ _ _ (areachable_sound _ R') La' Q). lia.
Qed.
End Histories.

(** ** A case *)
Definition ax_program : list acommand :=
  map Plain ex_program ++ [CopyKey 9; Assign 4 InFooter 7; AssignParams 14 4; Plain (DeepCopy 23)].
Definition ax_heap : heap := Eval vm_compute in arun toy_prims ex_x ex_gen ax_program [].
Definition ax_comment : dict pyval := [(str "comment", VStr (str "us"))].
Definition ax_footer (h : heap) (r : loc) : option (dict pyval) := option_map k_footer (key_at h r).
(** The private key of the first pair (9), its copy (28), the public key (4) to which its footer
    was assigned; a deep copy (52) of a list (23), in which the copies of these keys are 38 and 33. *)
Example C98_example :
  areachable toy_prims ex_x ex_gen ax_heap /\
  part_ref ax_heap 9 InFooter = Some 7 /\ part_ref ax_heap 28 InFooter = Some 7 /\ part_ref ax_heap 4 InFooter = Some 7 /\
  part_ref ax_heap 14 InParams = part_ref ax_heap 4 InParams /\
  refs_at ax_heap 23 = Some [(4, 9); (14, 19)] /\ refs_at ax_heap 52 = Some [(33, 38); (43, 48)] /\
  part_ref ax_heap 38 InFooter = Some 36 /\ part_ref ax_heap 33 InFooter = Some 36 /\
  let h1 := arun toy_prims ex_x ex_gen [Plain (Mutate 7 ax_comment)] ax_heap in
  let h2 := arun toy_prims ex_x ex_gen [Plain (Mutate 36 ax_comment); Assign 4 InFooter 36] ax_heap in
  ax_footer h1 9 = Some ax_comment /\ ax_footer h1 28 = Some ax_comment /\ ax_footer h1 4 = Some ax_comment /\
  ax_footer h1 38 = ax_footer ax_heap 9 /\ ax_footer ax_heap 9 <> Some ax_comment /\
  ax_footer h2 38 = Some ax_comment /\ ax_footer h2 33 = Some ax_comment /\ ax_footer h2 9 = ax_footer ax_heap 9 /\ ax_footer h2 4 = Some ax_comment /\
  ~ changes (CopyKey 9) 7 /\ assigns_part 4 InFooter (Assign 4 InFooter 7).
Proof.
  split; [exists ax_program; vm_compute; reflexivity|]. do 8 (split; [vm_compute; reflexivity|]). intros h1 h2.
  do 4 (split; [vm_compute; reflexivity|]). split; [vm_compute; discriminate|]. do 4 (split; [vm_compute; reflexivity|]).
  split; [intros []|split; reflexivity].
Qed.

Print Assumptions C98_change_seen_through_references.
Print Assumptions C98_shallow_copy.
Print Assumptions C98_shallow_copy_follows.
Print Assumptions C98_assignment.
Print Assumptions C98_assigned_params.
Print Assumptions C98_shared_parts_follow.
Print Assumptions C98_list_assignment.
Print Assumptions C98_header_follows.
Print Assumptions C98_unreached_changes.
Print Assumptions C98_deep_copy.
Print Assumptions C98_deep_copy_apart.
Print Assumptions C98_deep_copy_independent.
