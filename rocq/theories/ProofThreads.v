(** Lemmas on packing while other threads run. *)
From Verif Require Import PyBase IntBytes Utf8 StructFmt Stream Text Classes Key Crypto PrivateKeyList UserList Convert Generate Heap SpecHeap Threads SpecThreads.
From Verif Require Import ProofBase ProofRecord ProofKey ProofList ProofHeap.
From Coq Require Import Lia.
Open Scope nat_scope.

Lemma w_ret_r {A} (x : W A) : wbind x wret = x.
Proof. destruct x as [l [a|e]]; cbn; [rewrite app_nil_r|]; reflexivity. Qed.

Section Sees.
Variable hist : nat -> heap.
(** From moment [m] on the computation has the result [w]. *)
Definition sees {A} (m : nat) (c : T A) (w : W A) : Prop := forall t, m <= t -> m <= fst (c t) /\ snd (c t) = w.
Lemma sees_w {A} m (w : W A) : sees m (tw w) w.
Proof. intros t L. cbn. auto. Qed.
Lemma sees_bind {A B} m (c : T A) w (f : A -> T B) g :
  sees m c w -> (forall a, snd w = Ok a -> sees m (f a) (g a)) -> sees m (tbind c f) (wbind w g).
Proof.
  intros C F t L. destruct (C t L) as (C1 & C2). unfold tbind. destruct (c t) as [t1 [l o]]. cbn [fst snd] in *.
  subst w. cbn [wbind]. destruct o as [a|e]; [|auto]. destruct (F a eq_refl t1 C1) as (F1 & F2).
  destruct (f a t1) as [t2 [l' o]]. cbn [fst snd] in *. rewrite <- F2. auto.
Qed.
Lemma sees_look {A} m (f : heap -> option A) a : (forall t, m <= t -> f (hist t) = Some a) -> sees m (look hist f) (wret a).
Proof. intros H t L. unfold look. rewrite (H t L). cbn. split; [lia|reflexivity]. Qed.
Lemma sees_eq {A} m (c : T A) w w' : sees m c w -> w = w' -> sees m c w'.
Proof. intros H <-. exact H. Qed.
Lemma sees_later {A} m m' (c : T A) w : (forall t, t <= fst (c t)) -> m <= m' -> sees m c w -> sees m' c w.
Proof. clear hist. intros G L H t K. split; [specialize (G t); lia|apply H; lia]. Qed.
(** A value that is looked at and is always the same. *)
Lemma sees_look_bind {A B} m (f : heap -> option A) a (g : A -> T B) w :
  (forall t, m <= t -> f (hist t) = Some a) -> sees m (g a) w -> sees m (tbind (look hist f) g) w.
Proof.
  intros H G. eapply sees_eq; [eapply sees_bind; [apply (sees_look m f a H)|intros a' E; injection E as <-; exact G]|].
  unfold wret. cbn [wbind]. destruct w. reflexivity.
Qed.
Lemma sees_lift_bind {A B} m (r : res A) (f : A -> T B) g :
  (forall a, r = Ok a -> sees m (f a) (wlift (g a))) -> sees m (tbind (tlift r) f) (wlift (do? a <- r; g a)).
Proof.
  intros H. eapply sees_eq; [eapply sees_bind; [apply sees_w|intros a E; apply (H a E)]|].
  destruct r as [a|e]; reflexivity.
Qed.
Lemma sees_bind_lift {A B} m (c : T A) r (f : A -> T B) g :
  sees m c (wlift r) -> (forall a, r = Ok a -> sees m (f a) (wlift (g a))) -> sees m (tbind c f) (wlift (do? a <- r; g a)).
Proof.
  intros C H. eapply sees_eq; [eapply sees_bind; [exact C|intros a E; apply (H a E)]|].
  destruct r as [a|e]; reflexivity.
Qed.
Lemma sees_ret {A} m (a : A) : sees m (tret a) (wlift (Ok a)).
Proof. apply sees_w. Qed.

(** ** Time goes on *)
Definition goes_on {A} (c : T A) : Prop := forall t, t <= fst (c t).
Lemma go_w {A} (w : W A) : goes_on (tw w). Proof. intros t. apply le_n. Qed.
Lemma go_look {A} (f : heap -> option A) : goes_on (look hist f). Proof. intros t. cbn. lia. Qed.
Lemma go_bind {A B} (c : T A) (f : A -> T B) : goes_on c -> (forall a, goes_on (f a)) -> goes_on (tbind c f).
Proof.
  clear hist. intros C F t. unfold tbind. specialize (C t). destruct (c t) as [t1 [l [a|e]]]; cbn [fst] in *; [|exact C].
  specialize (F a t1). destruct (f a t1) as [t2 [l' o]]. cbn [fst] in *. lia.
Qed.

(** ** Keys and lists that stay as they are *)
Lemma sees_dict m f s d : (forall t, m <= t -> dict_at (hist t) s = Some d) -> sees m (t_dict hist f s) (wlift (dict_bytes f d)).
Proof.
  intros H. induction f as [|[k i] f IH]; cbn [t_dict dict_bytes]; [apply sees_ret|].
  eapply sees_look_bind; [exact H|]. apply sees_lift_bind. intros v _. apply sees_lift_bind. intros b _.
  eapply sees_bind_lift; [exact IH|]. intros r _. apply sees_ret.
Qed.
Lemma key_at_parts h k v : key_at h k = Some v ->
  class_at h k = Some (k_pcls v) /\ exists a b c d, part_ref h k InHeader = Some a /\ part_ref h k InParams = Some b /\
  part_ref h k InFooter = Some c /\ part_ref h k InClear = Some d /\
  dict_at h a = Some (k_header v) /\ dict_at h b = Some (k_params v) /\ dict_at h c = Some (k_footer v).
Proof.
  unfold key_at, class_at, part_ref. destruct (nth_error h k) as [[|ko| |]|]; try discriminate.
  destruct (dict_at h (ko_header ko)) eqn:E1; [|discriminate]. destruct (dict_at h (ko_params ko)) eqn:E2; [|discriminate].
  destruct (dict_at h (ko_footer ko)) eqn:E3; [|discriminate]. destruct (dict_at h (ko_clear ko)) eqn:E4; [|discriminate].
  intros [= <-]. cbn. split; [reflexivity|]. do 4 eexists. do 4 (split; [reflexivity|]). auto.
Qed.
Section Key.
Variables (m : nat) (k : loc) (v : key).
Hypothesis seen : key_at (hist m) k = Some v.
Hypothesis kept : forall t, m <= t -> same_key (hist m) (hist t) k.
Lemma kept_parts : exists a b c, forall t, m <= t ->
  class_at (hist t) k = Some (k_pcls v) /\
  part_ref (hist t) k InHeader = Some a /\ part_ref (hist t) k InParams = Some b /\ part_ref (hist t) k InFooter = Some c /\
  dict_at (hist t) a = Some (k_header v) /\ dict_at (hist t) b = Some (k_params v) /\ dict_at (hist t) c = Some (k_footer v).
Proof.
  destruct (key_at_parts _ _ _ seen) as (_ & a & b & c & d & A & B & C & D & _). exists a, b, c. intros t L.
  destruct (kept t L) as (P & K). rewrite seen in K. destruct (key_at_parts _ _ _ K) as (Cl & a' & b' & c' & d' & A' & B' & C' & D' & E1 & E2 & E3).
  pose proof (P InHeader) as P1. pose proof (P InParams) as P2. pose proof (P InFooter) as P3.
  rewrite A, A' in P1. rewrite B, B' in P2. rewrite C, C' in P3. injection P1 as ->. injection P2 as ->. injection P3 as ->. auto 10.
Qed.
Lemma sees_public : sees m (t_public hist k) (wlift (pack_public_bytes v)).
Proof.
  destruct kept_parts as (a & b & c & H). unfold t_public, pack_public_bytes. rewrite pack_three.
  eapply sees_look_bind; [apply H|]. eapply sees_bind_lift; [apply sees_dict; apply H|]. intros x _.
  eapply sees_look_bind; [apply H|]. eapply sees_look_bind; [apply H|]. eapply sees_bind_lift; [apply sees_dict; apply H|]. intros y _.
  eapply sees_look_bind; [apply H|]. eapply sees_bind_lift; [apply sees_dict; apply H|]. intros z _. apply sees_ret.
Qed.
Lemma sees_private : sees m (t_private hist k) (wlift (pack_private_bytes v)).
Proof.
  destruct kept_parts as (a & b & c & H). unfold t_private, pack_private_bytes. rewrite pack_three.
  eapply sees_look_bind; [apply H|]. eapply sees_bind_lift; [apply sees_dict; apply H|]. intros x _.
  eapply sees_look_bind; [apply H|]. eapply sees_look_bind; [apply H|]. eapply sees_bind_lift; [apply sees_dict; apply H|]. intros y _.
  eapply sees_look_bind; [apply H|]. eapply sees_bind_lift; [apply sees_dict; apply H|]. intros z _. apply sees_ret.
Qed.
End Key.

Lemma sees_item {A B} m (f : heap -> option (list A)) i R (g : A -> T B) w :
  (forall t, m <= t -> exists q, f (hist t) = Some q /\ py_index q i = R) ->
  (forall q, R = Ok q -> sees m (g q) (wlift (w q))) ->
  sees m (dot refs <- look hist f; dot q <- tlift (py_index refs i); g q) (wlift (do? q <- R; w q)).
Proof.
  intros H G t L. destruct (H t L) as (q & Q1 & Q2).
  assert (S t >= m) as L' by lia.
  pose proof (sees_lift_bind m R g w G (S t) L') as K.
  assert ((dot refs <- look hist f; dot q <- tlift (py_index refs i); g q) t = tbind (tlift R) g (S t)) as ->.
  { unfold tbind at 1, look. rewrite Q1. unfold wret. rewrite Q2. destruct (tbind (tlift R) g (S t)) as [t' [l o]]. reflexivity. }
  exact K.
Qed.
Lemma py_index_Forall2 {A B} (R : A -> B -> Prop) l k i : Forall2 R l k ->
  match py_index l i, py_index k i with
  | Ok a, Ok b => R a b /\ In a l
  | Err e, Err e' => e = e'
  | _, _ => False
  end.
Proof.
  intros F. unfold py_index. rewrite (Forall2_len _ _ _ F). destruct (_ && _)%bool; [|reflexivity].
  generalize (Z.to_nat (if (i <? 0)%Z then (i + Z.of_nat (length k))%Z else i)). intros j. revert j.
  induction F as [|a b l k r F IH]; intros [|j]; cbn [nth_error]; try reflexivity; [split; [exact r|left; reflexivity]|].
  specialize (IH j). destruct (nth_error l j), (nth_error k j); try exact IH; try contradiction. destruct IH. split; [assumption|right; assumption].
Qed.
Section List_.
Variables (m : nat) (r : loc) (refs : list pair_refs) (ps : list pair) (ix : list Z).
Hypothesis pairs_seen_ : pairs_at (hist m) refs = Some ps.
Hypothesis items_kept : forall t, m <= t -> exists q, refs_at (hist t) r = Some q /\ forall i, In i ix -> py_index q i = py_index refs i.
Hypothesis keys_kept : forall t a b, m <= t -> In (a, b) refs -> same_key (hist m) (hist t) a /\ same_key (hist m) (hist t) b.

Lemma sees_pubs ov idx : (forall i, In i idx -> In i ix) -> sees m (t_pubs hist r ov idx) (wlift (pubs_bytes ov (map (py_index ps) idx))).
Proof.
  apply pairs_at_Forall2 in pairs_seen_ as F.
  induction idx as [|i idx IH]; intros I; cbn [t_pubs map pubs_bytes]; [apply sees_ret|].
  assert (In i ix) as Ii by (apply I; left; reflexivity).
  eapply sees_eq.
  { eapply (sees_item m (fun h => refs_at h r) i (py_index refs i)).
    { intros t L. destruct (items_kept t L) as (q & Q & K). exists q. split; [exact Q|]. apply K. exact Ii. }
    intros q Eq. pose proof (py_index_Forall2 _ _ _ i F) as P. rewrite Eq in P.
    instantiate (1 := fun _ => match py_index ps i with
      | Ok y => do? b <- pack_public_bytes (if ov then pr_private y else pr_public y); do? x <- instr_bytes fB (VBytes b);
                do? z <- pubs_bytes ov (map (py_index ps) idx); Ok (x ++ z)
      | Err e => Err e end). cbn beta.
    destruct (py_index ps i) as [y|]; [|contradiction]. destruct P as (P & Iq). destruct q as [a b]. 
    unfold pair_at in P. cbn [fst snd] in *. destruct (key_at (hist m) a) as [ka|] eqn:Ka; [|discriminate]. destruct (key_at (hist m) b) as [kb|] eqn:Kb; [|discriminate].
    injection P as <-. cbn [pr_private pr_public].
    eapply sees_bind_lift.
    { destruct ov; [apply (sees_public m b kb Kb)|apply (sees_public m a ka Ka)]; intros t L; apply (keys_kept t a b L Iq). }
    intros z _. apply sees_lift_bind. intros u _. eapply sees_bind_lift; [apply IH; intros j J; apply I; right; exact J|]. intros w _. apply sees_ret. }
  pose proof (py_index_Forall2 _ _ _ i F) as P. destruct (py_index refs i), (py_index ps i); try contradiction; cbn [rbind]; [reflexivity|rewrite P; reflexivity].
Qed.
Lemma sees_privs idx : (forall i, In i idx -> In i ix) -> sees m (t_privs hist r idx) (wlift (privs_bytes (map (py_index ps) idx))).
Proof.
  apply pairs_at_Forall2 in pairs_seen_ as F.
  induction idx as [|i idx IH]; intros I; cbn [t_privs map privs_bytes]; [apply sees_ret|].
  assert (In i ix) as Ii by (apply I; left; reflexivity).
  eapply sees_eq.
  { eapply (sees_item m (fun h => refs_at h r) i (py_index refs i)).
    { intros t L. destruct (items_kept t L) as (q & Q & K). exists q. split; [exact Q|]. apply K. exact Ii. }
    intros q Eq. pose proof (py_index_Forall2 _ _ _ i F) as P. rewrite Eq in P.
    instantiate (1 := fun _ => match py_index ps i with
      | Ok y => do? b <- pack_private_bytes (pr_private y);
                do? z <- privs_bytes (map (py_index ps) idx); Ok (b ++ z)
      | Err e => Err e end). cbn beta.
    destruct (py_index ps i) as [y|]; [|contradiction]. destruct P as (P & Iq). destruct q as [a b]. 
    unfold pair_at in P. cbn [fst snd] in *. destruct (key_at (hist m) a) as [ka|] eqn:Ka; [|discriminate]. destruct (key_at (hist m) b) as [kb|] eqn:Kb; [|discriminate].
    injection P as <-. cbn [pr_private pr_public].
    eapply sees_bind_lift; [apply (sees_private m b kb Kb); intros t L; apply (keys_kept t a b L Iq)|].
    intros z _. eapply sees_bind_lift; [apply IH; intros j J; apply I; right; exact J|]. intros w _. apply sees_ret. }
  pose proof (py_index_Forall2 _ _ _ i F) as P. destruct (py_index refs i), (py_index ps i); try contradiction; cbn [rbind]; [reflexivity|rewrite P; reflexivity].
Qed.
End List_.

(** ** The header and the options *)
Section Attributes.
Variables (m : nat) (r : loc) (v : pkl) (ho oo : option loc).
Hypothesis header_kept : forall t, m <= t -> header_of r (hist t) = Some ho /\
  attribute_at (hist t) ho = Some (l_header v).
Hypothesis options_kept : forall t, m <= t -> kdf_options_of r (hist t) = Some oo /\
  attribute_at (hist t) oo = Some (l_kdf_options v).
Lemma attribute_some h s x : attribute_at h (Some s) = Some x -> exists d, dict_at h s = Some d /\ x = Some d.
Proof. cbn. destruct (dict_at h s) as [d|]; [|discriminate]. intros [= <-]. eauto. Qed.
Lemma sees_names : sees m (t_names hist r) (wret (list_cipher_kdf v)).
Proof.
  unfold t_names, list_cipher_kdf. eapply sees_look_bind; [apply header_kept|].
  destruct ho as [s|] eqn:E.
  2: { destruct (header_kept m (le_n m)) as (_ & K). cbn in K. injection K as <-. apply sees_w. }
  assert (exists d, l_header v = Some d /\ forall t, m <= t -> dict_at (hist t) s = Some d) as (d & V & D).
  { destruct (header_kept m (le_n m)) as (_ & K). apply attribute_some in K as (d & _ & V). exists d. split; [exact V|].
    intros t L. destruct (header_kept t L) as (_ & K). rewrite V in K. apply attribute_some in K as (d' & -> & [= <-]). reflexivity. }
  rewrite V. assert (sees m (t_header hist r) (wret d)) as H.
  { unfold t_header. eapply sees_look_bind; [apply header_kept|]. apply sees_look. exact D. }
  assert (forall B (f : dict pyval -> T B) w, sees m (f d) w -> sees m (tbind (t_header hist r) f) w) as HB.
  { intros B f w F. eapply sees_eq; [eapply sees_bind; [exact H|intros a' Ea; injection Ea as <-; exact F]|]. cbn. destruct w. reflexivity. }
  apply HB. unfold dmem. destruct (dget (str "cipher") d) as [c|] eqn:C; [|apply sees_w]. apply HB.
  destruct (dget (str "kdf") d) as [k|] eqn:K; [|apply sees_w]. apply HB. unfold ditem. rewrite C.
  change (wret (c, k)) with (wlift (do? c <- Ok c; Ok (c, k))). apply sees_lift_bind. intros c' [= <-].
  apply HB. rewrite K. change (wlift (Ok (c, k))) with (wlift (do? k <- Ok k; Ok (c, k))). apply sees_lift_bind. intros k' [= <-]. apply sees_ret.
Qed.
(** What t_options, and then t_options_bytes and t_copy, come to. *)
Definition options_shown (o : options) (d : dict pyval) : Prop :=
  o = Own d \/ exists s, o = Shared s /\ forall t, m <= t -> dict_at (hist t) s = Some d.
Lemma sees_options e kv retain : exists w, sees m (t_options hist e r kv retain) w /\
  match w, options_for e v retain kv with
  | (l, Ok o), (l', Ok d) => l = l' /\ options_shown o d
  | (l, Err e), (l', Err e') => l = l' /\ e = e'
  | _, _ => False
  end.
Proof.
  set (new := do k <- wlift (get_kdf kv); new_kdf k (kdf_generate k (e_salt e)) ;; wret (Own (kdf_generate k (e_salt e)))).
  assert (match new, (do k <- wlift (get_kdf kv); new_kdf k (kdf_generate k (e_salt e)) ;; wret (kdf_generate k (e_salt e))) with
  | (l, Ok o), (l', Ok d) => l = l' /\ options_shown o d
  | (l, Err e), (l', Err e') => l = l' /\ e = e'
  | _, _ => False
  end) as New.
  { unfold new. destruct (get_kdf kv) as [k|x]; unfold wlift; cbn [wbind]; [|auto]. unfold wseq.
    destruct (new_kdf k (kdf_generate k (e_salt e))) as [l [u|x]]; cbn; [|auto]. split; [reflexivity|left; reflexivity]. }
  unfold t_options, options_for. fold new. destruct retain; [|exists new; split; [apply sees_w|exact New]].
  destruct (options_kept m (le_n m)) as (_ & K0). destruct oo as [s|] eqn:Eo.
  - apply attribute_some in K0 as (d & _ & V). rewrite V. exists (wret (Shared s)). split.
    + eapply sees_look_bind; [apply options_kept|]. cbn iota. eapply sees_look_bind; [|apply sees_w].
      intros t L. destruct (options_kept t L) as (-> & _). reflexivity.
    + cbn. split; [reflexivity|]. right. exists s. split; [reflexivity|]. intros t L. destruct (options_kept t L) as (_ & K). rewrite V in K.
      apply attribute_some in K as (d' & -> & [= <-]). reflexivity.
  - cbn in K0. injection K0 as <-. exists new. split; [|exact New]. eapply sees_look_bind; [apply options_kept|]. apply sees_w.
Qed.
End Attributes.
Lemma options_later m m' o d : m <= m' -> options_shown m o d -> options_shown m' o d.
Proof. intros L [H|(s & E & H)]; [left; exact H|right; exists s; split; [exact E|]]. intros t K. apply H. lia. Qed.
Lemma sees_options_bytes m f o d : options_shown m o d -> sees m (t_options_bytes hist f o) (wlift (dict_bytes f d)).
Proof.
  intros [->|(s & -> & H)]; cbn [t_options_bytes]; [|apply sees_dict; exact H]. eapply sees_eq; [apply sees_w|]. rewrite pack_with_dict. reflexivity.
Qed.
Lemma sees_copy m o d : options_shown m o d -> sees m (t_copy hist o) (wret d).
Proof. intros [->|(s & -> & H)]; cbn [t_copy]; [apply sees_w|apply sees_look; exact H]. Qed.

(** ** Everything after the indices *)
Definition t_rest (p : prims) (e : env) (r : loc) (passphrase : option pystr) (override : bool) (cv kv : pyval) (o : options) (idx : list Z) : T bytes :=
  dot k <- tlift (get_kdf kv);
  dot options_bytes <- t_options_bytes hist (kdf_format k) o;
  dot header <- tlift (pack_with (write_dict list_header_fmt (file_header cv kv options_bytes (length idx))));
  dot pubs <- t_pubs hist r override idx;
  dot checks <- tlift (pack_with (write_dict decipher_header_fmt (check_ints e)));
  dot privs <- t_privs hist r idx;
  dot c <- tlift (get_cipher cv);
  let plain := checks ++ privs in
  let padding_length := ((- Z.of_nat (length plain)) mod Z.of_nat (block_size c))%Z in
  dot pass <- tw (if val_eqb kv (VStr (str "none")) then wret [] else get_passphrase e passphrase);
  dot c <- tlift (get_cipher cv);
  dot d <- t_copy hist o;
  dot _ <- tw (new_kdf k d);
  dot cipher_bytes <- tlift (cipher_encrypt p c k d pass (plain ++ pad_bytes (Z.to_nat padding_length)));
  let body := if is_integrity c then slice_butlast (tag_length c) cipher_bytes else cipher_bytes in
  let tag := if is_integrity c then slice_last (tag_length c) cipher_bytes else [] in
  tlift (pack_with (fun s0 =>
    (do! _ <- write_instr fB (VBytes body);
     fun s => (bio_write tag s, Ok tt)) (bio_write (header ++ pubs) s0))).
Lemma t_pack_parts p e r pass idx ov retain :
  t_pack p hist e r pass idx ov retain =
  dot (cv, kv) <- t_names hist r; dot o <- t_options hist e r kv retain; dot ix <- t_indices hist r idx; t_rest p e r pass ov cv kv o ix.
Proof. reflexivity. Qed.

Lemma sees_copy_bind {B} m o d (g : dict pyval -> T B) w : options_shown m o d -> sees m (g d) w -> sees m (tbind (t_copy hist o) g) w.
Proof.
  intros O G. eapply sees_eq; [eapply sees_bind; [apply sees_copy; exact O|intros a' E; injection E as <-; exact G]|].
  unfold wret. cbn [wbind]. destruct w. reflexivity.
Qed.
Lemma sees_rest p e r pass ov cv kv m refs ps ix o d :
  pairs_at (hist m) refs = Some ps ->
  (forall t, m <= t -> exists q, refs_at (hist t) r = Some q /\ forall i, In i ix -> py_index q i = py_index refs i) ->
  (forall t a b, m <= t -> In (a, b) refs -> same_key (hist m) (hist t) a /\ same_key (hist m) (hist t) b) ->
  options_shown m o d ->
  sees m (t_rest p e r pass ov cv kv o ix) (pack_selected p e cv kv (wret d) (map (py_index ps) ix) pass ov).
Proof.
  intros P I K O. unfold t_rest, pack_selected. eapply sees_eq.
  { eapply sees_bind; [apply sees_w|]. intros k _. eapply sees_bind; [apply sees_options_bytes; exact O|]. intros ob _.
    eapply sees_bind; [apply sees_w|]. intros header _. 
    eapply sees_bind; [apply (sees_pubs m r refs ps ix P I K ov ix (fun i J => J))|]. intros pubs _.
    eapply sees_bind; [apply sees_w|]. intros checks _.
    eapply sees_bind; [apply (sees_privs m r refs ps ix P I K ix (fun i J => J))|]. intros privs _.
    eapply sees_bind; [apply sees_w|]. intros c _. cbv zeta.
    eapply sees_bind; [apply sees_w|]. intros pw _. eapply sees_bind; [apply sees_w|]. intros c' _.
    eapply sees_copy_bind; [exact O|].
    eapply sees_bind; [apply sees_w|]. intros u _. eapply sees_bind; [apply sees_w|]. intros x _. apply sees_w. }
  assert (forall A B (a : A) (f : A -> W B), wbind (wlift (Ok a)) f = f a) as L1 by (intros; cbn; destruct (f a); reflexivity).
  assert (forall A B x (f : A -> W B), wbind (wlift (Err x)) f = werr x) as L2 by reflexivity.
  change (wret d) with (wlift (Ok d)). rewrite L1, map_length.
  destruct (get_kdf kv) as [k|]; rewrite ?L1, ?L2; [|reflexivity].
  destruct (dict_bytes (kdf_format k) d) as [ob|]; rewrite ?L1, ?L2; [|reflexivity].
  rewrite pack_with_dict. destruct (dict_bytes list_header_fmt _) as [hd|]; cbn [rbind]; rewrite ?L1, ?L2; [|reflexivity].
  destruct (pubs_bytes _ _) as [pb|]; cbn [rbind]; rewrite ?L1, ?L2; [|reflexivity].
  rewrite pack_with_dict. destruct (dict_bytes decipher_header_fmt _) as [ck|]; cbn [rbind]; rewrite ?L1, ?L2; [|reflexivity].
  destruct (privs_bytes _) as [pv|]; cbn [rbind]; rewrite ?L1, ?L2; [|reflexivity].
  destruct (get_cipher cv) as [c|]; cbn [rbind]; rewrite ?L1, ?L2; [|reflexivity].
  apply wbind_ext. intros pw. rewrite !L1. unfold wseq. apply wbind_ext. intros u. rewrite <- app_assoc. fold (padding_for c (length (ck ++ pv))).
  apply wbind_ext. intros x. rewrite pack_final. reflexivity.
Qed.
End Sees.
