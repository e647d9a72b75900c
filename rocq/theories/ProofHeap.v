(** Invariants of the heap. *)
From Verif Require Import PyBase Classes Key Crypto PrivateKeyList UserList Convert Generate Heap SpecHeap.
From Coq Require Import Lia FinFun.
Open Scope nat_scope.

(** ** The objects that belong to one object only *)
(** The dictionaries of keys are counted only if [strict]: a program may make keys that share
    them (Alias.v). *)
Definition owned_in (strict : bool) (o : object) : list loc :=
  match o with
  | HKey k => if strict then [ko_header k; ko_params k; ko_footer k; ko_clear k] else []
  | HList l => [lo_data l]
  | _ => []
  end.
Definition is_dict (h : heap) (r : loc) : Prop := exists d, nth_error h r = Some (HDict d).
Definition is_keyo (h : heap) (r : loc) : Prop := exists k, nth_error h r = Some (HKey k).
Definition is_seq (h : heap) (r : loc) : Prop := exists q, nth_error h r = Some (HSeq q).
Definition attr_ok (h : heap) (o : option loc) : Prop := forall r, o = Some r -> is_dict h r.
Definition ok_object (h : heap) (o : object) : Prop :=
  match o with
  | HDict _ => True
  | HKey k => is_dict h (ko_header k) /\ is_dict h (ko_params k) /\ is_dict h (ko_footer k) /\ is_dict h (ko_clear k)
  | HSeq q => forall a b, In (a, b) q -> is_keyo h a /\ is_keyo h b
  | HList l => is_seq h (lo_data l) /\ attr_ok h (lo_header l) /\ attr_ok h (lo_kdf_options l) /\ attr_ok h (lo_decipher_header l)
  end.
Definition good_in (strict : bool) (h : heap) : Prop :=
  NoDup (flat_map (owned_in strict) h) /\ forall r o, nth_error h r = Some o -> ok_object h o.

(** ** Later heaps keep the sort of every object *)
Definition same_sort (o o' : object) : Prop :=
  match o, o' with
  | HDict _, HDict _ | HSeq _, HSeq _ => True
  | HKey a, HKey b => a = b
  | HList a, HList b => a = b
  | _, _ => False
  end.
Definition later (h h' : heap) : Prop :=
  forall r o, nth_error h r = Some o -> exists o', nth_error h' r = Some o' /\ same_sort o o'.
Lemma same_sort_refl o : same_sort o o. Proof. destruct o; cbn; auto. Qed.
Lemma same_sort_trans a b c : same_sort a b -> same_sort b c -> same_sort a c.
Proof. destruct a, b, c; cbn; try contradiction; auto; congruence. Qed.
Lemma later_refl h : later h h. Proof. intros r o H. exists o. split; [exact H|apply same_sort_refl]. Qed.
Lemma later_trans a b c : later a b -> later b c -> later a c.
Proof.
  intros H K r o E. destruct (H _ _ E) as (o1 & E1 & S1). destruct (K _ _ E1) as (o2 & E2 & S2).
  exists o2. split; [exact E2|]. eapply same_sort_trans; eassumption.
Qed.
Lemma later_app h n : later h (h ++ n).
Proof.
  intros r o H. exists o. split; [|apply same_sort_refl]. rewrite nth_error_app1; [exact H|].
  apply nth_error_Some. congruence.
Qed.
Lemma later_dict h h' r : later h h' -> is_dict h r -> is_dict h' r.
Proof. intros L (d & E). destruct (L _ _ E) as (o & E' & S). destruct o; try contradiction. eexists. exact E'. Qed.
Lemma later_seq h h' r : later h h' -> is_seq h r -> is_seq h' r.
Proof. intros L (d & E). destruct (L _ _ E) as (o & E' & S). destruct o; try contradiction. eexists. exact E'. Qed.
Lemma later_key h h' r k : later h h' -> nth_error h r = Some (HKey k) -> nth_error h' r = Some (HKey k).
Proof. intros L E. destruct (L _ _ E) as (o & E' & S). destruct o; try contradiction. cbn in S. subst. exact E'. Qed.
Lemma later_list h h' r k : later h h' -> nth_error h r = Some (HList k) -> nth_error h' r = Some (HList k).
Proof. intros L E. destruct (L _ _ E) as (o & E' & S). destruct o; try contradiction. cbn in S. subst. exact E'. Qed.
Lemma later_keyo h h' r : later h h' -> is_keyo h r -> is_keyo h' r.
Proof. intros L (k & E). exists k. eapply later_key; eassumption. Qed.
Lemma later_attr h h' o : later h h' -> attr_ok h o -> attr_ok h' o.
Proof. intros L A r E. eapply later_dict; [exact L|]. apply A. exact E. Qed.
Lemma later_ok h h' o : later h h' -> ok_object h o -> ok_object h' o.
Proof.
  intros L. destruct o; cbn; [trivial| | |].
  - intros (A & B & C & D). repeat split; eapply later_dict; eassumption.
  - intros H a b I. destruct (H a b I). split; eapply later_keyo; eassumption.
  - intros (A & B & C & D). repeat split; [eapply later_seq|..]; try eapply later_attr; eassumption.
Qed.
Lemma later_length h h' : later h h' -> length h <= length h'.
Proof.
  intros L. destruct (length h) eqn:E; [lia|]. destruct (nth_error h n) eqn:F.
  - destruct (L _ _ F) as (o' & F' & _). assert (n < length h') by (apply nth_error_Some; congruence). lia.
  - apply nth_error_None in F. lia.
Qed.

(** ** Adding objects *)
Lemma nth_app_lt {A} (h n : list A) r : r < length h -> nth_error (h ++ n) r = nth_error h r.
Proof. apply nth_error_app1. Qed.
Lemma dict_lt h r : is_dict h r -> r < length h.
Proof. intros (d & E). apply nth_error_Some. congruence. Qed.
Lemma seq_lt h r : is_seq h r -> r < length h.
Proof. intros (d & E). apply nth_error_Some. congruence. Qed.
Section Invariant.
Context {strict : bool}.
Local Notation owned_by := (owned_in strict).
Local Notation good := (good_in strict).
Lemma owned_lt h r : good h -> In r (flat_map owned_by h) -> r < length h.
Proof.
  intros (_ & G) I. apply in_flat_map in I as (o & I & J). apply In_nth_error in I as (n & E).
  specialize (G _ _ E). destruct o; cbn in J, G; try contradiction.
  - destruct G as (A & B & C & D). destruct strict; [|contradiction]. destruct J as [<-|[<-|[<-|[<-|[]]]]]; apply dict_lt; assumption.
  - destruct G as (A & _). destruct J as [<-|[]]. apply seq_lt; assumption.
Qed.
Lemma nodup_app_intro {A} (a b : list A) : NoDup a -> NoDup b -> (forall z, In z a -> ~ In z b) -> NoDup (a ++ b).
Proof.
  intros NA NB D. induction NA as [|z a Z NA IH]; [exact NB|]. cbn. constructor.
  - rewrite in_app_iff. intros [I|I]; [auto|]. exact (D z (or_introl eq_refl) I).
  - apply IH. intros y I. apply D. right. exact I.
Qed.
Lemma good_app h n :
  good h -> NoDup (flat_map owned_by n) -> (forall r, In r (flat_map owned_by n) -> length h <= r) ->
  (forall o, In o n -> ok_object (h ++ n) o) -> good (h ++ n).
Proof.
  intros G N F K. split.
  - rewrite flat_map_app. apply nodup_app_intro; [apply G|exact N|]. intros r I J.
    pose proof (owned_lt _ _ G I). specialize (F r J). lia.
  - intros r o E. destruct (Nat.lt_ge_cases r (length h)) as [L|L].
    + rewrite nth_app_lt in E by exact L. eapply later_ok; [apply later_app|]. apply G in E. exact E.
    + rewrite nth_error_app2 in E by exact L. apply K. eapply nth_error_In. exact E.
Qed.

(** ** Changing objects in place *)
Lemma store_same {A} (h : list A) r o : r < length h -> nth_error (replace_nth r o h) r = Some o.
Proof. revert r. induction h as [|a h IH]; intros [|r] L; cbn in *; try lia; [reflexivity|]. apply IH. lia. Qed.
Lemma store_other {A} (h : list A) r r' o : r <> r' -> nth_error (replace_nth r o h) r' = nth_error h r'.
Proof.
  revert r r'. induction h as [|a h IH]; intros [|r] [|r'] L; cbn; try reflexivity; try lia. apply IH. lia.
Qed.
Lemma store_owned r o o' h : nth_error h r = Some o -> owned_by o = owned_by o' ->
  flat_map owned_by (replace_nth r o' h) = flat_map owned_by h.
Proof.
  revert r. induction h as [|a h IH]; intros [|r] E S; cbn in *; try discriminate.
  - injection E as ->. rewrite S. reflexivity.
  - rewrite (IH r E S). reflexivity.
Qed.
Lemma later_store r o o' h : nth_error h r = Some o -> same_sort o o' -> later h (store r o' h).
Proof.
  intros E S r' u U. unfold store. destruct (Nat.eq_dec r r') as [->|N].
  - exists o'. split; [|congruence]. apply store_same. apply nth_error_Some. congruence.
  - exists u. split; [|apply same_sort_refl]. rewrite store_other by exact N. exact U.
Qed.
Lemma owned_sort o o' : same_sort o o' -> owned_by o = owned_by o'.
Proof. destruct o, o'; cbn; try contradiction; try reflexivity; intros ->; reflexivity. Qed.
Lemma good_store r o o' h : good h -> nth_error h r = Some o -> same_sort o o' -> ok_object h o' -> good (store r o' h).
Proof.
  intros G E S K. pose proof (later_store _ _ _ _ E S) as L. split.
  - unfold store. rewrite (store_owned r o o'); [apply G|exact E|apply owned_sort; exact S].
  - intros r' u U. unfold store in U. eapply later_ok; [exact L|]. destruct (Nat.eq_dec r r') as [->|N].
    + rewrite store_same in U by (apply nth_error_Some; congruence). injection U as <-. exact K.
    + rewrite store_other in U by exact N. apply G in U. exact U.
Qed.

(** ** Two objects own different objects *)
Lemma owned_disjoint h a b oa ob r : good h -> a <> b ->
  nth_error h a = Some oa -> nth_error h b = Some ob -> In r (owned_by oa) -> ~ In r (owned_by ob).
Proof.
  intros (N & _). revert a b. induction h as [|o h IH]; intros a b D A B I J; [destruct a; discriminate|].
  cbn in N. destruct a as [|a], b as [|b]; cbn in A, B.
  - lia.
  - injection A as ->. apply nth_error_In in B.
    assert (In r (flat_map owned_by h)) as K by (apply in_flat_map; eauto).
    revert N I K. clear. induction (owned_by oa) as [|z l IH]; cbn; [contradiction|]. intros N [->|I] K.
    + inversion N as [|? ? X]; subst. apply X. apply in_or_app. right. exact K.
    + inversion N; subst. apply IH; assumption.
  - injection B as ->. apply nth_error_In in A.
    assert (In r (flat_map owned_by h)) as K by (apply in_flat_map; eauto).
    revert N J K. clear. induction (owned_by ob) as [|z l IH]; cbn; [contradiction|]. intros N [->|I] K.
    + inversion N as [|? ? X]; subst. apply X. apply in_or_app. right. exact K.
    + inversion N; subst. apply IH; assumption.
  - apply (IH) with (a := a) (b := b); auto; try lia. revert N. clear. induction (owned_by o); cbn; [auto|].
    intros N. inversion N; auto.
Qed.
Lemma owned_nodup h a o : good h -> nth_error h a = Some o -> NoDup (owned_by o).
Proof.
  intros (N & _) E. revert a E. induction h as [|u h IH]; intros [|a] E; cbn in *; try discriminate.
  - injection E as ->. revert N. generalize (owned_by o). clear. induction l; cbn; intros N; constructor.
    + inversion N; subst. intros I. apply H1. apply in_or_app. auto.
    + inversion N; auto.
  - apply (IH) with (a := a); [|exact E]. revert N. generalize (owned_by u). clear. induction l; cbn; [auto|].
    intros N. inversion N; auto.
Qed.

(** ** What is seen *)
Lemma dict_at_dict h r : is_dict h r <-> exists d, dict_at h r = Some d.
Proof.
  unfold is_dict, dict_at. split; [intros (d & ->); eauto|]. intros (d & E).
  destruct (nth_error h r) as [[d'| | |]|]; try discriminate. eauto.
Qed.
Lemma dict_at_app h n r : is_dict h r -> dict_at (h ++ n) r = dict_at h r.
Proof. intros D. unfold dict_at. rewrite nth_app_lt by (apply dict_lt; exact D). reflexivity. Qed.
Lemma key_seen h r k : good h -> nth_error h r = Some (HKey k) -> exists v, key_at h r = Some v.
Proof.
  intros G E. destruct G as (_ & G). specialize (G _ _ E). cbn in G. destruct G as (A & B & C & D).
  apply dict_at_dict in A as (a & A), B as (b & B), C as (c & C), D as (d & D).
  unfold key_at. rewrite E, A, B, C, D. eauto.
Qed.
Lemma key_at_key h r v : key_at h r = Some v -> is_keyo h r.
Proof. unfold key_at, is_keyo. destruct (nth_error h r) as [[| k | |]|]; try discriminate. eauto. Qed.
Lemma key_at_app h n r : good h -> r < length h -> key_at (h ++ n) r = key_at h r.
Proof.
  intros G L. unfold key_at. rewrite nth_app_lt by exact L. destruct (nth_error h r) as [o|] eqn:E; [|reflexivity].
  destruct o; try reflexivity. destruct G as (_ & G). specialize (G _ _ E). cbn in G. destruct G as (A & B & C & D).
  rewrite !dict_at_app by assumption. reflexivity.
Qed.
Lemma keyo_lt h r : is_keyo h r -> r < length h.
Proof. intros (d & E). apply nth_error_Some. congruence. Qed.
(** Two heaps show the same at the keys of a list. *)
Lemma pair_at_eq h h' q : key_at h' (fst q) = key_at h (fst q) -> key_at h' (snd q) = key_at h (snd q) -> pair_at h' q = pair_at h q.
Proof. unfold pair_at. intros -> ->. reflexivity. Qed.
Lemma pairs_at_eq h h' l :
  (forall a b, In (a, b) l -> key_at h' a = key_at h a /\ key_at h' b = key_at h b) -> pairs_at h' l = pairs_at h l.
Proof.
  induction l as [|(a, b) l IH]; intros H; [reflexivity|]. cbn.
  rewrite IH by (intros u v I; apply H; right; exact I).
  destruct (H a b (or_introl eq_refl)) as (A & B). rewrite (pair_at_eq h h' (a, b) A B). reflexivity.
Qed.
Lemma pairs_at_app h n l : good h -> (forall a b, In (a, b) l -> is_keyo h a /\ is_keyo h b) -> pairs_at (h ++ n) l = pairs_at h l.
Proof.
  intros G H. apply pairs_at_eq. intros a b I. destruct (H a b I). split; apply key_at_app; auto using keyo_lt.
Qed.
Lemma pairs_at_Forall2 h l ps : pairs_at h l = Some ps <-> Forall2 (fun x y => pair_at h x = Some y) l ps.
Proof.
  split.
  - revert ps. induction l as [|q l IH]; cbn; intros ps E; [injection E as <-; constructor|].
    destruct (pair_at h q) eqn:Q; [|discriminate]. destruct (pairs_at h l); [|discriminate]. injection E as <-.
    constructor; auto.
  - induction 1 as [|q y l ps Q _ IH]; cbn; [reflexivity|]. rewrite Q, IH. reflexivity.
Qed.
Lemma pairs_seen h l : good h -> (forall a b, In (a, b) l -> is_keyo h a /\ is_keyo h b) -> exists ps, pairs_at h l = Some ps.
Proof.
  intros G. induction l as [|(a, b) l IH]; intros H; cbn; [eauto|].
  destruct IH as (ps & ->); [intros u v I; apply H; right; exact I|].
  destruct (H a b (or_introl eq_refl)) as ((ka & A) & (kb & B)).
  destruct (key_seen _ _ _ G A) as (va & VA). destruct (key_seen _ _ _ G B) as (vb & VB).
  unfold pair_at. cbn. rewrite VA, VB. eauto.
Qed.
Lemma pair_at_keys h q v : pair_at h q = Some v -> is_keyo h (fst q) /\ is_keyo h (snd q).
Proof.
  unfold pair_at. destruct (key_at h (fst q)) eqn:A; [|discriminate]. destruct (key_at h (snd q)) eqn:B; [|discriminate].
  intros _. split; eapply key_at_key; eassumption.
Qed.
Lemma pairs_at_keys h l ps : pairs_at h l = Some ps -> forall a b, In (a, b) l -> is_keyo h a /\ is_keyo h b.
Proof.
  intros E a b I. apply pairs_at_Forall2 in E. revert I. induction E as [|q y l ps Q _ IH]; [contradiction|].
  intros [->|I]; [exact (pair_at_keys _ _ _ Q)|auto].
Qed.
Lemma attribute_at_eq h h' o : (forall r, o = Some r -> dict_at h' r = dict_at h r) -> attribute_at h' o = attribute_at h o.
Proof. destruct o as [r|]; [|reflexivity]. intros H. cbn. rewrite (H r eq_refl). reflexivity. Qed.
Lemma attribute_at_app h n o : attr_ok h o -> attribute_at (h ++ n) o = attribute_at h o.
Proof. intros A. apply attribute_at_eq. intros r E. apply dict_at_app. apply A. exact E. Qed.
Lemma attribute_seen h o : attr_ok h o <-> exists v, attribute_at h o = Some v.
Proof.
  destruct o as [r|]; cbn.
  - split.
    + intros A. destruct (proj1 (dict_at_dict h r) (A r eq_refl)) as (d & ->). eauto.
    + intros (v & E) r' [= <-]. apply dict_at_dict. destruct (dict_at h r); [eauto|discriminate].
  - split; [eauto|]. intros _ r [=].
Qed.
Lemma refs_keys h l q : good h -> refs_at h l = Some q -> forall a b, In (a, b) q -> is_keyo h a /\ is_keyo h b.
Proof.
  intros G. unfold refs_at. destruct (nth_error h l) as [[| | | lo]|]; try discriminate.
  destruct (nth_error h (lo_data lo)) as [[| | s |]|] eqn:E; try discriminate. intros [= ->]. apply G in E. exact E.
Qed.
Lemma list_seen h r lo : good h -> nth_error h r = Some (HList lo) ->
  exists q ps, refs_at h r = Some q /\ nth_error h (lo_data lo) = Some (HSeq q) /\ pairs_at h q = Some ps /\
    exists v, list_at h r = Some v /\ l_pairs v = ps.
Proof.
  intros G E. pose proof (proj2 G _ _ E) as K. cbn in K. destruct K as ((q & S) & A & B & C).
  assert (refs_at h r = Some q) as R by (unfold refs_at; rewrite E, S; reflexivity).
  destruct (pairs_seen h q G (refs_keys _ _ _ G R)) as (ps & P).
  apply attribute_seen in A as (a & A), B as (b & B), C as (c & C).
  exists q, ps. split; [exact R|]. split; [exact S|]. split; [exact P|]. unfold list_at. rewrite E, R, P, A, B, C. eauto.
Qed.
Lemma refs_at_app h n r : good h -> r < length h -> refs_at (h ++ n) r = refs_at h r.
Proof.
  intros G L. unfold refs_at. rewrite nth_app_lt by exact L. destruct (nth_error h r) as [[| | | lo]|] eqn:E; try reflexivity.
  destruct (proj2 G _ _ E) as (S & _). rewrite nth_app_lt by (apply seq_lt; exact S). reflexivity.
Qed.
Lemma list_at_app h n r : good h -> r < length h -> list_at (h ++ n) r = list_at h r.
Proof.
  intros G L. unfold list_at. rewrite refs_at_app by assumption. rewrite nth_app_lt by exact L.
  destruct (nth_error h r) as [[| | | lo]|] eqn:E; try reflexivity. destruct (proj2 G _ _ E) as (S & A & B & C).
  destruct (refs_at h r) as [q|] eqn:R; [|reflexivity].
  rewrite pairs_at_app by (try assumption; eapply refs_keys; eassumption).
  rewrite !attribute_at_app by assumption. reflexivity.
Qed.

(** ** New objects *)
Lemma nth_new {A} (h n : list A) i : nth_error (h ++ n) (length h + i) = nth_error n i.
Proof. rewrite nth_error_app2 by lia. f_equal. lia. Qed.
Lemma nth_new0 {A} (h n : list A) : nth_error (h ++ n) (length h) = nth_error n 0.
Proof. rewrite <- (nth_new h n 0). f_equal. lia. Qed.
(** [h'] is [h] with new objects. *)
Definition grown (h h' : heap) : Prop := exists n, h' = h ++ n.
Lemma grown_refl h : grown h h. Proof. exists []. symmetry. apply app_nil_r. Qed.
Lemma grown_trans a b c : grown a b -> grown b c -> grown a c.
Proof. intros (n & ->) (m & ->). exists (n ++ m). symmetry. apply app_assoc. Qed.
Lemma grown_later h h' : grown h h' -> later h h'. Proof. intros (n & ->). apply later_app. Qed.
Lemma grown_length h h' : grown h h' -> length h <= length h'. Proof. intros (n & ->). rewrite app_length. lia. Qed.
Lemma grown_nth h h' r o : grown h h' -> nth_error h r = Some o -> nth_error h' r = Some o.
Proof. intros (n & ->) E. rewrite nth_app_lt; [exact E|]. apply nth_error_Some. congruence. Qed.
Lemma grown_key_at h h' r : good h -> grown h h' -> r < length h -> key_at h' r = key_at h r.
Proof. intros G (n & ->) L. apply key_at_app; assumption. Qed.
Lemma grown_keyo_at h h' r v : good h -> grown h h' -> key_at h r = Some v -> key_at h' r = Some v.
Proof. intros G W E. rewrite <- E. apply grown_key_at; auto. apply keyo_lt. eapply key_at_key. exact E. Qed.

Lemma alloc_key_ok k h h' r : good h -> alloc_key k h = (h', r) ->
  good h' /\ grown h h' /\ length h <= r < length h' /\ key_at h' r = Some k /\
  (forall w s, part_ref h' r w = Some s -> length h <= s).
Proof.
  intros G E. unfold alloc_key in E. injection E as <- <-.
  assert (forall n, nth_error (h ++ n) (length h + 4) = nth_error n 4) as N4 by (intros; apply nth_new).
  split; [|split; [eexists; reflexivity|split; [rewrite app_length; cbn; lia|split]]].
  - apply good_app; [exact G| | |].
    + cbn. destruct strict; repeat constructor; cbn; lia.
    + cbn. destruct strict; cbn; intros r I; lia.
    + cbn. intros o [<-|[<-|[<-|[<-|[<-|[]]]]]]; cbn; auto. unfold is_dict.
      rewrite nth_new0, !nth_new. cbn. repeat split; eexists; reflexivity.
  - unfold key_at. rewrite N4. cbn [nth_error ko_header ko_params ko_footer ko_clear]. unfold dict_at. rewrite nth_new0, !nth_new. cbn. destruct k; reflexivity.
  - unfold part_ref. rewrite N4. cbn. intros w s E. injection E as <-. destruct w; lia.
Qed.
Lemma alloc_pair_ok q h h' r : good h -> alloc_pair q h = (h', r) ->
  good h' /\ grown h h' /\ (length h <= fst r < length h' /\ length h <= snd r < length h') /\ fst r <> snd r /\ pair_at h' r = Some q.
Proof.
  intros G E. unfold alloc_pair in E.
  destruct (alloc_key (pr_public q) h) as (h1, a) eqn:A. destruct (alloc_key (pr_private q) h1) as (h2, b) eqn:B.
  injection E as <- <-. destruct (alloc_key_ok _ _ _ _ G A) as (G1 & W1 & L1 & K1 & _).
  destruct (alloc_key_ok _ _ _ _ G1 B) as (G2 & W2 & L2 & K2 & _).
  pose proof (grown_length _ _ W1). pose proof (grown_length _ _ W2).
  split; [exact G2|]. split; [eapply grown_trans; eassumption|]. cbn [fst snd]. split; [lia|]. split; [lia|].
  unfold pair_at. cbn [fst snd]. rewrite K2, (grown_keyo_at _ _ _ _ G1 W2 K1). destruct q; reflexivity.
Qed.
Lemma grown_pair_at h h' r v : good h -> grown h h' -> pair_at h r = Some v -> pair_at h' r = Some v.
Proof.
  intros G W E. destruct (pair_at_keys _ _ _ E) as (A & B). rewrite <- E.
  apply pair_at_eq; apply grown_key_at; auto using keyo_lt.
Qed.
Lemma alloc_pairs_ok l h h' r : good h -> alloc_pairs l h = (h', r) ->
  good h' /\ grown h h' /\ (forall a b, In (a, b) r -> length h <= a /\ length h <= b) /\ pairs_at h' r = Some l.
Proof.
  revert h h' r. induction l as [|q l IH]; intros h h' r G E; cbn [alloc_pairs] in E.
  - injection E as <- <-. split; [exact G|]. split; [apply grown_refl|]. split; [contradiction|reflexivity].
  - destruct (alloc_pair q h) as (h1, a) eqn:A. destruct (alloc_pairs l h1) as (h2, b) eqn:B. injection E as <- <-.
    destruct (alloc_pair_ok _ _ _ _ G A) as (G1 & W1 & L1 & _ & K1). destruct (IH _ _ _ G1 B) as (G2 & W2 & L2 & K2).
    pose proof (grown_length _ _ W1).
    split; [exact G2|]. split; [eapply grown_trans; eassumption|]. split.
    + intros u v [->|I]; [cbn [fst snd] in L1; lia|]. specialize (L2 u v I). lia.
    + cbn. rewrite K2, (grown_pair_at _ _ _ _ G1 W2 K1). reflexivity.
Qed.
Lemma alloc_dict_ok d h h' r : good h -> alloc_dict d h = (h', r) ->
  good h' /\ grown h h' /\ length h <= r < length h' /\ dict_at h' r = Some d.
Proof.
  intros G E. unfold alloc_dict in E. injection E as <- <-. split; [|split; [eexists; reflexivity|split]].
  - apply good_app; [exact G|constructor|contradiction|]. intros o [<-|[]]. exact I.
  - rewrite app_length. cbn. lia.
  - unfold dict_at. rewrite nth_new0. reflexivity.
Qed.
Lemma alloc_option_ok o h h' r : good h -> alloc_option o h = (h', r) ->
  good h' /\ grown h h' /\ attribute_at h' r = Some o /\ (forall s, r = Some s -> length h <= s).
Proof.
  intros G E. destruct o as [d|]; cbn in E.
  - destruct (alloc_dict_ok d h _ _ G eq_refl) as (G1 & W1 & L1 & D1). injection E as <- <-.
    split; [exact G1|]. split; [exact W1|]. split; [cbn; rewrite D1; reflexivity|]. intros s [= <-]. lia.
  - injection E as <- <-. split; [exact G|]. split; [apply grown_refl|]. split; [reflexivity|]. discriminate.
Qed.
Lemma grown_attr h h' o v : grown h h' -> attribute_at h o = Some v -> attribute_at h' o = Some v.
Proof.
  intros (n & ->) E. rewrite <- E. apply attribute_at_app. apply attribute_seen. eauto.
Qed.
Lemma list_block_ok h refs lo ps a b c : good h -> lo_data lo = length h ->
  pairs_at h refs = Some ps -> attribute_at h (lo_header lo) = Some a -> attribute_at h (lo_kdf_options lo) = Some b ->
  attribute_at h (lo_decipher_header lo) = Some c ->
  let h' := h ++ [HSeq refs; HList lo] in
  good h' /\ grown h h' /\ length h <= length h + 1 < length h' /\ refs_at h' (length h + 1) = Some refs /\
  nth_error h' (length h + 1) = Some (HList lo) /\
  list_at h' (length h + 1) = Some (mkpkl ps (lo_byte_string lo) a (lo_cipher_bytes lo) b (lo_decipher_bytes lo) c (lo_padding lo)).
Proof.
  intros G D P A B C h'.
  assert (grown h h') as W by (eexists; reflexivity).
  assert (later h h') as L by (apply grown_later; exact W).
  assert (nth_error h' (length h + 1) = Some (HList lo)) as N1 by (unfold h'; rewrite nth_new; reflexivity).
  assert (nth_error h' (length h) = Some (HSeq refs)) as N0 by (unfold h'; rewrite nth_new0; reflexivity).
  assert (refs_at h' (length h + 1) = Some refs) as R by (unfold refs_at; rewrite N1, D, N0; reflexivity).
  split; [|split; [exact W|split; [unfold h'; rewrite app_length; cbn; lia|split; [exact R|split; [exact N1|]]]]].
  - apply good_app; [exact G| | |].
    + cbn. repeat constructor. intros [].
    + cbn. rewrite D. intros r [<-|[]]. lia.
    + intros o [<-|[<-|[]]].
      * cbn. intros u v I. destruct (pairs_at_keys _ _ _ P u v I). split; eapply later_keyo; eassumption.
      * cbn. rewrite D. split; [eexists; exact N0|].
        repeat split; eapply later_attr; try exact L; apply attribute_seen; eauto.
  - unfold list_at. rewrite N1, R. rewrite (grown_attr _ _ _ _ W A), (grown_attr _ _ _ _ W B), (grown_attr _ _ _ _ W C).
    assert (pairs_at h' refs = Some ps) as ->; [|reflexivity].
    rewrite <- P. apply pairs_at_app; [exact G|]. eapply pairs_at_keys. exact P.
Qed.
Lemma grown_pairs_at h h' l ps : good h -> grown h h' -> pairs_at h l = Some ps -> pairs_at h' l = Some ps.
Proof. intros G (n & ->) E. rewrite <- E. apply pairs_at_app; [exact G|]. eapply pairs_at_keys. exact E. Qed.

Lemma moved_dict n h r : is_dict h r -> is_dict (n ++ map (moved (length n)) h) (length n + r).
Proof. intros (d & E). exists d. rewrite nth_new, nth_error_map, E. reflexivity. Qed.
Lemma moved_attr n h o : attr_ok h o -> attr_ok (n ++ map (moved (length n)) h) (option_map (Nat.add (length n)) o).
Proof. intros A r E. destruct o as [s|]; [|discriminate]. injection E as <-. apply moved_dict. apply A. reflexivity. Qed.
Lemma moved_keyo n h r : is_keyo h r -> is_keyo (n ++ map (moved (length n)) h) (length n + r).
Proof. intros (k & E). eexists. rewrite nth_new, nth_error_map, E. reflexivity. Qed.
Lemma moved_ok h o : ok_object h o -> ok_object (h ++ map (moved (length h)) h) (moved (length h) o).
Proof.
  destruct o as [d|k|q|l]; cbn [moved ok_object]; [trivial| | |].
  - intros (A & B & C & D). cbn. auto using moved_dict.
  - intros K a b I. apply in_map_iff in I as ((u, v) & E & I). injection E as <- <-. destruct (K u v I). auto using moved_keyo.
  - intros ((q & S) & A & B & C). cbn. repeat split; auto using moved_attr.
    eexists. rewrite nth_new, nth_error_map, S. reflexivity.
Qed.
Lemma moved_owned n h : flat_map owned_by (map (moved n) h) = map (Nat.add n) (flat_map owned_by h).
Proof.
  induction h as [|o h IH]; [reflexivity|]. cbn [map flat_map]. rewrite IH, map_app. f_equal.
  destruct o; cbn; try reflexivity. destruct strict; reflexivity.
Qed.
Lemma deep_good h : good h -> good (h ++ map (moved (length h)) h).
Proof.
  intros G. apply good_app; [exact G| | |].
  - rewrite moved_owned. apply FinFun.Injective_map_NoDup; [intros a b E; lia|]. apply G.
  - rewrite moved_owned. intros r I. apply in_map_iff in I as (s & <- & _). lia.
  - intros o I. apply in_map_iff in I as (u & <- & I). apply In_nth_error in I as (i & E). apply moved_ok. exact (proj2 G _ _ E).
Qed.

(** ** Lists of references *)
Lemma replace_In {A} (z y : A) l i : In z (replace_nth i y l) -> z = y \/ In z l.
Proof.
  revert i. induction l as [|a l IH]; intros [|i]; cbn; auto; intros [->|I]; auto. destruct (IH i I); auto.
Qed.
Lemma replace_all_In {A} (z : A) ps xs l : In z (replace_all ps xs l) -> In z xs \/ In z l.
Proof.
  revert xs l. induction ps as [|i ps IH]; intros [|y xs] l; cbn; auto. intros I.
  destruct (IH _ _ I) as [J|J]; [auto|]. apply replace_In in J as [->|J]; auto.
Qed.
Lemma keep_In {A} (z : A) f i l : In z (keep_at f i l) -> In z l.
Proof. revert i. induction l as [|a l IH]; intros i; cbn; auto. destruct (f i); cbn; intuition eauto. Qed.
Lemma firstn_In' {A} (z : A) n l : In z (firstn n l) -> In z l.
Proof. intros I. rewrite <- (firstn_skipn n l). apply in_or_app. auto. Qed.
Lemma skipn_In' {A} (z : A) n l : In z (skipn n l) -> In z l.
Proof. intros I. rewrite <- (firstn_skipn n l). apply in_or_app. auto. Qed.
Lemma repeated_In {A} (z : A) n l : In z (repeated n l) -> In z l.
Proof.
  unfold repeated. intros I. apply in_concat in I as (y & J & K). apply repeat_spec in J. subst. exact K.
Qed.
Lemma remove_first_In {A} eqb (y z : A) l r : remove_first eqb y l = Ok r -> In z r -> In z l.
Proof.
  revert r. induction l as [|a l IH]; cbn; intros r E I; [discriminate|]. destruct (eqb a y); [injection E as <-; auto|].
  destruct (remove_first eqb y l); [|discriminate]. injection E as <-. destruct I as [->|I]; [auto|right]. eapply IH; eauto.
Qed.
Lemma rmap_index_In {A} (z : A) l ps r : rmap (py_index l) ps = Ok r -> In z r -> In z l.
Proof.
  revert r. induction ps as [|i ps IH]; cbn; intros r E I; [injection E as <-; contradiction|].
  unfold py_index at 1 in E. destruct (_ && _); [|discriminate]. destruct (nth_error l _) eqn:N; [|discriminate].
  cbn [rbind] in E. destruct (rmap (py_index l) ps); [|discriminate]. injection E as <-.
  destruct I as [->|I]; [eapply nth_error_In; exact N|]. eapply IH; [reflexivity|exact I].
Qed.
Lemma edit_items_In eqb e l r z : edit_items eqb e l = Ok r -> In z r -> In z l \/ In z (edit_refs e).
Proof.
  destruct e as [y|xs|i y|i|y| | |n|i y|i|s xs|s|ks reverse|]; cbn [edit_items edit_refs]; intros E I.
  - injection E as <-. apply in_app_or in I. exact I.
  - injection E as <-. apply in_app_or in I. exact I.
  - injection E as <-. unfold insert_at in I. apply in_app_or in I as [I|[->|I]].
    + left. eapply firstn_In'. exact I.
    + right. left. reflexivity.
    + left. eapply skipn_In'. exact I.
  - destruct (index_pos l i); [|discriminate]. cbn in E. injection E as <-. unfold remove_nth in I. left.
    apply in_app_or in I as [I|I]; [eapply firstn_In'|eapply skipn_In']; exact I.
  - left. eapply remove_first_In; eassumption.
  - injection E as <-. contradiction.
  - injection E as <-. left. apply in_rev. exact I.
  - injection E as <-. left. eapply repeated_In. exact I.
  - destruct (index_pos l i); [|discriminate]. cbn in E. injection E as <-. apply replace_In in I as [->|I]; cbn; auto.
  - destruct (index_pos l i); [|discriminate]. cbn in E. injection E as <-. unfold remove_nth in I. left.
    apply in_app_or in I as [I|I]; [eapply firstn_In'|eapply skipn_In']; exact I.
  - unfold set_slice in E. destruct (sl_step_of s =? 1)%Z.
    + injection E as <-. apply in_app_or in I as [I|I]; [left; eapply firstn_In'; exact I|].
      apply in_app_or in I as [I|I]; [right; exact I|left; eapply skipn_In'; exact I].
    + destruct (positions (length l) s); [|discriminate]. cbn [rbind] in E. destruct (_ =? _); [|discriminate].
      injection E as <-. apply replace_all_In in I as [I|I]; auto.
  - unfold del_slice in E. destruct (positions (length l) s); [|discriminate]. cbn [rbind] in E. injection E as <-.
    left. eapply keep_In. exact I.
  - injection E as <-. left. unfold sort_items in I. apply in_flat_map in I as (i & _ & I).
    destruct (nth_error l i) as [u|] eqn:N; [|destruct I]. destruct I as [->|[]]. eapply nth_error_In. exact N.
  - destruct (neighbours_equal eqb l); [|discriminate]. injection E as <-. auto.
Qed.
Lemma derive_items_In d l r z : derive_items d l = Ok r -> In z r -> In z l \/ In z (derive_refs d).
Proof.
  destruct d as [s| |xs|xs|n]; cbn [derive_items derive_refs]; intros E I.
  - unfold get_slice in E. destruct (positions (length l) s); [|discriminate]. cbn [rbind] in E. left. eapply rmap_index_In; eassumption.
  - injection E as <-. auto.
  - injection E as <-. apply in_app_or in I. exact I.
  - injection E as <-. apply in_app_or in I. tauto.
  - injection E as <-. left. eapply repeated_In. exact I.
Qed.

(** ** Commands *)
Section Steps.
Variable p : prims.
Variable x : ext.
Variable gen : request -> res obj.
Notation step := (step p x gen).
Notation run := (run p x gen).
Notation reachable := (reachable p x gen).

Lemma from_list_shows h l cipher kdf d v :
  from_list (map (fun q => PairItem (key_at h (fst q)) (key_at h (snd q))) l) cipher kdf d = Ok v ->
  pairs_at h l = Some (l_pairs v) /\ l_byte_string v = None /\ l_cipher_bytes v = None /\
  l_decipher_bytes v = None /\ l_decipher_header v = None /\ l_padding v = None /\
  l_header v = Some [(str "cipher", VStr cipher); (str "kdf", VStr kdf)] /\
  l_kdf_options v = Some (match d with Some d => d | None => [] end).
Proof.
  unfold from_list. destruct (rmap check_item _) as [ps|] eqn:E; [|discriminate]. cbn [rbind]. intros H. injection H as <-. cbn.
  split; [|repeat split; reflexivity]. revert ps E. induction l as [|q l IH]; cbn; intros ps E.
  - injection E as <-. reflexivity.
  - unfold pair_at. destruct (key_at h (fst q)) as [a|]; [|discriminate]. destruct (key_at h (snd q)) as [b|]; [|discriminate].
    cbn in E. destruct (k_kind a); [|discriminate]. destruct (k_kind b); [discriminate|]. cbn [rbind] in E.
    destruct (rmap check_item _) as [ps'|]; [|discriminate]. cbn [rbind] in E. injection E as <-.
    rewrite (IH _ eq_refl). reflexivity.
Qed.

(** What a command does to the heap. *)
Lemma step_ok c h : good h -> let h' := fst (step c h) in good h' /\
  match c with
  | Mutate r d => h' = h \/ exists d0, nth_error h r = Some (HDict d0) /\ h' = store r (HDict d) h
  | EditList r _ => h' = h \/ exists lo q q', nth_error h r = Some (HList lo) /\ nth_error h (lo_data lo) = Some (HSeq q) /\
                                 h' = store (lo_data lo) (HSeq q') h
  | _ => grown h h'
  end.
Proof.
  intros G h'.
  assert (forall r : res key, let h' := fst (match r with Ok k => let '(h, r) := alloc_key k h in (h, Ok (Ref r)) | Err e => (h, Err e) end) in
            good h' /\ grown h h') as MK.
  { intros [k|e]; cbn zeta.
    - destruct (alloc_key k h) as (h1, r) eqn:E. cbn. destruct (alloc_key_ok _ _ _ _ G E) as (A & B & _). auto.
    - cbn. split; [exact G|apply grown_refl]. }
  assert (good h /\ grown h h) as ID by (split; [exact G|apply grown_refl]).
  subst h'. destruct c as [d|r d|k rh rp rf rc|k b rc|k s|t cm kw|l ci kd op|e b pw|l e|l d|l|r]; cbn [Heap.step].
  - destruct (alloc_dict_ok d h _ _ G eq_refl) as (A & B & _). split; [exact A|exact B].
  - unfold dict_at. destruct (nth_error h r) as [o|] eqn:E; [|cbn; auto]. destruct o; cbn [fst]; auto. split.
    + eapply good_store; [exact G|exact E|exact I|exact I].
    + right. eauto.
  - destruct (dict_at h rh); [|exact ID]. destruct (dict_at h rp); [|exact ID]. destruct (dict_at h rf); [|exact ID].
    destruct (attribute_at h rc); [|exact ID]. apply MK.
  - destruct (attribute_at h rc); [|exact ID]. apply MK.
  - apply MK.
  - destruct (snd (generate_pair x gen t cm kw)) as [q|e]; [|exact ID]. destruct (alloc_pair q h) as (h1, r) eqn:E. cbn.
    destruct (alloc_pair_ok _ _ _ _ G E) as (A & B & _). auto.
  - destruct (attribute_at h op) as [d|] eqn:A; [|exact ID].
    destruct (from_list _ ci kd d) as [v|e] eqn:F; [|exact ID]. apply from_list_shows in F as (P & _ & _ & _ & _ & _ & _ & _).
    destruct (alloc_option (l_header v) h) as (h1, hd) eqn:E1. destruct (alloc_option_ok _ _ _ _ G E1) as (G1 & W1 & A1 & _).
    assert (exists h2 ko b, (match op with Some r => (h1, Some r) | None => alloc_option (l_kdf_options v) h1 end) = (h2, ko) /\
              good h2 /\ grown h1 h2 /\ attribute_at h2 ko = Some b) as (h2 & ko & b & E2 & G2 & W2 & A2).
    { destruct op as [r|].
      - exists h1, (Some r), d. split; [reflexivity|]. split; [exact G1|]. split; [apply grown_refl|]. eapply grown_attr; [exact W1|exact A].
      - destruct (alloc_option (l_kdf_options v) h1) as (h2, ko) eqn:E2. destruct (alloc_option_ok _ _ _ _ G1 E2) as (G2 & W2 & A2 & _).
        exists h2, ko, (l_kdf_options v). auto. }
    rewrite E2. unfold alloc_list. cbn [fst].
    destruct (list_block_ok h2 l (mklo (length h2) (l_byte_string v) hd (l_cipher_bytes v) ko (l_decipher_bytes v) None (l_padding v))
                (l_pairs v) (l_header v) b None G2 eq_refl) as (G3 & W3 & _).
    + eapply grown_pairs_at; [exact G1|exact W2|]. eapply grown_pairs_at; [exact G|exact W1|exact P].
    + eapply grown_attr; [exact W2|exact A1].
    + exact A2.
    + reflexivity.
    + split; [exact G3|]. eapply grown_trans; [exact W1|]. eapply grown_trans; [exact W2|exact W3].
  - destruct (snd (list_from_bytes p e b pw)) as [v|e']; [|exact ID].
    destruct (alloc_pairs (l_pairs v) h) as (h0, refs) eqn:E0. destruct (alloc_pairs_ok _ _ _ _ G E0) as (G0 & W0 & _ & P0).
    destruct (alloc_option (l_header v) h0) as (h1, hd) eqn:E1. destruct (alloc_option_ok _ _ _ _ G0 E1) as (G1 & W1 & A1 & _).
    destruct (alloc_option (l_kdf_options v) h1) as (h2, ko) eqn:E2. destruct (alloc_option_ok _ _ _ _ G1 E2) as (G2 & W2 & A2 & _).
    destruct (alloc_option (l_decipher_header v) h2) as (h3, dh) eqn:E3. destruct (alloc_option_ok _ _ _ _ G2 E3) as (G3 & W3 & A3 & _).
    unfold alloc_list. cbn [fst].
    destruct (list_block_ok h3 refs (mklo (length h3) (l_byte_string v) hd (l_cipher_bytes v) ko (l_decipher_bytes v) dh (l_padding v))
                (l_pairs v) (l_header v) (l_kdf_options v) (l_decipher_header v) G3 eq_refl) as (G4 & W4 & _).
    + eapply grown_pairs_at; [exact G2|exact W3|]. eapply grown_pairs_at; [exact G1|exact W2|]. eapply grown_pairs_at; [exact G0|exact W1|exact P0].
    + eapply grown_attr; [exact W3|]. eapply grown_attr; [exact W2|exact A1].
    + eapply grown_attr; [exact W3|exact A2].
    + exact A3.
    + split; [exact G4|]. repeat (eapply grown_trans; [eassumption|]). apply grown_refl.
  - unfold refs_at. destruct (nth_error h l) as [[| | | lo]|] eqn:E; try (cbn; tauto).
    destruct (nth_error h (lo_data lo)) as [[| | q |]|] eqn:S; try (cbn; tauto).
    destruct (pairs_at h (edit_refs e)) eqn:P; [|cbn; tauto].
    destruct (edit_items (same_pair h) e q) as [q'|] eqn:F; [|cbn; tauto]. cbn [fst]. split.
    + eapply good_store; [exact G|exact S|exact I|]. cbn. intros u v K.
      destruct (edit_items_In _ _ _ _ _ F K) as [K'|K'].
      * apply (proj2 G _ _ S u v K').
      * eapply pairs_at_keys; eassumption.
    + right. exists lo, q, q'. auto.
  - destruct (refs_at h l) as [q|] eqn:R; [|exact ID]. destruct (pairs_at h (derive_refs d)) eqn:P; [|exact ID].
    destruct (derive_items d q) as [q'|] eqn:F; [|exact ID]. unfold alloc_list. cbn [fst].
    destruct (pairs_seen h q' G) as (ps & Q).
    { intros u v K. destruct (derive_items_In _ _ _ _ F K) as [K'|K']; [eapply refs_keys; eassumption|eapply pairs_at_keys; eassumption]. }
    destruct (list_block_ok h q' (mklo (length h) None None None None None None None) ps None None None G eq_refl Q eq_refl eq_refl eq_refl)
      as (G1 & W1 & _). auto.
  - destruct (nth_error h l) as [[| | | lo]|] eqn:E; try exact ID. destruct (refs_at h l) as [q|] eqn:R; [|exact ID]. cbn [fst].
    destruct (pairs_seen h q G (refs_keys _ _ _ G R)) as (ps & Q).
    destruct (proj2 G _ _ E) as (_ & A & B & C). apply attribute_seen in A as (a & A), B as (b & B), C as (c & C).
    destruct (list_block_ok h q (mklo (length h) (lo_byte_string lo) (lo_header lo) (lo_cipher_bytes lo) (lo_kdf_options lo)
                             (lo_decipher_bytes lo) (lo_decipher_header lo) (lo_padding lo)) ps a b c G eq_refl Q A B C) as (G1 & W1 & _). auto.
  - destruct (r <? length h); [|exact ID]. cbn [fst]. split; [apply deep_good; exact G|eexists; reflexivity].
Qed.
Lemma step_good c h : good h -> good (fst (step c h)).
Proof. intros G. apply (step_ok c h G). Qed.
Lemma step_later c h : good h -> later h (fst (step c h)).
Proof.
  intros G. pose proof (proj2 (step_ok c h G)) as S. destruct c; try (apply grown_later; exact S).
  - destruct S as [->|(d0 & E & ->)]; [apply later_refl|]. eapply later_store; [exact E|exact I].
  - destruct S as [->|(lo & q & q' & _ & E & ->)]; [apply later_refl|]. eapply later_store; [exact E|exact I].
Qed.
Lemma run_good cs h : good h -> good (run cs h).
Proof. revert h. induction cs as [|c cs IH]; intros h G; cbn; [exact G|]. apply IH. apply step_good. exact G. Qed.
Lemma run_later cs h : good h -> later h (run cs h).
Proof.
  revert h. induction cs as [|c cs IH]; intros h G; cbn; [apply later_refl|].
  eapply later_trans; [apply step_later; exact G|]. apply IH. apply step_good. exact G.
Qed.
Lemma empty_good : good [].
Proof. split; [constructor|]. intros [|r] o E; discriminate. Qed.
End Steps.

(** ** Frames *)
Lemma dict_at_store h s o r : s <> r -> dict_at (store s o h) r = dict_at h r.
Proof. intros N. unfold dict_at, store. rewrite store_other by exact N. reflexivity. Qed.
Lemma nth_lt {A} (h : list A) r o : nth_error h r = Some o -> r < length h.
Proof. intros E. apply nth_error_Some. congruence. Qed.
Lemma store_key_at h s o o' b : nth_error h s = Some o -> same_sort o o' -> (forall k, o <> HKey k) ->
  (forall w, part_ref h b w <> Some s) -> key_at (store s o' h) b = key_at h b.
Proof.
  intros E S K P. unfold key_at, part_ref in *. destruct (Nat.eq_dec s b) as [->|N].
  - assert (nth_error (store b o' h) b = Some o') as -> by (apply store_same; eapply nth_lt; exact E).
    rewrite E. destruct o, o'; try contradiction; try reflexivity. destruct (K k eq_refl).
  - assert (nth_error (store s o' h) b = nth_error h b) as -> by (apply store_other; exact N).
    destruct (nth_error h b) as [[| k | |]|]; try reflexivity.
    pose proof (P InHeader) as P1. pose proof (P InParams) as P2. pose proof (P InFooter) as P3. pose proof (P InClear) as P4. cbn in P1, P2, P3, P4.
    rewrite !dict_at_store by (intros U; rewrite U in *; first [apply P1; reflexivity|apply P2; reflexivity|apply P3; reflexivity|apply P4; reflexivity]).
    reflexivity.
Qed.
Lemma part_dict h a w s : good h -> part_ref h a w = Some s -> is_dict h s /\ exists k, nth_error h a = Some (HKey k) /\ In s (owned_in true (HKey k)).
Proof.
  unfold part_ref. intros G. destruct (nth_error h a) as [[| k | |]|] eqn:E; try discriminate. intros [= <-].
  destruct (proj2 G _ _ E) as (A & B & C & D). split; [destruct w; assumption|]. exists k. split; [reflexivity|].
  destruct w; cbn; auto.
Qed.
End Invariant.
Notation good := (good_in true).
Lemma reachable_good p x gen h : reachable p x gen h -> good h.
Proof. intros (cs & ->). eapply run_good. apply empty_good. Qed.
(** No two keys have a dictionary in common. *)
Lemma parts_apart h a b w w' s : good h -> part_ref h a w = Some s -> part_ref h b w' = Some s -> a = b /\ w = w'.
Proof.
  intros G A B. destruct (part_dict _ _ _ _ G A) as (_ & k & E & I). destruct (part_dict _ _ _ _ G B) as (_ & k' & E' & I').
  destruct (Nat.eq_dec a b) as [->|N]; [|exfalso; exact (owned_disjoint _ _ _ _ _ _ G N E E' I I')].
  split; [reflexivity|]. unfold part_ref in A, B. rewrite E in *. pose proof (owned_nodup _ _ _ G E) as U. cbn in U.
  inversion U as [|? ? U1 V1]; subst. inversion V1 as [|? ? U2 V2]; subst. inversion V2 as [|? ? U3 V3]; subst. cbn in U1, U2, U3.
  injection A as A. injection B as B. destruct w, w'; try reflexivity; exfalso; rewrite <- B in A; pose proof (eq_sym A);
    first [apply U1; tauto|apply U2; tauto|apply U3; tauto].
Qed.
Lemma mutate_part h a w s d : good h -> part_ref h a w = Some s ->
  exists k, key_at h a = Some k /\ key_at (store s (HDict d) h) a = Some (with_part w d k).
Proof.
  intros G P. destruct (part_dict _ _ _ _ G P) as ((d0 & D) & ko & E & I). destruct (key_seen _ _ _ G E) as (k & K). exists k. split; [exact K|].
  assert (forall w', w' <> w -> forall s', part_ref h a w' = Some s' -> s <> s') as O.
  { intros w' N s' Q ->. apply N. eapply proj2, parts_apart; eassumption. }
  assert (dict_at (store s (HDict d) h) s = Some d) as DS.
  { unfold dict_at, store. rewrite store_same by (eapply nth_lt; exact D). reflexivity. }
  assert (s <> a) as SA by congruence.
  unfold key_at in *. unfold store at 1. rewrite store_other by exact SA. rewrite E in *. unfold part_ref in P, O. rewrite E in P, O.
  destruct (dict_at h (ko_header ko)) eqn:D1; [|discriminate]. destruct (dict_at h (ko_params ko)) eqn:D2; [|discriminate].
  destruct (dict_at h (ko_footer ko)) eqn:D3; [|discriminate]. destruct (dict_at h (ko_clear ko)) eqn:D4; [|discriminate].
  injection K as <-. injection P as P. destruct w; subst s; rewrite DS;
    rewrite ?(dict_at_store _ _ _ (ko_header ko)), ?(dict_at_store _ _ _ (ko_params ko)), ?(dict_at_store _ _ _ (ko_footer ko)), ?(dict_at_store _ _ _ (ko_clear ko));
    rewrite ?D1, ?D2, ?D3, ?D4; try reflexivity;
    first [apply (O InHeader); [discriminate|reflexivity]|apply (O InParams); [discriminate|reflexivity]
          |apply (O InFooter); [discriminate|reflexivity]|apply (O InClear); [discriminate|reflexivity]].
Qed.
Section Invariant.
Context {strict : bool}.
Local Notation good := (good_in strict).
Lemma seq_not_part h b w s q : good h -> nth_error h s = Some (HSeq q) -> part_ref h b w <> Some s.
Proof. intros G E P. destruct (part_dict _ _ _ _ G P) as ((d & D) & _). congruence. Qed.
Lemma dict_at_seq h s q q' r : nth_error h s = Some (HSeq q) -> dict_at (store s (HSeq q') h) r = dict_at h r.
Proof.
  intros E. destruct (Nat.eq_dec s r) as [->|N]; [|apply dict_at_store; exact N].
  unfold dict_at, store. rewrite store_same by (eapply nth_lt; exact E). rewrite E. reflexivity.
Qed.
Lemma key_at_seq h s q q' r : good h -> nth_error h s = Some (HSeq q) -> key_at (store s (HSeq q') h) r = key_at h r.
Proof. intros G E. eapply store_key_at; [exact E|exact I|discriminate|]. intros w. eapply seq_not_part; eassumption. Qed.
Lemma pairs_at_seq h s q q' l : good h -> nth_error h s = Some (HSeq q) -> pairs_at (store s (HSeq q') h) l = pairs_at h l.
Proof. intros G E. apply pairs_at_eq. intros a b _. split; eapply key_at_seq; eassumption. Qed.
Lemma attribute_at_seq h s q q' o : nth_error h s = Some (HSeq q) -> attribute_at (store s (HSeq q') h) o = attribute_at h o.
Proof. intros E. apply attribute_at_eq. intros r _. eapply dict_at_seq. exact E. Qed.
(** Changing the data of one list. *)
Lemma refs_at_store h r lo q q' : good h -> nth_error h r = Some (HList lo) -> nth_error h (lo_data lo) = Some (HSeq q) ->
  let h' := store (lo_data lo) (HSeq q') h in
  refs_at h' r = Some q' /\ nth_error h' r = Some (HList lo) /\ forall b, b <> r -> refs_at h' b = refs_at h b.
Proof.
  intros G E S h'. assert (lo_data lo <> r) as N by congruence.
  assert (nth_error h' r = Some (HList lo)) as E' by (unfold h', store; rewrite store_other by exact N; exact E).
  split; [|split; [exact E'|]].
  - unfold refs_at. rewrite E'. unfold h', store. rewrite store_same by (eapply nth_lt; exact S). reflexivity.
  - intros b NB. unfold refs_at. destruct (Nat.eq_dec (lo_data lo) b) as [<-|NB'].
    + unfold h', store at 1. rewrite store_same by (eapply nth_lt; exact S). rewrite S. reflexivity.
    + unfold h' at 1. unfold store at 1. rewrite store_other by exact NB'. destruct (nth_error h b) as [[| | | lb]|] eqn:B; try reflexivity.
      unfold h', store. rewrite store_other; [reflexivity|]. intros K.
      apply (owned_disjoint h r b _ _ (lo_data lo) G (fun u => NB (eq_sym u)) E B); cbn; auto.
Qed.
Lemma list_at_other h r lo q q' : good h -> nth_error h r = Some (HList lo) -> nth_error h (lo_data lo) = Some (HSeq q) ->
  let h' := store (lo_data lo) (HSeq q') h in forall b, b <> r -> list_at h' b = list_at h b.
Proof.
  intros G E S h' b N. destruct (refs_at_store h r lo q q' G E S) as (_ & _ & R). unfold list_at. fold h' in R. rewrite (R b N).
  destruct (Nat.eq_dec (lo_data lo) b) as [<-|NB'].
  - unfold h', store at 1. rewrite store_same by (eapply nth_lt; exact S). rewrite S. reflexivity.
  - unfold h' at 1. unfold store at 1. rewrite store_other by exact NB'. destruct (nth_error h b) as [[| | | lb]|] eqn:B; try reflexivity.
    destruct (refs_at h b) as [l|]; [|reflexivity]. unfold h'. rewrite (pairs_at_seq h _ q) by assumption.
    rewrite !(attribute_at_seq h _ q) by assumption. reflexivity.
Qed.

End Invariant.

(** ** References and what they refer to *)
Section Naturality.
Context {A B : Type} (f : A -> B).
Definition rfmap (r : res (list A)) : res (list B) := match r with Ok l => Ok (map f l) | Err e => Err e end.
Lemma replace_map i y l : replace_nth i (f y) (map f l) = map f (replace_nth i y l).
Proof. revert i. induction l as [|a l IH]; intros [|i]; cbn; try reflexivity. rewrite IH. reflexivity. Qed.
Lemma replace_all_map ps xs l : replace_all ps (map f xs) (map f l) = map f (replace_all ps xs l).
Proof. revert xs l. induction ps as [|i ps IH]; intros [|y xs] l; cbn; try reflexivity. rewrite replace_map. apply IH. Qed.
Lemma keep_map g i l : keep_at g i (map f l) = map f (keep_at g i l).
Proof. revert i. induction l as [|a l IH]; intros i; cbn; [reflexivity|]. rewrite IH. destruct (g i); reflexivity. Qed.
Lemma repeated_map n l : repeated n (map f l) = map f (repeated n l).
Proof. unfold repeated. rewrite concat_map. f_equal. induction (Z.to_nat n); cbn; [reflexivity|]. f_equal. assumption. Qed.
Lemma insert_map i y l : insert_at i (f y) (map f l) = map f (insert_at i y l).
Proof. unfold insert_at. rewrite map_app. cbn [map]. rewrite map_length, firstn_map, skipn_map. reflexivity. Qed.
Lemma remove_nth_map i l : remove_nth i (map f l) = map f (remove_nth i l).
Proof. unfold remove_nth. rewrite map_app, firstn_map, skipn_map. reflexivity. Qed.
Lemma index_pos_map l i : index_pos (map f l) i = index_pos l i.
Proof. unfold index_pos. rewrite map_length. reflexivity. Qed.
Lemma remove_first_map (ea : A -> A -> bool) (eb : B -> B -> bool) y l :
  (forall z, In z l -> ea z y = eb (f z) (f y)) -> remove_first eb (f y) (map f l) = rfmap (remove_first ea y l).
Proof.
  induction l as [|a l IH]; intros H; cbn; [reflexivity|]. rewrite <- (H a) by (left; reflexivity).
  destruct (ea a y); [reflexivity|]. rewrite IH by (intros z I; apply H; right; exact I).
  destruct (remove_first ea y l); reflexivity.
Qed.
Lemma py_index_map l i : py_index (map f l) i = match py_index l i with Ok y => Ok (f y) | Err e => Err e end.
Proof.
  unfold py_index. rewrite map_length. destruct (_ && _); [|reflexivity]. rewrite nth_error_map.
  destruct (nth_error l _); reflexivity.
Qed.
Lemma rmap_index_map l ps : rmap (py_index (map f l)) ps = rfmap (rmap (py_index l) ps).
Proof.
  induction ps as [|i ps IH]; [reflexivity|]. cbn [rmap]. rewrite py_index_map. destruct (py_index l i); [|reflexivity]. cbn [rbind].
  rewrite IH. destruct (rmap (py_index l) ps); reflexivity.
Qed.
Lemma set_slice_map l s xs : set_slice (map f l) s (map f xs) = rfmap (set_slice l s xs).
Proof.
  unfold set_slice. rewrite !map_length. destruct (sl_step_of s =? 1)%Z.
  - cbn [rfmap]. rewrite !map_app, firstn_map, skipn_map. reflexivity.
  - destruct (positions (length l) s); [|reflexivity]. cbn [rbind]. destruct (_ =? _)%nat; [|reflexivity].
    cbn [rfmap]. rewrite replace_all_map. reflexivity.
Qed.
Lemma del_slice_map l s : del_slice (map f l) s = rfmap (del_slice l s).
Proof. unfold del_slice. rewrite map_length. destruct (positions (length l) s); [|reflexivity]. cbn [rbind rfmap]. rewrite keep_map. reflexivity. Qed.
Lemma get_slice_map l s : get_slice (map f l) s = rfmap (get_slice l s).
Proof. unfold get_slice. rewrite map_length. destruct (positions (length l) s); [|reflexivity]. cbn [rbind]. apply rmap_index_map. Qed.
Definition edit_map (e : edit_of A) : edit_of B :=
  match e with
  | Append y => Append (f y) | Extend xs => Extend (map f xs) | Insert i y => Insert i (f y) | Pop i => Pop i
  | Remove y => Remove (f y) | Clear => Clear | Reverse => Reverse | IMul n => IMul n | SetItem i y => SetItem i (f y)
  | DelItem i => DelItem i | SetSlice s xs => SetSlice s (map f xs) | DelSlice s => DelSlice s
  | SortBy ks reverse => SortBy ks reverse | Sort => Sort
  end.
Definition derive_map (d : derive_of A) : derive_of B :=
  match d with GetSlice s => GetSlice s | Copy => Copy | Add xs => Add (map f xs) | RAdd xs => RAdd (map f xs) | Mul n => Mul n end.
Lemma sort_items_map ks reverse l : sort_items ks reverse (map f l) = map f (sort_items ks reverse l).
Proof.
  unfold sort_items. rewrite map_length. induction (sorted_positions ks reverse (length l)) as [|i ps IH]; [reflexivity|].
  cbn [flat_map]. rewrite map_app, IH, nth_error_map. destruct (nth_error l i); reflexivity.
Qed.
Lemma neighbours_equal_map ea eb l : (forall y z, In y l -> In z l -> ea z y = eb (f z) (f y)) ->
  neighbours_equal eb (map f l) = neighbours_equal ea l.
Proof.
  induction l as [|x l IH]; intros H; [reflexivity|]. destruct l as [|y l]; [reflexivity|]. cbn [map neighbours_equal] in *.
  rewrite (H x y) by (cbn; auto). rewrite IH; [reflexivity|]. intros u v Iu Iv. apply H; right; assumption.
Qed.
Lemma edit_items_map ea eb e l :
  (forall y, e = Remove y \/ (e = Sort /\ In y l) -> forall z, In z l -> ea z y = eb (f z) (f y)) ->
  edit_items eb (edit_map e) (map f l) = rfmap (edit_items ea e l).
Proof.
  destruct e as [y|xs|i y|i|y| | |n|i y|i|s xs|s|ks reverse|]; cbn [edit_items edit_map rfmap]; intros H; rewrite ?index_pos_map.
  - rewrite map_app. reflexivity.
  - rewrite map_app. reflexivity.
  - rewrite insert_map. reflexivity.
  - destruct (index_pos l i); [|reflexivity]. cbn [rbind rfmap]. rewrite remove_nth_map. reflexivity.
  - apply remove_first_map. apply H. left. reflexivity.
  - reflexivity.
  - rewrite map_rev. reflexivity.
  - rewrite repeated_map. reflexivity.
  - destruct (index_pos l i); [|reflexivity]. cbn [rbind rfmap]. rewrite replace_map. reflexivity.
  - destruct (index_pos l i); [|reflexivity]. cbn [rbind rfmap]. rewrite remove_nth_map. reflexivity.
  - apply set_slice_map.
  - apply del_slice_map.
  - rewrite sort_items_map. reflexivity.
  - rewrite (neighbours_equal_map ea eb); [destruct (neighbours_equal ea l); reflexivity|]. intros y z Iy Iz. apply H; auto.
Qed.
Lemma derive_items_map d l : derive_items (derive_map d) (map f l) = rfmap (derive_items d l).
Proof.
  destruct d as [s| |xs|xs|n]; cbn [derive_items derive_map rfmap].
  - apply get_slice_map.
  - reflexivity.
  - rewrite map_app. reflexivity.
  - rewrite map_app. reflexivity.
  - rewrite repeated_map. reflexivity.
Qed.
End Naturality.
