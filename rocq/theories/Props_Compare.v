(** Properties of comparing and searching pairs and lists of keys: C95. *)
From Verif Require Import PyBase Stream Classes Key Crypto PrivateKeyList UserList Compare.
From Verif Require Import SpecKey SpecCrypto SpecList SpecEdit SpecCompare.
From Verif Require Import ProofBase ProofKey ProofList Props_Key Props_Crypto Props_List Props_Edit.
Open Scope Z_scope.

(** ** Keys and pairs *)
Lemma key_same a b : well_formed a -> well_formed b -> key_eqb a b = true <-> same_key a b.
Proof. apply C54_key_equality. Qed.
Lemma pair_same a b : well_formed_pair a -> well_formed_pair b -> pair_eqb a b = true <-> same_pair a b.
Proof.
  intros (A1 & A2) (B1 & B2). rewrite C54_pair_equality, !key_same by assumption. reflexivity.
Qed.
Lemma pair_same_reflect a b : well_formed_pair a -> well_formed_pair b -> Bool.reflect (same_pair a b) (pair_eqb a b).
Proof. intros A B. apply Bool.iff_reflect. symmetry. apply pair_same; assumption. Qed.
Lemma same_key_refl a : same_key a a.
Proof. repeat split. Qed.
Lemma same_key_sym a b : same_key a b -> same_key b a.
Proof. intros (K & A & B & C & D). repeat split; try (intros x; symmetry; auto). auto. Qed.
Lemma same_key_trans a b c : same_key a b -> same_key b c -> same_key a c.
Proof.
  intros (K & A1 & A2 & A3 & A4) (L & B1 & B2 & B3 & B4). repeat split; try congruence; intros x; congruence.
Qed.
Lemma same_pair_refl a : same_pair a a.
Proof. split; apply same_key_refl. Qed.
Lemma same_pair_sym a b : same_pair a b -> same_pair b a.
Proof. intros (A & B). split; apply same_key_sym; assumption. Qed.
Lemma same_pair_trans a b c : same_pair a b -> same_pair b c -> same_pair a c.
Proof. intros (A1 & A2) (B1 & B2). split; eapply same_key_trans; eassumption. Qed.

(** Pairs are equal iff both keys are, and != is the opposite of ==. *)
Theorem C95_pairs a b :
  well_formed_pair a -> well_formed_pair b ->
  (tup_eq (APair a) (APair b) = true <-> same_pair a b) /\
  (tup_ne (APair a) (APair b) = true <-> ~ same_pair a b).
Proof.
  intros A B. split; [apply pair_same; assumption|].
  unfold tup_ne. cbn [tup_keys keys_eqb]. rewrite andb_true_r. change (negb (pair_eqb a b) = true <-> ~ same_pair a b).
  rewrite negb_true_iff, <- (pair_same a b A B). destruct (pair_eqb a b); split; congruence.
Qed.
Lemma keys_same l m : Forall well_formed l -> Forall well_formed m -> keys_eqb l m = true <-> Forall2 same_key l m.
Proof.
  intros F. revert m. induction F as [|x l X F IH]; intros m G; (destruct G as [|y m Y G]; cbn [keys_eqb]).
  - split; auto.
  - split; [discriminate|]. intros H. inversion H.
  - split; [discriminate|]. intros H. inversion H.
  - rewrite andb_true_iff, key_same, IH by assumption. split; [intros (A & B); constructor; assumption|]. intros H. inversion H. auto.
Qed.
(** Plain tuples of keys are equal iff their keys are, one by one. *)
Theorem C95_tuples l m : Forall well_formed l -> Forall well_formed m ->
  (tup_eq (ATuple l) (ATuple m) = true <-> Forall2 same_key l m) /\
  (tup_ne (ATuple l) (ATuple m) = true <-> ~ Forall2 same_key l m).
Proof.
  intros F G. split; [apply keys_same; assumption|]. unfold tup_ne. cbn [tup_keys].
  rewrite negb_true_iff, <- not_true_iff_false, keys_same by assumption. reflexivity.
Qed.
(** A pair never equals a plain tuple, on either side. But != says so too only if the keys differ: a
    pair and the tuple of its two keys are neither equal nor unequal. *)
Theorem C95_pair_and_tuple q l :
  well_formed_pair q -> Forall well_formed l ->
  tup_eq (APair q) (ATuple l) = false /\ tup_eq (ATuple l) (APair q) = false /\
  (tup_ne (APair q) (ATuple l) = false <-> exists x y, l = [x; y] /\ same_pair q (mkpair x y)) /\
  tup_ne (ATuple l) (APair q) = tup_ne (APair q) (ATuple l).
Proof.
  intros (Q1 & Q2) F. do 2 (split; [reflexivity|]). unfold tup_ne. cbn [tup_keys].
  destruct l as [|x [|y [|z l]]]; cbn [keys_eqb negb].
  - split; [|reflexivity]. split; [discriminate|]. intros (u & v & E & _). discriminate.
  - rewrite !andb_false_r. split; [|reflexivity]. split; [discriminate|]. intros (u & v & E & _). discriminate.
  - inversion F as [|? ? X F']; subst. inversion F' as [|? ? Y _]; subst. rewrite !andb_true_r, !negb_false_iff. split.
    + rewrite andb_true_iff, !key_same by assumption. split.
      * intros S. exists x, y. split; [reflexivity|exact S].
      * intros (u & v & E & S). injection E as <- <-. exact S.
    + f_equal. destruct (C54_key_equality_is_equivalence _ _ _ Q1 X X) as (_ & -> & _).
      destruct (C54_key_equality_is_equivalence _ _ _ Q2 Y Y) as (_ & -> & _). reflexivity.
  - rewrite !andb_false_r. split; [|reflexivity]. split; [discriminate|]. intros (u & v & E & _). discriminate.
Qed.
Theorem C95_not_equal_is_the_opposite_refuted :
  exists t u, Forall well_formed (tup_keys t) /\ Forall well_formed (tup_keys u) /\
    tup_eq t u = false /\ tup_ne t u = false /\ tup_eq u t = false /\ tup_ne u t = false.
Proof.
  exists (APair (mkpair ex_ed_public ex_ed)), (ATuple [ex_ed_public; ex_ed]).
  repeat split; try (vm_compute; reflexivity);
    repeat (apply Forall_cons || apply Forall_nil); repeat split; repeat constructor; cbn; intuition discriminate.
Qed.

(** ** Lists *)
Lemma pairs_same l m : Forall well_formed_pair l -> Forall well_formed_pair m ->
  pairs_eqb l m = true <-> Forall2 same_pair l m.
Proof.
  revert m. induction l as [|x l IH]; intros [|y m] F G; cbn [pairs_eqb].
  - split; auto.
  - split; [discriminate|]. intros H. inversion H.
  - split; [discriminate|]. intros H. inversion H.
  - inversion F; inversion G; subst. rewrite andb_true_iff, pair_same, IH by assumption. split.
    + intros (A & B). constructor; assumption.
    + intros H. inversion H. auto.
Qed.
Lemma has_pairs_iff x m : has_pairs x m <-> operand_pairs x = Some m.
Proof.
  split; [intros []; reflexivity|]. destruct x; cbn [operand_pairs]; intros E; [injection E as <-|injection E as <-|discriminate]; constructor.
Qed.
(** Lists are equal to lists, plain or not, with the same pairs in the same order, whatever their
    header, cipher or KDF; != is the opposite. *)
Theorem C95_lists l x :
  Forall well_formed_pair (l_pairs l) -> (forall m, has_pairs x m -> Forall well_formed_pair m) ->
  (list_eq l x = true <-> exists m, has_pairs x m /\ Forall2 same_pair (l_pairs l) m) /\
  (list_ne l x = true <-> ~ exists m, has_pairs x m /\ Forall2 same_pair (l_pairs l) m).
Proof.
  intros F G. enough (list_eq l x = true <-> exists m, has_pairs x m /\ Forall2 same_pair (l_pairs l) m) as H.
  { split; [exact H|]. unfold list_ne. rewrite negb_true_iff, <- not_true_iff_false, H. reflexivity. }
  unfold list_eq. destruct (operand_pairs x) as [m|] eqn:E.
  - apply has_pairs_iff in E. rewrite pairs_same by auto. split; [eauto|]. intros (m' & E' & H).
    apply has_pairs_iff in E, E'. rewrite E in E'. injection E' as <-. exact H.
  - split; [discriminate|]. intros (m & E' & _). apply has_pairs_iff in E'. congruence.
Qed.
(** So equality is an equivalence. *)
Theorem C95_lists_equivalence a b c :
  Forall (fun l => Forall well_formed_pair (l_pairs l)) [a; b; c] ->
  list_eq a (AList a) = true /\ list_eq a (AList b) = list_eq b (AList a) /\
  (list_eq a (AList b) = true -> list_eq b (AList c) = true -> list_eq a (AList c) = true).
Proof.
  intros F. inversion F as [|? ? A F1]; inversion F1 as [|? ? B F2]; inversion F2 as [|? ? C _]; subst.
  unfold list_eq. cbn [operand_pairs]. split; [|split].
  - apply pairs_same; auto. clear. induction (l_pairs a); constructor; auto using same_pair_refl.
  - apply eq_true_iff_eq. rewrite !pairs_same by assumption.
    assert (forall l m, Forall2 same_pair l m -> Forall2 same_pair m l) as S
      by (induction 1; constructor; auto using same_pair_sym).
    split; apply S.
  - rewrite !pairs_same by assumption. generalize (l_pairs a) (l_pairs b) (l_pairs c). clear. intros l m n H. revert n.
    induction H as [|x y l m E _ IH]; intros n G; inversion G; subst; constructor; [eapply same_pair_trans; eassumption|auto].
Qed.

(** ** Equal lists and their files *)
Lemma same_key_bytes a b s t : is_key s a -> is_key t b -> same_key a b ->
  pack_public_bytes a = pack_public_bytes b /\ pack_private_bytes a = pack_private_bytes b.
Proof.
  intros (Ha & Ca) (Hb & Cb) (K & Mh & Mp & Mf & _). apply C69_key_bytes_use_current_values; try assumption.
  rewrite (Mh (str "key_type")), Hb in Ha. injection Ha as ->. rewrite K, Cb in Ca. injection Ca as ->. reflexivity.
Qed.
Definition same_bytes (a b : pair) : Prop :=
  pack_public_bytes (pr_public a) = pack_public_bytes (pr_public b) /\
  pack_public_bytes (pr_private a) = pack_public_bytes (pr_private b) /\
  pack_private_bytes (pr_private a) = pack_private_bytes (pr_private b).
Lemma index_same l m i : Forall2 same_bytes l m ->
  match py_index l i, py_index m i with
  | Ok a, Ok b => same_bytes a b | Err e, Err e' => e = e' | _, _ => False
  end.
Proof.
  intros F. assert (length l = length m) as L by (clear i; induction F; cbn; congruence).
  assert (forall n, match nth_error l n, nth_error m n with Some a, Some b => same_bytes a b | None, None => True | _, _ => False end) as N.
  { clear i L. induction F as [|x y l m E _ IH]; intros [|n]; cbn [nth_error]; [exact I|exact I|exact E|apply IH]. }
  unfold py_index. rewrite L. set (j := if i <? 0 then _ else _). destruct ((0 <=? j) && (j <? Z.of_nat (length m))); [|reflexivity].
  specialize (N (Z.to_nat j)). destruct (nth_error l _), (nth_error m _); try contradiction; auto.
Qed.
Lemma wbind_ext {A B} (x : W A) (f g : A -> W B) : (forall a, f a = g a) -> wbind x f = wbind x g.
Proof. intros H. destruct x as [lg [a|]]; cbn; [rewrite H|]; reflexivity. Qed.
Lemma pack_with_then {A} (x : P A) (f g : A -> P unit) : (forall a s, f a s = g a s) -> pack_with (pbind x f) = pack_with (pbind x g).
Proof. intros H. unfold pack_with, pbind. destruct (x (stream_of [])) as [s [a|]]; [rewrite H|]; reflexivity. Qed.
(** If the lists ask for the same cipher and KDF and have the same KDF options, equal lists give
    the same file, or the same exception, in the same way. *)
Theorem C95_equal_lists_pack_alike p e l m given idx ov retain :
  Forall typed_pair (l_pairs l) -> Forall typed_pair (l_pairs m) ->
  Forall2 same_pair (l_pairs l) (l_pairs m) -> l_kdf_options l = l_kdf_options m ->
  (forall c k, list_names l c k <-> list_names m c k) ->
  list_pack_bytes p e l given idx ov retain = list_pack_bytes p e m given idx ov retain.
Proof.
  intros Tl Tm S Eo En.
  assert (Forall2 same_bytes (l_pairs l) (l_pairs m)) as B.
  { clear Eo En. revert Tl Tm. induction S as [|x y a b (E1 & E2) _ IH]; intros F G; constructor.
    - inversion F as [|? ? ((t1 & I1) & (t2 & I2)) _]; inversion G as [|? ? ((t3 & I3) & (t4 & I4)) _]; subst.
      destruct (same_key_bytes _ _ _ _ I1 I3 E1), (same_key_bytes _ _ _ _ I2 I4 E2). repeat split; assumption.
    - inversion F; inversion G; auto. }
  assert (length (l_pairs l) = length (l_pairs m)) as L by (clear - S; induction S; cbn; congruence).
  unfold list_pack_bytes, pack_plain.
  assert (list_cipher_kdf l = list_cipher_kdf m) as <-.
  { destruct (list_cipher_kdf l) as [c k] eqn:E. symmetry. apply list_names_iff. apply En. apply list_names_iff. exact E. }
  rewrite Eo, L.
  assert (forall o ix s, write_pubs l o ix s = write_pubs m o ix s) as Wp.
  { intros o ix. induction ix as [|i ix IH]; intros s; cbn [write_pubs]; [reflexivity|].
    pose proof (index_same _ _ i B) as I. unfold plift, pbind.
    destruct (py_index (l_pairs l) i) as [a|], (py_index (l_pairs m) i) as [b|]; try contradiction; [|congruence].
    destruct I as (I1 & I2 & I3).
    replace (pack_public_bytes (if o then pr_private a else pr_public a)) with (pack_public_bytes (if o then pr_private b else pr_public b))
      by (destruct o; congruence).
    destruct (pack_public_bytes (if o then pr_private b else pr_public b)); [|reflexivity]. destruct (write_instr _ _ s) as [s' [[]|]]; auto. }
  assert (forall ix s, write_privs l ix s = write_privs m ix s) as Wv.
  { intros ix. induction ix as [|i ix IH]; intros s; cbn [write_privs]; [reflexivity|].
    pose proof (index_same _ _ i B) as I. unfold plift, pbind.
    destruct (py_index (l_pairs l) i) as [a|], (py_index (l_pairs m) i) as [b|]; try contradiction; [|congruence].
    destruct I as (I1 & I2 & I3). rewrite I3. destruct (pack_private_bytes (pr_private b)); [|reflexivity]. apply IH. }
  destruct (list_cipher_kdf l) as [c k].
  apply wbind_ext. intros options. apply wbind_ext. intros kd. apply wbind_ext. intros ob.
  set (ix := match idx with Some i => i | None => _ end).
  rewrite (pack_with_then _ (fun _ => write_pubs l ov ix) (fun _ => write_pubs m ov ix)) by (intros _ s; apply Wp).
  apply wbind_ext. intros prefix.
  match goal with |- wbind (wlift (pack_with (pbind ?h ?f))) _ = wbind (wlift (pack_with (pbind ?h ?g))) _ =>
    rewrite (pack_with_then h f g) end; [reflexivity|].
  intros _ s. unfold pbind. rewrite Wv. reflexivity.
Qed.
(** Otherwise equal lists can give files that differ in what they protect: [ex_list] asks for encryption
    with a passphrase and equals [ex_plain_list], whose file is read without one. *)
Theorem C95_equal_lists_are_protected_alike_refuted :
  list_eq ex_list (AList ex_plain_list) = true /\ list_ne ex_list (AList ex_plain_list) = false /\
  list_pack_bytes toy_prims ex_env ex_list (Some (str "pw")) None true true = ([], Ok ex_file) /\
  list_pack_bytes toy_prims ex_env ex_plain_list (Some (str "pw")) None true true = ([], Ok ex_plain_file) /\
  (exists lg e, list_from_bytes toy_prims no_env ex_file None = (lg, Err e)) /\
  (exists l, list_from_bytes toy_prims no_env ex_plain_file None = ([], Ok l) /\ map pr_private (l_pairs l) = [ex_ed; ex_rsa]).
Proof.
  split; [vm_compute; reflexivity|]. split; [vm_compute; reflexivity|]. split; [vm_compute; reflexivity|].
  split; [vm_compute; reflexivity|]. split; [do 2 eexists; vm_compute; reflexivity|].
  eexists. split; vm_compute; reflexivity.
Qed.

(** ** Order *)
Lemma agree_cons x y l m : agree (x :: l) (y :: m) <-> same_pair x y /\ agree l m.
Proof.
  split.
  - intros H. split; [apply (H 0%nat); reflexivity|]. intros i. apply (H (S i)).
  - intros (A & B) [|i] u v; cbn; [congruence|apply B].
Qed.
Lemma order_of_spec o a b : order_of o a b = true <-> stands o a b.
Proof. destruct o; cbn [order_of stands]; rewrite ?Nat.ltb_lt, ?Nat.leb_le; lia. Qed.
Lemma agree_keys_cons x y l m : agree_keys (x :: l) (y :: m) <-> same_key x y /\ agree_keys l m.
Proof.
  split.
  - intros H. split; [apply (H 0%nat); reflexivity|]. intros i. apply (H (S i)).
  - intros (A & B) [|i] u v; cbn; [congruence|apply B].
Qed.
(** Pairs and tuples of keys have no order either, except that of length if one begins with the other:
    so a pair is <= and >= a pair equal to it and the tuple of its keys, and < no pair. *)
Theorem C95_tuple_order o t u l m :
  has_keys t l -> has_keys u m -> Forall well_formed l -> Forall well_formed m ->
  (agree_keys l m -> exists r, tup_order o t u = Ok r /\ (r = true <-> stands o (length l) (length m))) /\
  (~ agree_keys l m -> tup_order o t u = Err TypeError).
Proof.
  intros T U F G. unfold tup_order. assert (tup_keys t = l) as -> by (destruct T; reflexivity). assert (tup_keys u = m) as -> by (destruct U; reflexivity).
  clear T U. assert ((agree_keys l m -> keys_order o l m = Ok (order_of o (length l) (length m))) /\ (~ agree_keys l m -> keys_order o l m = Err TypeError)) as (A & B).
  2:{ split; [|exact B]. intros H. eexists. split; [exact (A H)|apply order_of_spec]. }
  assert (forall a b, order_of o (S a) (S b) = order_of o a b) as Sh by (intros; destruct o; reflexivity).
  revert m G. induction F as [|x l X F IH]; intros m G.
  - split; [intros _; destruct m; reflexivity|]. intros N. exfalso. apply N. intros [|i] y z; discriminate.
  - destruct m as [|y m]; [split; [reflexivity|]; intros N; exfalso; apply N; intros [|i] z w; discriminate|].
    inversion G as [|? ? Y G']; subst. specialize (IH m G') as (I1 & I2). cbn [keys_order length]. rewrite Sh, agree_keys_cons.
    destruct (key_eqb x y) eqn:E.
    + apply key_same in E; [|assumption|assumption]. split; [intros (_ & H); auto|]. intros N. apply I2. intros H. apply N. auto.
    + split; [|reflexivity]. intros (S & _). apply key_same in S; [congruence|assumption|assumption].
Qed.
(** Lists have no order, except that of length between lists one of which begins with the other. *)
Theorem C95_order o l x :
  Forall well_formed_pair (l_pairs l) -> (forall m, has_pairs x m -> Forall well_formed_pair m) ->
  (forall m, has_pairs x m -> agree (l_pairs l) m ->
     exists r, list_order o l x = Ok r /\ (r = true <-> stands o (length (l_pairs l)) (length m))) /\
  (~ (exists m, has_pairs x m /\ agree (l_pairs l) m) -> list_order o l x = Err TypeError).
Proof.
  intros F G. enough ((forall m, operand_pairs x = Some m -> agree (l_pairs l) m ->
     list_order o l x = Ok (order_of o (length (l_pairs l)) (length m))) /\
    (~ (exists m, operand_pairs x = Some m /\ agree (l_pairs l) m) -> list_order o l x = Err TypeError)) as (A & B).
  { split.
    - intros m E H. apply has_pairs_iff in E. eexists. split; [exact (A m E H)|]. apply order_of_spec.
    - intros N. apply B. intros (m & E & H). apply N. exists m. split; [apply has_pairs_iff; exact E|exact H]. }
  assert (forall m, operand_pairs x = Some m -> Forall well_formed_pair m) as G0 by (intros m E; apply G, has_pairs_iff, E).
  clear G. rename G0 into G.
  unfold list_order. destruct (operand_pairs x) as [m|].
  2:{ split; [discriminate|reflexivity]. }
  specialize (G m eq_refl).
  assert (forall a b, order_of o (S a) (S b) = order_of o a b) as Sh by (intros; destruct o; reflexivity).
  revert F G. generalize (l_pairs l). clear l. intros l. revert m. induction l as [|y l IH]; intros m F G.
  - split; [intros m' E _; injection E as <-; destruct m; reflexivity|].
    intros N. exfalso. apply N. exists m. split; [reflexivity|]. intros [|i] u v; discriminate.
  - destruct m as [|z m].
    + split; [intros m' E _; injection E as <-; reflexivity|].
      intros N. exfalso. apply N. exists []. split; [reflexivity|]. intros [|i] u v; discriminate.
    + inversion F as [|? ? Y F']; inversion G as [|? ? Z' G']; subst. specialize (IH m F' G') as (I1 & I2).
      cbn [pairs_order]. pose proof (pair_same_reflect y z Y Z') as R. split.
      * intros m' E A. injection E as <-. apply agree_cons in A as (A & B). destruct R; [|contradiction].
        cbn [length]. rewrite Sh. apply I1; auto.
      * intros N. destruct R as [S|S].
        -- apply I2. intros (m' & E & A). injection E as <-. apply N. eexists. split; [reflexivity|]. apply agree_cons. auto.
        -- destruct Y as (Y1 & Y2), Z' as (Z1 & Z2). cbn [tup_keys keys_order].
           destruct (key_eqb (pr_public y) (pr_public z)) eqn:E1; [|reflexivity].
           destruct (key_eqb (pr_private y) (pr_private z)) eqn:E2; [|reflexivity].
           exfalso. apply S. split; apply key_same; assumption.
Qed.

(** ** Searching *)
Lemma index_from_iff start stop q l : well_formed_pair q -> Forall well_formed_pair l -> forall i r,
  let hit j := occurs_at l q j /\ start <= i + Z.of_nat j < stop in
  (index_from i start stop l q = Ok r <-> exists j, r = i + Z.of_nat j /\ hit j /\ forall j', (j' < j)%nat -> ~ hit j') /\
  (index_from i start stop l q = Err ValueError <-> forall j, ~ hit j) /\
  (forall e, index_from i start stop l q = Err e -> e = ValueError).
Proof.
  intros Q F. induction F as [|y l Y F IH]; intros i r hit; cbn [index_from].
  - assert (forall j, ~ hit j) as N by (intros [|j] ((x & E & _) & _); discriminate). split; [|split].
    + split; [discriminate|]. intros (j & _ & H & _). destruct (N j H).
    + tauto.
    + congruence.
  - pose proof (pair_same_reflect y q Y Q) as R.
    assert (hit 0%nat <-> same_pair y q /\ start <= i < stop) as H0.
    { unfold hit, occurs_at. cbn [nth_error]. replace (i + Z.of_nat 0) with i by lia. split.
      - intros ((x & E & S) & L). injection E as <-. auto.
      - intros (S & L). split; [exists y; auto|exact L]. }
    assert (forall j, hit (S j) <-> occurs_at l q j /\ start <= (i + 1) + Z.of_nat j < stop) as H1.
    { intros j. unfold hit, occurs_at. cbn [nth_error]. replace (i + Z.of_nat (S j)) with (i + 1 + Z.of_nat j) by lia. reflexivity. }
    clearbody hit.
    destruct (Z.leb_spec start i) as [Le|Le], (Z.ltb_spec i stop) as [Lo|Lo]; destruct R as [S|S]; cbn [andb];
      [|assert (~ hit 0%nat) as N0 by (rewrite H0; intuition lia);
           specialize (IH (i + 1) r); cbv zeta in IH; destruct IH as (I1 & I2 & I3); split; [|split; [|exact I3]];
           [rewrite I1; split;
             [intros (j & -> & H & M); exists (Datatypes.S j); split; [lia|]; split; [apply H1; exact H|];
               intros [|j'] Lt; [exact N0|rewrite H1; apply M; lia]
             |intros ([|j] & -> & H & M); [contradiction|]; exists j; split; [lia|]; split; [apply H1; exact H|];
               intros j' Lt; rewrite <- H1; apply M; lia]
           |rewrite I2; split; [intros H [|j]; [exact N0|rewrite H1; apply H]|intros H j; rewrite <- H1; apply H]]..].
    assert (hit 0%nat) as Y0 by (apply H0; auto). split; [|split].
    + split.
      * intros E. injection E as <-. exists 0%nat. split; [lia|]. split; [exact Y0|]. lia.
      * intros ([|j] & -> & H' & M); [f_equal; lia|]. destruct (M 0%nat); [lia|exact Y0].
    + split; [discriminate|]. intros N. destruct (N 0%nat Y0).
    + discriminate.
Qed.
(** index gives the first position, within the limits, with a pair that says the same, and raises
    ValueError if there is none. *)
Theorem C95_index l q start stop :
  well_formed_pair q -> Forall well_formed_pair (l_pairs l) ->
  let n := length (l_pairs l) in
  let hit i := occurs_at (l_pairs l) q i /\ first_allowed n start i /\ last_allowed n stop i in
  (forall r, list_index l q start stop = Ok r <-> exists i, r = Z.of_nat i /\ hit i /\ forall j, (j < i)%nat -> ~ hit j) /\
  (list_index l q start stop = Err ValueError <-> forall i, ~ hit i) /\
  (forall e, list_index l q start stop = Err e -> e = ValueError).
Proof.
  intros Q F n hit. unfold list_index. fold n. set (a := match start with Some i => _ | None => _ end). set (b := match stop with Some i => _ | None => _ end).
  assert (forall i, hit i <-> occurs_at (l_pairs l) q i /\ a <= 0 + Z.of_nat i < b) as H.
  { intros i. unfold hit. split; intros (O & R); (split; [exact O|]).
    - assert (i < n)%nat as Lt by (destruct O as (y & E & _); apply nth_error_Some; congruence).
      destruct R as (R1 & R2). unfold a, b, first_allowed, last_allowed, index_limit in *.
      destruct start as [s|], stop as [t|]; try (destruct (Z.ltb_spec s 0)); try (destruct (Z.ltb_spec t 0)); lia.
    - assert (i < n)%nat as Lt by (destruct O as (y & E & _); apply nth_error_Some; congruence).
      unfold a, b, first_allowed, last_allowed, index_limit in *.
      destruct start as [s|], stop as [t|]; try (destruct (Z.ltb_spec s 0)); try (destruct (Z.ltb_spec t 0)); lia. }
  pose proof (index_from_iff a b q _ Q F 0) as I. cbv zeta in I. split; [|split].
  - intros r. destruct (I r) as (-> & _). split; intros (i & -> & Hi & M); exists i; (split; [lia|]); (split; [apply H; exact Hi|]);
      intros j Lt; [rewrite H|rewrite <- H]; apply M; exact Lt.
  - destruct (I 0) as (_ & -> & _). split; intros N i; [rewrite H|rewrite <- H]; apply N.
  - exact (proj2 (proj2 (I 0))).
Qed.
(** in says whether there is one, and count how many there are. *)
Theorem C95_count l q :
  well_formed_pair q -> Forall well_formed_pair (l_pairs l) ->
  (list_contains l q = true <-> exists i, occurs_at (l_pairs l) q i) /\
  (exists is, NoDup is /\ (forall i, In i is <-> occurs_at (l_pairs l) q i) /\ list_count l q = Z.of_nat (length is)).
Proof.
  intros Q F. unfold list_contains, list_count. induction F as [|y m Y F (I1 & is & Nd & In' & C)].
  - split.
    + split; [discriminate|]. intros ([|i] & x & E & _); discriminate.
    + exists []. split; [constructor|]. split; [|reflexivity]. intros i. split; [intros []|]. intros (x & E & _). destruct i; discriminate.
  - cbn [existsb filter]. pose proof (pair_same_reflect y q Y Q) as R.
    assert (forall i, occurs_at (y :: m) q (S i) <-> occurs_at m q i) as Os by reflexivity.
    assert (occurs_at (y :: m) q 0 <-> same_pair y q) as O0.
    { split; [intros (x & E & S); injection E as <-; exact S|intros S; exists y; auto]. }
    assert (NoDup (map S is)) as Nd' by (apply FinFun.Injective_map_NoDup; [intros u v E; congruence|exact Nd]).
    assert (forall i, In (S i) (map S is) <-> occurs_at m q i) as In2.
    { intros i. rewrite in_map_iff, <- In'. split; [intros (j & E & H); injection E as ->; exact H|eauto]. }
    assert (~ In 0%nat (map S is)) as In0 by (rewrite in_map_iff; intros (j & E & _); discriminate).
    destruct R as [S|S]; cbn [orb length].
    + split; [split; [intros _; exists 0%nat; apply O0; exact S|reflexivity]|].
      exists (0%nat :: map Datatypes.S is). split; [constructor; assumption|]. split.
      * intros [|i]; cbn [In]; [rewrite O0; tauto|]. rewrite In2, Os. split; [intros [E|H]; [discriminate|exact H]|auto].
      * cbn [length]. rewrite map_length. lia.
    + split.
      * rewrite I1. split; [intros (i & H); exists (Datatypes.S i); apply Os; exact H|].
        intros ([|i] & H); [apply O0 in H; contradiction|exists i; apply Os; exact H].
      * exists (map Datatypes.S is). split; [exact Nd'|]. split; [|rewrite map_length; exact C].
        intros [|i]; [rewrite O0; tauto|rewrite In2, Os; reflexivity].
Qed.

Lemma ex_pairs_well_formed : Forall well_formed_pair ex_pairs.
Proof. repeat constructor; cbn; intuition discriminate. Qed.
Example C95_example :
  Forall well_formed_pair ex_pairs /\ Forall typed_pair ex_pairs /\
  list_index ex_list (mkpair ex_rsa_public ex_rsa) None None = Ok 1 /\
  list_index ex_list (mkpair ex_rsa_public ex_rsa) (Some (-1)) (Some 5) = Ok 1 /\
  list_index ex_list (mkpair ex_rsa_public ex_rsa) None (Some (-1)) = Err ValueError /\
  list_count ex_list (mkpair ex_rsa_public ex_ed) = 0 /\
  list_order Less ex_plain_list (APlain (ex_pairs ++ ex_pairs)) = Ok true /\
  list_order Less ex_plain_list (APlain (rev ex_pairs)) = Err TypeError /\
  list_eq ex_plain_list (APlain ex_pairs) = true.
Proof.
  split; [exact ex_pairs_well_formed|]. split.
  { repeat (apply Forall_cons; [split; eexists; split; vm_compute; reflexivity|]). apply Forall_nil. }
  repeat split; vm_compute; reflexivity.
Qed.

Print Assumptions C95_pairs.
Print Assumptions C95_pair_and_tuple.
Print Assumptions C95_not_equal_is_the_opposite_refuted.
Print Assumptions C95_tuples.
Print Assumptions C95_tuple_order.
Print Assumptions C95_lists.
Print Assumptions C95_lists_equivalence.
Print Assumptions C95_equal_lists_pack_alike.
Print Assumptions C95_equal_lists_are_protected_alike_refuted.
Print Assumptions C95_order.
Print Assumptions C95_index.
Print Assumptions C95_count.
