(** C103: what parsing a key raises, and for what. *)
From Verif Require Import PyBase IntBytes Utf8 StructFmt Stream Text Classes Key.
From Verif Require Import SpecWire SpecKey SpecUnread ProofBase ProofInt ProofUtf8 ProofWire ProofRecord ProofKey ProofErr.
From Verif Require Import SpecText ProofText Props_Key Props_Text.
From Coq Require Import Lia.
Open Scope Z_scope.

(** ** One field *)
Lemma ended_eof b : eof (length b) = ended b.
Proof. destruct b; reflexivity. Qed.
Definition pascal_bad (k : nat) (b : bytes) (e : exn) : Prop :=
  ((length b < k)%nat /\ e = ended b) \/
  exists l rest, b = l ++ rest /\ length l = k /\
    ((Z.of_nat (length rest) < unsigned l <= ssize_max /\ e = ended rest) \/
     (ssize_max < unsigned l /\ e = OverflowError)).
Lemma app_same_length (a b a' b' : bytes) : a ++ b = a' ++ b' -> length a = length a' -> a = a' /\ b = b'.
Proof.
  revert a'; induction a as [|x a IH]; intros [|y a'] E L; try discriminate; [auto|].
  cbn in E. injection E as -> E. destruct (IH a' E ltac:(simpl in L; lia)) as (-> & ->). auto.
Qed.
Lemma read_pascal_bad k s e : 0 < k <= ssize_max ->
  (exists s', read_pascal_bytes k s = (s', Err e)) <-> pascal_bad (Z.to_nat k) (unread s) e.
Proof.
  intros Hk. unfold read_pascal_bytes. destruct (Z.leb_spec k 0); [lia|].
  unfold pbind. rewrite read_fixed_spec by lia.
  destruct (Nat.leb_spec (Z.to_nat k) (length (unread s))) as [L1|L1].
  - rewrite int_from_bytes_unsigned.
    pose proof (firstn_skipn (Z.to_nat k) (unread s)) as Eu.
    set (l := firstn (Z.to_nat k) (unread s)) in *.
    assert (length l = Z.to_nat k) as Ll by (unfold l; rewrite firstn_length; lia).
    set (r := skipn (Z.to_nat k) (unread s)) in *.
    pose proof (be_value_range l) as Rl.
    assert (pascal_bad (Z.to_nat k) (unread s) e <->
      (Z.of_nat (length r) < unsigned l <= ssize_max /\ e = ended r) \/ (ssize_max < unsigned l /\ e = OverflowError)) as ->.
    { split.
      - intros [(K & _)|(l' & r' & E & L & C)]; [lia|]. rewrite <- Eu in E.
        apply app_same_length in E as (-> & ->); [exact C|congruence].
      - intros C. right. exists l, r. auto. }
    rewrite unsigned_be.
    destruct (Z.leb_spec (be_value l) ssize_max) as [M|M].
    + rewrite read_fixed_spec by lia. rewrite unread_adv. fold r.
      destruct (Nat.leb_spec (Z.to_nat (be_value l)) (length r)) as [L2|L2].
      * split; [intros (s' & K); discriminate|]. intros [(? & _)|(? & _)]; lia.
      * rewrite ended_eof. split.
        -- intros (s' & K). injection K as <- <-. left. split; [lia|reflexivity].
        -- intros [(_ & ->)|(? & _)]; [eauto|lia].
    + rewrite read_fixed_big by assumption. split.
      * intros (s' & K). injection K as <- <-. right. auto.
      * intros [(? & _)|(_ & ->)]; [lia|eauto].
  - rewrite ended_eof. split.
    + intros (s' & K). injection K as <- <-. left. auto.
    + intros [(_ & ->)|(l & r & E & L & _)]; [eauto|].
      rewrite E, app_length in L1. lia.
Qed.
Lemma unread_prefix_bad t k b e : prefix_size t = Some k -> pascal_bad k b e -> unreadable t b e.
Proof.
  intros P [(L & ->)|(l & r & -> & L & [(C & ->)|(C & ->)])];
    [eapply un_length|eapply un_short|eapply un_huge]; eassumption.
Qed.
Lemma unreadable_inv t k b e : prefix_size t = Some k -> unreadable t b e ->
  pascal_bad k b e \/ (t = TText k /\ exists l u rest, b = l ++ u ++ rest /\ length l = k /\
    unsigned l = Z.of_nat (length u) /\ (~ exists s, utf8 s u) /\ e = UnicodeDecodeError u).
Proof.
  intros P H. destruct H as [? ? ? ? ?|? ? ?|t k0 b P0 L|t k0 l r P0 L C|t k0 l r P0 L C|k0 l u r L V N].
  1,2: discriminate.
  - rewrite P in P0; injection P0 as <-. left; left; auto.
  - rewrite P in P0; injection P0 as <-. left; right. exists l, r; auto.
  - rewrite P in P0; injection P0 as <-. left; right. exists l, r; auto.
  - cbn in P. injection P as ->. right. split; [reflexivity|]. exists l, u, r. auto.
Qed.

Lemma remaining_unread s : remaining s = unread s.
Proof. reflexivity. Qed.
Lemma sized_unread s : sized s -> Z.of_nat (length (unread s)) <= ssize_max.
Proof. unfold sized, unread. rewrite skipn_length. lia. Qed.

Lemma pascal_field k t s e (g : bytes -> P pyval) :
  0 < k <= ssize_max -> prefix_size t = Some (Z.to_nat k) -> sized s ->
  (forall u s1 e, (exists s', g u s1 = (s', Err e)) <->
     t = TText (Z.to_nat k) /\ (~ exists x, utf8 x u) /\ e = UnicodeDecodeError u) ->
  (exists s', (do! u <- read_pascal_bytes k; g u) s = (s', Err e)) <-> unreadable t (unread s) e.
Proof.
  intros Hk P Z G. apply sized_unread in Z. unfold pbind.
  pose proof (read_pascal_bad k s e Hk) as B.
  destruct (read_pascal_bytes k s) as [s1 [u|e1]] eqn:E.
  - rewrite G. destruct (read_pascal_sound _ _ _ _ Hk E) as (b & (l & L & V & ->) & U & _). split.
    + intros (-> & N & ->). rewrite U, <- app_assoc. apply un_text; assumption.
    + intros H. apply (unreadable_inv _ _ _ _ P) in H as [H|(T & l' & u' & r' & U' & L' & V' & N & ->)].
      * apply B in H as (s' & K). discriminate.
      * assert (u' = u) as ->; [|auto]. rewrite U, <- app_assoc in U'.
        apply app_same_length in U' as (-> & U'); [|congruence].
        apply app_same_length in U' as (<- & _); [reflexivity|]. lia.
  - split.
    + intros (s' & K). injection K as <- <-. apply (unread_prefix_bad _ _ _ _ P). apply B. eauto.
    + intros H. apply (unreadable_inv _ _ _ _ P) in H as [H|(T & l' & u' & r' & U' & L' & V' & N & ->)].
      * apply B in H as (s' & K). injection K as <- <-. eauto.
      * exfalso. rewrite (read_pascal_complete k s u' (l' ++ u') r') in E; [discriminate|exact Hk| | |].
        -- rewrite U', !app_length in Z. lia.
        -- exists l'. auto.
        -- rewrite U', app_assoc. reflexivity.
Qed.

(** Reading a field fails exactly when the bytes do not begin with a value of its type, with
    the exception for that. *)
Theorem C103_field f t s e :
  has_type f t -> sized s ->
  (exists s', read_instr f s = (s', Err e)) <-> unreadable t (remaining s) e.
Proof.
  intros H Z. rewrite remaining_unread.
  assert (forall k u s1 e, t <> TText k ->
    (exists s', (pret (VBytes u) : P pyval) s1 = (s', Err e)) <->
     t = TText k /\ (~ exists x, utf8 x u) /\ e = UnicodeDecodeError u) as G1.
  { intros k u s1 e0 N. split; [intros (s' & K); discriminate|intros (K & _); contradiction]. }
  assert (0 < 4 <= ssize_max) as H4 by (unfold ssize_max; lia).
  assert (forall k u s1 e, 0 < k -> t = TText (Z.to_nat k) ->
    (exists s', (do! x <- plift (utf8_decode u); pret (VStr x)) s1 = (s', Err e)) <->
     t = TText (Z.to_nat k) /\ (~ exists x, utf8 x u) /\ e = UnicodeDecodeError u) as G2.
  { intros k u s1 e0 _ T. unfold pbind, plift. destruct (utf8_decode u) as [x|e1] eqn:D.
    - split; [intros (s' & K); discriminate|intros (_ & N & _); exfalso; apply N].
      exists x. apply utf8_decode_iff. exact D.
    - pose proof (utf8_decode_err _ _ D) as ->. split.
      + intros (s' & K). injection K as <- <-. split; [exact T|]. split; [|reflexivity].
        intros (x & W). apply utf8_decode_iff in W. congruence.
      + intros (_ & _ & ->). eauto. }
  destruct f as [fmt|i|i n|]; [| | |inversion H].
  - destruct (struct_read fmt t H) as (n & Hf & Hn & Ec & Hu).
    cbn [read_instr]. unfold pbind at 1, plift. rewrite Ec.
    unfold pbind at 1. rewrite read_fixed_spec by lia. rewrite Nat2Z.id.
    assert (unreadable t (unread s) e <-> (length (unread s) < n)%nat /\ e = ended (unread s)) as ->.
    { destruct t; try discriminate; cbn [fixed_size] in Hf; injection Hf as ->; split.
      1,3: intros K; inversion K; subst; try discriminate; auto.
      - intros (L & ->). constructor; exact L.
      - intros (L & ->). constructor; exact L. }
    destruct (Nat.leb_spec n (length (unread s))).
    + destruct (Hu (firstn n (unread s))) as (w & Eu & _); [rewrite firstn_length; lia|].
      unfold pbind. rewrite Eu. split; [intros (s' & K); discriminate|intros (K & _); lia].
    + rewrite ended_eof. split; [intros (s' & K); injection K as <- <-; auto|intros (_ & ->); eauto].
  - inversion H; subst; cbn [read_instr];
      (apply pascal_field; [exact H4|reflexivity|exact Z|]); intros u s1 e0;
      [apply (G1 (Z.to_nat 4)); discriminate|apply (G2 4); [lia|reflexivity]|].
    split; [intros (s' & K); discriminate|intros (K & _); discriminate].
  - inversion H; subst; cbn [read_instr];
      (apply pascal_field; [assumption|reflexivity|exact Z|]); intros u s1 e0;
      [apply (G1 (Z.to_nat n)); discriminate|apply (G2 n); [lia|reflexivity]|].
    split; [intros (s' & K); discriminate|intros (K & _); discriminate].
Qed.

(** ** Several fields *)
Lemma sized_adv n s : sized s -> sized (adv n s).
Proof. intros H. exact H. Qed.
(** Reading several fields fails exactly when there is a first one that cannot be read, with
    the exception for that one. *)
Theorem C103_record f ts s e :
  format_types f ts -> sized s ->
  (exists s', read_dict f s = (s', Err e)) <-> first_unreadable ts (remaining s) e.
Proof.
  rewrite remaining_unread. intros F; revert s; induction F as [|(k, i) (k', t) f ts (Hk & Ht) F IH]; intros s Z.
  - split; [intros (s' & K); discriminate|].
    intros (before & x & t & after & vs & u & rest & E & _). destruct before; discriminate.
  - cbn [fst snd] in Hk, Ht. subst k'. cbn [read_dict]. unfold pbind at 1.
    pose proof (C103_field i t s e Ht Z) as H1. rewrite remaining_unread in H1.
    destruct (read_instr i s) as [s1 [v|e1]] eqn:E1.
    + destruct (read_instr_sound i t s s1 v Ht E1) as (b & W & U & S1).
      assert (sized s1) as Z1 by (rewrite S1; apply sized_adv; exact Z).
      transitivity (exists s', read_dict f s1 = (s', Err e)).
      { unfold pbind. destruct (read_dict f s1) as [s2 [r|e2]]; split; intros (s' & K); try discriminate;
          injection K as <- <-; eauto. }
      rewrite (IH s1 Z1). split.
      * intros (before & x & t1 & after & vs & u & rest & -> & R & Eu & N).
        exists ((k, t) :: before), x, t1, after, ((k, v) :: vs), (b ++ u), rest.
        split; [reflexivity|]. split; [constructor; assumption|].
        split; [rewrite U, Eu, app_assoc; reflexivity|exact N].
      * intros (before & x & t1 & after & vs & u & rest & E & R & Eu & N).
        destruct before as [|(k0, t0) before]; cbn [app] in E; injection E as -> -> ->.
        -- inversion R; subst vs u. cbn [app] in Eu. subst rest. apply H1 in N as (s' & K). discriminate.
        -- inversion R as [|? ? ? v0 vs0 b0 bs W0 R0]; subst.
           apply sized_unread in Z.
           assert (read_instr i s = (adv (length b0) s, Ok v0)) as E2.
           { apply (read_instr_complete i t0 s v0 b0 (bs ++ rest) Ht W0).
             - rewrite Eu, !app_length in Z. lia.
             - rewrite Eu, app_assoc. reflexivity. }
           rewrite E1 in E2. injection E2 as Es <-.
           exists before, x, t1, after, vs0, bs, rest. split; [reflexivity|]. split; [exact R0|].
           split; [|exact N].
           rewrite unread_adv, Eu, <- !app_assoc. apply skipn_app_exact. lia.
    + transitivity (exists s', (s1, Err e1) = (s', Err e : res pyval)).
      { split; intros (s' & K); injection K as <- <-; eauto. }
      rewrite H1. split.
      * intros N. exists [], k, t, ts, [], [], (unread s). split; [reflexivity|]. split; [constructor|].
        split; [reflexivity|exact N].
      * intros (before & x & t1 & after & vs & u & rest & E & R & Eu & N).
        destruct before as [|(k0, t0) before]; cbn [app] in E; injection E as -> -> ->.
        -- inversion R; subst vs u. cbn [app] in Eu. subst rest. exact N.
        -- exfalso. inversion R as [|? ? ? v0 vs0 b0 bs W0 R0]; subst.
           apply sized_unread in Z.
           rewrite (read_instr_complete i t0 s v0 b0 (bs ++ rest) Ht W0) in E1; [discriminate| |].
           ++ rewrite Eu, !app_length in Z. lia.
           ++ rewrite Eu, app_assoc. reflexivity.
Qed.

(** ** A key *)
Lemma read_dict_two f g {A} (h : dict pyval -> dict pyval -> A) s e :
  (exists s', (do! a <- read_dict f; do! b <- read_dict g; pret (h a b)) s = (s', Err e)) <->
  (exists s', read_dict (f ++ g) s = (s', Err e)).
Proof.
  revert A h s. induction f as [|(k, i) f IH]; intros A h s.
  - cbn [app read_dict]. unfold pbind, pret. destruct (read_dict g s) as [s1 [r|e1]];
      split; intros (s' & K); try discriminate; injection K as <- <-; eauto.
  - cbn [app read_dict]. unfold pbind, pret in *. destruct (read_instr i s) as [s1 [v|e1]].
    + specialize (IH A (fun a b => h ((k, v) :: a) b) s1).
      transitivity (exists s', read_dict (f ++ g) s1 = (s', Err e)); [rewrite <- IH|].
      * destruct (read_dict f s1) as [s2 [r|e2]]; [|split; intros (s' & K); injection K as <- <-; eauto].
        destruct (read_dict g s2) as [s3 [r3|e3]]; split; intros (s' & K); try discriminate; injection K as <- <-; eauto.
      * destruct (read_dict (f ++ g) s1) as [s2 [r|e2]];
          split; intros (s' & K); try discriminate; injection K as <- <-; eauto.
    + split; intros (s' & K); injection K as <- <-; eauto.
Qed.
Lemma cert_spec_names t pub priv : In (t, (pub, priv)) key_specs -> (priv = None <-> In t (map fst cert_specs)).
Proof.
  intros H. each_spec H; injection H as <- <- <-; split; intros K; try discriminate; try reflexivity;
    try (apply str_mem_In; vm_compute; reflexivity);
    apply str_mem_In in K; vm_compute in K; discriminate.
Qed.
Lemma wire_text_same v v' u u' rest rest' : u ++ rest = u' ++ rest' ->
  wire (TText 4) v u -> wire (TText 4) v' u' -> v = v' /\ rest = rest'.
Proof.
  intros E W W'. inversion W as [|k s p b0 Us (l & L & V & ->)| | |]; subst.
  inversion W' as [|k s' p' b0 Us' (l' & L' & V' & ->)| | |]; subst.
  rewrite <- !app_assoc in E. apply app_same_length in E as (-> & E); [|congruence].
  apply app_same_length in E as (-> & ->); [|lia].
  apply utf8_decode_iff in Us, Us'. rewrite Us in Us'. injection Us' as ->. auto.
Qed.
Lemma read_key_parts_unreadable kd s e : sized s ->
  (exists s', read_key_parts kd s = (s', Err e)) <-> key_unreadable kd (unread s) e.
Proof.
  intros Z. unfold read_key_parts. unfold pbind at 1.
  pose proof (C103_record _ _ s e (header_types kd) Z) as H1. rewrite remaining_unread in H1.
  assert (first_unreadable [type_field] (unread s) e <-> unreadable (TText 4) (unread s) e) as H2.
  { split.
    - intros (before & x & t & after & vs & u & rest & E & R & Eu & N).
      destruct before as [|? [|? ?]]; try discriminate. cbn [app] in E. injection E as <- <- <-.
      inversion R; subst vs u. cbn [app] in Eu. rewrite Eu. exact N.
    - intros N. exists [], (str "key_type"), (TText 4), [], [], [], (unread s).
      split; [reflexivity|]. split; [constructor|]. split; [reflexivity|exact N]. }
  rewrite H2 in H1; clear H2.
  destruct (read_dict (header_fmt kd) s) as [s1 [hd|e1]] eqn:E1.
  2: { split.
       - intros (s' & K). left. apply H1. injection K as <- <-. eauto.
       - intros [N|(t & u & rest & W & Eu & _)].
         + apply H1 in N as (s' & K). injection K as <- <-. eauto.
         + exfalso. apply sized_unread in Z.
           rewrite (read_dict_complete _ _ s [(str "key_type", VStr t)] u rest (header_types kd)) in E1;
             [discriminate|apply record_one; exact W| |exact Eu].
           rewrite Eu, app_length in Z. lia. }
  destruct (read_dict_sound _ _ _ _ _ (header_types kd) E1) as (b1 & R1 & U1 & S1).
  destruct (record_one_inv _ _ _ _ _ R1) as (vt & -> & W1).
  assert (sized s1) as Z1 by (rewrite S1; apply sized_adv; exact Z).
  assert (exists t, vt = VStr t) as (t & ->) by (inversion W1; eauto).
  unfold pbind at 1, plift at 1. unfold ditem. cbn [dget]. rewrite str_eqb_refl.
  assert (forall X : pystr -> bytes -> Prop,
    (unreadable (TText 4) (unread s) e \/
     (exists t' u rest, wire (TText 4) (VStr t') u /\ unread s = u ++ rest /\ X t' rest)) <-> X t (unread s1)) as Only.
  { intros X. split.
    - intros [N|(t' & u & rest & W & Eu & HX)]; [apply H1 in N as (s' & K); discriminate|].
      rewrite U1 in Eu. destruct (wire_text_same _ _ _ _ _ _ Eu W1 W) as (Et & ->). injection Et as ->. exact HX.
    - intros HX. right. exists t, b1, (unread s1). auto. }
  unfold key_unreadable. rewrite Only; clear Only H1.
  unfold pbind at 1, plift.
  destruct (in_dec (list_eq_dec N.eq_dec) t (map fst key_specs)) as [I|N].
  - apply in_map_iff in I as ((t' & (pub & priv)) & E & I). cbn in E; subst t'.
    destruct (fields_of kd (pub, priv)) as [ts|] eqn:Hf.
    + destruct (spec_class _ _ _ _ _ I Hf) as (c & Hc & F & _). rewrite Hc.
      rewrite (read_dict_two (format_of c) (footer_fmt kd)
                 (fun a b => ([(str "key_type", VStr t)], a, b)) s1 e).
      rewrite (C103_record _ (ts ++ footer_fields kd) s1 e); [|apply Forall2_app; [exact F|apply footer_types]|exact Z1].
      rewrite remaining_unread. split.
      * intros N. right; right. exists pub, priv, ts. auto.
      * intros [(N & _)|[(-> & N & _)|(pub' & priv' & ts' & I' & Hf' & N)]].
        -- exfalso; apply N. apply in_map_iff. exists (t, (pub, priv)). auto.
        -- apply (cert_spec_names _ _ _ I) in N as ->. discriminate.
        -- pose proof (key_specs_fun _ _ _ I I') as E. injection E as -> ->. rewrite Hf in Hf'. injection Hf' as ->. exact N.
    + destruct kd; [discriminate|]. cbn [fields_of snd] in Hf. subst priv.
      cbn [params_class]. rewrite (spec_cert_no_private _ _ I). split.
      * intros (s' & K). right; left. split; [reflexivity|]. split; [apply (cert_spec_names _ _ _ I); reflexivity|].
        injection K as <- <-. reflexivity.
      * intros [(N & _)|[(_ & _ & ->)|(pub' & priv' & ts' & I' & Hf' & N)]].
        -- exfalso; apply N. apply in_map_iff. exists (t, (pub, None)). auto.
        -- eauto.
        -- pose proof (key_specs_fun _ _ _ I I') as E. injection E as <- <-. discriminate.
  - destruct (unknown_type t N) as (N1 & N2).
    assert (params_class kd (VStr t) = Err (KeyError (VStr t))) as -> by (destruct kd; assumption).
    split.
    + intros (s' & K). injection K as <- <-. left. auto.
    + intros [(_ & ->)|[(_ & I & _)|(pub' & priv' & ts' & I' & _)]]; [eauto| |].
      * exfalso; apply N. unfold key_specs. rewrite map_app. apply in_or_app. right. rewrite map_map. exact I.
      * exfalso; apply N. apply in_map_iff. exists (t, (pub', priv')). auto.
Qed.

(** ** Lists inside a certificate *)
Lemma loop_text f ts n acc s u :
  format_types f ts -> some_nonempty ts = true -> sized s -> (length (unread s) < n)%nat ->
  (exists s', read_loop n f acc s = (s', Err (UnicodeDecodeError u))) <-> unreadable_list ts (unread s) u.
Proof.
  intros F Ne. revert acc s; induction n as [|n IH]; intros acc s Z L; [lia|]. cbn [read_loop].
  pose proof (C103_record f ts s (UnicodeDecodeError u) F Z) as H1. rewrite remaining_unread in H1.
  assert (unreadable_list ts (unread s) u ->
    (exists s', read_dict f s = (s', Err (UnicodeDecodeError u))) \/
    exists d (b : bytes), read_dict f s = (adv (length b) s, Ok d) /\ unreadable_list ts (skipn (length b) (unread s)) u) as H2.
  { intros (ds & bs & rest & R & Eu & N). destruct R as [|d b ds bs R0 R].
    - left. apply H1. cbn in Eu. rewrite Eu. exact N.
    - right. exists d, b. cbn [List.concat] in Eu. rewrite <- app_assoc in Eu. split.
      + apply (read_dict_complete f ts s d b (List.concat bs ++ rest) F R0); [|exact Eu].
        apply sized_unread in Z. rewrite Eu, app_length in Z. lia.
      + exists ds, bs, rest. split; [exact R|]. split; [|exact N].
        rewrite Eu. apply skipn_app_exact. reflexivity. }
  destruct (read_dict f s) as [s1 [d|e1]] eqn:E.
  - destruct (read_dict_sound _ _ _ _ _ F E) as (b & R & U & S1).
    pose proof (record_nonempty _ _ _ _ F Ne R) as Nb.
    assert (0 < length b)%nat as Lb by (destruct b; [congruence|simpl; lia]).
    rewrite IH; [|rewrite S1; apply sized_adv; exact Z|rewrite U, app_length in L; lia].
    split.
    + intros (ds & bs & rest & R' & Eu & N). exists (d :: ds), (b :: bs), rest.
      split; [constructor; assumption|]. split; [|exact N]. cbn [List.concat]. rewrite U, Eu, app_assoc. reflexivity.
    + intros H. apply H2 in H as [(s' & K)|(d' & b' & K & H)]; [discriminate|].
      injection K as K _. rewrite K, unread_adv. exact H.
  - split.
    + intros (s' & K). assert (e1 = UnicodeDecodeError u) as ->.
      { destruct e1; try (injection K as _ K; congruence). destruct empty; [discriminate|injection K as _ K; congruence]. }
      exists [], [], (unread s). split; [constructor|]. split; [reflexivity|]. apply H1. eauto.
    + intros H. apply H2 in H as [(s' & K)|(d' & b' & K & H)]; [|discriminate].
      injection K as _ ->. eauto.
Qed.
Lemma repeatedly_text f ts b u :
  format_types f ts -> some_nonempty ts = true -> Z.of_nat (length b) <= ssize_max ->
  snd (read_repeatedly f (stream_of b)) = Err (UnicodeDecodeError u) <-> unreadable_list ts b u.
Proof.
  intros F Ne Z. unfold read_repeatedly. destruct f as [|x f]; [inversion F; subst; discriminate|].
  pose proof (loop_text (x :: f) ts (S (length (unread (stream_of b)))) [] (stream_of b) u F Ne Z ltac:(lia)) as H.
  change (unread (stream_of b)) with b in *. rewrite <- H.
  destruct (read_loop _ _ _ _) as [s' r]. cbn [snd]. split.
  - intros ->. eauto.
  - intros (s0 & K). congruence.
Qed.
Lemma principals_text d b e :
  dget (str "valid_principals") d = Some (VBytes b) -> Z.of_nat (length b) <= ssize_max ->
  (get_valid_principals d = Err e /\ is_eof_error e = false) <->
  exists u, e = UnicodeDecodeError u /\ unreadable_list [text "principal"] b u.
Proof.
  intros G Z.
  assert (forall u, get_valid_principals d = Err (UnicodeDecodeError u) <->
    snd (read_repeatedly [fld "principal" fS] (stream_of b)) = Err (UnicodeDecodeError u)) as K.
  { intros u. unfold get_valid_principals, ditem. rewrite G. cbn [rbind stream_of_val].
    destruct (read_repeatedly [fld "principal" fS] (stream_of b)) as [s' [vs|e1]] eqn:E; cbn [snd rbind].
    - apply read_repeatedly_records in E. split; [|discriminate]. intros K. exfalso.
      destruct (rmap_ok (ditem (str "principal")) vs) as (r & Er); [|unfold ditem in *; congruence].
      intros x Hx. rewrite Forall_forall in E. destruct (E x Hx) as (s1 & s2 & R).
      destruct (read_dict_field _ _ _ _ _ (str "principal") (TText 4) principal_types (nodup_one _) R) as (v & ? & Gv & _);
        [left; reflexivity|]. unfold ditem. rewrite Gv. eauto.
    - split; congruence. }
  split.
  - intros (H & Ne). assert (get_bytes "valid_principals" d = Some b) as Gb by (unfold get_bytes; rewrite G; reflexivity).
    destruct (valid_principals_errors _ _ _ Gb H) as [Q|(u & ->)]; [congruence|].
    exists u. split; [reflexivity|].
    apply (repeatedly_text [fld "principal" fS]); [exact principal_types|reflexivity|exact Z|]. apply K. exact H.
  - intros (u & -> & N). split; [|reflexivity]. apply K.
    apply (repeatedly_text _ [text "principal"]); [exact principal_types|reflexivity|exact Z|exact N].
Qed.
Lemma options_text param d b e :
  dget param d = Some (VBytes b) -> Z.of_nat (length b) <= ssize_max ->
  (snd (get_option_values_dict param d) = Err e /\ is_eof_error e = false) <->
  exists u, e = UnicodeDecodeError u /\ unreadable_list [text "option"; octets "value"] b u.
Proof.
  intros G Z.
  assert (forall u, snd (get_option_values_dict param d) = Err (UnicodeDecodeError u) <->
    snd (read_repeatedly options_fmt (stream_of b)) = Err (UnicodeDecodeError u)) as K.
  { intros u. unfold get_option_values_dict, ditem. rewrite G. unfold wlift. cbn [wbind stream_of_val].
    destruct (read_repeatedly options_fmt (stream_of b)) as [s' [vs|e1]] eqn:E; cbn [snd wbind].
    - apply read_repeatedly_records in E. destruct (collect_ok param [] vs E) as (opts & Eo).
      destruct (collect_options param [] vs) as [l r]. cbn [snd app] in *. split; congruence.
    - split; congruence. }
  split.
  - intros (H & Ne). destruct (option_values_errors _ _ _ _ G H) as [Q|(u & ->)]; [congruence|].
    exists u. split; [reflexivity|].
    apply (repeatedly_text options_fmt); [exact option_types|reflexivity|exact Z|]. apply K. exact H.
  - intros (u & -> & N). split; [|reflexivity]. apply K.
    apply (repeatedly_text _ [text "option"; octets "value"]); [exact option_types|reflexivity|exact Z|exact N].
Qed.

(** ** Certificates *)
Lemma wseq_err_iff {B} (x : W unit) (y : W B) e :
  snd (wseq x y) = Err e <-> snd x = Err e \/ (snd x = Ok tt /\ snd y = Err e).
Proof.
  split; [apply wseq_err|]. unfold wseq. destruct x as [l [[]|e1]]; cbn [wbind snd].
  - intros [K|(_ & K)]; [discriminate|]. destruct y as [l' r]. exact K.
  - intros [K|(K & _)]; [congruence|discriminate].
Qed.
Lemma caught_iff {A} (x : W A) h w e :
  snd (wcatch (wdiscard x) h (fun _ => wwarn w)) = Err e <-> snd x = Err e /\ h e = false.
Proof.
  destruct x as [l [a|e1]]; cbn [wdiscard wbind wret wcatch snd].
  - split; [discriminate|intros (K & _); discriminate].
  - destruct (h e1) eqn:Eh; cbn [wwarn snd app].
    + split; [discriminate|]. intros (K & Kh). congruence.
    + split; [intros K; injection K as <-; auto|intros (K & _); congruence].
Qed.
Lemma not_err_ok (x : W unit) : (forall e, snd x <> Err e) <-> snd x = Ok tt.
Proof. split; intros H; [destruct (snd x) as [[]|e]; [reflexivity|exfalso; eapply H; reflexivity] | intros e; congruence]. Qed.

Definition list_check (n : string) (d : dict pyval) (x : W unit) : W unit :=
  match get_bytes n d with Some _ => x | None => wret tt end.
Lemma list_check_iff n ts d (x : W unit) e :
  (forall b, dget (str n) d = Some (VBytes b) ->
     (snd x = Err e <-> exists u, e = UnicodeDecodeError u /\ unreadable_list ts b u)) ->
  snd (list_check n d x) = Err e <->
  exists u, e = UnicodeDecodeError u /\ exists b, dget (str n) d = Some (VBytes b) /\ unreadable_list ts b u.
Proof.
  intros H. unfold list_check, get_bytes. destruct (dget (str n) d) as [[| b | | |]|] eqn:G.
  2: { rewrite (H b eq_refl). split.
       - intros (u & -> & N). exists u. split; [reflexivity|]. exists b. auto.
       - intros (u & -> & b' & K & N). injection K as <-. exists u. auto. }
  all: split; [discriminate|intros (u & _ & b' & K & _); discriminate].
Qed.

Section Ec.
Variable ec : curve -> bytes -> bool.
Lemma check_cert_iff pp d e :
  (forall n b, dget n d = Some (VBytes b) -> Z.of_nat (length b) <= ssize_max) ->
  (forall b e, get_bytes "signature_key" d = Some b -> snd (pp b) = Err e -> parse_error e) ->
  snd (check_cert pp d) = Err e <->
  (exists u, e = UnicodeDecodeError u /\ first_bad_list cert_lists d u) \/
  ((forall u, ~ first_bad_list cert_lists d u) /\
   exists ca x, dget (str "signature_key") d = Some (VBytes ca) /\ snd (pp ca) = Err e /\ e = KeyError x).
Proof.
  intros Z Hpp. unfold check_cert.
  match goal with |- snd (wseq ?a (wseq ?p (wseq ?c (wseq ?x ?g)))) = _ <-> _ =>
    assert (snd a = Ok tt) as Ha; [|
    assert (forall e0, snd p = Err e0 <-> exists u, e0 = UnicodeDecodeError u /\ exists b,
      dget (str "valid_principals") d = Some (VBytes b) /\ unreadable_list [text "principal"] b u) as Hp; [|
    assert (forall e0, snd c = Err e0 <-> exists u, e0 = UnicodeDecodeError u /\ exists b,
      dget (str "critical_options") d = Some (VBytes b) /\ unreadable_list [text "option"; octets "value"] b u) as Hc; [|
    assert (forall e0, snd x = Err e0 <-> exists u, e0 = UnicodeDecodeError u /\ exists b,
      dget (str "extensions") d = Some (VBytes b) /\ unreadable_list [text "option"; octets "value"] b u) as Hx; [|
    assert (snd g = Err e <-> exists ca x0, dget (str "signature_key") d = Some (VBytes ca) /\
      snd (pp ca) = Err e /\ e = KeyError x0) as Hg; [|
      generalize dependent a; generalize dependent p; generalize dependent c; generalize dependent x; generalize dependent g ]]]]] end.
  - apply not_err_ok. intros e0 H. destruct (dmem (str "type") d) eqn:Em; [|discriminate].
    apply caught_iff in H as (H & Hh). cbn [wlift snd] in H. unfold get_type, ditem in H. unfold dmem in Em.
    destruct (dget (str "type") d) as [v|]; [|discriminate]. cbn [rbind] in H.
    destruct (find _ _); [discriminate|]. injection H as <-. discriminate.
  - intros e0. apply (list_check_iff "valid_principals"). intros b G. rewrite caught_iff. apply principals_text; eauto.
  - intros e0. apply (list_check_iff "critical_options"). intros b G. rewrite caught_iff. apply options_text; eauto.
  - intros e0. apply (list_check_iff "extensions"). intros b G. rewrite caught_iff. apply options_text; eauto.
  - unfold get_bytes in Hpp |- *. destruct (dget (str "signature_key") d) as [[| b | | |]|] eqn:G.
    2: { rewrite caught_iff. unfold get_signature_key, ditem. rewrite G. cbn [wlift wbind].
         assert (snd (wbind (pp b) (fun k => wwhen (issubclass (k_pcls k) CertPub) (wwarn WCertCA) ;; wret k)) = Err e <->
           snd (pp b) = Err e) as K.
         { split.
           - intros H. apply wbind_err in H as [H|(k & _ & H)]; [exact H|].
             apply wseq_err in H as [H|(_ & H)]; [|discriminate]. rewrite snd_wwhen in H. discriminate.
           - destruct (pp b) as [l [k|e1]]; cbn [snd wbind]; [discriminate|]. congruence. }
         assert (snd (let (l, r) := wbind (pp b) (fun k => wwhen (issubclass (k_pcls k) CertPub) (wwarn WCertCA) ;; wret k) in
                       ([] ++ l, r)) = Err e <-> snd (pp b) = Err e) as K'.
         { rewrite <- K. destruct (wbind _ _); reflexivity. }
         etransitivity; [apply and_iff_compat_r; exact K'|]. split.
         - intros (H & Hh). exists b. destruct (Hpp b e eq_refl H) as [Q|[Q|(o & ->)]].
           1,2: exfalso; unfold is_authority_error in Hh; rewrite Q in Hh; destruct (is_value_error e); discriminate.
           exists o. auto.
         - intros (ca & o & Ke & H & ->). injection Ke as <-. split; [exact H|reflexivity]. }
    all: split; [discriminate|intros (ca & o & Ke & _); discriminate].
  - intros g Hg x Hx c Hc p Hp a Ha. rewrite wseq_err_iff, Ha.
    rewrite (wseq_err_iff p), (wseq_err_iff c), (wseq_err_iff x), Hp, Hc, Hx, Hg.
    rewrite <- !not_err_ok. cbn [first_bad_list cert_lists].
    assert (forall (y : W unit) n ts, (forall e0, snd y = Err e0 <-> exists u, e0 = UnicodeDecodeError u /\ exists b,
              dget n d = Some (VBytes b) /\ unreadable_list ts b u) ->
            ((forall e0, snd y <> Err e0) <-> forall b u, dget n d = Some (VBytes b) -> ~ unreadable_list ts b u)) as Nn.
    { intros y n ts Hy. split.
      - intros H b u G N. apply (H (UnicodeDecodeError u)). apply Hy. exists u. split; [reflexivity|]. eauto.
      - intros H e0 K. apply Hy in K as (u & -> & b & G & N). exact (H b u G N). }
    rewrite (Nn _ _ _ Hp), (Nn _ _ _ Hc), (Nn _ _ _ Hx). clear - e.
    split.
    + intros [K|(_ & [(u & -> & B)|(Np & [(u & -> & B)|(Nc & [(u & -> & B)|(Nx & S)])])])].
      * discriminate.
      * left. exists u. auto.
      * left. exists u. auto.
      * left. exists u. split; [reflexivity|]. right. split; [exact Np|]. right. split; [exact Nc|]. left. exact B.
      * right. split; [|exact S]. intros u [(b & G & N)|(_ & [(b & G & N)|(_ & [(b & G & N)|(_ & [])])])].
        -- exact (Np b u G N).
        -- exact (Nc b u G N).
        -- exact (Nx b u G N).
    + intros [(u & -> & [B|(Np & [B|(Nc & [B|(_ & [])])])])|(N & S)].
      * right. split; [reflexivity|]. left. eauto.
      * right. split; [reflexivity|]. right. split; [exact Np|]. left. eauto.
      * right. split; [reflexivity|]. right. split; [exact Np|]. right. split; [exact Nc|]. left. eauto.
      * right. split; [reflexivity|].
        assert (Np : forall b u, dget (str "valid_principals") d = Some (VBytes b) -> ~ unreadable_list [text "principal"] b u).
        { intros b u G B. apply (N u). left. eauto. }
        assert (Nc : forall b u, dget (str "critical_options") d = Some (VBytes b) -> ~ unreadable_list [text "option"; octets "value"] b u).
        { intros b u G B. apply (N u). right. split; [exact Np|]. left. eauto. }
        right. split; [exact Np|]. right. split; [exact Nc|]. right. split; [|exact S].
        intros b u G B. apply (N u). right. split; [exact Np|]. right. split; [exact Nc|]. left. eauto.
Qed.
Lemma run_steps_iff pp c d l ts e : format_types (format_of c) ts ->
  snd (run_steps ec pp c d l) = Err e <-> In StCert l /\ snd (check_cert pp d) = Err e.
Proof.
  intros F. induction l as [|s l IH]; cbn [run_steps In]; [split; [discriminate|intros ([] & _)]|].
  rewrite wseq_err_iff, IH.
  assert (s <> StCert -> snd (check_step ec pp c d s) = Ok tt) as Ns.
  { intros N. pose proof (run_steps_no_raise ec pp c d [s] ts F) as K. cbn [run_steps] in K.
    apply not_err_ok. intros e0 H.
    assert (snd (wseq (check_step ec pp c d s) (wret tt)) = Err e0) as Q by (apply wseq_err_iff; left; exact H).
    rewrite K in Q; [discriminate|]. intros [E|[]]. exact (N E). }
  destruct s; [rewrite Ns by discriminate..|].
  1-4: split; [intros [K|(_ & I & H)]; [discriminate|auto]|intros ([K|I] & H); [discriminate|auto]].
  cbn [check_step]. split; [intros [H|(_ & _ & H)]; auto|intros (_ & H); auto].
Qed.
Lemma new_key_iff pp kd t c h ps fo cl e :
  dget (str "key_type") h = Some (VStr t) -> params_class kd (VStr t) = Ok c ->
  snd (new_key ec pp kd h ps fo cl) = Err e <-> snd (new_params ec pp c ps) = Err e.
Proof.
  intros G Hc. destruct (new_params ec pp c ps) as [l1 [[]|e1]] eqn:E.
  - rewrite (new_key_intro ec pp kd h ps fo cl (VStr t) c l1 G Hc E). split; discriminate.
  - unfold new_key. rewrite wseq_err_iff, (proj1 (check_dict_spec h _ _ (header_types kd))).
    unfold ditem. rewrite G. cbn [wlift wbind]. rewrite Hc, E. cbn [wseq wbind snd wlift].
    split; [intros [K|(_ & K)]; [discriminate|congruence]|intros K; right; split; [reflexivity|congruence]].
Qed.
Lemma cert_plan t pub : In (t, (pub, None)) key_specs ->
  (exists base, In (t, base) cert_specs /\ pub = cert_fields base) /\
  forall c, params_class KPub (VStr t) = Ok c -> In StCert (check_plan c).
Proof.
  intros Hs. split.
  - unfold key_specs in Hs. apply in_app_or in Hs as [Hs|Hs]; apply in_map_iff in Hs as (x & E & I);
      [discriminate|]. destruct x as (t0, base). cbn [fst snd] in E. injection E as <- <-. eauto.
  - intros c Hc.
    assert (existsb (fun s => match s with StCert => true | _ => false end) (check_plan c) = true) as A.
    { each_spec Hs; try discriminate; injection Hs as <- <-; vm_compute in Hc; injection Hc as <-; vm_compute; reflexivity. }
    apply existsb_exists in A as (s & I & E). destruct s; try discriminate. exact I.
Qed.
Lemma record_value_size ts vs u n b : record_of wire ts vs u -> dget n vs = Some (VBytes b) -> (length b <= length u)%nat.
Proof.
  intros R; induction R as [|k t ts v vs b0 bs W R IH]; [discriminate|]. cbn [dget]. rewrite app_length.
  destruct (str_eqb n k); [|intros G; specialize (IH G); lia].
  intros E; injection E as ->. inversion W as [? ? ? (l & _ & _ & ->)| | | |]; subst; [rewrite app_length|]; lia.
Qed.
Lemma from_bytes_iff pp kd b cl e : Z.of_nat (length b) <= ssize_max ->
  snd (key_from_bytes_with ec pp kd b cl) = Err e <->
  key_unreadable kd b e \/
  exists s' h ps fo, read_key_parts kd (stream_of b) = (s', Ok (h, ps, fo)) /\ snd (new_key ec pp kd h ps fo cl) = Err e.
Proof.
  intros Z. pose proof (read_key_parts_unreadable kd (stream_of b) e Z) as U.
  change (unread (stream_of b)) with b in U. rewrite <- U. unfold key_from_bytes_with, key_from_stream.
  destruct (read_key_parts kd (stream_of b)) as [s1 [[[h ps] fo]|e1]] eqn:E.
  - split.
    + intros H. right. exists s1, h, ps, fo. split; [reflexivity|].
      apply wbind_err in H as [H|(k & _ & H)]; [exact H|].
      destruct (unread s1); [discriminate|]. apply wseq_err in H as [H|(_ & H)]; discriminate.
    + intros [(s' & K)|(s' & h' & ps' & fo' & K & H)]; [discriminate|]. injection K as <- <- <- <-.
      destruct (new_key ec pp kd h ps fo cl) as [l r]. cbn [snd] in H. subst r. reflexivity.
  - cbn [werr wbind snd]. split.
    + intros K; injection K as <-. left. eauto.
    + intros [(s' & K)|(s' & h' & ps' & fo' & K & H)]; [|discriminate]. injection K as <- <-. reflexivity.
Qed.

(** Parsing a private key raises exactly if the bytes are not those of a key, with the exception
    for the first reason. *)
Theorem C103_private b cl e :
  Z.of_nat (length b) <= ssize_max ->
  snd (key_from_bytes ec KPriv b cl) = Err e <-> key_unreadable KPriv b e.
Proof.
  intros Z. unfold key_from_bytes. rewrite from_bytes_iff by exact Z. split; [|auto].
  intros [H|(s' & h & ps & fo & R & H)]; [exact H|]. exfalso.
  apply read_key_parts_sound in R as (t & pub & priv & ts & b0 & Hs & Hf & -> & _).
  cbn [fields_of snd] in Hf. subst priv.
  destruct (new_key_plain_no_excess ec (parse_pub ec) KPriv t pub ts [(str "key_type", VStr t)] ps fo cl Hs) as (l & k & E & _);
    [cbn [dget]; rewrite str_eqb_refl; reflexivity|].
  rewrite E in H. discriminate.
Qed.

Lemma public_iff b cl e :
  Z.of_nat (length b) <= ssize_max ->
  snd (key_from_bytes_with ec (parse_pub ec) KPub b cl) = Err e <-> public_raises b e.
Proof.
  revert e cl. remember (length b) as n eqn:En. revert b En.
  induction n as [n IH] using (well_founded_induction Nat.lt_wf_0). intros b -> e cl Z.
  rewrite from_bytes_iff by exact Z.
  (* What the constructor does with a certificate that was read. *)
  assert (forall s' h ps fo t pub ts c, read_key_parts KPub (stream_of b) = (s', Ok (h, ps, fo)) ->
    dget (str "key_type") h = Some (VStr t) -> In (t, (pub, None)) key_specs ->
    params_class KPub (VStr t) = Ok c -> format_types (format_of c) ts ->
    (snd (new_key ec (parse_pub ec) KPub h ps fo cl) = Err e <->
     (exists u, e = UnicodeDecodeError u /\ first_bad_list cert_lists ps u) \/
     ((forall u, ~ first_bad_list cert_lists ps u) /\
      exists ca x, dget (str "signature_key") ps = Some (VBytes ca) /\ public_raises ca e /\ e = KeyError x))) as C.
  { intros s' h ps fo t pub ts c R G Hs Hc F. rewrite (new_key_iff _ _ t c) by assumption.
    unfold new_params. rewrite (run_steps_iff _ _ _ _ ts e F).
    rewrite check_cert_iff.
    - pose proof (proj2 (cert_plan _ _ Hs) c Hc) as I.
      assert (forall ca, dget (str "signature_key") ps = Some (VBytes ca) ->
        (snd (parse_pub ec ca) = Err e <-> public_raises ca e)) as Q.
      { intros ca Gc.
        assert (length ca < length b)%nat as L.
        { change b with (unread (stream_of b)). eapply (parts_signature_shorter ec); [exact R|].
          unfold get_bytes. rewrite Gc. reflexivity. }
        rewrite parse_pub_unfold. apply (IH (length ca) L ca eq_refl). lia. }
      split.
      + intros (_ & [H|(N & ca & x & Gc & H & Ee)]); [left; exact H|right]. split; [exact N|].
        exists ca, x. split; [exact Gc|]. split; [apply Q; assumption|exact Ee].
      + intros H. split; [exact I|]. destruct H as [H|(N & ca & x & Gc & H & Ee)]; [left; exact H|right].
        split; [exact N|]. exists ca, x. split; [exact Gc|]. split; [apply Q; assumption|exact Ee].
    - intros m v Gv. destruct (read_key_parts_sound _ _ _ _ _ _ R) as (t' & pub' & priv' & ts' & b0 & _ & _ & -> & Rr & Kt & _ & U & _).
      change (unread (stream_of b)) with b in U. unfold key_fields in Rr. inversion Rr as [|? ? ? v0 vs0 u0 us0 W0 R0]; subst.
      apply record_app_inv in R0 as (v1 & v2 & u1 & u2 & Ev & -> & R1 & R2).
      assert (ps = v1) as ->.
      { apply record_length in R1. apply (f_equal (@length pystr)) in Kt. unfold dkeys in Kt. rewrite !map_length in Kt.
        cbn [footer_fields] in R2. inversion R2; subst. rewrite app_nil_r in Ev.
        assert (fo = []) as ->; [|rewrite app_nil_r in Ev; exact Ev].
        apply (f_equal (@length (pystr * pyval))) in Ev. rewrite app_length in Ev.
        destruct fo; [reflexivity|]. cbn [length] in Ev. lia. }
      pose proof (record_value_size _ _ _ _ _ R1 Gv). rewrite !app_length in Z. lia.
    - intros ca e0 _. apply parse_pub_errors. }
  split.
  - intros [H|(s' & h & ps & fo & R & H)]; [apply pr_unreadable; exact H|].
    destruct (read_key_parts_sound _ _ _ _ _ _ R) as (t & pub & priv & ts & b0 & Hs & Hf & -> & Rr & Kt & Kf & U & _).
    cbn [fields_of fst] in Hf. injection Hf as <-.
    assert (dget (str "key_type") [(str "key_type", VStr t)] = Some (VStr t)) as G
      by (cbn [dget]; rewrite str_eqb_refl; reflexivity).
    destruct priv as [priv|].
    { exfalso. destruct (new_key_plain_no_excess ec (parse_pub ec) KPub t pub priv _ ps fo cl Hs G) as (l & k & E & _).
      rewrite E in H. discriminate. }
    destruct (spec_class KPub t pub None pub Hs eq_refl) as (c & Hc & F & _).
    apply (C _ _ _ _ t pub pub c R G Hs Hc F) in H.
    destruct fo; [|discriminate]. rewrite app_nil_r in Rr. unfold key_fields in Rr. cbn [footer_fields] in Rr. rewrite app_nil_r in Rr.
    assert (begins_with_cert b ps) as B.
    { destruct (proj1 (cert_plan _ _ Hs)) as (base & I & ->). exists t, base, b0, (unread s'). auto. }
    destruct H as [(u & -> & N)|(N & ca & x & Gc & H & ->)].
    + eapply pr_text; eassumption.
    + eapply pr_authority; eassumption.
  - intros H.
    assert (forall ps, begins_with_cert b ps ->
      (exists u, e = UnicodeDecodeError u /\ first_bad_list cert_lists ps u) \/
      ((forall u, ~ first_bad_list cert_lists ps u) /\
       exists ca x, dget (str "signature_key") ps = Some (VBytes ca) /\ public_raises ca e /\ e = KeyError x) ->
      exists s' h ps fo, read_key_parts KPub (stream_of b) = (s', Ok (h, ps, fo)) /\
        snd (new_key ec (parse_pub ec) KPub h ps fo cl) = Err e) as D.
    { intros ps (t & base & u & rest & I & Eb & Rr) K.
      assert (In (t, (cert_fields base, None)) key_specs) as Hs.
      { unfold key_specs. apply in_or_app. right. apply in_map_iff. exists (t, base). auto. }
      destruct (spec_class KPub t _ None _ Hs eq_refl) as (c & Hc & F & _).
      assert (read_key_parts KPub (stream_of b) = (adv (length u) (stream_of b), Ok ([(str "key_type", VStr t)], ps, []))) as R.
      { apply (read_key_parts_complete KPub t (stream_of b) (cert_fields base) _ ps [] u rest (cert_fields base) None Hs eq_refl eq_refl).
        - unfold key_fields. cbn [footer_fields app]. rewrite !app_nil_r. exact Rr.
        - inversion Rr; subst. symmetry. eapply record_length; eassumption.
        - rewrite Eb, app_length in Z. lia.
        - exact Eb. }
      do 4 eexists. split; [exact R|].
      apply (C _ _ _ _ t _ _ c R ltac:(cbn [dget]; rewrite str_eqb_refl; reflexivity) Hs Hc F). exact K. }
    destruct H as [b e H|b ps u B N|b ps ca x B N Gc H]; [left; exact H|right|right].
    + apply (D ps B). left. exists u. auto.
    + apply (D ps B). right. split; [exact N|]. exists ca, x. auto.
Qed.
(** Parsing a public key raises exactly if the bytes are not those of a key, or they are those
    of a certificate with a text that is not UTF-8 in its lists or an authority of unknown type. *)
Theorem C103_public b cl e :
  Z.of_nat (length b) <= ssize_max ->
  snd (key_from_bytes ec KPub b cl) = Err e <-> public_raises b e.
Proof. apply public_iff. Qed.

(** Parsing a line: without a space it raises IndexError, otherwise what decoding the second
    word raises, otherwise what parsing the decoded bytes raises. *)
Theorem C103_line kd s e :
  snd (key_from_string ec kd s) = Err e <->
  (~ In 32%N s /\ e = IndexError) \/
  exists w b64 c, key_line s w b64 c /\
    (b64decode b64 = Err e \/
     exists b, b64decode b64 = Ok b /\
       snd (key_from_bytes ec kd b (Some [(str "key_type", VStr w); (str "comment", VStr c)])) = Err e).
Proof.
  assert (forall w b64 c, key_line s w b64 c ->
    (snd (key_from_string ec kd s) = Err e <->
     b64decode b64 = Err e \/ exists b, b64decode b64 = Ok b /\
       snd (key_from_bytes ec kd b (Some [(str "key_type", VStr w); (str "comment", VStr c)])) = Err e)) as K.
  { intros w b64 c KL. rewrite (key_from_string_line ec kd s w b64 c KL). unfold clear_dict.
    destruct (b64decode b64) as [b|e1] eqn:Eb.
    - destruct (key_from_bytes ec kd b _) as [l0 [k0|e1]] eqn:Ek; cbn [snd].
      + split; [discriminate|]. intros [Q|(b' & Q & H)]; [discriminate|]. assert (b' = b) as -> by congruence. assert (snd (l0, Ok k0) = Err e) as Q2 by (rewrite <- Ek; exact H). discriminate.
      + split.
        * intros Q. right. exists b. split; [reflexivity|]. change (snd (l0, Err e1 : res key) = Err e) in Q. rewrite <- Ek in Q. exact Q.
        * intros [Q|(b' & Q & H)]; [discriminate|]. assert (b' = b) as -> by congruence. assert (snd (l0, Err e1 : res key) = Err e) as Q2 by (rewrite <- Ek; exact H). exact Q2.
    - cbn [snd]. split; [intros Q; left; congruence|]. intros [Q|(b' & Q & _)]; congruence. }
  destruct (in_dec N.eq_dec 32%N s) as [I|N].
  - split.
    + intros H. right.
      assert (exists w b64 c, key_line s w b64 c) as (w & b64 & c & KL).
      { destruct (break_at 32 s) as [[t r]|] eqn:E1; [|apply break_at_none in E1; contradiction].
        apply break_at_some in E1 as (-> & Wt). destruct (break_at 32 r) as [[b c]|] eqn:E2.
        - apply break_at_some in E2 as (-> & Wb). exists t, b, c. apply key_line_comment; assumption.
        - apply break_at_none in E2. exists t, r, []. apply key_line_plain; assumption. }
      exists w, b64, c. split; [exact KL|]. apply (K w b64 c KL). exact H.
    + intros [(N & _)|(w & b64 & c & KL & H)]; [contradiction|]. apply (K w b64 c KL). exact H.
  - rewrite C42_without_space by exact N. cbn [snd]. split.
    + intros Q. left. split; [exact N|congruence].
    + intros [(_ & ->)|(w & b64 & c & KL & _)]; [reflexivity|]. exfalso. apply N.
      inversion KL; subst; apply in_or_app; right; left; reflexivity.
Qed.
End Ec.

(** An RSA key that ends within the length of its second field; one whose type is not UTF-8. *)
Definition ex_cut : bytes := map bZ [0; 0; 0; 7; 115; 115; 104; 45; 114; 115; 97; 0; 0; 0; 1; 17; 0; 0].
Example C103_example :
  public_raises ex_cut (EOFError false (str "Fewer than 'num_bytes' bytes remaining in the underlying bytestream")) /\
  snd (key_from_bytes ex_ec KPub ex_cut None) =
    Err (EOFError false (str "Fewer than 'num_bytes' bytes remaining in the underlying bytestream")) /\
  public_raises (map bZ [0; 0; 0; 1; 255]) (UnicodeDecodeError [xff]) /\
  public_raises [] (EOFError true (str "Underlying bytestream is empty")).
Proof.
  assert (snd (key_from_bytes ex_ec KPub ex_cut None) =
    Err (EOFError false (str "Fewer than 'num_bytes' bytes remaining in the underlying bytestream"))) as H
    by (vm_compute; reflexivity).
  split; [apply (C103_public ex_ec _ None); [vm_compute; discriminate|exact H]|].
  split; [exact H|]. split.
  - apply (C103_public ex_ec _ None); [vm_compute; discriminate|vm_compute; reflexivity].
  - apply pr_unreadable. left. apply (un_length _ 4); [reflexivity|]. cbn. lia.
Qed.
(** A text in a certificate's lists. *)
Example C103_example_lists :
  unreadable_list [text "principal"] (map bZ [0; 0; 0; 1; 65; 0; 0; 0; 2; 66; 255]) (map bZ [66; 255]) /\
  first_bad_list cert_lists [(str "valid_principals", VBytes (map bZ [0; 0; 0; 1; 65; 0; 0; 0; 2; 66; 255]))] (map bZ [66; 255]).
Proof.
  assert (unreadable_list [text "principal"] (map bZ [0; 0; 0; 1; 65; 0; 0; 0; 2; 66; 255]) (map bZ [66; 255])) as H.
  { apply (repeatedly_text [fld "principal" fS]); [exact principal_types|reflexivity|vm_compute; discriminate|].
    vm_compute. reflexivity. }
  split; [exact H|]. left. eexists. split; [reflexivity|exact H].
Qed.

(** Certificates: the authority's type is not known; and so it is here, but a principal comes first. *)
Definition ex_cert_authority : bytes := map bZ [0; 0; 0; 32; 115; 115; 104; 45; 101; 100; 50; 53; 53; 49; 57; 45; 99; 101; 114; 116; 45; 118; 48; 49; 64; 111; 112; 101; 110; 115; 115; 104; 46; 99; 111; 109; 0; 0; 0; 1; 110; 0; 0; 0; 1; 112; 0; 0; 0; 0; 0; 0; 0; 1; 0; 0; 0; 1; 0; 0; 0; 2; 105; 100; 0; 0; 0; 5; 0; 0; 0; 1; 65; 0; 0; 0; 0; 0; 0; 0; 0; 0; 0; 0; 0; 0; 0; 0; 9; 0; 0; 0; 0; 0; 0; 0; 0; 0; 0; 0; 0; 0; 0; 0; 5; 0; 0; 0; 1; 65; 0; 0; 0; 1; 115].
Definition ex_cert_principal : bytes := map bZ [0; 0; 0; 32; 115; 115; 104; 45; 101; 100; 50; 53; 53; 49; 57; 45; 99; 101; 114; 116; 45; 118; 48; 49; 64; 111; 112; 101; 110; 115; 115; 104; 46; 99; 111; 109; 0; 0; 0; 1; 110; 0; 0; 0; 1; 112; 0; 0; 0; 0; 0; 0; 0; 1; 0; 0; 0; 1; 0; 0; 0; 2; 105; 100; 0; 0; 0; 11; 0; 0; 0; 1; 65; 0; 0; 0; 2; 66; 255; 0; 0; 0; 0; 0; 0; 0; 0; 0; 0; 0; 0; 0; 0; 0; 9; 0; 0; 0; 0; 0; 0; 0; 0; 0; 0; 0; 0; 0; 0; 0; 5; 0; 0; 0; 1; 65; 0; 0; 0; 1; 115].
Example C103_example_certificates :
  public_raises ex_cert_authority (KeyError (VStr (str "A"))) /\
  public_raises ex_cert_principal (UnicodeDecodeError (map bZ [66; 255])) /\
  key_unreadable KPriv ex_cert_authority
    (KeyError (VStr (str "No subclass of PrivateKeyParams corresponds to the given key type name"))).
Proof.
  split; [|split].
  - apply (C103_public ex_ec _ None); [vm_compute; discriminate|vm_compute; reflexivity].
  - apply (C103_public ex_ec _ None); [vm_compute; discriminate|vm_compute; reflexivity].
  - apply (C103_private ex_ec _ None); [vm_compute; discriminate|vm_compute; reflexivity].
Qed.

Print Assumptions C103_field.
Print Assumptions C103_record.
Print Assumptions C103_private.
Print Assumptions C103_public.
Print Assumptions C103_line.
