(** Lemmas for C79: what reading a private key does depends on its secrets only through the
    values it returns. *)
From Verif Require Import PyBase IntBytes Utf8 StructFmt Stream Text Classes Key Crypto PrivateKeyList.
From Verif Require Import SpecWire SpecKey SpecCrypto SpecList SpecWarn SpecSecret.
From Verif Require Import ProofBase ProofInt ProofUtf8 ProofWire ProofRecord ProofKey ProofLog ProofErr ProofText ProofCrypto ProofList ProofRead Props_Warn.
Open Scope Z_scope.

(** ** Reading depends only on the unread bytes *)
Definition uniform {A} (f : P A) : Prop :=
  forall s1 s2, unread s1 = unread s2 ->
    snd (f s1) = snd (f s2) /\ unread (fst (f s1)) = unread (fst (f s2)) /\
    (length (unread (fst (f s1))) <= length (unread s1))%nat.
Lemma uniform_ret A (a : A) : uniform (pret a).
Proof. intros s1 s2 E. split; [reflexivity|split; [exact E|reflexivity]]. Qed.
Lemma uniform_err A e : uniform (@perr A e).
Proof. intros s1 s2 E. split; [reflexivity|split; [exact E|reflexivity]]. Qed.
Lemma uniform_lift A (r : res A) : uniform (plift r).
Proof. intros s1 s2 E. split; [reflexivity|split; [exact E|reflexivity]]. Qed.
Lemma uniform_bind A B (x : P A) (f : A -> P B) : uniform x -> (forall a, uniform (f a)) -> uniform (pbind x f).
Proof.
  intros Hx Hf s1 s2 E. destruct (Hx s1 s2 E) as (E1 & E2 & E3). unfold pbind.
  destruct (x s1) as [t1 r1], (x s2) as [t2 r2]. cbn [fst snd] in E1, E2, E3. subst r2. destruct r1 as [a|e]; [|split; [reflexivity|split; [exact E2|exact E3]]].
  destruct (Hf a t1 t2 E2) as (F1 & F2 & F3). split; [exact F1|]. split; [exact F2|]. lia.
Qed.
Lemma uniform_read n : uniform (bio_read n).
Proof.
  intros s1 s2 E. unfold bio_read. rewrite E.
  destruct ((ssize_max <? n) || (n <? - ssize_max - 1)); [split; [reflexivity|split; [exact E|cbn [fst]; rewrite E; reflexivity]]|]. cbn [fst snd].
  set (m := if n <? 0 then length (unread s2) else Z.to_nat (Z.min n (Z.of_nat (length (unread s2))))).
  split; [reflexivity|]. change (mkstream (sbuf s1) (spos s1 + m)) with (adv m s1). change (mkstream (sbuf s2) (spos s2 + m)) with (adv m s2).
  rewrite !unread_adv, E. split; [reflexivity|]. rewrite skipn_length. lia.
Qed.
Lemma uniform_fixed n : uniform (read_fixed_bytes n).
Proof.
  unfold read_fixed_bytes. apply uniform_bind; [apply uniform_read|]. intros a.
  destruct (Z.of_nat (length a) <? n); [destruct (length a =? 0)%nat; apply uniform_err|apply uniform_ret].
Qed.
Lemma uniform_pascal n : uniform (read_pascal_bytes n).
Proof.
  unfold read_pascal_bytes. destruct (n <=? 0); [apply uniform_err|].
  apply uniform_bind; [apply uniform_fixed|]. intros l. apply uniform_fixed.
Qed.
Lemma uniform_instr i : uniform (read_instr i).
Proof.
  assert (forall (q : pinstr) n, uniform (do! read_bytes <- read_pascal_bytes n;
      match q with
      | BYTES => pret (VBytes read_bytes)
      | STRING => do! s <- plift (utf8_decode read_bytes); pret (VStr s)
      | MPINT => pret (VInt (int_from_bytes read_bytes true))
      end)) as K.
  { intros q n. apply uniform_bind; [apply uniform_pascal|]. intros b.
    destruct q; try apply uniform_ret. apply uniform_bind; [apply uniform_lift|]. intros ?. apply uniform_ret. }
  destruct i as [fmt|q|q n|]; cbn [read_instr]; [|apply K|apply K|apply uniform_err].
  apply uniform_bind; [apply uniform_lift|]. intros n. apply uniform_bind; [apply uniform_fixed|]. intros b.
  apply uniform_bind; [apply uniform_lift|]. intros l. destruct l as [|v [|? ?]]; apply uniform_ret.
Qed.
Lemma uniform_dict f : uniform (read_dict f).
Proof.
  induction f as [|(k, i) f IH]; cbn [read_dict]; [apply uniform_ret|].
  apply uniform_bind; [apply uniform_instr|]. intros v. apply uniform_bind; [exact IH|]. intros r. apply uniform_ret.
Qed.
Lemma uniform_parts k : uniform (read_key_parts k).
Proof.
  unfold read_key_parts. apply uniform_bind; [apply uniform_dict|]. intros h.
  apply uniform_bind; [apply uniform_lift|]. intros kt. apply uniform_bind; [apply uniform_lift|]. intros c.
  apply uniform_bind; [apply uniform_dict|]. intros ps. apply uniform_bind; [apply uniform_dict|]. intros fo. apply uniform_ret.
Qed.

(** ** Reading fields *)
(** The values read for one field: the same, or contents of a secret field. *)
Definition alike_value (secret : pystr -> bytes -> bytes -> Prop) (k : pystr) (v1 v2 : pyval) : Prop :=
  v1 = v2 \/
  exists u1 u2, secret k u1 u2 /\ length u1 = length u2 /\
    ((v1 = VBytes u1 /\ v2 = VBytes u2) \/ (v1 = VInt (signed u1) /\ v2 = VInt (signed u2))).
Definition alike (secret : pystr -> bytes -> bytes -> Prop) : dict pyval -> dict pyval -> Prop :=
  Forall2 (fun a b => fst a = fst b /\ alike_value secret (fst a) (snd a) (snd b)).
(** The secret fields are strings or mpints. *)
Definition pascal_secret (secret : pystr -> bytes -> bytes -> Prop) (f : fmt_dict) : Prop :=
  forall k i u1 u2, In (k, i) f -> secret k u1 u2 -> i = FPascal BYTES \/ i = FPascal MPINT.

(** The results of two reads: the same exception, or related values and unread bytes. *)
Definition agree {A} (R : A -> bytes -> A -> bytes -> Prop) (x1 x2 : stream * res A) : Prop :=
  match snd x1, snd x2 with
  | Ok a1, Ok a2 => R a1 (unread (fst x1)) a2 (unread (fst x2))
  | Err e1, Err e2 => e1 = e2
  | _, _ => False
  end.
Lemma agree_bind A B (R : A -> bytes -> A -> bytes -> Prop) (Q : B -> bytes -> B -> bytes -> Prop) x y f g s1 s2 :
  agree R (x s1) (y s2) ->
  (forall a1 a2 t1 t2, R a1 (unread t1) a2 (unread t2) -> agree Q (f a1 t1) (g a2 t2)) ->
  agree Q (pbind x f s1) (pbind y g s2).
Proof.
  unfold agree, pbind. destruct (x s1) as [t1 [a1|e1]], (y s2) as [t2 [a2|e2]]; cbn [fst snd]; try contradiction.
  - intros HR H. exact (H _ _ _ _ HR).
  - intros -> _. reflexivity.
Qed.
Lemma uniform_agree A (f : P A) s1 s2 : uniform f -> unread s1 = unread s2 ->
  agree (fun a1 r1 a2 r2 => a1 = a2 /\ r1 = r2 /\ (length r1 <= length (unread s1))%nat) (f s1) (f s2).
Proof. intros U E. destruct (U s1 s2 E) as (E1 & E2 & E3). unfold agree. rewrite E1. destruct (snd (f s2)); auto. Qed.

Lemma read_pascal_alike s1 s2 l a1 a2 : length l = 4%nat -> length a1 = length a2 ->
  unread s1 = l ++ a1 -> unread s2 = l ++ a2 ->
  agree (fun b1 r1 b2 r2 => b1 = firstn (Z.to_nat (unsigned l)) a1 /\ b2 = firstn (Z.to_nat (unsigned l)) a2 /\
                            r1 = skipn (Z.to_nat (unsigned l)) a1 /\ r2 = skipn (Z.to_nat (unsigned l)) a2 /\
                            unsigned l <= Z.of_nat (length a1))
        (read_pascal_bytes default_size s1) (read_pascal_bytes default_size s2).
Proof.
  intros Ll La E1 E2. unfold read_pascal_bytes, default_size. cbn [Z.leb]. change (4 <=? 0) with false. cbv iota.
  assert (0 <= unsigned l <= ssize_max) as Hu.
  { rewrite unsigned_be. pose proof (be_value_range l) as B. rewrite Ll in B. unfold ssize_max. change (256 ^ Z.of_nat 4) with 4294967296 in B. lia. }
  apply (agree_bind _ _ (fun b1 r1 b2 r2 => b1 = l /\ b2 = l /\ r1 = a1 /\ r2 = a2)).
  { unfold agree. rewrite !read_fixed_spec by (unfold ssize_max; lia). change (Z.to_nat 4) with 4%nat.
    rewrite E1, E2, !app_length, Ll.
    destruct (Nat.leb_spec 4 (4 + length a1)); [|lia]. destruct (Nat.leb_spec 4 (4 + length a2)); [|lia]. cbn [fst snd].
    rewrite !unread_adv, E1, E2, !firstn_app_exact, !skipn_app_exact by (symmetry; exact Ll). auto. }
  intros b1 b2 t1 t2 (-> & -> & U1 & U2).
  replace (int_from_bytes l false) with (unsigned l) by (rewrite unsigned_be; reflexivity).
  unfold agree. rewrite !read_fixed_spec by exact Hu. rewrite U1, U2, <- La.
  destruct (Nat.leb_spec (Z.to_nat (unsigned l)) (length a1)) as [L|L]; cbn [fst snd]; [|reflexivity].
  rewrite !unread_adv, U1, U2. repeat split; lia.
Qed.

Lemma agree_weaken A (R Q : A -> bytes -> A -> bytes -> Prop) x1 x2 :
  agree R x1 x2 -> (forall a1 r1 a2 r2, R a1 r1 a2 r2 -> Q a1 r1 a2 r2) -> agree Q x1 x2.
Proof. unfold agree. destruct (snd x1), (snd x2); auto. Qed.
Lemma agree_ok A (R : A -> bytes -> A -> bytes -> Prop) (Q : A -> Prop) x1 x2 :
  agree R x1 x2 -> (forall a, snd x1 = Ok a -> Q a) -> agree (fun a1 r1 a2 r2 => R a1 r1 a2 r2 /\ Q a1) x1 x2.
Proof. unfold agree. destruct (snd x1) eqn:E, (snd x2); auto. Qed.
Lemma read_dict_dkeys f s d : snd (read_dict f s) = Ok d -> dkeys d = dkeys f.
Proof.
  revert s d. induction f as [|(k, i) f IH]; intros s d; cbn [read_dict]; [intros K; injection K as <-; reflexivity|].
  unfold pbind. destruct (read_instr i s) as [s1 [v|]]; [|discriminate]. specialize (IH s1).
  destruct (read_dict f s1) as [s2 [r|]]; [|discriminate]. cbn [snd pret]. intros K; injection K as <-.
  unfold dkeys in *. cbn [map fst]. f_equal. apply IH. reflexivity.
Qed.
Lemma alike_refl secret d : alike secret d d.
Proof. induction d as [|kv d IH]; constructor; [split; [reflexivity|left; reflexivity]|exact IH]. Qed.

(** One secret field. *)
Lemma read_secret_alike i s1 s2 l a1 a2 : i = FPascal BYTES \/ i = FPascal MPINT ->
  length l = 4%nat -> length a1 = length a2 -> unread s1 = l ++ a1 -> unread s2 = l ++ a2 ->
  agree (fun v1 r1 v2 r2 =>
           let u1 := firstn (Z.to_nat (unsigned l)) a1 in let u2 := firstn (Z.to_nat (unsigned l)) a2 in
           ((v1 = VBytes u1 /\ v2 = VBytes u2) \/ (v1 = VInt (signed u1) /\ v2 = VInt (signed u2))) /\
           r1 = skipn (Z.to_nat (unsigned l)) a1 /\ r2 = skipn (Z.to_nat (unsigned l)) a2 /\
           unsigned l <= Z.of_nat (length a1)) (read_instr i s1) (read_instr i s2).
Proof.
  intros Hi Ll La E1 E2. pose proof (read_pascal_alike s1 s2 l a1 a2 Ll La E1 E2) as K.
  destruct Hi as [->| ->]; cbn [read_instr];
    (eapply agree_bind; [exact K|]); cbv beta; intros b1 b2 t1 t2 (-> & -> & U1 & U2 & L);
    unfold agree, pret; cbn [fst snd]; rewrite U1, U2.
  - auto.
  - rewrite !signed_be. auto.
Qed.

Lemma read_dict_hides secret next f ts fs2 : format_types f ts -> pascal_secret secret f ->
  forall y1 y2 s1 s2, fields_hide secret next (ts ++ fs2) y1 y2 ->
  unread s1 = y1 -> unread s2 = y2 -> Z.of_nat (length y1) <= ssize_max -> Z.of_nat (length y2) <= ssize_max ->
  agree (fun d1 r1 d2 r2 => alike secret d1 d2 /\ fields_hide secret next fs2 r1 r2 /\
           (length r1 <= length y1)%nat /\ (length r2 <= length y2)%nat)
        (read_dict f s1) (read_dict f s2).
Proof.
  intros F Hp. induction F as [|(k, i) (k', t) f ts (Hk & Ht) F IH]; intros y1 y2 s1 s2 H E1 E2 L1 L2.
  - unfold agree. cbn [read_dict pret fst snd]. rewrite E1, E2. repeat split; [constructor|exact H|lia|lia].
  - cbn [fst snd] in Hk, Ht. subst k'. cbn [app] in H.
    assert (pascal_secret secret f) as Hp' by (intros x j u1 u2 Hin; apply (Hp x j u1 u2); right; exact Hin).
    revert E1 E2. inversion H as [fs y|? ? ?|k0 t0 fs v x z1 z2 W H'|k0 t0 fs l u1 u2 z1 z2 Sk Ll Ul Lu H'|k0 t0 fs l u1 u2 w1 w2 Sk Ll Lu Ul]; subst; intros E1 E2.
    + assert (unread s1 = unread s2) as Eu by congruence.
      eapply agree_weaken; [apply uniform_agree; [apply (uniform_dict ((k, i) :: f))|exact Eu]|].
      cbv beta. intros d1 r1 d2 r2 (<- & <- & Lr). repeat split; [apply alike_refl|constructor| |]; congruence.
    + rewrite !app_length in L1, L2. cbn [read_dict].
      apply (agree_bind _ _ (fun v1 r1 v2 r2 => v1 = v /\ v2 = v /\ r1 = z1 /\ r2 = z2)).
      { rewrite (read_instr_complete i t s1 v x z1), (read_instr_complete i t s2 v x z2) by (assumption || lia).
        unfold agree. cbn [fst snd]. rewrite !unread_adv. rewrite E1, E2, !skipn_app_exact by reflexivity. auto. }
      intros v1 v2 t1 t2 (-> & -> & U1 & U2).
      eapply agree_bind; [apply (IH Hp' z1 z2 t1 t2 H' U1 U2); lia|]. cbv beta.
      intros d1 d2 t3 t4 (A & B & C & D). unfold agree, pret. cbn [fst snd].
      split; [constructor; [split; [reflexivity|left; reflexivity]|exact A]|]. split; [exact B|]. rewrite !app_length. lia.
    + rewrite !app_length in L1, L2. cbn [read_dict].
      assert (exists v1 v2, wire t v1 (l ++ u1) /\ wire t v2 (l ++ u2) /\
                ((v1 = VBytes u1 /\ v2 = VBytes u2) \/ (v1 = VInt (signed u1) /\ v2 = VInt (signed u2)))) as (v1 & v2 & W1 & W2 & V).
      { assert (prefixed 4 u1 (l ++ u1)) as P1 by (exists l; auto).
        assert (prefixed 4 u2 (l ++ u2)) as P2 by (exists l; rewrite <- Lu; auto).
        destruct (Hp k i u1 u2 (or_introl eq_refl) Sk) as [->| ->]; inversion Ht; subst.
        - exists (VBytes u1), (VBytes u2). repeat split; [constructor; exact P1|constructor; exact P2|auto].
        - exists (VInt (signed u1)), (VInt (signed u2)). repeat split; [constructor; exact P1|constructor; exact P2|auto]. }
      apply (agree_bind _ _ (fun x1 r1 x2 r2 => x1 = v1 /\ x2 = v2 /\ r1 = z1 /\ r2 = z2)).
      { rewrite (read_instr_complete i t s1 v1 (l ++ u1) z1), (read_instr_complete i t s2 v2 (l ++ u2) z2)
          by (assumption || (rewrite app_length; lia) || (rewrite <- app_assoc; assumption)).
        unfold agree. cbn [fst snd]. rewrite !unread_adv. rewrite E1, E2, !app_assoc, !skipn_app_exact by reflexivity. auto. }
      intros x1 x2 t1 t2 (-> & -> & U1 & U2).
      eapply agree_bind; [apply (IH Hp' z1 z2 t1 t2 H' U1 U2); lia|]. cbv beta.
      intros d1 d2 t3 t4 (A & B & C & D). unfold agree, pret. cbn [fst snd].
      split; [constructor; [split; [reflexivity|right; exists u1, u2; auto]|exact A]|]. split; [exact B|]. rewrite !app_length. lia.
    + cbn [read_dict]. eapply agree_bind; [apply (read_secret_alike i s1 s2 l u1 u2 (Hp k i w1 w2 (or_introl eq_refl) Sk) Ll Lu E1 E2)|].
      cbv beta. intros ? ? ? ? (_ & _ & _ & K). lia.
Qed.

(** ** Validation does not depend on secrets *)
Lemma alike_dget secret d1 d2 k : alike secret d1 d2 ->
  match dget k d1, dget k d2 with
  | Some v1, Some v2 => alike_value secret k v1 v2
  | None, None => True
  | _, _ => False
  end.
Proof.
  intros A. induction A as [|[k1 v1] [k2 v2] d1 d2 (E & V) A IH]; [exact I|]. cbn [fst snd] in E, V. subst k2. cbn [dget].
  destruct (str_eqb_reflect k k1) as [<-|_]; [exact V|exact IH].
Qed.
Lemma alike_same secret d1 d2 k : alike secret d1 d2 -> (forall u1 u2, ~ secret k u1 u2) -> dget k d1 = dget k d2.
Proof.
  intros A N. pose proof (alike_dget _ _ _ k A) as K. destruct (dget k d1), (dget k d2); try contradiction; [|reflexivity].
  destruct K as [->|(u1 & u2 & S & _)]; [reflexivity|]. exfalso. exact (N _ _ S).
Qed.
Lemma alike_keys secret d1 d2 : alike secret d1 d2 -> dkeys d1 = dkeys d2.
Proof. intros A. induction A as [|a b ? ? (E & _) ? IH]; [reflexivity|]. unfold dkeys in *. cbn [map]. congruence. Qed.
Lemma check_dict_alike secret d1 d2 f : alike secret d1 d2 -> pascal_secret secret f -> check_dict d1 f = check_dict d2 f.
Proof.
  intros A. induction f as [|(k, i) f IH]; intros Hp; [reflexivity|]. cbn [check_dict].
  rewrite IH by (intros x j u1 u2 Hin; apply (Hp x j u1 u2); right; exact Hin). f_equal.
  unfold check_field. pose proof (alike_dget _ _ _ k A) as K. destruct (dget k d1) as [v1|], (dget k d2) as [v2|]; try contradiction; [|reflexivity].
  destruct K as [->|(u1 & u2 & S & _ & V)]; [reflexivity|].
  destruct (Hp k i u1 u2 (or_introl eq_refl) S) as [->| ->]; destruct V as [(-> & ->)|(-> & ->)]; reflexivity.
Qed.

Definition secretb (t k : pystr) : bool :=
  existsb (fun e => str_eqb (fst e) t && str_mem k (snd e)) secret_names ||
  (str_eqb t (str "ssh-ed25519") && str_eqb k (str "private_public")).
Lemma secretb_sound t k u1 u2 : secret_for t k u1 u2 -> secretb t k = true.
Proof.
  unfold secretb. intros [(ks & Hin & Hk)|(-> & -> & _)].
  - apply orb_true_iff. left. apply existsb_exists. exists (t, ks). split; [exact Hin|]. cbn [fst snd].
    rewrite str_eqb_refl. apply str_mem_In. exact Hk.
  - apply orb_true_iff. right. rewrite !str_eqb_refl. reflexivity.
Qed.
Lemma not_secret t k u1 u2 : secretb t k = false -> ~ secret_for t k u1 u2.
Proof. intros E H. apply secretb_sound in H. congruence. Qed.
(** What the class tables say about the secret fields. *)
Definition step_fine (t : pystr) (s : step) : bool :=
  match s with
  | StFormat => true
  | StEdPriv => str_eqb t (str "ssh-ed25519") && negb (secretb t (str "public"))
  | StCert => false
  | _ => forallb (fun k => negb (secretb t k)) (step_keys s)
  end.
Definition pascal_field (e : pystr * finstr) : bool :=
  match snd e with FPascal BYTES | FPascal MPINT => true | _ => false end.
Lemma secret_table t pub priv c : In (t, (pub, Some priv)) key_specs -> get_private_class (VStr t) = Ok c ->
  forallb (step_fine t) (check_plan c) = true /\
  forallb (fun e => negb (secretb t (fst e)) || pascal_field e) (format_of c) = true /\
  secretb t (str "comment") = false.
Proof.
  intros Hs Hc. each_spec Hs; try discriminate; injection Hs as <- _ _; vm_compute in Hc; injection Hc as <-;
    (split; [vm_compute; reflexivity|split; vm_compute; reflexivity]).
Qed.

Section Ec.
Variable ec : curve -> bytes -> bool.
Variable pp : bytes -> W key.
Variable secret : pystr -> pystr -> bytes -> bytes -> Prop.
Hypothesis secret_incl : forall t k u1 u2, secret t k u1 u2 -> secret_for t k u1 u2.

Lemma secret_pascal t pub priv c : In (t, (pub, Some priv)) key_specs -> get_private_class (VStr t) = Ok c ->
  pascal_secret (secret t) (format_of c).
Proof.
  intros Hs Hc k i u1 u2 Hin Hk. destruct (secret_table _ _ _ _ Hs Hc) as (_ & K & _).
  rewrite forallb_forall in K. specialize (K _ Hin). cbn [fst] in K.
  rewrite (secretb_sound _ _ _ _ (secret_incl _ _ _ _ Hk)) in K. unfold pascal_field in K. cbn [negb orb snd] in K.
  destruct i as [|[]| |]; try discriminate; auto.
Qed.
Lemma get_bytes_same t k d1 d2 : alike (secret t) d1 d2 -> secretb t (str k) = false ->
  get_bytes k d1 = get_bytes k d2.
Proof.
  intros A N. apply get_bytes_ext. apply (alike_same _ _ _ _ A). intros u1 u2 S. apply (not_secret _ _ u1 u2 N). auto.
Qed.
Lemma check_step_alike t pub priv c d1 d2 s : In (t, (pub, Some priv)) key_specs -> get_private_class (VStr t) = Ok c ->
  alike (secret t) d1 d2 -> step_fine t s = true -> check_step ec pp c d1 s = check_step ec pp c d2 s.
Proof.
  intros Hs Hc A Hf. destruct s; cbn [check_step].
  - apply (check_dict_alike _ _ _ _ A). eapply secret_pascal; eassumption.
  - cbn [step_fine step_keys forallb] in Hf. rewrite !andb_true_iff in Hf. destruct Hf as (H1 & H2 & _).
    apply negb_true_iff in H1, H2. unfold check_ecdsa. rewrite (get_bytes_same _ _ _ _ A H2).
    rewrite (alike_same _ _ _ (str "identifier") A); [reflexivity|]. intros u1 u2 S. apply (not_secret _ _ u1 u2 H1). auto.
  - cbn [step_fine step_keys forallb] in Hf. rewrite !andb_true_iff in Hf. destruct Hf as (H1 & _).
    apply negb_true_iff in H1. unfold check_ed_pub. rewrite (get_bytes_same _ _ _ _ A H1). reflexivity.
  - cbn [step_fine] in Hf. apply andb_true_iff in Hf as (Ht & H1). apply negb_true_iff in H1.
    unfold check_ed_priv. rewrite (get_bytes_same _ _ _ _ A H1).
    unfold get_bytes. pose proof (alike_dget _ _ _ (str "private_public") A) as K.
    destruct (dget (str "private_public") d1) as [v1|], (dget (str "private_public") d2) as [v2|]; try contradiction; [|reflexivity].
    destruct K as [->|(u1 & u2 & S & Lu & [(-> & ->)|(-> & ->)])]; [reflexivity| |reflexivity].
    apply secret_incl in S. destruct S as [(ks & Hin & Hk)|(_ & _ & s1 & s2 & r & -> & -> & Ls & L)].
    + exfalso. destruct (str_eqb_reflect t (str "ssh-ed25519")) as [->|]; [|discriminate].
      assert (existsb (fun e => str_eqb (fst e) (str "ssh-ed25519") && str_mem (str "private_public") (snd e)) secret_names = true) as B.
      { apply existsb_exists. eexists. split; [exact Hin|]. cbn [fst snd]. rewrite str_eqb_refl. apply str_mem_In. exact Hk. }
      vm_compute in B. discriminate.
    + change ed_key_size with 32%nat. rewrite !skipn_app, <- Ls.
      rewrite (skipn_all2 s1) by lia. rewrite (skipn_all2 s2) by lia. reflexivity.
  - discriminate.
Qed.
Lemma new_params_alike t pub priv c d1 d2 : In (t, (pub, Some priv)) key_specs -> get_private_class (VStr t) = Ok c ->
  alike (secret t) d1 d2 -> new_params ec pp c d1 = new_params ec pp c d2.
Proof.
  intros Hs Hc A. rewrite !new_params_steps. destruct (secret_table _ _ _ _ Hs Hc) as (K & _ & _).
  induction (check_plan c) as [|s l IH]; [reflexivity|]. cbn [forallb] in K. apply andb_true_iff in K as (K1 & K2).
  cbn [run_steps]. rewrite (check_step_alike _ _ _ _ _ _ _ Hs Hc A K1), (IH K2). reflexivity.
Qed.

(** ** Reading a key *)
Definition parts_alike (next : bytes -> bytes -> Prop) (y1 y2 : bytes)
    (x1 : dict pyval * dict pyval * dict pyval) (r1 : bytes) (x2 : dict pyval * dict pyval * dict pyval) (r2 : bytes) : Prop :=
  (x1 = x2 /\ r1 = r2 \/
   exists t pub priv p1 p2 f, In (t, (pub, Some priv)) key_specs /\ x1 = ([(str "key_type", VStr t)], p1, f) /\
     x2 = ([(str "key_type", VStr t)], p2, f) /\ alike (secret t) p1 p2 /\ (r1 = r2 \/ next r1 r2)) /\
  (length r1 <= length y1)%nat /\ (length r2 <= length y2)%nat.
Lemma parts_hide next y1 y2 s1 s2 : key_hides secret next y1 y2 -> unread s1 = y1 -> unread s2 = y2 ->
  Z.of_nat (length y1) <= ssize_max -> Z.of_nat (length y2) <= ssize_max ->
  agree (parts_alike next y1 y2) (read_key_parts KPriv s1) (read_key_parts KPriv s2).
Proof.
  intros [->|(t & pub & priv & x & z1 & z2 & Hs & W & -> & -> & H)] E1 E2 L1 L2.
  - assert (unread s1 = unread s2) as Eu by congruence.
    eapply agree_weaken; [apply uniform_agree; [apply uniform_parts|exact Eu]|].
    cbv beta. intros a1 r1 a2 r2 (<- & <- & Lr). split; [left; auto|]. split; congruence.
  - rewrite !app_length in L1, L2. destruct (spec_private _ _ _ Hs) as (c & Hc & F & _).
    unfold read_key_parts.
    apply (agree_bind _ _ (fun h1 r1 h2 r2 => h1 = [(str "key_type", VStr t)] /\ h2 = [(str "key_type", VStr t)] /\ r1 = z1 /\ r2 = z2)).
    { rewrite (read_dict_complete _ _ s1 [(str "key_type", VStr t)] x z1 (ProofKey.header_types KPriv)), (read_dict_complete _ _ s2 [(str "key_type", VStr t)] x z2 (ProofKey.header_types KPriv))
        by (assumption || lia || (apply record_one; exact W)).
      unfold agree. cbn [fst snd]. rewrite !unread_adv, E1, E2, !skipn_app_exact by reflexivity. auto. }
    intros h1 h2 t1 t2 (-> & -> & U1 & U2).
    change (ditem (str "key_type") [(str "key_type", VStr t)]) with (Ok (VStr t)).
    unfold pbind at 1 5, plift at 1 3. unfold pbind at 1 4, plift. cbn [params_class]. rewrite Hc.
    eapply agree_bind.
    { apply (read_dict_hides (secret t) next _ _ _ F (secret_pascal _ _ _ _ Hs Hc) z1 z2 t1 t2 H U1 U2); lia. }
    cbv beta. intros p1 p2 t3 t4 (A & H3 & L3 & L4).
    change [comment_field] with ([comment_field] ++ []) in H3.
    destruct (secret_table _ _ _ _ Hs Hc) as (_ & _ & Nc).
    assert (pascal_secret (secret t) (footer_fmt KPriv)) as Hpf.
    { intros k i u1 u2 [Hin|[]] S. exfalso. injection Hin as <- _. apply (not_secret _ _ u1 u2 Nc). auto. }
    eapply agree_bind.
    { eapply agree_ok; [apply (read_dict_hides (secret t) next _ _ [] (footer_types KPriv) Hpf _ _ t3 t4 H3 eq_refl eq_refl); lia|].
      intros d. apply read_dict_dkeys. }
    cbv beta. intros f1 f2 t5 t6 ((B & H5 & L5 & L6) & Kf). unfold agree, pret. cbn [fst snd]. split; [|rewrite !app_length; lia].
    right. exists t, pub, priv, p1, p2, f2.
    assert (f1 = f2) as <-.
    { destruct f1 as [|[k v] [|? ?]]; try discriminate Kf. injection Kf as ->.
      inversion B as [|? [k2 v2] ? ? (Ek & V) B']; subst. inversion B'; subst. cbn [fst snd] in Ek, V. subst k2.
      destruct V as [->|(u1 & u2 & S & _)]; [reflexivity|]. exfalso. apply (not_secret _ _ u1 u2 Nc). auto. }
    split; [exact Hs|]. split; [reflexivity|]. split; [reflexivity|]. split; [exact A|]. inversion H5; subst; auto.
Qed.

(** The keys made from the parts, and the bytes left. *)
Definition keys_alike (next : bytes -> bytes -> Prop) (y1 y2 : bytes) (k1 : key) (r1 : bytes) (k2 : key) (r2 : bytes) : Prop :=
  (k1 = k2 /\ r1 = r2 \/
   exists t pub priv x, In (t, (pub, Some priv)) key_specs /\ k_header k1 = [(str "key_type", VStr t)] /\
     k_header k2 = [(str "key_type", VStr t)] /\ alike (secret t) (k_params k1) (k_params k2) /\
     record_of wire priv (k_params k1) x /\ (r1 = r2 \/ next r1 r2)) /\
  (length r1 <= length y1)%nat /\ (length r2 <= length y2)%nat.
Definition wagree {A} (R : A -> bytes -> A -> bytes -> Prop) (x1 x2 : stream * W A) : Prop :=
  fst (snd x1) = fst (snd x2) /\
  match snd (snd x1), snd (snd x2) with
  | Ok a1, Ok a2 => R a1 (unread (fst x1)) a2 (unread (fst x2))
  | Err e1, Err e2 => e1 = e2
  | _, _ => False
  end.
Lemma key_stream_hides next y1 y2 s1 s2 clear : key_hides secret next y1 y2 -> unread s1 = y1 -> unread s2 = y2 ->
  Z.of_nat (length y1) <= ssize_max -> Z.of_nat (length y2) <= ssize_max ->
  wagree (keys_alike next y1 y2) (key_from_stream ec pp KPriv clear s1) (key_from_stream ec pp KPriv clear s2).
Proof.
  intros H E1 E2 L1 L2. pose proof (parts_hide next y1 y2 s1 s2 H E1 E2 L1 L2) as K. unfold key_from_stream.
  unfold agree in K.
  destruct (read_key_parts KPriv s1) as [t1 [[[h1 p1] f1]|e1]] eqn:R1, (read_key_parts KPriv s2) as [t2 [[[h2 p2] f2]|e2]];
    cbn [fst snd] in K; try contradiction.
  - destruct K as ([(E & Er)|(t & pub & priv & q1 & q2 & f & Hs & Ex1 & Ex2 & A & Hr)] & La & Lb).
    + injection E as -> -> ->. unfold wagree. cbn [fst snd]. split; [reflexivity|].
      destruct (snd (new_key ec pp KPriv h2 p2 f2 clear)); [|reflexivity]. split; [left; auto|auto].
    + injection Ex1 as -> -> ->. injection Ex2 as -> -> ->.
      destruct (spec_private _ _ _ Hs) as (c & Hc & F & _).
      apply read_key_parts_sound in R1 as (t' & pub' & priv' & ts & b & Hs' & Hf & Eh & Rec & Ets & _).
      injection Eh as <-. pose proof (key_specs_fun _ _ _ Hs Hs') as Es. injection Es as <- <-. cbn [fields_of snd] in Hf. injection Hf as <-.
      assert (exists x, record_of wire priv q1 x) as (x & Rx).
      { unfold key_fields in Rec. change (type_field :: priv ++ footer_fields KPriv) with ([type_field] ++ priv ++ footer_fields KPriv) in Rec.
        apply record_app_inv in Rec as (v1 & v2 & b1 & b2 & Ev & -> & R1 & R2).
        apply record_one_inv in R1 as (vt & -> & _). cbn [app] in Ev. injection Ev as Ek Ev. subst v2.
        apply record_app_inv in R2 as (v1 & v2 & b3 & b4 & Ev & -> & R2 & R3).
        pose proof (record_length _ _ _ _ R2) as Lv. assert (length q1 = length v1) as Lq.
        { rewrite <- (map_length fst priv), Ets in Lv. unfold dkeys in Lv. rewrite map_length in Lv. congruence. }
        assert (q1 = v1) as ->; [|eauto].
        clear - Ev Lq. revert v1 Ev Lq. induction q1 as [|a q1 IH]; intros [|b v1] Ev Lq; try discriminate; [reflexivity|].
        cbn [app] in Ev. injection Ev as <- Ev. f_equal. apply IH; [exact Ev|]. cbn in Lq. lia. }
      pose proof (new_params_alike _ _ _ _ _ _ Hs Hc A) as En.
      unfold wagree, new_key, wseq. change (ditem (str "key_type") [(str "key_type", VStr t)]) with (Ok (VStr t)). cbn [fst snd].
      destruct (check_dict [(str "key_type", VStr t)] (header_fmt KPriv)) as [l1 [[]|e1]]; cbn [wbind wlift fst snd]; [|auto].
      change (params_class KPriv (VStr t)) with (get_private_class (VStr t)). rewrite Hc. cbn [wbind wlift fst snd]. rewrite <- En. clear En.
      destruct (new_params ec pp c q1) as [l2 [[]|e2]]; cbn [wbind wlift fst snd]; [|auto].
      destruct (check_dict f (footer_fmt KPriv)) as [l3 [[]|e3]]; cbn [wbind wlift wret fst snd]; [|auto].
      split; [reflexivity|]. split; [|auto]. right. exists t, pub, priv, x. cbn [k_header k_params]. repeat split; auto.
  - subst e2. unfold wagree. cbn [fst snd werr]. auto.
Qed.
Lemma key_bytes_hides b1 b2 clear : key_hides secret eq b1 b2 ->
  Z.of_nat (length b1) <= ssize_max -> Z.of_nat (length b2) <= ssize_max ->
  same_outcome (key_from_bytes_with ec pp KPriv b1 clear) (key_from_bytes_with ec pp KPriv b2 clear).
Proof.
  intros H L1 L2. pose proof (key_stream_hides eq b1 b2 (stream_of b1) (stream_of b2) clear H eq_refl eq_refl L1 L2) as K.
  unfold key_from_bytes_with, wagree in *.
  destruct (key_from_stream ec pp KPriv clear (stream_of b1)) as [t1 [l1 r1]], (key_from_stream ec pp KPriv clear (stream_of b2)) as [t2 [l2 r2]].
  cbn [fst snd] in K. destruct K as (<- & K). destruct r1 as [k1|e1], r2 as [k2|e2]; try contradiction.
  - assert (unread t1 = unread t2) as E.
    { destruct K as ([(_ & E)|(t & pub & priv & x & _ & _ & _ & _ & _ & [E|E])] & _); exact E. }
    rewrite E. unfold same_outcome, wseq. cbn [wbind]. destruct (unread t2); cbn [wbind wret wwarn fst snd]; auto.
  - subst e2. split; reflexivity.
Qed.
End Ec.

(** ** The comparison of public and private values *)
Definition clash_ok (t tp : pystr) (e : pystr * ftype) : bool :=
  negb (secretb t (fst e)) ||
  (str_eqb t (str "ssh-rsa") &&
   (match snd e with TBytes 4 => str_eqb (fst e) (str "q") | _ => false end ||
    (str_mem (fst e) [str "p"; str "q"] && str_mem tp [str "ssh-dss"; str "ssh-dss-cert-v01@openssh.com"]))).
Lemma clash_table : forallb (fun a => forallb (fun b => forallb (clash_ok (fst a) (fst b)) (fst (snd b))) key_specs) key_specs = true.
Proof. vm_compute. reflexivity. Qed.
Lemma record_In (enc : ftype -> pyval -> bytes -> Prop) ts vs b k v : record_of enc ts vs b -> In (k, v) vs -> exists t x, In (k, t) ts /\ enc t v x.
Proof.
  intros R. induction R as [|k0 t ts v0 vs b bs W R IH]; [contradiction|].
  intros [E|Hin]; [injection E as <- <-; exists t, b; split; [left; reflexivity|exact W]|].
  destruct (IH Hin) as (t' & x & A & B). exists t', x. split; [right; exact A|exact B].
Qed.
Lemma shared_alike (secret : pystr -> bytes -> bytes -> Prop) blob t tp pub priv pubf privf kp d1 d2 x y :
  (forall k u1 u2, secret k u1 u2 -> secret_for t k u1 u2 /\ ~ compared blob t k) ->
  In (t, (pub, Some priv)) key_specs -> In (tp, (pubf, privf)) key_specs -> blob_type blob tp ->
  record_of wire pubf kp y -> record_of wire priv d1 x -> alike secret d1 d2 ->
  shared_equal kp d1 = shared_equal kp d2.
Proof.
  intros Hsec Hs Hp Hb Ry Rx A. unfold shared_equal.
  assert (forall e, In e kp -> match dget (fst e) d1 with Some v => val_eqb (snd e) v | None => true end =
                               match dget (fst e) d2 with Some v => val_eqb (snd e) v | None => true end) as K.
  { intros [k v] Hin. cbn [fst snd]. pose proof (alike_dget _ _ _ k A) as D.
    destruct (dget k d1) as [v1|] eqn:G1, (dget k d2) as [v2|]; try contradiction; [|reflexivity].
    destruct D as [->|(u1 & u2 & S & _ & V)]; [reflexivity|].
    destruct (Hsec _ _ _ S) as (S1 & S2). apply secretb_sound in S1.
    destruct (record_In _ _ _ _ _ _ Ry Hin) as (ft & z & Hft & W).
    pose proof clash_table as T. rewrite forallb_forall in T. specialize (T _ Hs). rewrite forallb_forall in T. specialize (T _ Hp).
    rewrite forallb_forall in T. specialize (T _ Hft). unfold clash_ok in T. cbn [fst snd] in T. rewrite S1 in T. cbn [negb orb] in T.
    apply andb_true_iff in T as (Tr & T). destruct (str_eqb_reflect t (str "ssh-rsa")) as [->|]; [|discriminate].
    apply orb_true_iff in T as [T|T].
    - destruct ft as [[|[|[|[|[|]]]]]| | | |]; try discriminate.
      destruct (str_eqb_reflect k (str "q")) as [->|]; [|discriminate].
      apply dget_In in G1. destruct (record_In _ _ _ _ _ _ Rx G1) as (ft & z' & Hft' & W').
      assert (In (str "ssh-rsa", (rsa_public, Some rsa_private)) key_specs) as Hr by (left; reflexivity).
      pose proof (key_specs_fun _ _ _ Hs Hr) as Es. injection Es as -> ->.
      assert (ft = TMpint 4) as ->.
      { clear - Hft'. unfold rsa_private, mpint, spec_field in Hft'.
        repeat (destruct Hft' as [E|Hft']; [apply (f_equal snd) in E; symmetry; exact E|]). destruct Hft'. }
      inversion W'; subst. inversion W; subst. destruct V as [(E & _)|(_ & ->)]; [discriminate|]. reflexivity.
    - exfalso. apply S2. apply andb_true_iff in T as (T1 & T2). split; [reflexivity|]. split; [apply str_mem_In; exact T1|].
      apply str_mem_In in T2 as [<-|[<-|[]]]; auto. }
  clear - K. induction kp as [|e kp IH]; [reflexivity|]. cbn [forallb].
  rewrite (K e) by (left; reflexivity). rewrite IH; [reflexivity|]. intros e' Hin. apply K. right. exact Hin.
Qed.

(** ** The private keys of a file *)
Section File.
Variable p : prims.
Notation ec := (p_ec_ok p).
Definition pub_of (blob : bytes) (k : key) : Prop := exists lg, pub_from_bytes p blob None = (lg, Ok k).
Lemma pub_of_inv blob k : pub_of blob k -> exists tp pubf privf y,
  In (tp, (pubf, privf)) key_specs /\ k_header k = [(str "key_type", VStr tp)] /\ blob_type blob tp /\ record_of wire pubf (k_params k) y.
Proof.
  intros (lg & H). unfold pub_from_bytes, key_from_bytes, key_from_bytes_with in H.
  destruct (key_from_stream ec (parse_pub ec) KPub None (stream_of blob)) as [s' w] eqn:E.
  apply wbind_inv in H as (l1 & k0 & l2 & -> & H & _).
  assert (k_header k = k_header k0 /\ k_params k = k_params k0) as (-> & ->).
  { destruct (unread s'); [injection H as _ <-; auto|]. cbn [wseq wwarn wbind wret] in H. injection H as _ <-. auto. }
  clear H. unfold key_from_stream in E. destruct (read_key_parts KPub (stream_of blob)) as [s1 [[[h ps] fo]|]] eqn:R; [|discriminate].
  injection E as <- E. apply read_key_parts_sound in R as (t & pub & priv & ts & b & Hs & Hf & -> & Rec & Ets & _ & U & _).
  cbn [fields_of fst] in Hf. injection Hf as <-.
  assert (k_header k0 = [(str "key_type", VStr t)] /\ k_params k0 = ps) as (-> & ->).
  { apply new_key_inv in E as (? & ? & ? & _ & _ & -> & _). auto. }
  unfold key_fields in Rec. change (type_field :: pub ++ footer_fields KPub) with ([type_field] ++ pub ++ footer_fields KPub) in Rec.
  apply record_app_inv in Rec as (v1 & v2 & b1 & b2 & Ev & -> & R1 & R2).
  apply record_one_inv in R1 as (vt & -> & W). cbn [app] in Ev. injection Ev as <- <-.
  cbn [footer_fields] in R2. rewrite app_nil_r in R2.
  assert (fo = []) as ->.
  { pose proof (record_length _ _ _ _ R2) as L. rewrite app_length, <- (map_length fst pub), Ets in L. unfold dkeys in L. rewrite map_length in L.
    destruct fo; [reflexivity|]. cbn in L. lia. }
  rewrite app_nil_r in R2. exists t, pub, priv, b2. split; [exact Hs|]. split; [reflexivity|]. split; [|exact R2].
  exists b1, (b2 ++ unread s1). split; [exact W|]. change (unread (stream_of blob)) with blob in U. rewrite U, app_assoc. reflexivity.
Qed.

Lemma wagree_bind A B (R : A -> bytes -> A -> bytes -> Prop) (Q : B -> bytes -> B -> bytes -> Prop)
    (x y : SW A) (f g : A -> SW B) s1 s2 :
  wagree R (x s1) (y s2) ->
  (forall a1 a2 t1 t2, R a1 (unread t1) a2 (unread t2) -> wagree Q (f a1 t1) (g a2 t2)) ->
  wagree Q (swbind x f s1) (swbind y g s2).
Proof.
  unfold wagree, swbind. destruct (x s1) as [t1 [l1 [a1|e1]]], (y s2) as [t2 [l2 [a2|e2]]]; cbn [fst snd]; try tauto.
  intros (<- & HR) H. specialize (H a1 a2 t1 t2 HR). destruct (f a1 t1) as [u1 [m1 r1]], (g a2 t2) as [u2 [m2 r2]].
  cbn [fst snd] in *. destruct H as (<- & H). auto.
Qed.
Lemma wagree_same A (w : W A) s1 s2 (R : A -> bytes -> A -> bytes -> Prop) :
  (forall a, snd w = Ok a -> R a (unread s1) a (unread s2)) -> wagree R (sww w s1) (sww w s2).
Proof. intros H. unfold wagree, sww. cbn [fst snd]. split; [reflexivity|]. destruct (snd w); auto. Qed.

Lemma read_privs_hides : forall blobs pubs i y1 y2 s1 s2,
  Forall2 pub_of blobs pubs -> hides blobs y1 y2 -> unread s1 = y1 -> unread s2 = y2 ->
  Z.of_nat (length y1) <= ssize_max -> Z.of_nat (length y2) <= ssize_max ->
  wagree (fun _ r1 _ r2 => r1 = r2) (read_privs p i pubs s1) (read_privs p i pubs s2).
Proof.
  induction blobs as [|blob blobs IH]; intros pubs i y1 y2 s1 s2 Fp H E1 E2 L1 L2; inversion Fp as [|? pub ? pubs' Hpub Fp']; subst; cbn [read_privs].
  - cbn [hides] in H. apply wagree_same. intros _ _. exact H.
  - cbn [hides] in H.
    assert (forall y, hides blobs y y) as Hrefl by (intros y; destruct blobs; [reflexivity|left; reflexivity]).
    set (sec := fun t k u1 u2 => secret_for t k u1 u2 /\ ~ compared blob t k) in *.
    assert (forall t k u1 u2, sec t k u1 u2 -> secret_for t k u1 u2) as Hi by (intros t k u1 u2 (K & _); exact K).
    eapply wagree_bind; [apply (key_stream_hides ec (parse_pub ec) sec Hi (hides blobs) _ _ s1 s2 None H eq_refl eq_refl L1 L2)|].
    intros k1 k2 t1 t2 (K & La & Lb).
    apply (wagree_bind _ _ (fun a r1 b r2 => a = b /\ r1 = unread t1 /\ r2 = unread t2)); [apply wagree_same; auto|].
    intros kt1 kt1' t3 t4 (<- & U3 & U4).
    assert (ditem (str "key_type") (k_header k1) = ditem (str "key_type") (k_header k2)) as Ek.
    { destruct K as [(-> & _)|(t & a & b & x & _ & -> & -> & _)]; reflexivity. }
    rewrite <- Ek. apply (wagree_bind _ _ (fun a r1 b r2 => a = b /\ r1 = unread t1 /\ r2 = unread t2)); [apply wagree_same; auto|].
    intros kt2 kt2' t5 t6 (<- & U5 & U6).
    apply (wagree_bind _ _ (fun a r1 b r2 => r1 = unread t1 /\ r2 = unread t2)); [apply wagree_same; auto|].
    intros _ _ t7 t8 (U7 & U8).
    assert (shared_equal (k_params pub) (k_params k1) = shared_equal (k_params pub) (k_params k2)) as Es.
    { destruct K as [(-> & _)|(t & a & b & x & Hs & _ & _ & A & Rx & _)]; [reflexivity|].
      destruct (pub_of_inv _ _ Hpub) as (tp & pubf & privf & y & Hp & _ & Hb & Ry).
      apply (shared_alike (sec t) blob t tp a b pubf privf _ _ _ x y (fun k u1 u2 S => S) Hs Hp Hb Ry Rx A). }
    rewrite <- Es. apply (wagree_bind _ _ (fun a r1 b r2 => r1 = unread t1 /\ r2 = unread t2)); [apply wagree_same; auto|].
    intros _ _ t9 t10 (U9 & U10).
    eapply wagree_bind; [apply (IH pubs' (S i) (unread t1) (unread t2) t9 t10 Fp'); [|exact U9|exact U10|lia|lia]|].
    { destruct K as [(_ & ->)|(t & a & b & x & _ & _ & _ & _ & _ & [->|Hn])]; auto. }
    cbv beta. intros q1 q2 t11 t12 U. unfold wagree, sww, wret. cbn [fst snd]. auto.
Qed.

Lemma fields_hide_length secret (next : bytes -> bytes -> Prop) fs y1 y2 : (forall z1 z2, next z1 z2 -> length z1 = length z2) ->
  fields_hide secret next fs y1 y2 -> length y1 = length y2.
Proof. intros Hn H. induction H; auto; rewrite !app_length; lia. Qed.
Lemma hides_length : forall blobs y1 y2, hides blobs y1 y2 -> length y1 = length y2.
Proof.
  induction blobs as [|b blobs IH]; intros y1 y2; cbn [hides]; [congruence|].
  intros [->|(t & pub & priv & x & z1 & z2 & _ & _ & -> & -> & H)]; [reflexivity|].
  rewrite !app_length. f_equal. exact (fields_hide_length _ _ _ _ _ IH H).
Qed.

Lemma deciphered_hides c blobs pubs ci y1 y2 : Forall2 pub_of blobs pubs -> length ci = 8%nat -> hides blobs y1 y2 ->
  Z.of_nat (length (ci ++ y1)) <= ssize_max ->
  same_outcome (parse_deciphered p c pubs (ci ++ y1)) (parse_deciphered p c pubs (ci ++ y2)).
Proof.
  intros Fp Lc H L1. pose proof (hides_length _ _ _ H) as Ly.
  assert (length (ci ++ y1) = length (ci ++ y2)) as Lp by (rewrite !app_length; lia).
  unfold parse_deciphered. rewrite <- Lp.
  match goal with |- same_outcome (snd (?a _)) (snd (?b _)) => set (fx := a) end.
  assert (wagree (fun _ _ _ _ => True) (fx (stream_of (ci ++ y1))) (fx (stream_of (ci ++ y2)))) as K.
  2: { destruct K as (K1 & K2). split; [exact K1|].
       destruct (snd (snd (fx (stream_of (ci ++ y1))))), (snd (snd (fx (stream_of (ci ++ y2))))); auto. }
  unfold fx. clear fx.
  assert (exists c1 c2, length c1 = 4%nat /\ length c2 = 4%nat /\ ci = c1 ++ c2) as (c1 & c2 & Lc1 & Lc2 & ->).
  { exists (firstn 4 ci), (skipn 4 ci). rewrite firstn_skipn, firstn_length, skipn_length. repeat split; lia. }
  set (d := [(str "check_int_1", VInt (unsigned c1)); (str "check_int_2", VInt (unsigned c2))]).
  assert (record_of wire [uint32 "check_int_1"; uint32 "check_int_2"] d (c1 ++ c2)) as Rd.
  { apply (record_app wire [uint32 "check_int_1"] [uint32 "check_int_2"] [_] [_] c1 c2); apply record_one; constructor; auto. }
  assert (format_types decipher_header_fmt [uint32 "check_int_1"; uint32 "check_int_2"]) as Fd by (apply ftypes_of_sound; reflexivity).
  rewrite app_length in Lc.
  apply (wagree_bind _ _ (fun a r1 b r2 => a = d /\ b = d /\ r1 = y1 /\ r2 = y2)).
  { unfold wagree, swp.
    rewrite (read_dict_complete _ _ (stream_of ((c1 ++ c2) ++ y1)) d (c1 ++ c2) y1 Fd Rd), (read_dict_complete _ _ (stream_of ((c1 ++ c2) ++ y2)) d (c1 ++ c2) y2 Fd Rd)
      by (try reflexivity; rewrite app_length; unfold ssize_max; lia).
    cbn [fst snd]. rewrite !unread_adv. change (unread (stream_of ((c1 ++ c2) ++ y1))) with ((c1 ++ c2) ++ y1).
    change (unread (stream_of ((c1 ++ c2) ++ y2))) with ((c1 ++ c2) ++ y2). rewrite !skipn_app_exact by reflexivity. auto. }
  intros h1 h2 t1 t2 (-> & -> & U1 & U2).
  apply (wagree_bind _ _ (fun a r1 b r2 => a = b /\ r1 = y1 /\ r2 = y2)); [apply wagree_same; auto|].
  intros v1 v1' t3 t4 (<- & U3 & U4).
  apply (wagree_bind _ _ (fun a r1 b r2 => a = b /\ r1 = y1 /\ r2 = y2)); [apply wagree_same; auto|].
  intros v2 v2' t5 t6 (<- & U5 & U6).
  apply (wagree_bind _ _ (fun a r1 b r2 => r1 = y1 /\ r2 = y2)); [apply wagree_same; auto|].
  intros _ _ t7 t8 (U7 & U8). rewrite !app_length in L1.
  eapply wagree_bind; [apply (read_privs_hides blobs pubs 0 y1 y2 t7 t8 Fp H U7 U8); lia|].
  cbv beta. intros q1 q2 t9 t10 U.
  apply (wagree_bind _ _ (fun a _ b _ => a = b)).
  { pose proof (uniform_read (-1) t9 t10 U) as (K1 & K2 & _). unfold wagree, swp.
    destruct (bio_read (-1) t9) as [w1 x1], (bio_read (-1) t10) as [w2 x2]. cbn [fst snd] in *. subst x2. destruct x1; auto. }
  intros b1 b1' t11 t12 <-.
  apply (wagree_bind _ _ (fun a r1 b r2 => True)); [apply wagree_same; auto|].
  intros _ _ t13 t14 _. unfold wagree, sww, wret. cbn [fst snd]. auto.
Qed.
Lemma wmap_pub_of blobs : forall lg ks, wmap (fun b => pub_from_bytes p b None) blobs = (lg, Ok ks) -> Forall2 pub_of blobs ks.
Proof.
  induction blobs as [|b blobs IH]; intros lg ks H; cbn [wmap] in H; [injection H as _ <-; constructor|].
  apply wbind_inv in H as (l1 & k & l2 & H1 & H & _). apply wbind_inv in H as (l3 & r & l4 & H2 & H & _).
  injection H as _ <-. constructor; [exists l1; exact H1|exact (IH _ _ H2)].
Qed.
End File.
