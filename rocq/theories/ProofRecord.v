(** Records and sequences of records. *)
From Verif Require Import PyBase IntBytes Utf8 StructFmt Stream ProofBase ProofInt ProofUtf8 SpecWire ProofWire.
Open Scope Z_scope.
Ltac Zify.zify_post_hook ::= Z.div_mod_to_equations.

(** ** Writing *)
Lemma bio_write_nil s : bio_write [] s = s.
Proof. reflexivity. Qed.

Lemma bio_write_eq b s :
  b <> [] ->
  bio_write b s =
  let buf := sbuf s ++ repeat x00 (spos s - length (sbuf s)) in
  mkstream (firstn (spos s) buf ++ b ++ skipn (spos s + length b) buf) (spos s + length b).
Proof. destruct b; [congruence|reflexivity]. Qed.

Lemma bio_write_app b1 b2 s : bio_write b2 (bio_write b1 s) = bio_write (b1 ++ b2) s.
Proof.
  destruct b1 as [|x b1]; [reflexivity|]. set (c := x :: b1) in *.
  assert (c <> []) as Nc by discriminate. clearbody c. clear x b1.
  destruct b2 as [|y b2]; [rewrite app_nil_r; reflexivity|]. set (d := y :: b2) in *.
  assert (d <> []) as Nd by discriminate. clearbody d. clear y b2.
  rewrite (bio_write_eq c s) by assumption.
  rewrite (bio_write_eq (c ++ d) s) by (destruct c; [congruence|discriminate]).
  rewrite bio_write_eq by assumption. cbn [sbuf spos].
  set (buf := sbuf s ++ repeat x00 (spos s - length (sbuf s))).
  assert (spos s <= length buf)%nat as Lb.
  { unfold buf. rewrite app_length, repeat_length. lia. }
  cbv zeta.
  assert (length (firstn (spos s) buf) = spos s) as Lf by (rewrite firstn_length; lia).
  assert (spos s + length c - length (firstn (spos s) buf ++ c ++ skipn (spos s + length c) buf) = 0)%nat as ->.
  { rewrite !app_length, Lf. lia. }
  cbn [repeat]. rewrite app_nil_r, app_length. f_equal; [|lia].
  rewrite (app_assoc (firstn (spos s) buf) c).
  rewrite firstn_app_exact by (rewrite app_length; lia).
  rewrite skipn_app, skipn_all2 by (rewrite app_length; lia).
  rewrite skipn_skipn, app_length, <- !app_assoc. cbn [app]. do 4 f_equal. lia.
Qed.

Lemma bio_write_fresh b : bio_write b (stream_of []) = mkstream b (length b).
Proof.
  destruct b as [|x b]; [reflexivity|]. set (c := x :: b) in *.
  rewrite bio_write_eq by discriminate.
  unfold stream_of. cbn [sbuf spos]. rewrite skipn_nil, firstn_nil, app_nil_r. reflexivity.
Qed.

(** What a write leaves at the position where it started. *)
Lemma bio_write_unread b s :
  exists rest, unread (mkstream (sbuf (bio_write b s)) (spos s)) = b ++ rest
    /\ spos (bio_write b s) = (spos s + length b)%nat.
Proof.
  destruct b as [|x b].
  - exists (unread s). unfold bio_write. split; [destruct s; reflexivity|simpl; lia].
  - set (c := x :: b). rewrite bio_write_eq by discriminate.
    set (buf := sbuf s ++ repeat x00 (spos s - length (sbuf s))).
    assert (spos s <= length buf)%nat by (unfold buf; rewrite app_length, repeat_length; lia).
    cbv zeta. unfold unread. cbn [sbuf spos].
    exists (skipn (spos s + length c) buf). split; [|reflexivity].
    apply skipn_app_exact. rewrite firstn_length. lia.
Qed.

(** The bytes of a record. *)
Fixpoint dict_bytes (f : fmt_dict) (vals : dict pyval) : res bytes :=
  match f with
  | [] => Ok []
  | (k, i) :: f' =>
      do? v <- ditem k vals;
      do? b <- instr_bytes i v;
      do? r <- dict_bytes f' vals;
      Ok (b ++ r)
  end.
Lemma write_dict_spec f vals s :
  match dict_bytes f vals with
  | Ok b => write_dict f vals s = (bio_write b s, Ok tt)
  | Err e => exists s', write_dict f vals s = (s', Err e)
  end.
Proof.
  revert s; induction f as [|(k, i) f IH]; intros s; cbn [dict_bytes write_dict].
  - reflexivity.
  - unfold pbind at 1, plift. destruct (ditem k vals) as [v|e]; cbn [rbind]; [|eexists; reflexivity].
    unfold pbind, write_instr. destruct (instr_bytes i v) as [b|e]; cbn [rbind]; [|eexists; reflexivity].
    specialize (IH (bio_write b s)).
    destruct (dict_bytes f vals) as [r|e]; cbn [rbind].
    + rewrite IH, bio_write_app. reflexivity.
    + exact IH.
Qed.
Lemma write_dict_ok f vals s s' :
  write_dict f vals s = (s', Ok tt) <-> exists b, dict_bytes f vals = Ok b /\ s' = bio_write b s.
Proof.
  pose proof (write_dict_spec f vals s) as H.
  destruct (dict_bytes f vals) as [b|e].
  - rewrite H. split; [intros K; injection K as <-; eauto | intros (b' & E & ->); congruence].
  - destruct H as (s2 & H). rewrite H. split; [discriminate | intros (b' & E & _); discriminate].
Qed.
Lemma write_dict_err f vals s s' e :
  write_dict f vals s = (s', Err e) -> dict_bytes f vals = Err e.
Proof.
  pose proof (write_dict_spec f vals s) as H.
  destruct (dict_bytes f vals) as [b|e'].
  - rewrite H. discriminate.
  - destruct H as (s2 & H). rewrite H. congruence.
Qed.
Lemma dict_bytes_app f g vals :
  dict_bytes (f ++ g) vals =
  do? a <- dict_bytes f vals; do? b <- dict_bytes g vals; Ok (a ++ b).
Proof.
  induction f as [|(k, i) f IH]; cbn [dict_bytes app].
  - cbn [rbind]. destruct (dict_bytes g vals); reflexivity.
  - destruct (ditem k vals); cbn [rbind]; [|reflexivity].
    destruct (instr_bytes i a); cbn [rbind]; [|reflexivity].
    rewrite IH. destruct (dict_bytes f vals); cbn [rbind]; [|reflexivity].
    destruct (dict_bytes g vals); cbn [rbind]; [|reflexivity].
    rewrite app_assoc. reflexivity.
Qed.

(** ** Reading *)
Lemma read_dict_sound f ts s s' vs :
  format_types f ts -> read_dict f s = (s', Ok vs) ->
  exists b, record_of wire ts vs b /\ unread s = b ++ unread s' /\ s' = adv (length b) s.
Proof.
  intros F; revert s vs; induction F as [|(k, i) (k', t) f ts (Hk & Ht) F IH]; intros s vs R.
  - injection R as <- <-. exists []. split; [constructor|]. split; [reflexivity|].
    symmetry; apply adv_0.
  - cbn [fst snd] in *. subst k'. cbn [read_dict] in R. unfold pbind at 1 in R.
    destruct (read_instr i s) as [s1 [v|e]] eqn:E1; [|discriminate].
    unfold pbind in R. destruct (read_dict f s1) as [s2 [r|e]] eqn:E2; [|discriminate].
    injection R as <- <-.
    apply (read_instr_sound _ t) in E1 as (b1 & W1 & U1 & ->); [|assumption].
    apply IH in E2 as (b2 & W2 & U2 & ->).
    exists (b1 ++ b2). split; [constructor; assumption|].
    split; [rewrite U1, U2, <- app_assoc; reflexivity|].
    rewrite adv_adv, app_length. reflexivity.
Qed.

Lemma record_length enc ts vs b : record_of enc ts vs b -> length ts = length vs.
Proof. induction 1; simpl; congruence. Qed.
Lemma record_keys enc ts vs b : record_of enc ts vs b -> dkeys vs = map fst ts.
Proof. induction 1; simpl; congruence. Qed.

Lemma read_dict_complete f ts s vs b rest :
  format_types f ts -> record_of wire ts vs b -> Z.of_nat (length b) <= ssize_max ->
  unread s = b ++ rest -> read_dict f s = (adv (length b) s, Ok vs).
Proof.
  intros F; revert s vs b; induction F as [|(k, i) (k', t) f ts (Hk & Ht) F IH]; intros s vs b R L U.
  - inversion R; subst. cbn [read_dict length]. rewrite adv_0. reflexivity.
  - inversion R; subst. cbn [fst snd] in *. subst k'. rewrite app_length in *.
    cbn [read_dict]. unfold pbind at 1.
    rewrite (read_instr_complete i t s v b0 (bs ++ rest)); auto; [|lia|rewrite U, app_assoc; reflexivity].
    unfold pbind. rewrite (IH _ vs0 bs); auto; [|lia|].
    + rewrite adv_adv. reflexivity.
    + rewrite unread_adv, U, <- app_assoc. apply skipn_app_exact; reflexivity.
Qed.

Lemma read_dict_truncated f ts s vs b b2 :
  format_types f ts -> record_of wire ts vs b -> Z.of_nat (length b) <= ssize_max ->
  b = unread s ++ b2 -> b2 <> [] ->
  exists s' r, read_dict f s = (s', Err (eof r)).
Proof.
  intros F; revert s vs b; induction F as [|(k, i) (k', t) f ts (Hk & Ht) F IH]; intros s vs b R L E N.
  - assert (b = []) as -> by (inversion R; reflexivity).
    exfalso. apply N. destruct (unread s); [|discriminate]. destruct b2; [reflexivity|discriminate].
  - inversion R; subst. cbn [fst snd] in *. subst k'. rewrite app_length in *.
    cbn [read_dict]. unfold pbind at 1.
    match goal with H : _ ++ _ = _ ++ _ |- _ => rename H into E end.
    pose proof (f_equal (@length _) E) as EL. rewrite !app_length in EL.
    destruct (Nat.leb_spec (length b0) (length (unread s))) as [Lu|Lu].
    + assert (exists x, unread s = b0 ++ x) as (x & Ux).
      { exists (skipn (length b0) (unread s)).
        rewrite <- (firstn_skipn (length b0) (unread s)) at 1. f_equal.
        transitivity (firstn (length b0) (unread s ++ b2)).
        - rewrite firstn_app. replace (length b0 - length (unread s))%nat with 0%nat by lia.
          rewrite app_nil_r. reflexivity.
        - rewrite <- E. apply firstn_app_exact; reflexivity. }
      rewrite (read_instr_complete i t s v b0 x); auto; [|lia].
      unfold pbind.
      destruct (IH (adv (length b0) s) vs0 bs) as (s' & r & ->); auto; [lia| |eauto].
      rewrite unread_adv, Ux, skipn_app_exact by reflexivity.
      rewrite Ux, <- app_assoc in E. apply app_inv_head in E. exact E.
    + assert (exists y, b0 = unread s ++ y /\ y <> []) as (y & By & Ny).
      { exists (skipn (length (unread s)) b0). split.
        - rewrite <- (firstn_skipn (length (unread s)) b0) at 1. f_equal.
          transitivity (firstn (length (unread s)) (b0 ++ bs)).
          + rewrite firstn_app. replace (length (unread s) - length b0)%nat with 0%nat by lia.
            rewrite app_nil_r. reflexivity.
          + rewrite E. apply firstn_app_exact; reflexivity.
        - intros K. apply (f_equal (@length _)) in K. rewrite skipn_length in K. simpl in K. lia. }
      destruct (read_instr_truncated i t s v b0 y) as (s' & r & ->); auto; [lia|eauto].
Qed.

Lemma read_dict_errors f ts s s' e :
  format_types f ts -> read_dict f s = (s', Err e) ->
  is_eof_error e = true \/ (exists o, e = UnicodeDecodeError o) \/ e = OverflowError.
Proof.
  intros F; revert s; induction F as [|(k, i) (k', t) f ts (Hk & Ht) F IH]; intros s R.
  - discriminate.
  - cbn [read_dict] in R. unfold pbind at 1 in R.
    destruct (read_instr i s) as [s1 [v|e1]] eqn:E1.
    + unfold pbind in R. destruct (read_dict f s1) as [s2 [r|e2]] eqn:E2; [discriminate|].
      injection R as <- <-. eapply IH; eassumption.
    + injection R as <- <-. eapply read_instr_errors; eassumption.
Qed.

(** ** Uniqueness *)
Lemma prefixed_prefix_free k u u' b b' r r' :
  prefixed k u b -> prefixed k u' b' -> b ++ r = b' ++ r' -> b = b'.
Proof.
  intros (l & L & V & ->) (l' & L' & V' & ->) E. rewrite <- !app_assoc in E.
  assert (l = l') as <-.
  { assert (firstn k (l ++ u ++ r) = firstn k (l' ++ u' ++ r')) as Ef by congruence.
    rewrite !firstn_app_exact in Ef by congruence. exact Ef. }
  apply app_inv_head in E. f_equal. assert (length u = length u') as Lu by lia.
  assert (firstn (length u) (u ++ r) = firstn (length u') (u' ++ r')) as Ef by congruence.
  rewrite !firstn_app_exact in Ef by reflexivity. exact Ef.
Qed.
Lemma wire_prefix_free t v v' b b' r r' :
  wire t v b -> wire t v' b' -> b ++ r = b' ++ r' -> b = b' /\ v = v' /\ r = r'.
Proof.
  intros W W' E.
  assert (b = b') as <-.
  { inversion W; subst; inversion W'; subst; try (eapply prefixed_prefix_free; eassumption).
    - assert (firstn (length b) (b ++ r) = firstn (length b') (b' ++ r')) as Ef by congruence.
      rewrite !firstn_app_exact in Ef by reflexivity. exact Ef.
    - assert (firstn (length b) (b ++ r) = firstn (length b') (b' ++ r')) as Ef by congruence.
      rewrite !firstn_app_exact in Ef by reflexivity. exact Ef. }
  split; [reflexivity|]. split; [eapply wire_value; eassumption | eapply app_inv_head; eassumption].
Qed.
Lemma record_prefix_free ts vs vs' b b' r r' :
  record_of wire ts vs b -> record_of wire ts vs' b' -> b ++ r = b' ++ r' ->
  b = b' /\ vs = vs' /\ r = r'.
Proof.
  intros R; revert vs' b' r r'; induction R as [|k t ts v vs b bs W R IH]; intros vs' b' r r' R' E.
  - inversion R'; subst. auto.
  - inversion R'; subst. rewrite <- !app_assoc in E.
    destruct (wire_prefix_free _ _ _ _ _ _ _ W H4 E) as (<- & <- & E2).
    destruct (IH _ _ _ _ H5 E2) as (<- & <- & <-). auto.
Qed.

Lemma record_canonical_wire ts vs b : record_of canonical ts vs b -> record_of wire ts vs b.
Proof. induction 1 as [|k t ts v vs b bs (W & _) R IH]; constructor; auto. Qed.
Lemma record_canonical_functional ts vs b b' :
  record_of canonical ts vs b -> record_of canonical ts vs b' -> b = b'.
Proof.
  intros R; revert b'; induction R as [|k t ts v vs b bs W R IH]; intros b' R'; inversion R'; subst.
  - reflexivity.
  - f_equal; [eapply canonical_functional; eassumption | auto].
Qed.

(** ** Writing gives canonical records *)
Lemma dict_bytes_canonical f ts vals b :
  format_types f ts -> blobs_exact ts vals -> NoDup (dkeys f) -> dict_bytes f vals = Ok b ->
  exists vs, restricts (dkeys f) vals vs /\ record_of canonical ts vs b.
Proof.
  intros F X N; revert b X N; induction F as [|(k, i) (k', t) f ts (Hk & Ht) F IH]; intros b X N R.
  - injection R as <-. exists []. split; [|constructor]. split; [reflexivity|]. intros k [].
  - cbn [fst snd] in *. subst k'. cbn [dict_bytes] in R.
    apply rbind_ok in R as (v & Ev & R). apply rbind_ok in R as (b1 & Eb & R).
    apply rbind_ok in R as (b2 & Er & R). injection R as <-.
    cbn [dkeys map fst] in N. inversion N; subst.
    unfold ditem in Ev. destruct (dget k vals) as [w|] eqn:Eg; [|discriminate]. injection Ev as <-.
    destruct (IH b2) as (vs & (K1 & K2) & R2); auto.
    { intros k0 n b0 Hin Hd. eapply X; [right; eassumption|assumption]. }
    exists ((k, w) :: vs). split; [split|].
    + cbn [dkeys map fst]. f_equal. exact K1.
    + intros k0 Hin. cbn [dget]. destruct (str_eqb k0 k) eqn:E.
      * apply str_eqb_spec in E; subst. congruence.
      * destruct Hin as [Hin|Hin]; [apply str_eqb_neq in E; cbn [fst] in Hin; congruence|].
        apply K2; exact Hin.
    + constructor; [|assumption]. eapply instr_bytes_canonical; eauto.
      destruct t; cbn [exact]; auto. destruct w; auto. eapply X; [left; reflexivity|assumption].
Qed.

Lemma restricts_unique ks vals vs vs' :
  NoDup ks -> restricts ks vals vs -> restricts ks vals vs' -> vs = vs'.
Proof.
  intros N (K1 & K2) (K1' & K2'). subst ks. revert vs' K1' K2 K2' N.
  induction vs as [|(k, v) vs IH]; intros [|(k', v') vs'] E H H' N; try discriminate.
  - reflexivity.
  - cbn [dkeys map fst] in *. injection E as -> E. inversion N; subst.
    assert (Some v = Some v') as K.
    { transitivity (dget k vals); [rewrite <- (H k) by (left; reflexivity) | rewrite <- (H' k) by (left; reflexivity)];
        cbn [dget]; rewrite str_eqb_refl; reflexivity. }
    injection K as <-. f_equal. apply IH; auto.
    + intros k0 Hin. rewrite <- (H k0) by (right; assumption). cbn [dget].
      destruct (str_eqb k0 k) eqn:Ek; [|reflexivity].
      apply str_eqb_spec in Ek; subst. contradiction.
    + intros k0 Hin. rewrite <- (H' k0) by (right; assumption). cbn [dget].
      destruct (str_eqb k0 k) eqn:Ek; [|reflexivity].
      apply str_eqb_spec in Ek; subst. contradiction.
Qed.

Lemma format_keys f ts : format_types f ts -> dkeys f = map fst ts.
Proof.
  induction 1 as [|(k, i) (k', t) f ts (Hk & _) F IH]; [reflexivity|].
  unfold dkeys in *. cbn [map fst] in *. congruence.
Qed.

(** Converse: canonical records can be written. *)
Lemma canonical_dict_bytes f ts vals vs b :
  format_types f ts -> (forall k v, In (k, v) vs -> dget k vals = Some v) ->
  record_of canonical ts vs b ->
  (forall k v t, In (k, v) vs -> In (k, t) ts -> writable v t) -> NoDup (map fst ts) ->
  Z.of_nat (length b) <= ssize_max ->
  dict_bytes f vals = Ok b.
Proof.
  intros F; revert vs b; induction F as [|(k, i) (k', t) f ts (Hk & Ht) F IH]; intros vs b G R Wr N L.
  - inversion R; subst. reflexivity.
  - inversion R; subst. cbn [fst snd] in *. subst k'. rewrite app_length in L.
    cbn [map fst] in N. inversion N; subst.
    cbn [dict_bytes]. unfold ditem. rewrite (G k v) by (left; reflexivity). cbn [rbind].
    rewrite (canonical_instr_bytes i t v b0); auto; [|eapply Wr; left; reflexivity|lia].
    cbn [rbind]. rewrite (IH vs0 bs); auto.
    + intros; apply G; right; assumption.
    + intros; eapply Wr; right; eassumption.
    + lia.
Qed.

Lemma restricts_In ks vals vs : NoDup ks -> restricts ks vals vs ->
  forall k v, In (k, v) vs -> dget k vals = Some v.
Proof.
  intros N (K1 & K2) k v Hin. subst ks. rewrite <- K2.
  - apply In_dget; assumption.
  - apply in_map_iff. exists (k, v). auto.
Qed.

(** ** Errors of writing a record *)
(** ** Round trips *)
Lemma write_read_dict f ts vals s s' :
  format_types f ts -> NoDup (dkeys f) -> blobs_exact ts vals ->
  write_dict f vals s = (s', Ok tt) -> Z.of_nat (length (sbuf s')) <= ssize_max ->
  exists vs, restricts (dkeys f) vals vs /\
    read_dict f (mkstream (sbuf s') (spos s)) = (s', Ok vs).
Proof.
  intros F N X Wd L. apply write_dict_ok in Wd as (b & D & ->).
  destruct (dict_bytes_canonical _ _ _ _ F X N D) as (vs & Rs & R).
  exists vs. split; [assumption|].
  destruct (bio_write_unread b s) as (rest & U & Ps).
  assert (Z.of_nat (length b) <= ssize_max) as Lb.
  { unfold unread in U. cbn [sbuf spos] in U.
    apply (f_equal (@length _)) in U. rewrite skipn_length, app_length in U. lia. }
  rewrite (read_dict_complete f ts _ vs b rest F (record_canonical_wire _ _ _ R) Lb U).
  f_equal. unfold adv. cbn [sbuf spos]. rewrite <- Ps. destruct (bio_write b s); reflexivity.
Qed.

(** ** Values that do not fit 'Ns' fields *)
Lemma firstn_pad (b : bytes) n : firstn n (b ++ repeat x00 n) = firstn n b ++ repeat x00 (n - length b).
Proof.
  rewrite firstn_app. f_equal. revert n. induction (length b) as [|m IH]; intros n.
  - rewrite Nat.sub_0_r, firstn_all2; [reflexivity|rewrite repeat_length; lia].
  - destruct n as [|n]; [reflexivity|]. cbn [Nat.sub repeat]. 
    assert (forall j, (j <= n)%nat -> firstn j (x00 :: repeat x00 n) = repeat x00 j) as K.
    { clear. intros j. revert n. induction j as [|j IH]; intros n L; [reflexivity|]. cbn [firstn repeat]. f_equal.
      destruct n as [|n]; [lia|]. cbn [repeat]. apply IH. lia. }
    apply K. lia.
Qed.
Lemma stored_length b n : length (firstn n (b ++ repeat x00 n)) = n.
Proof. rewrite firstn_length, app_length, repeat_length. lia. Qed.
Lemma struct_pack_stored fmt t v : has_type (FStruct fmt) t -> struct_pack fmt [stored t v] = struct_pack fmt [v].
Proof.
  intros H. inversion H; subst; [destruct v; reflexivity|].
  match goal with HN : _ <> [], HD : Forall digit _ |- _ =>
    pose proof (parse_blob_format _ HN HD) as E; pose proof (decimal_nonneg _ HD) end.
  unfold struct_pack. rewrite E. cbn [rbind].
  destruct (Z.ltb_spec ssize_max (items_size [(Z.to_N (decimal ds), SStr)])); [reflexivity|].
  change (slots_of [(Z.to_N (decimal ds), SStr)]) with [SlStr (N.to_nat (Z.to_N (decimal ds)))].
  replace (N.to_nat (Z.to_N (decimal ds))) with (Z.to_nat (decimal ds)) by lia.
  cbn [pack_slots]. destruct v as [|w| | |]; cbn [stored pack_slot rbind]; try reflexivity.
  rewrite stored_length, Nat.sub_diag. cbn [repeat]. rewrite !app_nil_r, firstn_all2 by (rewrite stored_length; lia).
  rewrite firstn_pad. reflexivity.
Qed.
Lemma instr_bytes_stored i t v : has_type i t -> instr_bytes i (stored t v) = instr_bytes i v.
Proof.
  intros H. destruct i as [fmt|i|i n|]; cbn [instr_bytes]; [apply struct_pack_stored; exact H|..];
    inversion H; subst; destruct v; reflexivity.
Qed.
Lemma dict_bytes_stored f ts vals vals' b : format_types f ts ->
  (forall k t v, In (k, t) ts -> dget k vals = Some v -> dget k vals' = Some (stored t v)) ->
  dict_bytes f vals = Ok b -> dict_bytes f vals' = Ok b.
Proof.
  intros F; revert b; induction F as [|(k, i) (k', t) f ts (Hk & Ht) F IH]; intros b G R; [exact R|].
  cbn [fst snd] in *. subst k'. cbn [dict_bytes] in *.
  apply rbind_ok in R as (v & Ev & R). apply rbind_ok in R as (b1 & Eb & R).
  apply rbind_ok in R as (b2 & Er & R). unfold ditem in Ev.
  destruct (dget k vals) as [w|] eqn:Eg; [|discriminate]. injection Ev as <-.
  unfold ditem. rewrite (G k t w (or_introl eq_refl) Eg). cbn [rbind].
  rewrite (instr_bytes_stored i t w Ht), Eb. cbn [rbind].
  rewrite (IH b2); [exact R| |exact Er]. intros k0 t0 v0 I. apply G. right; exact I.
Qed.
Lemma write_read_stored f ts vals s s' :
  format_types f ts -> NoDup (dkeys f) ->
  write_dict f vals s = (s', Ok tt) -> Z.of_nat (length (sbuf s')) <= ssize_max ->
  exists vs, dkeys vs = dkeys f /\
    (forall k t, In (k, t) ts -> exists v, dget k vals = Some v /\ dget k vs = Some (stored t v)) /\
    read_dict f (mkstream (sbuf s') (spos s)) = (s', Ok vs).
Proof.
  intros F N W L.
  set (vals' := map (fun kt => (fst kt, stored (snd kt) (match dget (fst kt) vals with Some v => v | None => VInt 0 end))) ts).
  assert (NoDup (map fst ts)) as N' by (rewrite <- (format_keys _ _ F); exact N).
  assert (forall k t v, In (k, t) ts -> dget k vals = Some v -> dget k vals' = Some (stored t v)) as G.
  { intros k t v I Gv. subst vals'. clear F W L N. induction ts as [|(k1, t1) ts IH]; [destruct I|].
    cbn [map fst snd dget] in *. inversion N' as [|? ? Nk Nt]; subst. destruct I as [I|I].
    - injection I as -> ->. rewrite str_eqb_refl, Gv. reflexivity.
    - destruct (str_eqb_reflect k k1) as [->|Ne]; [|apply IH; assumption].
      exfalso. apply Nk. apply in_map_iff. exists (k1, t). auto. }
  pose proof W as W0. apply write_dict_ok in W as (b & D & ->).
  pose proof (dict_bytes_stored _ _ _ _ _ F G D) as D'.
  assert (forall k t, In (k, t) ts -> exists v, dget k vals = Some v) as P.
  { clear - F D. revert b D. induction F as [|(k, i) (k', t) f ts (Hk & Ht) F IH]; intros b D k0 t0 I; [destruct I|].
    cbn [fst snd] in *. subst k'. cbn [dict_bytes] in D.
    apply rbind_ok in D as (v & Ev & D). apply rbind_ok in D as (b1 & _ & D). apply rbind_ok in D as (b2 & Er & _).
    unfold ditem in Ev. destruct (dget k vals) as [w|] eqn:Eg; [|discriminate].
    destruct I as [I|I]; [injection I as -> ->; eauto|eapply IH; eassumption]. }
  destruct (write_read_dict f ts vals' s (bio_write b s) F N) as (vs & (K1 & K2) & R).
  - intros k n b0 I Hd. destruct (P k _ I) as (v & Gv). rewrite (G _ _ _ I Gv) in Hd.
    destruct v; cbn [stored] in Hd; try discriminate. injection Hd as <-. apply stored_length.
  - apply write_dict_ok. eauto.
  - exact L.
  - exists vs. split; [exact K1|]. split; [|exact R]. intros k t I. destruct (P k t I) as (v & Gv). exists v.
    split; [exact Gv|]. rewrite K2; [apply G; assumption|]. rewrite (format_keys _ _ F). apply in_map_iff. exists (k, t). auto.
Qed.

(** ** Repeated records *)
Lemma wire_nonempty f t v b : has_type f t -> nonempty_type t = true -> wire t v b -> b <> [].
Proof.
  intros H N W E. subst b.
  assert (forall k u, (0 < k)%nat -> prefixed k u [] -> False) as K.
  { intros k u Hk (l & L & _ & E). symmetry in E. apply app_eq_nil in E as (-> & _). simpl in L. lia. }
  inversion W; subst; inversion H; subst;
    try (eapply K; [|eassumption]; lia).
  - match goal with HC : In _ int_codes |- _ => apply code_size_le in HC end. simpl in *. lia.
  - discriminate.
Qed.
Lemma has_type_int_pos f big sgn n : has_type f (TInt big sgn n) -> (0 < n)%nat.
Proof.
  intros H; inversion H; subst.
  match goal with HC : In _ int_codes |- _ => apply code_size_le in HC end. lia.
Qed.
Lemma has_type_prefix f t k : has_type f t -> prefix_size t = Some k -> (0 < k)%nat /\ Z.of_nat k <= ssize_max.
Proof.
  intros H E; inversion H; subst; cbn in E; try discriminate; injection E as <-;
    unfold ssize_max in *; lia.
Qed.

(** Reading one value at the end of the stream. *)
Lemma read_instr_end f t s :
  has_type f t -> unread s = [] ->
  if nonempty_type t then exists s' m, read_instr f s = (s', Err (EOFError true m))
  else exists v, wire t v [] /\ read_instr f s = (s, Ok v).
Proof.
  intros H U.
  assert (forall k, 0 < k <= ssize_max -> exists s' m, read_pascal_bytes k s = (s', Err (EOFError true m))) as K.
  { intros k Hk. unfold read_pascal_bytes. destruct (Z.leb_spec k 0); [lia|].
    unfold pbind. rewrite read_fixed_spec by lia. rewrite U. cbn [length].
    destruct (Nat.leb_spec (Z.to_nat k) 0); [lia|]. unfold eof. do 2 eexists. reflexivity. }
  assert (0 < default_size <= ssize_max) as D by (unfold default_size, ssize_max; lia).
  destruct f as [fmt|i|i n|]; [| | |inversion H].
  - destruct (struct_read fmt t H) as (n & Hf & Hn & Ec & Hu).
    cbn [read_instr]. unfold pbind at 1, plift.
    assert (nonempty_type t = negb (n =? 0)%nat) as ->.
    { destruct t as [| | |b sg m|m]; try discriminate; injection Hf as ->; destruct n; reflexivity. }
    destruct (Nat.eqb_spec n 0) as [->|Nn]; cbn [negb].
    + destruct (Hu []) as (v & Eu & Hv); [reflexivity|]. exists v. split; [apply Hv; reflexivity|].
      unfold pbind. rewrite Ec, read_fixed_spec by lia. rewrite U, Nat2Z.id.
      cbn [length Nat.leb firstn]. rewrite Eu, adv_0. reflexivity.
    + unfold pbind. rewrite Ec, read_fixed_spec by lia. rewrite U. cbn [length].
      destruct (Nat.leb_spec (Z.to_nat (Z.of_nat n)) 0); [lia|]. unfold eof. do 2 eexists. reflexivity.
  - destruct (K default_size D) as (s' & m & E).
    assert (nonempty_type t = true) as -> by (inversion H; reflexivity).
    cbn [read_instr]. unfold pbind. rewrite E. eauto.
  - assert (0 < n <= ssize_max) as Dn by (inversion H; assumption).
    destruct (K n Dn) as (s' & m & E).
    assert (nonempty_type t = true) as -> by (inversion H; reflexivity).
    cbn [read_instr]. unfold pbind. rewrite E. eauto.
Qed.

(** Exactly when a read ends in EOFError(True, ...). *)
Lemma read_pascal_eof k s :
  0 < k <= ssize_max -> Z.of_nat (length (unread s)) <= ssize_max ->
  (exists s' m, read_pascal_bytes k s = (s', Err (EOFError true m))) <->
  unread s = [] \/ (length (unread s) = Z.to_nat k /\ 0 < unsigned (unread s) <= ssize_max).
Proof.
  intros Hk Ls. unfold read_pascal_bytes. destruct (Z.leb_spec k 0); [lia|].
  unfold pbind. rewrite read_fixed_spec by lia.
  destruct (Nat.leb_spec (Z.to_nat k) (length (unread s))) as [L1|L1].
  - rewrite int_from_bytes_unsigned.
    set (l := firstn (Z.to_nat k) (unread s)).
    assert (length l = Z.to_nat k) as Ll by (unfold l; rewrite firstn_length; lia).
    pose proof (be_value_range l) as Rl.
    destruct (Z.leb_spec (be_value l) ssize_max) as [M|M].
    + rewrite read_fixed_spec by lia. rewrite unread_adv, skipn_length.
      destruct (Nat.leb_spec (Z.to_nat (be_value l)) (length (unread s) - Z.to_nat k)) as [L2|L2].
      * split; [intros (s' & m & K); discriminate|].
        intros [E|(E & V)]; [rewrite E in L1; simpl in L1; lia|].
        assert (l = unread s) as El by (unfold l; apply firstn_all2; lia).
        rewrite El, unsigned_be in *. lia.
      * unfold eof. destruct (Nat.eqb_spec (length (unread s) - Z.to_nat k) 0) as [Z0|Z0].
        -- split; [intros _|eauto]. right.
           assert (l = unread s) as El by (unfold l; apply firstn_all2; lia).
           rewrite El, unsigned_be in *. lia.
        -- split; [intros (s' & m & K); discriminate|].
           intros [E|(E & V)]; [rewrite E in L1; simpl in L1; lia|lia].
    + rewrite read_fixed_big by assumption. split; [intros (s' & m & K); discriminate|].
      intros [E|(E & V)]; [rewrite E in L1; simpl in L1; lia|].
      assert (l = unread s) as El by (unfold l; apply firstn_all2; lia).
      rewrite El, unsigned_be in *. lia.
  - unfold eof. destruct (Nat.eqb_spec (length (unread s)) 0) as [Z0|Z0].
    + split; [intros _; left|eauto]. destruct (unread s); [reflexivity|discriminate].
    + split; [intros (s' & m & K); discriminate|].
      intros [E|(E & V)]; [rewrite E in Z0; simpl in Z0; lia|lia].
Qed.

Lemma read_instr_eof f t s :
  has_type f t -> Z.of_nat (length (unread s)) <= ssize_max ->
  (exists s' m, read_instr f s = (s', Err (EOFError true m))) <->
  (unread s = [] /\ nonempty_type t = true) \/
  (prefix_size t = Some (length (unread s)) /\ 0 < unsigned (unread s) <= ssize_max).
Proof.
  intros H Ls.
  assert (0 < default_size <= ssize_max) as D by (unfold default_size, ssize_max; lia).
  assert (forall k i, 0 < k <= ssize_max -> t = ptype i (Z.to_nat k) ->
    (exists s' m, (do! read_bytes <- read_pascal_bytes k;
     match i with
     | BYTES => pret (VBytes read_bytes)
     | STRING => do! s <- plift (utf8_decode read_bytes); pret (VStr s)
     | MPINT => pret (VInt (int_from_bytes read_bytes true))
     end) s = (s', Err (EOFError true m))) <->
    (unread s = [] /\ nonempty_type t = true) \/
    (prefix_size t = Some (length (unread s)) /\ 0 < unsigned (unread s) <= ssize_max)) as K.
  { intros k i Hk ->.
    assert (nonempty_type (ptype i (Z.to_nat k)) = true) as Ne by (destruct i; reflexivity).
    assert (prefix_size (ptype i (Z.to_nat k)) = Some (Z.to_nat k)) as Ps by (destruct i; reflexivity).
    rewrite Ne, Ps. pose proof (read_pascal_eof k s Hk Ls) as E.
    transitivity (exists s' m, read_pascal_bytes k s = (s', Err (EOFError true m))).
    - unfold pbind. destruct (read_pascal_bytes k s) as [s1 [u|e]].
      + split; [|intros (s' & m & K); discriminate].
        intros (s' & m & K). destruct i; try discriminate. unfold plift in K.
        destruct (utf8_decode u) eqn:Eu; [discriminate|].
        apply utf8_decode_err in Eu. injection K as <- K. congruence.
      + split; intros (s' & m & Q); injection Q as <- ->; eauto.
    - rewrite E. split; intros [?|?]; [left|right|left|right]; intuition congruence. }
  destruct f as [fmt|i|i n|]; [| | |inversion H].
  - destruct (struct_read fmt t H) as (n & Hf & Hn & Ec & Hu).
    assert (prefix_size t = None) as -> by (destruct t; try discriminate; reflexivity).
    assert (nonempty_type t = negb (n =? 0)%nat) as ->.
    { destruct t as [| | |b sg m|m]; try discriminate; injection Hf as ->; destruct n; reflexivity. }
    cbn [read_instr]. unfold pbind, plift. rewrite Ec, read_fixed_spec by lia. rewrite Nat2Z.id.
    destruct (Nat.leb_spec n (length (unread s))) as [L|L].
    + destruct (Hu (firstn n (unread s))) as (v & Eu & _); [rewrite firstn_length; lia|].
      rewrite Eu. split; [intros (s' & m & Q); discriminate|].
      intros [(E & Nn)|(Q & _)]; [|discriminate]. rewrite E in L. simpl in L.
      destruct (Nat.eqb_spec n 0); [discriminate|lia].
    + unfold eof. destruct (Nat.eqb_spec (length (unread s)) 0) as [Z0|Z0].
      * split; [intros _; left|eauto]. destruct (unread s); [|discriminate]. simpl in L.
        destruct (Nat.eqb_spec n 0); [lia|auto].
      * split; [intros (s' & m & Q); discriminate|].
        intros [(E & _)|(Q & _)]; [|discriminate]. rewrite E in Z0. simpl in Z0. lia.
  - apply (K default_size i D). inversion H; subst; reflexivity.
  - assert (0 < n <= ssize_max) as Dn by (inversion H; assumption).
    apply (K n i Dn). inversion H; subst; reflexivity.
Qed.

Lemma read_dict_eof f ts s :
  format_types f ts -> Z.of_nat (length (unread s)) <= ssize_max ->
  (exists s' m, read_dict f s = (s', Err (EOFError true m))) <-> stops ts (unread s).
Proof.
  intros F; revert s; induction F as [|(k, i) (k', t) f ts (Hk & Ht) F IH]; intros s Ls.
  - split; [intros (s' & m & K); discriminate | intros K; inversion K].
  - cbn [fst snd] in *. subst k'. cbn [read_dict]. split.
    + intros (s' & m & R). unfold pbind at 1 in R.
      destruct (read_instr i s) as [s1 [v|e]] eqn:E1.
      * apply (read_instr_sound _ t) in E1 as (b & W & U & E1); [|assumption].
        unfold pbind in R. destruct (read_dict f s1) as [s2 [r|e]] eqn:E2; [discriminate|].
        injection R as <- ->. rewrite U. eapply stop_later; [exact W|].
        apply IH; [|eauto]. rewrite U, app_length in Ls. lia.
      * injection R as <- ->.
        destruct (proj1 (read_instr_eof i t s Ht Ls) (ex_intro _ _ (ex_intro _ _ E1))) as [(U & Nn)|(Ps & V)].
        -- rewrite U. constructor; assumption.
        -- apply stop_prefix; assumption.
    + intros S. remember (unread s) as p eqn:U. inversion S; subst.
      * match goal with Q : [] = unread s |- _ => symmetry in Q; rename Q into U end.
        pose proof (read_instr_end i t s Ht U) as E.
        match goal with Q : nonempty_type t = true |- _ => rewrite Q in E end. destruct E as (s' & m & E).
        unfold pbind. rewrite E. eauto.
      * destruct (proj2 (read_instr_eof i t s Ht Ls)) as (s' & m & E); [right; auto|].
        unfold pbind. rewrite E. eauto.
      * match goal with Q : b ++ ?p0 = unread s |- _ => symmetry in Q; rename Q into U; rename p0 into p end.
        rewrite U, app_length in Ls.
        unfold pbind at 1. rewrite (read_instr_complete i t s v b p); auto; [|lia].
        assert (unread (adv (length b) s) = p) as U2
          by (rewrite unread_adv, U; apply skipn_app_exact; reflexivity).
        destruct (proj2 (IH (adv (length b) s) ltac:(rewrite U2; lia))) as (s' & m & E); [rewrite U2; assumption|].
        unfold pbind. rewrite E. eauto.
Qed.

(** A record of a format with a non-empty field is not empty. *)
Lemma record_nonempty f ts vs b :
  format_types f ts -> some_nonempty ts = true -> record_of wire ts vs b -> b <> [].
Proof.
  intros F; revert vs b; induction F as [|(k, i) (k', t) f ts (Hk & Ht) F IH]; intros vs b N R.
  - discriminate.
  - inversion R; subst. cbn [fst snd] in *. cbn [some_nonempty existsb snd] in N.
    intros E. apply app_eq_nil in E as (-> & ->).
    apply orb_true_iff in N as [N|N].
    + eapply wire_nonempty; try eassumption. reflexivity.
    + eapply IH; try eassumption. reflexivity.
Qed.
Lemma stops_nil ts f : format_types f ts -> some_nonempty ts = true -> stops ts [].
Proof.
  intros F; induction F as [|(k, i) (k', t) f ts (Hk & Ht) F IH]; intros N; [discriminate|].
  cbn [some_nonempty existsb snd] in N. cbn [snd] in Ht.
  destruct (nonempty_type t) eqn:E; [constructor; assumption|].
  pose proof (read_instr_end i t (stream_of []) Ht eq_refl) as R. rewrite E in R.
  destruct R as (v & W & _). change (@nil byte) with (@nil byte ++ @nil byte).
  eapply stop_later; [exact W|]. apply IH. exact N.
Qed.

(** The loop. *)
Lemma read_loop_iff f ts n acc s s' vs :
  format_types f ts -> Z.of_nat (length (unread s)) <= ssize_max ->
  read_loop n f acc s = (s', Ok vs) <->
  exists ds bs p, vs = acc ++ ds /\ (length ds < n)%nat /\ Forall2 (record_of wire ts) ds bs /\
    unread s = List.concat bs ++ p /\ stops ts p /\
    (forall m s2, read_dict f (adv (length (List.concat bs)) s) = (s2, Err (EOFError true m)) -> s' = s2).
Proof.
  intros F; revert acc s; induction n as [|n IH]; intros acc s Ls.
  - split; [discriminate | intros (ds & bs & p & _ & L & _); lia].
  - cbn [read_loop]. destruct (read_dict f s) as [s1 [d|e]] eqn:E.
    + destruct (read_dict_sound _ _ _ _ _ F E) as (b & R & U & ->).
      rewrite IH by (rewrite U, app_length in Ls; lia). split.
      * intros (ds & bs & p & -> & L & F2 & U2 & St & Q).
        exists (d :: ds), (b :: bs), p. split; [rewrite <- app_assoc; reflexivity|].
        split; [simpl; lia|]. split; [constructor; assumption|].
        split; [cbn [List.concat]; rewrite U, U2, app_assoc; reflexivity|]. split; [assumption|].
        intros m s2. cbn [List.concat]. rewrite app_length, <- adv_adv. apply Q.
      * intros (ds & bs & p & -> & L & F2 & U2 & St & Q).
        destruct F2 as [|d' b' ds bs R' F2].
        { exfalso. cbn in U2. rewrite <- U2 in St. apply (read_dict_eof f ts s F Ls) in St as (s2 & m & St). congruence. }
        cbn [List.concat] in U2. rewrite <- app_assoc in U2.
        rewrite U in U2. destruct (record_prefix_free _ _ _ _ _ _ _ R R' U2) as (<- & <- & U3).
        exists ds, bs, p. split; [rewrite <- app_assoc; reflexivity|].
        split; [simpl in L; lia|]. split; [assumption|]. split; [assumption|]. split; [assumption|].
        intros m s2. rewrite adv_adv, <- app_length. apply Q.
    + assert ((exists m, e = EOFError true m) <-> stops ts (unread s)) as Ee.
      { rewrite <- (read_dict_eof f ts s F Ls). rewrite E. split.
        - intros (m & ->). eauto.
        - intros (s2 & m & K). injection K as <- ->. eauto. }
      assert (forall ds bs p, Forall2 (record_of wire ts) ds bs -> unread s = List.concat bs ++ p ->
                ds = [] /\ bs = [] /\ p = unread s) as Only.
      { intros ds bs p F2 U. destruct F2 as [|d b ds bs R F2]; [auto|].
        exfalso. cbn [List.concat] in U. rewrite <- app_assoc in U.
        rewrite (read_dict_complete f ts s d b (List.concat bs ++ p) F R) in E; [discriminate| |exact U].
        rewrite U, app_length in Ls. lia. }
      split.
      * intros R. assert (exists m, e = EOFError true m) as (m & ->).
        { destruct e; try discriminate. destruct empty; [eauto|discriminate]. }
        injection R as <- <-. exists [], [], (unread s).
        split; [symmetry; apply app_nil_r|]. split; [simpl; lia|]. split; [constructor|].
        split; [reflexivity|]. split; [apply Ee; eauto|].
        intros m' s2. cbn [List.concat length]. rewrite adv_0, E. congruence.
      * intros (ds & bs & p & -> & L & F2 & U2 & St & Q).
        destruct (Only _ _ _ F2 U2) as (-> & -> & ->).
        apply Ee in St as (m & ->). rewrite app_nil_r. f_equal. symmetry.
        apply (Q m). cbn [List.concat length]. rewrite adv_0. exact E.
Qed.

Lemma read_loop_mono f n acc s r m :
  read_loop n f acc s = r -> snd r <> Err OutOfFuel ->
  (forall s' e, read_dict f s = (s', Err e) -> True) -> (n <= m)%nat -> read_loop m f acc s = r.
Proof.
  revert acc s m; induction n as [|n IH]; intros acc s m R N _ L.
  - subst r. cbn in N. congruence.
  - destruct m as [|m]; [lia|]. cbn [read_loop] in *.
    destruct (read_dict f s) as [s1 [d|e]].
    + apply IH; auto. lia.
    + exact R.
Qed.

Lemma read_dict_no_fuel f ts s s' : format_types f ts -> read_dict f s <> (s', Err OutOfFuel).
Proof.
  intros F E. apply (read_dict_errors f ts) in E; [|assumption].
  destruct E as [E|[(o & E)|E]]; discriminate.
Qed.

Lemma read_loop_terminates f ts n acc s :
  format_types f ts -> some_nonempty ts = true -> (length (unread s) < n)%nat ->
  snd (read_loop n f acc s) <> Err OutOfFuel.
Proof.
  intros F N; revert acc s; induction n as [|n IH]; intros acc s L; [lia|].
  cbn [read_loop]. destruct (read_dict f s) as [s1 [d|e]] eqn:E.
  - apply IH. destruct (read_dict_sound _ _ _ _ _ F E) as (b & R & U & _).
    pose proof (record_nonempty _ _ _ _ F N R). rewrite U, app_length in L.
    destruct b; [congruence|]. simpl in L. lia.
  - destruct e; try discriminate.
    + destruct empty; discriminate.
    + exfalso. eapply read_dict_no_fuel; eassumption.
Qed.

Lemma read_repeatedly_iff f ts s s' vs :
  format_types f ts -> f <> [] -> some_nonempty ts = true ->
  Z.of_nat (length (unread s)) <= ssize_max ->
  (read_repeatedly f s = (s', Ok vs)) <->
  exists bs p, Forall2 (record_of wire ts) vs bs /\
    unread s = List.concat bs ++ p /\ stops ts p /\
    (forall m s2, read_dict f (adv (length (List.concat bs)) s) = (s2, Err (EOFError true m)) -> s' = s2).
Proof.
  intros F Nf Ne Ls. unfold read_repeatedly. destruct f as [|x f]; [congruence|].
  rewrite (read_loop_iff _ _ _ _ _ _ _ F Ls). split.
  - intros (ds & bs & p & -> & L & F2 & U & St & Q). exists bs, p. auto.
  - intros (bs & p & F2 & U & St & Q). exists vs, bs, p. split; [reflexivity|].
    split; [|auto].
    assert (length vs <= length (List.concat bs))%nat.
    { clear U Q. induction F2 as [|d b ds bs R F2 IH]; [simpl; lia|].
      pose proof (record_nonempty _ _ _ _ F Ne R). cbn [List.concat length]. rewrite app_length.
      destruct b; [congruence|]. simpl. lia. }
    rewrite U, app_length. lia.
Qed.

(** Repeated writes. *)
Fixpoint dicts_bytes (f : fmt_dict) (l : list (dict pyval)) : res bytes :=
  match l with
  | [] => Ok []
  | d :: l' => do? b <- dict_bytes f d; do? r <- dicts_bytes f l'; Ok (b ++ r)
  end.
Lemma write_repeatedly_spec f l s :
  match dicts_bytes f l with
  | Ok b => write_repeatedly f l s = (bio_write b s, Ok tt)
  | Err e => exists s', write_repeatedly f l s = (s', Err e)
  end.
Proof.
  revert s; induction l as [|d l IH]; intros s; cbn [dicts_bytes write_repeatedly].
  - reflexivity.
  - pose proof (write_dict_spec f d s) as Hd. unfold pbind.
    destruct (dict_bytes f d) as [b|e]; cbn [rbind].
    + rewrite Hd. specialize (IH (bio_write b s)).
      destruct (dicts_bytes f l); cbn [rbind]; [|exact IH].
      rewrite IH, bio_write_app. reflexivity.
    + destruct Hd as (s' & ->). eauto.
Qed.
Lemma write_repeatedly_ok f l s s' :
  write_repeatedly f l s = (s', Ok tt) <-> exists b, dicts_bytes f l = Ok b /\ s' = bio_write b s.
Proof.
  pose proof (write_repeatedly_spec f l s) as H.
  destruct (dicts_bytes f l) as [b|e].
  - rewrite H. split; [intros K; injection K as <-; eauto | intros (b' & E & ->); congruence].
  - destruct H as (s2 & H). rewrite H. split; [discriminate | intros (b' & E & _); discriminate].
Qed.

Lemma dicts_bytes_canonical f ts l b :
  format_types f ts -> NoDup (dkeys f) -> Forall (blobs_exact ts) l -> dicts_bytes f l = Ok b ->
  exists vs bs, Forall2 (restricts (dkeys f)) l vs /\ Forall2 (record_of canonical ts) vs bs
    /\ b = List.concat bs.
Proof.
  intros F N X; revert b; induction X as [|d l Xd X IH]; intros b R.
  - injection R as <-. exists [], []. repeat constructor.
  - cbn [dicts_bytes] in R. apply rbind_ok in R as (b1 & E1 & R). apply rbind_ok in R as (b2 & E2 & R).
    injection R as <-.
    destruct (dict_bytes_canonical _ _ _ _ F Xd N E1) as (v & Rv & Cv).
    destruct (IH _ E2) as (vs & bs & F1 & F2 & ->).
    exists (v :: vs), (b1 :: bs). split; [constructor; assumption|]. split; [constructor; assumption|reflexivity].
Qed.

Lemma Forall2_impl {A B} (P Q : A -> B -> Prop) l m :
  (forall a b, P a b -> Q a b) -> Forall2 P l m -> Forall2 Q l m.
Proof. intros H; induction 1; constructor; auto. Qed.

(** ** Validation *)
Lemma struct_pack_conforms fmt t v :
  has_type (FStruct fmt) t -> (exists b, struct_pack fmt [v] = Ok b) <-> conforms t v.
Proof.
  intros H. inversion H; subst.
  - match goal with HO : In _ order_codes, HC : In _ int_codes |- _ =>
      destruct (parse_int_format _ _ _ _ _ HO HC) as (ord & E & Eo);
      pose proof (code_size_le _ _ _ HC) end.
    assert (items_size [(1%N, SInt sgn size)] = Z.of_nat size) as Es
      by (unfold items_size; cbn; lia).
    unfold struct_pack. rewrite E. cbn [rbind]. rewrite Es.
    destruct (Z.ltb_spec ssize_max (Z.of_nat size)); [unfold ssize_max in *; lia |].
    change (slots_of [(1%N, SInt sgn size)]) with [SlInt sgn size].
    cbn [pack_slots]. destruct v as [z| | | |]; cbn [pack_slot rbind conforms];
      try (destruct sgn; (split; [intros (? & K); discriminate | intros []])).
    assert (256 ^ Z.of_nat size = 2 ^ (8 * Z.of_nat size)) as P256
      by (rewrite Z.pow_mul_r by lia; reflexivity).
    destruct (int_in_range sgn size z) eqn:R; cbn [rbind]; unfold int_in_range in R; destruct sgn.
    + split; [intros _; lia | eauto].
    + split; [intros _; lia | eauto].
    + split; [intros (b & K); discriminate | lia].
    + split; [intros (b & K); discriminate | lia].
  - match goal with HN : _ <> [], HD : Forall digit _ |- _ =>
      pose proof (parse_blob_format _ HN HD) as E;
      pose proof (decimal_nonneg _ HD) end.
    assert (items_size [(Z.to_N (decimal ds), SStr)] = decimal ds) as Es
      by (unfold items_size; cbn [fold_right fst snd code_size]; lia).
    unfold struct_pack. rewrite E. cbn [rbind]. rewrite Es.
    destruct (Z.ltb_spec ssize_max (decimal ds)); [lia|].
    change (slots_of [(Z.to_N (decimal ds), SStr)]) with [SlStr (N.to_nat (Z.to_N (decimal ds)))].
    cbn [pack_slots]. destruct v as [|w| | |]; cbn [pack_slot rbind conforms];
      try (split; [intros (? & K); discriminate | contradiction]).
    split; eauto.
Qed.

Definition instr_name (i : finstr) (k : pystr) : warning :=
  match i with
  | FStruct fmt => WFormatted k fmt
  | FPascal p | FPascalSize p _ => WClass k (class_name p)
  | FBad => WMissing k
  end.

Lemma is_instance_conforms i k v : is_instance v i = true <-> conforms (ptype i k) v.
Proof. destruct i, v; cbn; split; auto; discriminate || contradiction. Qed.

Lemma check_field_typed target k i t :
  has_type i t ->
  check_field target k i =
  match dget k target with
  | None => wwarn (WMissing k)
  | Some v => if (match i with
                  | FStruct fmt => match struct_pack fmt [v] with Ok _ => true | Err _ => false end
                  | FPascal p | FPascalSize p _ => is_instance v p
                  | FBad => false
                  end) then wret tt else wwarn (instr_name i k)
  end.
Proof.
  intros H. unfold check_field. destruct (dget k target) as [v|]; [|reflexivity].
  destruct i; [| | |inversion H]; cbn [instr_name]; try reflexivity.
  destruct (struct_pack fmt [v]) eqn:E; [reflexivity|].
  apply (struct_pack_err fmt t) in E as ->; auto.
Qed.

Lemma typed_iff i t v : has_type i t ->
  (match i with
   | FStruct fmt => match struct_pack fmt [v] with Ok _ => true | Err _ => false end
   | FPascal p | FPascalSize p _ => is_instance v p
   | FBad => false
   end) = true <-> conforms t v.
Proof.
  intros H. destruct i as [fmt|i|i n|]; [| | |inversion H].
  - rewrite <- (struct_pack_conforms fmt t v H).
    destruct (struct_pack fmt [v]); split; eauto; try discriminate. intros (b & K); discriminate.
  - pose proof (is_instance_conforms i 4 v). inversion H; subst; assumption.
  - pose proof (is_instance_conforms i (Z.to_nat n) v). inversion H; subst; assumption.
Qed.

Lemma check_dict_spec target f ts :
  format_types f ts ->
  snd (check_dict target f) = Ok tt /\
  (fst (check_dict target f) = [] <->
   forall k t, In (k, t) ts -> exists v, dget k target = Some v /\ conforms t v).
Proof.
  intros F; induction F as [|(k, i) (k', t) f ts (Hk & Ht) F (IH1 & IH2)].
  - split; [reflexivity|]. split; [intros _ k t [] | reflexivity].
  - cbn [fst snd] in *. subst k'. cbn [check_dict].
    unfold wseq, wbind. rewrite (check_field_typed target k i t Ht).
    pose proof (fun v => typed_iff i t v Ht) as Ti.
    destruct (check_dict target f) as [l r]. cbn [fst snd] in IH1, IH2. subst r.
    destruct (dget k target) as [v|] eqn:Eg.
    + match goal with |- context [if ?g then _ else _] => destruct g eqn:Eq end.
      * cbn [wret fst snd app]. split; [reflexivity|]. rewrite IH2. split.
        -- intros K k0 t0 [E|Hin]; [|auto]. injection E as <- <-. exists v. split; [assumption|]. apply Ti; assumption.
        -- intros K k0 t0 Hin. apply K. right; assumption.
      * cbn [wwarn fst snd app]. split; [reflexivity|]. split; [discriminate|].
        intros K. destruct (K k t) as (v' & E' & C); [left; reflexivity|]. rewrite Eg in E'. injection E' as <-.
        apply Ti in C. congruence.
    + cbn [wwarn fst snd app]. split; [reflexivity|]. split; [discriminate|].
      intros K. destruct (K k t) as (v' & E' & C); [left; reflexivity|]. congruence.
Qed.

Lemma check_dict_warnings target f ts :
  format_types f ts ->
  exists ws, check_dict target f = (map Warn ws, Ok tt) /\ warnings_for target ts ws.
Proof.
  intros F; induction F as [|(k, i) (k', t) f ts (Hk & Ht) F (ws & IH1 & IH2)].
  - exists []. split; [reflexivity|constructor].
  - cbn [fst snd] in *. subst k'. cbn [check_dict].
    unfold wseq, wbind. rewrite (check_field_typed target k i t Ht), IH1.
    pose proof (fun v => typed_iff i t v Ht) as Ti.
    destruct (dget k target) as [v|] eqn:Eg.
    + specialize (Ti v). match goal with |- context [if ?g then _ else _] => destruct g eqn:Et end.
      * exists ws. split; [reflexivity|]. eapply wf_good; [eassumption|apply Ti; reflexivity|assumption].
      * exists (instr_name i k :: ws). split; [reflexivity|].
        eapply wf_bad; [eassumption|intros C; apply Ti in C; congruence| |assumption].
        destruct i; cbn [instr_name]; [apply wt_struct; exact Ht|inversion Ht; subst; constructor..].
    + exists (WMissing k :: ws). split; [reflexivity|]. apply wf_missing; assumption.
Qed.
