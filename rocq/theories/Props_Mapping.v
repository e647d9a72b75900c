(** C97: the entries of a key as mappings. *)
From Verif Require Import PyBase IntBytes Utf8 StructFmt Stream Text Classes Key UserList Mapping SpecWire SpecKey SpecMapping
  ProofBase ProofInt ProofWire ProofRecord ProofKey Props_Key Props_Round.
Open Scope Z_scope.

Lemma dset_with_entry k v d : NoDup (dkeys d) -> with_entry k v d (dset k v d).
Proof.
  intros N. split; [intros x; rewrite dget_dset; reflexivity|]. destruct (dget k d) as [w|] eqn:E.
  - left. split.
    + destruct (in_dec (list_eq_dec N.eq_dec) k (dkeys d)) as [I|I]; [exact I|]. apply dget_None in I. congruence.
    + rewrite dkeys_dset. unfold dmem. rewrite E. reflexivity.
  - right. split; [apply dget_None; exact E|]. clear N. induction d as [|(k', w) d IH]; [reflexivity|].
    cbn [dget dset app] in *. destruct (str_eqb k k'); [discriminate|]. rewrite (IH E). reflexivity.
Qed.
Lemma ddel_without k d : NoDup (dkeys d) -> In k (dkeys d) -> without k d (ddel k d).
Proof.
  induction d as [|(k', w) d IH]; intros N I; [destruct I|]. cbn [dkeys map fst ddel] in *. inversion N as [|? ? N1 N2]; subst.
  destruct (str_eqb k k') eqn:E.
  - apply str_eqb_spec in E as ->. exists [], w, d. split; [reflexivity|]. split; [reflexivity|]. apply dget_None. exact N1.
  - destruct I as [->|I]; [rewrite str_eqb_refl in E; discriminate|].
    destruct (IH N2 I) as (a & v & b & -> & E2 & M). rewrite E2 in *. exists ((k', w) :: a), v, b.
    split; [reflexivity|]. split; [reflexivity|]. cbn [app dget]. rewrite E. exact M.
Qed.
Lemma without_get k d d' x : without k d d' -> dget x d' = if str_eqb x k then None else dget x d.
Proof.
  intros (a & v & b & -> & -> & M). destruct (str_eqb x k) eqn:E; [apply str_eqb_spec in E as ->; exact M|]. clear M.
  induction a as [|(k', w) a IH]; cbn [app dget]; [rewrite E; reflexivity|]. rewrite IH. reflexivity.
Qed.
Lemma without_keys k d d' : NoDup (dkeys d) -> without k d d' -> NoDup (dkeys d').
Proof.
  intros N (a & v & b & -> & -> & _). unfold dkeys in *. rewrite map_app in *. cbn [map fst] in N. apply NoDup_remove_1 in N. exact N.
Qed.
Lemma merge_get l : forall d x, dget x (dmerge d l) = match last_given x l with Some v => Some v | None => dget x d end.
Proof.
  unfold dmerge. induction l as [|(k, v) l IH]; intros d x; [reflexivity|]. cbn [fold_left fst snd last_given]. rewrite IH, dget_dset.
  destruct (last_given x l); [reflexivity|]. destruct (str_eqb x k); reflexivity.
Qed.
Lemma merge_keys l : forall d : dict pyval, NoDup (dkeys d) -> NoDup (dkeys (dmerge d l)).
Proof. unfold dmerge. induction l as [|(k, v) l IH]; intros d N; [exact N|]. cbn [fold_left]. apply IH, NoDup_dset, N. Qed.
Lemma mem_in k (d : dict pyval) : dmem k d = true <-> In k (dkeys d).
Proof.
  unfold dmem. destruct (in_dec (list_eq_dec N.eq_dec) k (dkeys d)) as [I|I].
  - destruct (dget k d) eqn:E; [tauto|]. apply dget_None in E. contradiction.
  - apply dget_None in I as E. rewrite E. split; [discriminate|contradiction].
Qed.
Lemma run_keys s e d a d' : NoDup (dkeys d) -> medit_run s e d = Ok (a, d') -> NoDup (dkeys d').
Proof.
  intros N R. destruct e as [k v|k|k df| | |l|l|k v]; cbn [medit_run] in R.
  - injection R as <- <-. apply NoDup_dset, N.
  - destruct (dmem k d) eqn:M; [|discriminate]. injection R as <- <-. apply mem_in in M. eapply without_keys; [exact N|]. apply ddel_without; assumption.
  - destruct (dget k d) as [v|] eqn:G.
    + injection R as <- <-. eapply without_keys; [exact N|]. apply ddel_without; [exact N|]. apply mem_in. unfold dmem. rewrite G. reflexivity.
    + destruct df; [|discriminate]. injection R as <- <-. exact N.
  - unfold popitem in R. destruct s.
    + destruct (rev d) as [|(k, v) r] eqn:E; [discriminate|]. injection R as <- <-.
      assert (d = rev r ++ [(k, v)]) as -> by (rewrite <- (rev_involutive d), E; reflexivity).
      unfold dkeys in *. rewrite map_app in N. apply NoDup_remove_1 in N. rewrite app_nil_r in N. exact N.
    + destruct d as [|(k, v) d]; [discriminate|]. injection R as <- <-. inversion N; assumption.
  - injection R as <- <-. constructor.
  - injection R as <- <-. apply merge_keys, N.
  - injection R as <- <-. apply merge_keys, N.
  - destruct (dget k d) as [w|]; injection R as <- <-; [exact N|apply NoDup_dset, N].
Qed.

(** ** The operations *)
(** d[k] = v *)
Theorem C97_set s k v d : NoDup (dkeys d) ->
  exists d', medit_run s (MSet k v) d = Ok (MNone, d') /\ with_entry k v d d'.
Proof. intros N. eexists. split; [reflexivity|]. apply dset_with_entry, N. Qed.
(** del d[k] and d.pop(k[, default]) *)
Theorem C97_delete s k d : NoDup (dkeys d) ->
  (forall v, dget k d = Some v -> exists d', without k d d' /\
     medit_run s (MDel k) d = Ok (MNone, d') /\ (forall default, medit_run s (MPop k default) d = Ok (MValue v, d'))) /\
  (missing k d ->
     medit_run s (MDel k) d = Err (KeyError (VStr k)) /\ medit_run s (MPop k None) d = Err (KeyError (VStr k)) /\
     forall v, medit_run s (MPop k (Some v)) d = Ok (MValue v, d)).
Proof.
  intros N. split.
  - intros v G. assert (In k (dkeys d)) as I by (apply mem_in; unfold dmem; rewrite G; reflexivity).
    exists (ddel k d). split; [apply ddel_without; assumption|]. cbn [medit_run]. apply mem_in in I. rewrite I, G. auto.
  - intros M. unfold missing in M. cbn [medit_run]. unfold dmem. rewrite M. auto.
Qed.
(** d.popitem() takes the item added last from a dict, but the first one from parameters. *)
Theorem C97_popitem k v d :
  medit_run PlainDict MPopitem (d ++ [(k, v)]) = Ok (MItem k v, d) /\
  medit_run Params MPopitem ((k, v) :: d) = Ok (MItem k v, d) /\
  (exists e, medit_run PlainDict MPopitem [] = Err (KeyError e)) /\ (exists e, medit_run Params MPopitem [] = Err (KeyError e)).
Proof.
  cbn [medit_run popitem]. rewrite rev_app_distr. cbn [rev app]. rewrite rev_involutive. repeat split; eauto.
Qed.
(** d.clear(), d.update(l), d |= l and d.setdefault(k, v) *)
Theorem C97_clear s d : medit_run s MClear d = Ok (MNone, []).
Proof. reflexivity. Qed.
Theorem C97_update s l d : NoDup (dkeys d) ->
  exists d', medit_run s (MUpdate l) d = Ok (MNone, d') /\ medit_run s (MIor l) d = Ok (MNone, d') /\
    (forall x, dget x d' = match last_given x l with Some v => Some v | None => dget x d end) /\
    exists new, dkeys d' = dkeys d ++ new /\ forall x, In x new <-> In x (map fst l) /\ ~ In x (dkeys d).
Proof.
  intros N. exists (dmerge d l). split; [reflexivity|]. split; [reflexivity|]. split; [apply merge_get|].
  revert d N. unfold dmerge. induction l as [|(k, v) l IH]; intros d N.
  - exists []. split; [rewrite app_nil_r; reflexivity|]. cbn. tauto.
  - cbn [fold_left fst snd map]. destruct (IH (dset k v d) (NoDup_dset _ _ _ N)) as (new & E & S). rewrite E, dkeys_dset.
    destruct (dmem k d) eqn:M.
    + apply mem_in in M. exists new. split; [reflexivity|]. intros x. rewrite S, dkeys_dset.
      assert (dmem k d = true) as -> by (apply mem_in; exact M). cbn [In]. split; [tauto|]. intros ([<-|I] & J); tauto.
    + exists (k :: new). split; [rewrite <- app_assoc; reflexivity|]. intros x. cbn [In]. rewrite S, dkeys_dset, M, in_app_iff. cbn [In].
      assert (~ In k (dkeys d)) as K by (intros K; apply mem_in in K; congruence).
      destruct (list_eq_dec N.eq_dec k x) as [<-|Ne]; [tauto|]. tauto.
Qed.
Theorem C97_setdefault s k v d : NoDup (dkeys d) ->
  (forall w, dget k d = Some w -> medit_run s (MSetdefault k v) d = Ok (MValue w, d)) /\
  (missing k d -> medit_run s (MSetdefault k v) d = Ok (MValue v, d ++ [(k, v)])).
Proof.
  intros N. cbn [medit_run]. split; [intros w ->; reflexivity|]. intros M. unfold missing in M. rewrite M.
  destruct (dset_with_entry k v d N) as (_ & [(I & _)|(_ & ->)]); [|reflexivity]. apply mem_in in I. unfold dmem in I. rewrite M in I. discriminate.
Qed.

(** ** Programs *)
(** Whatever a program does to the entries of a key, no mapping gets two entries for one name, the key
    stays of its kind and class and, if the header is left alone, of its type. *)
Theorem C97_programs k l :
  (well_formed k -> well_formed (edit_key k l)) /\
  k_kind (edit_key k l) = k_kind k /\ k_pcls (edit_key k l) = k_pcls k /\
  (keeps_header l -> k_header (edit_key k l) = k_header k /\ forall t, is_key t k -> is_key t (edit_key k l)).
Proof.
  unfold edit_key. revert k. induction l as [|(w, e) l IH]; intros k; [cbn [fold_left]; auto|]. cbn [fold_left].
  destruct (IH (edit_part k (w, e))) as (A & B & C & D).
  assert (forall s d, NoDup (dkeys d) -> NoDup (dkeys (medit_after s d e))) as K.
  { intros s d N. unfold medit_after. destruct (medit_run s e d) as [(a, d')|x] eqn:R; [eapply run_keys; eassumption|exact N]. }
  split; [|split; [|split]].
  - intros (W1 & W2 & W3 & W4). apply A. destruct w; unfold well_formed; cbn [edit_part fst snd k_header k_params k_footer k_clear]; auto 6.
  - rewrite B. destruct w; reflexivity.
  - rewrite C. destruct w; reflexivity.
  - intros Kh. destruct D as (D1 & D2); [intros x I; apply (Kh x); right; exact I|].
    destruct w; [destruct (Kh e); left; reflexivity| | |]; (split; [rewrite D1; reflexivity|intros t T; apply D2, T]).
Qed.
(** Each of the four mappings ends as its own statements make it, whatever is done to the others. *)
Theorem C97_parts k l w : becomes (kind_of_mapping w) (about w l) (mapping_of w k) (mapping_of w (edit_key k l)).
Proof.
  unfold edit_key. revert k. induction l as [|(w', e) l IH]; intros k; [constructor|]. cbn [fold_left]. specialize (IH (edit_part k (w', e))).
  destruct w', w; cbn [edit_part fst snd about mapping_of kind_of_mapping sort_of k_header k_params k_footer k_clear] in *; try exact IH;
    unfold medit_after in IH at 1;
    match type of IH with becomes ?s _ (match medit_run _ e ?d with _ => _ end) _ =>
      destruct (medit_run s e d) as [(a, d1)|x] eqn:R; [eapply becomes_done|eapply becomes_raised]; eassumption end.
Qed.
(** Packing looks only at the current values of the fields of the type, not at the order of the entries,
    at entries that are not fields or at how they were made. *)
Theorem C97_packs_fields t pub priv a b :
  In (t, (pub, priv)) key_specs -> is_key t a -> is_key t b ->
  (forall x, In x (map fst pub) -> dget x (k_params a) = dget x (k_params b)) ->
  pack_public_bytes a = pack_public_bytes b /\
  (forall ps, priv = Some ps -> k_kind a = KPriv -> k_kind b = KPriv ->
     (forall x, In x (map fst ps) -> dget x (k_params a) = dget x (k_params b)) ->
     dget (str "comment") (k_footer a) = dget (str "comment") (k_footer b) ->
     pack_private_bytes a = pack_private_bytes b) /\
  (forall uf uc,
     (uf = true -> dget (str "comment") (k_footer a) = dget (str "comment") (k_footer b)) ->
     (uc = true -> dget (str "comment") (k_clear a) = dget (str "comment") (k_clear b)) ->
     pack_public_string uf uc a = pack_public_string uf uc b).
Proof.
  intros Hs Ka Kb Hp.
  assert (forall f d d', (forall x, In x (dkeys f) -> dget x d = dget x d') -> dict_bytes f d = dict_bytes f d') as Same.
  { induction f as [|(k, i) f IH]; intros d d' H; [reflexivity|]. cbn [dict_bytes]. unfold ditem. rewrite (H k) by (left; reflexivity).
    rewrite (IH d d') by (intros x X; apply H; right; exact X). reflexivity. }
  assert (forall kd, dict_bytes (header_fmt kd) (k_header a) = dict_bytes (header_fmt kd) (k_header b)) as Hh.
  { intros kd. apply Same. intros x [<-|[]]. change (dget (str "key_type") (k_header a) = dget (str "key_type") (k_header b)).
    destruct Ka as (-> & _), Kb as (-> & _). reflexivity. }
  assert (pack_public_bytes a = pack_public_bytes b) as E.
  { rewrite !pack_public_eq, (Hh KPub). destruct (spec_public _ _ _ Hs) as (c & A & F & N & _).
    pose proof (public_class_of _ _ _ _ Hs Ka) as Ca. pose proof (public_class_of _ _ _ _ Hs Kb) as Cb.
    assert (first_public_class (k_pcls a) = c) as -> by congruence. assert (first_public_class (k_pcls b) = c) as -> by congruence.
    rewrite (Same _ (k_params a) (k_params b)); [reflexivity|]. rewrite (format_keys _ _ F). exact Hp. }
  split; [exact E|]. split.
  - intros ps -> Ea Eb Hq Hc. rewrite !pack_private_eq, (Hh KPriv). destruct (spec_private _ _ _ Hs) as (c & A & F & N & _).
    destruct Ka as (_ & Ca), Kb as (_ & Cb). rewrite Ea in Ca. rewrite Eb in Cb. cbn [params_class] in Ca, Cb.
    assert (k_pcls a = c) as -> by congruence. assert (k_pcls b = c) as -> by congruence.
    rewrite (Same _ (k_params a) (k_params b)) by (rewrite (format_keys _ _ F); exact Hq).
    rewrite (Same _ (k_footer a) (k_footer b)); [reflexivity|]. intros x [<-|[]]. exact Hc.
  - intros uf uc Hf Hc. unfold pack_public_string. rewrite E.
    assert (ditem (str "key_type") (k_header a) = ditem (str "key_type") (k_header b)) as ->.
    { unfold ditem. destruct Ka as (-> & _), Kb as (-> & _). reflexivity. }
    assert (forall u d d', (u = true -> dget (str "comment") d = dget (str "comment") d') -> opt_comment u d = opt_comment u d') as O.
    { intros u d d' H. unfold opt_comment. destruct u; [|reflexivity]. rewrite (H eq_refl). reflexivity. }
    rewrite (O uf _ _ Hf), (O uc _ _ Hc). reflexivity.
Qed.
Lemma dict_bytes_missing f d x : In x (dkeys f) -> dget x d = None -> exists e, dict_bytes f d = Err e.
Proof.
  induction f as [|(k, i) f IH]; intros I M; [destruct I|]. cbn [dict_bytes dkeys map fst] in *. unfold ditem. destruct I as [->|I].
  - rewrite M. eexists. reflexivity.
  - destruct (IH I M) as (e & E). rewrite E. destruct (dget k d); cbn [rbind]; [|eexists; reflexivity]. destruct (instr_bytes i p); eexists; reflexivity.
Qed.
Lemma dict_bytes_deleted f d d' x b : In x (dkeys f) -> dict_bytes f d = Ok b -> without x d d' -> dict_bytes f d' = Err (KeyError (VStr x)).
Proof.
  revert b. induction f as [|(k, i) f IH]; intros b I D W; [destruct I|]. cbn [dict_bytes dkeys map fst] in *. unfold ditem in *.
  rewrite (without_get _ _ _ k W). destruct (str_eqb k x) eqn:E; [apply str_eqb_spec in E as ->; reflexivity|].
  destruct I as [->|I]; [rewrite str_eqb_refl in E; discriminate|].
  apply rbind_ok in D as (v & D1 & D). apply rbind_ok in D as (b1 & D2 & D). apply rbind_ok in D as (r & D3 & _).
  rewrite D1. cbn [rbind]. rewrite D2. cbn [rbind]. rewrite (IH r I D3 W). reflexivity.
Qed.
Lemma edits_compose k l m : edit_key k (l ++ m) = edit_key (edit_key k l) m.
Proof. unfold edit_key. apply fold_left_app. Qed.

(** A key whose field is missing, by whatever program, cannot be packed ... *)
Theorem C97_missing_fields t pub priv k x :
  In (t, (pub, priv)) key_specs -> is_key t k -> missing x (k_params k) ->
  (In x (map fst pub) -> exists e, pack_public_bytes k = Err e) /\
  (forall ps, priv = Some ps -> k_kind k = KPriv -> In x (map fst ps) -> exists e, pack_private_bytes k = Err e).
Proof.
  intros Hs K M. split.
  - intros I. rewrite pack_public_eq. destruct (spec_public _ _ _ Hs) as (c & A & F & N & _).
    pose proof (public_class_of _ _ _ _ Hs K) as C. assert (first_public_class (k_pcls k) = c) as -> by congruence.
    rewrite <- (format_keys _ _ F) in I. destruct (dict_bytes_missing _ _ _ I M) as (e & ->). destruct (dict_bytes (header_fmt KPub) (k_header k)); eexists; reflexivity.
  - intros ps -> E I. rewrite pack_private_eq. destruct (spec_private _ _ _ Hs) as (c & A & F & N & _).
    destruct K as (_ & C). rewrite E in C. cbn [params_class] in C. assert (k_pcls k = c) as -> by congruence.
    rewrite <- (format_keys _ _ F) in I. destruct (dict_bytes_missing _ _ _ I M) as (e & ->). destruct (dict_bytes (header_fmt KPriv) (k_header k)); eexists; reflexivity.
Qed.
(** ... KeyError names the field if it is what is missing from a key that could be packed, the public
    bytes do not need private fields, and putting the value back repairs the key. *)
Theorem C97_delete_and_restore t pub ps k x v b :
  In (t, (pub, Some ps)) key_specs -> is_key t k -> k_kind k = KPriv -> well_formed k ->
  pack_private_bytes k = Ok b -> dget x (k_params k) = Some v ->
  let deleted := edit_key k [(InParams, MDel x)] in
  let restored := edit_key deleted [(InParams, MSet x v)] in
  (In x (map fst ps) -> pack_private_bytes deleted = Err (KeyError (VStr x))) /\
  (~ In x (map fst ps) -> pack_private_bytes deleted = Ok b) /\
  (~ In x (map fst pub) -> pack_public_bytes deleted = pack_public_bytes k) /\
  (forall p, In x (map fst pub) -> pack_public_bytes k = Ok p -> pack_public_bytes deleted = Err (KeyError (VStr x))) /\
  pack_private_bytes restored = Ok b /\ pack_public_bytes restored = pack_public_bytes k.
Proof.
  intros Hs K Ek (W1 & W2 & W3 & W4) P G deleted restored.
  assert (In x (dkeys (k_params k))) as I by (apply mem_in; unfold dmem; rewrite G; reflexivity).
  pose proof (ddel_without x (k_params k) W2 I) as Wo.
  assert (deleted = mkkey (k_kind k) (k_header k) (k_pcls k) (ddel x (k_params k)) (k_footer k) (k_clear k)) as Ed.
  { unfold deleted, edit_key. cbn [fold_left edit_part fst snd]. unfold medit_after. cbn [medit_run sort_of]. apply mem_in in I. rewrite I. reflexivity. }
  assert (is_key t deleted) as Kd by (rewrite Ed; exact K).
  assert (restored = mkkey (k_kind k) (k_header k) (k_pcls k) (dset x v (ddel x (k_params k))) (k_footer k) (k_clear k)) as Er.
  { unfold restored. rewrite Ed. reflexivity. }
  assert (is_key t restored) as Kr by (rewrite Er; exact K).
  assert (forall y, dget y (k_params restored) = dget y (k_params k)) as Gr.
  { intros y. rewrite Er. cbn [k_params]. rewrite dget_dset. destruct (str_eqb y x) eqn:E; [apply str_eqb_spec in E as ->; congruence|].
    rewrite (without_get _ _ _ y Wo), E. reflexivity. }
  assert (forall y, y <> x -> dget y (k_params deleted) = dget y (k_params k)) as Gd.
  { intros y Ne. rewrite Ed. cbn [k_params]. rewrite (without_get _ _ _ y Wo). destruct (str_eqb y x) eqn:E; [apply str_eqb_spec in E; congruence|reflexivity]. }
  assert (k_kind deleted = KPriv /\ k_footer deleted = k_footer k /\ k_params deleted = ddel x (k_params k) /\ k_header deleted = k_header k /\ k_pcls deleted = k_pcls k) as (Dk & Df & Dp & Dh & Dc) by (rewrite Ed; cbn; auto).
  assert (k_kind restored = KPriv /\ k_footer restored = k_footer k) as (Rk & Rf) by (rewrite Er; auto).
  assert (forall y, In y (map fst pub) -> In y (map fst ps)) as Sub by (intros; eapply pub_in_priv; eassumption).
  split; [|split; [|split; [|split; [|split]]]].
  - intros Ix. destruct (spec_private _ _ _ Hs) as (c & A & F & N & _). rewrite pack_private_eq in *. destruct K as (_ & C). rewrite Ek in C. cbn [params_class] in C.
    rewrite Dc, Dh, Dp. assert (k_pcls k = c) as Ec by congruence. rewrite Ec in *.
    apply rbind_ok in P as (b1 & P1 & P). apply rbind_ok in P as (b2 & P2 & P). rewrite P1. cbn [rbind]. rewrite <- (format_keys _ _ F) in Ix.
    rewrite (dict_bytes_deleted _ _ _ _ _ Ix P2 Wo). reflexivity.
  - intros Nx. rewrite <- P. destruct (C97_packs_fields t pub (Some ps) deleted k Hs Kd K) as (_ & Q & _).
    + intros y Iy. apply Gd. intros ->. apply Nx, Sub, Iy.
    + apply (Q ps eq_refl Dk Ek); [|rewrite Df; reflexivity]. intros y Iy. apply Gd. intros ->. contradiction.
  - intros Nx. apply (C97_packs_fields t pub (Some ps) deleted k Hs Kd K). intros y Iy. apply Gd. intros ->. contradiction.
  - intros p Ix Pp. destruct (spec_public _ _ _ Hs) as (c & A & F & N & _). rewrite pack_public_eq in *.
    pose proof (public_class_of _ _ _ _ Hs K) as C. rewrite Dc, Dh, Dp. assert (first_public_class (k_pcls k) = c) as Ec by congruence. rewrite Ec in *.
    apply rbind_ok in Pp as (b1 & P1 & Pp). apply rbind_ok in Pp as (b2 & P2 & Pp). rewrite P1. cbn [rbind]. rewrite <- (format_keys _ _ F) in Ix.
    rewrite (dict_bytes_deleted _ _ _ _ _ Ix P2 Wo). reflexivity.
  - rewrite <- P. destruct (C97_packs_fields t pub (Some ps) restored k Hs Kr K) as (_ & Q & _); [intros; apply Gr|].
    apply (Q ps eq_refl Rk Ek); [intros; apply Gr|rewrite Rf; reflexivity].
  - apply (C97_packs_fields t pub (Some ps) restored k Hs Kr K). intros; apply Gr.
Qed.

(** ** New parameters from old ones *)
Lemma last_given_get x d : NoDup (dkeys d) -> last_given x d = dget x d.
Proof.
  induction d as [|(k, v) d IH]; intros N; [reflexivity|]. cbn [dkeys map fst] in N. inversion N as [|? ? N1 N2]; subst.
  cbn [last_given dget]. rewrite (IH N2). destruct (str_eqb x k) eqn:E; [|destruct (dget x d); reflexivity].
  apply str_eqb_spec in E as ->. apply dget_None in N1. rewrite N1. reflexivity.
Qed.
(** params | other makes parameters of the left one's class, or of the parameters' class if the left one is
    a dict. The right one's entries prevail; they come after the others if they are new. They are checked as
    if they had been given to the constructor, unlike those of params.update(other) and params |= other. *)
Theorem C97_merge ec parse c d c' d' : NoDup (dkeys d) -> NoDup (dkeys d') ->
  exists m,
    (forall x, dget x m = match dget x d' with Some v => Some v | None => dget x d end) /\
    (exists new, dkeys m = dkeys d ++ new /\ forall x, In x new <-> In x (dkeys d') /\ ~ In x (dkeys d)) /\
    let made k := new_params ec parse k m ;; wret (k, m) in
    params_or ec parse c d (MDict d') = made c /\ params_or ec parse c d (MParams c' d') = made c /\
    params_ror ec parse (MDict d) c' d' = made c'.
Proof.
  intros N N'. destruct (C97_update Params d' d N) as (m & R & _ & G & new & E & S). exists m. split.
  { intros x. rewrite G, last_given_get by exact N'. reflexivity. }
  split; [exists new; auto|]. cbn [medit_run] in R. injection R as <-. cbn. auto.
Qed.
Theorem C97_not_merged ec parse c d : params_or ec parse c d MElse = ([], Err TypeError) /\ params_ror ec parse MElse c d = ([], Err TypeError).
Proof. split; reflexivity. Qed.
(** A copy has the same class and entries and is not checked; fromkeys, inherited too, always raises. *)
Theorem C97_copy_and_fromkeys c d keys v : params_copy c d = ([], Ok (c, d)) /\ params_fromkeys c keys v = ([], Err TypeError).
Proof. split; reflexivity. Qed.
(** Parameters are equal to parameters or a dict with the same entries in any order, whatever the classes. *)
Theorem C97_equality d o : NoDup (dkeys d) ->
  match o with
  | MParams _ d' | MDict d' => NoDup (dkeys d') -> params_eq d o = true <-> same_mapping d d'
  | MElse => params_eq d o = false
  end.
Proof. intros N. destruct o; [| |reflexivity]; intros N'; apply C54_dict_equality; assumption. Qed.

(** An Ed25519 key is taken apart and put together again in another order, with an entry that is no field. *)
Definition ex_seed : bytes := repeat x07 32.
Definition ex_pub : bytes := repeat x09 32.
Definition ex_params : dict pyval := [(str "public", VBytes ex_pub); (str "private_public", VBytes (ex_seed ++ ex_pub))].
Definition ex_key : key :=
  mkkey KPriv [(str "key_type", VStr (str "ssh-ed25519"))] EdPriv ex_params [(str "comment", VStr (str "me"))] [].
Definition ex_edits : list (part * medit) :=
  [(InParams, MPopitem); (InParams, MSetdefault (str "note") (VInt 1)); (InFooter, MPopitem);
   (InParams, MPop (str "none") None); (InParams, MIor [(str "public", VBytes []); (str "public", VBytes ex_pub)]);
   (InFooter, MUpdate [(str "comment", VStr (str "me"))])].
Example C97_example :
  (exists pub ps, In (str "ssh-ed25519", (pub, Some ps)) key_specs /\ In (str "public") (map fst pub) /\ ~ In (str "private_public") (map fst pub)) /\
  is_key (str "ssh-ed25519") ex_key /\ well_formed ex_key /\ keeps_header ex_edits /\
  dkeys (k_params (edit_key ex_key (firstn 1 ex_edits))) = [str "private_public"] /\
  dkeys (k_params (edit_key ex_key ex_edits)) = [str "private_public"; str "note"; str "public"] /\
  pack_private_bytes (edit_key ex_key (firstn 4 ex_edits)) = Err (KeyError (VStr (str "public"))) /\
  pack_private_bytes (edit_key ex_key (firstn 5 ex_edits)) = Err (KeyError (VStr (str "comment"))) /\
  (exists b, pack_private_bytes ex_key = Ok b /\ pack_private_bytes (edit_key ex_key ex_edits) = Ok b) /\
  key_eqb ex_key (edit_key ex_key ex_edits) = false /\
  params_eq ex_params (MParams EdPub (rev ex_params)) = true.
Proof.
  split. { do 2 eexists. split; [unfold key_specs, plain_specs; cbn [map app In]; do 8 (try (left; reflexivity); right); contradiction|]. split; [vm_compute; auto|]. vm_compute. intuition discriminate. }
  split; [split; vm_compute; reflexivity|]. split; [repeat split; apply nodupb_sound; vm_compute; reflexivity|].
  split; [intros e I; cbn in I; intuition discriminate|].
  split; [vm_compute; reflexivity|]. split; [vm_compute; reflexivity|]. split; [vm_compute; reflexivity|]. split; [vm_compute; reflexivity|].
  split; [eexists; split; vm_compute; reflexivity|]. split; vm_compute; reflexivity.
Qed.

Print Assumptions C97_set.
Print Assumptions C97_delete.
Print Assumptions C97_popitem.
Print Assumptions C97_clear.
Print Assumptions C97_update.
Print Assumptions C97_setdefault.
Print Assumptions C97_programs.
Print Assumptions C97_parts.
Print Assumptions C97_packs_fields.
Print Assumptions C97_missing_fields.
Print Assumptions C97_delete_and_restore.
Print Assumptions C97_merge.
Print Assumptions C97_not_merged.
Print Assumptions C97_copy_and_fromkeys.
Print Assumptions C97_equality.
