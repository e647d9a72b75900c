(** Which exceptions packing raises, and for what: C102. *)
From Verif Require Import PyBase IntBytes Utf8 StructFmt Stream Text Classes Key Crypto PrivateKeyList.
From Verif Require Import SpecWire SpecKey SpecText SpecCrypto SpecList SpecRaise.
From Verif Require Import ProofBase ProofInt ProofUtf8 ProofWire ProofRecord ProofKey ProofLog ProofErr ProofText ProofCrypto ProofList.
From Verif Require Import Props_Stream Props_Key Props_Crypto ProofRead Props_List Props_Parse Props_Refuse.
Open Scope Z_scope.

(** ** One field *)
Lemma cannot_conforms t v e : cannot t v e -> ~ conforms t v \/
  (e = UnicodeEncodeError /\ exists k s, t = TText k /\ v = VStr s /\ ~ exists u, utf8 s u) \/
  (e = OverflowError /\ forall k s, t = TText k -> v = VStr s -> exists u, utf8 s u).
Proof.
  intros H. inversion H; subst; auto; right; (try (left; split; [reflexivity|]; eauto; fail)); right; split; try reflexivity; intros; try discriminate.
  match goal with A : VStr _ = VStr _ |- _ => injection A as <- end. eauto.
Qed.
Lemma cannot_fun t v e e' : cannot t v e -> cannot t v e' -> e = e'.
Proof.
  assert (forall e, cannot t v e -> conforms t v -> e = UnicodeEncodeError \/ e = OverflowError) as C.
  { intros x H K. inversion H; subst; auto; contradiction. }
  assert (forall e, cannot t v e -> ~ conforms t v -> e = match prefix_size t with Some _ => ValueError | None => StructError end) as N.
  { intros x H K. inversion H; subst;
      try (match goal with A : prefix_size _ = _ |- _ => rewrite A; reflexivity end); exfalso; apply K; exact I. }
  intros H H'. pose proof (cannot_conforms _ _ _ H) as A. pose proof (cannot_conforms _ _ _ H') as A'.
  destruct A as [A|A]; [rewrite (N _ H A), (N _ H' A); reflexivity|].
  destruct A' as [A'|A']; [rewrite (N _ H A'), (N _ H' A'); reflexivity|].
  destruct A as [(-> & k & s & -> & -> & A)|(-> & A)], A' as [(-> & k' & s' & A1 & A2 & A')|(-> & A')]; try reflexivity; exfalso.
  - apply A. eapply A'; reflexivity.
  - apply A'. eapply A; eassumption.
Qed.
Lemma pascal4_err i v e : write_pascal i default_size v = Err e -> cannot (ptype i 4) v e.
Proof.
  unfold write_pascal. destruct (write_payload i v) as [u|e1] eqn:E; cbn [rbind].
  - destruct (int_to_bytes (Z.of_nat (length u)) default_size false) as [l|e2] eqn:E2; cbn [rbind]; [discriminate|].
    intros R; injection R as <-.
    assert (e2 = OverflowError /\ 256 ^ Z.of_nat 4 <= Z.of_nat (length u)) as (-> & L).
    { unfold int_to_bytes, default_size in E2. change (4 <? 0) with false in E2. change (ssize_max <? 4) with false in E2. cbv iota in E2.
      change (256 ^ Z.of_nat 4) with (256 ^ 4).
      destruct (Z.leb_spec 0 (Z.of_nat (length u))), (Z.ltb_spec (Z.of_nat (length u)) (256 ^ 4));
        cbn [andb] in E2; try discriminate; try lia; split; try congruence; lia. }
    destruct i, v; try discriminate.
    + cbn in E. injection E as ->. apply cannot_long_bytes. exact L.
    + apply cannot_long_text with (u := u); [apply utf8_encode_iff; exact E|exact L].
    + apply write_mpint_payload_iff in E as (S & El & _). apply cannot_long_mpint. intros u' S'.
      apply mpint_len_shortest in S'. lia.
  - intros R; injection R as <-.
    destruct (write_payload_err _ _ _ E) as [(I & ->)|[(t & -> & -> & -> & N)|(z & -> & -> & -> & [G|B])]].
    + apply cannot_kind with (k := 4%nat); [destruct i; reflexivity|]. intros C. apply is_instance_conforms in C. congruence.
    + apply cannot_text. intros (u & U). apply N. apply utf8_encode_scalar. exists u. apply utf8_encode_iff. exact U.
    + apply cannot_gap. exact G.
    + apply cannot_long_mpint. intros u S. apply mpint_len_shortest in S. assert (256 ^ Z.of_nat 4 < ssize_max) by reflexivity. lia.
Qed.
Lemma pascal4_ok i v b e : write_pascal i default_size v = Ok b -> ~ cannot (ptype i 4) v e.
Proof.
  intros W C. unfold write_pascal in W. apply rbind_ok in W as (u & Hu & W). apply rbind_ok in W as (l & Hl & _).
  apply int_to_bytes_unsigned_ok in Hl as (_ & Hl & _). change (256 ^ default_size) with (256 ^ Z.of_nat 4) in Hl.
  inversion C; subst.
  - match goal with A : ~ conforms _ _ |- _ => apply A end. apply is_instance_conforms. destruct i, v; try discriminate Hu; reflexivity.
  - destruct i; discriminate.
  - destruct i; try discriminate. match goal with A : ~ _ |- _ => apply A end. exists u. apply utf8_encode_iff. exact Hu.
  - destruct i; try discriminate. match goal with A : mpint_gap _ |- _ => apply mpint_gap_len in A end.
    apply write_mpint_payload_iff in Hu as (S & El & _). destruct u as [|x u]; [cbn in El; lia|].
    pose proof (int_from_bytes_signed_range (x :: u)) as R. rewrite signed_be in S. rewrite S in R.
    specialize (R ltac:(cbn; lia)). rewrite El in R. lia.
  - destruct i; try discriminate. cbn in Hu. injection Hu as ->. match goal with A : TBytes _ = TBytes _ |- _ => injection A as -> | _ => idtac end. cbn [ptype] in *. match goal with A : TBytes _ = _ |- _ => injection A as -> | _ => idtac end. lia.
  - destruct i; try discriminate. apply utf8_encode_iff in Hu. match goal with A : utf8 s ?u0 |- _ => assert (u0 = u) as -> by (eapply utf8_functional; eassumption) end.
    match goal with A : TText _ = _ |- _ => injection A as -> | _ => idtac end. lia.
  - destruct i; try discriminate. apply write_mpint_payload_iff in Hu as (S & _).
    match goal with A : forall u, _ -> _ |- _ => specialize (A u S) end. match goal with A : TMpint _ = _ |- _ => injection A as -> | _ => idtac end. lia.
Qed.
Lemma instr_iff i t v e : has_type i t -> match i with FPascalSize _ _ | FBad => False | _ => True end ->
  instr_bytes i v = Err e <-> cannot t v e.
Proof.
  intros H Si.
  assert ((forall x, instr_bytes i v = Err x -> cannot t v x) /\ (forall b x, instr_bytes i v = Ok b -> ~ cannot t v x)) as (A & B).
  { destruct i as [fmt|i|i n|]; try contradiction; cbn [instr_bytes].
    - assert (prefix_size t = None) as Pt by (inversion H; subst; reflexivity). split.
      + intros x E. pose proof (struct_pack_err _ _ _ _ H E) as ->. apply cannot_struct; [exact Pt|].
        intros C. apply (struct_pack_conforms fmt t v H) in C as (b & C). congruence.
      + intros b x E C. assert (conforms t v) as K by (apply (struct_pack_conforms fmt t v H); eauto).
        inversion C; subst; try discriminate; contradiction.
    - assert (t = ptype i 4) as -> by (inversion H; subst; reflexivity). split; [apply pascal4_err|apply pascal4_ok]. }
  split; [apply A|]. intros C. destruct (instr_bytes i v) as [b|x] eqn:E; [exfalso; eapply B; [reflexivity|exact C]|].
  f_equal. eapply cannot_fun; [apply A; reflexivity|exact C].
Qed.

(** ** A record *)
Lemma dict_fault_iff f ts vals : format_types f ts -> default_sizes f = true ->
  (forall e, dict_bytes f vals = Err e <-> first_fault vals ts e) /\
  ((exists b, dict_bytes f vals = Ok b) <-> all_written vals ts).
Proof.
  intros F; induction F as [|(k, i) (k', t) f ts (Hk & Ht) F IH]; intros D.
  - cbn [dict_bytes]. split.
    + intros e. split; [discriminate|]. intros (pre & x & t & post & E & _). destruct pre; discriminate.
    + split; [intros _ x t []|eauto].
  - cbn [fst snd] in *. subst k'. cbn [default_sizes forallb snd] in D. apply andb_true_iff in D as (Di & D).
    destruct (IH D) as (I1 & I2). clear IH.
    assert (forall v e, instr_bytes i v = Err e <-> cannot t v e) as Hi
      by (intros v e; apply instr_iff; [exact Ht|destruct i; try discriminate; exact I]).
    cbn [dict_bytes]. unfold ditem. destruct (dget k vals) as [v|] eqn:G; cbn [rbind].
    2: { split.
      - intros e. split.
        + intros E; injection E as <-. exists [], k, t, ts. split; [reflexivity|]. split; [intros x y []|]. left. auto.
        + intros (pre & x & t' & post & E & W & R). destruct pre as [|[y ty] pre].
          * injection E as <- <- <-. destruct R as [(_ & ->)|(v & Gv & _)]; [reflexivity|congruence].
          * injection E as <- <- ->. destruct (W k t ltac:(left; reflexivity)) as (v & Gv & _). congruence.
      - split; [intros (b & E); discriminate|]. intros W. destruct (W k t ltac:(left; reflexivity)) as (v & Gv & _). congruence. }
    destruct (instr_bytes i v) as [b|e1] eqn:Ei; cbn [rbind].
    + assert (forall e, ~ cannot t v e) as Nv by (intros e C; apply Hi in C; congruence).
      split.
      * intros e. split.
        -- intros E. assert (dict_bytes f vals = Err e) as E' by (destruct (dict_bytes f vals); cbn [rbind] in E; congruence).
           apply I1 in E' as (pre & x & t' & post & -> & W & R). exists ((k, t) :: pre), x, t', post.
           split; [reflexivity|]. split; [|exact R]. intros y ty [E'|I']; [injection E' as <- <-; eauto|exact (W y ty I')].
        -- intros (pre & x & t' & post & E & W & R). destruct pre as [|[y ty] pre].
           ++ injection E as <- <- <-. destruct R as [(G' & _)|(v' & Gv & C)]; [congruence|]. exfalso.
              assert (v' = v) as -> by congruence. exact (Nv _ C).
           ++ injection E as <- <- ->. assert (dict_bytes f vals = Err e) as ->; [|reflexivity].
              apply I1. exists pre, x, t', post. split; [reflexivity|]. split; [|exact R]. intros z tz I'. apply W. right. exact I'.
      * split.
        -- intros (r & E). apply rbind_ok in E as (r' & E & _). intros y ty [E'|I']; [injection E' as <- <-; eauto|].
           apply (proj1 I2); eauto.
        -- intros W. destruct (proj2 I2) as (r & E); [intros y ty I'; apply W; right; exact I'|]. rewrite E. cbn [rbind]. eauto.
    + apply Hi in Ei as C. split.
      * intros e. split.
        -- intros E. injection E as <-. exists [], k, t, ts. split; [reflexivity|]. split; [intros x y []|]. right. eauto.
        -- intros (pre & x & t' & post & E & W & R). destruct pre as [|[y ty] pre].
           ++ injection E as <- <- <-. destruct R as [(G' & _)|(v' & Gv & C')]; [congruence|].
              assert (v' = v) as -> by congruence. f_equal. exact (cannot_fun _ _ _ _ C C').
           ++ injection E as <- <- ->. destruct (W k t ltac:(left; reflexivity)) as (v' & Gv & N). exfalso.
              assert (v' = v) as -> by congruence. exact (N _ C).
      * split; [intros (r & E); discriminate|]. intros W. destruct (W k t ltac:(left; reflexivity)) as (v' & Gv & N). exfalso.
        assert (v' = v) as -> by congruence. exact (N _ C).
Qed.

(** ** A key *)
Lemma spec_defaults t pub priv : In (t, (pub, priv)) key_specs ->
  (forall c, get_public_class (VStr t) = Ok c -> format_types (format_of (first_public_class c)) pub /\ default_sizes (format_of (first_public_class c)) = true) /\
  (forall c, get_private_class (VStr t) = Ok c -> format_types (format_of (first_public_class c)) pub /\ default_sizes (format_of (first_public_class c)) = true).
Proof.
  intros Hs. destruct (spec_public _ _ _ Hs) as (c & Hc & F & _ & Fc).
  pose proof (spec_of_class KPub (VStr t) c Hc) as (ts & _ & D). split.
  - intros c' Hc'. assert (c' = c) as -> by congruence. rewrite Fc. auto.
  - intros c' Hc'. destruct priv as [priv|].
    + destruct (spec_private _ _ _ Hs) as (cp & Hp & _ & _ & Hq). assert (cp = c') as -> by congruence.
      assert (first_public_class c' = c) as -> by congruence. auto.
    + rewrite (spec_cert_no_private _ _ Hs) in Hc'. discriminate.
Qed.
Lemma header_default k : default_sizes (header_fmt k) = true.
Proof. destruct k; reflexivity. Qed.
Lemma writable_nil vals : all_written vals [].
Proof. intros x t []. Qed.
Lemma first_fault_nil vals e : ~ first_fault vals [] e.
Proof. intros (pre & x & t & post & E & _). destruct pre; discriminate. Qed.

(** pack_public_bytes of a key of a supported type, public or private (whatever was done to its
    header, parameters and comment since): the exception is that of the first field of the
    header, then of the parameters, that is missing or cannot be written. *)
Theorem C102_public kd t pub priv k e :
  In (t, (pub, priv)) key_specs -> params_class kd (VStr t) = Ok (k_pcls k) ->
  pack_public_bytes k = Err e <-> key_fault k pub [] e.
Proof.
  intros Hs Hc. rewrite pack_public_eq.
  destruct (spec_defaults _ _ _ Hs) as (A & B).
  assert (format_types (format_of (first_public_class (k_pcls k))) pub /\ default_sizes (format_of (first_public_class (k_pcls k))) = true) as (F & D)
    by (destruct kd; [apply A|apply B]; exact Hc).
  destruct (dict_fault_iff _ _ (k_header k) (ProofKey.header_types KPub) (header_default KPub)) as (H1 & H2).
  destruct (dict_fault_iff _ _ (k_params k) F D) as (P1 & P2). unfold key_fault. split.
  - destruct (dict_bytes (header_fmt KPub) (k_header k)) as [a|x] eqn:Ea; cbn [rbind].
    + intros E. right; left. split; [apply H2; eauto|]. apply P1.
      destruct (dict_bytes (format_of (first_public_class (k_pcls k))) (k_params k)); cbn [rbind] in E; congruence.
    + intros E; injection E as <-. left. apply H1. reflexivity.
  - intros [E|[(W & E)|(_ & _ & E)]].
    + apply H1 in E. rewrite E. reflexivity.
    + apply H2 in W as (a & ->). cbn [rbind]. apply P1 in E. rewrite E. reflexivity.
    + exfalso. exact (first_fault_nil _ _ E).
Qed.
(** pack_private_bytes of a private key: the same with the private parameters and the comment. *)
Theorem C102_private t pub priv k e :
  In (t, (pub, Some priv)) key_specs -> params_class KPriv (VStr t) = Ok (k_pcls k) ->
  pack_private_bytes k = Err e <-> key_fault k priv [comment_field] e.
Proof.
  intros Hs Hc. rewrite pack_private_eq.
  destruct (spec_private _ _ _ Hs) as (c & Hp & F & _). cbn [params_class] in Hc. assert (c = k_pcls k) as -> by congruence.
  pose proof (spec_of_class KPriv (VStr t) (k_pcls k) Hc) as (ts & _ & D).
  destruct (dict_fault_iff _ _ (k_header k) (ProofKey.header_types KPriv) (header_default KPriv)) as (H1 & H2).
  destruct (dict_fault_iff _ _ (k_params k) F D) as (P1 & P2).
  destruct (dict_fault_iff _ _ (k_footer k) (footer_types KPriv) eq_refl) as (C1 & C2). cbn [footer_fields] in C1, C2.
  unfold key_fault. split.
  - destruct (dict_bytes (header_fmt KPriv) (k_header k)) as [a|x] eqn:Ea; cbn [rbind].
    2: { intros E; injection E as <-. left. apply H1. reflexivity. }
    destruct (dict_bytes (format_of (k_pcls k)) (k_params k)) as [b|x] eqn:Eb; cbn [rbind].
    2: { intros E; injection E as <-. right; left. split; [apply H2; eauto|]. apply P1. reflexivity. }
    intros E. right; right. split; [apply H2; eauto|]. split; [apply P2; eauto|]. apply C1.
    destruct (dict_bytes (footer_fmt KPriv) (k_footer k)); cbn [rbind] in E; congruence.
  - intros [E|[(W & E)|(W & W' & E)]].
    + apply H1 in E. rewrite E. reflexivity.
    + apply H2 in W as (a & ->). cbn [rbind]. apply P1 in E. rewrite E. reflexivity.
    + apply H2 in W as (a & ->). apply P2 in W' as (b & ->). cbn [rbind]. apply C1 in E. rewrite E. reflexivity.
Qed.
(** So five exceptions are possible, and a KeyError names a field of the key. *)
Lemma first_fault_classes vals ts e : first_fault vals ts e ->
  (exists x t, In (x, t) ts /\ dget x vals = None /\ e = KeyError (VStr x)) \/
  e = ValueError \/ e = StructError \/ e = UnicodeEncodeError \/ e = OverflowError.
Proof.
  intros (pre & x & t & post & -> & _ & [(G & ->)|(v & _ & C)]).
  - left. exists x, t. split; [apply in_or_app; right; left; reflexivity|]. auto.
  - right. inversion C; subst; tauto.
Qed.
(** So five exceptions are possible, and a KeyError names a field that is missing. *)
Theorem C102_key_classes kd t pub priv k e :
  In (t, (pub, priv)) key_specs -> params_class kd (VStr t) = Ok (k_pcls k) ->
  pack_public_bytes k = Err e \/ (kd = KPriv /\ pack_private_bytes k = Err e) ->
  (exists x, e = KeyError (VStr x) /\
     (dget x (k_header k) = None \/ dget x (k_params k) = None \/ dget x (k_footer k) = None)) \/
  e = ValueError \/ e = StructError \/ e = UnicodeEncodeError \/ e = OverflowError.
Proof.
  intros Hs Hc H.
  assert (exists ps fs, key_fault k ps fs e) as (ps & fs & K).
  { destruct H as [H|(-> & H)].
    - exists pub, []. apply (C102_public kd t pub priv k e Hs Hc). exact H.
    - destruct priv as [priv|]; [|cbn [params_class] in Hc; rewrite (spec_cert_no_private _ _ Hs) in Hc; discriminate].
      exists priv, [comment_field]. apply (C102_private t pub priv k e Hs Hc). exact H. }
  destruct K as [K|[(_ & K)|(_ & _ & K)]]; apply first_fault_classes in K as [(x & ty & _ & G & ->)|K]; auto; left; exists x; auto.
Qed.

(** ** A list *)
Lemma kdf_default k : default_sizes (kdf_format k) = true.
Proof. destruct k; reflexivity. Qed.
Lemma rbind_err {A B} (x : res A) (f : A -> res B) e : rbind x f = Err e -> x = Err e \/ exists a, x = Ok a /\ f a = Err e.
Proof. destruct x as [a|y]; cbn [rbind]; eauto. intros H. left. congruence. Qed.
Lemma bytes4_err b e : instr_bytes fB (VBytes b) = Err e -> e = OverflowError /\ 2 ^ 32 <= Z.of_nat (length b).
Proof.
  intros H. apply (instr_iff fB (TBytes 4)) in H; [|constructor|exact I]. inversion H; subst; try (exfalso; match goal with A : ~ _ |- _ => apply A; exact I end); try discriminate.
  split; [reflexivity|]. change (2 ^ 32) with (256 ^ Z.of_nat 4). assumption.
Qed.
Lemma asked_index l idx r : In r (map (py_index (l_pairs l)) (indices l idx)) ->
  match r with
  | Ok q => asked l idx q
  | Err x => x = IndexError /\ exists is i, idx = Some is /\ In i is /\
               (i >= Z.of_nat (length (l_pairs l)) \/ i < - Z.of_nat (length (l_pairs l)))
  end.
Proof.
  intros H. destruct idx as [is|]; cbn [indices asked] in *.
  - apply in_map_iff in H as (i & Ei & Hi). destruct r as [q|x].
    + exists i. split; [exact Hi|]. apply py_index_iff. exact Ei.
    + pose proof (py_index_err _ _ _ Ei) as ->. split; [reflexivity|]. exists is, i. split; [reflexivity|]. split; [exact Hi|].
      destruct (Z_lt_ge_dec i (Z.of_nat (length (l_pairs l)))) as [A|A]; [|left; exact A].
      destruct (Z_lt_ge_dec i (- Z.of_nat (length (l_pairs l)))) as [B|B]; [right; exact B|exfalso].
      destruct (nth_error (l_pairs l) (Z.to_nat (if i <? 0 then Z.of_nat (length (l_pairs l)) + i else i))) as [q|] eqn:En.
      * assert (py_index (l_pairs l) i = Ok q) as C; [|congruence]. apply py_index_iff. unfold at_index.
        destruct (Z.ltb_spec i 0); [right|left]; repeat split; try lia; exact En.
      * apply nth_error_None in En. destruct (Z.ltb_spec i 0); lia.
  - rewrite py_index_all in H. apply in_map_iff in H as (q & <- & Hq). exact Hq.
Qed.
Lemma index_count l idx : length (map (py_index (l_pairs l)) (indices l idx)) = count l idx.
Proof. rewrite map_length. destruct idx; cbn [indices count]; [reflexivity|]. rewrite map_length, seq_length. reflexivity. Qed.
Lemma pubs_err ov rs x : pubs_bytes ov rs = Err x ->
  exists r, In r rs /\ (r = Err x \/ exists q, r = Ok q /\
    (pack_public_bytes (if ov then pr_private q else pr_public q) = Err x \/
     exists b, pack_public_bytes (if ov then pr_private q else pr_public q) = Ok b /\ x = OverflowError /\ 2 ^ 32 <= Z.of_nat (length b))).
Proof.
  induction rs as [|r rs IH]; cbn [pubs_bytes]; [discriminate|]. intros H.
  apply rbind_err in H as [->|(q & -> & H)]; [exists (Err x); split; [left; reflexivity|left; reflexivity]|].
  apply rbind_err in H as [H|(b & Hb & H)]; [exists (Ok q); split; [left; reflexivity|right; exists q; auto]|].
  apply rbind_err in H as [H|(y & Hy & H)].
  { exists (Ok q). split; [left; reflexivity|]. right. exists q. split; [reflexivity|]. right. exists b. split; [exact Hb|]. apply bytes4_err. exact H. }
  apply rbind_err in H as [H|(z & _ & H)]; [|discriminate]. destruct (IH H) as (r & I' & R). exists r. split; [right; exact I'|exact R].
Qed.
Lemma privs_err rs x : privs_bytes rs = Err x ->
  exists r, In r rs /\ (r = Err x \/ exists q, r = Ok q /\ pack_private_bytes (pr_private q) = Err x).
Proof.
  induction rs as [|r rs IH]; cbn [privs_bytes]; [discriminate|]. intros H.
  apply rbind_err in H as [->|(q & -> & H)]; [exists (Err x); split; [left; reflexivity|left; reflexivity]|].
  apply rbind_err in H as [H|(b & Hb & H)]; [exists (Ok q); split; [left; reflexivity|right; exists q; auto]|].
  apply rbind_err in H as [H|(z & _ & H)]; [|discriminate]. destruct (IH H) as (r & I' & R). exists r. split; [right; exact I'|exact R].
Qed.
Lemma not_none_cipher c cn : get_cipher (VStr cn) = Ok c -> c <> NoneCipher -> cn <> str "none".
Proof. intros H N ->. vm_compute in H. congruence. Qed.
Lemma options_written d ob : dict_bytes (kdf_format KdfBcrypt) d = Ok ob ->
  exists salt rounds, dget (str "salt") d = Some (VBytes salt) /\ dget (str "rounds") d = Some (VInt rounds) /\
    0 <= rounds < 2 ^ 32 /\ length ob = (length salt + 8)%nat.
Proof.
  intros H. cbn [kdf_format dict_bytes fld] in H. apply rbind_ok in H as (v & Gv & H). apply rbind_ok in H as (b1 & E1 & H).
  apply rbind_ok in H as (r & Hr & H). apply rbind_ok in Hr as (w & Gw & Hr). apply rbind_ok in Hr as (b2 & E2 & Hr).
  cbn [dict_bytes rbind] in Hr. injection Hr as <-. injection H as <-.
  assert (has_type (FStruct (str ">I")) (TInt true false 4)) as Ht by (apply (ht_int ">" true "I" false 4); simpl; tauto).
  apply (instr_bytes_canonical fB (TBytes 4) v b1) in E1; [|constructor|destruct v; exact I].
  cbn [instr_bytes] in E2. assert (conforms (TInt true false 4) w) as Cw by (apply (struct_pack_conforms _ _ _ Ht); eauto).
  assert (canonical (TInt true false 4) w b2) as (K2 & _) by (apply (instr_bytes_canonical (FStruct (str ">I")) _ w b2 Ht); [destruct w; exact I|exact E2]).
  destruct E1 as (K1 & _). inversion K1; subst. inversion K2; subst.
  match goal with P : prefixed 4 ?s b1 |- _ => destruct P as (pl & Lp & _ & ->); exists s end. eexists.
  unfold ditem in Gv, Gw. destruct (dget (str "salt") d) as [v1|]; [|discriminate]. destruct (dget (str "rounds") d) as [v2|]; [|discriminate].
  injection Gv as ->. injection Gw as ->. split; [reflexivity|]. split; [reflexivity|]. split; [exact Cw|].
  rewrite !app_length. cbn [length]. lia.
Qed.

Lemma encrypt_err p cn c k d pw plain x : sound_prims p -> get_cipher (VStr cn) = Ok c ->
  (length plain mod block_size c = 0)%nat ->
  (k = KdfBcrypt -> exists salt rounds, dget (str "salt") d = Some (VBytes salt) /\ dget (str "rounds") d = Some (VInt rounds) /\ 0 <= rounds < 2 ^ 32) ->
  cipher_encrypt p c k d pw plain = Err x ->
  c <> NoneCipher /\
  ((k = KdfNone /\ x = ValueError) \/
   (k = KdfBcrypt /\ x = UnicodeEncodeError /\ ~ exists u, utf8 pw u) \/
   (k = KdfBcrypt /\ x = ValueError /\
    (pw = [] \/ dget (str "salt") d = Some (VBytes []) \/ dget (str "rounds") d = Some (VInt 0)))).
Proof.
  intros S Hc Hb Ho H.
  assert (c <> NoneCipher) as Nc by (intros ->; discriminate). split; [exact Nc|].
  destruct k.
  - left. split; [reflexivity|]. destruct c; try congruence; vm_compute in H; congruence.
  - right. destruct (Ho eq_refl) as (salt & rounds & Gs & Gr & Rr).
    destruct (utf8_encode pw) as [u|y] eqn:Eu.
    2: { left. split; [reflexivity|]. assert (x = y) as ->.
         { destruct c; try congruence; cbn [cipher_encrypt derive_key] in H; rewrite Eu in H; cbn [rbind] in H; congruence. }
         split; [eapply utf8_encode_err; exact Eu|]. intros (u & U). apply utf8_encode_iff in U. congruence. }
    right. split; [reflexivity|]. apply utf8_encode_iff in Eu as U.
    destruct u as [|u0 u].
    { assert (pw = []) as -> by (inversion U; subst; [reflexivity|]; match goal with A : utf8_char _ (map _ ?w) |- _ => destruct w; [inversion A|discriminate] end).
      split; [|auto]. destruct c; try congruence; cbn [cipher_encrypt derive_key] in H; rewrite Eu in H; cbn [rbind] in H;
        unfold ditem in H; rewrite Gs, Gr in H; cbn [rbind bcrypt_kdf length Nat.eqb orb] in H; congruence. }
    destruct salt as [|s0 salt].
    { split; [|auto]. destruct c; try congruence; cbn [cipher_encrypt derive_key] in H; rewrite Eu in H; cbn [rbind] in H;
        unfold ditem in H; rewrite Gs, Gr in H; cbn [rbind bcrypt_kdf length Nat.eqb orb] in H; congruence. }
    destruct (Z.eq_dec rounds 0) as [->|N0].
    { split; [|auto]. destruct c; try congruence; cbn [cipher_encrypt derive_key] in H; rewrite Eu in H; cbn [rbind] in H;
        unfold ditem in H; rewrite Gs, Gr in H; cbn [rbind bcrypt_kdf length Nat.eqb orb] in H; vm_compute in H; congruence. }
    exfalso. apply get_cipher_table in Hc as Ht. destruct Ht as (cn' & E & Ht). injection E as <-.
    destruct (C37_encrypt_succeeds p cn _ _ _ _ c d pw plain
      (p_bcrypt p (u0 :: u) (s0 :: salt) (Z.of_nat (key_length c + iv_length c)) rounds) S Ht Hc) as (y & E & _); [| |congruence].
    + intros _. exists (u0 :: u), (s0 :: salt), rounds. split; [exact U|]. split; [discriminate|]. split; [exact Gs|].
      split; [discriminate|]. split; [exact Gr|]. split; [lia|reflexivity].
    + exact Hb.
Qed.

Lemma new_kdf_ok k d : snd (new_kdf k d) = Ok tt.
Proof. unfold new_kdf. exact (proj1 (check_dict_spec d _ _ (proj1 (kdf_dict_types k)))). Qed.
Lemma header_fault cv kv ob n x : dict_bytes list_header_fmt (file_header cv kv ob n) = Err x ->
  names_kdf kv ->
  cannot (TText 4) cv x \/ (x = OverflowError /\ 2 ^ 32 <= Z.of_nat (length ob)) \/ (x = StructError /\ 2 ^ 31 <= Z.of_nat n).
Proof.
  intros H Nk. unfold list_header_fmt, file_header in H. cbn [dict_bytes fld] in H.
  apply rbind_err in H as [H|(v & Hv & H)]; [discriminate|]. apply rbind_err in H as [H|(b1 & _ & H)].
  { vm_compute in Hv. injection Hv as <-. vm_compute in H. discriminate. }
  apply rbind_err in H as [H|(r & _ & H)]; [|discriminate]. clear v Hv b1.
  apply rbind_err in H as [H|(v & Hv & H)]; [discriminate|]. vm_compute in Hv. injection Hv as <-.
  apply rbind_err in H as [H|(b1 & _ & H)].
  { left. apply (instr_iff fS (TText 4)); [constructor|exact I|exact H]. }
  apply rbind_err in H as [H|(r' & _ & H)]; [|discriminate]. clear b1.
  apply rbind_err in H as [H|(v & Hv & H)]; [discriminate|]. vm_compute in Hv. injection Hv as <-.
  apply rbind_err in H as [H|(b1 & _ & H)].
  { exfalso. destruct Nk as [-> | ->]; vm_compute in H; discriminate. }
  apply rbind_err in H as [H|(r'' & _ & H)]; [|discriminate]. clear b1.
  apply rbind_err in H as [H|(v & Hv & H)]; [discriminate|]. vm_compute in Hv. injection Hv as <-.
  apply rbind_err in H as [H|(b1 & _ & H)].
  { right; left. apply bytes4_err. exact H. }
  apply rbind_err in H as [H|(r3 & _ & H)]; [|discriminate]. clear b1.
  apply rbind_err in H as [H|(v & Hv & H)]; [discriminate|].
  assert (v = VInt (Z.of_nat n)) as -> by (unfold ditem in Hv; cbn [dget] in Hv; injection Hv as <-; reflexivity).
  apply rbind_err in H as [H|(b1 & _ & H)].
  { right; right. assert (has_type (FStruct (str ">i")) (TInt true true 4)) as Ht by (apply (ht_int ">" true "i" true 4); simpl; tauto).
    apply (instr_iff _ _ _ _ Ht I) in H. inversion H; subst; try discriminate. split; [reflexivity|].
    match goal with A : ~ conforms _ _ |- _ => cbn [conforms] in A end.
    change (8 * Z.of_nat 4 - 1) with 31 in *. lia. }
  apply rbind_err in H as [H|(r4 & _ & H)]; discriminate.
Qed.
Lemma checks_written e x : 0 <= e_randbits e < 2 ^ 32 -> dict_bytes decipher_header_fmt (check_ints e) <> Err x.
Proof.
  intros Hr H. assert (format_types decipher_header_fmt [uint32 "check_int_1"; uint32 "check_int_2"]) as F by (apply ftypes_of_sound; reflexivity).
  destruct (dict_fault_iff _ _ (check_ints e) F eq_refl) as (_ & W). destruct (proj2 W) as (b & E); [|congruence].
  intros y t [E|[E|[]]]; injection E as <- <-; exists (VInt (e_randbits e)); (split; [reflexivity|]); intros z C; inversion C; subst; try discriminate;
    match goal with A : ~ conforms _ _ |- _ => apply A end; exact Hr.
Qed.
Lemma checks_length e a : 0 <= e_randbits e < 2 ^ 32 -> dict_bytes decipher_header_fmt (check_ints e) = Ok a -> length a = 8%nat.
Proof.
  intros Hr H. unfold decipher_header_fmt, check_ints in H. cbn [dict_bytes fld] in H.
  assert (has_type (FStruct (str ">I")) (TInt true false 4)) as Ht by (apply (ht_int ">" true "I" false 4); simpl; tauto).
  assert (forall b, instr_bytes (FStruct (str ">I")) (VInt (e_randbits e)) = Ok b -> length b = 4%nat) as L.
  { intros b E. apply (instr_bytes_canonical _ _ _ _ Ht I) in E as (K & _). inversion K; subst. assumption. }
  apply rbind_ok in H as (v & Hv & H). apply rbind_ok in H as (b1 & E1 & H). apply rbind_ok in H as (r & H' & H).
  apply rbind_ok in H' as (w & Hw & H'). apply rbind_ok in H' as (b2 & E2 & H'). cbn [dict_bytes rbind] in H'.
  injection H' as <-. injection H as <-. vm_compute in Hv, Hw. injection Hv as <-. injection Hw as <-.
  rewrite !app_length, (L _ E1), (L _ E2). reflexivity.
Qed.

(** Whatever PrivateKeyList.pack_bytes raises (and pack_string, which adds nothing: C102_list_string) has one of the
    causes listed in SpecRaise. *)
Theorem C102_list p e l given idx ov retain x :
  sound_prims p -> 0 <= e_randbits e < 2 ^ 32 ->
  snd (list_pack_bytes p e l given idx ov retain) = Err x -> list_fault e l given idx ov retain x.
Proof.
  intros S Hr H. destruct (list_cipher_kdf l) as [cv kv] eqn:En. pose proof En as Hn. apply list_names_iff in Hn.
  destruct (get_kdf kv) as [k|y] eqn:Ek.
  2: { assert (~ names_kdf kv) as Nk by (intros K; apply get_kdf_supported in K as (k & K); congruence).
       rewrite (C84_pack_unsupported_kdf p e l cv kv given idx ov retain Hn Nk) in H. cbn [snd] in H. injection H as <-.
       apply lf_kdf with (cv := cv); [exact Hn| |]; intros ->; apply Nk; unfold names_kdf; auto. }
  assert (names_kdf kv) as Nk by (apply get_kdf_supported; eauto).
  assert (exists kn, kv = VStr kn) as (kn & ->) by (destruct Nk as [-> | ->]; eauto).
  rewrite list_pack_eq, En in H. cbn [fst snd] in H. unfold pack_selected in H.
  set (rs := map (py_index (l_pairs l)) (indices l idx)) in *.
  apply wbind_err in H as [H|(d & Hd & H)].
  { exfalso. unfold options_for in H. rewrite Ek in H. destruct (if retain then l_kdf_options l else None); [discriminate|].
    apply wbind_err in H as [H|(k' & Hk' & H)]; [discriminate|]. cbn in Hk'. injection Hk' as <-.
    apply wseq_err in H as [H|(_ & H)]; [rewrite new_kdf_ok in H|]; discriminate. }
  apply (options_for_iff e l retain kn k d Ek) in Hd.
  assert (In (kn, match k with KdfNone => [] | KdfBcrypt => [octets "salt"; uint32 "rounds"] end) kdf_specs /\
    (k = KdfNone -> kn = str "none") /\ (k = KdfBcrypt -> kn = str "bcrypt")) as (Isp & K1 & K2).
  { apply get_kdf_iff in Ek as [(E & ->)|(E & ->)]; injection E as ->; cbn [kdf_specs In]; (split; [tauto|split; [tauto|tauto || discriminate]] || (split; [tauto|split; intros; try discriminate; reflexivity])). }
  apply wbind_err in H as [H|(k' & Hk' & H)]; [rewrite snd_wlift in H; congruence|]. rewrite snd_wlift in Hk'. assert (k' = k) as -> by congruence. clear Hk'.
  apply wbind_err in H as [H|(ob & Hob & H)]; rewrite snd_wlift in *.
  { destruct (dict_fault_iff _ _ d (proj1 (kdf_dict_types k)) (kdf_default k)) as (F & _). apply F in H.
    eapply lf_options; [exact Hn|exact Isp|exact Hd|exact H]. }
  apply wbind_err in H as [H|(prefix & _ & H)]; [rewrite snd_wlift in H|].
  { apply rbind_err in H as [H|(h & _ & H)].
    - apply header_fault in H as [H|[(-> & L)|(-> & L)]]; [..|exact Nk].
      + eapply lf_name; [exact Hn|exact H].
      + destruct k; [cbn in Hob; injection Hob as <-; cbn in L; lia|]. rewrite (K2 eq_refl) in *.
        destruct (options_written _ _ Hob) as (salt & rounds & Gs & _ & _ & Lo).
        apply lf_salt with (cv := cv) (salt := salt) (d := d); auto. lia.
      + apply lf_many. rewrite <- index_count. exact L.
    - apply rbind_err in H as [H|(ps & _ & H)]; [|discriminate].
      apply pubs_err in H as (r & Ir & R). apply asked_index in Ir.
      destruct R as [->|(q & -> & [R|(b & R & -> & L)])].
      + destruct Ir as (-> & is & i & -> & Ii & Ri). eapply lf_index; eauto.
      + eapply lf_public; [exact Ir|exact R].
      + eapply lf_public_long; [exact Ir|exact R|exact L]. }
  apply wbind_err in H as [H|(plain & Hpl & H)]; [rewrite snd_wlift in H|rewrite snd_wlift in Hpl].
  { apply rbind_err in H as [H|(a & _ & H)]; [exfalso; exact (checks_written _ _ Hr H)|].
    apply rbind_err in H as [H|(b & _ & H)].
    - apply privs_err in H as (r & Ir & R). apply asked_index in Ir. destruct R as [->|(q & -> & R)].
      + destruct Ir as (-> & is & i & -> & Ii & Ri). eapply lf_index; eauto.
      + eapply lf_private; [exact Ir|exact R].
    - apply rbind_err in H as [H|(c & _ & H)]; [|discriminate].
      assert (~ names_cipher cv) as Nc by (intros K; apply get_cipher_supported in K as (c & K); congruence).
      apply C84_unknown_cipher_class in Nc as E. assert (x = KeyError cv) as -> by congruence.
      eapply lf_cipher; [exact Hn|]. intros cn I' ->. apply Nc. exists cn. auto. }
  apply rbind_ok in Hpl as (a & Ha & Hpl). apply rbind_ok in Hpl as (b & Hb & Hpl). apply rbind_ok in Hpl as (c & Hc & Hpl).
  injection Hpl as <-. destruct (get_cipher_str _ _ Hc) as (cn & ->).
  assert (length a = 8%nat) as La by (eapply checks_length; eassumption).
  destruct (padding_for_ok c (length (a ++ b))) as (_ & P2 & P3). set (pad := padding_for c (length (a ++ b))) in *.
  assert (length (a ++ b ++ pad) = (length (a ++ b) + length pad)%nat) as Lp by (rewrite !app_length; lia).
  apply wbind_err in H as [H|(pw & Hpw & H)].
  { destruct k.
    - rewrite (K1 eq_refl) in H. cbn in H. discriminate.
    - rewrite (K2 eq_refl) in *. change (val_eqb (VStr (str "bcrypt")) (VStr (str "none"))) with false in H. cbv iota in H.
      destruct given as [s|]; cbn [get_passphrase snd] in H; [discriminate|]. eapply lf_prompt; [exact Hn|reflexivity|exact H]. }
  apply wbind_err in H as [H|(c' & Hc' & H)]; [rewrite snd_wlift in H; congruence|]. rewrite snd_wlift in Hc'. assert (c' = c) as -> by congruence. clear Hc'.
  apply wseq_err in H as [H|(_ & H)]; [rewrite new_kdf_ok in H; discriminate|].
  apply wbind_err in H as [H|(y & Hy & H)]; [rewrite snd_wlift in H|rewrite snd_wlift in Hy].
  { assert (k = KdfBcrypt -> passphrase_used e (str "bcrypt") given pw) as Pw.
    { intros ->. rewrite (K2 eq_refl) in Hpw. change (val_eqb (VStr (str "bcrypt")) (VStr (str "none"))) with false in Hpw. cbv iota in Hpw.
      right. split; [discriminate|]. destruct given as [s|]; cbn [get_passphrase snd wret] in Hpw; [injection Hpw as <-; reflexivity|exact Hpw]. }
    apply (encrypt_err p cn c k d pw (a ++ b ++ pad) x S Hc) in H as (Nc & [(-> & ->)|[(-> & -> & U)|(-> & -> & U)]]).
    - eapply lf_no_kdf; [rewrite (K1 eq_refl) in Hn; exact Hn|]. intros E. injection E as ->. vm_compute in Hc. congruence.
    - rewrite (K2 eq_refl) in *. eapply lf_passphrase; [exact Hn| |exact (Pw eq_refl)|exact U]. intros E. injection E as ->. vm_compute in Hc. congruence.
    - rewrite (K2 eq_refl) in *. eapply lf_derive; [exact Hn| |exact (Pw eq_refl)|exact Hd|exact U]. intros E. injection E as ->. vm_compute in Hc. congruence.
    - rewrite Lp. exact P3.
    - intros ->. destruct (options_written _ _ Hob) as (salt & rounds & A & B & C & _). eauto. }
  cbv zeta in H. rewrite snd_wlift in H. apply rbind_err in H as [H|(z & _ & H)]; [|discriminate].
  apply bytes4_err in H as (-> & L).
  apply (enciphers_iff p cn kn c k d pw _ y S Hc Ek) in Hy. apply (encrypt_tag _ _ _ _ _ _ _ c S Hc) in Hy.
  assert (exists sel, rs = map Ok sel) as (sel & Es).
  { clear - Hb. revert b Hb. induction rs as [|r rs IH]; intros b Hb; [exists []; reflexivity|]. cbn [privs_bytes] in Hb.
    apply rbind_ok in Hb as (q & -> & Hb). apply rbind_ok in Hb as (b1 & _ & Hb). apply rbind_ok in Hb as (b2 & Hb & _).
    destruct (IH _ Hb) as (sel & ->). exists (q :: sel). reflexivity. }
  rewrite Es in Hb. apply privs_bytes_iff in Hb as (privs & Fp & ->).
  assert (length (a ++ concat privs) = 8 + length (concat privs))%nat as Lc by (rewrite app_length, La; reflexivity).
  rewrite Lc in P3. apply get_cipher_table in Hc as Ht. destruct Ht as (cn' & E & Ht). injection E as <-.
  apply lf_private_long with (cn := cn) (kv := VStr kn) (bs := block_size c) (sel := sel) (privs := privs) (pad := length pad);
    [exact Hn|eexists _, _, _; exact Ht|apply chosen_iff; exact Es|exact Fp|exact P2|exact P3|].
  assert (length (if is_integrity c then slice_butlast (tag_length c) y else y) <= length (a ++ concat privs ++ pad))%nat as Ly.
  { destruct (is_integrity c); [|lia]. unfold slice_butlast, tag_length. rewrite ?firstn_length. lia. }
  rewrite Lp, Lc in Ly. apply Nat2Z.inj_le in Ly. eapply Z.le_trans; [exact L|exact Ly].
Qed.

(** Conversely each of the causes makes packing fail. *)
Lemma asked_in l idx q : asked l idx q -> In (Ok q) (map (py_index (l_pairs l)) (indices l idx)).
Proof.
  destruct idx as [is|]; cbn [asked indices].
  - intros (i & Hi & H). apply py_index_iff in H. rewrite <- H. apply in_map. exact Hi.
  - intros H. rewrite py_index_all. apply in_map. exact H.
Qed.
Lemma pubs_all ov rs y : pubs_bytes ov rs = Ok y -> forall r, In r rs -> exists q b, r = Ok q /\
  pack_public_bytes (if ov then pr_private q else pr_public q) = Ok b /\ Z.of_nat (length b) < 2 ^ 32.
Proof.
  revert y; induction rs as [|r rs IH]; intros y H r' []; cbn [pubs_bytes] in H;
    apply rbind_ok in H as (q & -> & H); apply rbind_ok in H as (b & Hb & H); apply rbind_ok in H as (z & Hz & H);
    apply rbind_ok in H as (w & Hw & _).
  - subst r'. exists q, b. split; [reflexivity|]. split; [exact Hb|].
    destruct (Z_lt_ge_dec (Z.of_nat (length b)) (2 ^ 32)) as [A|A]; [exact A|exfalso].
    assert (instr_bytes fB (VBytes b) = Err OverflowError) as C; [|congruence].
    apply (instr_iff fB (TBytes 4)); [constructor|exact I|]. apply cannot_long_bytes. change (256 ^ Z.of_nat 4) with (2 ^ 32). lia.
  - eapply IH; eassumption.
Qed.
Lemma privs_all rs y : privs_bytes rs = Ok y -> forall r, In r rs -> exists q b, r = Ok q /\ pack_private_bytes (pr_private q) = Ok b.
Proof.
  revert y; induction rs as [|r rs IH]; intros y H r' []; cbn [privs_bytes] in H;
    apply rbind_ok in H as (q & -> & H); apply rbind_ok in H as (b & Hb & H); apply rbind_ok in H as (w & Hw & _).
  - subst r'. eauto.
  - eapply IH; eassumption.
Qed.
Lemma header_written cv kv ob n h : dict_bytes list_header_fmt (file_header cv kv ob n) = Ok h ->
  (forall x, ~ cannot (TText 4) cv x) /\ Z.of_nat (length ob) < 2 ^ 32 /\ Z.of_nat n < 2 ^ 31.
Proof.
  intros H.
  assert (format_types list_header_fmt [(str "auth_magic", TBlob 15); text "cipher"; text "kdf"; octets "kdf_options"; (str "num_keys", TInt true true 4)]) as F
    by (apply ftypes_of_sound; vm_compute; reflexivity).
  destruct (dict_fault_iff _ _ (file_header cv kv ob n) F eq_refl) as (_ & W). pose proof (proj1 W (ex_intro _ h H)) as A. clear W F H.
  split; [|split].
  - destruct (A (str "cipher") (TText 4)) as (v & G & N); [right; left; reflexivity|]. injection G as <-. exact N.
  - destruct (A (str "kdf_options") (TBytes 4)) as (v & G & N); [do 3 right; left; reflexivity|]. injection G as <-.
    destruct (Z_lt_ge_dec (Z.of_nat (length ob)) (2 ^ 32)) as [B|B]; [exact B|exfalso]. apply (N OverflowError). apply cannot_long_bytes.
    change (256 ^ Z.of_nat 4) with (2 ^ 32). lia.
  - destruct (A (str "num_keys") (TInt true true 4)) as (v & G & N); [do 4 right; left; reflexivity|]. injection G as <-.
    destruct (Z_lt_ge_dec (Z.of_nat n) (2 ^ 31)) as [B|B]; [exact B|exfalso]. apply (N StructError). apply cannot_struct; [reflexivity|].
    cbn [conforms]. change (8 * Z.of_nat 4 - 1) with 31. lia.
Qed.
Theorem C102_list_fails p e l given idx ov retain x :
  sound_prims p -> list_fault e l given idx ov retain x ->
  exists y, snd (list_pack_bytes p e l given idx ov retain) = Err y.
Proof.
  intros S C. destruct (snd (list_pack_bytes p e l given idx ov retain)) as [file|y] eqn:H; [exfalso|eauto].
  destruct (list_cipher_kdf l) as [cv kv] eqn:En. pose proof En as Hn. apply list_names_iff in Hn.
  assert (forall c' k', list_names l c' k' -> c' = cv /\ k' = kv) as Nf by (intros; eapply list_names_fun; eassumption).
  rewrite list_pack_eq, En in H. cbn [fst snd] in H. unfold pack_selected in H.
  set (rs := map (py_index (l_pairs l)) (indices l idx)) in *.
  apply snd_wbind in H as (d & Hd & H). apply snd_wbind in H as (k & Ek & H). rewrite snd_wlift in Ek.
  assert (names_kdf kv) as Nk by (apply get_kdf_supported; eauto).
  assert (exists kn, kv = VStr kn) as (kn & ->) by (destruct Nk as [-> | ->]; eauto).
  apply (options_for_iff e l retain kn k d Ek) in Hd.
  apply snd_wbind in H as (ob & Hob & H). rewrite snd_wlift in Hob.
  apply snd_wbind in H as (prefix & Hpre & H). rewrite snd_wlift in Hpre.
  apply rbind_ok in Hpre as (h & Hh & Hpre). apply rbind_ok in Hpre as (ps & Hps & _).
  apply header_written in Hh as (Wc & Wo & Wn).
  apply snd_wbind in H as (plain & Hpl & H). rewrite snd_wlift in Hpl.
  apply rbind_ok in Hpl as (a & Ha & Hpl). apply rbind_ok in Hpl as (b & Hb & Hpl). apply rbind_ok in Hpl as (c & Hc & Hpl).
  injection Hpl as <-. destruct (get_cipher_str _ _ Hc) as (cn & ->).
  apply snd_wbind in H as (pw & Hpw & H). apply snd_wbind in H as (c' & Hc' & H). rewrite snd_wlift in Hc'. assert (c' = c) as -> by congruence. clear Hc'.
  unfold wseq in H. apply snd_wbind in H as (u & _ & H). apply snd_wbind in H as (y & Hy & H). rewrite snd_wlift in Hy.
  cbv zeta in H. rewrite snd_wlift in H. apply rbind_ok in H as (z & Hz & _).
  pose proof Hy as Hy'. apply (enciphers_iff p cn kn c k d pw _ y S Hc Ek) in Hy'. pose proof Hy' as Hlen. apply (encrypt_tag _ _ _ _ _ _ _ c S Hc) in Hlen.
  destruct Hy' as (m & kl & il & bs0 & Hct & Hy').
  assert (k = KdfBcrypt -> kn = str "bcrypt") as K2
    by (intros ->; apply get_kdf_iff in Ek as [(_ & E)|(E & _)]; [discriminate|injection E as ->; reflexivity]).
  assert (kn = str "bcrypt" -> k = KdfBcrypt) as K3 by (intros ->; vm_compute in Ek; congruence).
  assert (forall d', options_used e l retain kn d' -> d' = d) as Od.
  { intros d' O. apply (options_for_iff e l retain kn k d' Ek) in O. apply (options_for_iff e l retain kn k d Ek) in Hd. congruence. }
  assert (m = Plain -> cn = str "none") as Pn.
  { intros ->. unfold cipher_table in Hct. cbn [In] in Hct. repeat (destruct Hct as [Hct|Hct]; [inversion Hct; reflexivity|]). contradiction. }
  assert (forall pass, kn = str "bcrypt" -> passphrase_used e (str "bcrypt") given pass -> pass = pw) as Pp.
  { intros pass -> [(E & _)|(_ & E)]; [discriminate|]. change (val_eqb (VStr (str "bcrypt")) (VStr (str "none"))) with false in Hpw. cbv iota in Hpw.
    destruct given; cbn [get_passphrase snd wret] in Hpw; congruence. }
  assert (length a = 8%nat) as La8.
  { pose proof (dict_fault_iff decipher_header_fmt [uint32 "check_int_1"; uint32 "check_int_2"] (check_ints e)
      ltac:(apply ftypes_of_sound; reflexivity) eq_refl) as (_ & W). pose proof (proj1 W (ex_intro _ a Ha)) as W'.
    destruct (W' (str "check_int_1") (TInt true false 4)) as (v & G & N); [left; reflexivity|]. injection G as <-.
    eapply checks_length; [|exact Ha]. destruct (Z_lt_ge_dec (e_randbits e) 0), (Z_lt_ge_dec (e_randbits e) (2 ^ 32)); try lia; exfalso;
      apply (N StructError); apply cannot_struct; try reflexivity; cbn [conforms]; change (8 * Z.of_nat 4) with 32; lia. }
  destruct C.
  - apply Nf in H as (-> & ->). destruct Nk; contradiction.
  - apply Nf in H as (-> & ->). apply (H0 cn); [exact (in_map fst _ _ Hct)|reflexivity].
  - apply Nf in H as (-> & ->). exact (Wc _ H0).
  - apply Nf in H as (-> & E). injection E as ->. apply Od in H1 as ->.
    assert (ts = match k with KdfNone => [] | KdfBcrypt => [octets "salt"; uint32 "rounds"] end) as ->.
    { apply get_kdf_iff in Ek as [(E & ->)|(E & ->)]; injection E as ->; cbn [kdf_specs In] in H0; destruct H0 as [H0|[H0|[]]]; inversion H0; reflexivity. }
    destruct (dict_fault_iff _ _ d (proj1 (kdf_dict_types k)) (kdf_default k)) as (F & _). apply F in H2. congruence.
  - apply Nf in H as (-> & E). injection E as <-. apply Od in H0 as ->. rewrite (K3 eq_refl) in Hob.
    destruct (options_written _ _ Hob) as (salt' & rounds & Gs & _ & _ & Lo). assert (salt' = salt) as -> by congruence. lia.
  - unfold rs in Wn. rewrite index_count in Wn. lia.
  - subst idx. assert (In (py_index (l_pairs l) i) rs) as Ii by (apply in_map; exact H0).
    destruct (pubs_all _ _ _ Hps _ Ii) as (q & _ & E & _). apply py_index_iff in E as [(Hp & E)|(Hp & Hq & E)]; [|lia].
    assert (nth_error (l_pairs l) (Z.to_nat i) <> None) as E' by congruence. apply nth_error_Some in E'. lia.
  - apply asked_in in H. destruct (pubs_all _ _ _ Hps _ H) as (q' & b' & E & E' & _). injection E as <-. congruence.
  - apply asked_in in H. destruct (pubs_all _ _ _ Hps _ H) as (q' & b' & E & E' & L). injection E as <-.
    assert (b' = b0) as -> by congruence. lia.
  - apply asked_in in H. destruct (privs_all _ _ Hb _ H) as (q' & b' & E & E'). injection E as <-. congruence.
  - apply Nf in H as (E & _). injection E as ->. apply chosen_iff in H1. fold rs in H1. rewrite H1 in Hb.
    apply privs_bytes_iff in Hb as (privs' & Fp & ->).
    assert (privs' = privs) as ->.
    { clear - H2 Fp. revert privs' Fp. induction H2 as [|q b sel privs E F IH]; intros ps Fp; inversion Fp; subst; [reflexivity|].
      f_equal; [congruence|]. apply IH. assumption. }
    destruct H0 as (m' & kl' & il' & Hct'). destruct (cipher_table_spec _ _ _ _ _ Hct') as (c' & Hc' & _ & _ & _ & -> & _).
    assert (c' = c) as -> by congruence.
    assert (instr_bytes fB (VBytes (if is_integrity c then slice_butlast (tag_length c) y else y)) = Err OverflowError) as Bad; [|congruence].
    apply (instr_iff fB (TBytes 4)); [constructor|exact I|]. apply cannot_long_bytes. change (256 ^ Z.of_nat 4) with (2 ^ 32).
    assert (length (padding_for c (length (a ++ concat privs))) = pad) as Lpad.
    { destruct (padding_for_ok c (length (a ++ concat privs))) as (_ & A2 & A3).
      assert (length (a ++ concat privs) = 8 + length (concat privs))%nat as La by (rewrite app_length, La8; reflexivity).
      rewrite La in *. set (w := length (padding_for c (8 + length (concat privs)))) in *. clearbody w. clear - A2 A3 H3 H4.
      set (n := (8 + length (concat privs))%nat) in *. clearbody n. set (B := block_size c) in *. clearbody B.
      rewrite Nat.add_mod in A3, H4 by lia. rewrite (Nat.mod_small w), (Nat.mod_small pad) in * by lia.
      pose proof (Nat.mod_upper_bound n B ltac:(lia)). set (r := (n mod B)%nat) in *. clearbody r.
      apply Nat.mod_divides in A3 as (p & A3); [|lia]. apply Nat.mod_divides in H4 as (q & H4); [|lia].
      assert (p < 2)%nat by nia. assert (q < 2)%nat by nia. assert (p = 0 \/ p = 1)%nat as [-> | ->] by lia; assert (q = 0 \/ q = 1)%nat as [-> | ->] by lia; lia. }
    assert (8 + length (concat privs) + pad <= length (if is_integrity c then slice_butlast (tag_length c) y else y))%nat as Ly.
    { set (pd := padding_for c (length (a ++ concat privs))) in *. clearbody pd. rewrite !app_length, Lpad, La8 in Hlen.
      destruct (is_integrity c); [|lia]. unfold slice_butlast, tag_length. rewrite firstn_length. lia. }
    apply Nat2Z.inj_le in Ly. eapply Z.le_trans; [exact H5|exact Ly].
  - apply Nf in H as (-> & E). injection E as <-. subst given.
    change (val_eqb (VStr (str "bcrypt")) (VStr (str "none"))) with false in Hpw. cbv iota in Hpw. cbn [get_passphrase snd] in Hpw. congruence.
  - apply Nf in H as (-> & E). injection E as <-. destruct Hy' as [(Em & _)|(_ & _ & key & iv & _ & _ & D & _)].
    + apply H0. rewrite (Pn Em). reflexivity.
    + apply (Pp pass eq_refl) in H1 as ->. destruct D as (u1 & s1 & r1 & U & _). apply H2. eauto.
  - apply Nf in H as (-> & E). injection E as <-. destruct Hy' as [(Em & _)|(_ & E & _)]; [|discriminate]. apply H0. rewrite (Pn Em). reflexivity.
  - apply Nf in H as (-> & E). injection E as <-. destruct Hy' as [(Em & _)|(_ & _ & key & iv & _ & _ & D & _)].
    + apply H0. rewrite (Pn Em). reflexivity.
    + apply (Pp pass eq_refl) in H1 as ->. apply Od in H2 as ->. destruct D as (u1 & s1 & r1 & U & Nu & Gs & Ns & Gr & Rr & _).
      destruct H3 as [-> |[E|E]]; [inversion U; subst; congruence|congruence|]. rewrite E in Gr. injection Gr as <-. lia.
Qed.

(** Packing fails exactly if there is such a cause. *)
Theorem C102_list_iff p e l given idx ov retain :
  sound_prims p -> 0 <= e_randbits e < 2 ^ 32 ->
  (exists x, snd (list_pack_bytes p e l given idx ov retain) = Err x) <-> (exists x, list_fault e l given idx ov retain x).
Proof.
  intros S Hr. split; intros (x & H); [exists x; eapply C102_list; eassumption|eapply C102_list_fails; eassumption].
Qed.
(** pack_string of a list raises what pack_bytes raises. *)
Theorem C102_list_string p e l given idx ov retain x :
  snd (list_pack_string p e l given idx ov retain) = Err x <-> snd (list_pack_bytes p e l given idx ov retain) = Err x.
Proof.
  unfold list_pack_string. split.
  - intros H. apply wbind_err in H as [H|(b & _ & H)]; [exact H|discriminate].
  - intros H. destruct (list_pack_bytes p e l given idx ov retain) as [lg r]. cbn [snd] in H. subst r. reflexivity.
Qed.
(** With keys of supported types six exceptions are possible, and whatever asking for the passphrase raises. *)
Definition supported_key (kd : kind) (k : key) : Prop :=
  exists t, In t (map fst key_specs) /\ params_class kd (VStr t) = Ok (k_pcls k).
Theorem C102_list_classes p e l given idx ov retain x :
  sound_prims p -> 0 <= e_randbits e < 2 ^ 32 ->
  (forall q, In q (l_pairs l) -> supported_key KPub (pr_public q) /\ supported_key KPriv (pr_private q)) ->
  snd (list_pack_string p e l given idx ov retain) = Err x ->
  (exists v, x = KeyError v) \/ x = ValueError \/ x = StructError \/ x = UnicodeEncodeError \/ x = OverflowError \/
  x = IndexError \/ (given = None /\ e_getpass e = Err x).
Proof.
  intros S Hr Hk H. apply C102_list_string in H. apply C102_list in H; [|assumption..].
  assert (forall q, asked l idx q -> In q (l_pairs l)) as Ha.
  { intros q A. destruct idx as [is|]; [|exact A]. destruct A as (i & _ & [(_ & A)|(_ & _ & A)]); eapply nth_error_In; exact A. }
  assert (forall kd k y, supported_key kd k -> pack_public_bytes k = Err y \/ (kd = KPriv /\ pack_private_bytes k = Err y) ->
    (exists v, y = KeyError v) \/ y = ValueError \/ y = StructError \/ y = UnicodeEncodeError \/ y = OverflowError) as Kc.
  { intros kd k y (t & It & Hc) P. apply in_map_iff in It as ((t' & (pub & priv)) & E & It). cbn [fst] in E. subst t'.
    destruct (C102_key_classes kd t pub priv k y It Hc P) as [(z & -> & _)|R]; [left; eauto|tauto]. }
  assert (forall t v y, cannot t v y -> y = ValueError \/ y = StructError \/ y = UnicodeEncodeError \/ y = OverflowError) as Cc
    by (intros t v y C; inversion C; subst; tauto).
  destruct H; try tauto; eauto.
  - apply Cc in H0. tauto.
  - apply first_fault_classes in H2 as [(y & t & _ & _ & ->)|R]; [left; eauto|tauto].
  - destruct (Hk q (Ha q H)) as (A & B).
    assert ((exists v, x = KeyError v) \/ x = ValueError \/ x = StructError \/ x = UnicodeEncodeError \/ x = OverflowError) as R; [|tauto].
    destruct ov; [eapply Kc; [exact B|left; exact H0]|eapply Kc; [exact A|left; exact H0]].
  - destruct (Hk q (Ha q H)) as (A & B). destruct (Kc KPriv _ x B) as [R|R]; [right; split; [reflexivity|exact H0]|auto|tauto].
Qed.
(** ** Which cause comes first *)
Definition quiet_checks (cs : list (exn -> Prop)) : Prop := Forall (fun c => forall y, ~ c y) cs.
(** [cs] says which exception the run [r] ends with, if it does not succeed. *)
Definition describes {A} (r : res A) (cs : list (exn -> Prop)) : Prop :=
  (forall x, r = Err x <-> first_of cs x) /\ (forall a, r = Ok a -> quiet_checks cs).
Lemma first_of_app a b x : first_of (a ++ b) x <-> first_of a x \/ (quiet_checks a /\ first_of b x).
Proof.
  split.
  - intros (pre & c & post & E & Hc & Q). revert a E. induction Q as [|d pre Hd Q IH]; intros a E.
    + destruct a as [|d a]; cbn [app] in E.
      * right. split; [constructor|]. exists [], c, post. split; [exact E|]. split; [exact Hc|constructor].
      * injection E as -> E. left. exists [], c, a. split; [reflexivity|]. split; [exact Hc|constructor].
    + destruct a as [|d' a]; cbn [app] in E.
      * right. split; [constructor|]. exists (d :: pre), c, post. split; [exact E|]. split; [exact Hc|constructor; assumption].
      * injection E as -> E. destruct (IH a E) as [(pre' & c' & post' & -> & Hc' & Q')|(Qa & F)].
        -- left. exists (d :: pre'), c', post'. split; [reflexivity|]. split; [exact Hc'|constructor; assumption].
        -- right. split; [constructor; assumption|exact F].
  - intros [(pre & c & post & -> & Hc & Q)|(Qa & pre & c & post & -> & Hc & Q)].
    + exists pre, c, (post ++ b). rewrite <- app_assoc. split; [reflexivity|]. auto.
    + exists (a ++ pre), c, post. rewrite app_assoc. split; [reflexivity|]. split; [exact Hc|]. apply Forall_app. auto.
Qed.
Lemma first_of_quiet cs x : quiet_checks cs -> ~ first_of cs x.
Proof.
  intros Q (pre & c & post & -> & Hc & _). apply Forall_app in Q as (_ & Q). inversion Q; subst. eapply H1. exact Hc.
Qed.
Lemma describes_bind {A B} (r : res A) (f : A -> res B) a b :
  describes r a -> (forall v, r = Ok v -> describes (f v) b) -> describes (rbind r f) (a ++ b).
Proof.
  intros (R1 & R2) F. split.
  - intros x. rewrite first_of_app. destruct r as [v|y]; cbn [rbind].
    + rewrite (proj1 (F v eq_refl) x). split; [intros H; right; split; [eapply R2; reflexivity|exact H]|].
      intros [H|(_ & H)]; [apply R1 in H; discriminate|exact H].
    + rewrite <- R1. split; [intros H; left; congruence|]. intros [H|(Q & _)]; [congruence|].
      exfalso. eapply first_of_quiet; [exact Q|]. apply R1. reflexivity.
  - intros w H. apply rbind_ok in H as (v & -> & H). apply Forall_app. split; [eapply R2; reflexivity|].
    exact (proj2 (F v eq_refl) w H).
Qed.
Lemma describes_ok {A} (v : A) : describes (Ok v) [].
Proof.
  split; [|constructor]. intros x. split; [discriminate|]. intros (pre & c & post & E & _). destruct pre; discriminate.
Qed.
Lemma describes_fine {A} (r : res A) : (forall x, r <> Err x) -> describes r [].
Proof. destruct r as [v|y]; [intros _; apply describes_ok|]. intros H. exfalso. apply (H y). reflexivity. Qed.
Lemma describes_one {A} (r : res A) c : (forall x, r = Err x <-> c x) -> describes r [c].
Proof.
  intros H. split.
  - intros x. rewrite H. split.
    + intros C. exists [], c, []. split; [reflexivity|]. split; [exact C|constructor].
    + intros (pre & c' & post & E & C & _). destruct pre as [|d pre]; [injection E as -> _; exact C|destruct pre; discriminate].
  - intros v -> . constructor; [|constructor]. intros y C. apply H in C. discriminate.
Qed.
Lemma describes_stop {A} (r : res A) c cs x : r = Err x -> (forall y, c y <-> y = x) -> describes r (c :: cs).
Proof.
  intros -> C. split; [|discriminate]. intros y. change (c :: cs) with ([c] ++ cs). rewrite first_of_app. split.
  - intros E. injection E as <-. left. exists [], c, []. split; [reflexivity|]. split; [apply C; reflexivity|constructor].
  - intros [(pre & c' & post & E & C' & _)|(Q & _)].
    + destruct pre as [|d pre]; [injection E as -> _; apply C in C' as ->; reflexivity|destruct pre; discriminate].
    + exfalso. inversion Q; subst. eapply H1. apply C. reflexivity.
Qed.
Lemma describes_skip {A} (r : res A) c cs : (forall y, ~ c y) -> describes r cs -> describes r (c :: cs).
Proof.
  intros N (R1 & R2). split.
  - intros x. change (c :: cs) with ([c] ++ cs). rewrite first_of_app, <- R1. split.
    + intros E. right. split; [constructor; [exact N|constructor]|exact E].
    + intros [(pre & c' & post & E & C' & _)|(_ & E)]; [|exact E].
      exfalso. destruct pre as [|d pre]; [injection E as -> _; exact (N _ C')|destruct pre; discriminate].
  - intros v E. constructor; [exact N|]. eapply R2. exact E.
Qed.
Lemma describes_ext {A} (r : res A) cs cs' : Forall2 (fun c c' : exn -> Prop => forall y, c y <-> c' y) cs cs' -> describes r cs -> describes r cs'.
Proof.
  intros F.
  assert (forall a b, Forall2 (fun c c' : exn -> Prop => forall y, c y <-> c' y) a b -> quiet_checks a -> quiet_checks b) as Qx.
  { intros a b G. induction G as [|c c' a b E G IH]; intros Q; [constructor|]. inversion Q; subst.
    constructor; [intros y C; apply E in C; eapply H1; exact C|apply IH; assumption]. }
  assert (forall a b, Forall2 (fun c c' : exn -> Prop => forall y, c y <-> c' y) a b -> forall x, first_of a x -> first_of b x) as Fx.
  { intros a b G x (pre & c & post & -> & C & Q). apply Forall2_app_inv_l in G as (b1 & b2 & G1 & G2 & ->).
    inversion G2; subst. exists b1, y, l'. split; [reflexivity|]. split; [apply H1; exact C|]. exact (Qx _ _ G1 Q). }
  assert (Forall2 (fun c c' : exn -> Prop => forall y, c y <-> c' y) cs' cs) as F'.
  { clear - F. induction F; constructor; auto. intros z. symmetry. auto. }
  intros (R1 & R2). split.
  - intros x. rewrite R1. split; apply Fx; assumption.
  - intros v E. eapply Qx; [exact F|]. eapply R2. exact E.
Qed.

Definition public_check (ov : bool) (r : res pair) (x : exn) : Prop :=
  r = Err x \/ exists q, r = Ok q /\
    (pack_public_bytes (if ov then pr_private q else pr_public q) = Err x \/
     exists b, pack_public_bytes (if ov then pr_private q else pr_public q) = Ok b /\ 2 ^ 32 <= Z.of_nat (length b) /\ x = OverflowError).
Lemma bytes4_iff b e : instr_bytes fB (VBytes b) = Err e <-> 2 ^ 32 <= Z.of_nat (length b) /\ e = OverflowError.
Proof.
  split; [intros H; apply bytes4_err in H; tauto|]. intros (L & ->). apply (instr_iff fB (TBytes 4)); [constructor|exact I|].
  apply cannot_long_bytes. exact L.
Qed.
Lemma pubs_describes ov rs : describes (pubs_bytes ov rs) (map (public_check ov) rs).
Proof.
  induction rs as [|r rs IH]; cbn [pubs_bytes map]; [apply describes_ok|].
  set (one := do? q <- r; do? b <- pack_public_bytes (if ov then pr_private q else pr_public q); instr_bytes fB (VBytes b)).
  assert (forall X (f : bytes -> res X), (do? q <- r; do? b <- pack_public_bytes (if ov then pr_private q else pr_public q);
    do? x <- instr_bytes fB (VBytes b); f x) = (do? x <- one; f x)) as E.
  { intros X f. unfold one. destruct r as [q|]; cbn [rbind]; [|reflexivity]. destruct (pack_public_bytes _); reflexivity. }
  rewrite E. change (public_check ov r :: map (public_check ov) rs) with ([public_check ov r] ++ map (public_check ov) rs).
  apply describes_bind.
  - apply describes_one. intros x. unfold one, public_check. destruct r as [q|y]; cbn [rbind].
    + destruct (pack_public_bytes (if ov then pr_private q else pr_public q)) as [b|y] eqn:Eb; cbn [rbind].
      * rewrite bytes4_iff. split.
        -- intros (L & ->). right. exists q. split; [reflexivity|]. right. exists b. auto.
        -- intros [H|(q' & H & [K|(b' & K & L & ->)])]; [discriminate|..]; injection H as <-; [congruence|].
           assert (b' = b) as -> by congruence. auto.
      * split.
        -- intros H. right. exists q. split; [reflexivity|]. left. congruence.
        -- intros [H|(q' & H & [K|(b' & K & _)])]; [discriminate|..]; injection H as <-; congruence.
    + split; [intros H; left; congruence|]. intros H. destruct H as [H|(q' & H & _)]; [congruence|discriminate].
  - intros v _. rewrite <- (app_nil_r (map (public_check ov) rs)). apply describes_bind; [exact IH|]. intros w _. apply describes_ok.
Qed.
Definition private_check (r : res pair) (x : exn) : Prop :=
  r = Err x \/ exists q, r = Ok q /\ pack_private_bytes (pr_private q) = Err x.
Lemma privs_describes rs : describes (privs_bytes rs) (map private_check rs).
Proof.
  induction rs as [|r rs IH]; cbn [privs_bytes map]; [apply describes_ok|].
  assert (forall X (f : bytes -> res X), (do? q <- r; do? b <- pack_private_bytes (pr_private q); f b) =
    (do? b <- (do? q <- r; pack_private_bytes (pr_private q)); f b)) as E.
  { intros X f. destruct r; reflexivity. }
  rewrite E. change (private_check r :: map private_check rs) with ([private_check r] ++ map private_check rs).
  apply describes_bind.
  - apply describes_one. intros x. unfold private_check. destruct r as [q|y]; cbn [rbind].
    + split; [intros H; right; eauto|]. intros [H|(q' & H & K)]; [discriminate|]. injection H as <-. exact K.
    + split; [intros H; left; congruence|]. intros H. destruct H as [H|(q' & H & _)]; [congruence|discriminate].
  - intros v _. rewrite <- (app_nil_r (map private_check rs)). apply describes_bind; [exact IH|]. intros w _. apply describes_ok.
Qed.
Lemma snd_wbind_eq {A B} (x : W A) (f : A -> W B) : snd (wbind x f) = rbind (snd x) (fun a => snd (f a)).
Proof. destruct x as [lg [a|y]]; cbn [wbind snd rbind]; [|reflexivity]. destruct (f a). reflexivity. Qed.
Lemma index_range {A} (ps : list A) i x : py_index ps i = Err x <->
  (i >= Z.of_nat (length ps) \/ i < - Z.of_nat (length ps)) /\ x = IndexError.
Proof.
  split.
  - intros H. split; [|eapply py_index_err; exact H].
    destruct (Z_lt_ge_dec i (Z.of_nat (length ps))) as [B|B]; [|left; exact B].
    destruct (Z_lt_ge_dec i (- Z.of_nat (length ps))) as [C|C]; [right; exact C|exfalso].
    unfold py_index in H. destruct (Z.ltb_spec i 0).
    + destruct (nth_error ps (Z.to_nat (i + Z.of_nat (length ps)))) as [q|] eqn:En; [|apply nth_error_None in En; lia].
      destruct (_ && _) eqn:E in H; [discriminate|]. apply andb_false_iff in E as [E|E]; lia.
    + destruct (nth_error ps (Z.to_nat i)) as [q|] eqn:En; [|apply nth_error_None in En; lia].
      destruct (_ && _) eqn:E in H; [discriminate|]. apply andb_false_iff in E as [E|E]; lia.
  - intros (R & ->). unfold py_index. destruct (_ && _) eqn:E; [exfalso|reflexivity].
    apply andb_true_iff in E as (E1 & E2). destruct (Z.ltb_spec i 0); lia.
Qed.
Lemma wanted_indices l idx : Forall2 (fun i n => forall j, wanted l idx n j <-> j = i) (indices l idx) (seq 0 (count l idx)).
Proof.
  destruct idx as [is|]; cbn [indices wanted count].
  - assert (forall pre, Forall2 (fun i n => forall j, nth_error (pre ++ is) n = Some j <-> j = i) is (seq (length pre) (length is))) as G.
    { induction is as [|i is IH]; intros pre; cbn [length seq]; constructor.
      - intros j. rewrite nth_error_app2, Nat.sub_diag by lia. cbn [nth_error]. split; congruence.
      - specialize (IH (pre ++ [i])). rewrite <- app_assoc in IH. rewrite app_length in IH. cbn [length app] in IH.
        rewrite Nat.add_1_r in IH. exact IH. }
    exact (G []).
  - induction (seq 0 (length (l_pairs l))) as [|n ns IH]; cbn [map]; constructor; [|exact IH]. intros j. reflexivity.
Qed.
Lemma Forall2_maps {A B C D} (R : A -> B -> Prop) (T : C -> D -> Prop) (f : A -> C) (g : B -> D) xs ys :
  (forall x y, R x y -> T (f x) (g y)) -> Forall2 R xs ys -> Forall2 T (map f xs) (map g ys).
Proof. intros H F. induction F; cbn [map]; constructor; auto. Qed.
Lemma public_checks l idx ov : Forall2 (fun c c' : exn -> Prop => forall y, c y <-> c' y)
  (map (public_check ov) (map (py_index (l_pairs l)) (indices l idx))) (map (check_public l idx ov) (seq 0 (count l idx))).
Proof.
  rewrite map_map. eapply Forall2_maps; [|apply wanted_indices]. intros i n W y. unfold public_check, check_public. split.
  - intros [H|(q & Hq & H)]; exists i; (split; [apply W; reflexivity|]).
    + left. apply index_range. exact H.
    + right. exists q. split; [apply py_index_iff; exact Hq|exact H].
  - intros (j & Hj & H). apply W in Hj as ->. destruct H as [H|(q & Hq & H)].
    + left. apply index_range. exact H.
    + right. exists q. split; [apply py_index_iff; exact Hq|exact H].
Qed.
Lemma private_checks l idx : (forall r, In r (map (py_index (l_pairs l)) (indices l idx)) -> exists q, r = Ok q) ->
  Forall2 (fun c c' : exn -> Prop => forall y, c y <-> c' y)
  (map private_check (map (py_index (l_pairs l)) (indices l idx))) (map (check_private l idx) (seq 0 (count l idx))).
Proof.
  intros All. rewrite map_map.
  assert (Forall2 (fun i n => (forall j, wanted l idx n j <-> j = i) /\ exists q, py_index (l_pairs l) i = Ok q) (indices l idx) (seq 0 (count l idx))) as F.
  { pose proof (wanted_indices l idx) as W. revert All W. generalize (indices l idx), (seq 0 (count l idx)). intros is ns All W.
    induction W; constructor.
    - split; [assumption|]. apply All. left. reflexivity.
    - apply IHW. intros r Hr. apply All. right. exact Hr. }
  eapply Forall2_maps; [|exact F]. intros i n (W & q0 & H0) y. unfold private_check, check_private. split.
  - intros [H|(q & Hq & H)]; [congruence|]. exists i, q. split; [apply W; reflexivity|]. split; [apply py_index_iff; exact Hq|exact H].
  - intros (j & q & Hj & Hq & H). apply W in Hj as ->. right. exists q. split; [apply py_index_iff; exact Hq|exact H].
Qed.
Lemma header_describes cv kv ob n cn cs cc : names_kdf kv ->
  (forall x, cannot (TText 4) cv x <-> cn x) -> (forall x, 2 ^ 32 <= Z.of_nat (length ob) /\ x = OverflowError <-> cs x) ->
  (forall x, 2 ^ 31 <= Z.of_nat n /\ x = StructError <-> cc x) ->
  describes (dict_bytes list_header_fmt (file_header cv kv ob n)) [cn; cs; cc].
Proof.
  intros Nk Hn Hs Hc. unfold list_header_fmt, file_header. cbn [dict_bytes fld].
  change [cn; cs; cc] with ([] ++ [cn; cs; cc]). apply describes_bind; [apply describes_fine; discriminate|].
  intros v Hv. change [cn; cs; cc] with ([] ++ [cn; cs; cc]). apply describes_bind.
  { apply describes_fine. intros x H. vm_compute in Hv. injection Hv as <-. vm_compute in H. discriminate. }
  intros b1 _. clear v Hv. rewrite <- (app_nil_r [cn; cs; cc]). apply describes_bind; [|intros; apply describes_ok].
  change [cn; cs; cc] with ([] ++ [cn; cs; cc]). apply describes_bind; [apply describes_fine; discriminate|].
  intros v Hv. vm_compute in Hv. injection Hv as <-. change [cn; cs; cc] with ([cn] ++ [cs; cc]). apply describes_bind.
  { apply describes_one. intros x. rewrite <- Hn. apply (instr_iff fS (TText 4)); [constructor|exact I]. }
  intros b2 _. rewrite <- (app_nil_r [cs; cc]). apply describes_bind; [|intros; apply describes_ok].
  change [cs; cc] with ([] ++ [cs; cc]). apply describes_bind; [apply describes_fine; discriminate|].
  intros v Hv. vm_compute in Hv. injection Hv as <-. change [cs; cc] with ([] ++ [cs; cc]). apply describes_bind.
  { apply describes_fine. intros x H. destruct Nk as [-> | ->]; vm_compute in H; discriminate. }
  intros b3 _. rewrite <- (app_nil_r [cs; cc]). apply describes_bind; [|intros; apply describes_ok].
  change [cs; cc] with ([] ++ [cs; cc]). apply describes_bind; [apply describes_fine; discriminate|].
  intros v Hv. vm_compute in Hv. injection Hv as <-. change [cs; cc] with ([cs] ++ [cc]). apply describes_bind.
  { apply describes_one. intros x. rewrite <- Hs. apply bytes4_iff. }
  intros b4 _. rewrite <- (app_nil_r [cc]). apply describes_bind; [|intros; apply describes_ok].
  change [cc] with ([] ++ [cc]). apply describes_bind; [apply describes_fine; discriminate|].
  intros v Hv. assert (v = VInt (Z.of_nat n)) as -> by (unfold ditem in Hv; cbn [dget] in Hv; injection Hv as <-; reflexivity).
  change [cc] with ([cc] ++ []). apply describes_bind.
  { apply describes_one. intros x. rewrite <- Hc.
    assert (has_type (FStruct (str ">i")) (TInt true true 4)) as Ht by (apply (ht_int ">" true "i" true 4); simpl; tauto).
    rewrite (instr_iff _ _ _ _ Ht I). split.
    - intros H. inversion H; subst; try discriminate. split; [|reflexivity].
      match goal with A : ~ conforms _ _ |- _ => cbn [conforms] in A end. change (8 * Z.of_nat 4 - 1) with 31 in *. lia.
    - intros (L & ->). apply cannot_struct; [reflexivity|]. cbn [conforms]. change (8 * Z.of_nat 4 - 1) with 31. lia. }
  intros b5 _. apply describes_ok.
Qed.

(** What pack_bytes raises is what the first of the checks of SpecRaise that fails raises, in the order given there. *)
Theorem C102_list_first p e l given idx ov retain x :
  sound_prims p -> 0 <= e_randbits e < 2 ^ 32 ->
  snd (list_pack_bytes p e l given idx ov retain) = Err x <-> first_of (checks e l given idx ov retain) x.
Proof.
  intros S Hr. revert x. enough (describes (snd (list_pack_bytes p e l given idx ov retain)) (checks e l given idx ov retain)) as D by apply D.
  destruct (list_cipher_kdf l) as [cv kv] eqn:En. pose proof En as Hn. apply list_names_iff in Hn.
  assert (forall c' k', list_names l c' k' -> c' = cv /\ k' = kv) as Nf by (intros; eapply list_names_fun; eassumption).
  unfold checks. cbn [app].
  destruct (get_kdf kv) as [k|y] eqn:Ek.
  2: { assert (~ names_kdf kv) as Nk by (intros K; apply get_kdf_supported in K as (k & K); congruence).
       apply describes_stop with (x := KeyError kv).
       - rewrite (C84_pack_unsupported_kdf p e l cv kv given idx ov retain Hn Nk). reflexivity.
       - intros z. split; [intros (c' & k' & N & _ & _ & ->); apply Nf in N as (_ & ->); reflexivity|].
         intros ->. exists cv, kv. split; [exact Hn|]. split; [|split; [|reflexivity]]; intros ->; apply Nk; unfold names_kdf; auto. }
  assert (names_kdf kv) as Nk by (apply get_kdf_supported; eauto).
  apply describes_skip.
  { intros z (c' & k' & N & N1 & N2 & _). apply Nf in N as (_ & ->). destruct Nk; contradiction. }
  assert (exists kn, kv = VStr kn) as (kn & ->) by (destruct Nk as [-> | ->]; eauto).
  rewrite list_pack_eq, En. cbn [fst snd]. unfold pack_selected.
  set (rs := map (py_index (l_pairs l)) (indices l idx)).
  match goal with |- describes _ ?cs => change cs with ([] ++ cs) end.
  rewrite snd_wbind_eq. apply describes_bind.
  { apply describes_fine. intros z H. unfold options_for in H. rewrite Ek in H. destruct (if retain then l_kdf_options l else None); [discriminate|].
    apply wbind_err in H as [H|(k' & Hk' & H)]; [discriminate|]. cbn in Hk'. injection Hk' as <-.
    apply wseq_err in H as [H|(_ & H)]; [rewrite new_kdf_ok in H|]; discriminate. }
  intros d Hd. apply (options_for_iff e l retain kn k d Ek) in Hd.
  assert (In (kn, match k with KdfNone => [] | KdfBcrypt => [octets "salt"; uint32 "rounds"] end) kdf_specs /\
    (k = KdfNone -> kn = str "none") /\ (k = KdfBcrypt -> kn = str "bcrypt")) as (Isp & K1 & K2).
  { apply get_kdf_iff in Ek as [(E & ->)|(E & ->)]; injection E as ->; cbn [kdf_specs In]; (split; [tauto|split; [tauto|tauto || discriminate]] || (split; [tauto|split; intros; try discriminate; reflexivity])). }
  assert (kn = str "bcrypt" -> k = KdfBcrypt) as K3 by (intros ->; vm_compute in Ek; congruence).
  assert (kn = str "none" -> k = KdfNone) as K4 by (intros ->; vm_compute in Ek; congruence).
  assert (forall d', options_used e l retain kn d' -> d' = d) as Od.
  { intros d' O. apply (options_for_iff e l retain kn k d' Ek) in O. apply (options_for_iff e l retain kn k d Ek) in Hd. congruence. }
  rewrite snd_wbind_eq, snd_wlift, Ek. cbn [rbind].
  rewrite snd_wbind_eq, snd_wlift.
  match goal with |- describes _ (?c :: ?cs) => change (c :: cs) with ([c] ++ cs) end. apply describes_bind.
  { apply describes_one. intros z. destruct (dict_fault_iff _ _ d (proj1 (kdf_dict_types k)) (kdf_default k)) as (F & _). rewrite F. split.
    - intros H. exists cv, kn. eexists _, d. split; [exact Hn|]. split; [exact Isp|]. split; [exact Hd|exact H].
    - intros (c' & kn' & ts & d' & N & I' & O & H). apply Nf in N as (_ & E). injection E as ->. apply Od in O as ->.
      assert (ts = match k with KdfNone => [] | KdfBcrypt => [octets "salt"; uint32 "rounds"] end) as ->; [|exact H].
      apply get_kdf_iff in Ek as [(E & ->)|(E & ->)]; injection E as ->; cbn [kdf_specs In] in I'; destruct I' as [I'|[I'|[]]]; inversion I'; reflexivity. }
  intros ob Hob. rewrite snd_wbind_eq, snd_wlift.
  match goal with |- describes _ (?a :: ?b :: ?c :: ?ps ++ ?qs) => change (a :: b :: c :: ps ++ qs) with ([a; b; c] ++ ps ++ qs); rewrite app_assoc end.
  apply describes_bind.
  { apply describes_bind.
    - apply header_describes; [exact Nk| | |].
      + intros z. split; [intros H; exists cv, (VStr kn); auto|]. intros (c' & k' & N & H). apply Nf in N as (-> & _). exact H.
      + intros z. split.
        * intros (L & ->). destruct k; [cbn in Hob; injection Hob as <-; cbn in L; lia|]. rewrite (K2 eq_refl) in *.
          destruct (options_written _ _ Hob) as (salt & rounds & Gs & _ & _ & Lo). exists cv, salt, d.
          split; [exact Hn|]. split; [exact Hd|]. split; [exact Gs|]. split; [|reflexivity]. lia.
        * intros (c' & salt & d' & N & O & Gs & L & ->). apply Nf in N as (_ & E). injection E as <-. apply Od in O as ->. rewrite (K3 eq_refl) in Hob.
          destruct (options_written _ _ Hob) as (salt' & rounds & Gs' & _ & _ & Lo). assert (salt' = salt) as -> by congruence. split; [lia|reflexivity].
      + intros z. unfold rs. rewrite index_count. reflexivity.
    - intros h _. rewrite <- (app_nil_r (map _ _)). apply describes_bind; [|intros; apply describes_ok].
      eapply describes_ext; [apply public_checks|]. apply pubs_describes. }
  intros prefix Hpre. apply rbind_ok in Hpre as (h & _ & Hpre). apply rbind_ok in Hpre as (ps & Hps & _).
  rewrite snd_wbind_eq, snd_wlift.
  match goal with |- describes _ (?ps ++ ?a :: ?qs) => change (ps ++ a :: qs) with (ps ++ [a] ++ qs); rewrite app_assoc end.
  apply describes_bind.
  { match goal with |- describes _ ?cs => change cs with ([] ++ cs) end. apply describes_bind.
    { apply describes_fine. intros z H. exact (checks_written _ _ Hr H). }
    intros a _. apply describes_bind.
    { eapply describes_ext; [apply private_checks|apply privs_describes].
      intros r Ir. destruct (pubs_all _ _ _ Hps _ Ir) as (q & _ & E & _). eauto. }
    intros b _. rewrite <- (app_nil_r [_]). apply describes_bind; [|intros; apply describes_ok].
    apply describes_one. intros z. split.
    - intros H. assert (~ names_cipher cv) as Nc by (intros K; apply get_cipher_supported in K as (c & K); congruence).
      apply C84_unknown_cipher_class in Nc as E. assert (z = KeyError cv) as -> by congruence.
      exists cv, (VStr kn). split; [exact Hn|]. split; [|reflexivity]. intros cn I' ->. apply Nc. exists cn. auto.
    - intros (c' & k' & N & Nc & ->). apply Nf in N as (-> & _). apply C84_unknown_cipher_class. intros (cn & I' & E). exact (Nc cn E I'). }
  intros plain Hpl. apply rbind_ok in Hpl as (a & Ha & Hpl). apply rbind_ok in Hpl as (b & Hb & Hpl). apply rbind_ok in Hpl as (c & Hc & Hpl).
  injection Hpl as <-. destruct (get_cipher_str _ _ Hc) as (cn & ->).
  assert (length a = 8%nat) as La by (eapply checks_length; eassumption).
  destruct (padding_for_ok c (length (a ++ b))) as (_ & P2 & P3). set (pad := padding_for c (length (a ++ b))) in *.
  assert (length (a ++ b ++ pad) = (length (a ++ b) + length pad)%nat) as Lp by (rewrite !app_length; lia).
  assert (c = NoneCipher <-> cn = str "none") as Cn.
  { split; [|intros ->; vm_compute in Hc; congruence]. intros ->. apply get_cipher_table in Hc as (cn' & E & Ht). injection E as <-.
    unfold cipher_table in Ht. cbn [In] in Ht. repeat (destruct Ht as [Ht|Ht]; [inversion Ht; reflexivity|]). contradiction. }
  rewrite snd_wbind_eq.
  match goal with |- describes _ (?c :: ?cs) => change (c :: cs) with ([c] ++ cs) end. apply describes_bind.
  { apply describes_one. intros z. destruct k.
    - rewrite (K1 eq_refl) in *. split; [cbn; discriminate|]. intros (c' & N & _). apply Nf in N as (_ & E). discriminate.
    - rewrite (K2 eq_refl) in *. change (val_eqb (VStr (str "bcrypt")) (VStr (str "none"))) with false. cbv iota.
      destruct given as [s|]; cbn [get_passphrase snd wret].
      + split; [discriminate|]. intros (c' & _ & E & _). discriminate.
      + split; [intros H; exists (VStr cn); auto|]. intros (c' & _ & _ & H). exact H. }
  intros pw Hpw.
  assert (kn = str "bcrypt" -> forall pass, passphrase_used e (str "bcrypt") given pass <-> pass = pw) as Pp.
  { intros -> pass. apply passphrase_iff in Hpw. split.
    - intros H. destruct H as [(E & _)|(_ & H)]; [discriminate|]. destruct Hpw as [(E & _)|(_ & Hpw)]; [discriminate|].
      destruct given; congruence.
    - intros ->. exact Hpw. }
  rewrite snd_wbind_eq, snd_wlift, Hc. cbn [rbind]. unfold wseq. rewrite snd_wbind_eq, new_kdf_ok. cbn [rbind].
  rewrite snd_wbind_eq, snd_wlift.
  match goal with |- describes _ [?c1; ?c2; ?c3] => change [c1; c2; c3] with ([c1; c2] ++ [c3]) end. apply describes_bind.
  { assert (k = KdfBcrypt -> exists salt rounds, dget (str "salt") d = Some (VBytes salt) /\ dget (str "rounds") d = Some (VInt rounds) /\ 0 <= rounds < 2 ^ 32) as Ho
      by (intros ->; destruct (options_written _ _ Hob) as (salt & rounds & A & B & C & _); eauto).
    assert (length (a ++ b ++ pad) mod block_size c = 0)%nat as Hmod by (rewrite Lp; exact P3).
    destruct (cipher_encrypt p c k d pw (a ++ b ++ pad)) as [y|z] eqn:Ey.
    - apply (enciphers_iff p cn kn c k d pw _ y S Hc Ek) in Ey. destruct Ey as (m & kl & il & bs0 & Hct & Hy').
      assert (m = Plain -> cn = str "none") as Pn.
      { intros ->. unfold cipher_table in Hct. cbn [In] in Hct. repeat (destruct Hct as [Hct|Hct]; [inversion Hct; reflexivity|]). contradiction. }
      apply describes_skip.
      { intros z (c' & pass & N & N1 & Pu & U & _). apply Nf in N as (-> & E). injection E as <-.
        destruct Hy' as [(Em & _)|(_ & _ & key & iv & _ & _ & D & _)]; [apply N1; rewrite (Pn Em); reflexivity|].
        apply (Pp eq_refl) in Pu as ->. destruct D as (u1 & s1 & r1 & U1 & _). apply U. eauto. }
      apply describes_skip; [|apply describes_ok].
      intros z (_ & c' & N1 & [N|(N & pass & d' & Pu & O & C)]); apply Nf in N as (-> & E); injection E as <-.
      + destruct Hy' as [(Em & _)|(_ & E & _)]; [|discriminate]. apply N1. rewrite (Pn Em). reflexivity.
      + destruct Hy' as [(Em & _)|(_ & _ & key & iv & _ & _ & D & _)]; [apply N1; rewrite (Pn Em); reflexivity|].
        apply (Pp eq_refl) in Pu as ->. apply Od in O as ->. destruct D as (u1 & s1 & r1 & U & Nu & Gs & Ns & Gr & Rr & _).
        destruct C as [-> |[E|E]]; [inversion U; subst; congruence|congruence|]. rewrite E in Gr. injection Gr as <-. lia.
    - destruct (utf8_encode pw) as [u|w] eqn:Eu.
      + apply utf8_encode_iff in Eu as U.
        pose proof (encrypt_err p cn c k d pw (a ++ b ++ pad) z S Hc Hmod Ho Ey) as (Nc & C).
        assert (VStr cn <> VStr (str "none")) as Nc' by (intros E; injection E as E; apply Nc, Cn; exact E).
        apply describes_skip.
        { intros w (c' & pass & N & _ & Pu & U' & _). apply Nf in N as (-> & E). injection E as <-. apply (Pp eq_refl) in Pu as ->. apply U'. eauto. }
        destruct C as [(-> & ->)|[(-> & _ & U')|(-> & -> & C)]]; [|exfalso; apply U'; eauto|].
        * apply describes_stop with (x := ValueError); [reflexivity|]. intros w. split; [intros (-> & _); reflexivity|].
          intros ->. split; [reflexivity|]. exists (VStr cn). split; [exact Nc'|]. left. rewrite (K1 eq_refl) in Hn. exact Hn.
        * apply describes_stop with (x := ValueError); [reflexivity|]. intros w. split; [intros (-> & _); reflexivity|].
          intros ->. split; [reflexivity|]. exists (VStr cn). split; [exact Nc'|]. right. rewrite (K2 eq_refl) in *. split; [exact Hn|].
          exists pw, d. split; [apply (Pp eq_refl); reflexivity|]. auto.
      + assert (~ exists u, utf8 pw u) as U by (intros (u & U); apply utf8_encode_iff in U; congruence).
        pose proof (encrypt_err p cn c k d pw (a ++ b ++ pad) z S Hc Hmod Ho Ey) as (Nc & C).
        assert (VStr cn <> VStr (str "none")) as Nc' by (intros E; injection E as E; apply Nc, Cn; exact E).
        destruct k.
        * destruct C as [(_ & ->)|[(E & _)|(E & _)]]; try discriminate. rewrite (K1 eq_refl) in *. apply describes_skip.
          { intros q (c' & pass & N & _). apply Nf in N as (_ & E). discriminate. }
          apply describes_stop with (x := ValueError); [reflexivity|]. intros q. split; [intros (-> & _); reflexivity|].
          intros ->. split; [reflexivity|]. exists (VStr cn). split; [exact Nc'|]. left. exact Hn.
        * rewrite (K2 eq_refl) in *. apply describes_stop with (x := UnicodeEncodeError).
          { assert (z = w) as ->.
            { destruct c; try (exfalso; apply Nc; reflexivity); cbn [cipher_encrypt derive_key] in Ey; rewrite Eu in Ey; cbn [rbind] in Ey; congruence. }
            rewrite (utf8_encode_err _ _ Eu). reflexivity. }
          intros q. split; [intros (c' & pass & _ & _ & _ & _ & ->); reflexivity|]. intros ->. exists (VStr cn), pw.
          split; [exact Hn|]. split; [exact Nc'|]. split; [apply (Pp eq_refl); reflexivity|]. split; [exact U|reflexivity]. }
  intros y Hy. cbv zeta. rewrite snd_wlift. change [check_size l idx] with ([check_size l idx] ++ []). apply describes_bind; [|intros; apply describes_ok].
  apply describes_one. intros z. rewrite bytes4_iff.
  apply (enciphers_iff p cn kn c k d pw _ y S Hc Ek) in Hy. apply (encrypt_tag _ _ _ _ _ _ _ c S Hc) in Hy.
  assert (length (if is_integrity c then slice_butlast (tag_length c) y else y) = length (a ++ b ++ pad))%nat as Ly.
  { destruct (is_integrity c); [|lia]. unfold slice_butlast, tag_length. rewrite firstn_length. lia. }
  match goal with |- 2 ^ 32 <= Z.of_nat ?t /\ _ <-> _ => replace t with (length (a ++ b) + length pad)%nat by (symmetry; etransitivity; [exact Ly|exact Lp]) end.
  assert (exists sel, rs = map Ok sel) as (sel & Es) by (eapply pubs_sel; exact Hps).
  rewrite Es in Hb. apply privs_bytes_iff in Hb as (privs & Fp & ->).
  assert (length (a ++ concat privs) = 8 + length (concat privs))%nat as Lc by (rewrite app_length, La; reflexivity).
  rewrite Lc in *. apply get_cipher_table in Hc as Ht. destruct Ht as (cn' & E & Ht). injection E as <-. split.
  - intros (L & ->). split; [reflexivity|]. exists cn, (VStr kn), (block_size c), sel, privs, (length pad).
    split; [exact Hn|]. split; [eexists _, _, _; exact Ht|]. split; [apply chosen_iff; exact Es|]. split; [exact Fp|].
    split; [exact P2|]. split; [exact P3|exact L].
  - intros (-> & cn' & kv' & bs & sel' & privs' & pad' & N & B & Hs & F' & Q1 & Q2 & L). split; [|reflexivity].
    apply Nf in N as (E & _). injection E as ->. apply chosen_iff in Hs. fold rs in Hs.
    assert (sel' = sel) as ->.
    { rewrite Es in Hs. clear - Hs. revert sel' Hs. induction sel as [|q sel IH]; intros [|q' sel'] Hs; try discriminate; [reflexivity|].
      cbn [map] in Hs. injection Hs as -> Hs. f_equal. apply IH. exact Hs. }
    assert (privs' = privs) as ->.
    { clear - F' Fp. revert privs' F'. induction Fp as [|q b sel privs E F IH]; intros ps F'; inversion F'; subst; [reflexivity|].
      f_equal; [congruence|]. apply IH. assumption. }
    destruct B as (m' & kl' & il' & Hct'). destruct (cipher_table_spec _ _ _ _ _ Hct') as (c' & Hc' & _ & _ & _ & -> & _).
    assert (c' = c) as -> by congruence.
    assert (length pad = pad') as ->; [|exact L].
    set (w := length pad) in *. clearbody w. clear - P2 P3 Q1 Q2.
    set (n := (8 + length (concat privs))%nat) in *. clearbody n. set (B := block_size c) in *. clearbody B.
    rewrite Nat.add_mod in P3, Q2 by lia. rewrite (Nat.mod_small w), (Nat.mod_small pad') in * by lia.
    pose proof (Nat.mod_upper_bound n B ltac:(lia)). set (r := (n mod B)%nat) in *. clearbody r.
    apply Nat.mod_divides in P3 as (p & P3); [|lia]. apply Nat.mod_divides in Q2 as (q & Q2); [|lia].
    assert (p < 2)%nat by nia. assert (q < 2)%nat by nia. assert (p = 0 \/ p = 1)%nat as [-> | ->] by lia; assert (q = 0 \/ q = 1)%nat as [-> | ->] by lia; lia.
Qed.

(** ** The public line *)
(** pack_public_string raises what pack_public_bytes raises, if the comments are texts, integers
    or byte strings (str() of another value is not modelled). *)
Theorem C102_public_string kd t pub priv k uf uc e :
  In (t, (pub, priv)) key_specs -> params_class kd (VStr t) = Ok (k_pcls k) ->
  (forall d v, In d [k_footer k; k_clear k] -> dget (str "comment") d = Some v ->
     (exists s, v = VStr s) \/ (exists z, v = VInt z) \/ exists b, v = VBytes b) ->
  pack_public_string uf uc k = Err e <-> pack_public_bytes k = Err e.
Proof.
  intros Hs Hc Hv.
  assert (forall d u, In d [k_footer k; k_clear k] -> exists c, opt_comment u d = Ok c) as Oc.
  { intros d u I'. unfold opt_comment. destruct u; [|eauto]. destruct (dget (str "comment") d) as [v|] eqn:G; [|eauto].
    destruct (Hv d v I' G) as [(s & ->)|[(z & ->)|(b & ->)]]; cbn [to_str rbind]; eauto. }
  destruct (Oc (k_footer k) uf ltac:(left; reflexivity)) as (c1 & E1). destruct (Oc (k_clear k) uc ltac:(right; left; reflexivity)) as (c2 & E2).
  unfold pack_public_string. rewrite E1, E2. rewrite (C102_public kd t pub priv k e Hs Hc).
  pose proof (C102_public kd t pub priv k) as P. specialize (fun x => P x Hs Hc).
  unfold ditem. destruct (dget (str "key_type") (k_header k)) as [v|] eqn:G; cbn [rbind].
  - destruct (pack_public_bytes k) as [b|x] eqn:Eb; cbn [rbind].
    + assert (exists s, v = VStr s) as (s & ->).
      { rewrite pack_public_eq in Eb. apply rbind_ok in Eb as (h & Eh & _).
        destruct (dict_fault_iff _ _ (k_header k) (ProofKey.header_types KPub) (header_default KPub)) as (_ & W).
        destruct (proj1 W (ex_intro _ h Eh) (str "key_type") (TText 4)) as (w & Gw & N); [left; reflexivity|].
        assert (w = v) as -> by congruence. destruct v; eauto; exfalso; apply (N ValueError); eapply cannot_kind; try reflexivity; intros []. }
      cbn [to_str rbind]. split; [discriminate|]. intros K. apply P in K. discriminate.
    + rewrite <- P. rewrite ?Eb. split; intros K; injection K as ->; reflexivity.
  - split.
    + intros E; injection E as <-. left. exists [], (str "key_type"), (TText 4), []. split; [reflexivity|]. split; [intros x y []|]. left. auto.
    + intros K. apply P in K. rewrite pack_public_eq in K.
      destruct (dict_fault_iff _ _ (k_header k) (ProofKey.header_types KPub) (header_default KPub)) as (F & _).
      rewrite (proj2 (F (KeyError (VStr (str "key_type"))))) in K; [injection K as <-; reflexivity|].
      exists [], (str "key_type"), (TText 4), []. split; [reflexivity|]. split; [intros x y []|]. left. auto.
Qed.

(** ** Examples *)
Definition with_params (k : key) (d : dict pyval) : key := mkkey (k_kind k) (k_header k) (k_pcls k) d (k_footer k) (k_clear k).
Definition with_footer (k : key) (d : dict pyval) : key := mkkey (k_kind k) (k_header k) (k_pcls k) (k_params k) d (k_clear k).
Definition named (c k : string) : pkl :=
  mkpkl ex_pairs None (Some [(str "cipher", VStr (str c)); (str "kdf", VStr (str k))]) None None None None None.
(** A parameter missing; one of the wrong type; an integer whose length is computed too small;
    a comment missing, and one without encoding. Both keys are of a supported type. *)
Example C102_example :
  params_class KPub (VStr (str "ssh-rsa")) = Ok (k_pcls ex_rsa_public) /\
  pack_public_bytes (with_params ex_rsa_public [(str "e", VInt 17)]) = Err (KeyError (VStr (str "n"))) /\
  pack_public_bytes (with_params ex_rsa_public [(str "n", VInt 3233); (str "e", VStr (str "17"))]) = Err ValueError /\
  pack_public_bytes (with_params ex_rsa_public [(str "n", VInt (-200)); (str "e", VInt 17)]) = Err OverflowError /\
  params_class KPriv (VStr (str "ssh-rsa")) = Ok (k_pcls ex_rsa) /\
  pack_private_bytes (with_footer ex_rsa []) = Err (KeyError (VStr (str "comment"))) /\
  pack_private_bytes (with_footer ex_rsa [(str "comment", VStr [0xD800%N])]) = Err UnicodeEncodeError /\
  (exists b, pack_private_bytes ex_rsa = Ok b).
Proof. repeat (split; [vm_compute; reflexivity|]). eexists. vm_compute. reflexivity. Qed.
Lemma C102_example_supported q : In q (l_pairs (named "aes256-ctr" "bcrypt")) ->
  supported_key KPub (pr_public q) /\ supported_key KPriv (pr_private q).
Proof.
  intros [<-|[<-|[]]]; split; [exists (str "ssh-ed25519")|exists (str "ssh-ed25519")|exists (str "ssh-rsa")|exists (str "ssh-rsa")];
    (split; [vm_compute; tauto|vm_compute; reflexivity]).
Qed.
(** A list of well-formed keys: an unknown cipher or KDF, an empty passphrase, one without
    encoding, a cipher without a KDF, an index out of range. *)
Example C102_list_example :
  snd (list_pack_bytes toy_prims ex_env (named "rot13" "bcrypt") (Some (str "pw")) None true false) = Err (KeyError (VStr (str "rot13"))) /\
  snd (list_pack_bytes toy_prims ex_env (named "none" "scrypt") None None true false) = Err (KeyError (VStr (str "scrypt"))) /\
  snd (list_pack_bytes toy_prims ex_env (named "aes256-ctr" "bcrypt") (Some []) None true false) = Err ValueError /\
  snd (list_pack_bytes toy_prims ex_env (named "aes256-ctr" "bcrypt") (Some [0xD800%N]) None true false) = Err UnicodeEncodeError /\
  snd (list_pack_bytes toy_prims ex_env (named "aes256-ctr" "none") None None true false) = Err ValueError /\
  snd (list_pack_bytes toy_prims ex_env (named "none" "none") None (Some [2]) true false) = Err IndexError /\
  list_fault ex_env (named "aes256-ctr" "bcrypt") (Some []) None true false ValueError.
Proof.
  repeat (split; [vm_compute; reflexivity|]).
  apply (C102_list toy_prims ex_env (named "aes256-ctr" "bcrypt") (Some []) None true false ValueError);
    [exact toy_sound|vm_compute; split; [discriminate|reflexivity]|vm_compute; reflexivity].
Qed.
(** Several causes at once: an index out of range comes before the unknown cipher, the unknown KDF before
    both, and the unknown cipher before the empty passphrase. *)
Example C102_list_first_example :
  snd (list_pack_bytes toy_prims ex_env (named "rot13" "bcrypt") (Some []) (Some [0; 7]) true false) = Err IndexError /\
  snd (list_pack_bytes toy_prims ex_env (named "rot13" "scrypt") (Some []) (Some [0; 7]) true false) = Err (KeyError (VStr (str "scrypt"))) /\
  snd (list_pack_bytes toy_prims ex_env (named "rot13" "bcrypt") (Some []) None true false) = Err (KeyError (VStr (str "rot13"))) /\
  first_of (checks ex_env (named "rot13" "bcrypt") (Some []) (Some [0; 7]) true false) IndexError /\
  ~ first_of (checks ex_env (named "rot13" "bcrypt") (Some []) (Some [0; 7]) true false) (KeyError (VStr (str "rot13"))).
Proof.
  split; [vm_compute; reflexivity|]. split; [vm_compute; reflexivity|]. split; [vm_compute; reflexivity|].
  pose proof (fun x => C102_list_first toy_prims ex_env (named "rot13" "bcrypt") (Some []) (Some [0; 7]) true false x toy_sound) as F.
  assert (0 <= e_randbits ex_env < 2 ^ 32) as R by (vm_compute; split; [discriminate|reflexivity]).
  split; [apply F; [exact R|vm_compute; reflexivity]|]. intros C. apply F in C; [|exact R]. vm_compute in C. discriminate.
Qed.
(** The documentation of pack_bytes and pack_string names IndexError alone. That is not all: an
    encrypted list of well-formed keys with every index in range is refused for its passphrase. *)
Theorem C102_only_index_error_refuted :
  ~ forall p e l given idx ov retain x, sound_prims p -> 0 <= e_randbits e < 2 ^ 32 ->
      (forall q, In q (l_pairs l) -> supported_key KPub (pr_public q) /\ supported_key KPriv (pr_private q)) ->
      snd (list_pack_bytes p e l given idx ov retain) = Err x -> x = IndexError.
Proof.
  intros H.
  assert (ValueError = IndexError) as E; [|discriminate].
  apply (H toy_prims ex_env (named "aes256-ctr" "bcrypt") (Some []) None true false ValueError);
    [exact toy_sound|vm_compute; split; [discriminate|reflexivity]|exact C102_example_supported|vm_compute; reflexivity].
Qed.

Print Assumptions C102_public.
Print Assumptions C102_private.
Print Assumptions C102_key_classes.
Print Assumptions C102_public_string.
Print Assumptions C102_list.
Print Assumptions C102_list_fails.
Print Assumptions C102_list_iff.
Print Assumptions C102_list_string.
Print Assumptions C102_list_first.
Print Assumptions C102_list_classes.
Print Assumptions C102_only_index_error_refuted.
