(** Which exceptions the parsing and construction of keys can raise. *)
From Verif Require Import PyBase IntBytes Utf8 StructFmt Stream Text Classes Key.
From Verif Require Import SpecWire SpecKey ProofBase ProofInt ProofUtf8 ProofWire ProofRecord ProofKey.
Open Scope Z_scope.

(** Formats without explicit length sizes. *)
Definition default_sizes (f : fmt_dict) : bool :=
  forallb (fun kv => match snd kv with FPascalSize _ _ | FBad => false | _ => true end) f.

Lemma read_pascal4_errors s s' e :
  read_pascal_bytes default_size s = (s', Err e) -> is_eof_error e = true.
Proof.
  unfold read_pascal_bytes, default_size. change (4 <=? 0) with false. cbv iota.
  unfold pbind. rewrite read_fixed_spec by (unfold ssize_max; lia).
  destruct (Nat.leb_spec (Z.to_nat 4) (length (unread s))).
  2: { intros R. injection R as <- <-. apply eof_is_eof. }
  rewrite int_from_bytes_unsigned.
  set (l := firstn (Z.to_nat 4) (unread s)). pose proof (be_value_range l) as Br.
  assert (length l = 4%nat) as Ll by (unfold l; rewrite firstn_length; change (Z.to_nat 4) with 4%nat in *; lia).
  rewrite Ll in Br. change (256 ^ Z.of_nat 4) with 4294967296 in Br.
  rewrite read_fixed_spec by (unfold ssize_max; lia).
  match goal with |- context [if ?g then _ else _] => destruct g end; [discriminate|].
  intros R. injection R as <- <-. apply eof_is_eof.
Qed.
Lemma read_instr_errors4 f t s s' e :
  has_type f t -> (forall i n, f <> FPascalSize i n) -> read_instr f s = (s', Err e) ->
  is_eof_error e = true \/ (exists o, e = UnicodeDecodeError o).
Proof.
  intros H N. destruct f as [fmt|i|i n|]; [| |exfalso; eapply N; reflexivity|inversion H].
  - destruct (struct_read fmt t H) as (n & Hf & Hn & Ec & Hu).
    cbn [read_instr]. unfold pbind at 1, plift. rewrite Ec.
    unfold pbind at 1. rewrite read_fixed_spec by lia. rewrite Nat2Z.id.
    destruct (Nat.leb_spec n (length (unread s))).
    + destruct (Hu (firstn n (unread s))) as (w & Eu & _); [rewrite firstn_length; lia|].
      unfold pbind. rewrite Eu. discriminate.
    + intros R. injection R as <- <-. left; apply eof_is_eof.
  - cbn [read_instr]. unfold pbind at 1.
    destruct (read_pascal_bytes default_size s) as [s1 [u|e1]] eqn:E1.
    + destruct i; try discriminate. unfold pbind, plift.
      destruct (utf8_decode u) eqn:E2; [discriminate|].
      intros R. injection R as <- <-. apply utf8_decode_err in E2. eauto.
    + intros R. injection R as <- <-. apply read_pascal4_errors in E1. auto.
Qed.
Lemma read_dict_errors4 f ts s s' e :
  format_types f ts -> default_sizes f = true -> read_dict f s = (s', Err e) ->
  is_eof_error e = true \/ (exists o, e = UnicodeDecodeError o).
Proof.
  intros F; revert s; induction F as [|(k, i) (k', t) f ts (Hk & Ht) F IH]; intros s D R.
  - discriminate.
  - cbn [default_sizes forallb snd] in D. apply andb_true_iff in D as (D1 & D2).
    cbn [read_dict] in R. unfold pbind at 1 in R.
    destruct (read_instr i s) as [s1 [v|e1]] eqn:E1.
    + unfold pbind in R. destruct (read_dict f s1) as [s2 [r|e2]] eqn:E2; [discriminate|].
      injection R as <- <-. eapply IH; eassumption.
    + injection R as <- <-. eapply read_instr_errors4; [exact Ht| |exact E1].
      intros i0 n K. cbn in K. subst i. discriminate.
Qed.
Lemma read_loop_errors4 f ts n acc s s' e :
  format_types f ts -> default_sizes f = true -> some_nonempty ts = true -> (length (unread s) < n)%nat ->
  read_loop n f acc s = (s', Err e) -> is_eof_error e = true \/ (exists o, e = UnicodeDecodeError o).
Proof.
  intros F D Ne. revert acc s; induction n as [|n IH]; intros acc s L R; [lia|]. cbn [read_loop] in R.
  destruct (read_dict f s) as [s1 [d|e1]] eqn:E.
  - eapply IH; [|exact R]. destruct (read_dict_sound _ _ _ _ _ F E) as (b & Rr & U & _).
    pose proof (record_nonempty _ _ _ _ F Ne Rr). rewrite U, app_length in L.
    destruct b; [congruence|]. simpl in L. lia.
  - destruct (read_dict_errors4 _ _ _ _ _ F D E) as [Ee|(o & ->)].
    + destruct e1; try discriminate. destruct empty; [discriminate|]. injection R as <- <-. auto.
    + injection R as <- <-. eauto.
Qed.
Lemma read_repeatedly_errors4 f ts s s' e :
  format_types f ts -> default_sizes f = true -> some_nonempty ts = true ->
  read_repeatedly f s = (s', Err e) -> is_eof_error e = true \/ (exists o, e = UnicodeDecodeError o).
Proof.
  intros F D Ne R. unfold read_repeatedly in R. destruct f as [|x f].
  - inversion F; subst. discriminate.
  - eapply read_loop_errors4; [exact F|exact D|exact Ne| |exact R]. lia.
Qed.
Lemma read_loop_records f n acc s s' vs :
  read_loop n f acc s = (s', Ok vs) ->
  exists ds, vs = acc ++ ds /\ Forall (fun d => exists s1 s2, read_dict f s1 = (s2, Ok d)) ds.
Proof.
  revert acc s; induction n as [|n IH]; intros acc s R; cbn [read_loop] in R; [discriminate|].
  destruct (read_dict f s) as [s1 [d|e1]] eqn:E.
  - apply IH in R as (ds & -> & H). exists (d :: ds). rewrite <- app_assoc. split; [reflexivity|].
    constructor; eauto.
  - destruct e1; try discriminate. destruct empty; [|discriminate]. injection R as <- <-.
    exists []. rewrite app_nil_r. auto.
Qed.
Lemma read_repeatedly_records f s s' vs :
  read_repeatedly f s = (s', Ok vs) -> Forall (fun d => exists s1 s2, read_dict f s1 = (s2, Ok d)) vs.
Proof.
  unfold read_repeatedly. destruct f; [discriminate|]. intros R.
  apply read_loop_records in R as (ds & -> & H). exact H.
Qed.
Lemma read_dict_field f ts s s' d k t :
  format_types f ts -> NoDup (map fst ts) -> read_dict f s = (s', Ok d) -> In (k, t) ts ->
  exists v b, dget k d = Some v /\ wire t v b.
Proof.
  intros F N R Hin. destruct (read_dict_sound _ _ _ _ _ F R) as (b & Rr & _).
  assert (In k (dkeys d)) as Hk.
  { rewrite (record_keys _ _ _ _ Rr). apply in_map_iff. exists (k, t). auto. }
  destruct (dget k d) as [v|] eqn:G; [|apply dget_None in G; contradiction].
  destruct (record_get _ _ _ _ _ _ _ N Rr Hin G) as (? & b2 & ? & _ & W). eauto.
Qed.

(** ** Certificate accessors *)
Lemma principal_types : format_types [fld "principal" fS] [(str "principal", TText 4)].
Proof. apply ftypes_of_sound. reflexivity. Qed.
Lemma option_types : format_types options_fmt [(str "option", TText 4); (str "value", TBytes 4)].
Proof. apply ftypes_of_sound. reflexivity. Qed.
Lemma option_keys_nodup : NoDup (map fst [(str "option", TText 4); (str "value", TBytes 4)]).
Proof. apply nodupb_sound. reflexivity. Qed.

Lemma rmap_ok {A B} (f : A -> res B) l : (forall x, In x l -> exists y, f x = Ok y) -> exists r, rmap f l = Ok r.
Proof.
  induction l as [|x l IH]; intros H; cbn [rmap]; [eauto|].
  destruct (H x (or_introl eq_refl)) as (y & ->). destruct IH as (r & ->); [intros; apply H; right; assumption|].
  cbn [rbind]. eauto.
Qed.
Lemma valid_principals_errors d b e :
  get_bytes "valid_principals" d = Some b -> get_valid_principals d = Err e ->
  is_eof_error e = true \/ (exists o, e = UnicodeDecodeError o).
Proof.
  intros G. unfold get_bytes in G. unfold get_valid_principals, ditem.
  destruct (dget (str "valid_principals") d) as [[]|]; try discriminate. injection G as ->.
  cbn [rbind stream_of_val].
  destruct (read_repeatedly [fld "principal" fS] (stream_of b)) as [s' [vs|e1]] eqn:E; cbn [snd rbind].
  - apply read_repeatedly_records in E. intros K. exfalso.
    destruct (rmap_ok (ditem (str "principal")) vs) as (r & Er); [|unfold ditem in *; congruence].
    intros x Hx. rewrite Forall_forall in E. destruct (E x Hx) as (s1 & s2 & R).
    destruct (read_dict_field _ _ _ _ _ (str "principal") (TText 4) principal_types (nodup_one _) R) as (v & ? & Gv & _);
      [left; reflexivity|]. unfold ditem. rewrite Gv. eauto.
  - intros K; injection K as <-. eapply read_repeatedly_errors4; [apply principal_types|reflexivity|reflexivity|exact E].
Qed.
Lemma collect_ok param acc vs :
  Forall (fun d => exists s1 s2, read_dict options_fmt s1 = (s2, Ok d)) vs ->
  exists opts, snd (collect_options param acc vs) = Ok opts.
Proof.
  intros H; revert acc; induction H as [|d vs (s1 & s2 & R) H IH]; intros acc; cbn [collect_options]; [eexists; reflexivity|].
  destruct (read_dict_field _ _ _ _ _ (str "option") (TText 4) option_types option_keys_nodup R) as (v & ? & -> & Wv);
    [left; reflexivity|].
  destruct (read_dict_field _ _ _ _ _ (str "value") (TBytes 4) option_types option_keys_nodup R) as (w & ? & -> & Ww);
    [right; left; reflexivity|].
  inversion Wv; subst. rewrite snd_wseq_ok by apply snd_wwhen. apply IH.
Qed.
Lemma option_values_errors param d b e :
  dget param d = Some (VBytes b) -> snd (get_option_values_dict param d) = Err e ->
  is_eof_error e = true \/ (exists o, e = UnicodeDecodeError o).
Proof.
  intros G. unfold get_option_values_dict, ditem. rewrite G. unfold wlift. cbn [wbind stream_of_val].
  destruct (read_repeatedly options_fmt (stream_of b)) as [s' [vs|e1]] eqn:E; cbn [snd wbind].
  - apply read_repeatedly_records in E. destruct (collect_ok param [] vs E) as (opts & Eo).
    destruct (collect_options param [] vs) as [l r]. cbn [snd app] in *. congruence.
  - intros K; injection K as <-. eapply read_repeatedly_errors4; [apply option_types|reflexivity|reflexivity|exact E].
Qed.

(** ** Keys *)
(** The exceptions of key parsing. *)
Definition parse_error (e : exn) : Prop := is_value_error e = true \/ is_eof_error e = true \/ (exists o, e = KeyError o).
(** The exceptions of key construction. *)
Definition construct_error (e : exn) : Prop := (exists o, e = UnicodeDecodeError o) \/ (exists o, e = KeyError o).

Lemma wseq_err {B} (x : W unit) (y : W B) e :
  snd (wseq x y) = Err e -> snd x = Err e \/ (snd x = Ok tt /\ snd y = Err e).
Proof.
  unfold wseq. destruct x as [l [[]|e1]]; cbn [wbind snd]; [|intros H; left; congruence].
  destruct y as [l' r]. cbn [snd]. auto.
Qed.
Lemma wbind_err {A B} (x : W A) (f : A -> W B) e :
  snd (wbind x f) = Err e -> snd x = Err e \/ exists a, snd x = Ok a /\ snd (f a) = Err e.
Proof.
  destruct x as [l [a|e1]]; cbn [wbind snd]; [|intros H; left; congruence].
  destruct (f a) as [l' r] eqn:E. cbn [snd]. intros ->. right. exists a. rewrite E. auto.
Qed.
Lemma wcatch_err {A} (x : W A) h f e :
  snd (wcatch x h f) = Err e -> (exists e1, snd x = Err e1 /\ h e1 = true /\ snd (f e1) = Err e) \/
    (snd x = Err e /\ h e = false).
Proof.
  destruct x as [l [a|e1]]; cbn [wcatch snd]; [discriminate|].
  destruct (h e1) eqn:Eh.
  - destruct (f e1) as [l' r] eqn:E. cbn [snd]. intros ->. left. exists e1. rewrite E. auto.
  - cbn [snd]. intros K; injection K as <-. auto.
Qed.
Lemma wdiscard_err {A} (x : W A) e : snd (wdiscard x) = Err e -> snd x = Err e.
Proof. intros H. apply wbind_err in H as [H|(a & _ & H)]; [exact H|discriminate]. Qed.

Section Ec.
Variable ec : curve -> bytes -> bool.

Lemma check_cert_errors pp d e :
  (forall b e, get_bytes "signature_key" d = Some b -> snd (pp b) = Err e -> parse_error e) ->
  snd (check_cert pp d) = Err e -> construct_error e.
Proof.
  intros Hpp H. unfold check_cert in H.
  apply wseq_err in H as [H|(_ & H)].
  { exfalso. destruct (dmem (str "type") d) eqn:Em; [|discriminate].
    apply wcatch_err in H as [(e1 & _ & _ & K)|(H & Hh)]; [discriminate|].
    apply wdiscard_err in H. cbn [wlift snd] in H. unfold get_type, ditem in H. unfold dmem in Em.
    destruct (dget (str "type") d) as [v|]; [|discriminate]. cbn [rbind] in H.
    destruct (find _ _); [discriminate|]. injection H as <-. discriminate. }
  apply wseq_err in H as [H|(_ & H)].
  { destruct (get_bytes "valid_principals" d) as [b|] eqn:G; [|discriminate].
    apply wcatch_err in H as [(e1 & _ & _ & K)|(H & Hh)]; [discriminate|].
    apply wdiscard_err in H. cbn [wlift snd] in H.
    destruct (valid_principals_errors _ _ _ G H) as [K|(o & ->)]; [congruence|left; eauto]. }
  apply wseq_err in H as [H|(_ & H)].
  { destruct (get_bytes "critical_options" d) as [b|] eqn:G; [|discriminate].
    apply wcatch_err in H as [(e1 & _ & _ & K)|(H & Hh)]; [discriminate|].
    apply wdiscard_err in H. unfold get_bytes in G.
    destruct (dget (str "critical_options") d) as [[]|] eqn:G1; try discriminate.
    destruct (option_values_errors _ _ _ _ G1 H) as [K|(o & ->)]; [congruence|left; eauto]. }
  apply wseq_err in H as [H|(_ & H)].
  { destruct (get_bytes "extensions" d) as [b|] eqn:G; [|discriminate].
    apply wcatch_err in H as [(e1 & _ & _ & K)|(H & Hh)]; [discriminate|].
    apply wdiscard_err in H. unfold get_bytes in G.
    destruct (dget (str "extensions") d) as [[]|] eqn:G1; try discriminate.
    destruct (option_values_errors _ _ _ _ G1 H) as [K|(o & ->)]; [congruence|left; eauto]. }
  destruct (get_bytes "signature_key" d) as [b|] eqn:G; [|discriminate].
  apply wcatch_err in H as [(e1 & _ & _ & K)|(H & Hh)]; [discriminate|].
  apply wdiscard_err in H. unfold get_signature_key, ditem in H.
  pose proof G as G1. unfold get_bytes in G1.
  destruct (dget (str "signature_key") d) as [[]|] eqn:G2; try discriminate. injection G1 as ->.
  cbn [wlift] in H. apply wbind_err in H as [H|(v & Ev & H)]; [discriminate|].
  cbn [wlift snd] in Ev. injection Ev as <-.
  apply wbind_err in H as [H|(k & _ & H)].
  - destruct (Hpp b e eq_refl H) as [K|[K|(o & ->)]]; [| |right; eauto];
      unfold is_authority_error in Hh; rewrite K in Hh; destruct (is_value_error e); discriminate.
  - apply wseq_err in H as [H|(_ & H)]; [|discriminate].
    rewrite snd_wwhen in H. discriminate.
Qed.
Lemma run_steps_errors pp c d l ts e :
  format_types (format_of c) ts ->
  (forall b e, get_bytes "signature_key" d = Some b -> snd (pp b) = Err e -> parse_error e) ->
  snd (run_steps ec pp c d l) = Err e -> construct_error e.
Proof.
  intros F Hpp. induction l as [|s l IH]; cbn [run_steps]; [discriminate|]. intros H.
  apply wseq_err in H as [H|(_ & H)]; [|auto].
  destruct s; cbn [check_step] in H.
  - rewrite (proj1 (check_dict_spec d _ _ F)) in H. discriminate.
  - unfold check_ecdsa in H. destruct (dget _ d); [|discriminate].
    rewrite snd_wseq_ok in H by apply snd_wwhen. destruct (get_bytes "q" d); [rewrite snd_wwhen in H|]; discriminate.
  - unfold check_ed_pub in H. destruct (get_bytes "public" d); [rewrite snd_wwhen in H|]; discriminate.
  - unfold check_ed_priv in H. destruct (get_bytes "private_public" d); [|discriminate].
    destruct (get_bytes "public" d); [|discriminate].
    rewrite snd_wseq_ok, snd_wwhen in H by apply snd_wwhen. discriminate.
  - eapply check_cert_errors; eassumption.
Qed.
Lemma spec_of_class kd v c : params_class kd v = Ok c -> exists ts, format_types (format_of c) ts /\ default_sizes (format_of c) = true.
Proof.
  intros Hc. destruct (known_type _ _ _ Hc) as (t & pub & priv & -> & Hs).
  assert (exists ts, fields_of kd (pub, priv) = Some ts) as (ts & Hf).
  { destruct kd; cbn [fields_of fst snd]; eauto. destruct priv as [priv|]; eauto.
    cbn [params_class] in Hc. rewrite (spec_cert_no_private _ _ Hs) in Hc. discriminate. }
  destruct (spec_class _ _ _ _ _ Hs Hf) as (c' & Hc' & F & _). assert (c' = c) as -> by congruence.
  exists ts. split; [exact F|].
  each_spec Hs; injection Hs as <- <- <-; destruct kd; cbn [fields_of fst snd] in Hf; try discriminate;
      vm_compute in Hc; injection Hc as <-; vm_compute; reflexivity.
Qed.
Lemma params_class_errors kd t e : params_class kd (VStr t) = Err e -> (exists o, e = KeyError o).
Proof.
  intros Ec. destruct (in_dec (list_eq_dec N.eq_dec) t (map fst key_specs)) as [I|N].
  - apply in_map_iff in I as ((t' & (pub & priv)) & <- & I). cbn [fst] in Ec.
    destruct kd; cbn [params_class] in Ec.
    + destruct (spec_public _ _ _ I) as (c & Hc & _). congruence.
    + destruct priv as [priv|].
      * destruct (spec_private _ _ _ I) as (c & Hc & _). congruence.
      * rewrite (spec_cert_no_private _ _ I) in Ec. injection Ec as <-. eauto.
  - apply unknown_type in N as (N1 & N2). destruct kd; cbn [params_class] in Ec; [rewrite N1 in Ec|rewrite N2 in Ec]; injection Ec as <-; eauto.
Qed.
Lemma new_params_errors pp kd v c d e :
  params_class kd v = Ok c ->
  (forall b e, get_bytes "signature_key" d = Some b -> snd (pp b) = Err e -> parse_error e) ->
  snd (new_params ec pp c d) = Err e -> construct_error e.
Proof.
  intros Hc Hpp. destruct (spec_of_class _ _ _ Hc) as (ts & F & _).
  unfold new_params. generalize (check_plan c). intros l. exact (run_steps_errors pp c d l ts e F Hpp).
Qed.
Lemma new_key_errors pp kd h ps fo cl t e :
  dget (str "key_type") h = Some (VStr t) ->
  (forall b e, get_bytes "signature_key" ps = Some b -> snd (pp b) = Err e -> parse_error e) ->
  snd (new_key ec pp kd h ps fo cl) = Err e -> construct_error e.
Proof.
  intros G Hpp H. unfold new_key in H.
  apply wseq_err in H as [H|(_ & H)].
  { rewrite (proj1 (check_dict_spec h _ _ (header_types kd))) in H. discriminate. }
  unfold ditem in H. rewrite G in H.
  apply wbind_err in H as [H|(v & Ev & H)]; [discriminate|].
  assert (v = VStr t) as -> by (cbn [wlift snd] in Ev; congruence).
  apply wbind_err in H as [H|(c & Ec & H)].
  { cbn [wlift snd] in H. right. eapply params_class_errors; exact H. }
  cbn [wlift snd] in Ec.
  apply wseq_err in H as [H|(_ & H)].
  { eapply new_params_errors; eassumption. }
  apply wseq_err in H as [H|(_ & H)]; [|discriminate].
  rewrite (proj1 (check_dict_spec fo _ _ (footer_types kd))) in H. discriminate.
Qed.
Lemma read_key_parts_errors kd s s' e : read_key_parts kd s = (s', Err e) ->
  is_eof_error e = true \/ (exists o, e = UnicodeDecodeError o) \/ (exists o, e = KeyError o).
Proof.
  unfold read_key_parts. unfold pbind at 1.
  destruct (read_dict (header_fmt kd) s) as [s1 [hd|e1]] eqn:E1.
  2: { intros K; injection K as <- <-.
       apply (read_dict_errors4 _ _ _ _ _ (header_types kd)) in E1; [tauto|destruct kd; reflexivity]. }
  destruct (read_dict_sound _ _ _ _ _ (header_types kd) E1) as (b1 & R1 & _).
  destruct (record_one_inv _ _ _ _ _ R1) as (vt & -> & W1).
  unfold pbind at 1, plift at 1. unfold ditem. cbn [dget]. rewrite str_eqb_refl.
  unfold pbind at 1, plift. inversion W1; subst.
  destruct (params_class kd (VStr s0)) as [c|e0] eqn:Ec.
  2: { intros K; injection K as <- <-. right. right. eapply params_class_errors; exact Ec. }
  destruct (spec_of_class _ _ _ Ec) as (ts & F & D).
  unfold pbind at 1. destruct (read_dict (format_of c) s1) as [s2 [pv|e2]] eqn:E2.
  2: { intros K; injection K as <- <-. apply (read_dict_errors4 _ _ _ _ _ F D) in E2. tauto. }
  unfold pbind. destruct (read_dict (footer_fmt kd) s2) as [s3 [fv|e3]] eqn:E3; [discriminate|].
  intros K; injection K as <- <-.
  apply (read_dict_errors4 _ _ _ _ _ (footer_types kd)) in E3; [tauto|destruct kd; reflexivity].
Qed.
Lemma key_from_stream_errors pp kd cl s s' w e :
  (forall b e, (length b < length (unread s))%nat \/ kd = KPriv -> snd (pp b) = Err e -> parse_error e) ->
  key_from_stream ec pp kd cl s = (s', w) -> snd w = Err e -> parse_error e.
Proof.
  intros Hpp. unfold key_from_stream.
  destruct (read_key_parts kd s) as [s1 [[[h ps] fo]|e1]] eqn:E; intros K; injection K as <- <-; intros H.
  - destruct (read_key_parts_sound _ _ _ _ _ _ E) as (t & pub & priv & ts & b & Hs & Hf & -> & _).
    assert (construct_error e) as [(o & ->)|(o & ->)]; [|left; reflexivity|right; right; eauto].
    eapply new_key_errors; [|  |exact H].
    + cbn [dget]. rewrite str_eqb_refl. reflexivity.
    + intros b' e' G He. eapply Hpp; [|exact He]. destruct kd; [left|right; reflexivity].
      eapply parts_signature_shorter; eassumption.
  - cbn [werr snd] in H. injection H as <-.
    destruct (read_key_parts_errors _ _ _ _ E) as [K|[(o & ->)|(o & ->)]]; unfold parse_error; eauto.
Qed.
Lemma key_from_bytes_with_errors pp kd b cl e :
  (forall b' e, (length b' < length b)%nat \/ kd = KPriv -> snd (pp b') = Err e -> parse_error e) ->
  snd (key_from_bytes_with ec pp kd b cl) = Err e -> parse_error e.
Proof.
  intros Hpp. unfold key_from_bytes_with.
  destruct (key_from_stream ec pp kd cl (stream_of b)) as [s' w] eqn:E. intros H.
  apply wbind_err in H as [H|(k & _ & H)].
  - eapply key_from_stream_errors; [|exact E|exact H]. exact Hpp.
  - destruct (unread s'); [discriminate|]. apply wseq_err in H as [H|(_ & H)]; discriminate.
Qed.
Lemma parse_pub_errors b e : snd (parse_pub ec b) = Err e -> parse_error e.
Proof.
  revert e. remember (length b) as n eqn:En. revert b En.
  induction n as [n IH] using (well_founded_induction Nat.lt_wf_0). intros b -> e H.
  rewrite parse_pub_unfold in H. eapply key_from_bytes_with_errors; [|exact H].
  intros b' e' [L|K] H'; [|discriminate]. eapply IH; [exact L|reflexivity|exact H'].
Qed.
Lemma key_from_bytes_errors kd b cl e : snd (key_from_bytes ec kd b cl) = Err e -> parse_error e.
Proof. intros H. eapply key_from_bytes_with_errors; [|exact H]. intros b' e' _. apply parse_pub_errors. Qed.
End Ec.
