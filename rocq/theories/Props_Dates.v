(** Properties of certificate validity times: C63. *)
From Verif Require Import PyBase IntBytes Utf8 StructFmt Stream Text Classes Key SpecWire SpecKey Dates.
From Verif Require Import ProofBase ProofInt ProofUtf8 ProofWire ProofRecord ProofKey Props_Key Props_Cert.
Open Scope Z_scope.

(** What is assumed of datetime where stated: a moment that fromtimestamp returns has the
    timestamp it was made from. *)
Definition exact_clock (clk : clock) : Prop :=
  forall z t, from_timestamp clk z = Ok t -> whole_timestamp clk t = z.
(** The last second of the year 9999 (datetime's last year), UTC; local times differ by less
    than a day. *)
Definition end_of_time : Z := 253402300799.
Definition bounded_clock (clk : clock) : Prop :=
  forall z, end_of_time + 86400 < z -> exists e, from_timestamp clk z = Err e.
(** For examples: universal time. *)
Definition utc : clock := mkclock Z
  (fun z => if z <? -62135596800 then Err ValueError else if end_of_time <? z then Err ValueError else Ok z) (fun z => z).
Lemma utc_exact : exact_clock utc.
Proof.
  intros z t. cbn [from_timestamp whole_timestamp utc]. destruct (_ <? _); [discriminate|]. destruct (_ <? _); [discriminate|].
  intros H. injection H as ->. reflexivity.
Qed.
Lemma utc_bounded : bounded_clock utc.
Proof.
  intros z H. cbn [from_timestamp utc]. destruct (Z.ltb_spec z (-62135596800)); [eauto|].
  destruct (Z.ltb_spec end_of_time z); [eauto|]. unfold end_of_time in *. lia.
Qed.

Section Clock.
Variable clk : clock.
(** Setting stores the whole seconds: the getter returns the moment of that timestamp. The
    other time, and every other parameter, stays as it was. *)
Theorem C63_set_then_get t d :
  get_valid_after clk (set_valid_after clk t d) = from_timestamp clk (whole_timestamp clk t) /\
  get_valid_before clk (set_valid_before clk t d) = from_timestamp clk (whole_timestamp clk t) /\
  get_valid_before clk (set_valid_after clk t d) = get_valid_before clk d /\
  get_valid_after clk (set_valid_before clk t d) = get_valid_after clk d /\
  (forall x, x <> str "valid_after" -> dget x (set_valid_after clk t d) = dget x d) /\
  (forall x, x <> str "valid_before" -> dget x (set_valid_before clk t d) = dget x d).
Proof.
  unfold get_valid_after, get_valid_before, set_valid_after, set_valid_before, ditem.
  rewrite !dget_dset_same, !dget_dset_other by discriminate.
  repeat split; intros x N; apply dget_dset_other; exact N.
Qed.
(** A moment of whole seconds is returned as it was set; setting what was got changes nothing. *)
Theorem C63_whole_seconds_roundtrip z t d :
  exact_clock clk -> from_timestamp clk z = Ok t ->
  get_valid_after clk (set_valid_after clk t d) = Ok t /\
  get_valid_before clk (set_valid_before clk t d) = Ok t.
Proof.
  intros X E. destruct (C63_set_then_get t d) as (A & B & _). rewrite A, B, (X _ _ E). auto.
Qed.
Theorem C63_set_what_was_got t d :
  exact_clock clk ->
  (get_valid_after clk d = Ok t -> forall x, dget x (set_valid_after clk t d) = dget x d) /\
  (get_valid_before clk d = Ok t -> forall x, dget x (set_valid_before clk t d) = dget x d).
Proof.
  intros X. unfold get_valid_after, get_valid_before, set_valid_after, set_valid_before, ditem.
  split; intros H x;
    (match type of H with context [dget ?y d] => destruct (dget y d) as [v|] eqn:G; cbn [rbind] in H; [|discriminate];
       destruct v; cbn [fromtimestamp] in H; try discriminate; rewrite (X _ _ H);
       destruct (str_eqb_reflect x y) as [->|N]; [rewrite dget_dset_same; auto|apply dget_dset_other; exact N] end).
Qed.

(** Without the entry there is a KeyError, and an entry that is no number is refused with TypeError. *)
Theorem C63_no_number d :
  (dget (str "valid_after") d = None -> get_valid_after clk d = Err (KeyError (VStr (str "valid_after")))) /\
  (dget (str "valid_before") d = None -> get_valid_before clk d = Err (KeyError (VStr (str "valid_before")))) /\
  forall v, (exists b, v = VBytes b) \/ (exists s, v = VStr s) \/ (exists l, v = VTuple l) ->
    (dget (str "valid_after") d = Some v -> get_valid_after clk d = Err TypeError) /\
    (dget (str "valid_before") d = Some v -> get_valid_before clk d = Err TypeError).
Proof.
  unfold get_valid_after, get_valid_before, ditem. split; [intros ->; reflexivity|]. split; [intros ->; reflexivity|].
  intros v [(b & ->)|[(s & ->)|(l & ->)]]; (split; intros ->; reflexivity).
Qed.

(** Packing after setting a time. *)
Lemma dict_bytes_other f d d' : (forall k, In k (dkeys f) -> dget k d' = dget k d) -> dict_bytes f d' = dict_bytes f d.
Proof.
  induction f as [|(k, i) f IH]; intros H; [reflexivity|]. cbn [dict_bytes]. unfold ditem.
  rewrite (H k) by (left; reflexivity). rewrite IH; [reflexivity|]. intros k0 I. apply H. right. exact I.
Qed.
Lemma uint64_pack z : (0 <= z < 2 ^ 64 -> exists b, instr_bytes (FStruct (str ">Q")) (VInt z) = Ok b /\ length b = 8%nat /\ unsigned b = z) /\
  (~ (0 <= z < 2 ^ 64) -> instr_bytes (FStruct (str ">Q")) (VInt z) = Err StructError).
Proof.
  assert (has_type (FStruct (str ">Q")) (TInt true false 8)) as Ht.
  { apply (ht_int ">" true "Q" false 8); cbn [In order_codes int_codes]; auto 20. }
  pose proof (struct_pack_conforms (str ">Q") _ (VInt z) Ht) as C. cbn [conforms] in C.
  change (2 ^ (8 * Z.of_nat 8)) with (2 ^ 64) in C. cbn [instr_bytes]. split.
  - intros R. apply C in R as (b & E). exists b. split; [exact E|].
    apply (struct_write _ _ _ _ Ht) in E; [|exact I]. inversion E; subst. auto.
  - intros N. destruct (struct_pack (str ">Q") [VInt z]) as [b|e] eqn:E; [exfalso; apply N; apply C; eauto|].
    f_equal. eapply struct_pack_err; eassumption.
Qed.
Lemma dict_bytes_set f x d b z :
  In (x, FStruct (str ">Q")) f -> NoDup (dkeys f) -> dict_bytes f d = Ok b ->
  (0 <= z < 2 ^ 64 -> exists pre old new post, b = pre ++ old ++ post /\ length old = 8%nat /\
     dict_bytes f (dset x (VInt z) d) = Ok (pre ++ new ++ post) /\ length new = 8%nat /\ unsigned new = z) /\
  (~ (0 <= z < 2 ^ 64) -> dict_bytes f (dset x (VInt z) d) = Err StructError).
Proof.
  intros I N E. apply in_split in I as (f1 & f2 & ->). unfold dkeys in N. rewrite map_app in N. cbn [map fst] in N.
  pose proof (NoDup_remove_2 _ _ _ N) as Nx. rewrite dict_bytes_app in *. cbn [dict_bytes] in *.
  assert (forall g, (forall k, In k (dkeys g) -> In k (dkeys f1 ++ dkeys f2)) -> dict_bytes g (dset x (VInt z) d) = dict_bytes g d) as O.
  { intros g Hg. apply dict_bytes_other. intros k Hk. apply dget_dset_other. intros ->. apply Nx. apply Hg. exact Hk. }
  rewrite !O by (intros k Hk; apply in_or_app; auto).
  apply rbind_ok in E as (b1 & E1 & E). apply rbind_ok in E as (r & E2 & E). injection E as <-.
  apply rbind_ok in E2 as (v & Ev & E2). apply rbind_ok in E2 as (b2 & Eb & E2). apply rbind_ok in E2 as (b3 & Er & E2).
  injection E2 as <-. rewrite E1, Er. cbn [rbind]. unfold ditem at 1 2. rewrite dget_dset_same. cbn [rbind].
  destruct (uint64_pack z) as (P & Q). split.
  - intros R. destruct (P R) as (new & -> & L & U). cbn [rbind]. exists b1, b2, new, b3.
    split; [reflexivity|]. split; [|auto].
    assert (has_type (FStruct (str ">Q")) (TInt true false 8)) as Ht.
    { apply (ht_int ">" true "Q" false 8); cbn [In order_codes int_codes]; auto 20. }
    cbn [instr_bytes] in Eb. apply (struct_write _ _ _ _ Ht) in Eb; [|exact I]. inversion Eb; subst. assumption.
  - intros R. rewrite (Q R). reflexivity.
Qed.
Definition with_params (k : key) (ps : dict pyval) : key :=
  mkkey (k_kind k) (k_header k) (k_pcls k) ps (k_footer k) (k_clear k).
Lemma cert_time_fields t base : In (t, base) cert_specs -> exists c, params_class KPub (VStr t) = Ok c /\
  In (str "valid_after", FStruct (str ">Q")) (format_of c) /\ In (str "valid_before", FStruct (str ">Q")) (format_of c).
Proof.
  intros H. unfold cert_specs in H. cbn [In] in H.
  repeat (destruct H as [H|H]; [injection H as <- <-; eexists; split; [vm_compute; reflexivity|]; split; vm_compute; repeat (first [left; reflexivity|right])|]).
  contradiction.
Qed.
(** Setting a time in a certificate that can be packed: if the timestamp is a 64-bit unsigned
    number, the packed certificate changes in exactly the eight bytes of that field, which hold
    the timestamp; otherwise (a time before 1970) packing raises struct.error. *)
Theorem C63_packing_after_set t base k b x tm :
  In (t, base) cert_specs -> is_key t k -> pack_public_bytes k = Ok b ->
  In x [set_valid_after clk; set_valid_before clk] ->
  let k' := with_params k (x tm (k_params k)) in
  let z := whole_timestamp clk tm in
  (0 <= z < 2 ^ 64 -> exists pre old new post, b = pre ++ old ++ post /\ length old = 8%nat /\
     pack_public_bytes k' = Ok (pre ++ new ++ post) /\ length new = 8%nat /\ unsigned new = z) /\
  (~ (0 <= z < 2 ^ 64) -> pack_public_bytes k' = Err StructError).
Proof.
  intros Hs Hk E Hx k' z.
  assert (In (t, (cert_fields base, None)) key_specs) as Hs'.
  { unfold key_specs. apply in_or_app. right. apply in_map_iff. exists (t, base). auto. }
  pose proof (public_class_of _ _ _ _ Hs' Hk) as Hc.
  destruct (spec_public _ _ _ Hs') as (c & A & F & N & _).
  destruct (cert_time_fields _ _ Hs) as (c' & A' & Fa & Fb). cbn [params_class] in A'.
  assert (first_public_class (k_pcls k) = c) as Ec by congruence. assert (c' = c) as -> by congruence.
  rewrite pack_public_eq in *. subst k'. cbn [with_params k_header k_pcls k_params]. rewrite Ec in *.
  apply rbind_ok in E as (b1 & E1 & E). apply rbind_ok in E as (b2 & E2 & E). injection E as <-.
  rewrite E1. cbn [rbind].
  assert (exists y, x tm (k_params k) = dset y (VInt z) (k_params k) /\ In (y, FStruct (str ">Q")) (format_of c)) as (y & -> & Hy).
  { destruct Hx as [<-|[<-|[]]]; [exists (str "valid_after")|exists (str "valid_before")]; auto. }
  assert (NoDup (dkeys (format_of c))) as N' by (rewrite (format_keys _ _ F); exact N).
  destruct (dict_bytes_set _ _ _ _ z Hy N' E2) as (P & Q). split.
  - intros R. destruct (P R) as (pre & old & new & post & -> & L & -> & M). exists (b1 ++ pre), old, new, post.
    cbn [rbind]. rewrite <- !app_assoc. auto.
  - intros R. rewrite (Q R). reflexivity.
Qed.
(** A certificate that never expires (valid_before is 2^64-1, "forever" in PROTOCOL.certkeys)
    has no valid_before that the getter could return. *)
Theorem C63_forever_refuted d :
  bounded_clock clk -> dget (str "valid_before") d = Some (VInt (2 ^ 64 - 1)) ->
  exists e, get_valid_before clk d = Err e.
Proof.
  intros B G. unfold get_valid_before, ditem. rewrite G. cbn [rbind fromtimestamp]. apply B. unfold end_of_time. lia.
Qed.
End Clock.
(** Hypotheses met: a certificate that packs; a time after 1970, one before, and "forever". *)
Example C63_example :
  exact_clock utc /\ bounded_clock utc /\
  is_key (str "ssh-ed25519-cert-v01@openssh.com") ex_cert /\
  (exists b, pack_public_bytes ex_cert = Ok b) /\
  get_valid_after utc (set_valid_after utc 1600000000 (k_params ex_cert)) = Ok 1600000000 /\
  (exists b, pack_public_bytes (with_params ex_cert (set_valid_after utc 1600000000 (k_params ex_cert))) = Ok b) /\
  pack_public_bytes (with_params ex_cert (set_valid_after utc (-1) (k_params ex_cert))) = Err StructError /\
  get_valid_before utc [(str "valid_before", VInt (2 ^ 64 - 1))] = Err ValueError.
Proof.
  split; [exact utc_exact|]. split; [exact utc_bounded|]. split; [split; vm_compute; reflexivity|].
  split; [eexists; vm_compute; reflexivity|]. split; [vm_compute; reflexivity|].
  split; [eexists; vm_compute; reflexivity|]. split; vm_compute; reflexivity.
Qed.

Print Assumptions C63_set_then_get.
Print Assumptions C63_whole_seconds_roundtrip.
Print Assumptions C63_set_what_was_got.
Print Assumptions C63_no_number.
Print Assumptions C63_packing_after_set.
Print Assumptions C63_forever_refuted.
