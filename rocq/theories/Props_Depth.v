(** Property C76: how deeply parsing a public key nests. *)
From Verif Require Import PyBase IntBytes Utf8 StructFmt Stream Classes Key SpecWire SpecKey SpecDepth.
From Verif Require Import ProofBase ProofInt ProofUtf8 ProofWire ProofRecord ProofKey.
Open Scope Z_scope.

(** [parse_pub_fuel ec d] (Key.v) is PublicKey.from_bytes when the interpreter allows at most
    [d] calls of it inside each other; [OutOfFuel] then stands for RecursionError, which none of
    the library's except clauses catches. *)

(** ** Sizes *)
Definition min_size (t : ftype) : nat :=
  match t with TBytes k | TText k | TMpint k => k | TInt _ _ n => n | TBlob n => n end.
Definition total (ts : list (pystr * ftype)) : nat := fold_right (fun kt a => (min_size (snd kt) + a)%nat) 0%nat ts.
Lemma wire_min_size t v b : wire t v b -> (min_size t <= length b)%nat.
Proof. intros W. inversion W; subst; cbn [min_size]; try lia; match goal with H : prefixed _ _ _ |- _ => apply prefixed_length in H; lia end. Qed.
Lemma record_min_size ts vs b : record_of wire ts vs b -> (total ts <= length b)%nat.
Proof.
  induction 1 as [|k t ts v vs b bs W R IH]; [apply Nat.le_refl|].
  apply wire_min_size in W. unfold total in *. cbn [fold_right snd]. rewrite app_length. lia.
Qed.
Lemma record_field_size ts vs b k n u :
  NoDup (map fst ts) -> record_of wire ts vs b -> In (k, TBytes n) ts -> dget k vs = Some (VBytes u) ->
  (total ts + length u <= length b)%nat.
Proof.
  intros N R. induction R as [|k0 t0 ts v0 vs b bs W R IH]; intros Hin G; [contradiction|].
  cbn [map fst] in N. inversion N as [|? ? N1 N2]; subst. cbn [dget] in G.
  unfold total in *. cbn [fold_right snd]. rewrite app_length.
  destruct (str_eqb_reflect k k0) as [->|Nk].
  - injection G as ->. destruct Hin as [E|Hin].
    + injection E as ->. destruct (wire_octets_len _ _ _ W) as (u' & E & L). injection E as <-.
      apply record_min_size in R. unfold total in R. cbn [min_size]. lia.
    + exfalso. apply N1. apply in_map_iff. exists (k0, TBytes n). auto.
  - destruct Hin as [E|Hin]; [congruence|]. specialize (IH N2 Hin G). apply wire_min_size in W. lia.
Qed.
Lemma utf8_length s u : utf8 s u -> (length s <= length u)%nat.
Proof.
  induction 1 as [|c s u b H U IH]; [apply Nat.le_refl|]. cbn [length]. rewrite app_length.
  destruct u as [|x u]; [inversion H|]. cbn [length]. lia.
Qed.
Lemma certificates_are_large t base : In (t, base) cert_specs -> (100 <= 4 + length t + total (cert_fields base))%nat.
Proof.
  intros H. assert (forallb (fun s => (100 <=? 4 + length (fst s) + total (cert_fields (snd s)))%nat) cert_specs = true) as A
    by (vm_compute; reflexivity).
  rewrite forallb_forall in A. specialize (A _ H). cbn [fst snd] in A. apply Nat.leb_le in A. exact A.
Qed.
Lemma cert_in_specs t base : In (t, base) cert_specs -> In (t, (cert_fields base, None)) key_specs.
Proof.
  intros H. unfold key_specs. apply in_or_app. right. apply in_map_iff. exists (t, base). auto.
Qed.
Lemma specs_with_authority t pub priv : In (t, (pub, priv)) key_specs -> In (str "signature_key") (map fst pub) ->
  exists base, In (t, base) cert_specs /\ pub = cert_fields base.
Proof.
  intros H Hin. unfold key_specs in H. apply in_app_or in H as [H|H]; apply in_map_iff in H as (x & E & Hx).
  - exfalso. injection E as <- <- <-.
    assert (forallb (fun s => negb (existsb (str_eqb (str "signature_key")) (map fst (fst (snd s))))) plain_specs = true) as A
      by (vm_compute; reflexivity).
    rewrite forallb_forall in A. specialize (A _ Hx). apply negb_true_iff in A.
    assert (existsb (str_eqb (str "signature_key")) (map fst (fst (snd x))) = true) as B
      by (apply existsb_exists; eexists; split; [exact Hin|apply str_eqb_refl]).
    congruence.
  - injection E as <- <- _. exists (snd x). split; [destruct x; exact Hx|reflexivity].
Qed.

(** A key of [n] bytes holds at most [n / 100] nested certificates. *)
Theorem C76_nesting_needs_bytes n b : nested n b -> (100 * n <= length b)%nat.
Proof.
  induction 1 as [|n t base ps b rest inner Hs R G H IH]; [lia|].
  pose proof (certificates_are_large _ _ Hs) as L. inversion R as [|? ? ? ? ? b1 b2 W1 R2]; subst.
  destruct (spec_public _ _ _ (cert_in_specs _ _ Hs)) as (_ & _ & _ & N & _).
  assert (In (str "signature_key", TBytes 4) (cert_fields base)) as Hin.
  { unfold cert_fields, cert_signed. apply in_or_app. left. apply in_or_app. right. apply in_or_app. right.
    do 9 right. left. reflexivity. }
  pose proof (record_field_size _ _ _ _ _ _ N R2 Hin G) as L2.
  inversion W1 as [|? ? ? ? U P| | |]; subst. apply prefixed_length in P. apply utf8_length in U.
  rewrite !app_length. lia.
Qed.

Section Ec.
Variable ec : curve -> bytes -> bool.

(** Parsing needs as many calls inside each other as there are nested certificates, plus one. *)
Theorem C76_depth_is_nesting d b : ~ nested d b -> parse_pub_fuel ec d b = key_from_bytes ec KPub b None.
Proof.
  intros H. change (key_from_bytes ec KPub b None) with (key_from_bytes_with ec (parse_pub ec) KPub b None).
  rewrite <- parse_pub_unfold. revert b H. induction d as [|d IH]; intros b H; [exfalso; apply H; constructor|].
  rewrite parse_pub_unfold. cbn [parse_pub_fuel]. unfold key_from_bytes_with, key_from_stream.
  destruct (read_key_parts KPub (stream_of b)) as [s' [[[h ps] fo]|e]] eqn:E; [|reflexivity].
  rewrite (new_key_pp ec (parse_pub_fuel ec d) (parse_pub ec)); [reflexivity|].
  intros b' G. apply IH. intros Hn. apply H.
  destruct (read_key_parts_sound _ _ _ _ _ _ E) as (t & pub & priv & ts & b0 & Hs & Hf & -> & R & Hk & Hfo & U & _).
  cbn [fields_of fst] in Hf. injection Hf as <-.
  unfold key_fields in R. cbn [footer_fields] in *. rewrite app_nil_r in R.
  destruct fo; [|discriminate]. rewrite app_nil_r in R. cbn [app] in R.
  unfold get_bytes in G. destruct (dget (str "signature_key") ps) as [[]|] eqn:G'; try discriminate. injection G as ->.
  assert (In (str "signature_key") (map fst pub)) as Hin.
  { rewrite Hk. apply dget_In in G'. apply in_map_iff. eexists. split; [|exact G']. reflexivity. }
  destruct (specs_with_authority _ _ _ Hs Hin) as (base & Hc & ->).
  change (unread (stream_of b)) with b in U. rewrite U.
  eapply nested_cert; eassumption.
Qed.
(** So [len / 100 + 1] calls inside each other are always enough. *)
Theorem C76_depth_bound d b : (length b < 100 * d)%nat -> parse_pub_fuel ec d b = key_from_bytes ec KPub b None.
Proof. intros H. apply C76_depth_is_nesting. intros N. apply C76_nesting_needs_bytes in N. lia. Qed.

End Ec.

(** ** The bound is attained *)
(** An RSA certificate for an empty key by the authority [inner]. *)
Definition shell_params (inner : bytes) : dict pyval :=
  [(str "nonce", VBytes []); (str "e", VInt 0); (str "n", VInt 0);
   (str "serial", VInt 0); (str "type", VInt 1); (str "key_id", VStr []); (str "valid_principals", VBytes []);
   (str "valid_after", VInt 0); (str "valid_before", VInt 0); (str "critical_options", VBytes []);
   (str "extensions", VBytes []); (str "reserved", VBytes []); (str "signature_key", VBytes inner); (str "signature", VBytes [])].
Definition shell_type : pystr := str "ssh-rsa-cert-v01@openssh.com".
Definition shell_head : bytes :=
  [x00; x00; x00; x1c] ++ bstr "ssh-rsa-cert-v01@openssh.com" ++ repeat x00 12 ++ repeat x00 8 ++ [x00; x00; x00; x01] ++
  repeat x00 36.
Definition shell (inner : bytes) : bytes :=
  shell_head ++ (be_bytes 4 (Z.of_nat (length inner)) ++ inner) ++ repeat x00 4.
Fixpoint shells (d : nat) : bytes := match d with O => [] | S d' => shell (shells d') end.
Lemma shells_length d : length (shells d) = (100 * d)%nat.
Proof.
  induction d as [|d IH]; [reflexivity|]. cbn [shells]. unfold shell.
  rewrite !app_length, be_bytes_length, IH, repeat_length. change (length shell_head) with 92%nat. lia.
Qed.
Lemma shell_record inner : Z.of_nat (length inner) < 2 ^ 32 ->
  record_of wire (type_field :: cert_fields rsa_public) ((str "key_type", VStr shell_type) :: shell_params inner) (shell inner).
Proof.
  intros L.
  assert (prefixed 4 [] (repeat x00 4)) as P0 by (exists (repeat x00 4); repeat split; reflexivity).
  assert (wire (TBytes 4) (VBytes []) (repeat x00 4)) as WB by (constructor; exact P0).
  assert (wire (TMpint 4) (VInt 0) (repeat x00 4)) as WM by (change 0 with (signed []); constructor; exact P0).
  assert (wire (TText 4) (VStr []) (repeat x00 4)) as WT by (apply (wire_text 4 [] []); [constructor|exact P0]).
  assert (forall n, wire (TInt true false n) (VInt 0) (repeat x00 n)) as WI.
  { intros n. constructor; [apply repeat_length|]. induction n as [|n IH]; [reflexivity|]. cbn [repeat unsigned]. rewrite <- IH. reflexivity. }
  assert (wire (TText 4) (VStr shell_type) ([x00; x00; x00; x1c] ++ bstr "ssh-rsa-cert-v01@openssh.com")) as Wt.
  { apply (wire_text 4 _ (bstr "ssh-rsa-cert-v01@openssh.com")).
    - apply utf8_encode_iff. vm_compute. reflexivity.
    - exists [x00; x00; x00; x1c]. repeat split; vm_compute; reflexivity. }
  assert (wire (TInt true false 4) (VInt 1) [x00; x00; x00; x01]) as W1 by (constructor; reflexivity).
  assert (wire (TBytes 4) (VBytes inner) (be_bytes 4 (Z.of_nat (length inner)) ++ inner)) as Wi.
  { constructor. eexists. split; [apply be_bytes_length|]. split; [|reflexivity].
    rewrite unsigned_be, be_value_be_bytes. apply Z.mod_small. change (256 ^ Z.of_nat 4) with (2 ^ 32). lia. }
  replace (shell inner) with
    (([x00; x00; x00; x1c] ++ bstr "ssh-rsa-cert-v01@openssh.com") ++ repeat x00 4 ++ repeat x00 4 ++ repeat x00 4 ++
     repeat x00 8 ++ [x00; x00; x00; x01] ++ repeat x00 4 ++ repeat x00 4 ++ repeat x00 8 ++ repeat x00 8 ++ repeat x00 4 ++
     repeat x00 4 ++ repeat x00 4 ++ (be_bytes 4 (Z.of_nat (length inner)) ++ inner) ++ repeat x00 4 ++ [])
    by (unfold shell; generalize (be_bytes 4 (Z.of_nat (length inner)) ++ inner); intros r; reflexivity).
  repeat (apply rec_cons; [first [exact Wt|exact WB|exact WM|exact WT|exact W1|exact Wi|apply WI]|]).
  apply rec_nil.
Qed.
Lemma shells_nested d : 100 * Z.of_nat d < 2 ^ 32 -> nested d (shells d).
Proof.
  change (2 ^ 32) with 4294967296. induction d as [|d IH]; intros H; [constructor|].
  cbn [shells]. rewrite <- (app_nil_r (shell (shells d))).
  eapply nested_cert; [|apply shell_record; rewrite shells_length; change (2 ^ 32) with 4294967296; lia|reflexivity|apply IH; lia].
  unfold cert_specs. repeat (first [left; reflexivity|right]).
Qed.

Section Attained.
Variable ec : curve -> bytes -> bool.
Lemma caught {A} (x : W A) (f : A -> W A) h w :
  (forall a, snd (f a) = Ok a) ->
  snd (wcatch (wdiscard (wbind x f)) h (fun _ => wwarn w)) =
  match snd x with Err e => if h e then Ok tt else Err e | Ok _ => Ok tt end.
Proof.
  intros H. destruct x as [l [a|e]]; cbn [wbind wdiscard wcatch snd].
  - specialize (H a). destruct (f a) as [l' r]. cbn [snd] in H. subst r. reflexivity.
  - destruct (h e); reflexivity.
Qed.
Lemma get_authority pp inner : get_signature_key pp (shell_params inner) =
  wbind (pp inner) (fun k => wwhen (issubclass (k_pcls k) CertPub) (wwarn WCertCA) ;; wret k).
Proof.
  unfold get_signature_key. change (ditem (str "signature_key") (shell_params inner)) with (Ok (VBytes inner)).
  unfold wlift. cbn [wbind]. destruct (wbind (pp inner) _) as [l r]. reflexivity.
Qed.
Lemma silent_seq (x : W unit) : wseq (@nil event, Ok tt) x = x.
Proof. destruct x. reflexivity. Qed.
Lemma seq_ret (x : W unit) : wseq x (wret tt) = x.
Proof. destruct x as [l [[]|e]]; unfold wseq, wbind, wret; cbn; rewrite ?app_nil_r; reflexivity. Qed.
Lemma shell_checks pp inner r :
  snd (pp inner) = r -> snd (new_params ec pp CertRSA (shell_params inner)) =
  match r with Err e => if is_authority_error e then Ok tt else Err e | Ok _ => Ok tt end.
Proof.
  intros H. unfold new_params.
  replace (check_plan CertRSA) with [StFormat; StFormat; StCert] by (vm_compute; reflexivity).
  cbn [run_steps check_step].
  assert (check_dict (shell_params inner) (format_of CertRSA) = ([], Ok tt)) as -> by (vm_compute; reflexivity).
  assert (check_cert pp (shell_params inner) =
    wcatch (wdiscard (get_signature_key pp (shell_params inner))) is_authority_error (fun _ => wwarn WCertAuthority)) as E.
  { unfold check_cert.
    change (get_bytes "valid_principals" (shell_params inner)) with (Some (@nil byte)).
    change (get_bytes "critical_options" (shell_params inner)) with (Some (@nil byte)).
    change (get_bytes "extensions" (shell_params inner)) with (Some (@nil byte)).
    change (get_bytes "signature_key" (shell_params inner)) with (Some inner).
    change (dmem (str "type") (shell_params inner)) with true.
    unfold wseq, wdiscard.
    assert (forall A (x : W A), (let '(l, r) := x in (l, r)) = x) as Eta by (intros A [? ?]; reflexivity).
    generalize (wcatch (wbind (get_signature_key pp (shell_params inner)) (fun _ => wret tt)) is_authority_error
      (fun _ => wwarn WCertAuthority)). intros w. destruct w as [lw rw]. vm_compute. reflexivity. }
  rewrite !silent_seq, seq_ret, E, get_authority, caught; [rewrite H; reflexivity|].
  intros k. destruct (issubclass (k_pcls k) CertPub); reflexivity.
Qed.
Definition shell_key (inner : bytes) : key :=
  mkkey KPub [(str "key_type", VStr shell_type)] CertRSA (shell_params inner) [] [].
Lemma shell_is_spec : In (shell_type, (cert_fields rsa_public, None)) key_specs.
Proof. apply cert_in_specs. do 0 (right). unfold cert_specs. repeat (first [left; reflexivity|right]). Qed.
Lemma snd_seq_ok {A} (x : W unit) (y : W A) : snd (wseq x y) = match snd x with Ok _ => snd y | Err e => Err e end.
Proof. destruct x as [l [[]|e]]; [|reflexivity]. unfold wseq, wbind. destruct y. reflexivity. Qed.
Lemma shell_parse pp inner : Z.of_nat (length inner) < 2 ^ 32 ->
  snd (key_from_bytes_with ec pp KPub (shell inner) None) =
  match snd (pp inner) with
  | Err e => if is_authority_error e then Ok (shell_key inner) else Err e
  | Ok _ => Ok (shell_key inner)
  end.
Proof.
  intros L. pose proof (shell_record inner L) as R. unfold key_from_bytes_with.
  assert (Z.of_nat (length (shell inner)) <= ssize_max) as Ls.
  { unfold shell. rewrite !app_length, be_bytes_length, repeat_length. change (length shell_head) with 92%nat.
    change ssize_max with (2 ^ 63 - 1). change (2 ^ 32) with 4294967296 in L. lia. }
  rewrite (key_from_stream_record ec pp KPub None shell_type (cert_fields rsa_public) None (cert_fields rsa_public)
             (stream_of (shell inner)) (shell_params inner) [] (shell inner) []).
  2: exact shell_is_spec.
  2: reflexivity.
  2: { unfold key_fields. cbn [footer_fields]. rewrite !app_nil_r. exact R. }
  2: reflexivity.
  2: exact Ls.
  2: { rewrite app_nil_r. reflexivity. }
  assert (snd (new_key ec pp KPub [(str "key_type", VStr shell_type)] (shell_params inner) [] None) =
    match snd (pp inner) with
    | Err e => if is_authority_error e then Ok (shell_key inner) else Err e
    | Ok _ => Ok (shell_key inner)
    end) as N.
  { unfold new_key.
    replace (check_dict [(str "key_type", VStr shell_type)] (header_fmt KPub)) with (@nil event, Ok tt) by (vm_compute; reflexivity).
    change (ditem (str "key_type") [(str "key_type", VStr shell_type)]) with (Ok (VStr shell_type)).
    replace (check_dict [] (footer_fmt KPub)) with (@nil event, Ok tt) by (vm_compute; reflexivity).
    rewrite snd_seq_ok. cbn [snd]. unfold wlift at 1. cbn [wbind].
    replace (params_class KPub (VStr shell_type)) with (Ok CertRSA) by (vm_compute; reflexivity).
    pose proof (shell_checks pp inner _ eq_refl) as C.
    unfold wlift. cbn [wbind].
    destruct (new_params ec pp CertRSA (shell_params inner)) as [l [[]|e]]; cbn [snd] in C;
      unfold wseq, wret; cbn [wbind snd]; destruct (pp inner) as [l' [k|e']]; cbn [snd] in C |- *;
      try destruct (is_authority_error e'); try discriminate; try reflexivity; injection C as ->; reflexivity. }
  rewrite unread_adv. change (unread (stream_of (shell inner))) with (shell inner). rewrite skipn_all.
  destruct (new_key ec pp KPub _ _ _ _) as [l [k|e]]; cbn [snd] in N; rewrite <- N; reflexivity.
Qed.

(** Every length [100 * d] (below the 4 GiB that a length prefix can express) has keys that need
    more than [d] calls inside each other: with only [d], RecursionError escapes from parsing;
    with one more, they parse. *)
Theorem C76_bound_attained d : 0 < Z.of_nat d -> 100 * Z.of_nat d < 2 ^ 32 ->
  exists b k, length b = (100 * d)%nat /\ nested d b /\
    snd (parse_pub_fuel ec d b) = Err OutOfFuel /\
    snd (parse_pub_fuel ec (S d) b) = Ok k /\ snd (key_from_bytes ec KPub b None) = Ok k.
Proof.
  intros Hd L. destruct d as [|d]; [lia|]. clear Hd. exists (shells (S d)), (shell_key (shells d)).
  assert (forall n, (n <= S d)%nat -> Z.of_nat (length (shells n)) < 2 ^ 32) as Ln.
  { intros n H. rewrite shells_length. change (2 ^ 32) with 4294967296 in *. lia. }
  assert (forall n, (n <= S d)%nat -> snd (parse_pub_fuel ec n (shells n)) = Err OutOfFuel) as F.
  { induction n as [|n IH]; intros H; [reflexivity|]. cbn [shells parse_pub_fuel].
    rewrite shell_parse by (apply Ln; lia). rewrite IH by lia. reflexivity. }
  assert (forall n, (n <= d)%nat -> snd (parse_pub_fuel ec (S (S n)) (shells (S n))) = Ok (shell_key (shells n))) as K.
  { induction n as [|n IH]; intros H.
    - change (parse_pub_fuel ec 2 (shells 1)) with (key_from_bytes_with ec (parse_pub_fuel ec 1) KPub (shell []) None).
      rewrite shell_parse by reflexivity. vm_compute. reflexivity.
    - change (shells (S (S n))) with (shell (shells (S n))).
      change (parse_pub_fuel ec (S (S (S n)))) with (fun b => key_from_bytes_with ec (parse_pub_fuel ec (S (S n))) KPub b None).
      cbv beta. rewrite shell_parse by (apply Ln; lia). rewrite IH by lia. reflexivity. }
  assert (length (shells (S d)) < 100 * S (S d))%nat as Lt by (rewrite shells_length; lia).
  split; [apply shells_length|]. split; [apply shells_nested; change (2 ^ 32) with 4294967296 in *; lia|]. split; [apply F; lia|].
  split; [apply K; lia|]. rewrite <- (C76_depth_bound ec (S (S d))) by exact Lt. apply K; lia.
Qed.
End Attained.

(** Three certificates inside each other, in 300 bytes: nesting 3 and not 4. *)
Example C76_example : length (shells 3) = 300%nat /\ nested 3 (shells 3) /\ ~ nested 4 (shells 3).
Proof.
  split; [apply shells_length|]. split.
  - apply shells_nested. vm_compute. reflexivity.
  - intros H. apply C76_nesting_needs_bytes in H. rewrite shells_length in H. lia.
Qed.

Print Assumptions C76_nesting_needs_bytes.
Print Assumptions C76_depth_is_nesting.
Print Assumptions C76_depth_bound.
Print Assumptions C76_bound_attained.
