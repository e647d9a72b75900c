(** Lemmas on parsing private key lists. *)
From Verif Require Import PyBase IntBytes Utf8 StructFmt Stream Text Classes Key Crypto PrivateKeyList.
From Verif Require Import SpecWire SpecKey SpecCrypto SpecList.
From Verif Require Import ProofBase ProofInt ProofUtf8 ProofWire ProofRecord ProofKey ProofLog ProofErr ProofCrypto ProofList.
From Verif Require Import Props_Key.
Open Scope Z_scope.

(** ** The monad of from_bytes *)
Lemma snd_swbind {A B} (x : SW A) (f : A -> SW B) s :
  snd (swbind x f s) = wbind (snd (x s)) (fun a => snd (f a (fst (x s)))).
Proof.
  unfold swbind, wbind. destruct (x s) as [s' [l [a|e]]]; cbn [fst snd]; [|reflexivity].
  destruct (f a s') as [s2 [l2 r]]. reflexivity.
Qed.
Lemma swbind_inv {A B} (x : SW A) (f : A -> SW B) s s2 l b :
  swbind x f s = (s2, (l, Ok b)) ->
  exists s1 l1 a l2, x s = (s1, (l1, Ok a)) /\ f a s1 = (s2, (l2, Ok b)) /\ l = l1 ++ l2.
Proof.
  unfold swbind. destruct (x s) as [s1 [l1 [a|e]]]; [|discriminate].
  destruct (f a s1) as [s3 [l2 r]] eqn:E. intros H. injection H as -> <- ->. exists s1, l1, a, l2. auto.
Qed.
Lemma snd_swp {A} (x : P A) s : snd (swp x s) = wlift (snd (x s)).
Proof. unfold swp. destruct (x s). reflexivity. Qed.
Lemma fst_swp {A} (x : P A) s : fst (swp x s) = fst (x s).
Proof. unfold swp. destruct (x s). reflexivity. Qed.
Lemma wbind_lift {A B} (a : A) (f : A -> W B) : wbind (wlift (Ok a)) f = f a.
Proof. unfold wbind, wlift. destruct (f a). reflexivity. Qed.
Lemma wlift_inv {A} (r : res A) l a : wlift r = (l, Ok a) -> l = [] /\ r = Ok a.
Proof. unfold wlift. intros H. injection H as <- ->. auto. Qed.
Lemma wbind_ret {A B} (a : A) (f : A -> W B) : wbind (wret a) f = f a.
Proof. unfold wbind, wret. destruct (f a). reflexivity. Qed.
Fixpoint wmap {A B} (f : A -> W B) (l : list A) : W (list B) :=
  match l with
  | [] => wret []
  | x :: l' => do y <- f x; do r <- wmap f l'; wret (y :: r)
  end.
Lemma wmap_ok {A B} (f : A -> W B) l lg r : wmap f l = (lg, Ok r) ->
  exists logs, Forall2 (fun a bl => f a = (snd bl, Ok (fst bl))) l (combine r logs) /\ length r = length l /\ length logs = length l /\ lg = concat logs.
Proof.
  revert lg r; induction l as [|x l IH]; intros lg r H; cbn [wmap] in H.
  - injection H as <- <-. exists []. repeat split; constructor.
  - apply wbind_inv in H as (l1 & y & l2 & E & H & ->). apply wbind_inv in H as (l3 & r' & l4 & E' & H & ->).
    injection H as <- <-. apply IH in E' as (logs & F & L1 & L2 & ->). exists (l1 :: logs). cbn [combine].
    split; [constructor; [exact E|exact F]|]. cbn. rewrite app_nil_r. repeat split; lia.
Qed.

(** ** Fields *)
Lemma read_octets_ok s u x rest : prefixed 4 u x -> Z.of_nat (length x) <= ssize_max -> unread s = x ++ rest ->
  read_instr fB s = (adv (length x) s, Ok (VBytes u)).
Proof.
  intros H L E. apply (read_instr_complete fB (TBytes 4) s (VBytes u) x rest); [constructor|constructor; exact H|exact L|exact E].
Qed.
Lemma read_octets_sound s s' v : read_instr fB s = (s', Ok v) ->
  exists u x, v = VBytes u /\ prefixed 4 u x /\ unread s = x ++ unread s' /\ s' = adv (length x) s.
Proof.
  intros H. apply (read_instr_sound fB (TBytes 4)) in H as (b & W & E & A); [|constructor].
  inversion W; subst. eexists _, _. repeat split; eassumption.
Qed.
Definition header_types : list (pystr * ftype) :=
  [(str "auth_magic", TBlob 15); text "cipher"; text "kdf"; octets "kdf_options"; (str "num_keys", TInt true true 4)].
Lemma header_types_ok : format_types list_header_fmt header_types.
Proof. apply ftypes_of_sound. vm_compute. reflexivity. Qed.
Definition check_types : list (pystr * ftype) := [uint32 "check_int_1"; uint32 "check_int_2"].
Lemma check_types_ok : format_types decipher_header_fmt check_types.
Proof. apply ftypes_of_sound. vm_compute. reflexivity. Qed.

Section Read.
Variable p : prims.
Let ec := p_ec_ok p.

(** ** Public keys *)
Lemma read_pubs_complete fuel pubs xs s rest :
  Forall2 (prefixed 4) pubs xs -> unread s = concat xs ++ rest -> Z.of_nat (length (concat xs)) <= ssize_max ->
  (length pubs <= fuel)%nat ->
  snd (read_pubs p fuel (Z.of_nat (length pubs)) s) = wmap (fun b => pub_from_bytes p b None) pubs /\
  (forall lg ks, wmap (fun b => pub_from_bytes p b None) pubs = (lg, Ok ks) ->
     fst (read_pubs p fuel (Z.of_nat (length pubs)) s) = adv (length (concat xs)) s).
Proof.
  intros H. revert fuel s. induction H as [|u x pubs xs Hx H IH]; intros fuel s E L F.
  - destruct fuel; cbn; (split; [reflexivity|]); intros; rewrite adv_0; reflexivity.
  - destruct fuel as [|fuel]; [cbn in F; lia|]. cbn [read_pubs wmap concat length] in *.
    replace (Z.of_nat (S (length pubs)) <=? 0) with false by lia.
    rewrite <- app_assoc in E. rewrite app_length in *.
    assert (unread (adv (length x) s) = concat xs ++ rest) as E' by (rewrite unread_adv, E; apply skipn_app_exact; reflexivity).
    specialize (IH fuel (adv (length x) s) E' ltac:(lia) ltac:(lia)).
    replace (Z.of_nat (S (length pubs)) - 1) with (Z.of_nat (length pubs)) by lia.
    pose proof (read_octets_ok s u x _ Hx ltac:(lia) E) as R.
    unfold swbind at 1 4. unfold swp at 1 2. rewrite R.
    unfold swbind at 1 3. unfold sww at 1 3.
    destruct (pub_from_bytes p u None) as [l [k|e]]; cbn [wbind].
    2: { split; [reflexivity|]. intros; discriminate. }
    destruct IH as (I1 & I2). unfold swbind, sww.
    destruct (read_pubs p fuel (Z.of_nat (length pubs)) (adv (length x) s)) as [s2 [l2 r2]]. cbn [fst snd] in *. rewrite <- I1 in *.
    destruct r2 as [r2|e2]; cbn [wbind wret].
    + cbn [fst snd]. rewrite !app_nil_r. split; [reflexivity|]. intros _ _ _. rewrite (I2 _ _ eq_refl). apply adv_adv.
    + cbn [fst snd]. split; [reflexivity|]. intros; discriminate.
Qed.
Lemma read_pubs_sound fuel n s s' lg ks : 0 <= n ->
  read_pubs p fuel n s = (s', (lg, Ok ks)) ->
  exists pubs xs, Forall2 (prefixed 4) pubs xs /\ Z.of_nat (length pubs) = n /\ length ks = length pubs /\
    unread s = concat xs ++ unread s' /\ s' = adv (length (concat xs)) s.
Proof.
  revert n s lg ks. induction fuel as [|fuel IH]; intros n s lg ks Hn H; cbn [read_pubs] in H.
  - destruct (n <=? 0) eqn:E; [|discriminate]. injection H as <- <- <-. exists [], []. apply Z.leb_le in E.
    repeat split; [constructor|cbn; lia|rewrite adv_0; reflexivity].
  - destruct (n <=? 0) eqn:E.
    + injection H as <- <- <-. exists [], []. apply Z.leb_le in E. repeat split; [constructor|cbn; lia|rewrite adv_0; reflexivity].
    + apply Z.leb_gt in E. apply swbind_inv in H as (s1 & l1 & v & l2 & Hv & H & ->).
      unfold swp in Hv. destruct (read_instr fB s) as [s1' r] eqn:R. injection Hv as -> <- ->.
      apply read_octets_sound in R as (u & x & -> & Px & Ex & ->).
      apply swbind_inv in H as (s2 & l3 & k & l4 & Hk & H & ->). unfold sww in Hk. injection Hk as <- Hk.
      apply swbind_inv in H as (s3 & l5 & r & l6 & Hr & H & ->). unfold sww, wret in H. injection H as <- <- <-.
      apply IH in Hr as (pubs & xs & F & L & Lk & E1 & ->); [|lia].
      exists (u :: pubs), (x :: xs). split; [constructor; assumption|]. split; [cbn; lia|]. split; [cbn; lia|]. cbn [concat].
      rewrite app_length. split; [rewrite <- app_assoc, <- E1; exact Ex|rewrite adv_adv; reflexivity].
Qed.

(** ** The file *)
Definition parse_file (e : env) (b : bytes) (cn kn : pystr) (opts : bytes) (pubs : list bytes) (body tail : bytes)
    (given : option pystr) : W pkl :=
  do keys <- wmap (fun b => pub_from_bytes p b None) pubs;
  do k <- wlift (get_kdf (VStr kn));
  do options <- wlift (snd (read_dict (kdf_format k) (stream_of opts)));
  do _ <- new_kdf k options;
  do c <- wlift (get_cipher (VStr cn));
  do pw <- match k with KdfNone => wret [] | KdfBcrypt => get_passphrase e given end;
  do tag <- wlift (if is_integrity c then snd (read_fixed_bytes 16 (stream_of tail)) else Ok []);
  do _ <- new_kdf k options;
  do plain <- wlift (cipher_decrypt p c k options pw (body ++ tag));
  do r <- parse_deciphered p c keys plain;
  let '(pairs, dheader, padding) := r in
  wret (mkpkl pairs (Some b) (Some (file_header (VStr cn) (VStr kn) opts (length pubs))) (Some (body ++ tag))
              (Some options) (Some plain) (Some dheader) (Some padding)).
Lemma header_record cn kn opts c k o n count :
  wire (TText 4) (VStr cn) c -> wire (TText 4) (VStr kn) k -> prefixed 4 opts o ->
  length n = 4%nat -> unsigned n = Z.of_nat count -> Z.of_nat count < 2 ^ 31 ->
  record_of wire header_types (file_header (VStr cn) (VStr kn) opts count) (magic ++ c ++ k ++ o ++ n).
Proof.
  intros Hc Hk Ho Ln Un Sn. unfold header_types, file_header, text, octets, spec_field.
  constructor; [constructor; reflexivity|]. constructor; [exact Hc|]. constructor; [exact Hk|].
  constructor; [constructor; exact Ho|]. rewrite <- (app_nil_r n). constructor; [|constructor].
  constructor; [exact Ln|]. symmetry. apply signed_small; assumption.
Qed.
Lemma read_dict_fst f s s' r : read_dict f s = (s', r) -> fst (read_dict f s) = s' /\ snd (read_dict f s) = r.
Proof. intros ->. auto. Qed.
Lemma read_fixed_tail s tail : unread s = tail ->
  snd (read_fixed_bytes 16 s) = snd (read_fixed_bytes 16 (stream_of tail)).
Proof.
  intros E. rewrite !read_fixed_spec by (unfold ssize_max; lia). rewrite E.
  change (unread (stream_of tail)) with tail. destruct (Z.to_nat 16 <=? length tail)%nat; reflexivity.
Qed.
Lemma from_bytes_file e b cn kn opts pubs body tail given :
  file_of cn kn opts pubs body tail b -> Z.of_nat (length pubs) < 2 ^ 31 -> Z.of_nat (length b) <= ssize_max ->
  from_bytes_try p e b given = parse_file e b cn kn opts pubs body tail given.
Proof.
  intros (c & k & o & n & ps & x & Hc & Hk & Ho & Ln & Un & Hps & Hx & Eb) Sn Hb.
  pose proof (header_record _ _ _ _ _ _ _ _ Hc Hk Ho Ln Un Sn) as Hr.
  assert (b = (magic ++ c ++ k ++ o ++ n) ++ concat ps ++ x ++ tail) as E1 by (rewrite Eb, <- !app_assoc; reflexivity).
  set (h := magic ++ c ++ k ++ o ++ n) in *. set (hd := file_header (VStr cn) (VStr kn) opts (length pubs)) in *.
  assert (read_dict list_header_fmt (stream_of b) = (adv (length h) (stream_of b), Ok hd)) as R1.
  { apply (read_dict_complete _ _ _ _ _ (concat ps ++ x ++ tail) header_types_ok Hr);
      [rewrite E1, app_length in Hb; lia|exact E1]. }
  assert (unread (adv (length h) (stream_of b)) = concat ps ++ x ++ tail) as E2.
  { rewrite unread_adv. change (unread (stream_of b)) with b. rewrite E1. apply skipn_app_exact. reflexivity. }
  set (s1 := adv (length h) (stream_of b)) in *.
  assert (length pubs <= length b)%nat as Lp.
  { assert (length pubs <= length (concat ps))%nat by (clear - Hps; induction Hps as [|u v ? ? P ? IH]; cbn; [lia|]; rewrite app_length; apply prefixed_length in P; lia).
    rewrite E1, !app_length. lia. }
  destruct (read_pubs_complete (length b) pubs ps s1 (x ++ tail) Hps E2 ltac:(rewrite E1, !app_length in Hb; lia) Lp) as (R2 & R3).
  unfold from_bytes_try. rewrite snd_swbind, snd_swp, fst_swp, R1. cbn [fst snd]. rewrite wbind_lift.
  change (ditem (str "auth_magic") hd) with (Ok (VBytes auth_magic)). rewrite snd_swbind. cbn [sww fst snd]. rewrite wbind_lift.
  rewrite val_eqb_refl. rewrite snd_swbind. cbn [sww fst snd]. rewrite wbind_ret.
  change (ditem (str "num_keys") hd) with (Ok (VInt (Z.of_nat (length pubs)))). cbn [rbind as_int].
  rewrite snd_swbind. cbn [sww fst snd]. rewrite wbind_lift.
  replace (Z.of_nat (length pubs) <? 0) with false by lia. rewrite snd_swbind. cbn [sww fst snd]. rewrite wbind_ret.
  rewrite snd_swbind. rewrite R2. unfold parse_file.
  destruct (wmap (fun b0 => pub_from_bytes p b0 None) pubs) as [lg [keys|er]] eqn:Ew; [|reflexivity].
  rewrite (R3 _ _ eq_refl). clear R2 R3.
  set (s2 := adv (length (concat ps)) s1).
  assert (unread s2 = x ++ tail) as E3 by (unfold s2; rewrite unread_adv, E2; apply skipn_app_exact; reflexivity).
  pose proof (read_octets_ok s2 body x tail Hx ltac:(rewrite E1, !app_length in Hb; lia) E3) as R4.
  assert (unread (adv (length x) s2) = tail) as E4 by (rewrite unread_adv, E3; apply skipn_app_exact; reflexivity).
  set (s3 := adv (length x) s2) in *.
  match goal with |- wbind (?lg, Ok ?v) ?f = wbind _ ?g => change (wbind (lg, Ok v) f = wbind (lg, Ok v) g); assert (f v = g v) as EE; [cbv beta|unfold wbind at 1 2; rewrite EE; reflexivity] end.
  rewrite snd_swbind, snd_swp, fst_swp, R4. cbn [fst snd]. rewrite wbind_lift.
  cbn [as_bytes]. rewrite snd_swbind. cbn [sww fst snd]. rewrite wbind_lift.
  change (ditem (str "kdf") hd) with (Ok (VStr kn)). rewrite snd_swbind. cbn [sww fst snd]. rewrite wbind_lift.
  rewrite snd_swbind. cbn [sww fst snd]. apply wbind_ext. intros kd.
  change (ditem (str "kdf_options") hd) with (Ok (VBytes opts)). rewrite snd_swbind. cbn [sww fst snd]. rewrite wbind_lift.
  cbn [stream_of_val]. rewrite snd_swbind. cbn [sww fst snd]. rewrite wbind_lift.
  rewrite snd_swbind. cbn [sww fst snd]. apply wbind_ext. intros options.
  rewrite snd_swbind. cbn [sww fst snd]. apply wbind_ext. intros _.
  change (ditem (str "cipher") hd) with (Ok (VStr cn)). rewrite snd_swbind. cbn [sww fst snd]. rewrite wbind_lift.
  rewrite snd_swbind. cbn [sww fst snd]. apply wbind_ext. intros ci.
  rewrite snd_swbind. cbn [sww fst snd]. apply wbind_ext. intros pw.
  rewrite snd_swbind.
  destruct (is_integrity ci); cbv iota.
  - rewrite snd_swp, fst_swp. change (Z.of_nat (tag_length ci)) with 16. rewrite (read_fixed_tail s3 tail E4).
    apply wbind_ext. intros tag. rewrite snd_swbind. cbn [sww fst snd]. apply wbind_ext. intros _.
    rewrite snd_swbind. cbn [sww fst snd]. apply wbind_ext. intros plain.
    rewrite snd_swbind. cbn [sww fst snd]. apply wbind_ext. intros [[pairs dheader] padding]. reflexivity.
  - cbn [sww fst snd].
    apply wbind_ext. intros tag. rewrite snd_swbind. cbn [sww fst snd]. apply wbind_ext. intros _.
    rewrite snd_swbind. cbn [sww fst snd]. apply wbind_ext. intros plain.
    rewrite snd_swbind. cbn [sww fst snd]. apply wbind_ext. intros [[pairs dheader] padding]. reflexivity.
Qed.

(** ** Private keys *)
Lemma private_blob_read cl k x s rest : private_blob k x -> cl = None ->
  unread s = x ++ rest -> Z.of_nat (length x) <= ssize_max ->
  exists lg, key_from_stream ec (parse_pub ec) KPriv cl s = (adv (length x) s, (lg, Ok k)).
Proof.
  intros (t & pub & priv & Hs & (Hk1 & Hk2) & Ek & Eh & Ep & Ef & Ec & R) -> U L.
  rewrite Ek in Hk2. rewrite Eh in R.
  rewrite (key_from_stream_record ec (parse_pub ec) KPriv None t pub (Some priv) priv s (k_params k) (k_footer k) x rest Hs eq_refl R
    ltac:(rewrite <- (map_length fst priv), <- Ep; unfold dkeys; rewrite map_length; reflexivity) L U).
  pose proof (new_params_plain_ok ec t pub priv KPriv _ (parse_pub ec) (k_params k) Hs Hk2) as Op.
  destruct (new_params ec (parse_pub ec) (k_pcls k) (k_params k)) as [l1 r1] eqn:E1. cbn [snd] in Op. subst r1.
  assert (dget (str "key_type") [(str "key_type", VStr t)] = Some (VStr t)) as G
    by (cbn [dget]; rewrite str_eqb_refl; reflexivity).
  rewrite (new_key_intro ec (parse_pub ec) KPriv _ (k_params k) (k_footer k) None _ _ l1 G Hk2 E1).
  eexists. f_equal. f_equal. f_equal. destruct k. cbn in *. subst. reflexivity.
Qed.
Lemma private_blob_sound s s' lg k :
  key_from_stream ec (parse_pub ec) KPriv None s = (s', (lg, Ok k)) ->
  exists x, private_blob k x /\ unread s = x ++ unread s' /\ s' = adv (length x) s.
Proof.
  intros H. apply key_from_stream_sound in H as (t & pub & priv & ts & ps & fo & b & c & Hs & Hf & R & Hk & Hfo & Hc & U & Es & _ & ->).
  cbn in Hf. destruct priv as [priv|]; [|discriminate]. injection Hf as ->.
  exists b. split; [|auto]. exists t, pub, ts. split; [exact Hs|]. cbn [k_kind k_header k_params k_footer k_clear].
  split; [split; [cbn [k_header dget]; rewrite str_eqb_refl; reflexivity|exact Hc]|]. auto 10.
Qed.
Lemma private_blob_type k x : private_blob k x -> exists v, ditem (str "key_type") (k_header k) = Ok v.
Proof. intros (t & pub & priv & _ & (H & _) & _). unfold ditem. rewrite H. eexists; reflexivity. Qed.
Lemma pub_from_bytes_type b lg k : key_from_bytes ec KPub b None = (lg, Ok k) ->
  (exists v, ditem (str "key_type") (k_header k) = Ok v) /\ NoDup (dkeys (k_params k)).
Proof.
  intros H. split; [|apply (C54_parsed_keys_are_well_formed _ _ _ _ _ H)].
  destruct (C17_parsed_keys_have_types _ _ _ _ _ _ H) as (_ & t & pub & priv & _ & (G & _)). unfold ditem. rewrite G. eexists; reflexivity.
Qed.

Lemma forallb_false {A} (f : A -> bool) l : forallb f l = false -> exists x, In x l /\ f x = false.
Proof.
  induction l as [|x l IH]; cbn [forallb]; [discriminate|]. destruct (f x) eqn:E; intros H.
  - destruct (IH H) as (y & Hin & Hy). exists y. split; [right; exact Hin|exact Hy].
  - exists x. split; [left; reflexivity|exact E].
Qed.
Lemma shared_equal_iff a b : NoDup (dkeys a) ->
  shared_equal a b = true <-> forall x v v', dget x a = Some v -> dget x b = Some v' -> v = v'.
Proof.
  intros N. unfold shared_equal. rewrite forallb_forall. split.
  - intros H x v v' Ga Gb. specialize (H (x, v) (dget_In _ _ _ Ga)). cbn [fst snd] in H. rewrite Gb in H.
    apply val_eqb_spec. exact H.
  - intros H (x, v) Hin. cbn [fst snd]. destruct (dget x b) as [v'|] eqn:Gb; [|reflexivity].
    apply val_eqb_spec. eapply H; [|exact Gb]. apply In_dget; assumption.
Qed.
Lemma differ_values_iff q : NoDup (dkeys (k_params (pr_public q))) ->
  shared_equal (k_params (pr_public q)) (k_params (pr_private q)) = false <-> halves_differ_in_values q.
Proof.
  intros N. destruct (shared_equal (k_params (pr_public q)) (k_params (pr_private q))) eqn:E.
  - split; [discriminate|]. intros (x & v & v' & Ga & Gb & D). exfalso. apply D.
    apply (proj1 (shared_equal_iff _ _ N) E _ _ _ Ga Gb).
  - split; [|reflexivity]. intros _. unfold shared_equal in E. apply forallb_false in E as ((x, v) & Hin & E). cbn [fst snd] in E.
    destruct (dget x (k_params (pr_private q))) as [v'|] eqn:Gb; [|discriminate].
    exists x, v, v'. split; [apply In_dget; assumption|]. split; [exact Gb|].
    intros ->. rewrite val_eqb_refl in E. discriminate.
Qed.

Definition pair_event (ev : event) : Prop := key_warning ev = true \/ exists j, ev = Warn (WPairType j) \/ ev = Warn (WPairValues j).
Lemma read_privs_step i pub pubs s s1 lg priv kt1 kt2 :
  key_from_stream ec (parse_pub ec) KPriv None s = (s1, (lg, Ok priv)) ->
  ditem (str "key_type") (k_header pub) = Ok kt1 -> ditem (str "key_type") (k_header priv) = Ok kt2 ->
  read_privs p i (pub :: pubs) s =
  (let '(s2, (l2, r)) := read_privs p (S i) pubs s1 in
   (s2, (lg ++ (if val_eqb kt1 kt2 then [] else [Warn (WPairType i)]) ++
         (if shared_equal (k_params pub) (k_params priv) then [] else [Warn (WPairValues i)]) ++ l2,
     match r with Ok r => Ok (mkpair pub priv :: r) | Err e => Err e end))).
Proof.
  intros H H1 H2. cbn [read_privs]. unfold swbind, sww, wlift. fold ec. rewrite H, H1, H2.
  destruct (val_eqb kt1 kt2), (shared_equal (k_params pub) (k_params priv)); cbn [negb wwhen wret wwarn];
    destruct (read_privs p (S i) pubs s1) as [s2 [l2 [r|e]]]; unfold wret; cbn [app]; rewrite ?app_nil_r; reflexivity.
Qed.
Lemma read_privs_complete i pairs xs s rest :
  Forall2 (fun q x => private_blob (pr_private q) x) pairs xs ->
  Forall (fun q => exists v, ditem (str "key_type") (k_header (pr_public q)) = Ok v) pairs ->
  unread s = concat xs ++ rest -> Z.of_nat (length (concat xs)) <= ssize_max ->
  exists lg, read_privs p i (map pr_public pairs) s = (adv (length (concat xs)) s, (lg, Ok pairs)).
Proof.
  intros H. revert i s. induction H as [|[pub priv] x pairs xs Hx H IH]; intros i s Ht U L.
  - cbn. rewrite adv_0. eexists; reflexivity.
  - inversion Ht as [|? ? (v1 & T1) Ht']; subst. cbn [pr_public pr_private concat map] in *. rewrite app_length in *.
    rewrite <- app_assoc in U. destruct (private_blob_read None priv x s _ Hx eq_refl U ltac:(lia)) as (lg1 & R).
    destruct (private_blob_type _ _ Hx) as (v2 & T2).
    rewrite (read_privs_step _ _ _ _ _ _ _ _ _ R T1 T2).
    destruct (IH (S i) (adv (length x) s) Ht') as (lg2 & ->); [rewrite unread_adv, U; apply skipn_app_exact; reflexivity|lia|].
    rewrite adv_adv. eexists; reflexivity.
Qed.
Lemma read_privs_sound i pubs s s' lg pairs :
  read_privs p i pubs s = (s', (lg, Ok pairs)) ->
  Forall (fun k => NoDup (dkeys (k_params k))) pubs ->
  exists xs, map pr_public pairs = pubs /\ Forall2 (fun q x => private_blob (pr_private q) x) pairs xs /\
    unread s = concat xs ++ unread s' /\ s' = adv (length (concat xs)) s /\
    Forall pair_event lg /\
    (forall j, In (Warn (WPairType j)) lg <-> (i <= j)%nat /\ exists q, nth_error pairs (j - i) = Some q /\ halves_differ_in_type q) /\
    (forall j, In (Warn (WPairValues j)) lg <-> (i <= j)%nat /\ exists q, nth_error pairs (j - i) = Some q /\ halves_differ_in_values q).
Proof.
  revert i s lg pairs. induction pubs as [|pub pubs IH]; intros i s lg pairs H N.
  - cbn in H. injection H as <- <- <-. exists []. rewrite adv_0. repeat split; try constructor; try contradiction;
      intros (_ & q & E & _); destruct (j - i)%nat; discriminate.
  - inversion N as [|? ? N1 N2]; subst. pose proof H as H0. cbn [read_privs] in H.
    apply swbind_inv in H as (s1 & l1 & priv & l2 & Hp & H & _).
    apply swbind_inv in H as (s2 & l3 & kt1 & l4 & Hk1 & H & _). unfold sww, wlift in Hk1. injection Hk1 as _ _ Hk1.
    apply swbind_inv in H as (s3 & l5 & kt2 & l6 & Hk2 & _ & _). unfold sww, wlift in Hk2. injection Hk2 as _ _ Hk2.
    pose proof Hp as Hp0. fold ec in Hp. rewrite (read_privs_step _ _ _ _ _ _ _ _ _ Hp Hk1 Hk2) in H0.
    assert (Forall (fun ev => key_warning ev = true) l1) as Kl.
    { pose proof (keylog_from_stream ec (parse_pub ec) KPriv None s (keylog_parse_pub ec)) as K. rewrite Hp in K. exact K. }
    apply private_blob_sound in Hp as (x & Bx & Ux & Es1).
    destruct (read_privs p (S i) pubs s1) as [s4 [l7 [r|e]]] eqn:E; [|discriminate].
    injection H0 as <- <- <-. destruct (IH _ _ _ _ E N2) as (xs & Em & F & U & Es & Fl & T & V).
    exists (x :: xs). cbn [map pr_public concat]. rewrite Em. split; [reflexivity|]. split; [constructor; assumption|].
    split; [rewrite Ux, U, app_assoc; reflexivity|]. split; [rewrite Es, Es1, adv_adv, app_length; reflexivity|].
    split.
    { apply Forall_app. split; [eapply Forall_impl; [|exact Kl]; intros ev K; left; exact K|].
      apply Forall_app. split; [destruct (val_eqb kt1 kt2); [constructor|constructor; [right; eauto|constructor]]|].
      apply Forall_app. split; [destruct (shared_equal _ _); [constructor|constructor; [right; eauto|constructor]]|exact Fl]. }
    assert (forall ev, key_warning ev = false -> ~ In ev l1) as Nk.
    { intros ev K Hin. rewrite Forall_forall in Kl. rewrite (Kl _ Hin) in K. discriminate. }
    unfold ditem in Hk1, Hk2.
    split; intros j.
    + assert (In (Warn (WPairType j)) (if val_eqb kt1 kt2 then [] else [Warn (WPairType i)]) <-> j = i /\ halves_differ_in_type (mkpair pub priv)) as A.
      { unfold halves_differ_in_type. cbn [pr_public pr_private].
        destruct (dget (str "key_type") (k_header pub)); [|discriminate]. injection Hk1 as ->.
        destruct (dget (str "key_type") (k_header priv)); [|discriminate]. injection Hk2 as ->.
        destruct (val_eqb_reflect kt1 kt2) as [->|D]; cbn [In]; [split; [contradiction|intros (_ & D); congruence]|].
        split; [intros [K|[]]; injection K as ->; split; [reflexivity|congruence]|intros (-> & _); auto]. }
      assert (~ In (Warn (WPairType j)) (if shared_equal (k_params pub) (k_params priv) then [] else [Warn (WPairValues i)])) as B
        by (destruct (shared_equal _ _); cbn [In]; intuition discriminate).
      rewrite !in_app_iff, A, T. split.
      * intros [K|[(-> & D)|[K|(L & q & Eq & D)]]]; [exfalso; revert K; apply Nk; reflexivity| |contradiction|].
        -- split; [lia|]. rewrite Nat.sub_diag. eexists. split; [reflexivity|exact D].
        -- split; [lia|]. exists q. split; [|exact D]. replace (j - i)%nat with (S (j - S i)) by lia. exact Eq.
      * intros (L & q & Eq & D). destruct (Nat.eq_dec j i) as [->|Ne].
        -- rewrite Nat.sub_diag in Eq. cbn in Eq. injection Eq as <-. auto.
        -- do 3 right. split; [lia|]. exists q. split; [|exact D]. replace (j - i)%nat with (S (j - S i)) in Eq by lia. exact Eq.
    + assert (In (Warn (WPairValues j)) (if shared_equal (k_params pub) (k_params priv) then [] else [Warn (WPairValues i)]) <->
              j = i /\ halves_differ_in_values (mkpair pub priv)) as A.
      { rewrite <- (differ_values_iff (mkpair pub priv)) by exact N1. cbn [pr_public pr_private].
        destruct (shared_equal (k_params pub) (k_params priv)); cbn [In]; [split; [contradiction|intros (_ & D); discriminate]|].
        split; [intros [K|[]]; injection K as ->; auto|intros (-> & _); auto]. }
      assert (~ In (Warn (WPairValues j)) (if val_eqb kt1 kt2 then [] else [Warn (WPairType i)])) as B
        by (destruct (val_eqb _ _); cbn [In]; intuition discriminate).
      rewrite !in_app_iff, A, V. split.
      * intros [K|[K|[(-> & D)|(L & q & Eq & D)]]]; [exfalso; revert K; apply Nk; reflexivity|contradiction| |].
        -- split; [lia|]. rewrite Nat.sub_diag. eexists. split; [reflexivity|exact D].
        -- split; [lia|]. exists q. split; [|exact D]. replace (j - i)%nat with (S (j - S i)) by lia. exact Eq.
      * intros (L & q & Eq & D). destruct (Nat.eq_dec j i) as [->|Ne].
        -- rewrite Nat.sub_diag in Eq. cbn in Eq. injection Eq as <-. auto.
        -- do 3 right. split; [lia|]. exists q. split; [|exact D]. replace (j - i)%nat with (S (j - S i)) in Eq by lia. exact Eq.
Qed.

(** ** The plaintext *)
Lemma read_rest s : bio_read (-1) s = (adv (length (unread s)) s, Ok (unread s)).
Proof. unfold bio_read. replace ((ssize_max <? -1) || (-1 <? - ssize_max - 1)) with false by reflexivity. cbn [Z.ltb Z.compare]. rewrite firstn_all. reflexivity. Qed.
Definition check_header (c1 c2 : Z) : dict pyval := [(str "check_int_1", VInt c1); (str "check_int_2", VInt c2)].
Lemma check_record c1 c2 b1 b2 : length b1 = 4%nat -> unsigned b1 = c1 -> length b2 = 4%nat -> unsigned b2 = c2 ->
  record_of wire check_types (check_header c1 c2) (b1 ++ b2).
Proof.
  intros L1 U1 L2 U2. rewrite <- (app_nil_r b2). constructor; [constructor; [exact L1|symmetry; exact U1]|].
  constructor; [constructor; [exact L2|symmetry; exact U2]|constructor].
Qed.
Lemma check_record_inv vs b : record_of wire check_types vs b ->
  exists c1 c2 b1 b2, vs = check_header c1 c2 /\ b = b1 ++ b2 /\
    length b1 = 4%nat /\ unsigned b1 = c1 /\ length b2 = 4%nat /\ unsigned b2 = c2.
Proof.
  intros R. inversion R as [|? ? ? ? ? b1 ? W1 R1]; subst. inversion R1 as [|? ? ? ? ? b2 ? W2 R2]; subst. inversion R2; subst.
  inversion W1; subst. inversion W2; subst. rewrite app_nil_r. eexists _, _, b1, b2. split; [reflexivity|]. auto 10.
Qed.
Lemma parse_deciphered_complete c pairs plain c1 c2 privs pad :
  plaintext_of c1 c2 privs pad plain ->
  Forall2 (fun q x => private_blob (pr_private q) x) pairs privs ->
  Forall (fun q => exists v, ditem (str "key_type") (k_header (pr_public q)) = Ok v) pairs ->
  Z.of_nat (length plain) <= ssize_max ->
  exists lg, parse_deciphered p c (map pr_public pairs) plain = (lg, Ok (pairs, check_header c1 c2, pad)).
Proof.
  intros (b1 & b2 & L1 & U1 & L2 & U2 & E) F T L.
  assert (plain = (b1 ++ b2) ++ concat privs ++ pad) as E' by (rewrite E, <- !app_assoc; reflexivity).
  pose proof (read_dict_complete _ _ (stream_of plain) _ _ (concat privs ++ pad) check_types_ok (check_record _ _ _ _ L1 U1 L2 U2)
    ltac:(rewrite E', app_length in L; lia) E') as R.
  set (s1 := adv (length (b1 ++ b2)) (stream_of plain)) in *.
  assert (unread s1 = concat privs ++ pad) as Us.
  { unfold s1. rewrite unread_adv. change (unread (stream_of plain)) with plain. rewrite E' at 1. apply skipn_app_exact. reflexivity. }
  destruct (read_privs_complete 0 pairs privs s1 pad F T Us ltac:(rewrite E', !app_length in L; lia)) as (lg1 & Rp).
  set (s2 := adv (length (concat privs)) s1) in *.
  assert (unread s2 = pad) as U3 by (unfold s2; rewrite unread_adv, Us; apply skipn_app_exact; reflexivity).
  unfold parse_deciphered. unfold swbind, swp, sww. rewrite R. unfold wlift.
  change (ditem (str "check_int_1") (check_header c1 c2)) with (Ok (VInt c1)).
  change (ditem (str "check_int_2") (check_header c1 c2)) with (Ok (VInt c2)). cbv iota.
  destruct (val_eqb (VInt c1) (VInt c2)); cbn [negb wwhen wret wwarn]; rewrite Rp, read_rest, U3;
    destruct (padding_ok c (length plain) pad); cbn [negb wwhen wret wwarn snd]; eexists; reflexivity.
Qed.
Lemma padding_ok_iff c plain pad : padding_ok c (length plain) pad = true <-> good_padding (block_size c) plain pad.
Proof.
  unfold padding_ok, good_padding. rewrite andb_true_iff, Nat.eqb_eq.
  rewrite <- (counting_prefix pad (block_size c)) by (destruct c; cbn; lia). reflexivity.
Qed.
Definition file_event (ev : event) : Prop := pair_event ev \/ ev = Warn WCheckInts \/ ev = Warn WPadding.
Lemma parse_deciphered_sound c pubs plain lg pairs dh pad :
  parse_deciphered p c pubs plain = (lg, Ok (pairs, dh, pad)) ->
  Forall (fun k => NoDup (dkeys (k_params k))) pubs ->
  exists c1 c2 privs, plaintext_of c1 c2 privs pad plain /\ dh = check_header c1 c2 /\
    map pr_public pairs = pubs /\ Forall2 (fun q x => private_blob (pr_private q) x) pairs privs /\
    reports (block_size c) c1 c2 pairs plain pad lg /\ Forall file_event lg.
Proof.
  unfold parse_deciphered. intros H N.
  match type of H with snd (?m ?s) = _ => destruct (m s) as [s0 w] eqn:E end. cbn [snd] in H. subst w.
  apply swbind_inv in E as (s1 & l1 & dh' & l2 & H & E & ->).
  unfold swp in H. destruct (read_dict decipher_header_fmt (stream_of plain)) as [s1' r] eqn:R. injection H as -> <- ->.
  apply (read_dict_sound _ _ _ _ _ check_types_ok) in R as (b & Rb & Ub & Es).
  apply check_record_inv in Rb as (c1 & c2 & b1 & b2 & -> & -> & L1 & U1 & L2 & U2).
  change (unread (stream_of plain)) with plain in Ub.
  apply swbind_inv in E as (s2 & l3 & v1 & l4 & H & E & ->). unfold sww, wlift in H.
  change (ditem (str "check_int_1") (check_header c1 c2)) with (Ok (VInt c1)) in H. injection H as <- <- <-.
  apply swbind_inv in E as (s2 & l5 & v2 & l6 & H & E & ->). unfold sww, wlift in H.
  change (ditem (str "check_int_2") (check_header c1 c2)) with (Ok (VInt c2)) in H. injection H as <- <- <-.
  apply swbind_inv in E as (s2 & l7 & [] & l8 & H & E & ->).
  assert (s2 = s1 /\ l7 = if val_eqb (VInt c1) (VInt c2) then [] else [Warn WCheckInts]) as (-> & El7).
  { unfold sww in H. destruct (val_eqb (VInt c1) (VInt c2)); cbn in H; injection H as <- <-; auto. }
  clear H. apply swbind_inv in E as (s3 & l9 & pairs' & l10 & Hp & E & ->).
  apply swbind_inv in E as (s4 & l11 & pad' & l12 & H & E & ->). unfold swp in H. rewrite read_rest in H. injection H as <- <- <-.
  apply swbind_inv in E as (s4' & l13 & [] & l14 & H & E & ->). unfold sww, wret in E. injection E as <- <- <- <- <-.
  assert (l13 = if padding_ok c (length plain) (unread s3) then [] else [Warn WPadding]) as El13.
  { unfold sww in H. destruct (padding_ok c (length plain) (unread s3)); cbn in H; injection H as _ <-; auto. }
  clear H. apply read_privs_sound in Hp as (xs & Em & F & U & Es3 & Fl & T & V); [|exact N].
  exists c1, c2, xs. split.
  { exists b1, b2. rewrite Ub, U, <- !app_assoc. auto 10. }
  split; [reflexivity|]. split; [exact Em|]. split; [exact F|].
  assert (forall ev, In ev l9 -> pair_event ev) as Fl' by (apply Forall_forall; exact Fl).
  assert (forall ev, In ev l7 <-> ev = Warn WCheckInts /\ c1 <> c2) as I7.
  { intros ev. rewrite El7. destruct (val_eqb_reflect (VInt c1) (VInt c2)) as [K|K]; cbn [In].
    - injection K as ->. intuition congruence.
    - assert (c1 <> c2) by congruence. intuition congruence. }
  assert (forall ev, In ev l13 <-> ev = Warn WPadding /\ ~ good_padding (block_size c) plain (unread s3)) as I13.
  { intros ev. rewrite El13. rewrite <- padding_ok_iff. destruct (padding_ok c (length plain) (unread s3)); cbn [In]; intuition congruence. }
  cbn [app]. rewrite !app_nil_r.
  assert (forall ev, In ev (l7 ++ l9 ++ l13) <-> (ev = Warn WCheckInts /\ c1 <> c2) \/ In ev l9 \/
     (ev = Warn WPadding /\ ~ good_padding (block_size c) plain (unread s3))) as I.
  { intros ev. rewrite !in_app_iff, I7, I13. reflexivity. }
  assert (~ In (Warn WCheckInts) l9 /\ ~ In (Warn WPadding) l9) as (N1 & N2).
  { split; intros K; apply Fl' in K as [K|(j & [K|K])]; discriminate. }
  split.
  - unfold reports. rewrite !I. split; [intuition discriminate|]. split; [|split].
    + intros i. rewrite I, T. rewrite Nat.sub_0_r. intuition (try discriminate; try lia).
    + intros i. rewrite I, V. rewrite Nat.sub_0_r. intuition (try discriminate; try lia).
    + intuition discriminate.
  - apply Forall_forall. intros ev K. apply I in K as [(-> & _)|[K|(-> & _)]]; unfold file_event; auto.
Qed.

(** ** from_bytes: soundness and completeness *)
Lemma header_record_inv vs b : record_of wire header_types vs b ->
  exists m cn kn opts z c k o n,
    vs = [(str "auth_magic", VBytes m); (str "cipher", VStr cn); (str "kdf", VStr kn); (str "kdf_options", VBytes opts); (str "num_keys", VInt z)] /\
    wire (TText 4) (VStr cn) c /\ wire (TText 4) (VStr kn) k /\ prefixed 4 opts o /\ length n = 4%nat /\ signed n = z /\
    b = m ++ c ++ k ++ o ++ n.
Proof.
  intros R. inversion R as [|? ? ? ? ? m ? W1 R1]; subst. inversion R1 as [|? ? ? ? ? c ? W2 R2]; subst.
  inversion R2 as [|? ? ? ? ? k ? W3 R3]; subst. inversion R3 as [|? ? ? ? ? o ? W4 R4]; subst.
  inversion R4 as [|? ? ? ? ? n ? W5 R5]; subst. inversion R5; subst.
  inversion W1; subst. pose proof W2 as W2'. pose proof W3 as W3'. inversion W2; subst. inversion W3; subst. inversion W4; subst. inversion W5; subst.
  rewrite app_nil_r. eexists m, _, _, _, _, c, k, o, n. split; [reflexivity|]. auto 10.
Qed.
Lemma signed_lt b : length b = 4%nat -> signed b < 2 ^ 31.
Proof.
  intros L. destruct b as [|x r]; [discriminate|]. pose proof (unsigned_range (x :: r)) as R1. pose proof (unsigned_range r) as R2.
  injection L as L. cbn [signed]. cbn [length] in *. rewrite L in *. cbn [unsigned] in *. rewrite L in *.
  change (256 ^ Z.of_nat 4) with 4294967296 in *. change (256 ^ Z.of_nat 3) with 16777216 in *.
  change (2 ^ 31) with 2147483648. destruct (128 <=? Zb x) eqn:E; [lia|]. apply Z.leb_gt in E. lia.
Qed.
Lemma from_bytes_layout e b given lg l : from_bytes_try p e b given = (lg, Ok l) ->
  exists cn kn opts pubs body tail, file_of cn kn opts pubs body tail b /\ Z.of_nat (length pubs) < 2 ^ 31.
Proof.
  unfold from_bytes_try. intros H.
  match type of H with snd (?m ?s) = _ => destruct (m s) as [s0 w] eqn:E end. cbn [snd] in H. subst w.
  apply swbind_inv in E as (s1 & l1 & hd & l2 & H & E & _).
  unfold swp in H. destruct (read_dict list_header_fmt (stream_of b)) as [s1' r] eqn:R. injection H as -> _ ->.
  apply (read_dict_sound _ _ _ _ _ header_types_ok) in R as (h & Rh & Uh & Es).
  apply header_record_inv in Rh as (m & cn & kn & opts & z & c & k & o & n & -> & Wc & Wk & Po & Ln & Sn & ->).
  change (unread (stream_of b)) with b in Uh.
  match type of E with swbind (sww (wlift (ditem _ ?h))) _ _ = _ => set (hd := h) in * end.
  apply swbind_inv in E as (s2 & l3 & v1 & l4 & H & E & _). unfold sww, wlift in H.
  change (ditem (str "auth_magic") hd) with (Ok (VBytes m)) in H. injection H as <- _ <-.
  apply swbind_inv in E as (s2 & l5 & [] & l6 & H & E & _). unfold sww in H.
  destruct (val_eqb_reflect (VBytes m) (VBytes auth_magic)) as [Em|Em]; [|discriminate]. injection Em as ->.
  injection H as <- _.
  apply swbind_inv in E as (s2 & l7 & v3 & l8 & H & E & _). unfold sww, wlift in H.
  change (ditem (str "num_keys") hd) with (Ok (VInt z)) in H. injection H as <- _ <-.
  apply swbind_inv in E as (s2 & l9 & [] & l10 & H & E & _). unfold sww in H.
  destruct (z <? 0) eqn:Ez; [discriminate|]. injection H as <- _. apply Z.ltb_ge in Ez.
  apply swbind_inv in E as (s3 & l11 & ks & l12 & Hp & E & _).
  apply read_pubs_sound in Hp as (pubs & xs & F & L & Lk & U & Es3); [|exact Ez].
  apply swbind_inv in E as (s4 & l13 & cv & l14 & H & E & _).
  unfold swp in H. destruct (read_instr fB s3) as [s4' r] eqn:R. injection H as -> _ ->.
  apply read_octets_sound in R as (body & x & -> & Px & Ux & _).
  pose proof (signed_lt n Ln) as Bn. rewrite Sn in Bn. apply signed_nonneg in Sn as (Un & Bz); [|exact Ez].
  exists cn, kn, opts, pubs, body, (unread s4). split.
  - exists c, k, o, n, xs, x. do 4 (split; [assumption|]). split; [rewrite L; exact Un|]. split; [exact F|]. split; [exact Px|].
    rewrite Uh, U, Ux, <- !app_assoc. reflexivity.
  - rewrite L. exact Bn.
Qed.

Lemma options_read_iff kn k d opts : get_kdf (VStr kn) = Ok k -> Z.of_nat (length opts) <= ssize_max ->
  snd (read_dict (kdf_format k) (stream_of opts)) = Ok d <-> options_read kn d opts.
Proof.
  intros Ek L. destruct (kdf_dict_types k) as (T & _). split.
  - destruct (read_dict (kdf_format k) (stream_of opts)) as [s' r] eqn:R. cbn [snd]. intros ->.
    apply (read_dict_sound _ _ _ _ _ T) in R as (o & Ro & U & _). change (unread (stream_of opts)) with opts in U.
    eexists _, o, (unread s'). split; [|split; [exact Ro|exact U]].
    apply get_kdf_iff in Ek as [(E & ->)|(E & ->)]; injection E as ->; cbn [kdf_specs In]; auto.
  - intros (ts & o & junk & Hin & Ro & ->). destruct (kdf_specs_fun _ _ _ Hin Ek) as (_ & ->).
    rewrite (read_dict_complete _ _ _ _ _ junk T Ro); [reflexivity|rewrite app_length in L; lia|reflexivity].
Qed.
Lemma wmap_pubs pubs lg keys : wmap (fun b => pub_from_bytes p b None) pubs = (lg, Ok keys) ->
  Forall2 (fun k x => exists lg, key_from_bytes ec KPub x None = (lg, Ok k)) keys pubs /\ Forall (fun ev => key_warning ev = true) lg.
Proof.
  revert lg keys. induction pubs as [|x pubs IH]; intros lg keys H; cbn [wmap] in H.
  - injection H as <- <-. split; constructor.
  - apply wbind_inv in H as (l1 & k & l2 & E & H & ->). apply wbind_inv in H as (l3 & r & l4 & E' & H & ->).
    injection H as <- <-. destruct (IH _ _ E') as (F & K). split; [constructor; [eexists; exact E|exact F]|].
    apply Forall_app. split; [|apply Forall_app; split; [exact K|constructor]].
    pose proof (keylog_from_bytes ec KPub x None) as Kl. unfold pub_from_bytes in E. fold ec in E. rewrite E in Kl. exact Kl.
Qed.
Lemma wmap_pubs_complete pubs keys :
  Forall2 (fun k x => exists lg, key_from_bytes ec KPub x None = (lg, Ok k)) keys pubs ->
  exists lg, wmap (fun b => pub_from_bytes p b None) pubs = (lg, Ok keys).
Proof.
  intros H. induction H as [|k x keys pubs (lg & E) _ (lg' & IH)]; [eexists; reflexivity|].
  cbn [wmap]. unfold pub_from_bytes in *. fold ec. rewrite E. cbn [wbind]. fold ec in IH. rewrite IH. cbn [wbind wret]. eexists; reflexivity.
Qed.
Lemma tag_read c tail tag : 
  (if is_integrity c then snd (read_fixed_bytes 16 (stream_of tail)) else Ok []) = Ok tag <->
  exists extra, tail = tag ++ extra /\ length tag = (if is_integrity c then 16 else 0)%nat.
Proof.
  destruct (is_integrity c).
  - rewrite read_fixed_spec by (unfold ssize_max; lia). change (unread (stream_of tail)) with tail.
    change (Z.to_nat 16) with 16%nat. destruct (Nat.leb_spec 16 (length tail)) as [L|L]; cbn [snd].
    + split.
      * intros K. apply Ok_inj in K as <-. exists (skipn 16 tail). rewrite firstn_skipn, firstn_length. split; [reflexivity|lia].
      * intros (extra & -> & Lt). rewrite <- Lt, firstn_app, firstn_all, Nat.sub_diag, firstn_O, app_nil_r. reflexivity.
    + split; [discriminate|]. intros (extra & -> & Lt). rewrite app_length in L. lia.
  - split; [intros K; apply Ok_inj in K as <-; exists tail; auto|].
    intros (extra & _ & L). destruct tag; [reflexivity|discriminate].
Qed.
Definition not_prompt (ev : event) : Prop := ev <> Prompt.
Definition prompts (given : option pystr) (k : kdf) : list event :=
  match k, given with KdfBcrypt, None => [Prompt] | _, _ => [] end.
(** Everything about a successful parse. *)
Lemma parse_sound e b given lg l : sound_prims p -> Z.of_nat (length b) <= ssize_max ->
  from_bytes_try p e b given = (lg, Ok l) ->
  exists cn kn opts pubs body tag extra d pass plain c1 c2 privs pad pairs c k lg1 lg2,
    file_of cn kn opts pubs body (tag ++ extra) b /\ Z.of_nat (length pubs) < 2 ^ 31 /\
    options_read kn d opts /\ passphrase_used e kn given pass /\
    tag_size cn (length tag) /\ enciphers p cn kn d pass plain (body ++ tag) /\
    plaintext_of c1 c2 privs pad plain /\
    Forall2 (fun q x => exists lg, key_from_bytes ec KPub x None = (lg, Ok (pr_public q))) pairs pubs /\
    Forall2 (fun q x => private_blob (pr_private q) x) pairs privs /\
    l = mkpkl pairs (Some b) (Some (file_header (VStr cn) (VStr kn) opts (length pubs)))
          (Some (body ++ tag)) (Some d) (Some plain) (Some (check_header c1 c2)) (Some pad) /\
    get_cipher (VStr cn) = Ok c /\ get_kdf (VStr kn) = Ok k /\
    lg = lg1 ++ prompts given k ++ lg2 /\ Forall (fun ev => key_warning ev = true) lg1 /\
    reports (block_size c) c1 c2 pairs plain pad lg /\ Forall file_event lg2.
Proof.
  intros S Hb H. destruct (from_bytes_layout _ _ _ _ _ H) as (cn & kn & opts & pubs & body & tail & Hf & Hn).
  rewrite (from_bytes_file _ _ _ _ _ _ _ _ _ Hf Hn Hb) in H. unfold parse_file in H.
  apply wbind_inv in H as (lg1 & keys & l1 & Hkeys & H & ->). apply wmap_pubs in Hkeys as (Fk & Kl).
  apply wbind_inv in H as (l2 & k & l3 & H1 & H & ->). apply wlift_inv in H1 as (-> & Ek).
  apply wbind_inv in H as (l4 & d & l5 & H1 & H & ->). apply wlift_inv in H1 as (-> & Ed).
  assert (Z.of_nat (length opts) <= ssize_max) as Lo.
  { destruct Hf as (c0 & k0 & o0 & n0 & ps0 & x0 & _ & _ & Po & _ & _ & _ & _ & ->). apply prefixed_length in Po.
    rewrite !app_length in Hb. lia. }
  apply (proj1 (options_read_iff _ _ _ _ Ek Lo)) in Ed as Hd.
  assert (forall x, new_kdf k d = x -> x = ([], Ok tt)) as Nk.
  { intros x <-. unfold new_kdf. destruct (kdf_dict_types k) as (T & _). destruct Hd as (ts & o & junk & Hin & Ro & _).
    destruct (kdf_specs_fun _ _ _ Hin Ek) as (_ & ->). destruct (check_dict_spec d _ _ T) as (R1 & R2).
    destruct (check_dict d (kdf_format k)) as [lk rk]. cbn [fst snd] in R1, R2. subst rk. f_equal. apply R2. clear - Ro.
    destruct k; [intros ? ? []|]. inversion Ro as [|? ? ? ? ? ? ? W1 Ro1]; subst. inversion Ro1 as [|? ? ? ? ? ? ? W2 Ro2]; subst. inversion Ro2; subst.
    inversion W1; subst. inversion W2; subst.
    intros x t [E|[E|[]]]; injection E as <- <-; eexists; (split; [reflexivity|]); [exact I|]. cbn [conforms].
    match goal with Lz : length ?z = 4%nat |- context [unsigned ?z] => pose proof (unsigned_range z) as Rg; rewrite Lz in Rg end. exact Rg. }
  apply wbind_inv in H as (l6 & [] & l7 & H1 & H & ->). apply Nk in H1. injection H1 as ->.
  apply wbind_inv in H as (l8 & c & l9 & H1 & H & ->). apply wlift_inv in H1 as (-> & Ec).
  apply wbind_inv in H as (l10 & pass & l11 & Hpass & H & ->).
  assert (l10 = prompts given k /\ passphrase_used e kn given pass) as (-> & Hp).
  { apply get_kdf_iff in Ek as [(E & ->)|(E & ->)]; injection E as ->.
    - injection Hpass as <- <-. split; [reflexivity|]. left. auto.
    - unfold get_passphrase in Hpass. destruct given as [g|]; injection Hpass as <- Hg; (split; [reflexivity|]); right.
      + split; [discriminate|]. symmetry; exact Hg.
      + split; [discriminate|exact Hg]. }
  apply wbind_inv in H as (l12 & tag & l13 & H1 & H & ->). apply wlift_inv in H1 as (-> & Et).
  apply tag_read in Et as (extra & -> & Lt).
  apply wbind_inv in H as (l14 & [] & l15 & H1 & H & ->). apply Nk in H1. injection H1 as ->.
  apply wbind_inv in H as (l16 & plain & l17 & H1 & H & ->). apply wlift_inv in H1 as (-> & Epl).
  apply wbind_inv in H as (lg2 & ((pairs, dh), pad) & l18 & Hd2 & H & ->). injection H as <- <-.
  assert (Forall (fun k => NoDup (dkeys (k_params k))) keys) as Nd.
  { clear - Fk. induction Fk as [|k x ks xs (lg & E) _ IH]; constructor; [apply (pub_from_bytes_type _ _ _ E)|exact IH]. }
  apply parse_deciphered_sound in Hd2 as (c1 & c2 & privs & Pl & -> & Em & Fp & Rp & Fe); [|exact Nd].
  exists cn, kn, opts, pubs, body, tag, extra, d, pass, plain, c1, c2, privs, pad, pairs, c, k, lg1, lg2.
  split; [exact Hf|]. split; [exact Hn|]. split; [exact Hd|]. split; [exact Hp|].
  split; [apply (tag_size_iff _ _ _ Ec); exact Lt|].
  split; [apply (enciphers_iff _ _ _ _ _ _ _ _ _ S Ec Ek); apply cipher_decrypt_encrypt; assumption|].
  split; [exact Pl|]. split.
  { clear - Fk Em. revert keys Fk Em. rename pairs into qs. revert pubs.
    induction qs as [|q qs IH]; intros pubs keys Fk <-; inversion Fk; subst; constructor; auto. eapply IH; [eassumption|reflexivity]. }
  split; [exact Fp|]. split; [reflexivity|]. split; [exact Ec|]. split; [exact Ek|].
  cbn [app]. rewrite !app_nil_r. split; [reflexivity|]. split; [exact Kl|]. split; [|exact Fe].
  assert (forall ev, key_warning ev = false -> ev <> Prompt -> In ev (lg1 ++ prompts given k ++ lg2) <-> In ev lg2) as I.
  { intros ev Kv Np. rewrite !in_app_iff. split; [|auto]. intros [K|[K|K]]; [|destruct k, given; cbn in K; intuition congruence|exact K].
    rewrite Forall_forall in Kl. rewrite (Kl _ K) in Kv. discriminate. }
  unfold reports in *. rewrite !I by (reflexivity || discriminate).
  destruct Rp as (R1 & R2 & R3 & R4). split; [exact R1|]. split; [|split; [|exact R4]]; intros i; rewrite I by (reflexivity || discriminate); auto.
Qed.
Lemma parse_complete e b given l : sound_prims p -> Z.of_nat (length b) <= ssize_max ->
  parsed p e b given l -> exists lg, from_bytes_try p e b given = (lg, Ok l).
Proof.
  intros S Hb (cn & kn & opts & pubs & body & tag & extra & d & pass & plain & c1 & c2 & privs & pad & pairs &
    Hf & Hn & Hd & Hp & Ht & He & Pl & Fk & Fp & ->).
  rewrite (from_bytes_file _ _ _ _ _ _ _ _ _ Hf Hn Hb). unfold parse_file.
  assert (Forall2 (fun k x => exists lg, key_from_bytes ec KPub x None = (lg, Ok k)) (map pr_public pairs) pubs) as Fk'.
  { clear - Fk. induction Fk; constructor; auto. }
  destruct (wmap_pubs_complete _ _ Fk') as (lg1 & ->).
  assert (exists k, get_kdf (VStr kn) = Ok k) as (k & Ek).
  { destruct Hd as (ts & o & junk & [E|[E|[]]] & _); injection E as <- <-; eexists; reflexivity. }
  assert (exists c, get_cipher (VStr cn) = Ok c) as (c & Ec).
  { destruct Ht as (m & kl & il & bs & Hin & _). destruct (cipher_table_spec _ _ _ _ _ Hin) as (c' & E & _). exists c'. exact E. }
  pose proof Hf as Hf'. destruct Hf' as (c0 & k0 & o0 & n0 & ps0 & x0 & _ & _ & Po & _ & _ & _ & Px & Eb).
  apply prefixed_length in Po. apply prefixed_length in Px.
  assert (length b = length magic + length c0 + length k0 + length o0 + length n0 + length (concat ps0) + length x0 + length tag + length extra)%nat as Lb.
  { rewrite Eb, !app_length. lia. }
  rewrite Ek. unfold wlift at 1. cbn [wbind].
  rewrite (proj2 (options_read_iff kn k d opts Ek ltac:(lia)) Hd). unfold wlift at 1. cbn [wbind].
  pose proof (new_kdf_ok k d) as Ok1. destruct (new_kdf k d) as [lk rk]. cbn [snd] in Ok1. subst rk. cbn [wbind].
  rewrite Ec. unfold wlift at 1. cbn [wbind].
  assert (exists lp, match k with KdfNone => wret [] | KdfBcrypt => get_passphrase e given end = (lp, Ok pass)) as (lp & ->).
  { apply get_kdf_iff in Ek as [(E & ->)|(E & ->)]; injection E as ->.
    - destruct Hp as [(_ & ->)|(N & _)]; [eexists; reflexivity|congruence].
    - destruct Hp as [(E & _)|(_ & Hp)]; [discriminate|]. unfold get_passphrase. destruct given; [subst; eexists; reflexivity|].
      rewrite Hp. eexists; reflexivity. }
  cbn [wbind]. apply (tag_size_iff _ _ _ Ec) in Ht.
  rewrite (proj2 (tag_read c (tag ++ extra) tag) (ex_intro _ extra (conj eq_refl Ht))). unfold wlift at 1. cbn [wbind].
  apply (enciphers_iff _ _ _ _ _ _ _ _ _ S Ec Ek) in He as He'.
  apply cipher_decrypt_encrypt in He'; [|exact S]. rewrite He'. unfold wlift at 1. cbn [wbind].
  pose proof (encrypt_tag _ _ _ _ _ _ _ _ S Ec He) as Lx. rewrite app_length in Lx.
  destruct (parse_deciphered_complete c pairs plain c1 c2 privs pad Pl Fp) as (lg2 & ->).
  { clear - Fk ec. induction Fk as [|q x qs xs (lg & E) _ IH]; [constructor|]. constructor; [apply (pub_from_bytes_type _ _ _ E)|exact IH]. }
  { lia. }
  cbn [wbind wret]. eexists. reflexivity.
Qed.
End Read.
