(** Lemmas on packing private key lists. *)
From Verif Require Import PyBase IntBytes Utf8 StructFmt Stream Text Classes Key Crypto PrivateKeyList.
From Verif Require Import SpecWire SpecKey SpecCrypto SpecList.
From Verif Require Import ProofBase ProofInt ProofUtf8 ProofWire ProofRecord ProofKey ProofLog ProofErr ProofCrypto.
Open Scope Z_scope.

Lemma Forall2_len {A B} (P : A -> B -> Prop) l m : Forall2 P l m -> length l = length m.
Proof. induction 1; cbn; congruence. Qed.

(** ** Writers *)
(** [w] writes [r], or raises. *)
Definition writes (w : P unit) (r : res bytes) : Prop :=
  forall s, match r with
            | Ok b => w s = (bio_write b s, Ok tt)
            | Err e => exists s', w s = (s', Err e)
            end.
Lemma writes_seq w w' r r' : writes w r -> writes w' r' ->
  writes (do! _ <- w; w') (do? a <- r; do? b <- r'; Ok (a ++ b)).
Proof.
  intros H H' s. specialize (H s). unfold pbind. destruct r as [a|e]; cbn [rbind].
  - rewrite H. specialize (H' (bio_write a s)). destruct r' as [b|e]; cbn [rbind].
    + rewrite H', bio_write_app. reflexivity.
    + exact H'.
  - destruct H as (s' & ->). eexists; reflexivity.
Qed.
Lemma writes_lift {A} (q : res A) w r : (forall a, q = Ok a -> writes (w a) (r a)) ->
  writes (do! a <- plift q; w a) (do? a <- q; r a).
Proof.
  intros H s. unfold pbind, plift. destruct q as [a|e]; cbn [rbind]; [apply H; reflexivity|eexists; reflexivity].
Qed.
Lemma writes_nil : writes (pret tt) (Ok []).
Proof. intros s. reflexivity. Qed.
Lemma writes_dict f vals : writes (write_dict f vals) (dict_bytes f vals).
Proof. intros s. apply write_dict_spec. Qed.
Lemma writes_instr i v : writes (write_instr i v) (instr_bytes i v).
Proof. intros s. unfold write_instr. destruct (instr_bytes i v); [reflexivity|eexists; reflexivity]. Qed.
Lemma writes_raw b : writes (fun s => (bio_write b s, Ok tt)) (Ok b).
Proof. intros s. reflexivity. Qed.
Lemma pack_with_writes w r : writes w r -> pack_with w = r.
Proof.
  intros H. unfold pack_with. specialize (H (stream_of [])). destruct r as [b|e].
  - rewrite H, bio_write_fresh. reflexivity.
  - destruct H as (s' & ->). reflexivity.
Qed.

(** ** Indices *)
Lemma py_index_iff {A} (l : list A) i x : py_index l i = Ok x <-> at_index l i x.
Proof.
  unfold py_index, at_index. destruct (i <? 0) eqn:Ei.
  - apply Z.ltb_lt in Ei. replace (Z.of_nat (length l) + i) with (i + Z.of_nat (length l)) by lia.
    destruct ((0 <=? i + Z.of_nat (length l)) && (i + Z.of_nat (length l) <? Z.of_nat (length l))) eqn:E.
    + destruct (nth_error l (Z.to_nat (i + Z.of_nat (length l)))) as [y|] eqn:En; split; intros H.
      * injection H as <-. right. repeat split; try lia; assumption.
      * destruct H as [H|H]; [lia|]. destruct H as (_ & _ & H). congruence.
      * discriminate.
      * destruct H as [H|H]; [lia|]. destruct H as (_ & _ & H). congruence.
    + split; [discriminate|]. intros [H|(_ & H & K)]; [lia|].
      assert (nth_error l (Z.to_nat (i + Z.of_nat (length l))) <> None) as K' by congruence.
      apply nth_error_Some in K'. lia.
  - apply Z.ltb_ge in Ei.
    destruct ((0 <=? i) && (i <? Z.of_nat (length l))) eqn:E.
    + destruct (nth_error l (Z.to_nat i)) as [y|] eqn:En; split; intros H.
      * injection H as <-. left. auto.
      * destruct H as [(_ & H)|H]; [congruence|lia].
      * discriminate.
      * destruct H as [(_ & H)|H]; [congruence|lia].
    + split; [discriminate|]. intros [(_ & K)|H]; [|lia].
      assert (nth_error l (Z.to_nat i) <> None) as K' by congruence. apply nth_error_Some in K'. lia.
Qed.
Lemma py_index_err {A} (l : list A) i e : py_index l i = Err e -> e = IndexError.
Proof.
  unfold py_index. destruct (_ && _); [destruct (nth_error _ _)|]; congruence.
Qed.
Lemma nth_error_eq {A} (l m : list A) : (forall i, nth_error l i = nth_error m i) -> l = m.
Proof.
  revert m; induction l as [|x l IH]; intros [|y m] H; [reflexivity| | |].
  - specialize (H 0%nat). discriminate.
  - specialize (H 0%nat). discriminate.
  - pose proof (H 0%nat) as H0. cbn in H0. injection H0 as ->. f_equal. apply IH. intros i. apply (H (S i)).
Qed.
Lemma py_index_all {A} (l : list A) : map (py_index l) (map Z.of_nat (seq 0 (length l))) = map Ok l.
Proof.
  rewrite map_map. apply nth_error_eq. intros i. rewrite !nth_error_map.
  destruct (nth_error l i) as [x|] eqn:E; cbn [option_map].
  - assert (i < length l)%nat as Hi by (apply nth_error_Some; congruence).
    rewrite (nth_error_nth' _ 0%nat) by (rewrite seq_length; exact Hi). rewrite seq_nth by exact Hi. cbn [option_map].
    f_equal. apply py_index_iff. left. split; [lia|]. rewrite Nat2Z.id. exact E.
  - apply nth_error_None in E. replace (nth_error (seq 0 (length l)) i) with (@None nat); [reflexivity|].
    symmetry. apply nth_error_None. rewrite seq_length. exact E.
Qed.
Definition indices (l : pkl) (idx : option (list Z)) : list Z :=
  match idx with Some i => i | None => map Z.of_nat (seq 0 (length (l_pairs l))) end.
Lemma chosen_map {A} (l : list A) (idx : list Z) sel :
  Forall2 (at_index l) idx sel <-> map (py_index l) idx = map Ok sel.
Proof.
  revert sel; induction idx as [|i idx IH]; intros [|x sel]; cbn [map].
  - split; [reflexivity|constructor].
  - split; [intros H; inversion H|discriminate].
  - split; [intros H; inversion H|discriminate].
  - split.
    + intros H. inversion H; subst. f_equal; [apply py_index_iff; assumption|apply IH; assumption].
    + intros H. injection H as H1 H2. constructor; [apply py_index_iff; exact H1|apply IH; exact H2].
Qed.
Lemma chosen_iff l idx sel :
  chosen (l_pairs l) idx sel <-> map (py_index (l_pairs l)) (indices l idx) = map Ok sel.
Proof.
  destruct idx as [idx|]; cbn [chosen indices]; [apply chosen_map|].
  rewrite py_index_all. split; [congruence|]. revert sel; induction (l_pairs l) as [|x q IH]; intros [|y sel] H; try discriminate; [reflexivity|].
  cbn [map] in H. injection H as -> H. f_equal. apply IH. exact H.
Qed.

(** ** The pieces of pack_bytes *)
Fixpoint pubs_bytes (ov : bool) (rs : list (res pair)) : res bytes :=
  match rs with
  | [] => Ok []
  | r :: rs' =>
      do? q <- r;
      do? b <- pack_public_bytes (if ov then pr_private q else pr_public q);
      do? x <- instr_bytes fB (VBytes b);
      do? y <- pubs_bytes ov rs';
      Ok (x ++ y)
  end.
Fixpoint privs_bytes (rs : list (res pair)) : res bytes :=
  match rs with
  | [] => Ok []
  | r :: rs' =>
      do? q <- r;
      do? b <- pack_private_bytes (pr_private q);
      do? y <- privs_bytes rs';
      Ok (b ++ y)
  end.
Lemma writes_eq w r r' : writes w r -> r = r' -> writes w r'.
Proof. intros H <-; exact H. Qed.
Lemma writes_pubs l ov idx : writes (write_pubs l ov idx) (pubs_bytes ov (map (py_index (l_pairs l)) idx)).
Proof.
  induction idx as [|i idx IH]; cbn [write_pubs map pubs_bytes]; [apply writes_nil|].
  apply writes_lift. intros q _. apply writes_lift. intros b _.
  eapply writes_seq; [apply writes_instr|exact IH].
Qed.
Lemma writes_privs l idx : writes (write_privs l idx) (privs_bytes (map (py_index (l_pairs l)) idx)).
Proof.
  induction idx as [|i idx IH]; cbn [write_privs map privs_bytes]; [apply writes_nil|].
  apply writes_lift. intros q _. apply writes_lift. intros b _.
  apply (writes_eq _ _ _ (writes_seq _ _ _ _ (writes_raw b) IH)). reflexivity.
Qed.
Definition padding_for (c : cipher) (n : nat) : bytes :=
  pad_bytes (Z.to_nat ((- Z.of_nat n) mod Z.of_nat (block_size c))).
Definition check_ints (e : env) : dict pyval :=
  [(str "check_int_1", VInt (e_randbits e)); (str "check_int_2", VInt (e_randbits e))].
Lemma pack_plain_eq e l cv idx :
  pack_plain e l cv idx =
  do? a <- dict_bytes decipher_header_fmt (check_ints e);
  do? b <- privs_bytes (map (py_index (l_pairs l)) idx);
  do? c <- get_cipher cv;
  Ok (a ++ b ++ padding_for c (length (a ++ b))).
Proof.
  unfold pack_plain, pack_with. fold (check_ints e). unfold pbind at 1.
  pose proof (writes_dict decipher_header_fmt (check_ints e) (stream_of [])) as H.
  destruct (dict_bytes decipher_header_fmt (check_ints e)) as [a|x]; cbn [rbind]; [|destruct H as (s' & ->); reflexivity].
  rewrite H, bio_write_fresh. clear H. unfold pbind at 1.
  pose proof (writes_privs l idx (mkstream a (length a))) as H.
  destruct (privs_bytes _) as [b|x]; cbn [rbind]; [|destruct H as (s' & ->); reflexivity].
  rewrite H. unfold pbind, plift. rewrite <- bio_write_fresh, bio_write_app, bio_write_fresh.
  destruct (get_cipher cv) as [c|x]; cbn [rbind]; [|reflexivity].
  rewrite <- bio_write_fresh, bio_write_app, !bio_write_fresh. cbn [getvalue sbuf].
  unfold padding_for. rewrite <- app_assoc. reflexivity.
Qed.

Definition options_for (e : env) (l : pkl) (retain : bool) (kv : pyval) : W (dict pyval) :=
  match (if retain then l_kdf_options l else None) with
  | Some d => wret d
  | None => do k <- wlift (get_kdf kv);
            new_kdf k (kdf_generate k (e_salt e)) ;;
            wret (kdf_generate k (e_salt e))
  end.
Definition file_header (cv kv : pyval) (ob : bytes) (n : nat) : dict pyval :=
  [(str "auth_magic", VBytes auth_magic); (str "cipher", cv); (str "kdf", kv);
   (str "kdf_options", VBytes ob); (str "num_keys", VInt (Z.of_nat n))].
(** pack_bytes as a function of the pairs selected. *)
Definition pack_selected (p : prims) (e : env) (cv kv : pyval) (opts : W (dict pyval)) (rs : list (res pair))
    (pass : option pystr) (ov : bool) : W bytes :=
  do options <- opts;
  do k <- wlift (get_kdf kv);
  do ob <- wlift (dict_bytes (kdf_format k) options);
  do prefix <- wlift (do? h <- dict_bytes list_header_fmt (file_header cv kv ob (length rs));
                      do? ps <- pubs_bytes ov rs; Ok (h ++ ps));
  do plain <- wlift (do? a <- dict_bytes decipher_header_fmt (check_ints e);
                     do? b <- privs_bytes rs;
                     do? c <- get_cipher cv;
                     Ok (a ++ b ++ padding_for c (length (a ++ b))));
  do pw <- (if val_eqb kv (VStr (str "none")) then wret [] else get_passphrase e pass);
  do c <- wlift (get_cipher cv);
  new_kdf k options ;;
  do x <- wlift (cipher_encrypt p c k options pw plain);
  let body := if is_integrity c then slice_butlast (tag_length c) x else x in
  let tag := if is_integrity c then slice_last (tag_length c) x else [] in
  wlift (do? y <- instr_bytes fB (VBytes body); Ok (prefix ++ y ++ tag)).
Lemma pack_final prefix body tag :
  pack_with (fun s0 => (do! _ <- write_instr fB (VBytes body); fun s => (bio_write tag s, Ok tt)) (bio_write prefix s0)) =
  (do? y <- instr_bytes fB (VBytes body); Ok (prefix ++ y ++ tag)).
Proof.
  apply pack_with_writes. intros s.
  pose proof (writes_seq _ _ _ _ (writes_instr fB (VBytes body)) (writes_raw tag) (bio_write prefix s)) as H.
  destruct (instr_bytes fB (VBytes body)) as [y|x]; cbn [rbind] in *; [|exact H].
  rewrite H, bio_write_app. reflexivity.
Qed.
Lemma list_pack_eq p e l pass idx ov retain :
  list_pack_bytes p e l pass idx ov retain =
  pack_selected p e (fst (list_cipher_kdf l)) (snd (list_cipher_kdf l))
    (options_for e l retain (snd (list_cipher_kdf l)))
    (map (py_index (l_pairs l)) (indices l idx)) pass ov.
Proof.
  unfold list_pack_bytes, pack_selected. destruct (list_cipher_kdf l) as [cv kv]. cbn [fst snd].
  fold (options_for e l retain kv). fold (indices l idx).
  apply wbind_ext. intros options. apply wbind_ext. intros k. rewrite pack_with_dict.
  apply wbind_ext. intros ob. rewrite map_length. fold (file_header cv kv ob (length (indices l idx))).
  rewrite (pack_with_writes _ _ (writes_seq _ _ _ _ (writes_dict _ _) (writes_pubs l ov (indices l idx)))).
  apply wbind_ext. intros prefix. rewrite pack_plain_eq. apply wbind_ext. intros plain.
  apply wbind_ext. intros pw. apply wbind_ext. intros c. unfold wseq. apply wbind_ext. intros _.
  apply wbind_ext. intros x. rewrite pack_final. reflexivity.
Qed.

(** ** Layout of the pieces *)
Lemma octets_iff b x : instr_bytes fB (VBytes b) = Ok x <-> prefixed 4 b x.
Proof.
  cbn [instr_bytes fB]. rewrite write_pascal_eq by (unfold default_size, ssize_max; lia).
  change (Z.to_nat default_size) with 4%nat. cbn [write_payload]. split.
  - intros (u & E & H). injection E as <-. exact H.
  - intros H. exists b. auto.
Qed.
Lemma text_iff s x : instr_bytes fS (VStr s) = Ok x <-> wire (TText 4) (VStr s) x.
Proof.
  cbn [instr_bytes fS]. rewrite write_pascal_eq by (unfold default_size, ssize_max; lia).
  change (Z.to_nat default_size) with 4%nat. cbn [write_payload]. split.
  - intros (u & E & H). apply utf8_encode_iff in E. econstructor; eassumption.
  - intros H. inversion H; subst. exists u. split; [apply utf8_encode_iff|]; assumption.
Qed.
Lemma unsigned_range b : 0 <= unsigned b < 256 ^ Z.of_nat (length b).
Proof. rewrite unsigned_be. apply be_value_range. Qed.
Lemma signed_nonneg b z : 0 <= z -> signed b = z -> unsigned b = z /\ z < 256 ^ Z.of_nat (length b).
Proof.
  intros Hz. pose proof (unsigned_range b). unfold signed. destruct b as [|x r]; [cbn; lia|].
  destruct (128 <=? Zb x); lia.
Qed.
Lemma signed_small b z : length b = 4%nat -> unsigned b = z -> z < 2 ^ 31 -> signed b = z.
Proof.
  intros L U H. destruct b as [|x r]; [discriminate|]. unfold signed.
  destruct (128 <=? Zb x) eqn:E; [|exact U]. apply Z.leb_le in E. exfalso. cbn [unsigned] in U.
  cbn [length] in L. replace (length r) with 3%nat in U by lia. change (256 ^ Z.of_nat 3) with 16777216 in U.
  pose proof (unsigned_range r). lia.
Qed.
Lemma type_i : has_type (FStruct (str ">i")) (TInt true true 4).
Proof. apply ftype_of_sound. vm_compute. reflexivity. Qed.
Lemma type_I : has_type (FStruct (str ">I")) (TInt true false 4).
Proof. apply ftype_of_sound. vm_compute. reflexivity. Qed.
Lemma count_iff n x : instr_bytes (FStruct (str ">i")) (VInt (Z.of_nat n)) = Ok x <->
  length x = 4%nat /\ unsigned x = Z.of_nat n /\ Z.of_nat n < 2 ^ 31.
Proof.
  cbn [instr_bytes]. rewrite (struct_write _ _ _ _ type_i I). split.
  - intros H. inversion H; subst. split; [assumption|].
    match goal with K : Z.of_nat n = signed x |- _ => symmetry in K; pose proof K as K0; apply signed_nonneg in K as (-> & _); [|lia] end.
    split; [reflexivity|]. destruct x as [|u r]; [discriminate|]. cbn [signed] in K0.
    match goal with K : length (u :: r) = 4%nat |- _ => cbn [length] in K; assert (length r = 3%nat) as L3 by lia end.
    pose proof (unsigned_range (u :: r)) as R1. pose proof (unsigned_range r) as R2. pose proof (Zb_range u) as R3.
    cbn [unsigned length] in R1, K0. rewrite L3 in R1, R2, K0.
    change (256 ^ Z.of_nat 4) with 4294967296 in *. change (256 ^ Z.of_nat 3) with 16777216 in *. change (2 ^ 31) with 2147483648.
    destruct (128 <=? Zb u) eqn:E; [|apply Z.leb_gt in E]; lia.
  - intros (L & U & H). constructor; [exact L|]. symmetry. apply signed_small; assumption.
Qed.
Lemma uint32_iff z x : instr_bytes (FStruct (str ">I")) (VInt z) = Ok x <-> length x = 4%nat /\ unsigned x = z.
Proof.
  cbn [instr_bytes]. rewrite (struct_write _ _ _ _ type_I I). split.
  - intros H. inversion H; subst. auto.
  - intros (L & U). constructor; [exact L|]. symmetry. exact U.
Qed.
Lemma magic_bytes : instr_bytes (FStruct (str "15s")) (VBytes auth_magic) = Ok magic.
Proof. vm_compute. reflexivity. Qed.
Lemma file_header_iff cn kn ob n h :
  dict_bytes list_header_fmt (file_header (VStr cn) (VStr kn) ob n) = Ok h <->
  exists c k o x, wire (TText 4) (VStr cn) c /\ wire (TText 4) (VStr kn) k /\ prefixed 4 ob o /\
    length x = 4%nat /\ unsigned x = Z.of_nat n /\ Z.of_nat n < 2 ^ 31 /\
    h = magic ++ c ++ k ++ o ++ x.
Proof.
  unfold list_header_fmt, file_header, fld. cbn [dict_bytes].
  change (ditem (str "auth_magic") _) with (Ok (VBytes auth_magic)).
  change (ditem (str "cipher") _) with (Ok (VStr cn)).
  change (ditem (str "kdf") _) with (Ok (VStr kn)).
  change (ditem (str "kdf_options") _) with (Ok (VBytes ob)).
  change (ditem (str "num_keys") _) with (Ok (VInt (Z.of_nat n))).
  cbn [rbind]. rewrite magic_bytes. cbn [rbind]. split.
  - intros H. apply rbind_ok in H as (r & H & K). apply rbind_ok in H as (c & Ec & H). apply rbind_ok in H as (r2 & H & K2).
    apply rbind_ok in H as (k & Ek & H). apply rbind_ok in H as (r3 & H & K3).
    apply rbind_ok in H as (o & Eo & H). apply rbind_ok in H as (r4 & H & K4).
    apply rbind_ok in H as (x & Ex & H). apply Ok_inj in K, K2, K3, K4, H. subst. rewrite app_nil_r.
    apply text_iff in Ec, Ek. apply octets_iff in Eo. apply count_iff in Ex as (Lx & Ux & Sx).
    exists c, k, o, x. repeat (split; [assumption|]). reflexivity.
  - intros (c & k & o & x & Ec & Ek & Eo & Lx & Ux & Sx & ->).
    rewrite (proj2 (text_iff _ _) Ec), (proj2 (text_iff _ _) Ek), (proj2 (octets_iff _ _) Eo).
    rewrite (proj2 (count_iff _ _) (conj Lx (conj Ux Sx))). cbn [rbind]. rewrite app_nil_r. reflexivity.
Qed.
Lemma check_ints_iff e a : dict_bytes decipher_header_fmt (check_ints e) = Ok a <->
  exists c, length c = 4%nat /\ unsigned c = e_randbits e /\ a = c ++ c.
Proof.
  unfold decipher_header_fmt, check_ints, fld. cbn [dict_bytes].
  change (ditem (str "check_int_1") _) with (Ok (VInt (e_randbits e))).
  change (ditem (str "check_int_2") _) with (Ok (VInt (e_randbits e))). cbn [rbind]. split.
  - intros H. apply rbind_ok in H as (c & Ec & H). rewrite Ec in H. cbn [rbind] in H. rewrite app_nil_r in H.
    apply Ok_inj in H as <-. apply uint32_iff in Ec as (L & U). exists c. auto.
  - intros (c & L & U & ->). rewrite (proj2 (uint32_iff _ _) (conj L U)). cbn [rbind]. rewrite app_nil_r. reflexivity.
Qed.
Lemma get_kdf_iff kv k : get_kdf kv = Ok k <->
  (kv = VStr (str "none") /\ k = KdfNone) \/ (kv = VStr (str "bcrypt") /\ k = KdfBcrypt).
Proof.
  split.
  - destruct kv; try discriminate. cbn [get_kdf]. unfold ditem, kdf_mapping. cbn [dget].
    destruct (str_eqb_reflect s (str "none")) as [->|_]; [intros K; injection K as <-; auto|].
    destruct (str_eqb_reflect s (str "bcrypt")) as [->|_]; [intros K; injection K as <-; auto|discriminate].
  - intros [(-> & ->)|(-> & ->)]; reflexivity.
Qed.
Lemma kdf_specs_fun kn ts k : In (kn, ts) kdf_specs -> get_kdf (VStr kn) = Ok k ->
  kn = match k with KdfNone => str "none" | KdfBcrypt => str "bcrypt" end /\
  ts = match k with KdfNone => [] | KdfBcrypt => [octets "salt"; uint32 "rounds"] end.
Proof.
  intros [H|[H|[]]] E; injection H as <- <-; apply get_kdf_iff in E as [(E & ->)|(E & ->)]; try discriminate; auto.
Qed.
Lemma kdf_dict_types k : format_types (kdf_format k) (match k with KdfNone => [] | KdfBcrypt => [octets "salt"; uint32 "rounds"] end)
  /\ NoDup (dkeys (kdf_format k)).
Proof.
  destruct k; (split; [apply ftypes_of_sound; vm_compute; reflexivity|apply nodupb_sound; vm_compute; reflexivity]).
Qed.
Lemma options_sound kn k d ob : get_kdf (VStr kn) = Ok k -> dict_bytes (kdf_format k) d = Ok ob -> options_of kn d ob.
Proof.
  intros Ek H. destruct (kdf_dict_types k) as (T & N).
  assert (kn = match k with KdfNone => str "none" | KdfBcrypt => str "bcrypt" end) as ->.
  { apply get_kdf_iff in Ek as [(E & ->)|(E & ->)]; injection E as ->; reflexivity. }
  apply (dict_bytes_canonical _ _ _ _ T) in H as (vs & R & C); [|apply blobs_none; intros x n; destruct k; cbn [In]; intuition discriminate|exact N].
  rewrite (format_keys _ _ T) in R. eexists _, vs. split; [|split; eassumption]. destruct k; cbn [kdf_specs In]; auto.
Qed.
Lemma options_complete kn k d ob : get_kdf (VStr kn) = Ok k -> options_of kn d ob -> Z.of_nat (length ob) <= ssize_max ->
  dict_bytes (kdf_format k) d = Ok ob.
Proof.
  intros Ek (ts & vs & Hin & R & C) L. destruct (kdf_specs_fun _ _ _ Hin Ek) as (_ & ->).
  destruct (kdf_dict_types k) as (T & N). rewrite (format_keys _ _ T) in N.
  apply (canonical_dict_ok _ _ _ _ _ T N R C); [|exact L].
  intros x n z Hx. destruct k; cbn [In] in Hx; intuition discriminate.
Qed.

(** ** Padding *)
Lemma pad_bytes_length n : length (pad_bytes n) = n.
Proof. unfold pad_bytes. rewrite map_length, seq_length. reflexivity. Qed.
Lemma pad_bytes_nth n i v : nth_error (pad_bytes n) i = Some v -> v = bZ (Z.of_nat (S i)).
Proof.
  intros H. unfold pad_bytes in H. rewrite nth_error_map in H.
  destruct (nth_error (seq 1 n) i) as [j|] eqn:E; [|discriminate]. injection H as <-.
  assert (i < n)%nat as Hi by (rewrite <- (seq_length n 1); apply nth_error_Some; congruence).
  rewrite (nth_error_nth' _ 0%nat) in E by (rewrite seq_length; exact Hi). rewrite seq_nth in E by exact Hi.
  injection E as <-. reflexivity.
Qed.
Lemma pad_bytes_counting n : (n < 256)%nat -> counting (pad_bytes n).
Proof.
  intros Hn i v H. assert (i < n)%nat as Hi by (rewrite <- (pad_bytes_length n); apply nth_error_Some; congruence).
  apply pad_bytes_nth in H as ->. rewrite Zb_bZ. rewrite Z.mod_small by lia. lia.
Qed.
Lemma counting_prefix pad n : (n < 256)%nat ->
  (counting pad /\ (length pad <= n)%nat) <-> bytes_prefix pad (pad_bytes n) = true.
Proof.
  intros Hn.
  assert (forall a b, bytes_prefix a b = true <-> (length a <= length b)%nat /\ forall i v, nth_error a i = Some v -> nth_error b i = Some v) as P.
  { induction a as [|x a IH]; intros b; cbn [bytes_prefix].
    - split; [intros _; split; [cbn; lia|intros [|i] v K; discriminate]|reflexivity].
    - destruct b as [|y b].
      + split; [discriminate|]. intros (K & _). cbn in K. lia.
      + rewrite andb_true_iff, byte_eqb_spec, IH. split.
        * intros (-> & L & H). split; [cbn; lia|]. intros [|i] v; [auto|apply H].
        * intros (L & H). split; [specialize (H 0%nat x eq_refl); cbn in H; congruence|]. split; [cbn in L; lia|].
          intros i v. apply (H (S i)). }
  rewrite P, pad_bytes_length. split.
  - intros (C & L). split; [exact L|]. intros i v H.
    assert (i < length pad)%nat as Hi by (apply nth_error_Some; congruence).
    destruct (nth_error (pad_bytes n) i) as [w|] eqn:E; [|apply nth_error_None in E; rewrite pad_bytes_length in E; lia].
    f_equal. apply Zb_inj. rewrite (C _ _ H). apply (pad_bytes_counting n Hn _ _ E).
  - intros (L & H). split; [|exact L]. intros i v K. apply H in K. apply (pad_bytes_counting n Hn _ _ K).
Qed.
Lemma padding_for_ok c n : let pad := padding_for c n in
  counting pad /\ (length pad < block_size c)%nat /\ ((n + length pad) mod block_size c = 0)%nat.
Proof.
  cbv zeta. unfold padding_for. rewrite pad_bytes_length.
  assert (0 < block_size c <= 16)%nat as B by (destruct c; cbn; lia).
  pose proof (Z.mod_pos_bound (- Z.of_nat n) (Z.of_nat (block_size c)) ltac:(lia)) as R.
  split; [apply pad_bytes_counting; lia|]. split; [lia|].
  apply Nat2Z.inj. rewrite Nat2Z.inj_mod, Nat2Z.inj_add, Z2Nat.id by lia. change (Z.of_nat 0) with 0.
  rewrite Zplus_mod_idemp_r. rewrite Z.add_opp_diag_r. apply Zmod_0_l.
Qed.

(** ** The selected keys *)
Lemma pubs_sel ov rs y : pubs_bytes ov rs = Ok y -> exists sel, rs = map Ok sel.
Proof.
  revert y; induction rs as [|r rs IH]; intros y H; [exists []; reflexivity|]. cbn [pubs_bytes] in H.
  apply rbind_ok in H as (q & -> & H). apply rbind_ok in H as (b & _ & H). apply rbind_ok in H as (x & _ & H).
  apply rbind_ok in H as (y' & E & _). apply IH in E as (sel & ->). exists (q :: sel). reflexivity.
Qed.
Lemma pubs_bytes_iff ov sel y : pubs_bytes ov (map Ok sel) = Ok y <->
  exists bs xs, Forall2 (fun q b => pack_public_bytes (if ov then pr_private q else pr_public q) = Ok b) sel bs /\
    Forall2 (prefixed 4) bs xs /\ y = concat xs.
Proof.
  revert y; induction sel as [|q sel IH]; intros y; cbn [map pubs_bytes].
  - split.
    + intros H. apply Ok_inj in H as <-. exists [], []. repeat split; constructor.
    + intros (bs & xs & H & H' & ->). inversion H; subst. inversion H'; subst. reflexivity.
  - cbn [rbind]. split.
    + intros H. apply rbind_ok in H as (b & Eb & H). apply rbind_ok in H as (x & Ex & H).
      apply rbind_ok in H as (y' & Ey & H). apply Ok_inj in H as <-. apply IH in Ey as (bs & xs & H1 & H2 & ->).
      exists (b :: bs), (x :: xs). split; [constructor; assumption|]. split; [constructor; [apply octets_iff|]; assumption|reflexivity].
    + intros (bs & xs & H & H' & ->). inversion H as [|? b ? bs' Hb Hbs]; subst.
      inversion H' as [|? x ? xs' Hx Hxs]; subst. rewrite Hb. cbn [rbind].
      apply octets_iff in Hx. rewrite Hx. cbn [rbind].
      rewrite (proj2 (IH (concat xs')) (ex_intro _ bs' (ex_intro _ xs' (conj Hbs (conj Hxs eq_refl))))). reflexivity.
Qed.
Lemma privs_bytes_iff sel y : privs_bytes (map Ok sel) = Ok y <->
  exists bs, Forall2 (fun q b => pack_private_bytes (pr_private q) = Ok b) sel bs /\ y = concat bs.
Proof.
  revert y; induction sel as [|q sel IH]; intros y; cbn [map privs_bytes].
  - split.
    + intros H. apply Ok_inj in H as <-. exists []. repeat split; constructor.
    + intros (bs & H & ->). inversion H; subst. reflexivity.
  - cbn [rbind]. split.
    + intros H. apply rbind_ok in H as (b & Eb & H).
      apply rbind_ok in H as (y' & Ey & H). apply Ok_inj in H as <-. apply IH in Ey as (bs & H1 & ->).
      exists (b :: bs). split; [constructor; assumption|reflexivity].
    + intros (bs & H & ->). inversion H as [|? b ? bs' Hb Hbs]; subst. rewrite Hb. cbn [rbind].
      rewrite (proj2 (IH (concat bs')) (ex_intro _ bs' (conj Hbs eq_refl))). reflexivity.
Qed.

(** ** Encryption *)
Lemma enciphers_iff p cn kn c k d pw plain x :
  sound_prims p -> get_cipher (VStr cn) = Ok c -> get_kdf (VStr kn) = Ok k ->
  cipher_encrypt p c k d pw plain = Ok x <-> enciphers p cn kn d pw plain x.
Proof.
  intros S Hc Hk.
  assert (forall m kl il bs, In (cn, (m, kl, il, bs)) cipher_table -> m = mode_of c /\ kl = key_length c /\ il = iv_length c) as T.
  { intros m kl il bs H. destruct (cipher_table_spec _ _ _ _ _ H) as (c' & E & -> & -> & -> & _).
    assert (c' = c) as -> by congruence. auto. }
  destruct (get_cipher_table _ _ Hc) as (cn' & E & Hin). injection E as <-.
  unfold enciphers. split.
  - intros H. exists (mode_of c), (key_length c), (iv_length c), (block_size c). split; [exact Hin|].
    destruct (match c with NoneCipher => true | _ => false end) eqn:En.
    + left. destruct c; try discriminate. cbn in H. injection H as <-. auto.
    + right. split; [destruct c; discriminate|]. apply get_kdf_iff in Hk as [(Ek & ->)|(Ek & ->)].
      * exfalso. destruct c; try discriminate.
      * injection Ek as ->. split; [reflexivity|]. apply encrypt_bcrypt; [exact S|intros ->; discriminate|exact H].
  - intros (m & kl & il & bs & H & K). destruct (T _ _ _ _ H) as (-> & -> & ->).
    destruct K as [(Em & ->)|(Em & -> & K)].
    + destruct c; try discriminate. reflexivity.
    + apply get_kdf_iff in Hk as [(Ek & ->)|(Ek & ->)]; [discriminate|].
      apply encrypt_bcrypt; [exact S|intros ->; apply Em; reflexivity|exact K].
Qed.
Lemma get_cipher_str cv c : get_cipher cv = Ok c -> exists cn, cv = VStr cn.
Proof. intros H. apply get_cipher_table in H as (cn & -> & _). exists cn. reflexivity. Qed.
Lemma encrypt_tag p cn kn d pw plain x c : sound_prims p -> get_cipher (VStr cn) = Ok c ->
  enciphers p cn kn d pw plain x -> length x = (length plain + if is_integrity c then 16 else 0)%nat.
Proof.
  intros S Hc (m & kl & il & bs & H & K). destruct (cipher_table_spec _ _ _ _ _ H) as (c' & E & -> & -> & -> & -> & A).
  assert (c' = c) as -> by congruence. rewrite <- A. destruct K as [(Em & ->)|(Em & _ & key & iv & Lk & Li & _ & He)].
  - rewrite Em. cbn. lia.
  - eapply encrypts_length; [exact S| | |exact He]; intros Hm; split; try (rewrite Li; destruct c; try discriminate; reflexivity);
      rewrite Lk; destruct c; try discriminate; simpl; tauto.
Qed.

(** ** pack_bytes refines its specification *)
Lemma list_names_iff l c k : list_cipher_kdf l = (c, k) <-> list_names l c k.
Proof.
  unfold list_cipher_kdf, list_names. split.
  - destruct (l_header l) as [h|] eqn:Eh.
    + destruct (dget (str "cipher") h) as [c'|] eqn:Ec; [destruct (dget (str "kdf") h) as [k'|] eqn:Ek|];
        intros H; injection H as <- <-.
      * left. exists h. auto.
      * right. split; [|auto]. intros h' H. injection H as <-. auto.
      * right. split; [|auto]. intros h' H. injection H as <-. auto.
    + intros H; injection H as <- <-. right. split; [discriminate|auto].
  - intros [(h & -> & -> & ->)|(H & -> & ->)]; [reflexivity|].
    destruct (l_header l) as [h|]; [|reflexivity]. destruct (H h eq_refl) as [->| ->]; [reflexivity|].
    destruct (dget (str "cipher") h); reflexivity.
Qed.
Lemma new_kdf_ok k d : snd (new_kdf k d) = Ok tt.
Proof.
  unfold new_kdf. destruct (kdf_dict_types k) as (T & _). apply (check_dict_spec d _ _ T).
Qed.
Lemma snd_wbind {A B} (x : W A) (f : A -> W B) b :
  snd (wbind x f) = Ok b <-> exists a, snd x = Ok a /\ snd (f a) = Ok b.
Proof.
  destruct x as [l [a|e]]; cbn [wbind snd].
  - destruct (f a) as [l' r] eqn:E. cbn [snd]. split.
    + intros ->. exists a. rewrite E. auto.
    + intros (a' & H & K). injection H as <-. rewrite E in K. exact K.
  - split; [discriminate|]. intros (a & H & _). discriminate.
Qed.
Lemma snd_wseq {B} (x : W unit) (y : W B) b : snd (wseq x y) = Ok b <-> snd x = Ok tt /\ snd y = Ok b.
Proof.
  unfold wseq. rewrite snd_wbind. split.
  - intros ([] & H & K). auto.
  - intros (H & K). exists tt. auto.
Qed.
Lemma snd_wlift {A} (r : res A) : snd (wlift r) = r.
Proof. reflexivity. Qed.
Lemma options_for_iff e l retain kn k d : get_kdf (VStr kn) = Ok k ->
  snd (options_for e l retain (VStr kn)) = Ok d <-> options_used e l retain kn d.
Proof.
  intros Hk. unfold options_for, options_used.
  assert (snd (do k0 <- wlift (get_kdf (VStr kn)); new_kdf k0 (kdf_generate k0 (e_salt e));; wret (kdf_generate k0 (e_salt e))) = Ok d <->
    (kn = str "none" /\ d = []) \/ (kn = str "bcrypt" /\ d = [(str "salt", VBytes (e_salt e)); (str "rounds", VInt 16)])) as G.
  { rewrite snd_wbind. split.
    - intros (k' & E & H). rewrite snd_wlift in E. apply snd_wseq in H as (_ & H). cbn [wret snd] in H. injection H as <-.
      apply get_kdf_iff in E as [(E & ->)|(E & ->)]; injection E as ->; auto.
    - intros [(-> & ->)|(-> & ->)].
      + exists KdfNone. split; [reflexivity|]. apply snd_wseq. split; [apply new_kdf_ok|reflexivity].
      + exists KdfBcrypt. split; [reflexivity|]. apply snd_wseq. split; [apply new_kdf_ok|reflexivity]. }
  destruct retain; [destruct (l_kdf_options l) as [d'|] eqn:El|].
  - cbn [wret snd]. split.
    + intros H. injection H as <-. auto.
    + intros [(_ & H)|([H|H] & _)]; congruence.
  - rewrite G. split; [auto|]. intros [(_ & H)|(_ & H)]; [discriminate|exact H].
  - rewrite G. split; [auto|]. intros [(H & _)|(_ & H)]; [discriminate|exact H].
Qed.
Lemma passphrase_iff e kn given pw : 
  snd (if val_eqb (VStr kn) (VStr (str "none")) then wret [] else get_passphrase e given) = Ok pw <->
  passphrase_used e kn given pw.
Proof.
  unfold passphrase_used, get_passphrase. destruct (val_eqb_reflect (VStr kn) (VStr (str "none"))) as [E|N].
  - injection E as ->. cbn [wret snd]. split; [intros H; injection H as <-; auto|].
    intros [(_ & ->)|(H & _)]; [reflexivity|congruence].
  - assert (kn <> str "none") as N' by congruence. destruct given as [s|]; cbn [wret snd]; split.
    + intros H; injection H as <-. right. auto.
    + intros [(H & _)|(_ & ->)]; [contradiction|reflexivity].
    + intros H. right. auto.
    + intros [(H & _)|(_ & H)]; [contradiction|exact H].
Qed.
Lemma block_of_iff cn c bs : get_cipher (VStr cn) = Ok c -> block_of cn bs <-> bs = block_size c.
Proof.
  intros Hc. split.
  - intros (m & kl & il & H). destruct (cipher_table_spec _ _ _ _ _ H) as (c' & E & _ & _ & _ & -> & _). congruence.
  - intros ->. destruct (get_cipher_table _ _ Hc) as (cn' & E & H). injection E as <-. eexists _, _, _. exact H.
Qed.
Lemma tag_size_iff cn c n : get_cipher (VStr cn) = Ok c -> tag_size cn n <-> n = (if is_integrity c then 16 else 0)%nat.
Proof.
  intros Hc. split.
  - intros (m & kl & il & bs & H & ->). destruct (cipher_table_spec _ _ _ _ _ H) as (c' & E & _ & _ & _ & _ & ->). assert (c' = c) as -> by congruence; reflexivity.
  - intros ->. destruct (get_cipher_table _ _ Hc) as (cn' & E & H). injection E as <-. eexists _, _, _, _. split; [exact H|].
    destruct c; reflexivity.
Qed.
Lemma block_name cn bs : block_of cn bs -> exists c, get_cipher (VStr cn) = Ok c.
Proof. intros (m & kl & il & H). destruct (cipher_table_spec _ _ _ _ _ H) as (c' & E & _). exists c'. exact E. Qed.
Lemma options_name kn d ob : options_of kn d ob -> exists k, get_kdf (VStr kn) = Ok k.
Proof. intros (ts & vs & [H|[H|[]]] & _); injection H as <- <-; eexists; reflexivity. Qed.
Lemma counting_unique a b : counting a -> counting b -> length a = length b -> a = b.
Proof.
  intros A B L. apply nth_error_eq. intros i.
  destruct (nth_error a i) as [x|] eqn:Ea; destruct (nth_error b i) as [y|] eqn:Eb; [| | |reflexivity].
  - f_equal. apply Zb_inj. rewrite (A _ _ Ea), (B _ _ Eb). reflexivity.
  - apply nth_error_None in Eb. assert (i < length a)%nat by (apply nth_error_Some; congruence). lia.
  - apply nth_error_None in Ea. assert (i < length b)%nat by (apply nth_error_Some; congruence). lia.
Qed.
Lemma padding_unique c n pad : counting pad -> (length pad < block_size c)%nat -> ((n + length pad) mod block_size c = 0)%nat ->
  pad = padding_for c n.
Proof.
  intros C L M. destruct (padding_for_ok c n) as (C' & L' & M'). apply counting_unique; [assumption..|].
  apply Nat2Z.inj.
  assert (0 < block_size c)%nat as B by (destruct c; cbn; lia).
  rewrite <- (Z.mod_small (Z.of_nat (length pad)) (Z.of_nat (block_size c))) by lia.
  rewrite <- (Z.mod_small (Z.of_nat (length (padding_for c n))) (Z.of_nat (block_size c))) by lia.
  assert (forall k, ((n + k) mod block_size c = 0)%nat -> Z.of_nat k mod Z.of_nat (block_size c) = (- Z.of_nat n) mod Z.of_nat (block_size c)) as A.
  { intros k H. apply (f_equal Z.of_nat) in H. rewrite Nat2Z.inj_mod, Nat2Z.inj_add in H. change (Z.of_nat 0) with 0 in H.
    replace (Z.of_nat k) with ((Z.of_nat n + Z.of_nat k) + - Z.of_nat n) by lia.
    rewrite <- Zplus_mod_idemp_l, H. rewrite Z.add_0_l. reflexivity. }
  rewrite (A _ M), (A _ M'). reflexivity.
Qed.

Lemma pack_layout p e l given idx ov retain b :
  sound_prims p -> snd (list_pack_bytes p e l given idx ov retain) = Ok b -> packed p e l given idx ov retain b.
Proof.
  intros S H. rewrite list_pack_eq in H. destruct (list_cipher_kdf l) as [cv kv] eqn:En. cbn [fst snd] in H.
  apply list_names_iff in En. unfold pack_selected in H.
  apply snd_wbind in H as (d & Hd & H). apply snd_wbind in H as (k & Hk & H). rewrite snd_wlift in Hk.
  apply snd_wbind in H as (ob & Hob & H). rewrite snd_wlift in Hob.
  apply snd_wbind in H as (prefix & Hpre & H). rewrite snd_wlift in Hpre. apply rbind_ok in Hpre as (h & Hh & Hpre).
  apply rbind_ok in Hpre as (ps & Hps & Hpre). apply Ok_inj in Hpre as <-.
  apply snd_wbind in H as (plain & Hpl & H). rewrite snd_wlift in Hpl.
  apply rbind_ok in Hpl as (a & Ha & Hpl). apply rbind_ok in Hpl as (pb & Hpb & Hpl).
  apply rbind_ok in Hpl as (c & Hc & Hpl). apply Ok_inj in Hpl as <-.
  apply snd_wbind in H as (pw & Hpw & H). apply snd_wbind in H as (c' & Hc' & H). rewrite snd_wlift in Hc'.
  assert (c' = c) as -> by congruence. clear Hc'.
  apply snd_wseq in H as (_ & H). apply snd_wbind in H as (x & Hx & H). rewrite snd_wlift in Hx, H.
  cbv zeta in H. apply rbind_ok in H as (y & Hy & H). apply Ok_inj in H as <-. apply octets_iff in Hy.
  assert (exists kn, kv = VStr kn) as (kn & ->) by (apply get_kdf_iff in Hk as [(-> & _)|(-> & _)]; eexists; reflexivity).
  destruct (get_cipher_str _ _ Hc) as (cn & ->).
  apply (options_for_iff _ _ _ _ _ _ Hk) in Hd. apply passphrase_iff in Hpw.
  destruct (pubs_sel _ _ _ Hps) as (sel & Es). rewrite Es in Hps, Hpb, Hh. rewrite map_length in Hh.
  apply chosen_iff in Es. apply pubs_bytes_iff in Hps as (pubs & xs & Hpubs & Hxs & ->).
  apply privs_bytes_iff in Hpb as (privs & Hprivs & ->).
  apply file_header_iff in Hh as (c1 & k1 & o1 & n1 & Hc1 & Hk1 & Ho1 & Ln & Un & Sn & ->).
  apply check_ints_iff in Ha as (ci & Lci & Uci & ->).
  pose proof (proj1 (enciphers_iff _ _ _ _ _ _ _ _ _ S Hc Hk) Hx) as He.
  pose proof (encrypt_tag _ _ _ _ _ _ _ _ S Hc He) as Lx.
  destruct (padding_for_ok c (length ((ci ++ ci) ++ concat privs))) as (P1 & P2 & P3).
  exists cn, kn, d, ob, sel, pubs, privs, (block_size c), (padding_for c (length ((ci ++ ci) ++ concat privs))),
    ((ci ++ ci) ++ concat privs ++ padding_for c (length ((ci ++ ci) ++ concat privs))), pw,
    (if is_integrity c then slice_butlast (tag_length c) x else x),
    (if is_integrity c then slice_last (tag_length c) x else []).
  split; [exact En|]. split; [exact Hd|]. split; [eapply options_sound; eassumption|]. split; [exact Es|].
  split; [exact Sn|]. split; [exact Hpubs|]. split; [exact Hprivs|].
  split; [exists ci, ci; rewrite <- !app_assoc; auto|]. split; [apply (block_of_iff _ _ _ Hc); reflexivity|].
  split; [exact P1|]. split; [exact P2|].
  split; [rewrite app_assoc, app_length; exact P3|]. split; [exact Hpw|].
  assert ((if is_integrity c then slice_butlast (tag_length c) x else x) ++
     (if is_integrity c then slice_last (tag_length c) x else []) = x /\
    length (if is_integrity c then slice_last (tag_length c) x else []) = (if is_integrity c then 16 else 0)%nat) as (Ex & Lt).
  { destruct (is_integrity c); [|split; [apply app_nil_r|reflexivity]]. change (tag_length c) with 16%nat.
    unfold slice_butlast, slice_last. split; [apply firstn_skipn|]. rewrite skipn_length. lia. }
  split; [match goal with |- enciphers _ _ _ _ _ _ ?z => replace z with x by (symmetry; exact Ex) end; exact He|].
  split; [apply (tag_size_iff _ _ _ Hc); exact Lt|].
  exists c1, k1, o1, n1, xs, y. rewrite <- (Forall2_len _ _ _ Hpubs). repeat (split; [assumption|]).
  rewrite <- !app_assoc. reflexivity.
Qed.
Lemma pack_complete p e l given idx ov retain b :
  sound_prims p -> packed p e l given idx ov retain b -> Z.of_nat (length b) <= ssize_max ->
  snd (list_pack_bytes p e l given idx ov retain) = Ok b.
Proof.
  intros S (cn & kn & d & ob & sel & pubs & privs & bs & pad & plain & pw & body & tag & En & Hd & Ho & Es & Sn & Hpubs & Hprivs
    & (ci & ci2 & Lci & Uci & Lci2 & Uci2 & ->) & Hbs & P1 & P2 & P3 & Hpw & He & Lt & (c1 & k1 & o1 & n1 & xs & y & Hc1 & Hk1 & Ho1 & Ln & Un & Hxs & Hy & ->)) Hsz.
  assert (ci2 = ci) as -> by (apply be_value_inj; [congruence|rewrite <- !unsigned_be; congruence]).
  rewrite list_pack_eq. rewrite (proj2 (list_names_iff _ _ _) En). cbn [fst snd]. unfold pack_selected.
  destruct (block_name _ _ Hbs) as (c & Hc). destruct (options_name _ _ _ Ho) as (k & Hk).
  apply (block_of_iff _ _ _ Hc) in Hbs as ->. apply (tag_size_iff _ _ _ Hc) in Lt.
  apply chosen_iff in Es. rewrite Es. rewrite map_length.
  apply (proj2 (options_for_iff _ _ _ _ _ _ Hk)) in Hd. apply passphrase_iff in Hpw.
  apply snd_wbind. exists d. split; [exact Hd|]. apply snd_wbind. exists k. split; [exact Hk|].
  apply snd_wbind. exists ob. split.
  { rewrite snd_wlift. eapply options_complete; [eassumption..|]. apply prefixed_length in Ho1. rewrite !app_length in Hsz. lia. }
  apply snd_wbind. exists ((magic ++ c1 ++ k1 ++ o1 ++ n1) ++ concat xs). split.
  { rewrite snd_wlift. apply rbind_ok. exists (magic ++ c1 ++ k1 ++ o1 ++ n1). split.
    - apply file_header_iff. exists c1, k1, o1, n1. rewrite (Forall2_len _ _ _ Hpubs) in *. repeat (split; [assumption|]). reflexivity.
    - rewrite (proj2 (pubs_bytes_iff _ _ _) (ex_intro _ pubs (ex_intro _ xs (conj Hpubs (conj Hxs eq_refl))))). reflexivity. }
  assert (pad = padding_for c (length ((ci ++ ci) ++ concat privs))) as ->.
  { apply padding_unique; [assumption..|]. rewrite <- P3. f_equal. rewrite !app_length. lia. }
  apply snd_wbind. exists (ci ++ ci ++ concat privs ++ padding_for c (length ((ci ++ ci) ++ concat privs))). split.
  { rewrite snd_wlift. rewrite (proj2 (check_ints_iff _ _) (ex_intro _ ci (conj Lci (conj Uci eq_refl)))). cbn [rbind].
    rewrite (proj2 (privs_bytes_iff _ _) (ex_intro _ privs (conj Hprivs eq_refl))). cbn [rbind]. rewrite Hc. cbn [rbind].
    rewrite <- !app_assoc. reflexivity. }
  apply snd_wbind. exists pw. split; [exact Hpw|]. apply snd_wbind. exists c. split; [exact Hc|].
  apply snd_wseq. split; [apply new_kdf_ok|]. apply snd_wbind. exists (body ++ tag).
  split; [rewrite snd_wlift; apply (enciphers_iff _ _ _ _ _ _ _ _ _ S Hc Hk); exact He|]. cbv zeta. rewrite snd_wlift.
  assert ((if is_integrity c then slice_butlast (tag_length c) (body ++ tag) else body ++ tag) = body /\
    (if is_integrity c then slice_last (tag_length c) (body ++ tag) else []) = tag) as (-> & ->).
  { destruct (is_integrity c); [apply slice_tag; exact Lt|]. destruct tag; [|discriminate]. rewrite app_nil_r. auto. }
  rewrite (proj2 (octets_iff _ _) Hy). cbn [rbind]. rewrite <- !app_assoc. reflexivity.
Qed.
