(** Properties C01-C16: the byte stream. *)
From Verif Require Import PyBase IntBytes Utf8 StructFmt Stream SpecWire.
From Verif Require Import ProofBase ProofInt ProofUtf8 ProofWire ProofRecord.
Open Scope Z_scope.

Lemma sized_remaining s : sized s -> Z.of_nat (length (unread s)) <= ssize_max.
Proof. unfold sized, unread. rewrite skipn_length. lia. Qed.

(** A stream with data used to show that hypotheses can be met. *)
Definition ex_fmt : fmt_dict :=
  [(str "n", FPascal MPINT); (str "name", FPascal STRING); (str "flags", FStruct (str ">B"));
   (str "blob", FPascalSize BYTES 2); (str "magic", FStruct (str "3s"))].
Definition ex_types : list (pystr * ftype) :=
  [(str "n", TMpint 4); (str "name", TText 4); (str "flags", TInt true false 1);
   (str "blob", TBytes 2); (str "magic", TBlob 3)].
Definition ex_vals : dict pyval :=
  [(str "magic", VBytes (bstr "abc")); (str "n", VInt 128); (str "name", VStr [233%N]);
   (str "other", VOther 0); (str "flags", VInt 5); (str "blob", VBytes [x01; x02])].
Definition ex_bytes : bytes :=
  [x00; x00; x00; x02; x00; x80; x00; x00; x00; x02; xc3; xa9; x05; x00; x02; x01; x02; x61; x62; x63].
Lemma ex_format : format_types ex_fmt ex_types.
Proof.
  unfold format_types, ex_fmt, ex_types.
  apply Forall2_cons; [split; [reflexivity|]; apply ht_mpint|].
  apply Forall2_cons; [split; [reflexivity|]; apply ht_text|].
  apply Forall2_cons; [split; [reflexivity|]; apply (ht_int ">" true "B" false 1); simpl; tauto|].
  apply Forall2_cons; [split; [reflexivity|]; apply (ht_bytes_n 2); unfold ssize_max; lia|].
  apply Forall2_cons; [split; [reflexivity|]; apply (ht_blob (str "3"))|apply Forall2_nil].
  - discriminate.
  - repeat constructor; unfold digit; cbn; lia.
  - vm_compute; discriminate.
Qed.

(** ** C01 *)
Theorem C01_fixed_read_all_or_nothing n s :
  0 <= n <= ssize_max ->
  let r := Z.of_nat (length (remaining s)) in
  (n <= r -> read_fixed_bytes n s =
     (mkstream (sbuf s) (spos s + Z.to_nat n), Ok (firstn (Z.to_nat n) (remaining s)))) /\
  (r < n -> exists s' m, read_fixed_bytes n s = (s', Err (EOFError (r =? 0) m)) /\ sbuf s' = sbuf s).
Proof.
  intros H r. unfold r. rewrite (read_fixed_spec n s H). unfold remaining, unread, adv.
  destruct (Nat.leb_spec (Z.to_nat n) (length (skipn (spos s) (sbuf s)))); split; intros Hr; try lia.
  - reflexivity.
  - unfold eof. destruct (Nat.eqb_spec (length (skipn (spos s) (sbuf s))) 0) as [E|E].
    + rewrite E. do 2 eexists. split; reflexivity.
    + destruct (Z.eqb_spec (Z.of_nat (length (skipn (spos s) (sbuf s)))) 0); [lia|].
      do 2 eexists. split; reflexivity.
Qed.
(** Two reads in a row return what one read of both sizes returns. *)
Theorem C01_reads_are_consecutive n m s s1 s2 a b :
  0 <= n -> 0 <= m -> n + m <= ssize_max ->
  read_fixed_bytes n s = (s1, Ok a) -> read_fixed_bytes m s1 = (s2, Ok b) ->
  read_fixed_bytes (n + m) s = (s2, Ok (a ++ b)).
Proof.
  intros Hn Hm Hnm R1 R2.
  rewrite read_fixed_spec in R1 by lia. rewrite read_fixed_spec in R2 by lia.
  rewrite read_fixed_spec by lia.
  destruct (Nat.leb_spec (Z.to_nat n) (length (unread s))) as [L1|]; [|discriminate].
  injection R1 as <- <-.
  destruct (Nat.leb_spec (Z.to_nat m) (length (unread (adv (Z.to_nat n) s)))) as [L2|]; [|discriminate].
  injection R2 as <- <-.
  assert (unread (adv (Z.to_nat n) s) = skipn (Z.to_nat n) (unread s)) as E.
  { unfold unread, adv. cbn [sbuf spos]. rewrite skipn_skipn. f_equal; lia. }
  rewrite E in *. rewrite skipn_length in L2.
  rewrite Z2Nat.inj_add by lia.
  destruct (Nat.leb_spec (Z.to_nat n + Z.to_nat m) (length (unread s))); [|lia].
  f_equal.
  - unfold adv. cbn [sbuf spos]. f_equal; lia.
  - f_equal. clear. generalize (unread s). generalize (Z.to_nat n).
    intros k l; revert l; induction k as [|k IH]; intros [|x l]; cbn; [reflexivity..| |].
    + rewrite firstn_nil. reflexivity.
    + f_equal. apply IH.
Qed.
(** Sizes outside 0 .. sys.maxsize: a negative size reads everything that is left (and never
    raises EOFError); sizes that do not fit Py_ssize_t raise OverflowError and read nothing. *)
Theorem C01_other_sizes n s :
  (- ssize_max - 1 <= n < 0 ->
     read_fixed_bytes n s =
     (mkstream (sbuf s) (spos s + length (remaining s)), Ok (remaining s))) /\
  (n < - ssize_max - 1 \/ ssize_max < n -> read_fixed_bytes n s = (s, Err OverflowError)).
Proof.
  unfold remaining, read_fixed_bytes, pbind, bio_read. split; intros H.
  - destruct (Z.ltb_spec ssize_max n); [unfold ssize_max in *; lia|].
    destruct (Z.ltb_spec n (- ssize_max - 1)); [lia|]. cbn [orb].
    destruct (Z.ltb_spec n 0); [|lia]. rewrite firstn_all.
    destruct (Z.ltb_spec (Z.of_nat (length (unread s))) n); [lia|]. reflexivity.
  - destruct (Z.ltb_spec ssize_max n); destruct (Z.ltb_spec n (- ssize_max - 1)); try lia; reflexivity.
Qed.
Example C01_example :
  read_fixed_bytes 2 (mkstream [x01; x02; x03] 1) = (mkstream [x01; x02; x03] 3, Ok [x02; x03]) /\
  exists m, snd (read_fixed_bytes 3 (mkstream [x01; x02; x03] 1)) = Err (EOFError false m).
Proof. split; [reflexivity | eexists; reflexivity]. Qed.
Print Assumptions C01_fixed_read_all_or_nothing.
Print Assumptions C01_reads_are_consecutive.
Print Assumptions C01_other_sizes.

(** ** C02 *)
Theorem C02_eof_error_independent_of_contents n s1 s2 e :
  length (remaining s1) = length (remaining s2) ->
  snd (read_fixed_bytes n s1) = Err e -> snd (read_fixed_bytes n s2) = Err e.
Proof.
  unfold remaining, read_fixed_bytes, pbind, bio_read, unread. intros L.
  destruct ((ssize_max <? n) || _); [auto|]. rewrite <- L.
  set (k := if n <? 0 then _ else _).
  assert (length (firstn k (skipn (spos s1) (sbuf s1))) = length (firstn k (skipn (spos s2) (sbuf s2)))) as ->
    by (rewrite !firstn_length; congruence).
  destruct (Z.of_nat _ <? n); [|discriminate].
  match goal with |- context [if ?g then _ else _] => destruct g end; auto.
Qed.
Theorem C02_eof_messages_are_constant f s s' b m :
  read_dict f s = (s', Err (EOFError b m)) ->
  m = (if b then str "Underlying bytestream is empty"
       else str "Fewer than 'num_bytes' bytes remaining in the underlying bytestream").
Proof.
  assert (forall n s s' b m, read_fixed_bytes n s = (s', Err (EOFError b m)) ->
    m = (if b then str "Underlying bytestream is empty"
       else str "Fewer than 'num_bytes' bytes remaining in the underlying bytestream")) as K.
  { clear. intros n s s' b m. unfold read_fixed_bytes, pbind, bio_read.
    destruct ((ssize_max <? n) || _); [discriminate|].
    match goal with |- context [if ?g then _ else _] => destruct g end.
    - match goal with |- context [(length ?l =? 0)%nat] => destruct (length l =? 0)%nat end;
        intros R; injection R as _ <- <-; reflexivity.
    - discriminate. }
  assert (forall k s s' b m, read_pascal_bytes k s = (s', Err (EOFError b m)) ->
    m = (if b then str "Underlying bytestream is empty"
       else str "Fewer than 'num_bytes' bytes remaining in the underlying bytestream")) as Kp.
  { clear - K. intros k s s' b m. unfold read_pascal_bytes. destruct (k <=? 0); [discriminate|].
    unfold pbind. destruct (read_fixed_bytes k s) as [s1 [l|e]] eqn:E.
    - apply K.
    - intros R; injection R as <- ->. eapply K; eassumption. }
  revert s; induction f as [|(k, i) f IH]; intros s; [discriminate|].
  cbn [read_dict]. unfold pbind at 1. destruct (read_instr i s) as [s1 [v|e]] eqn:E.
  - unfold pbind. destruct (read_dict f s1) as [s2 [r|e]] eqn:E2; [discriminate|].
    intros R; injection R as <- ->. eapply IH; eassumption.
  - intros R; injection R as <- ->. clear IH. destruct i as [fmt|i|i n|]; cbn [read_instr] in E.
    + unfold pbind at 1, plift in E.
      assert (forall fm, struct_calcsize fm <> Err (EOFError b m)) as Nc.
      { clear. intros fm. unfold struct_calcsize, parse_format.
        assert (forall o n g, parse_items o n g <> Err (EOFError b m)) as Np.
        { intros o n g; revert n; induction g as [|c g IH]; intros n; cbn [parse_items].
          - destruct n; discriminate.
          - assert (code_of o c <> Err (EOFError b m)) as Nco.
            { unfold code_of. repeat match goal with |- context [if ?g then _ else _] => destruct g end;
                destruct o; discriminate. }
            destruct n; repeat match goal with |- context [if ?g then _ else _] => destruct g end; auto;
              (destruct (code_of o c); cbn [rbind]; [|congruence];
               specialize (IH None); destruct (parse_items o None g); cbn [rbind]; congruence). }
        destruct (negb _); [discriminate|].
        destruct fm as [|c fm]; [discriminate|]. destruct (order_of c).
        - specialize (Np s None fm). destruct (parse_items s None fm); cbn [rbind]; [|congruence].
          destruct (_ <? _); discriminate.
        - specialize (Np Native None (c :: fm)). destruct (parse_items Native None (c :: fm)); cbn [rbind]; [|congruence].
          destruct (_ <? _); discriminate. }
      destruct (struct_calcsize fmt) as [cs|e] eqn:Ec; [|injection E as <- ->; exfalso; eapply Nc; eassumption].
      unfold pbind in E. destruct (read_fixed_bytes cs s) as [s3 [rb|e]] eqn:Ef.
      * exfalso. unfold struct_calcsize in Ec. apply rbind_ok in Ec as ((o, l) & Ep & _).
        unfold struct_unpack in E. rewrite Ep in E. cbn [rbind] in E.
        repeat match type of E with context [if ?g then _ else _] => destruct g end; try discriminate.
        destruct (unpack_slots o (slots_of l) rb) as [|x [|y r]]; discriminate.
      * injection E as <- ->. eapply K; eassumption.
    + unfold pbind at 1 in E. destruct (read_pascal_bytes default_size s) as [s3 [rb|e]] eqn:Ef.
      * exfalso. destruct i; try discriminate. unfold pbind, plift in E.
        destruct (utf8_decode rb) eqn:Eu; [discriminate|]. apply utf8_decode_err in Eu. congruence.
      * injection E as <- ->. eapply Kp; eassumption.
    + unfold pbind at 1 in E. destruct (read_pascal_bytes n s) as [s3 [rb|e]] eqn:Ef.
      * exfalso. destruct i; try discriminate. unfold pbind, plift in E.
        destruct (utf8_decode rb) eqn:Eu; [discriminate|]. apply utf8_decode_err in Eu. congruence.
      * injection E as <- ->. eapply Kp; eassumption.
    + discriminate.
Qed.
Example C02_example : exists e,
  snd (read_fixed_bytes 9 (stream_of (bstr "secret"))) = Err e /\
  snd (read_fixed_bytes 9 (stream_of (bstr "public"))) = Err e.
Proof. eexists; split; reflexivity. Qed.
Print Assumptions C02_eof_error_independent_of_contents.
Print Assumptions C02_eof_messages_are_constant.

(** ** C03 *)
(** Whatever was written at a position is read back from there. *)
Theorem C03_written_value_reads_back f t v s s' :
  has_type f t ->
  (forall n b, t = TBlob n -> v = VBytes b -> length b = n) ->
  write_instr f v s = (s', Ok tt) -> sized s' ->
  read_instr f (mkstream (sbuf s') (spos s)) = (s', Ok v).
Proof.
  intros H X W Sz. unfold write_instr in W. destruct (instr_bytes f v) as [b|] eqn:E; [|discriminate].
  injection W as <-.
  assert (canonical t v b) as (Wi & _).
  { apply (instr_bytes_canonical f); auto. destruct t; cbn [exact]; auto. destruct v; eauto. }
  destruct (bio_write_unread b s) as (rest & U & Ps).
  rewrite (read_instr_complete f t _ v b rest); auto.
  - f_equal. unfold adv. cbn [sbuf spos]. rewrite <- Ps. destruct (bio_write b s); reflexivity.
  - unfold sized in Sz. unfold unread in U. cbn [sbuf spos] in U.
    apply (f_equal (@length _)) in U. rewrite skipn_length, app_length in U. lia.
Qed.
(** Byte strings and texts that fit the prefix can be written. *)
Theorem C03_bytes_can_be_written b k s :
  0 < k <= ssize_max -> Z.of_nat (length b) < 256 ^ k ->
  exists s', write_instr (FPascalSize BYTES k) (VBytes b) s = (s', Ok tt).
Proof.
  intros Hk L. unfold write_instr. cbn [instr_bytes]. unfold write_pascal. cbn [write_payload rbind].
  assert (int_to_bytes (Z.of_nat (length b)) k false = Ok (be_bytes (Z.to_nat k) (Z.of_nat (length b)))) as ->
    by (apply int_to_bytes_unsigned_ok; repeat split; lia).
  cbn [rbind]. eauto.
Qed.
Theorem C03_text_can_be_written t b k s :
  0 < k <= ssize_max -> utf8 t b -> Z.of_nat (length b) < 256 ^ k ->
  exists s', write_instr (FPascalSize STRING k) (VStr t) s = (s', Ok tt).
Proof.
  intros Hk U L. unfold write_instr. cbn [instr_bytes]. unfold write_pascal. cbn [write_payload].
  apply utf8_encode_iff in U. rewrite U. cbn [rbind].
  assert (int_to_bytes (Z.of_nat (length b)) k false = Ok (be_bytes (Z.to_nat k) (Z.of_nat (length b)))) as ->
    by (apply int_to_bytes_unsigned_ok; repeat split; lia).
  cbn [rbind]. eauto.
Qed.
(** Every text made of Unicode scalar values has an encoding. *)
Theorem C03_text_has_encoding t : Forall scalar t -> exists b, utf8 t b.
Proof.
  intros H. apply utf8_encode_scalar in H as (b & H). exists b. apply utf8_encode_iff; assumption.
Qed.
Example C03_example :
  let s := mkstream [x01; x02; x03; x04; x05; x06; x07] 1 in
  exists s', write_instr (FPascalSize STRING 2) (VStr [233%N]) s = (s', Ok tt) /\ sized s' /\
    sbuf s' = [x01; x00; x02; xc3; xa9; x06; x07] /\
    read_instr (FPascalSize STRING 2) (mkstream (sbuf s') 1) = (mkstream (sbuf s') 5, Ok (VStr [233%N])).
Proof. eexists. split; [reflexivity|]. split; [unfold sized, ssize_max; simpl; lia|]. split; reflexivity. Qed.
Print Assumptions C03_written_value_reads_back.
Print Assumptions C03_bytes_can_be_written.
Print Assumptions C03_text_can_be_written.
Print Assumptions C03_text_has_encoding.

(** ** C04 *)
Theorem C04_mpint_reads_back z k s s' :
  0 < k <= ssize_max ->
  write_instr (FPascalSize MPINT k) (VInt z) s = (s', Ok tt) -> sized s' ->
  read_instr (FPascalSize MPINT k) (mkstream (sbuf s') (spos s)) = (s', Ok (VInt z)).
Proof.
  intros Hk W Sz. eapply C03_written_value_reads_back; eauto; [constructor; assumption|discriminate].
Qed.
(** [m] is a number of bytes that is enough for [z] in two's complement. *)
Theorem C04_nonnegative_mpint_can_be_written z m k s :
  0 <= z < 2 ^ (8 * m - 1) -> 0 < m < 256 ^ k -> m <= ssize_max -> 0 < k <= ssize_max ->
  exists s', write_instr (FPascalSize MPINT k) (VInt z) s = (s', Ok tt).
Proof.
  intros Hz Hm Hs Hk.
  assert (signed (be_bytes (Z.to_nat m) z) = z) as Sz.
  { rewrite signed_be. apply int_from_to_signed; rewrite ?Z2Nat.id by lia; lia. }
  pose proof (mpint_len_shortest _ _ Sz) as M. rewrite be_bytes_length in M.
  destruct (write_mpint_succeeds z) as (u & Hu); [lia| |].
  { intros (j & Hj & G). pose proof (Z.pow_pos_nonneg 2 (8 * j - 1)). lia. }
  pose proof Hu as Hu'. apply write_mpint_payload_iff in Hu' as (_ & L & _).
  unfold write_instr. cbn [instr_bytes]. unfold write_pascal. rewrite Hu. cbn [rbind].
  assert (int_to_bytes (Z.of_nat (length u)) k false = Ok (be_bytes (Z.to_nat k) (Z.of_nat (length u)))) as ->
    by (apply int_to_bytes_unsigned_ok; repeat split; lia).
  cbn [rbind]. eauto.
Qed.
Example C04_example :
  let z := 2 ^ 128 + 200 in
  exists s', write_instr (FPascalSize MPINT 4) (VInt z) (stream_of []) = (s', Ok tt) /\ sized s' /\
    read_instr (FPascalSize MPINT 4) (stream_of (sbuf s')) = (s', Ok (VInt z)).
Proof. eexists. split; [vm_compute; reflexivity|]. split; [unfold sized, ssize_max; simpl; lia|]. vm_compute. reflexivity. Qed.
Print Assumptions C04_mpint_reads_back.
Print Assumptions C04_nonnegative_mpint_can_be_written.

(** ** C05 *)
Theorem C05_negative_mpint_refuted :
  exists z, z < 0 /\ forall s, write_instr (FPascal MPINT) (VInt z) s = (s, Err OverflowError).
Proof. exists (-129). split; [lia|]. intros s. vm_compute. reflexivity. Qed.
(** Exactly the integers in the gaps are refused. *)
Theorem C05_negative_mpint_partial z m k s :
  - 2 ^ (8 * m - 1) <= z < 0 -> 0 < m < 256 ^ k -> m <= ssize_max -> 0 < k <= ssize_max ->
  (mpint_gap z -> write_instr (FPascalSize MPINT k) (VInt z) s = (s, Err OverflowError)) /\
  (~ mpint_gap z -> exists s', write_instr (FPascalSize MPINT k) (VInt z) s = (s', Ok tt)).
Proof.
  intros Hz Hm Hs Hk. split.
  - intros G. unfold write_instr. cbn [instr_bytes]. unfold write_pascal.
    rewrite (write_mpint_gap z G). reflexivity.
  - intros G.
    assert (signed (be_bytes (Z.to_nat m) z) = z) as Sz.
    { pose proof (Z.pow_pos_nonneg 2 (8 * m - 1)).
      rewrite signed_be. apply int_from_to_signed; rewrite ?Z2Nat.id by lia; lia. }
    pose proof (mpint_len_shortest _ _ Sz) as M. rewrite be_bytes_length in M.
    destruct (write_mpint_succeeds z) as (u & Hu); [lia|assumption|].
    pose proof Hu as Hu'. apply write_mpint_payload_iff in Hu' as (_ & L & _).
    unfold write_instr. cbn [instr_bytes]. unfold write_pascal. rewrite Hu. cbn [rbind].
    assert (int_to_bytes (Z.of_nat (length u)) k false = Ok (be_bytes (Z.to_nat k) (Z.of_nat (length u)))) as ->
      by (apply int_to_bytes_unsigned_ok; repeat split; lia).
    cbn [rbind]. eauto.
Qed.
Example C05_example : mpint_gap (-129) /\ ~ mpint_gap (-128) /\
  exists s', write_instr (FPascalSize MPINT 4) (VInt (-128)) (stream_of []) = (s', Ok tt).
Proof.
  split; [exists 1; lia|]. split.
  - intros (k & Hk & G). assert (k < 2).
    { destruct (Z.lt_ge_cases k 2); [assumption|].
      assert (2 ^ 15 <= 2 ^ (8 * k - 1)) by (apply Z.pow_le_mono_r; lia). lia. }
    assert (k = 1) as -> by lia. lia.
  - eexists; vm_compute; reflexivity.
Qed.
Print Assumptions C05_negative_mpint_refuted.
Print Assumptions C05_negative_mpint_partial.

(** ** C06 *)
Theorem C06_mpint_canonical z s' :
  write_instr (FPascal MPINT) (VInt z) (stream_of []) = (s', Ok tt) ->
  exists l p, getvalue s' = l ++ p /\ length l = 4%nat /\ unsigned l = Z.of_nat (length p) /\
    signed p = z /\ (forall p', signed p' = z -> (length p <= length p')%nat) /\
    (z = 0 -> p = []) /\
    (forall x y r, p = x :: y :: r -> ~ (x = x00 /\ Zb y < 128) /\ ~ (x = xff /\ 128 <= Zb y)) /\
    (0 <= z -> forall x r, p = x :: r -> Zb x < 128).
Proof.
  unfold write_instr. destruct (instr_bytes (FPascal MPINT) (VInt z)) as [b|] eqn:E; [|discriminate].
  intros W. injection W as <-. rewrite bio_write_fresh. unfold getvalue. cbn [sbuf].
  cbn [instr_bytes] in E. apply write_pascal_eq in E as (p & Hp & (l & Ll & Vl & ->));
    [|unfold default_size, ssize_max; lia].
  apply write_mpint_payload_iff in Hp as (Sp & Lp & _).
  assert (forall p', signed p' = z -> (length p <= length p')%nat) as Sh.
  { intros p' S'. pose proof (mpint_len_shortest _ _ S'). lia. }
  exists l, p. do 4 (split; [auto|]). split; [exact Sh|]. split; [|split].
  - intros ->. destruct p; [reflexivity|]. exfalso. specialize (Sh [] eq_refl). simpl in Sh. lia.
  - intros x y r ->. cbn [signed] in Sp.
    assert (signed (y :: r) <> z) as Ns by (intros K; specialize (Sh _ K); simpl in Sh; lia).
    split; intros (-> & Hy); apply Ns; cbn [signed].
    + change (128 <=? Zb x00) with false in Sp. cbv iota in Sp.
      destruct (Z.leb_spec 128 (Zb y)); [lia|]. rewrite <- Sp. cbn [unsigned]. change (Zb x00) with 0. ring.
    + change (128 <=? Zb xff) with true in Sp. cbv iota in Sp.
      destruct (Z.leb_spec 128 (Zb y)); [|lia]. rewrite <- Sp. cbn [unsigned]. change (Zb xff) with 255.
      cbn [length]. rewrite (Nat2Z.inj_succ (S (length r))), (Z.pow_succ_r 256 (Z.of_nat (S (length r)))) by lia. ring.
  - intros Hz x r ->. destruct (Z.ltb_spec (Zb x) 128); [assumption|]. exfalso.
    rewrite signed_be in Sp. unfold int_from_bytes in Sp. cbn [andb] in Sp.
    destruct (Z.leb_spec 128 (Zb x)); [|lia]. pose proof (be_value_range (x :: r)). lia.
Qed.
Example C06_example :
  map (fun z => option_map getvalue (match write_instr (FPascal MPINT) (VInt z) (stream_of []) with (s, Ok _) => Some s | _ => None end))
      [0; 127; 128; -128]
  = [Some [x00; x00; x00; x00]; Some [x00; x00; x00; x01; x7f];
     Some [x00; x00; x00; x02; x00; x80]; Some [x00; x00; x00; x01; x80]].
Proof. reflexivity. Qed.
Print Assumptions C06_mpint_canonical.

(** ** C07 *)
Theorem C07_string_read_iff_utf8 u l rest :
  length l = 4%nat -> unsigned l = Z.of_nat (length u) ->
  (forall t, (exists s', read_instr (FPascal STRING) (stream_of (l ++ u ++ rest)) = (s', Ok (VStr t))) <-> utf8 t u) /\
  ((forall t, ~ utf8 t u) ->
   exists s', read_instr (FPascal STRING) (stream_of (l ++ u ++ rest)) = (s', Err (UnicodeDecodeError u))).
Proof.
  intros L V.
  assert (read_pascal_bytes default_size (stream_of (l ++ u ++ rest)) = (adv (length (l ++ u)) (stream_of (l ++ u ++ rest)), Ok u)) as E.
  { apply read_pascal_complete with (rest := rest).
    - unfold default_size, ssize_max; lia.
    - rewrite <- V. rewrite unsigned_be. pose proof (be_value_range l) as R. rewrite L in R.
      change (256 ^ Z.of_nat 4) with 4294967296 in R. unfold ssize_max. lia.
    - exists l. auto.
    - unfold unread, stream_of. cbn. rewrite app_assoc. reflexivity. }
  split.
  - intros t. cbn [read_instr]. unfold pbind. rewrite E. unfold plift.
    rewrite <- (utf8_decode_iff u t). split.
    + intros (s' & R). destruct (utf8_decode u); [|discriminate]. injection R as _ ->. reflexivity.
    + intros ->. eexists; reflexivity.
  - intros N. cbn [read_instr]. unfold pbind. rewrite E. unfold plift.
    destruct (utf8_decode u) as [t|e] eqn:D.
    + exfalso. apply (N t). apply utf8_decode_iff. assumption.
    + apply utf8_decode_err in D as ->. eexists; reflexivity.
Qed.
Theorem C07_utf8_is_a_bijection t t' u u' :
  utf8 t u -> utf8 t' u' -> (t = t' <-> u = u').
Proof.
  intros H H'. split; intros <-; [eapply utf8_functional | eapply utf8_injective]; eassumption.
Qed.
Example C07_example :
  utf8 [0x20ac; 0x10ffff]%N [xe2; x82; xac; xf4; x8f; xbf; xbf] /\
  snd (read_instr (FPascal STRING) (stream_of [x00; x00; x00; x02; xc0; x80])) = Err (UnicodeDecodeError [xc0; x80]) /\
  snd (read_instr (FPascal STRING) (stream_of [x00; x00; x00; x03; xed; xa0; x80])) = Err (UnicodeDecodeError [xed; xa0; x80]).
Proof. split; [apply utf8_decode_iff; vm_compute; reflexivity|]. split; reflexivity. Qed.
Print Assumptions C07_string_read_iff_utf8.
Print Assumptions C07_utf8_is_a_bijection.

(** ** C08 *)
Theorem C08_record_round_trip f ts vals s s' :
  format_types f ts -> NoDup (dkeys f) -> blobs_exact ts vals ->
  write_dict f vals s = (s', Ok tt) -> sized s' ->
  exists vs, restricts (dkeys f) vals vs /\
    read_dict f (mkstream (sbuf s') (spos s)) = (s', Ok vs).
Proof. exact (write_read_dict f ts vals s s'). Qed.
(** For an 'Ns' field the value read back is padded or cut, so C08 fails without [blobs_exact]. *)
Theorem C08_blob_padding_refuted :
  exists s s', write_dict [(str "m", FStruct (str "3s"))] [(str "m", VBytes [x01])] s = (s', Ok tt) /\ sized s' /\
    read_dict [(str "m", FStruct (str "3s"))] (mkstream (sbuf s') (spos s)) =
    (s', Ok [(str "m", VBytes [x01; x00; x00])]).
Proof. exists (stream_of []). eexists. split; [reflexivity|]. split; [unfold sized, ssize_max; simpl; lia|reflexivity]. Qed.
(** Without that premise: what is read back is exactly the stored value of each field. *)
Theorem C08_record_stored_values f ts vals s s' :
  format_types f ts -> NoDup (dkeys f) ->
  write_dict f vals s = (s', Ok tt) -> sized s' ->
  exists vs, dkeys vs = dkeys f /\
    (forall k t, In (k, t) ts -> exists v, dget k vals = Some v /\ dget k vs = Some (stored t v)) /\
    read_dict f (mkstream (sbuf s') (spos s)) = (s', Ok vs).
Proof. exact (write_read_stored f ts vals s s'). Qed.
Example C08_example :
  format_types ex_fmt ex_types /\ NoDup (dkeys ex_fmt) /\ blobs_exact ex_types ex_vals /\
  exists s', write_dict ex_fmt ex_vals (stream_of []) = (s', Ok tt) /\ sized s' /\ sbuf s' = ex_bytes.
Proof.
  split; [apply ex_format|]. split; [|split].
  - repeat constructor; simpl; intuition discriminate.
  - intros k n b Hin Hd. unfold ex_types in Hin. simpl in Hin.
    repeat (destruct Hin as [Hin|Hin]; [try discriminate|]); try contradiction.
    injection Hin as <- <-. vm_compute in Hd. injection Hd as <-. reflexivity.
  - eexists. split; [vm_compute; reflexivity|]. split; [unfold sized, ssize_max; simpl; lia|reflexivity].
Qed.
Print Assumptions C08_record_round_trip.
Print Assumptions C08_blob_padding_refuted.
Print Assumptions C08_record_stored_values.

(** ** C09 *)
Theorem C09_read_iff_wire_format f ts s s' vs :
  format_types f ts -> sized s ->
  read_dict f s = (s', Ok vs) <->
  exists b rest, record_of wire ts vs b /\ remaining s = b ++ rest /\
    s' = mkstream (sbuf s) (spos s + length b).
Proof.
  intros F Sz. split.
  - intros R. destruct (read_dict_sound _ _ _ _ _ F R) as (b & Rb & U & E). eauto.
  - intros (b & rest & Rb & U & ->). apply (read_dict_complete f ts s vs b rest F Rb); [|exact U].
    apply sized_remaining in Sz. unfold remaining in U. unfold unread in Sz. rewrite U, app_length in Sz. lia.
Qed.
Example C09_example :
  record_of wire ex_types
    [(str "n", VInt 128); (str "name", VStr [233%N]); (str "flags", VInt 5);
     (str "blob", VBytes [x01; x02]); (str "magic", VBytes (bstr "abc"))] ex_bytes.
Proof.
  destruct (read_dict_sound ex_fmt ex_types (stream_of ex_bytes) (adv 20 (stream_of ex_bytes))
    [(str "n", VInt 128); (str "name", VStr [233%N]); (str "flags", VInt 5);
     (str "blob", VBytes [x01; x02]); (str "magic", VBytes (bstr "abc"))] ex_format) as (b & R & U & _).
  - vm_compute. reflexivity.
  - change (ex_bytes = b ++ []) in U. rewrite app_nil_r in U. rewrite U. exact R.
Qed.
Print Assumptions C09_read_iff_wire_format.

(** ** C10 *)
Theorem C10_unambiguous f ts vals1 vals2 s1 s2 r1 r2 :
  format_types f ts -> NoDup (dkeys f) -> blobs_exact ts vals1 -> blobs_exact ts vals2 ->
  write_dict f vals1 (stream_of []) = (s1, Ok tt) ->
  write_dict f vals2 (stream_of []) = (s2, Ok tt) ->
  getvalue s1 ++ r1 = getvalue s2 ++ r2 ->
  (forall k, In k (dkeys f) -> dget k vals1 = dget k vals2) /\ r1 = r2.
Proof.
  intros F N X1 X2 W1 W2 E.
  apply write_dict_ok in W1 as (b1 & D1 & ->). apply write_dict_ok in W2 as (b2 & D2 & ->).
  rewrite !bio_write_fresh in E. unfold getvalue in E. cbn [sbuf] in E.
  destruct (dict_bytes_canonical _ _ _ _ F X1 N D1) as (v1 & (_ & K1) & R1).
  destruct (dict_bytes_canonical _ _ _ _ F X2 N D2) as (v2 & (_ & K2) & R2).
  apply record_canonical_wire in R1. apply record_canonical_wire in R2.
  destruct (record_prefix_free _ _ _ _ _ _ _ R1 R2 E) as (_ & <- & <-).
  split; [|reflexivity]. intros k Hk. rewrite <- K1, <- K2 by assumption. reflexivity.
Qed.
(** Non-canonical encodings are prefix-free too. *)
Theorem C10_wire_prefix_free ts vs1 vs2 b1 b2 r1 r2 :
  record_of wire ts vs1 b1 -> record_of wire ts vs2 b2 -> b1 ++ r1 = b2 ++ r2 ->
  b1 = b2 /\ vs1 = vs2 /\ r1 = r2.
Proof. exact (record_prefix_free ts vs1 vs2 b1 b2 r1 r2). Qed.
Example C10_example :
  exists s1 s2, write_dict ex_fmt ex_vals (stream_of []) = (s1, Ok tt) /\
    write_dict ex_fmt (dset (str "other") (VInt 3) ex_vals) (stream_of []) = (s2, Ok tt) /\
    getvalue s1 ++ [x07] = getvalue s2 ++ [x07].
Proof. do 2 eexists. split; [vm_compute; reflexivity|]. split; [vm_compute; reflexivity|]. reflexivity. Qed.
Print Assumptions C10_unambiguous.
Print Assumptions C10_wire_prefix_free.

(** ** C11 *)
Theorem C11_truncated_record_is_EOFError f ts vs b b1 b2 :
  format_types f ts -> record_of wire ts vs b -> Z.of_nat (length b) <= ssize_max ->
  b = b1 ++ b2 -> b2 <> [] ->
  exists s' e m, read_dict f (stream_of b1) = (s', Err (EOFError e m)).
Proof.
  intros F R L E N.
  destruct (read_dict_truncated f ts (stream_of b1) vs b b2 F R L E N) as (s' & r & K).
  unfold eof in K. destruct (r =? 0)%nat; eauto.
Qed.
Example C11_example : exists s' e m, read_dict ex_fmt (stream_of (firstn 11 ex_bytes)) = (s', Err (EOFError e m)).
Proof. do 3 eexists. vm_compute. reflexivity. Qed.
Print Assumptions C11_truncated_record_is_EOFError.

(** ** C12 *)
Theorem C12_repeated_round_trip f ts l s' :
  format_types f ts -> NoDup (dkeys f) -> some_nonempty ts = true -> Forall (blobs_exact ts) l ->
  write_repeatedly f l (stream_of []) = (s', Ok tt) -> sized s' ->
  exists vs s2, Forall2 (restricts (dkeys f)) l vs /\
    read_repeatedly f (stream_of (getvalue s')) = (s2, Ok vs).
Proof.
  intros F N Ne X W Sz. apply write_repeatedly_ok in W as (b & D & ->).
  rewrite bio_write_fresh in *. unfold getvalue, sized in *. cbn [sbuf] in *.
  destruct (dicts_bytes_canonical _ _ _ _ F N X D) as (vs & bs & F1 & F2 & ->).
  assert (f <> []) as Nf by (intros ->; inversion F; subst; discriminate).
  assert (stops ts []) as St by (eapply stops_nil; eassumption).
  assert (Z.of_nat (length (unread (adv (length (List.concat bs)) (stream_of (List.concat bs))))) <= ssize_max) as L2.
  { rewrite unread_adv, skipn_length. unfold unread, stream_of. cbn [sbuf spos skipn]. unfold ssize_max; lia. }
  assert (unread (adv (length (List.concat bs)) (stream_of (List.concat bs))) = []) as U2.
  { rewrite unread_adv. apply skipn_all2. unfold unread, stream_of; cbn [sbuf spos skipn]. lia. }
  destruct (proj2 (read_dict_eof f ts _ F L2)) as (s2 & m & E); [rewrite U2; assumption|].
  exists vs, s2. split; [assumption|].
  apply (read_repeatedly_iff f ts); auto.
  exists bs, []. split; [|split; [|split; [assumption|]]].
  - eapply Forall2_impl; [|exact F2]. apply record_canonical_wire.
  - rewrite app_nil_r. reflexivity.
  - intros m' s3 E'. rewrite E in E'. congruence.
Qed.
Example C12_example :
  some_nonempty ex_types = true /\
  exists s' s2 vs, write_repeatedly ex_fmt [ex_vals; dset (str "n") (VInt 7) ex_vals] (stream_of []) = (s', Ok tt) /\
    read_repeatedly ex_fmt (stream_of (getvalue s')) = (s2, Ok vs) /\ length vs = 2%nat.
Proof. split; [reflexivity|]. do 3 eexists. split; [vm_compute; reflexivity|]. split; vm_compute; reflexivity. Qed.
Print Assumptions C12_repeated_round_trip.

(** ** C13 *)
Theorem C13_repeated_truncation_refuted :
  exists f ts b, format_types f ts /\ (forall vs bs, Forall2 (record_of wire ts) vs bs -> b <> List.concat bs) /\
    exists s', read_repeatedly f (stream_of b) = (s', Ok []).
Proof.
  exists [(str "option", FPascal BYTES)], [(str "option", TBytes 4)], [x00; x00; x00; x05].
  split; [repeat constructor|]. split.
  - intros vs bs F2 E. destruct F2 as [|v b vs bs R F2]; [discriminate|].
    inversion R; subst. inversion H5; subst. rewrite app_nil_r in E. cbn [List.concat] in E.
    match goal with W : wire _ _ ?b0 |- _ => inversion W; subst end.
    match goal with Pf : prefixed _ _ _ |- _ => destruct Pf as (l & L & V & ->) end.
    destruct l as [|a [|b [|c [|d [|? ?]]]]]; try discriminate. cbn in E. injection E as <- <- <- <- E.
    change (unsigned [x00; x00; x00; x05]) with 5 in V.
    apply (f_equal (@length _)) in E. cbn [length] in E. rewrite app_length in E. lia.
  - eexists. vm_compute. reflexivity.
Qed.
(** What does hold: exactly the streams that are complete records followed by nothing, or by a
    record cut off before a field or right after a length prefix, are accepted. *)
Theorem C13_repeated_read_partial f ts s vs :
  format_types f ts -> some_nonempty ts = true -> sized s ->
  (exists s', read_repeatedly f s = (s', Ok vs)) <->
  exists bs p, Forall2 (record_of wire ts) vs bs /\ remaining s = List.concat bs ++ p /\ stops ts p.
Proof.
  intros F Ne Sz. assert (f <> []) as Nf by (intros ->; inversion F; subst; discriminate).
  pose proof (sized_remaining _ Sz) as L. split.
  - intros (s' & R). apply (read_repeatedly_iff f ts) in R as (bs & p & F2 & U & St & _); eauto.
  - intros (bs & p & F2 & U & St). change (remaining s) with (unread s) in U.
    assert (unread (adv (length (List.concat bs)) s) = p) as U2.
    { rewrite unread_adv, U. apply skipn_app_exact. reflexivity. }
    assert (Z.of_nat (length (unread (adv (length (List.concat bs)) s))) <= ssize_max) as L2
      by (rewrite U2; rewrite U, app_length in L; lia).
    destruct (proj2 (read_dict_eof f ts (adv (length (List.concat bs)) s) F L2)) as (s2 & m & E).
    + rewrite U2. exact St.
    + exists s2. apply (read_repeatedly_iff f ts); auto. exists bs, p.
      split; [assumption|]. split; [assumption|]. split; [assumption|].
      intros m' s3 E'. rewrite E in E'. congruence.
Qed.
Example C13_example :
  stops ex_types [] /\ stops ex_types [x00; x00; x00; x02] /\ stops ex_types (firstn 6 ex_bytes) /\
  exists s' v, read_repeatedly ex_fmt (stream_of (ex_bytes ++ firstn 6 ex_bytes)) = (s', Ok [v]).
Proof.
  split; [constructor; reflexivity|]. split; [|split].
  - apply stop_prefix; [reflexivity|]. vm_compute. split; [reflexivity|discriminate].
  - change (firstn 6 ex_bytes) with ([x00; x00; x00; x02; x00; x80] ++ []).
    apply stop_later with (v := VInt 128); [|constructor; reflexivity].
    change 128 with (signed [x00; x80]). constructor. exists [x00; x00; x00; x02]. repeat split.
  - do 2 eexists. vm_compute. reflexivity.
Qed.
Print Assumptions C13_repeated_truncation_refuted.
Print Assumptions C13_repeated_read_partial.

(** ** C14 *)
(** [read_loop n] runs at most [n] iterations and reports [OutOfFuel] if it would need more. *)
Theorem C14_repeated_read_terminates_partial f ts s :
  format_types f ts -> some_nonempty ts = true ->
  exists r, snd r <> Err OutOfFuel /\
    (forall n, (length (remaining s) < n)%nat -> read_loop n f [] s = r) /\ read_repeatedly f s = r.
Proof.
  intros F Ne. assert (f <> []) as Nf by (intros ->; inversion F; subst; discriminate).
  exists (read_loop (S (length (unread s))) f [] s).
  assert (snd (read_loop (S (length (unread s))) f [] s) <> Err OutOfFuel) as T
    by (apply (read_loop_terminates f ts); auto).
  split; [exact T|]. split.
  - intros n L. apply (read_loop_mono f (S (length (unread s))) [] s _ n eq_refl T); [auto|exact L].
  - destruct f; [congruence|reflexivity].
Qed.
Theorem C14_zero_size_format_loops_refuted f ts s :
  format_types f ts -> some_nonempty ts = false -> Z.of_nat (length (sbuf s)) <= ssize_max ->
  forall n, snd (read_loop n f [] s) = Err OutOfFuel.
Proof.
  intros F Ne Sz n.
  assert (forall s, exists vs, read_dict f s = (s, Ok vs)) as K.
  { clear Sz n s. intros s. induction F as [|(k, i) (k', t) f ts (Hk & Ht) F IH]; [eexists; reflexivity|].
    cbn [some_nonempty existsb snd] in *. apply orb_false_iff in Ne as (Nt & Ne).
    destruct (IH Ne) as (vs & E). cbn [read_dict]. unfold pbind.
    assert (exists v, read_instr i s = (s, Ok v)) as (v & ->).
    { assert (exists v, wire t v []) as (v & Wv).
      { pose proof (read_instr_end i t (stream_of []) Ht eq_refl) as R. rewrite Nt in R.
        destruct R as (v & W & _). eauto. }
      exists v. rewrite (read_instr_complete i t s v [] (unread s) Ht Wv).
      - cbn [length]. rewrite adv_0. reflexivity.
      - unfold ssize_max; simpl; lia.
      - reflexivity. }
    rewrite E. eexists; reflexivity. }
  destruct (K s) as (vs & E). generalize (@nil (dict pyval)) as acc.
  induction n as [|n IH]; intros acc; [reflexivity|]. cbn [read_loop]. rewrite E. apply IH.
Qed.
(** The format without fields is refused before anything is read. *)
Theorem C14_empty_format_rejected s : read_repeatedly [] s = (s, Err ValueError).
Proof. reflexivity. Qed.
Example C14_example :
  format_types [(str "x", FStruct (str "0s"))] [(str "x", TBlob 0)] /\
  some_nonempty [(str "x", TBlob 0)] = false /\ some_nonempty ex_types = true.
Proof.
  split; [|split; reflexivity]. repeat constructor.
  change (TBlob 0) with (TBlob (Z.to_nat (decimal (str "0")))).
  change (FStruct (str "0s")) with (FStruct (str "0" ++ str "s")). cbn [snd]. apply ht_blob.
  - discriminate.
  - repeat constructor; unfold digit; cbn; lia.
  - vm_compute; discriminate.
Qed.
Print Assumptions C14_repeated_read_terminates_partial.
Print Assumptions C14_zero_size_format_loops_refuted.
Print Assumptions C14_empty_format_rejected.

(** ** C15 *)
Theorem C15_failed_write_changes_nothing f v s s' e :
  write_instr f v s = (s', Err e) -> s' = s.
Proof. unfold write_instr. destruct (instr_bytes f v); congruence. Qed.
(** Writing a record that fails stops at the first field that cannot be written: exactly the
    fields before it have been written, and the exception is that field's. *)
Theorem C15_failed_record_write f vals s s' e :
  write_dict f vals s = (s', Err e) ->
  exists f1 k i f2, f = f1 ++ (k, i) :: f2 /\ write_dict f1 vals s = (s', Ok tt) /\
    ((dget k vals = None /\ e = KeyError (VStr k)) \/
     (exists v, dget k vals = Some v /\ write_instr i v s' = (s', Err e))).
Proof.
  revert s; induction f as [|(k, i) f IH]; intros s W; [discriminate|]. cbn [write_dict] in W.
  unfold pbind at 1, plift, ditem in W. destruct (dget k vals) as [v|] eqn:G.
  - unfold pbind in W. destruct (write_instr i v s) as [s1 [[]|e1]] eqn:E.
    + destruct (IH s1 W) as (f1 & k1 & i1 & f2 & -> & A & B). exists ((k, i) :: f1), k1, i1, f2.
      split; [reflexivity|]. split; [|exact B]. cbn [write_dict]. unfold pbind at 1, plift, ditem. rewrite G.
      unfold pbind. rewrite E. exact A.
    + injection W as -> ->. exists [], k, i, f. split; [reflexivity|].
      pose proof (C15_failed_write_changes_nothing _ _ _ _ _ E) as ->. split; [reflexivity|]. right. eauto.
  - injection W as <- <-. exists [], k, i, f. split; [reflexivity|]. split; [reflexivity|]. left. auto.
Qed.
(** Which exception: [size] is the prefix size, [v] the value. *)
Theorem C15_write_errors i size v s s' e :
  0 < size <= ssize_max ->
  write_instr (FPascalSize i size) v s = (s', Err e) ->
  (~ conforms (match i with BYTES => TBytes 4 | STRING => TText 4 | MPINT => TMpint 4 end) v /\ e = ValueError) \/
  (exists t, i = STRING /\ v = VStr t /\ (~ exists u, utf8 t u) /\ e = UnicodeEncodeError) \/
  (exists z, i = MPINT /\ v = VInt z /\ mpint_gap z /\ e = OverflowError) \/
  (e = OverflowError /\
   exists u, (match i with BYTES => v = VBytes u | STRING => exists t, v = VStr t /\ utf8 t u
              | MPINT => exists z, v = VInt z /\ signed u = z end) /\
     (256 ^ size <= Z.of_nat (length u) \/ ssize_max < Z.of_nat (length u))).
Proof.
  intros Hs. unfold write_instr. cbn [instr_bytes]. unfold write_pascal.
  destruct (write_payload i v) as [u|e1] eqn:E; cbn [rbind].
  - destruct (int_to_bytes (Z.of_nat (length u)) size false) as [l|e2] eqn:E2; cbn [rbind]; [discriminate|].
    intros R; injection R as <- <-. right; right; right.
    assert (e2 = OverflowError /\ (256 ^ size <= Z.of_nat (length u))) as (-> & L).
    { unfold int_to_bytes in E2. destruct (Z.ltb_spec size 0); [lia|].
      destruct (Z.ltb_spec ssize_max size); [lia|].
      destruct (Z.leb_spec 0 (Z.of_nat (length u))), (Z.ltb_spec (Z.of_nat (length u)) (256 ^ size));
        cbn [andb] in E2; try discriminate; try lia; split; try congruence; lia. }
    split; [reflexivity|]. exists u. split; [|left; exact L].
    destruct i, v; try discriminate.
    + cbn in E. congruence.
    + exists s0. split; [reflexivity|]. apply utf8_encode_iff. exact E.
    + exists z. split; [reflexivity|]. apply write_mpint_payload_iff in E as (S & _). exact S.
  - intros R; injection R as <- <-.
    destruct (write_payload_err _ _ _ E) as [(I & ->)|[(t & -> & -> & -> & N)|(z & -> & -> & -> & [G|B])]].
    + left. split; [|reflexivity]. intros C.
      pose proof (proj2 (is_instance_conforms i 4 v)) as K. rewrite K in I; [discriminate|].
      destruct i; exact C.
    + right; left. exists t. repeat split; auto. intros (u & U). apply N.
      apply utf8_encode_scalar. exists u. apply utf8_encode_iff. assumption.
    + right; right; left. exists z. auto.
    + right; right; right. split; [reflexivity|].
      destruct (Z.eq_dec z 0) as [->|Nz]; [exfalso; vm_compute in B; discriminate|].
      exists (be_bytes (Z.to_nat (mpint_len z + 1)) z).
      pose proof (bit_length_nonneg z). pose proof (mpint_len_nonneg z).
      split.
      * exists z. split; [reflexivity|]. rewrite signed_be. apply int_from_to_signed; [lia|].
        rewrite Z2Nat.id by lia.
        assert (bit_length z <= 8 * mpint_len z) as Bl
          by (unfold mpint_len; destruct (0 <? z); lia).
        assert (2 ^ bit_length z <= 2 ^ (8 * (mpint_len z + 1) - 1)) by (apply Z.pow_le_mono_r; lia).
        destruct (Z.lt_ge_cases z 0).
        -- pose proof (bit_length_neg z ltac:(lia)). lia.
        -- pose proof (bit_length_pos z ltac:(lia)). lia.
      * right. rewrite be_bytes_length. lia.
Qed.
Theorem C15_struct_write_errors fmt t v s s' e :
  has_type (FStruct fmt) t -> write_instr (FStruct fmt) v s = (s', Err e) ->
  e = StructError /\ ~ conforms t v.
Proof.
  intros H. unfold write_instr. cbn [instr_bytes].
  destruct (struct_pack fmt [v]) as [b|e1] eqn:E; [discriminate|].
  intros R; injection R as <- <-. split; [eapply struct_pack_err; eassumption|].
  intros C. apply (struct_pack_conforms fmt t v H) in C as (b & C). congruence.
Qed.
(** What is no format instruction is refused by reading, writing and checking, and does nothing. *)
Theorem C15_not_an_instruction s v target k :
  read_instr FBad s = (s, Err ValueError) /\ write_instr FBad v s = (s, Err ValueError) /\
  (dget k target <> None -> check_dict target [(k, FBad)] = ([], Err ValueError)) /\
  (dget k target = None -> check_dict target [(k, FBad)] = ([Warn (WMissing k)], Ok tt)).
Proof.
  split; [reflexivity|]. split; [reflexivity|]. cbn [check_dict]. unfold check_field.
  destruct (dget k target); split; intros H; try congruence; reflexivity.
Qed.
(** A size of the length that is not positive: reading is refused and reads nothing. Writing writes
    nothing, and succeeds exactly for what takes no bytes, with size 0. *)
Theorem C15_size_not_positive i n v s :
  n <= 0 ->
  read_instr (FPascalSize i n) s = (s, Err ValueError) /\
  fst (write_instr (FPascalSize i n) v s) = s /\
  (snd (write_instr (FPascalSize i n) v s) = Ok tt <->
   n = 0 /\ match i with BYTES => v = VBytes [] | STRING => v = VStr [] | MPINT => v = VInt 0 end).
Proof.
  intros Hn. split.
  { cbn [read_instr]. unfold read_pascal_bytes. replace (n <=? 0) with true by (symmetry; apply Z.leb_le; exact Hn). reflexivity. }
  assert (forall u, int_to_bytes (Z.of_nat (length u)) n false = Ok [] /\ n = 0 /\ u = [] \/
    ((exists e, int_to_bytes (Z.of_nat (length u)) n false = Err e) /\ ~ (n = 0 /\ u = @nil byte))) as L.
  { intros u. unfold int_to_bytes. destruct (n <? 0) eqn:N; [right; split; [eexists; reflexivity|apply Z.ltb_lt in N; lia]|].
    apply Z.ltb_ge in N. assert (n = 0) as -> by lia. change (ssize_max <? 0) with false.
    destruct u as [|x u]; [left; auto|]. right. split; [|intros (_ & K); discriminate].
    destruct (Z.ltb_spec (Z.of_nat (length (x :: u))) (256 ^ 0)) as [K|_]; [exfalso; cbn [length] in K; change (256 ^ 0) with 1 in K; lia|].
    rewrite andb_false_r. eexists; reflexivity. }
  assert (forall u, write_payload i v = Ok u ->
    u = [] <-> match i with BYTES => v = VBytes [] | STRING => v = VStr [] | MPINT => v = VInt 0 end) as P.
  { intros u Hu. destruct i.
    - destruct v; try discriminate. cbn [write_payload] in Hu. injection Hu as ->. split; congruence.
    - destruct v as [| |t| |]; try discriminate. cbn [write_payload] in Hu. apply utf8_encode_iff in Hu. split.
      + intros ->. inversion Hu as [|c t' bc bt Hc Ht E E']; [reflexivity|]. destruct bc as [|b0 bc]; [|discriminate]. inversion Hc.
      + intros E. injection E as ->. inversion Hu. reflexivity.
    - destruct v as [z| | | |]; try discriminate. apply write_mpint_payload_iff in Hu as (Sg & Lu & _). split.
      + intros ->. rewrite <- Sg. reflexivity.
      + intros Q. injection Q as ->. change (mpint_len 0) with 0 in Lu. destruct u; [reflexivity|cbn [length] in Lu; lia]. }
  unfold write_instr. cbn [instr_bytes]. unfold write_pascal. destruct (write_payload i v) as [u|e] eqn:Eu; cbn [rbind].
  - specialize (P u eq_refl). destruct (L u) as [(-> & -> & ->)|((e & ->) & K)]; cbn [rbind app bio_write fst snd].
    + tauto.
    + split; [reflexivity|]. split; [discriminate|]. intros (-> & Q). apply P in Q. tauto.
  - cbn [fst snd]. split; [reflexivity|]. split; [discriminate|]. intros (-> & Q). exfalso. destruct i; subst v; discriminate.
Qed.
Example C15_example s :
  write_instr (FPascalSize BYTES 1) (VBytes (repeat x00 256)) s = (s, Err OverflowError) /\
  write_instr (FPascal STRING) (VStr [0xd800%N]) s = (s, Err UnicodeEncodeError) /\
  write_instr (FPascal BYTES) (VStr []) s = (s, Err ValueError) /\
  write_instr (FStruct (str ">I")) (VInt (-1)) s = (s, Err StructError) /\
  write_instr (FPascalSize BYTES 0) (VBytes []) s = (s, Ok tt) /\
  write_instr (FPascalSize BYTES 0) (VBytes [x00]) s = (s, Err OverflowError) /\
  write_instr (FPascalSize BYTES (-1)) (VBytes []) s = (s, Err ValueError) /\
  write_dict [(str "a", FStruct (str ">B")); (str "b", FPascal BYTES)] [(str "a", VInt 7)] (stream_of [])
  = (mkstream [x07] 1, Err (KeyError (VStr (str "b")))).
Proof. repeat split; vm_compute; reflexivity. Qed.
Print Assumptions C15_failed_write_changes_nothing.
Print Assumptions C15_failed_record_write.
Print Assumptions C15_write_errors.
Print Assumptions C15_struct_write_errors.
Print Assumptions C15_not_an_instruction.
Print Assumptions C15_size_not_positive.

(** ** C16 *)
Theorem C16_check_silent_iff_conforms target f ts :
  format_types f ts ->
  snd (check_dict target f) = Ok tt /\
  (fst (check_dict target f) = [] <->
   forall k t, In (k, t) ts -> exists v, dget k target = Some v /\ conforms t v).
Proof. exact (check_dict_spec target f ts). Qed.

(** One warning per missing or wrong field, in field order. *)
Theorem C16_warnings_exact target f ts :
  format_types f ts ->
  exists ws, check_dict target f = (map Warn ws, Ok tt) /\ warnings_for target ts ws.
Proof. exact (check_dict_warnings target f ts). Qed.
Theorem C16_silent_then_write_error_is_about_size f ts vals s s' e :
  format_types f ts -> fst (check_dict vals f) = [] ->
  write_dict f vals s = (s', Err e) -> e = OverflowError \/ e = UnicodeEncodeError.
Proof.
  intros F C W. pose proof (proj1 (proj2 (check_dict_spec vals f ts F)) C) as C'. clear C. rename C' into C.
  apply write_dict_err in W. clear s s'.
  induction F as [|(k, i) (k', t) f ts (Hk & Ht) F IH]; [discriminate|].
  cbn [fst snd] in *. subst k'. cbn [dict_bytes] in W.
  destruct (C k t) as (v & Ev & Cv); [left; reflexivity|].
  unfold ditem in W. rewrite Ev in W. cbn [rbind] in W.
  destruct (instr_bytes i v) as [b|e1] eqn:E; cbn [rbind] in W.
  - destruct (dict_bytes f vals) as [b2|e2] eqn:E2; cbn [rbind] in W; [discriminate|].
    injection W as <-. apply IH; auto. intros; apply C; right; assumption.
  - injection W as <-. destruct i as [fmt|i|i n|]; [| | |inversion Ht]; cbn [instr_bytes] in E.
    + apply (struct_pack_conforms fmt t v Ht) in Cv as (b & Cv). congruence.
    + assert (write_instr (FPascalSize i 4) v (stream_of []) = (stream_of [], Err e1)) as R
        by (unfold write_instr; cbn [instr_bytes]; change 4 with default_size; rewrite E; reflexivity).
      apply C15_write_errors in R; [|unfold ssize_max; lia].
      destruct R as [(K & _)|[(? & _ & _ & _ & ->)|[(? & _ & _ & _ & ->)|(-> & _)]]]; auto.
      exfalso. apply K. inversion Ht; subst; exact Cv.
    + assert (0 < n <= ssize_max) as Hn by (inversion Ht; assumption).
      assert (write_instr (FPascalSize i n) v (stream_of []) = (stream_of [], Err e1)) as R
        by (unfold write_instr; cbn [instr_bytes]; rewrite E; reflexivity).
      apply C15_write_errors in R; [|assumption].
      destruct R as [(K & _)|[(? & _ & _ & _ & ->)|[(? & _ & _ & _ & ->)|(-> & _)]]]; auto.
      exfalso. apply K. inversion Ht; subst; destruct v; exact Cv.
Qed.
Theorem C16_write_succeeds_then_silent f ts vals s s' :
  format_types f ts -> write_dict f vals s = (s', Ok tt) -> check_dict vals f = ([], Ok tt).
Proof.
  intros F W. apply write_dict_ok in W as (b & D & _).
  destruct (check_dict_spec vals f ts F) as (R & C).
  destruct (check_dict vals f) as [l r]. cbn [fst snd] in *. subst r. f_equal. apply C. clear C.
  revert b D. induction F as [|(k, i) (k', t) f ts (Hk & Ht) F IH]; intros b D; [intros ? ? []|].
  cbn [fst snd] in *. subst k'. cbn [dict_bytes] in D.
  apply rbind_ok in D as (v & Ev & D). apply rbind_ok in D as (b1 & E1 & D).
  apply rbind_ok in D as (b2 & E2 & D).
  intros k0 t0 [K|Hin]; [|eapply IH; eassumption]. injection K as <- <-.
  unfold ditem in Ev. destruct (dget k vals) as [w|]; [|discriminate]. injection Ev as <-.
  exists w. split; [reflexivity|].
  destruct i as [fmt|i|i n|]; [| | |inversion Ht]; cbn [instr_bytes] in E1.
  - apply (struct_pack_conforms fmt t w Ht). eauto.
  - unfold write_pascal in E1. apply rbind_ok in E1 as (p & Ep & _).
    inversion Ht; subst; destruct w; try discriminate; exact I.
  - unfold write_pascal in E1. apply rbind_ok in E1 as (p & Ep & _).
    inversion Ht; subst; destruct w; try discriminate; exact I.
Qed.
(** A silent check does not guarantee that writing succeeds. *)
Theorem C16_silent_check_write_can_fail :
  exists f ts vals, format_types f ts /\ check_dict vals f = ([], Ok tt) /\
    forall s, write_dict f vals s = (s, Err OverflowError).
Proof.
  exists [(str "n", FPascal MPINT)], [(str "n", TMpint 4)], [(str "n", VInt (-200))].
  split; [repeat constructor|]. split; [reflexivity|]. intros s; vm_compute; reflexivity.
Qed.
Example C16_example :
  check_dict ex_vals ex_fmt = ([], Ok tt) /\
  check_dict [(str "n", VBytes []); (str "flags", VInt 256)] ex_fmt =
  ([Warn (WClass (str "n") (str "int")); Warn (WMissing (str "name"));
    Warn (WFormatted (str "flags") (str ">B")); Warn (WMissing (str "blob")); Warn (WMissing (str "magic"))], Ok tt).
Proof. split; vm_compute; reflexivity. Qed.
Print Assumptions C16_check_silent_iff_conforms.
Print Assumptions C16_warnings_exact.
Print Assumptions C16_silent_then_write_error_is_about_size.
Print Assumptions C16_write_succeeds_then_silent.
Print Assumptions C16_silent_check_write_can_fail.
