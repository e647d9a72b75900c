(** C96: reading and writing anywhere in a stream. *)
From Coq Require Import Permutation.
From Verif Require Import PyBase IntBytes Utf8 StructFmt Stream Seek SpecWire SpecSeek ProofBase ProofInt ProofWire ProofRecord ProofSeek.
Open Scope Z_scope.

(** seek goes where it is told: from the beginning, from the position, or from the end, but not before
    the beginning. It changes nothing else, and nothing at all if it raises. *)
Theorem C96_seek offset s :
  - ssize_max - 1 <= offset <= ssize_max ->
  let here := Z.of_nat (spos s) in let size := Z.of_nat (length (sbuf s)) in
  let goes whence p := bio_seek offset whence s = (mkstream (sbuf s) (Z.to_nat p), Ok p) in
  let raises whence e := bio_seek offset whence s = (s, Err e) in
  (0 <= offset -> goes 0 offset) /\ (offset < 0 -> raises 0 ValueError) /\
  (0 <= here + offset <= ssize_max -> goes 1 (here + offset)) /\
  (here + offset < 0 -> goes 1 0) /\ (ssize_max < here + offset -> raises 1 OverflowError) /\
  (0 <= size + offset <= ssize_max -> goes 2 (size + offset)) /\
  (size + offset < 0 -> goes 2 0) /\ (ssize_max < size + offset -> raises 2 OverflowError) /\
  (forall whence, - 2 ^ 31 <= whence < 2 ^ 31 -> ~ 0 <= whence <= 2 -> raises whence ValueError) /\
  bio_tell s = (s, Ok here).
Proof.
  intros R here size goes raises. unfold goes, raises.
  assert (is_ssize offset = true) as I.
  { unfold is_ssize. destruct (Z.leb_spec (- ssize_max - 1) offset); [|lia]. destruct (Z.leb_spec offset ssize_max); [reflexivity|lia]. }
  assert (forall a b : Z * res Z, a = b -> a = b) as _ by auto.
  unfold bio_seek. cbn zeta. rewrite I.
  assert (is_cint 0 = true /\ is_cint 1 = true /\ is_cint 2 = true) as (-> & -> & ->) by (repeat split).
  cbn [andb negb Z.eqb Pos.eqb]. change (Z.of_nat (spos s)) with here. change (Z.of_nat (length (sbuf s))) with size.
  repeat split.
  - intros H. destruct (Z.ltb_spec offset 0); [lia|]. destruct (Z.ltb_spec (ssize_max - 0) offset); [lia|]. rewrite Z.max_r by lia. reflexivity.
  - intros H. destruct (Z.ltb_spec offset 0); [reflexivity|lia].
  - intros H. destruct (Z.ltb_spec (ssize_max - here) offset); [lia|]. rewrite Z.max_r by lia. reflexivity.
  - intros H. destruct (Z.ltb_spec (ssize_max - here) offset); [unfold ssize_max in *; lia|]. rewrite Z.max_l by lia. reflexivity.
  - intros H. destruct (Z.ltb_spec (ssize_max - here) offset); [reflexivity|lia].
  - intros H. destruct (Z.ltb_spec (ssize_max - size) offset); [lia|]. rewrite Z.max_r by lia. reflexivity.
  - intros H. destruct (Z.ltb_spec (ssize_max - size) offset); [unfold ssize_max in *; lia|]. rewrite Z.max_l by lia. reflexivity.
  - intros H. destruct (Z.ltb_spec (ssize_max - size) offset); [reflexivity|lia].
  - intros w Hw N. assert (is_cint w = true) as ->.
    { unfold is_cint. destruct (Z.leb_spec (- 2 ^ 31) w); [|lia]. destruct (Z.ltb_spec w (2 ^ 31)); [reflexivity|lia]. }
    cbn [negb]. destruct (Z.eqb_spec w 0); [lia|]. destruct (Z.eqb_spec w 1); [lia|]. destruct (Z.eqb_spec w 2); [lia|]. reflexivity.
Qed.
(** Numbers that C has no room for. *)
Theorem C96_huge_arguments offset whence s :
  (~ (- ssize_max - 1 <= offset <= ssize_max) \/ ~ (- 2 ^ 31 <= whence < 2 ^ 31) -> bio_seek offset whence s = (s, Err OverflowError)) /\
  (~ (- ssize_max - 1 <= offset <= ssize_max) -> bio_truncate (Some offset) s = (s, Err OverflowError)).
Proof.
  assert (~ (- ssize_max - 1 <= offset <= ssize_max) -> is_ssize offset = false) as A.
  { intros N. unfold is_ssize. destruct (Z.leb_spec (- ssize_max - 1) offset); [|reflexivity]. destruct (Z.leb_spec offset ssize_max); [lia|reflexivity]. }
  assert (~ (- 2 ^ 31 <= whence < 2 ^ 31) -> is_cint whence = false) as B.
  { intros N. unfold is_cint. destruct (Z.leb_spec (- 2 ^ 31) whence); [|reflexivity]. destruct (Z.ltb_spec whence (2 ^ 31)); [lia|reflexivity]. }
  unfold bio_seek, bio_truncate. split.
  - intros [N|N]; [rewrite A by exact N|rewrite B by exact N; rewrite andb_false_r]; reflexivity.
  - intros N. rewrite A by exact N. reflexivity.
Qed.
(** truncate keeps the first bytes, as many as are asked for, or those before the position. It does not
    move the position and does not make the file longer. *)
Theorem C96_truncate n s :
  bio_truncate None s = (mkstream (firstn (spos s) (sbuf s)) (spos s), Ok (Z.of_nat (spos s))) /\
  (0 <= n <= ssize_max -> (length (sbuf s) <= Z.to_nat n)%nat -> bio_truncate (Some n) s = (s, Ok n)) /\
  (0 <= n <= ssize_max -> bio_truncate (Some n) s = (mkstream (firstn (Z.to_nat n) (sbuf s)) (spos s), Ok n)) /\
  (- ssize_max - 1 <= n < 0 -> bio_truncate (Some n) s = (s, Err ValueError)).
Proof.
  assert (- ssize_max - 1 <= n <= ssize_max -> is_ssize n = true) as A.
  { intros R. unfold is_ssize. destruct (Z.leb_spec (- ssize_max - 1) n); [|lia]. destruct (Z.leb_spec n ssize_max); [reflexivity|lia]. }
  assert (0 <= n <= ssize_max -> bio_truncate (Some n) s = (mkstream (firstn (Z.to_nat n) (sbuf s)) (spos s), Ok n)) as B.
  { intros R. unfold bio_truncate. rewrite A by (unfold ssize_max in *; lia). cbn [negb]. destruct (Z.ltb_spec n 0); [lia|]. f_equal. f_equal.
    destruct (Z.le_gt_cases n (Z.of_nat (length (sbuf s)))); [rewrite Z.min_l by lia; reflexivity|].
    rewrite Z.min_r, Nat2Z.id by lia. rewrite !firstn_all2 by lia. reflexivity. }
  split; [reflexivity|]. split; [|split; [exact B|]].
  - intros R L. rewrite B by exact R. rewrite firstn_all2 by exact L. destruct s; reflexivity.
  - intros R. unfold bio_truncate. rewrite A by (unfold ssize_max in *; lia). cbn [negb]. destruct (Z.ltb_spec n 0); [reflexivity|lia].
Qed.

(** Whatever is done without writing or truncating, going back to where one was restores the stream, so
    that everything read there is read again the same. *)
Theorem C96_going_back ops s :
  Z.of_nat (spos s) <= ssize_max -> (forall o, In o ops -> writes o = false /\ truncates o = false) ->
  let s' := fst (run_ops ops s) in
  sbuf s' = sbuf s /\ run_op (OSeek (Z.of_nat (spos s)) 0) s' = (s, Ok (ANumber (Z.of_nat (spos s)))).
Proof.
  intros L H s'. assert (sbuf s' = sbuf s) as E.
  { unfold s'. clear s' L. revert s H. induction ops as [|o ops IH]; intros s H; [reflexivity|]. rewrite run_ops_cons, IH.
    - apply keeps_op; apply H; left; reflexivity.
    - intros o' I. apply H. right. exact I. }
  split; [exact E|]. cbn [run_op]. unfold answers, pbind. rewrite seek_to, E by exact L. destruct s; reflexivity.
Qed.

(** A value that is read depends only on the bytes between the positions before and after: wherever the
    same bytes stand, in whatever file, reading there gives the same value. The same for records. *)
Theorem C96_reads_are_local file p q f v : value_at file p q f v ->
  exists b, q = (p + length b)%nat /\ bytes_at file p b /\
    forall file' p', bytes_at file' p' b -> value_at file' p' (p' + length b) f v.
Proof. exact (value_moves file p q f v). Qed.
Theorem C96_record_reads_are_local file p q f d : record_at file p q f d ->
  exists b, q = (p + length b)%nat /\ bytes_at file p b /\
    forall file' p', bytes_at file' p' b -> record_at file' p' (p' + length b) f d.
Proof. exact (record_moves file p q f d). Qed.

(** Writing a value either fails the same way on every stream and changes none, or puts the same bytes
    at the position, whatever the stream holds there and elsewhere, and moves behind them. *)
Theorem C96_writes_put_bytes f v :
  (exists e, forall s, write_instr f v s = (s, Err e)) \/
  (exists b, written_as f v b /\ forall s, exists s', write_instr f v s = (s', Ok tt) /\
     put (sbuf s) (spos s) b (sbuf s') /\ spos s' = (spos s + length b)%nat).
Proof.
  destruct (instr_bytes f v) as [b|e] eqn:E; [right; exists b|left; exists e; intros s; unfold write_instr; rewrite E; reflexivity].
  split; [apply written_bytes; exact E|]. intros s. exists (bio_write b s). split; [unfold write_instr; rewrite E; reflexivity|]. apply write_put.
Qed.
(** So do writes of records, one or several, also if they raise: then what was written before stays. *)
Theorem C96_record_writes_put_bytes o s : writes o = true ->
  exists b, put (sbuf s) (spos s) b (sbuf (fst (run_op o s))) /\ spos (fst (run_op o s)) = (spos s + length b)%nat.
Proof. intros W. exact (puts_op o W s). Qed.

(** Whatever is done to a stream, a value (or record) in it can still be read, unless its bytes are
    written over or cut off. *)
Theorem C96_untouched_values_stay p q f v ops s :
  value_at (sbuf s) p q f v -> spares p q ops s -> value_at (sbuf (fst (run_ops ops s))) p q f v.
Proof.
  intros V S. apply value_moves in V as (b & -> & A & M). apply M. apply spares_at; assumption.
Qed.
Theorem C96_untouched_records_stay p q f d ops s :
  record_at (sbuf s) p q f d -> spares p q ops s -> record_at (sbuf (fst (run_ops ops s))) p q f d.
Proof.
  intros V S. apply record_moves in V as (b & -> & A & M). apply M. apply spares_at; assumption.
Qed.
(** What is cut off, even by one byte, cannot be read any more. *)
Theorem C96_cut_values_are_gone p q f t v file n :
  has_type f t -> value_at file p q f v -> Z.of_nat (length file) <= ssize_max -> (n < q)%nat -> (p < q)%nat ->
  exists s' empty m, read_instr f (mkstream (firstn n file) p) = (s', Err (EOFError empty m)).
Proof.
  intros H V Sz N Pq. assert (value_at file p q f v) as V' by exact V. apply value_moves in V' as (b & -> & A & M).
  destruct (read_instr_sound _ _ _ _ _ H V) as (c & W & U & E).
  assert (length c = length b) as Lc by (unfold adv in E; injection E as E; lia).
  assert (b <> []) as Nb by (intros ->; cbn in Pq; lia).
  pose proof (at_inside _ _ _ A Nb) as In_. 
  assert (unread (mkstream (firstn n file) p) = firstn (n - p) (c ++ unread (mkstream file (p + length b)))) as Eu.
  { rewrite <- U. unfold unread. cbn [sbuf spos]. apply nth_ext. intros i. rewrite nth_skipn, !nth_firstn, nth_skipn. cases; try reflexivity; lia. }
  rewrite firstn_app in Eu. replace (n - p - length c)%nat with 0%nat in Eu by lia. cbn [firstn] in Eu. rewrite app_nil_r in Eu.
  destruct (read_instr_truncated f t (mkstream (firstn n file) p) v c (skipn (n - p) c) H W) as (s' & r & R).
  - lia.
  - rewrite Eu. symmetry. apply firstn_skipn.
  - intros K. apply (f_equal (@length byte)) in K. rewrite skipn_length in K. cbn in K. lia.
  - unfold eof in R. destruct (r =? 0)%nat; eauto.
Qed.
(** What was written is read back at its place. *)
Theorem C96_written_values_are_there f t v s s' :
  has_type f t -> write_instr f v s = (s', Ok tt) -> sized s' ->
  value_at (sbuf s') (spos s) (spos s') f (stored t v).
Proof. exact (write_read_value f t v s s'). Qed.

(** Values written at places that do not overlap, one after the other in any order, forwards or
    backwards, over whatever was there: all can be read at their places, and the order does not matter. *)
Theorem C96_places l bs s :
  Forall2 (fun x b => written_as (fst (snd x)) (snd (snd x)) b /\ Z.of_nat (fst x) <= ssize_max /\ Z.of_nat (length b) <= ssize_max) l bs ->
  ForallOrdPairs apart (combine (map fst l) bs) ->
  Forall (fun r => exists a, r = Ok a) (snd (run_ops (write_places l) s)) /\
  forall p f v t, In (p, (f, v)) l -> has_type f t ->
    exists b, written_as f v b /\ value_at (sbuf (fst (run_ops (write_places l) s))) p (p + length b) f (stored t v).
Proof.
  intros F D. assert (Forall2 (fun x b => written_as (fst (snd x)) (snd (snd x)) b /\ Z.of_nat (fst x) <= ssize_max) l bs) as F0.
  { clear D. induction F as [|x b l bs (A & B & C) F IH]; constructor; auto. }
  destruct (run_places l bs F0 s) as (-> & Rs). split; [exact Rs|]. intros p f v t I H.
  assert (exists b, In (p, b) (combine (map fst l) bs) /\ written_as f v b /\ Z.of_nat (length b) <= ssize_max) as (b & Ib & W & Lb).
  { clear D F0 Rs H. induction F as [|x b l bs (A & B & C) F IH]; [destruct I|]. destruct I as [->|I].
    - exists b. cbn [fst snd map combine] in *. split; [left; reflexivity|]. auto.
    - destruct (IH I) as (b' & I' & K). exists b'. split; [right; exact I'|exact K]. }
  exists b. split; [exact W|]. pose proof (places_there _ (sbuf s) D _ Ib) as A. cbn [fst snd] in A.
  assert (value_at b 0 (length b) f (stored t v)) as V by exact (write_read_value f t v (stream_of []) _ H W Lb).
  apply value_moves in V as (c & Lc & Ac & M). cbn [Nat.add] in Lc.
  assert (b = c) as <-; [|exact (M _ _ A)]. apply nth_ext. intros i. destruct (Nat.lt_ge_cases i (length c)) as [K|K]; [exact (Ac i K)|].
  rewrite !nth_none by lia. reflexivity.
Qed.
Theorem C96_any_order l l' bs s :
  Forall2 (fun x b => written_as (fst (snd x)) (snd (snd x)) b /\ Z.of_nat (fst x) <= ssize_max) l bs ->
  ForallOrdPairs apart (combine (map fst l) bs) -> Permutation l l' ->
  sbuf (fst (run_ops (write_places l) s)) = sbuf (fst (run_ops (write_places l') s)).
Proof.
  intros F D P.
  assert (exists bs', Forall2 (fun x b => written_as (fst (snd x)) (snd (snd x)) b /\ Z.of_nat (fst x) <= ssize_max) l' bs' /\
            Permutation (combine (map fst l) bs) (combine (map fst l') bs')) as (bs' & F' & Pb).
  { clear D. revert bs F. induction P as [|x l l' P IH|x y l|l l' l'' P1 IH1 P2 IH2]; intros bs F.
    - exists []. inversion F; subst. split; [constructor|reflexivity].
    - inversion F as [|? b ? bs1 A F1]; subst. destruct (IH _ F1) as (bs' & F' & Pb). exists (b :: bs').
      split; [constructor; assumption|]. cbn [map combine]. apply perm_skip. exact Pb.
    - inversion F as [|? b ? bs1 A F1]; subst. inversion F1 as [|? c ? bs2 A2 F2]; subst. exists (c :: b :: bs2).
      split; [repeat (constructor; try assumption)|]. cbn [map combine]. apply perm_swap.
    - destruct (IH1 _ F) as (bs1 & F1 & Pb1). destruct (IH2 _ F1) as (bs2 & F2 & Pb2). exists bs2. split; [exact F2|].
      eapply perm_trans; eassumption. }
  rewrite (proj1 (run_places l bs F s)), (proj1 (run_places l' bs' F' s)). apply places_perm; assumption.
Qed.

(** A number of records that is filled in afterwards, a value beyond the end, and a value that a write
    elsewhere and a cut behind it leave alone. *)
Definition ex_places : list place :=
  [(12%nat, (FStruct (str ">H"), VInt 258)); (0%nat, (FStruct (str ">I"), VInt 2)); (4%nat, (FPascal BYTES, VBytes [x61; x62]))].
Definition ex_file : bytes :=
  [x00; x00; x00; x02; x00; x00; x00; x02; x61; x62; x00; x00; x01; x02].
Example C96_example :
  (exists bs, Forall2 (fun x b => written_as (fst (snd x)) (snd (snd x)) b /\ Z.of_nat (fst x) <= ssize_max /\ Z.of_nat (length b) <= ssize_max) ex_places bs /\
     ForallOrdPairs apart (combine (map fst ex_places) bs)) /\
  sbuf (fst (run_ops (write_places ex_places) (stream_of []))) = ex_file /\
  value_at ex_file 4 10 (FPascal BYTES) (VBytes [x61; x62]) /\ has_type (FPascal BYTES) (TBytes 4) /\
  spares 4 10 [OSeek (-2) 2; OWrite (FStruct (str ">I")) (VInt 0); OTruncate (Some 10); OReadRecords []; OSeek 0 0; OWrite (FStruct (str ">i")) (VInt (-1))] (stream_of ex_file) /\
  run_ops [OSeek 9 0; OTruncate None; OSeek 4 0; ORead (FPascal BYTES); OSeek (-20) 1; OTell] (stream_of ex_file) =
    (mkstream (firstn 9 ex_file) 0,
     [Ok (ANumber 9); Ok (ANumber 9); Ok (ANumber 4);
      Err (EOFError false (str "Fewer than 'num_bytes' bytes remaining in the underlying bytestream")); Ok (ANumber 0); Ok (ANumber 0)]).
Proof.
  assert (forall n, (n < 100)%nat -> Z.of_nat n <= ssize_max) as L by (intros n Hn; unfold ssize_max; lia).
  split.
  { exists [[x01; x02]; [x00; x00; x00; x02]; [x00; x00; x00; x02; x61; x62]]. split.
    - repeat (constructor; [split; [vm_compute; reflexivity|split; apply L; cbn; lia]|]). constructor.
    - unfold ex_places, apart. cbn [map fst combine]. repeat (constructor; [repeat (constructor; [cbn; lia|]); constructor|]). constructor. }
  split; [vm_compute; reflexivity|]. split; [vm_compute; reflexivity|]. split; [constructor|]. split; [|vm_compute; reflexivity].
  vm_compute. intuition (discriminate || lia).
Qed.

Print Assumptions C96_seek.
Print Assumptions C96_huge_arguments.
Print Assumptions C96_truncate.
Print Assumptions C96_going_back.
Print Assumptions C96_reads_are_local.
Print Assumptions C96_record_reads_are_local.
Print Assumptions C96_writes_put_bytes.
Print Assumptions C96_record_writes_put_bytes.
Print Assumptions C96_untouched_values_stay.
Print Assumptions C96_untouched_records_stay.
Print Assumptions C96_cut_values_are_gone.
Print Assumptions C96_written_values_are_there.
Print Assumptions C96_places.
Print Assumptions C96_any_order.
