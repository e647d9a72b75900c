(** Reading, writing and checking with arbitrary struct format strings: C80.
    pascal_style_byte_stream.py:96-154, 276-346, 410-459. *)
From Verif Require Import PyBase IntBytes Utf8 StructFmt Stream SpecWire SpecStruct.
From Verif Require Import ProofBase ProofInt ProofUtf8 ProofWire ProofRecord ProofStruct.
Open Scope Z_scope.

Lemma parsed_of fmt ps : format fmt ps -> exists o l, parse_format fmt = Ok (o, l) /\ parts_of o l = ps.
Proof. apply parse_format_iff. Qed.
Lemma calcsize_of fmt o l : parse_format fmt = Ok (o, l) ->
  struct_calcsize fmt = if ssize_max <? Z.of_nat (total (parts_of o l)) then Err StructError else Ok (Z.of_nat (total (parts_of o l))).
Proof. intros E. unfold struct_calcsize. rewrite E. cbn [rbind]. rewrite (items_total o). reflexivity. Qed.
Lemma pack_of fmt o l vs : parse_format fmt = Ok (o, l) ->
  struct_pack fmt vs = if ssize_max <? Z.of_nat (total (parts_of o l)) then Err StructError else pack_slots o (slots_of l) vs.
Proof. intros E. unfold struct_pack. rewrite E. cbn [rbind]. rewrite (items_total o). reflexivity. Qed.
Lemma fails_iff o sl : existsb unpack_fails sl = true <-> In (Pascal 0) (map (part_of o) sl).
Proof.
  rewrite existsb_exists, in_map_iff. split.
  - intros (x & I & E). exists x. split; [|exact I]. destruct x as [| | | | |[]|]; try discriminate. reflexivity.
  - intros (x & E & I). exists x. split; [exact I|]. destruct x; try discriminate. injection E as ->. reflexivity.
Qed.
Lemma read_of fmt o l s : parse_format fmt = Ok (o, l) -> readable (parts_of o l) ->
  read_instr (FStruct fmt) s =
  if (total (parts_of o l) <=? length (unread s))%nat
  then (adv (total (parts_of o l)) s,
        if existsb unpack_fails (slots_of l) then Err OtherError
        else Ok (returned (unpack_slots o (slots_of l) (firstn (total (parts_of o l)) (unread s)))))
  else (adv (length (unread s)) s, Err (eof (length (unread s)))).
Proof.
  intros E R. unfold readable in R. cbn [read_instr]. unfold pbind, plift.
  rewrite (calcsize_of _ _ _ E). destruct (Z.ltb_spec ssize_max (Z.of_nat (total (parts_of o l)))); [lia|].
  rewrite read_fixed_spec by lia. rewrite Nat2Z.id.
  destruct (Nat.leb_spec (total (parts_of o l)) (length (unread s))) as [Hl|Hl]; [|reflexivity].
  unfold struct_unpack. rewrite E. cbn [rbind]. rewrite (items_total o).
  destruct (Z.ltb_spec ssize_max (Z.of_nat (total (parts_of o l)))); [lia|].
  rewrite firstn_length, Nat.min_l, Z.eqb_refl by exact Hl. destruct (existsb unpack_fails (slots_of l)); [reflexivity|].
  destruct (unpack_slots _ _ _) as [|v [|w r]]; reflexivity.
Qed.
Lemma holds_no_empty ps vs b : holds ps vs b -> ~ In (Pascal 0) ps.
Proof.
  intros H. induction H as [|n g ps vs b L H IH|x ps vs b H IH|t v x ps vs b Hw H IH|x z ps vs b Hx H IH|n x w g ps vs b L Hx H IH|big z x ps vs b Hw H IH];
    cbn [In]; try (intros [E|I]; [|exact (IH I)]; try discriminate; injection E as ->; discriminate). tauto.
Qed.
Lemma struct_pack_iff fmt vs b :
  struct_pack fmt vs = Ok b <-> exists ps, format fmt ps /\ readable ps /\ packs ps vs b.
Proof.
  split.
  - intros H. destruct (parse_format fmt) as [(o, l)|e] eqn:E; [|unfold struct_pack in H; rewrite E in H; discriminate].
    rewrite (pack_of _ _ _ _ E) in H. destruct (Z.ltb_spec ssize_max (Z.of_nat (total (parts_of o l)))) as [|Hr]; [discriminate|].
    exists (parts_of o l). split; [apply parse_format_iff; eauto|]. split; [exact Hr|].
    apply pack_packs; [apply (parse_format_good _ _ _ E)|exact H].
  - intros (ps & F & R & K). apply parsed_of in F as (o & l & E & <-). rewrite (pack_of _ _ _ _ E).
    unfold readable in R. destruct (Z.ltb_spec ssize_max (Z.of_nat (total (parts_of o l)))); [lia|].
    apply pack_packs; [apply (parse_format_good _ _ _ E)|exact K].
Qed.
Lemma struct_pack_fails fmt vs e : supported fmt -> struct_pack fmt vs = Err e -> e = if ascii fmt then StructError else UnicodeEncodeError.
Proof.
  intros Hs H. destruct (parse_format fmt) as [(o, l)|e'] eqn:E.
  - assert (ascii fmt = true) as ->.
    { unfold parse_format in E. unfold ascii. destruct (forallb _ fmt); [reflexivity|discriminate]. }
    rewrite (pack_of _ _ _ _ E) in H. destruct (_ <? _); [congruence|]. apply (pack_slots_err _ _ _ _ H).
  - unfold struct_pack in H. rewrite E in H. injection H as <-. apply (parse_format_err _ _ Hs E).
Qed.
Lemma value_fixed fmt ps t : format fmt ps -> In (Value t) ps -> fixed_size t <> None.
Proof. intros F. apply parsed_of in F as (o & l & _ & <-). apply parts_fixed. Qed.

(** ** C80 *)
(** A format string has one meaning. *)
Theorem C80_format_unambiguous fmt ps qs : format fmt ps -> format fmt qs -> ps = qs.
Proof.
  intros F G. apply parsed_of in F as (o & l & E & <-). apply parsed_of in G as (o' & l' & E' & <-). congruence.
Qed.
(** The formats of fixed-size fields used elsewhere (C01) are the single-value case. *)
Theorem C80_typed_formats fmt t : has_type (FStruct fmt) t -> format fmt [Value t].
Proof.
  intros H. inversion H; subst.
  - exists o, true, big, (str c). split; [|split; [reflexivity|]].
    + match goal with HO : In _ order_codes |- _ => unfold order_codes in HO; cbn [In] in HO;
        destruct HO as [HO|[HO|[HO|[HO|[]]]]]; injection HO as <- <-; unfold orders; cbn [In]; auto 10 end.
    + rewrite <- (app_nil_r (str c)). apply (items_code true big 0 [] (str c) size 0 [] [Value (TInt big sgn size)] []); [constructor| |reflexivity|constructor].
      apply (code_int true big c sgn size 1); auto.
  - exists ""%string, false, false, (ds ++ str "s"). split; [left; reflexivity|]. split; [reflexivity|].
    change (str "s") with (str "s" ++ []). apply (items_code false false 0 ds (str "s") 1 0 [] [Value (TBlob (Z.to_nat (decimal ds)))] []); [assumption| | |constructor].
    + replace (Z.to_nat (decimal ds)) with (repeat_count ds) by (destruct ds; [contradiction|reflexivity]). apply code_s.
    + split; [lia|exists 0%nat; reflexivity].
Qed.
(** A read succeeds exactly if the string is a format, its size is possible and that many bytes
    remain; it takes exactly these bytes and returns what they hold. *)
Theorem C80_read_exact fmt s s' v :
  read_instr (FStruct fmt) s = (s', Ok v) <->
  exists ps vs b rest, format fmt ps /\ readable ps /\ holds ps vs b /\ v = returned vs /\
    remaining s = b ++ rest /\ s' = mkstream (sbuf s) (spos s + length b).
Proof.
  split.
  - intros H. destruct (parse_format fmt) as [(o, l)|e] eqn:E.
    2: { cbn [read_instr] in H. unfold pbind, plift, struct_calcsize in H. rewrite E in H. discriminate. }
    assert (readable (parts_of o l)) as R.
    { unfold readable. cbn [read_instr] in H. unfold pbind, plift in H. rewrite (calcsize_of _ _ _ E) in H.
      destruct (Z.ltb_spec ssize_max (Z.of_nat (total (parts_of o l)))); [discriminate|lia]. }
    rewrite (read_of _ _ _ _ E R) in H.
    destruct (Nat.leb_spec (total (parts_of o l)) (length (unread s))) as [Hl|Hl]; [|discriminate].
    destruct (existsb unpack_fails (slots_of l)) eqn:U; [discriminate|].
    injection H as <- <-. exists (parts_of o l), (unpack_slots o (slots_of l) (firstn (total (parts_of o l)) (unread s))), (firstn (total (parts_of o l)) (unread s)), (skipn (total (parts_of o l)) (unread s)).
    assert (length (firstn (total (parts_of o l)) (unread s)) = total (parts_of o l)) as L by (rewrite firstn_length; lia).
    split; [apply parse_format_iff; eauto|]. split; [exact R|]. split; [apply unpack_holds; [exact U|exact L]|].
    split; [reflexivity|]. split; [symmetry; apply firstn_skipn|]. rewrite L. reflexivity.
  - intros (ps & vs & b & rest & F & R & Hh & -> & Er & ->). pose proof (fun t => value_fixed _ _ t F) as Hf. apply parsed_of in F as (o & l & E & <-).
    pose proof (holds_length _ _ _ Hf Hh) as L. rewrite (read_of _ _ _ _ E R).
    change (unread s) with (remaining s). rewrite Er, app_length, L.
    destruct (Nat.leb_spec (total (parts_of o l)) (total (parts_of o l) + length rest)); [|lia]. f_equal.
    assert (existsb unpack_fails (slots_of l) = false) as U.
    { apply not_true_iff_false. intros U. apply (fails_iff o) in U. exact (holds_no_empty _ _ _ Hh U). }
    rewrite U.
    rewrite <- L, firstn_app, firstn_all, Nat.sub_diag. cbn [firstn]. rewrite app_nil_r. do 2 f_equal.
    apply (holds_functional (parts_of o l) _ b Hf); [|exact Hh]. apply unpack_holds; [exact U|exact L].
Qed.
(** If fewer bytes remain, the read consumes them and raises EOFError. *)
Theorem C80_read_short fmt ps s :
  format fmt ps -> readable ps -> (length (remaining s) < total ps)%nat ->
  exists m, read_instr (FStruct fmt) s =
    (mkstream (sbuf s) (spos s + length (remaining s)), Err (EOFError (length (remaining s) =? 0)%nat m)).
Proof.
  intros F R L. apply parsed_of in F as (o & l & E & <-). rewrite (read_of _ _ _ _ E R).
  change (unread s) with (remaining s). destruct (Nat.leb_spec (total (parts_of o l)) (length (remaining s))); [lia|].
  unfold eof, adv. destruct (length (remaining s) =? 0)%nat; eexists; reflexivity.
Qed.
(** The only other failure is that of the struct module itself: it raises SystemError for a Pascal
    string of size 0, after the bytes have been taken from the stream. *)
Theorem C80_read_empty_pascal fmt ps s :
  format fmt ps -> readable ps -> (total ps <= length (remaining s))%nat ->
  (In (Pascal 0) ps -> read_instr (FStruct fmt) s = (mkstream (sbuf s) (spos s + total ps), Err OtherError)) /\
  (~ In (Pascal 0) ps -> exists v, read_instr (FStruct fmt) s = (mkstream (sbuf s) (spos s + total ps), Ok v)).
Proof.
  intros F R L. apply parsed_of in F as (o & l & E & <-). rewrite (read_of _ _ _ _ E R).
  change (unread s) with (remaining s). destruct (Nat.leb_spec (total (parts_of o l)) (length (remaining s))); [|lia].
  unfold adv, parts_of. split; intros I.
  - apply fails_iff in I as ->. reflexivity.
  - destruct (existsb unpack_fails (slots_of l)) eqn:U; [apply (fails_iff o) in U; contradiction|]. eexists. reflexivity.
Qed.
(** A string that is no format, or a format for more bytes than there can be, is refused by reads and
    writes without touching the stream. *)
Theorem C80_bad_format fmt s v :
  supported fmt -> (forall ps, format fmt ps -> ~ readable ps) ->
  let e := if ascii fmt then StructError else UnicodeEncodeError in
  read_instr (FStruct fmt) s = (s, Err e) /\ write_instr (FStruct fmt) v s = (s, Err e).
Proof.
  intros Hs Hn e. split.
  - destruct (parse_format fmt) as [(o, l)|e'] eqn:E.
    + assert (ascii fmt = true) as Ha.
      { unfold parse_format in E. unfold ascii. destruct (forallb _ fmt); [reflexivity|discriminate]. }
      unfold e. rewrite Ha. cbn [read_instr]. unfold pbind, plift. rewrite (calcsize_of _ _ _ E).
      destruct (Z.ltb_spec ssize_max (Z.of_nat (total (parts_of o l)))) as [|Hr]; [reflexivity|].
      exfalso. apply (Hn (parts_of o l)); [apply parse_format_iff; eauto|exact Hr].
    + cbn [read_instr]. unfold pbind, plift, struct_calcsize. rewrite E. cbn [rbind].
      rewrite (parse_format_err _ _ Hs E). reflexivity.
  - unfold write_instr. cbn [instr_bytes]. destruct (struct_pack fmt [v]) as [b|e'] eqn:E.
    + apply struct_pack_iff in E as (ps & F & R & _). exfalso. apply (Hn ps F R).
    + rewrite (struct_pack_fails _ _ _ Hs E). reflexivity.
Qed.
(** A write at the end of a stream succeeds exactly if the value fits the layout, and appends the
    layout with zero padding. *)
Theorem C80_write_exact fmt v s s' : spos s = length (sbuf s) ->
  write_instr (FStruct fmt) v s = (s', Ok tt) <->
  exists ps b, format fmt ps /\ readable ps /\ packs ps [v] b /\
    s' = mkstream (sbuf s ++ b) (length (sbuf s ++ b)).
Proof.
  intros Hp.
  assert (forall b, bio_write b s = mkstream (sbuf s ++ b) (length (sbuf s ++ b))) as Hw.
  { intros b. destruct s as [u p]. cbn [spos sbuf] in *. subst p. unfold bio_write. cbn [sbuf spos]. rewrite app_length.
    destruct b as [|x b]; [rewrite app_nil_r; cbn [length]; rewrite Nat.add_0_r; reflexivity|].
    rewrite Nat.sub_diag. cbn [repeat]. rewrite app_nil_r, firstn_all. rewrite skipn_all2 by lia. rewrite app_nil_r. reflexivity. }
  unfold write_instr. cbn [instr_bytes]. split.
  - destruct (struct_pack fmt [v]) as [b|e] eqn:E; [|discriminate]. intros H. injection H as <-.
    apply struct_pack_iff in E as (ps & F & R & K). exists ps, b. rewrite Hw. auto.
  - intros (ps & b & F & R & K & ->). rewrite (proj2 (struct_pack_iff fmt [v] b)) by eauto. rewrite Hw. reflexivity.
Qed.
(** Any other write raises and leaves the stream alone. *)
Theorem C80_write_rejects fmt v s : supported fmt ->
  (forall ps b, format fmt ps -> readable ps -> ~ packs ps [v] b) ->
  write_instr (FStruct fmt) v s = (s, Err (if ascii fmt then StructError else UnicodeEncodeError)).
Proof.
  intros Hs Hn. unfold write_instr. cbn [instr_bytes]. destruct (struct_pack fmt [v]) as [b|e] eqn:E.
  - apply struct_pack_iff in E as (ps & F & R & K). destruct (Hn ps b F R K).
  - rewrite (struct_pack_fails _ _ _ Hs E). reflexivity.
Qed.
(** In particular nothing can be written with a format for no value or for several values. *)
Theorem C80_single_value_writes fmt ps v s : format fmt ps -> arity ps <> 1%nat ->
  write_instr (FStruct fmt) v s = (s, Err StructError).
Proof.
  intros F Ha. unfold write_instr. cbn [instr_bytes]. destruct (struct_pack fmt [v]) as [b|e] eqn:E.
  - apply struct_pack_iff in E as (qs & G & R & K). rewrite (C80_format_unambiguous _ _ _ F G) in Ha. destruct Ha. apply (packs_arity _ _ _ K).
  - apply parsed_of in F as (o & l & Ep & <-). rewrite (pack_of _ _ _ _ Ep) in E. destruct (_ <? _); [congruence|].
    rewrite (pack_slots_err _ _ _ _ E). reflexivity.
Qed.
(** So writing with a format is not always the inverse of reading with it: a tuple that was read
    is refused. *)
Theorem C80_tuples_refuted : exists fmt b v s,
  read_instr (FStruct fmt) (stream_of b) = (s, Ok v) /\ remaining s = [] /\
  forall s0, write_instr (FStruct fmt) v s0 = (s0, Err StructError).
Proof.
  exists (str ">2H"), [x00; x01; x02; x03], (VTuple [VInt 1; VInt 515]), (mkstream [x00; x01; x02; x03] 4).
  split; [vm_compute; reflexivity|]. split; [reflexivity|]. intros s0. unfold write_instr.
  replace (instr_bytes (FStruct (str ">2H")) (VTuple [VInt 1; VInt 515])) with (@Err bytes StructError) by (vm_compute; reflexivity). reflexivity.
Qed.
(** What was written is read back: the value itself, filled up or cut off in an 's' field, cut off in a
    'p' field, as 1 or 0 for '?', and as an unsigned number for 'P' (see [reads_back]). *)
Theorem C80_write_then_read fmt v s s' rest ps : spos s = length (sbuf s) ->
  format fmt ps -> ~ In (Pascal 0) ps -> write_instr (FStruct fmt) v s = (s', Ok tt) ->
  exists q v', filter takes_value ps = [q] /\ reads_back q v v' /\
    read_instr (FStruct fmt) (mkstream (sbuf s' ++ rest) (length (sbuf s))) =
      (mkstream (sbuf s' ++ rest) (length (sbuf s')), Ok v').
Proof.
  intros Hp F0 N0 H. apply C80_write_exact in H as (ps' & b & F & R & K & ->); [|exact Hp]. cbn [sbuf].
  assert (ps' = ps) as -> by exact (C80_format_unambiguous _ _ _ F F0). clear F0.
  assert (forall qs vs x, ~ In (Pascal 0) qs -> packs qs vs x -> exists ws, holds qs ws x /\
     exists rs, filter takes_value qs = rs /\ length rs = length vs /\
     (forall i q v w, nth_error rs i = Some q -> nth_error vs i = Some v -> nth_error ws i = Some w -> reads_back q v w)) as A.
  { assert (forall q v w rs vs ws, reads_back q v w ->
      (forall i q v w, nth_error rs i = Some q -> nth_error vs i = Some v -> nth_error ws i = Some w -> reads_back q v w) ->
      forall i q' v' w', nth_error (q :: rs) i = Some q' -> nth_error (v :: vs) i = Some v' -> nth_error (w :: ws) i = Some w' -> reads_back q' v' w') as C.
    { intros q u w rs vs ws Rb Ih [|i] q' u' w'; cbn [nth_error]; [congruence|apply Ih]. }
    intros qs vs x N P.
    induction P as [|n qs vs x P IH|y qs vs x P IH|t u y qs vs x Hc Hw P IH|u y qs vs x Hx P IH|w qs vs x P IH|m w y g qs vs x Hw Hx P IH|big z y qs vs x Hr Hw P IH];
      try (destruct IH as (ws & Hh & rs & <- & Ll & HF); [intros I; apply N; right; exact I|]).
    - exists []. split; [constructor|]. exists []. split; [reflexivity|]. split; [reflexivity|]. intros [|i]; discriminate.
    - exists ws. split; [apply holds_gap; [apply repeat_length|exact Hh]|]. eauto.
    - eexists (_ :: ws). split; [apply holds_char; exact Hh|]. eexists. split; [reflexivity|]. cbn [filter takes_value length].
      split; [congruence|]. apply C; [apply reads_char|exact HF].
    - exists (stored t u :: ws). split; [apply holds_value; assumption|]. eexists. split; [reflexivity|]. cbn [filter takes_value length].
      split; [congruence|]. apply C; [apply reads_value|exact HF].
    - exists (VInt (match y with x00 => 0 | _ => 1 end) :: ws). split.
      + apply holds_bool; [|exact Hh]. destruct Hx as [(_ & ->)|(_ & ->)]; [right; split; [discriminate|reflexivity]|left; auto].
      + eexists. split; [reflexivity|]. cbn [filter takes_value length]. split; [congruence|]. apply C; [|exact HF].
        apply reads_bool. destruct Hx as [(T & ->)|(T & ->)]; auto.
    - destruct (N (or_introl eq_refl)).
    - exists (VBytes (firstn (Nat.min 255 m) w) :: ws). split.
      + inversion Hw as [| | | |]; subst. cbn [stored] in *. set (g := firstn m (w ++ repeat x00 m)) in *.
        assert (g = firstn (Nat.min 255 m) w ++ skipn (length (firstn (Nat.min 255 m) w)) g) as Eg.
        { rewrite <- (firstn_skipn (length (firstn (Nat.min 255 m) w)) g) at 1. f_equal. unfold g.
          rewrite firstn_firstn, firstn_app, firstn_length. rewrite (proj2 (Nat.sub_0_le _ _)) by lia. cbn [firstn]. rewrite app_nil_r.
          destruct (Nat.le_gt_cases (length w) (Nat.min 255 m)).
          - rewrite !firstn_all2 by lia. reflexivity.
          - f_equal. lia. }
        assert (length g = m) as Lg by (unfold g; rewrite firstn_length, app_length, repeat_length; lia).
        rewrite Eg at 1. rewrite <- app_assoc. apply holds_pascal; [rewrite <- Eg; cbn [length]; lia| |exact Hh].
        left. rewrite Hx, firstn_length. lia.
      + eexists. split; [reflexivity|]. cbn [filter takes_value length]. split; [congruence|]. apply C; [apply reads_pascal|exact HF].
    - exists (VInt (z mod 2 ^ 64) :: ws). split; [apply holds_pointer; assumption|]. eexists. split; [reflexivity|]. cbn [filter takes_value length].
      split; [congruence|]. apply C; [apply reads_pointer|exact HF]. }
  destruct (A _ _ _ N0 K) as (ws & Hh & rs & Ers & Lr & HF). destruct rs as [|q [|q2 rs]]; try discriminate.
  pose proof (holds_arity _ _ _ Hh) as La. unfold arity in La. rewrite Ers in La. destruct ws as [|w [|w2 ws]]; try discriminate.
  exists q, w. split; [|split; [apply (HF 0%nat); reflexivity|]].
  2:{ apply C80_read_exact.
  exists ps, [w], b, rest. split; [exact F|]. split; [exact R|]. split; [exact Hh|]. split; [reflexivity|].
  unfold remaining. cbn [sbuf spos]. split.
  - rewrite <- app_assoc, skipn_app, skipn_all, Nat.sub_diag. reflexivity.
  - rewrite app_length. reflexivity. }
  exact Ers.
Qed.
(** Validation: a value gives no warning exactly if it could be written; otherwise the warning names
    the field and the format. *)
Theorem C80_check fmt k target v : supported fmt -> ascii fmt = true -> dget k target = Some v ->
  (check_dict target [(k, FStruct fmt)] = ([], Ok tt) <->
     exists ps b, format fmt ps /\ readable ps /\ packs ps [v] b) /\
  (check_dict target [(k, FStruct fmt)] = ([], Ok tt) \/
   check_dict target [(k, FStruct fmt)] = ([Warn (WFormatted k fmt)], Ok tt)).
Proof.
  intros Hs Ha Hk. cbn [check_dict]. unfold wseq, check_field. rewrite Hk.
  destruct (struct_pack fmt [v]) as [b|e] eqn:E.
  - split; [|left; reflexivity]. split; [|reflexivity]. intros _. apply struct_pack_iff in E as (ps & F & R & K). eauto.
  - pose proof (struct_pack_fails _ _ _ Hs E) as He. rewrite Ha in He. subst e. split; [|right; reflexivity].
    split; [discriminate|]. intros (ps & b & F & R & K). rewrite (proj2 (struct_pack_iff fmt [v] b)) in E by eauto. discriminate.
Qed.

(** Non-vacuity: a format with white space, padding, a count and a string, for one value and for several. *)
Example C80_example :
  format (str "> 2x3s x") [Gap 2; Value (TBlob 3); Gap 1] /\
  write_instr (FStruct (str "> 2x3s x")) (VBytes [x61; x62]) (mkstream [x09] 1) = (mkstream [x09; x00; x00; x61; x62; x00; x00] 7, Ok tt) /\
  read_instr (FStruct (str "> 2x3s x")) (mkstream [x09; x00; x00; x61; x62; x00; x00] 1) = (mkstream [x09; x00; x00; x61; x62; x00; x00] 7, Ok (VBytes [x61; x62; x00])) /\
  format (str "!2Hxc") [Value (TInt true false 2); Value (TInt true false 2); Gap 1; Char] /\
  read_instr (FStruct (str "!2Hxc")) (stream_of [x00; x01; x02; x03; xff; x61; x62]) = (mkstream [x00; x01; x02; x03; xff; x61; x62] 6, Ok (VTuple [VInt 1; VInt 515; VBytes [x61]])) /\
  supported (str ">2") /\ (forall ps, ~ format (str ">2") ps) /\
  read_instr (FStruct (str ">2")) (stream_of [x00]) = (stream_of [x00], Err StructError).
Proof.
  split; [apply parse_format_iff; do 2 eexists; split; reflexivity|]. split; [reflexivity|]. split; [reflexivity|].
  split; [apply parse_format_iff; do 2 eexists; split; reflexivity|]. split; [reflexivity|].
  split; [split; [vm_compute; intros c [<-|[<-|[]]]; intuition discriminate|left; vm_compute; intros c [<-|[<-|[]]]; intuition discriminate]|].
  split; [|reflexivity]. intros ps F. apply parsed_of in F as (o & l & E & _). vm_compute in E. discriminate.
Qed.

(** Native mode: padding before the 'I', also before items that are repeated 0 times; a truth value, a
    Pascal string that is cut off, and a pointer. *)
Example C80_native_example :
  format (str "BI3p0h") [Value (TInt false false 1); Gap 3; Value (TInt false false 4); Pascal 3; Gap 1] /\
  read_instr (FStruct (str "BI3p0h")) (stream_of [x05; xff; xff; xff; x02; x01; x00; x00; x01; x61; x62; xff]) =
    (mkstream [x05; xff; xff; xff; x02; x01; x00; x00; x01; x61; x62; xff] 12, Ok (VTuple [VInt 5; VInt 258; VBytes [x61]])) /\
  write_instr (FStruct (str "3p")) (VBytes [x61; x62; x63]) (stream_of []) = (mkstream [x02; x61; x62] 3, Ok tt) /\
  reads_back (Pascal 3) (VBytes [x61; x62; x63]) (VBytes [x61; x62]) /\
  write_instr (FStruct (str ">?")) (VStr (str "no")) (stream_of []) = (mkstream [x01] 1, Ok tt) /\
  write_instr (FStruct (str "P")) (VInt (-2)) (stream_of []) = (mkstream [xfe; xff; xff; xff; xff; xff; xff; xff] 8, Ok tt) /\
  format (str "0p") [Pascal 0] /\ write_instr (FStruct (str "0p")) (VBytes [x61]) (stream_of []) = (stream_of [], Ok tt) /\
  read_instr (FStruct (str "0p")) (stream_of []) = (stream_of [], Err OtherError) /\
  (forall ps, ~ format (str ">P") ps).
Proof.
  split; [apply parse_format_iff; do 2 eexists; split; reflexivity|]. split; [reflexivity|]. split; [reflexivity|].
  split; [apply (reads_pascal 2)|]. split; [reflexivity|]. split; [vm_compute; reflexivity|].
  split; [apply parse_format_iff; do 2 eexists; split; reflexivity|]. split; [reflexivity|]. split; [reflexivity|].
  intros ps F. apply parsed_of in F as (o & l & E & _). vm_compute in E. discriminate.
Qed.

Print Assumptions C80_format_unambiguous.
Print Assumptions C80_typed_formats.
Print Assumptions C80_read_exact.
Print Assumptions C80_read_short.
Print Assumptions C80_read_empty_pascal.
Print Assumptions C80_bad_format.
Print Assumptions C80_write_exact.
Print Assumptions C80_write_rejects.
Print Assumptions C80_single_value_writes.
Print Assumptions C80_tuples_refuted.
Print Assumptions C80_write_then_read.
Print Assumptions C80_check.
