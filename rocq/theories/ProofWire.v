(** Single format instructions: struct formats, reading and writing one value. *)
From Verif Require Import PyBase IntBytes Utf8 StructFmt Stream ProofBase ProofInt ProofUtf8 SpecWire.
Open Scope Z_scope.
Ltac Zify.zify_post_hook ::= Z.div_mod_to_equations.

(** ** The spec's integers are the model's *)
Lemma unsigned_be b : unsigned b = be_value b.
Proof.
  induction b as [|x b IH]; [reflexivity|].
  rewrite be_value_cons. simpl unsigned. rewrite IH. reflexivity.
Qed.
Lemma signed_be b : signed b = int_from_bytes b true.
Proof.
  destruct b as [|x b]; [reflexivity|].
  unfold signed, int_from_bytes. cbn [andb]. rewrite unsigned_be. reflexivity.
Qed.

(** ** Streams *)
Definition adv (n : nat) (s : stream) : stream := mkstream (sbuf s) (spos s + n).
Lemma unread_adv n s : unread (adv n s) = skipn n (unread s).
Proof. unfold unread, adv; simpl. rewrite skipn_skipn. reflexivity. Qed.
Lemma adv_adv n m s : adv m (adv n s) = adv (n + m) s.
Proof. unfold adv; simpl. f_equal; lia. Qed.
Lemma adv_0 s : adv 0 s = s.
Proof. destruct s; unfold adv; simpl. f_equal; lia. Qed.

Definition eof (r : nat) : exn :=
  if (r =? 0)%nat then EOFError true (str "Underlying bytestream is empty")
  else EOFError false (str "Fewer than 'num_bytes' bytes remaining in the underlying bytestream").
Lemma eof_is_eof r : is_eof_error (eof r) = true.
Proof. unfold eof; destruct (r =? 0)%nat; reflexivity. Qed.

Lemma read_fixed_spec n s :
  0 <= n <= ssize_max ->
  read_fixed_bytes n s =
  if (Z.to_nat n <=? length (unread s))%nat
  then (adv (Z.to_nat n) s, Ok (firstn (Z.to_nat n) (unread s)))
  else (adv (length (unread s)) s, Err (eof (length (unread s)))).
Proof.
  intros H. unfold read_fixed_bytes, pbind, bio_read.
  destruct (Z.ltb_spec ssize_max n); [lia|].
  destruct (Z.ltb_spec n (- ssize_max - 1)); [unfold ssize_max in *; lia|]. cbn [orb].
  destruct (Z.ltb_spec n 0); [lia|].
  fold (adv (Z.to_nat (Z.min n (Z.of_nat (length (unread s))))) s).
  rewrite firstn_length.
  destruct (Nat.leb_spec (Z.to_nat n) (length (unread s))).
  - replace (Z.to_nat (Z.min n (Z.of_nat (length (unread s))))) with (Z.to_nat n) by lia.
    destruct (Z.ltb_spec (Z.of_nat (Nat.min (Z.to_nat n) (length (unread s)))) n); [lia|].
    reflexivity.
  - replace (Z.to_nat (Z.min n (Z.of_nat (length (unread s))))) with (length (unread s)) by lia.
    destruct (Z.ltb_spec (Z.of_nat (Nat.min (length (unread s)) (length (unread s)))) n); [|lia].
    rewrite Nat.min_id. unfold eof. destruct (length (unread s) =? 0)%nat; reflexivity.
Qed.

Lemma read_fixed_big n s : ssize_max < n -> read_fixed_bytes n s = (s, Err OverflowError).
Proof.
  intros H. unfold read_fixed_bytes, pbind, bio_read.
  destruct (Z.ltb_spec ssize_max n); [reflexivity|lia].
Qed.

(** ** Struct formats *)
Lemma parse_int_format o big c sgn size :
  In (o, big) order_codes -> In (c, (sgn, size)) int_codes ->
  exists ord, parse_format (str o ++ str c) = Ok (ord, [(1%N, SInt sgn size)]) /\
    (forall b, order_bytes ord b = if big then b else rev b).
Proof.
  intros Ho Hc. unfold order_codes in Ho. unfold int_codes in Hc. simpl in Ho, Hc.
  repeat match goal with
  | H : _ \/ _ |- _ => destruct H as [H|H]
  | H : False |- _ => contradiction
  end;
  injection Ho as <- <-; injection Hc as <- <- <-;
  eexists; (split; [vm_compute; reflexivity|]); intros b; reflexivity.
Qed.

Lemma code_size_le c sgn size : In (c, (sgn, size)) int_codes -> (0 < size <= 8)%nat.
Proof.
  unfold int_codes; simpl. intros H.
  repeat match goal with
  | H : _ \/ _ |- _ => destruct H as [H|H]
  | H : False |- _ => contradiction
  end; injection H as <- <- <-; lia.
Qed.

Lemma digit_is_digit c : digit c -> is_digit c = true.
Proof. unfold digit, is_digit. lia. Qed.
Lemma digit_not_order c : digit c -> order_of c = None.
Proof.
  unfold digit, order_of. intros H.
  assert (cp ">" = 62%N /\ cp "!" = 33%N /\ cp "<" = 60%N /\ cp "=" = 61%N /\ cp "@" = 64%N)
    as (E1 & E2 & E3 & E4 & E5) by (vm_compute; auto).
  rewrite E1, E2, E3, E4, E5.
  destruct (N.eqb_spec c 62); [lia|]. destruct (N.eqb_spec c 33); [lia|].
  destruct (N.eqb_spec c 60); [lia|]. destruct (N.eqb_spec c 61); [lia|].
  destruct (N.eqb_spec c 64); [lia|]. reflexivity.
Qed.
Lemma parse_digits ds : forall n, Forall digit ds ->
  parse_items Native (Some n) (ds ++ str "s") =
  Ok [(Z.to_N (fold_left (fun a c => 10 * a + (Z.of_N c - 48)) ds (Z.of_N n)), SStr)].
Proof.
  induction ds as [|c ds IH]; intros n H.
  - cbn [app]. vm_compute (str "s"). cbn [parse_items]. unfold is_digit. cbn.
    rewrite N2Z.id. reflexivity.
  - inversion H; subst. cbn [app parse_items].
    rewrite digit_is_digit by assumption. rewrite IH by assumption.
    cbn [fold_left]. do 5 f_equal. unfold digit in *. lia.
Qed.
Lemma parse_blob_format ds : ds <> [] -> Forall digit ds ->
  parse_format (ds ++ str "s") = Ok (Native, [(Z.to_N (decimal ds), SStr)]).
Proof.
  intros N H. destruct ds as [|c ds]; [congruence|]. inversion H; subst.
  assert (forallb (fun c => (c <? 128)%N) ((c :: ds) ++ str "s") = true) as Ea.
  { apply forallb_forall. intros y Hy. apply in_app_or in Hy as [Hy|Hy].
    - rewrite Forall_forall in H. specialize (H y Hy). unfold digit in H. lia.
    - destruct Hy as [<-|[]]. reflexivity. }
  unfold parse_format. rewrite Ea. cbn [negb].
  cbn [app]. rewrite digit_not_order by assumption.
  cbn [parse_items].
  assert (is_space c = false) as -> by (unfold is_space, digit in *; lia).
  rewrite digit_is_digit by assumption. rewrite parse_digits by assumption.
  cbn [rbind]. unfold arrange. cbn [align_items code_align]. change ((- 0) mod 1 =? 0) with true. cbv iota.
  unfold decimal. cbn [fold_left]. do 6 f_equal. unfold digit in *. lia.
Qed.
Lemma decimal_nonneg ds : Forall digit ds -> 0 <= decimal ds.
Proof.
  unfold decimal. assert (forall a, 0 <= a -> Forall digit ds ->
    0 <= fold_left (fun a c => 10 * a + (Z.of_N c - 48)) ds a) as K.
  { induction ds as [|c ds IH]; intros a Ha H; [exact Ha|].
    inversion H; subst. cbn [fold_left]. apply IH; [|assumption]. unfold digit in *. lia. }
  apply K; lia.
Qed.

(** The size of a fixed-size type. *)
Definition fixed_size (t : ftype) : option nat :=
  match t with TInt _ _ n | TBlob n => Some n | _ => None end.

Lemma rev_length' (b : bytes) (big : bool) : length (if big then b else rev b) = length b.
Proof. destruct big; [reflexivity | apply rev_length]. Qed.

Lemma struct_read fmt t :
  has_type (FStruct fmt) t ->
  exists n, fixed_size t = Some n /\ Z.of_nat n <= ssize_max /\
    struct_calcsize fmt = Ok (Z.of_nat n) /\
    forall b, length b = n -> exists v, struct_unpack fmt b = Ok [v] /\
      forall v', wire t v' b <-> v' = v.
Proof.
  intros H. inversion H; subst.
  - match goal with HO : In _ order_codes, HC : In _ int_codes |- _ =>
      destruct (parse_int_format _ _ _ _ _ HO HC) as (ord & E & Eo);
      pose proof (code_size_le _ _ _ HC) end.
    assert (items_size [(1%N, SInt sgn size)] = Z.of_nat size) as Es
      by (unfold items_size; cbn; lia).
    exists size. split; [reflexivity|]. split; [unfold ssize_max; lia|]. split.
    + unfold struct_calcsize. rewrite E. cbn [rbind]. rewrite Es.
      destruct (Z.ltb_spec ssize_max (Z.of_nat size)); [unfold ssize_max in *; lia | reflexivity].
    + intros b L. unfold struct_unpack. rewrite E. cbn [rbind]. rewrite Es.
      destruct (Z.ltb_spec ssize_max (Z.of_nat size)); [unfold ssize_max in *; lia |].
      rewrite L, Z.eqb_refl. cbn. eexists. split; [reflexivity|].
      cbn [slot_size unpack_slot]. rewrite firstn_all2 by lia. intros v'. split.
      * intros W. inversion W; subst. f_equal. rewrite Eo.
        destruct sgn; [apply signed_be | apply unsigned_be].
      * intros ->. constructor; [exact L|]. rewrite Eo.
        destruct sgn; symmetry; [apply signed_be | apply unsigned_be].
  - match goal with HN : _ <> [], HD : Forall digit _ |- _ =>
      pose proof (parse_blob_format _ HN HD) as E;
      pose proof (decimal_nonneg _ HD) end.
    assert (items_size [(Z.to_N (decimal ds), SStr)] = decimal ds) as Es
      by (unfold items_size; cbn [fold_right fst snd code_size]; lia).
    exists (Z.to_nat (decimal ds)). split; [reflexivity|]. split; [lia|]. split.
    + unfold struct_calcsize. rewrite E. cbn [rbind]. rewrite Es.
      destruct (Z.ltb_spec ssize_max (decimal ds)); [lia|]. f_equal; lia.
    + intros b L. unfold struct_unpack. rewrite E. cbn [rbind]. rewrite Es.
      destruct (Z.ltb_spec ssize_max (decimal ds)); [lia|].
      destruct (Z.eqb_spec (Z.of_nat (length b)) (decimal ds)); [|lia].
      cbn. eexists. split; [reflexivity|].
      cbn [slot_size unpack_slot]. rewrite firstn_all2 by lia. intros v'. split.
      * intros W. inversion W; subst. reflexivity.
      * intros ->. constructor. exact L.
Qed.

(** Values a struct format represents exactly: 's' pads and truncates. *)
Definition exact (t : ftype) (v : pyval) : Prop :=
  match t with
  | TBlob n => match v with VBytes b => length b = n | _ => True end
  | _ => True
  end.

Lemma int_range_iff sgn size z b :
  (0 < size)%nat -> length b = size ->
  (int_in_range sgn size z = true /\ b = be_bytes size z) <->
  z = (if sgn then signed else unsigned) b.
Proof.
  intros Hs L. unfold int_in_range. destruct sgn.
  - rewrite signed_be. split.
    + intros (R & ->). symmetry. apply int_from_to_signed; lia.
    + intros ->. rewrite <- L in *. pose proof (int_from_bytes_signed_range b Hs).
      split; [lia|]. symmetry. apply be_bytes_from_signed.
  - rewrite unsigned_be. split.
    + intros (R & ->). rewrite be_value_be_bytes. symmetry. apply Z.mod_small. lia.
    + intros ->. rewrite <- L. pose proof (be_value_range b). split; [lia|].
      symmetry; apply be_bytes_be_value.
Qed.

Lemma struct_write fmt t v b :
  has_type (FStruct fmt) t -> exact t v ->
  struct_pack fmt [v] = Ok b <-> wire t v b.
Proof.
  intros H X. inversion H; subst.
  - match goal with HO : In _ order_codes, HC : In _ int_codes |- _ =>
      destruct (parse_int_format _ _ _ _ _ HO HC) as (ord & E & Eo);
      pose proof (code_size_le _ _ _ HC) end.
    assert (items_size [(1%N, SInt sgn size)] = Z.of_nat size) as Es
      by (unfold items_size; cbn; lia).
    unfold struct_pack. rewrite E. cbn [rbind]. rewrite Es.
    destruct (Z.ltb_spec ssize_max (Z.of_nat size)); [unfold ssize_max in *; lia |].
    change (slots_of [(1%N, SInt sgn size)]) with [SlInt sgn size].
    cbn [pack_slots]. destruct v as [z| | | |]; cbn [pack_slot rbind];
      try (split; [discriminate | intros W; inversion W]).
    split.
    + destruct (int_in_range sgn size z) eqn:R; [|discriminate].
      cbn [rbind]. intros K. injection K as <-. rewrite app_nil_r, Eo. constructor.
      * rewrite rev_length'. apply be_bytes_length.
      * destruct big; rewrite ?rev_involutive;
        (apply int_range_iff with (size := size); [lia|apply be_bytes_length|]; auto).
    + intros W. inversion W; subst.
      destruct big.
      * destruct (proj2 (int_range_iff sgn (length b) _ b ltac:(lia) eq_refl) eq_refl) as (R & K).
        rewrite R. cbn [rbind]. rewrite app_nil_r, <- K, Eo. reflexivity.
      * destruct (proj2 (int_range_iff sgn (length b) _ (rev b) ltac:(lia) (rev_length b)) eq_refl) as (R & K).
        rewrite R. cbn [rbind]. rewrite app_nil_r, <- K, Eo. f_equal. apply rev_involutive.
  - match goal with HN : _ <> [], HD : Forall digit _ |- _ =>
      pose proof (parse_blob_format _ HN HD) as E;
      pose proof (decimal_nonneg _ HD) end.
    assert (items_size [(Z.to_N (decimal ds), SStr)] = decimal ds) as Es
      by (unfold items_size; cbn [fold_right fst snd code_size]; lia).
    unfold struct_pack. rewrite E. cbn [rbind]. rewrite Es.
    destruct (Z.ltb_spec ssize_max (decimal ds)); [lia|].
    change (slots_of [(Z.to_N (decimal ds), SStr)]) with [SlStr (N.to_nat (Z.to_N (decimal ds)))].
    cbn [pack_slots]. destruct v as [|w| | |]; cbn [pack_slot rbind];
      try (split; [discriminate | intros W; inversion W]).
    cbn [exact] in X. rewrite firstn_all2 by lia.
    replace (N.to_nat (Z.to_N (decimal ds)) - length w)%nat with 0%nat by lia.
    cbn [repeat]. rewrite !app_nil_r. split.
    + intros K. injection K as <-. constructor. exact X.
    + intros W. inversion W; subst. reflexivity.
Qed.

(** ** Strings *)
Lemma prefixed_functional k u b b' : prefixed k u b -> prefixed k u b' -> b = b'.
Proof.
  intros (l & L & U & ->) (l' & L' & U' & ->). f_equal.
  rewrite !unsigned_be in *. apply be_value_inj; congruence.
Qed.
Lemma prefixed_length k u b : prefixed k u b -> length b = (k + length u)%nat.
Proof. intros (l & L & _ & ->). rewrite app_length, L. reflexivity. Qed.

Lemma write_prefix k u l :
  0 < k <= ssize_max ->
  (do? l <- int_to_bytes (Z.of_nat (length u)) k false; Ok (l ++ u)) = Ok l <->
  prefixed (Z.to_nat k) u l.
Proof.
  intros Hk. split.
  - intros H. apply rbind_ok in H as (p & H1 & H2). injection H2 as <-.
    apply int_to_from_unsigned in H1 as (L & V).
    exists p. split; [lia|]. split; [rewrite unsigned_be; exact V | reflexivity].
  - intros (p & L & V & ->). apply rbind_ok. exists p. split; [|reflexivity].
    rewrite unsigned_be in V. pose proof (be_value_range p) as R.
    apply int_to_bytes_unsigned_ok. split; [lia|].
    rewrite <- V, <- L. rewrite be_bytes_be_value. split; [|reflexivity].
    rewrite L, Z2Nat.id in R by lia. exact R.
Qed.

Lemma read_pascal_sound k s s' u :
  0 < k <= ssize_max ->
  read_pascal_bytes k s = (s', Ok u) ->
  exists b, prefixed (Z.to_nat k) u b /\ unread s = b ++ unread s' /\ s' = adv (length b) s.
Proof.
  intros Hk. unfold read_pascal_bytes. destruct (Z.leb_spec k 0); [lia|].
  unfold pbind. rewrite read_fixed_spec by lia.
  destruct (Nat.leb_spec (Z.to_nat k) (length (unread s))) as [L1|]; [|discriminate].
  set (l := firstn (Z.to_nat k) (unread s)).
  assert (length l = Z.to_nat k) as Ll by (unfold l; rewrite firstn_length; lia).
  rewrite int_from_bytes_unsigned. pose proof (be_value_range l) as R.
  destruct (Z.leb_spec (be_value l) ssize_max) as [M|M].
  2: { rewrite read_fixed_big by assumption. discriminate. }
  rewrite read_fixed_spec by lia. rewrite unread_adv, adv_adv.
  destruct (Nat.leb_spec (Z.to_nat (be_value l)) (length (skipn (Z.to_nat k) (unread s)))) as [L2|];
    [|discriminate].
  intros Hr. injection Hr as <- <-.
  set (u := firstn (Z.to_nat (be_value l)) (skipn (Z.to_nat k) (unread s))).
  assert (Z.of_nat (length u) = be_value l) as Lu by (unfold u; rewrite firstn_length; lia).
  exists (l ++ u). split; [|split].
  - exists l. split; [exact Ll|]. split; [rewrite unsigned_be; lia|reflexivity].
  - rewrite unread_adv. rewrite <- (firstn_skipn (Z.to_nat k) (unread s)) at 1.
    fold l. rewrite <- app_assoc. f_equal.
    rewrite <- skipn_skipn.
    rewrite <- (firstn_skipn (Z.to_nat (be_value l)) (skipn (Z.to_nat k) (unread s))) at 1.
    reflexivity.
  - rewrite app_length. f_equal. lia.
Qed.

Lemma read_pascal_complete k s u b rest :
  0 < k <= ssize_max -> Z.of_nat (length u) <= ssize_max ->
  prefixed (Z.to_nat k) u b -> unread s = b ++ rest ->
  read_pascal_bytes k s = (adv (length b) s, Ok u).
Proof.
  intros Hk Hu (l & L & V & ->) E. unfold read_pascal_bytes.
  destruct (Z.leb_spec k 0); [lia|]. unfold pbind. rewrite read_fixed_spec by lia.
  rewrite E, <- app_assoc, app_length.
  destruct (Nat.leb_spec (Z.to_nat k) (length l + length (u ++ rest))); [|lia].
  rewrite firstn_app_exact by lia.
  rewrite int_from_bytes_unsigned, <- unsigned_be, V.
  rewrite read_fixed_spec by lia. rewrite unread_adv, E, <- app_assoc, skipn_app_exact by lia.
  rewrite Nat2Z.id, app_length.
  destruct (Nat.leb_spec (length u) (length u + length rest)); [|lia].
  rewrite firstn_app_exact by reflexivity. rewrite adv_adv.
  f_equal. f_equal. rewrite app_length. lia.
Qed.

Lemma read_pascal_truncated k s u b b2 :
  0 < k <= ssize_max -> Z.of_nat (length u) <= ssize_max ->
  prefixed (Z.to_nat k) u b -> b = unread s ++ b2 -> b2 <> [] ->
  exists s' r, read_pascal_bytes k s = (s', Err (eof r)).
Proof.
  intros Hk Hu (l & L & V & ->) E N. unfold read_pascal_bytes.
  destruct (Z.leb_spec k 0); [lia|]. unfold pbind. rewrite read_fixed_spec by lia.
  assert (length (l ++ u) = length (unread s ++ b2)) as EL by congruence.
  rewrite !app_length in EL.
  assert (length b2 <> 0%nat) by (destruct b2; [congruence|discriminate]).
  destruct (Nat.leb_spec (Z.to_nat k) (length (unread s))) as [L1|L1]; [|eauto].
  assert (firstn (Z.to_nat k) (unread s) = l) as ->.
  { transitivity (firstn (Z.to_nat k) (unread s ++ b2)).
    - rewrite firstn_app. replace (Z.to_nat k - length (unread s))%nat with 0%nat by lia.
      rewrite app_nil_r. reflexivity.
    - rewrite <- E. apply firstn_app_exact. lia. }
  rewrite int_from_bytes_unsigned, <- unsigned_be, V.
  rewrite read_fixed_spec by lia. rewrite unread_adv, Nat2Z.id, skipn_length.
  destruct (Nat.leb_spec (length u) (length (unread s) - Z.to_nat k)); [lia|]. eauto.
Qed.

(** ** One instruction *)
Lemma read_instr_sound f t s s' v :
  has_type f t -> read_instr f s = (s', Ok v) ->
  exists b, wire t v b /\ unread s = b ++ unread s' /\ s' = adv (length b) s.
Proof.
  intros H R.
  assert (forall k (i : pinstr), 0 < k <= ssize_max ->
    (do! read_bytes <- read_pascal_bytes k;
     match i with
     | BYTES => pret (VBytes read_bytes)
     | STRING => do! s <- plift (utf8_decode read_bytes); pret (VStr s)
     | MPINT => pret (VInt (int_from_bytes read_bytes true))
     end) s = (s', Ok v) ->
    exists b, wire (match i with BYTES => TBytes | STRING => TText | MPINT => TMpint end (Z.to_nat k)) v b
      /\ unread s = b ++ unread s' /\ s' = adv (length b) s) as K.
  { clear. intros k i Hk. unfold pbind at 1.
    destruct (read_pascal_bytes k s) as [s1 [u|e]] eqn:E; [|discriminate].
    apply read_pascal_sound in E as (b & Pf & U & ->); [|assumption].
    intros R. exists b. destruct i.
    - injection R as <- <-. split; [constructor; assumption|auto].
    - unfold pbind, plift in R. destruct (utf8_decode u) as [w|e] eqn:D; [|discriminate].
      injection R as <- <-. split; [|auto].
      econstructor; [apply utf8_decode_iff; eassumption|assumption].
    - injection R as <- <-. split; [|auto]. rewrite <- signed_be. constructor; assumption. }
  destruct f as [fmt|i|i n|]; [| | |inversion H].
  - destruct (struct_read fmt t H) as (n & _ & Hn & Ec & Hu).
    cbn [read_instr] in R. unfold pbind at 1, plift in R. rewrite Ec in R.
    unfold pbind at 1 in R. rewrite read_fixed_spec in R by lia. rewrite Nat2Z.id in R.
    destruct (Nat.leb_spec n (length (unread s))) as [L|]; [|discriminate].
    assert (length (firstn n (unread s)) = n) as Ln by (rewrite firstn_length; lia).
    destruct (Hu _ Ln) as (w & Eu & Hw). unfold pbind in R. rewrite Eu in R.
    injection R as <- <-. exists (firstn n (unread s)). split; [apply Hw; reflexivity|].
    rewrite Ln. split; [|reflexivity]. rewrite unread_adv. symmetry. apply firstn_skipn.
  - apply (K default_size i) in R; [|unfold default_size, ssize_max; lia].
    inversion H; subst; exact R.
  - inversion H; subst; apply (K n _) in R; try assumption; exact R.
Qed.

Lemma wire_payload_le t v b :
  wire t v b -> Z.of_nat (length b) <= ssize_max ->
  match t with
  | TBytes k | TText k | TMpint k => forall u, prefixed k u b -> Z.of_nat (length u) <= ssize_max
  | _ => True
  end.
Proof.
  intros _ L. destruct t; auto; intros u P; apply prefixed_length in P; lia.
Qed.

Lemma read_instr_complete f t s v b rest :
  has_type f t -> wire t v b -> Z.of_nat (length b) <= ssize_max -> unread s = b ++ rest ->
  read_instr f s = (adv (length b) s, Ok v).
Proof.
  intros H W Lb E. pose proof (wire_payload_le _ _ _ W Lb) as PL.
  assert (forall k u, 0 < k <= ssize_max -> prefixed (Z.to_nat k) u b ->
            read_pascal_bytes k s = (adv (length b) s, Ok u)) as K.
  { intros k u Hk Pf. apply read_pascal_complete with (rest := rest); auto.
    apply prefixed_length in Pf. lia. }
  assert (0 < default_size <= ssize_max) as D by (unfold default_size, ssize_max; lia).
  destruct f as [fmt|i|i n|]; [| | |inversion H].
  - destruct (struct_read fmt t H) as (n & Hf & Hn & Ec & Hu).
    cbn [read_instr]. unfold pbind at 1, plift. rewrite Ec.
    unfold pbind at 1. rewrite read_fixed_spec by lia. rewrite Nat2Z.id, E, app_length.
    assert (length b = n) as Ln.
    { destruct t; try discriminate; inversion W; subst; injection Hf as <-; reflexivity. }
    destruct (Nat.leb_spec n (length b + length rest)); [|lia].
    rewrite firstn_app_exact by lia.
    destruct (Hu _ Ln) as (w & Eu & Hw). unfold pbind. rewrite Eu.
    apply Hw in W as ->. rewrite Ln. reflexivity.
  - inversion H; subst; cbn [read_instr]; unfold pbind; inversion W; subst;
      rewrite (K default_size u) || rewrite (K default_size v0); auto.
    + unfold plift. rewrite (proj2 (utf8_decode_iff _ _)) by eassumption. reflexivity.
    + rewrite signed_be. reflexivity.
  - inversion H; subst; cbn [read_instr]; unfold pbind; inversion W; subst;
      rewrite (K n u) || rewrite (K n v0); auto.
    + unfold plift. rewrite (proj2 (utf8_decode_iff _ _)) by eassumption. reflexivity.
    + rewrite signed_be. reflexivity.
Qed.

Lemma read_instr_truncated f t s v b b2 :
  has_type f t -> wire t v b -> Z.of_nat (length b) <= ssize_max ->
  b = unread s ++ b2 -> b2 <> [] ->
  exists s' r, read_instr f s = (s', Err (eof r)).
Proof.
  intros H W Lb E N.
  assert (forall k u, 0 < k <= ssize_max -> prefixed (Z.to_nat k) u b ->
            exists s' r, read_pascal_bytes k s = (s', Err (eof r))) as K.
  { intros k u Hk Pf. apply read_pascal_truncated with (b := b) (u := u) (b2 := b2); auto.
    apply prefixed_length in Pf. lia. }
  assert (0 < default_size <= ssize_max) as D by (unfold default_size, ssize_max; lia).
  assert (length b2 <> 0%nat) by (destruct b2; [congruence|discriminate]).
  assert (length b = length (unread s) + length b2)%nat as EL by (rewrite E, app_length; lia).
  destruct f as [fmt|i|i n|]; [| | |inversion H].
  - destruct (struct_read fmt t H) as (n & Hf & Hn & Ec & Hu).
    cbn [read_instr]. unfold pbind at 1, plift. rewrite Ec.
    unfold pbind at 1. rewrite read_fixed_spec by lia. rewrite Nat2Z.id.
    assert (length b = n) as Ln.
    { destruct t; try discriminate; inversion W; subst; injection Hf as <-; reflexivity. }
    destruct (Nat.leb_spec n (length (unread s))); [lia|]. eauto.
  - inversion H; subst; cbn [read_instr]; unfold pbind; inversion W; subst;
      match goal with Pf : prefixed _ ?u _ |- _ => destruct (K default_size u) as (s' & r & ->); auto end; eauto.
  - inversion H; subst; cbn [read_instr]; unfold pbind; inversion W; subst;
      match goal with Pf : prefixed _ ?u _ |- _ => destruct (K n u) as (s' & r & ->); auto end; eauto.
Qed.

(** Errors of reading one value. *)
Lemma read_instr_errors f t s s' e :
  has_type f t -> read_instr f s = (s', Err e) ->
  is_eof_error e = true \/ (exists o, e = UnicodeDecodeError o) \/ e = OverflowError.
Proof.
  intros H.
  assert (forall k s s' e, 0 < k <= ssize_max -> read_pascal_bytes k s = (s', Err e) ->
    is_eof_error e = true \/ e = OverflowError) as K.
  { clear. intros k s s' e Hk. unfold read_pascal_bytes. destruct (Z.leb_spec k 0); [lia|].
    unfold pbind. rewrite read_fixed_spec by lia.
    destruct (Z.to_nat k <=? length (unread s))%nat.
    2: { intros R. injection R as <- <-. left; apply eof_is_eof. }
    rewrite int_from_bytes_unsigned.
    set (l := firstn (Z.to_nat k) (unread s)). pose proof (be_value_range l).
    destruct (Z.leb_spec (be_value l) ssize_max).
    - rewrite read_fixed_spec by lia.
      match goal with |- context [if ?g then _ else _] => destruct g end; [discriminate|].
      intros R. injection R as <- <-. left; apply eof_is_eof.
    - rewrite read_fixed_big by lia. intros R. injection R as <- <-. auto. }
  assert (0 < default_size <= ssize_max) as D by (unfold default_size, ssize_max; lia).
  destruct f as [fmt|i|i n|]; [| | |inversion H].
  - destruct (struct_read fmt t H) as (n & Hf & Hn & Ec & Hu).
    cbn [read_instr]. unfold pbind at 1, plift. rewrite Ec.
    unfold pbind at 1. rewrite read_fixed_spec by lia. rewrite Nat2Z.id.
    destruct (Nat.leb_spec n (length (unread s))).
    + destruct (Hu (firstn n (unread s))) as (w & Eu & _); [rewrite firstn_length; lia|].
      unfold pbind. rewrite Eu. discriminate.
    + intros R. injection R as <- <-. left; apply eof_is_eof.
  - cbn [read_instr]. unfold pbind at 1.
    destruct (read_pascal_bytes default_size s) as [s1 [u|e1]] eqn:E1.
    + destruct i; try discriminate. unfold pbind, plift.
      destruct (utf8_decode u) eqn:E2; [discriminate|].
      intros R. injection R as <- <-. apply utf8_decode_err in E2. eauto.
    + intros R. injection R as <- <-. apply K in E1; [|assumption]. tauto.
  - cbn [read_instr]. unfold pbind at 1.
    assert (0 < n <= ssize_max) by (inversion H; assumption).
    destruct (read_pascal_bytes n s) as [s1 [u|e1]] eqn:E1.
    + destruct i; try discriminate. unfold pbind, plift.
      destruct (utf8_decode u) eqn:E2; [discriminate|].
      intros R. injection R as <- <-. apply utf8_decode_err in E2. eauto.
    + intros R. injection R as <- <-. apply K in E1; [|assumption]. tauto.
Qed.

(** ** mpints *)
(** The number of bytes write_from_format_instruction asks for. *)
Definition mpint_len (z : Z) : Z := (bit_length z + (if 0 <? z then 8 else 7)) / 8.

Lemma mpint_len_nonneg z : 0 <= mpint_len z.
Proof.
  unfold mpint_len. pose proof (bit_length_nonneg z). apply Z.div_pos; [|lia].
  destruct (0 <? z); lia.
Qed.

Lemma pow2_mono a b : 0 <= a <= b -> 2 ^ a <= 2 ^ b.
Proof. intros; apply Z.pow_le_mono_r; lia. Qed.
Lemma pow2_lt_inv a b : 0 <= b -> 2 ^ a < 2 ^ b -> a < b.
Proof. intros H. apply Z.pow_lt_mono_r_iff; lia. Qed.
Lemma pow2_le_inv a b : 0 <= b -> 2 ^ a <= 2 ^ b -> a <= b.
Proof. intros H. apply Z.pow_le_mono_r_iff; lia. Qed.

Lemma bit_length_neg z : z < 0 -> 2 ^ (bit_length z - 1) <= - z < 2 ^ bit_length z.
Proof. intros H. rewrite <- bit_length_opp. apply bit_length_pos; lia. Qed.

Lemma mpint_len_fits z :
  z <> 0 -> ~ mpint_gap z ->
  0 < mpint_len z /\ - 2 ^ (8 * mpint_len z - 1) <= z < 2 ^ (8 * mpint_len z - 1).
Proof.
  intros Nz G. pose proof (bit_length_nonneg z) as B0.
  unfold mpint_len. destruct (Z.ltb_spec 0 z).
  - pose proof (bit_length_pos z ltac:(lia)) as B.
    set (m := (bit_length z + 8) / 8).
    assert (bit_length z <= 8 * m - 1) by (unfold m; lia).
    assert (2 ^ bit_length z <= 2 ^ (8 * m - 1)) by (apply pow2_mono; lia).
    split; [lia|]. lia.
  - pose proof (bit_length_neg z ltac:(lia)) as B.
    set (m := (bit_length z + 7) / 8).
    assert (1 <= bit_length z).
    { destruct (Z.eq_dec (bit_length z) 0) as [E|]; [|lia]. rewrite E in B. change (2 ^ 0) with 1 in B. lia. }
    assert (1 <= m) by (unfold m; lia).
    split; [lia|].
    destruct (Z.eq_dec (bit_length z) (8 * m)) as [E|E].
    + assert (- 2 ^ (8 * m - 1) <= z).
      { destruct (Z.le_gt_cases (- 2 ^ (8 * m - 1)) z); [assumption|].
        exfalso. apply G. exists m. rewrite E in B. lia. }
      pose proof (Z.pow_pos_nonneg 2 (8 * m - 1)). lia.
    + assert (bit_length z <= 8 * m - 1) by (unfold m in *; lia).
      assert (2 ^ bit_length z <= 2 ^ (8 * m - 1)) by (apply pow2_mono; lia). lia.
Qed.

Lemma mpint_gap_len z : mpint_gap z -> 0 < mpint_len z /\ z < - 2 ^ (8 * mpint_len z - 1).
Proof.
  intros (k & Hk & Hz).
  assert (z < 0) by (pose proof (Z.pow_pos_nonneg 2 (8 * k - 1)); lia).
  pose proof (bit_length_neg z ltac:(lia)) as B.
  pose proof (bit_length_nonneg z).
  assert (bit_length z = 8 * k) as E.
  { assert (2 ^ (bit_length z - 1) < 2 ^ (8 * k)) as U by lia. apply pow2_lt_inv in U; [|lia].
    assert (2 ^ (8 * k - 1) < 2 ^ bit_length z) as V by lia. apply pow2_lt_inv in V; [|lia]. lia. }
  unfold mpint_len. destruct (Z.ltb_spec 0 z); [lia|].
  assert ((bit_length z + 7) / 8 = k) as -> by lia. lia.
Qed.

Lemma mpint_len_shortest z u : signed u = z -> mpint_len z <= Z.of_nat (length u).
Proof.
  intros S. rewrite signed_be in S.
  destruct (Z.eq_dec z 0) as [->|Nz]; [unfold mpint_len, bit_length; simpl; lia|].
  destruct u as [|x u]; [exfalso; apply Nz; rewrite <- S; reflexivity|].
  pose proof (int_from_bytes_signed_range (x :: u)) as R. rewrite S in R.
  set (m := length (x :: u)) in *. assert (0 < m)%nat by (unfold m; simpl; lia).
  specialize (R ltac:(lia)). pose proof (bit_length_nonneg z).
  unfold mpint_len. destruct (Z.ltb_spec 0 z).
  - pose proof (bit_length_pos z ltac:(lia)) as B.
    assert (2 ^ (bit_length z - 1) < 2 ^ (8 * Z.of_nat m - 1)) as U by lia.
    apply pow2_lt_inv in U; lia.
  - pose proof (bit_length_neg z ltac:(lia)) as B.
    assert (2 ^ (bit_length z - 1) <= 2 ^ (8 * Z.of_nat m - 1)) as U by lia.
    apply pow2_le_inv in U; lia.
Qed.

Lemma write_mpint_payload_iff z u :
  write_payload MPINT (VInt z) = Ok u <->
  signed u = z /\ Z.of_nat (length u) = mpint_len z /\ mpint_len z <= ssize_max.
Proof.
  cbn [write_payload]. fold (mpint_len z). unfold int_to_bytes.
  pose proof (mpint_len_nonneg z) as M0.
  destruct (Z.ltb_spec (mpint_len z) 0); [lia|].
  destruct (Z.ltb_spec ssize_max (mpint_len z)); [split; [discriminate|lia]|].
  destruct (Z.eqb_spec (mpint_len z) 0) as [E0|E0].
  - assert (z = 0) as ->.
    { destruct (Z.eq_dec z 0); [assumption|]. exfalso.
      unfold mpint_len in E0. unfold bit_length in E0.
      destruct (Z.eqb_spec z 0); [lia|]. pose proof (Z.log2_nonneg (Z.abs z)).
      destruct (0 <? z); lia. }
    cbn. split.
    + intros K; injection K as <-. split; [reflexivity|]. split; [reflexivity|lia].
    + intros (_ & L & _). destruct u; [reflexivity|]. rewrite E0 in L. simpl in L. lia.
  - destruct (Z.leb_spec (- 2 ^ (8 * mpint_len z - 1)) z), (Z.ltb_spec z (2 ^ (8 * mpint_len z - 1)));
      cbn [andb].
    + split.
      * intros K; injection K as <-. rewrite be_bytes_length, signed_be.
        split; [|lia]. apply int_from_to_signed; [lia|]. rewrite Z2Nat.id by lia. lia.
      * intros (S & L & _). f_equal. rewrite signed_be in S.
        replace (Z.to_nat (mpint_len z)) with (length u) by lia. rewrite <- S.
        apply be_bytes_from_signed.
    + split; [discriminate|]. intros (S & L & _). exfalso.
      rewrite signed_be in S. pose proof (int_from_bytes_signed_range u ltac:(lia)) as R.
      rewrite S, L in R. lia.
    + split; [discriminate|]. intros (S & L & _). exfalso.
      rewrite signed_be in S. pose proof (int_from_bytes_signed_range u ltac:(lia)) as R.
      rewrite S, L in R. lia.
    + split; [discriminate|]. intros (S & L & _). exfalso.
      rewrite signed_be in S. pose proof (int_from_bytes_signed_range u ltac:(lia)) as R.
      rewrite S, L in R. lia.
Qed.

Lemma write_mpint_succeeds z :
  mpint_len z <= ssize_max -> ~ mpint_gap z -> exists u, write_payload MPINT (VInt z) = Ok u.
Proof.
  intros M G. destruct (Z.eq_dec z 0) as [->|Nz]; [eexists; reflexivity|].
  destruct (mpint_len_fits z Nz G) as (M1 & R).
  exists (be_bytes (Z.to_nat (mpint_len z)) z). apply write_mpint_payload_iff.
  rewrite be_bytes_length, signed_be. split; [|lia].
  apply int_from_to_signed; [lia|]. rewrite Z2Nat.id by lia. exact R.
Qed.
Lemma write_mpint_gap z : mpint_gap z -> write_payload MPINT (VInt z) = Err OverflowError.
Proof.
  intros G. apply mpint_gap_len in G as (M & L).
  cbn [write_payload]. fold (mpint_len z). unfold int_to_bytes.
  destruct (Z.ltb_spec (mpint_len z) 0); [lia|].
  destruct (Z.ltb_spec ssize_max (mpint_len z)); [reflexivity|].
  destruct (Z.eqb_spec (mpint_len z) 0) as [E0|E0]; [lia|].
  destruct (Z.leb_spec (- 2 ^ (8 * mpint_len z - 1)) z); [lia|]. reflexivity.
Qed.

Lemma wire_functional t v b b' :
  (forall k, t <> TMpint k) -> wire t v b -> wire t v b' -> b = b'.
Proof.
  intros N W W'. inversion W; subst; inversion W'; subst.
  - eapply prefixed_functional; eassumption.
  - match goal with A : utf8 s u, B : utf8 s u0 |- _ => rewrite (utf8_functional _ _ _ A B) in * end.
    eapply prefixed_functional; eassumption.
  - exfalso; eapply N; reflexivity.
  - assert ((if big then b else rev b) = (if big then b' else rev b')) as E.
    { destruct sgn.
      - match goal with Hz : signed _ = signed _ |- _ => rewrite !signed_be in Hz; apply int_from_signed_inj in Hz end;
          [assumption | rewrite !rev_length'; lia].
      - match goal with Hz : unsigned _ = unsigned _ |- _ => rewrite !unsigned_be in Hz; apply be_value_inj in Hz end;
          [assumption | rewrite !rev_length'; lia]. }
    destruct big; [exact E|]. rewrite <- (rev_involutive b), E. apply rev_involutive.
  - reflexivity.
Qed.

Lemma wire_value t v v' b : wire t v b -> wire t v' b -> v = v'.
Proof.
  assert (forall k u u', prefixed k u b -> prefixed k u' b -> u = u') as K.
  { intros k u u' (l & L & _ & ->) (l' & L' & _ & E).
    assert (firstn k (l ++ u) = firstn k (l' ++ u')) as F by congruence.
    rewrite !firstn_app_exact in F by congruence. subst l'.
    apply app_inv_head in E. congruence. }
  intros W W'. inversion W; subst; inversion W'; subst; try reflexivity;
    try (match goal with A : prefixed _ _ b, B : prefixed _ _ b |- _ => pose proof (K _ _ _ A B); subst end).
  - reflexivity.
  - f_equal. eapply utf8_injective; eassumption.
  - reflexivity.
Qed.

(** Writing produces the canonical encoding. *)
Lemma canonical_functional t v b b' : canonical t v b -> canonical t v b' -> b = b'.
Proof.
  intros (W & M) (W' & M').
  pose proof (M _ W') as L1. pose proof (M' _ W) as L2.
  destruct t as [|k|k| |]; try (refine (wire_functional _ _ _ _ _ W W'); intros ? ?; discriminate).
  inversion W; subst. inversion W'; subst.
  match goal with A : prefixed _ ?x b, B : prefixed _ ?y b' |- _ =>
    pose proof (prefixed_length _ _ _ A); pose proof (prefixed_length _ _ _ B);
    assert (x = y) as EQ; [|rewrite EQ in *; eapply prefixed_functional; eassumption] end.
  { match goal with Hz : signed _ = signed _ |- _ => rewrite !signed_be in Hz; apply int_from_signed_inj in Hz end; auto; lia. }
Qed.

Lemma write_pascal_eq i k v b :
  0 < k <= ssize_max ->
  write_pascal i k v = Ok b <-> exists u, write_payload i v = Ok u /\ prefixed (Z.to_nat k) u b.
Proof.
  intros Hk. unfold write_pascal. rewrite rbind_ok.
  split; intros (u & H1 & H2); exists u; (split; [exact H1|]); apply write_prefix in H2 || apply write_prefix; auto.
Qed.

Definition ptype (i : pinstr) (k : nat) : ftype :=
  match i with BYTES => TBytes k | STRING => TText k | MPINT => TMpint k end.

Lemma write_pascal_canonical i k v b :
  0 < k <= ssize_max -> write_pascal i k v = Ok b -> canonical (ptype i (Z.to_nat k)) v b.
Proof.
  intros Hk H. apply write_pascal_eq in H as (u & Hw & Pf); [|assumption].
  destruct i; cbn [ptype].
  - destruct v; try discriminate. injection Hw as <-.
    split; [constructor; assumption|]. intros b' W'.
    rewrite (wire_functional (TBytes (Z.to_nat k)) (VBytes b0) b' b); auto; [intros ? ?; discriminate|constructor; assumption].
  - destruct v; try discriminate. cbn [write_payload] in Hw. apply utf8_encode_iff in Hw.
    assert (wire (TText (Z.to_nat k)) (VStr s) b) as W by (econstructor; eassumption).
    split; [assumption|]. intros b' W'.
    rewrite (wire_functional (TText (Z.to_nat k)) (VStr s) b' b); auto; intros ? ?; discriminate.
  - destruct v; try discriminate. apply write_mpint_payload_iff in Hw as (S & L & _).
    split.
    + rewrite <- S. constructor; assumption.
    + intros b' W'. inversion W'; subst.
      match goal with Hs : signed _ = signed _ |- _ => rewrite <- Hs in * end.
      match goal with A : prefixed _ u b, B : prefixed _ ?u0 b' |- _ =>
        rewrite (prefixed_length _ _ _ A), (prefixed_length _ _ _ B);
        pose proof (mpint_len_shortest _ u0 eq_refl) end. lia.
Qed.

Lemma has_type_pascal i : has_type (FPascal i) (ptype i 4).
Proof. destruct i; constructor. Qed.

Lemma instr_bytes_canonical f t v b :
  has_type f t -> exact t v -> instr_bytes f v = Ok b -> canonical t v b.
Proof.
  intros H X I.
  destruct f as [fmt|i|i n|]; [| | |inversion H].
  - cbn [instr_bytes] in I. apply (struct_write fmt t v b H X) in I.
    split; [assumption|]. intros b' W'.
    rewrite (wire_functional t v b' b); auto. intros k ->. inversion I; subst. inversion H.
  - cbn [instr_bytes] in I. apply write_pascal_canonical in I; [|unfold default_size, ssize_max; lia].
    change (Z.to_nat default_size) with 4%nat in I.
    inversion H; subst; exact I.
  - cbn [instr_bytes] in I. assert (0 < n <= ssize_max) by (inversion H; assumption).
    apply write_pascal_canonical in I; [|assumption].
    inversion H; subst; exact I.
Qed.

(** The value can be written at all. *)
Definition writable (v : pyval) (t : ftype) : Prop :=
  match t, v with TMpint _, VInt z => ~ mpint_gap z | _, _ => True end.

Lemma canonical_instr_bytes f t v b :
  has_type f t -> canonical t v b -> writable v t -> Z.of_nat (length b) <= ssize_max ->
  instr_bytes f v = Ok b.
Proof.
  intros H (W & M) Wr Lb.
  assert (forall i k, 0 < k <= ssize_max -> t = ptype i (Z.to_nat k) -> write_pascal i k v = Ok b) as K.
  { intros i k Hk ->. apply write_pascal_eq; [assumption|]. destruct i; inversion W; subst.
    - exists v0. auto.
    - exists u. split; [apply utf8_encode_iff; assumption|assumption].
    - cbn [writable ptype] in Wr.
      match goal with Pf : prefixed _ u b |- _ => rename Pf into Pf0 end.
      pose proof (prefixed_length _ _ _ Pf0) as Lu.
      pose proof (mpint_len_shortest _ u eq_refl).
      destruct (write_mpint_succeeds (signed u) ltac:(lia) Wr) as (u' & Hu').
      pose proof Hu' as Hu''. apply write_mpint_payload_iff in Hu'' as (S' & L' & _).
      exists u'. split; [exact Hu'|].
      assert (u = u') as <-; [|assumption].
      rewrite !signed_be in S'. symmetry. apply int_from_signed_inj; [|exact S'].
      assert (exists b', prefixed (Z.to_nat k) u' b') as (b' & Pf').
      { destruct Pf0 as (l & Ll & Vl & _). rewrite unsigned_be in Vl.
        pose proof (be_value_range l).
        exists (be_bytes (Z.to_nat k) (Z.of_nat (length u')) ++ u'). eexists.
        split; [apply be_bytes_length|]. split; [|reflexivity].
        rewrite unsigned_be, be_value_be_bytes. apply Z.mod_small. rewrite Ll in *. lia. }
      pose proof (M b') as Mb. rewrite (prefixed_length _ _ _ Pf') in Mb.
      rewrite (prefixed_length _ _ _ Pf0) in Mb.
      assert (wire (TMpint (Z.to_nat k)) (VInt (signed u)) b') as Wb.
      { replace (signed u) with (signed u') by (rewrite !signed_be; exact S'). constructor; assumption. }
      specialize (Mb Wb). lia. }
  destruct f as [fmt|i|i n|]; [| | |inversion H]; cbn [instr_bytes].
  - apply (struct_write fmt t v b H); [|assumption].
    inversion W; subst; cbn [exact]; auto.
  - apply K; [unfold default_size, ssize_max; lia|]. destruct i; inversion H; subst; reflexivity.
  - assert (0 < n <= ssize_max) by (inversion H; assumption).
    apply K; [assumption|]. destruct i; inversion H; subst; reflexivity.
Qed.

(** Errors of writing one value. *)
Lemma struct_pack_err fmt t v e :
  has_type (FStruct fmt) t -> struct_pack fmt [v] = Err e -> e = StructError.
Proof.
  intros H. inversion H; subst.
  - match goal with HO : In _ order_codes, HC : In _ int_codes |- _ =>
      destruct (parse_int_format _ _ _ _ _ HO HC) as (ord & E & Eo) end.
    unfold struct_pack. rewrite E. cbn [rbind].
    destruct (ssize_max <? items_size _); [congruence|].
    change (slots_of [(1%N, SInt sgn size)]) with [SlInt sgn size].
    cbn [pack_slots]. destruct v; cbn [pack_slot rbind]; try congruence.
    destruct (int_in_range sgn size z); cbn [rbind]; congruence.
  - match goal with HN : _ <> [], HD : Forall digit _ |- _ =>
      pose proof (parse_blob_format _ HN HD) as E end.
    unfold struct_pack. rewrite E. cbn [rbind].
    destruct (ssize_max <? items_size _); [congruence|].
    change (slots_of [(Z.to_N (decimal ds), SStr)]) with [SlStr (N.to_nat (Z.to_N (decimal ds)))].
    cbn [pack_slots]. destruct v; cbn [pack_slot rbind]; congruence.
Qed.
Lemma write_payload_err i v e :
  write_payload i v = Err e ->
  (is_instance v i = false /\ e = ValueError) \/
  (exists s, i = STRING /\ v = VStr s /\ e = UnicodeEncodeError /\ ~ Forall scalar s) \/
  (exists z, i = MPINT /\ v = VInt z /\ e = OverflowError /\ (mpint_gap z \/ ssize_max < mpint_len z)).
Proof.
  destruct i, v; cbn [write_payload is_instance]; intros H; try discriminate;
    try (injection H as <-; left; auto).
  - pose proof (utf8_encode_err _ _ H) as ->. right; left. exists s. repeat split; auto.
    intros F. apply utf8_encode_scalar in F as (b & F). congruence.
  - right; right. exists z. split; [reflexivity|]. split; [reflexivity|].
    assert (e = OverflowError) as ->.
    { unfold int_to_bytes in H. fold (mpint_len z) in H. pose proof (mpint_len_nonneg z).
      destruct (Z.ltb_spec (mpint_len z) 0); [lia|].
      repeat match type of H with (if ?g then _ else _) = _ => destruct g end; congruence. }
    split; [reflexivity|].
    destruct (Z.leb_spec (mpint_len z) ssize_max) as [M|M]; [left|right; assumption].
    destruct (Z.eq_dec z 0) as [->|Nz]; [discriminate|].
    unfold int_to_bytes in H. fold (mpint_len z) in H. pose proof (mpint_len_nonneg z).
    destruct (Z.ltb_spec (mpint_len z) 0); [lia|].
    destruct (Z.ltb_spec ssize_max (mpint_len z)); [lia|].
    pose proof (bit_length_nonneg z).
    assert (1 <= bit_length z) as B1.
    { unfold bit_length. destruct (Z.eqb_spec z 0); [lia|]. pose proof (Z.log2_nonneg (Z.abs z)). lia. }
    destruct (Z.eqb_spec (mpint_len z) 0) as [E0|E0].
    { exfalso. unfold mpint_len in E0. destruct (0 <? z); lia. }
    destruct (Z.ltb_spec 0 z) as [P|P].
    { exfalso. destruct (mpint_len_fits z Nz) as (_ & R).
      - intros (k & Hk & Hz). pose proof (Z.pow_pos_nonneg 2 (8 * k - 1)). lia.
      - destruct (Z.leb_spec (- 2 ^ (8 * mpint_len z - 1)) z), (Z.ltb_spec z (2 ^ (8 * mpint_len z - 1)));
          cbn [andb] in H; try discriminate; lia. }
    exists (mpint_len z). pose proof (bit_length_neg z ltac:(lia)) as B.
    split; [lia|].
    assert (bit_length z <= 8 * mpint_len z) as Bu
      by (unfold mpint_len; destruct (Z.ltb_spec 0 z); lia).
    pose proof (pow2_mono _ _ (conj (bit_length_nonneg z) Bu)) as Bp.
    pose proof (Z.pow_pos_nonneg 2 (8 * mpint_len z - 1)).
    destruct (Z.leb_spec (- 2 ^ (8 * mpint_len z - 1)) z), (Z.ltb_spec z (2 ^ (8 * mpint_len z - 1)));
      cbn [andb] in H; try discriminate; lia.
Qed.
