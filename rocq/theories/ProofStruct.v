(** Proofs about arbitrary struct format strings, for C80. *)
From Verif Require Import PyBase IntBytes Utf8 StructFmt Stream SpecWire SpecStruct.
From Verif Require Import ProofBase ProofInt ProofUtf8 ProofWire ProofRecord.
Open Scope Z_scope.

(** ** The format parser *)
Definition std_of (o : sorder) : bool := match o with Native => false | _ => true end.
Definition big_of (o : sorder) : bool := match o with BigStd => true | _ => false end.
Definition part_of (o : sorder) (s : slot) : part :=
  match s with
  | SlPad n => Gap n
  | SlStr n => Value (TBlob n)
  | SlChar => Char
  | SlInt b k => Value (TInt (big_of o) b k)
  | SlBool => Bool_
  | SlPascal n => Pascal n
  | SlPointer => Pointer (big_of o)
  end.
Definition parts_of (o : sorder) (l : list (N * scode)) : list part := map (part_of o) (slots_of l).
Definition one_part (o : sorder) (k : scode) (n : nat) : list part := map (part_of o) (slots_of_item (N.of_nat n, k)).

Lemma map_repeat' {A B} (f : A -> B) x n : map f (repeat x n) = repeat (f x) n.
Proof. induction n; cbn; congruence. Qed.
Lemma code_of_sound o c k n : code_of o c = Ok k -> code (std_of o) (big_of o) [c] n (Z.to_nat (code_align k)) (one_part o k n).
Proof.
  unfold code_of, one_part, slots_of_item. cbn [fst snd]. rewrite Nat2N.id.
  assert (forall (x : string) b m r, str x = [cp x] -> c = cp x -> Ok (SInt b m) = Ok r -> In (x, (b, m)) (if std_of o then int_codes else native_codes) ->
     code (std_of o) (big_of o) [c] n (Z.to_nat (code_align r)) (map (part_of o) match r with SPad => [SlPad n] | SChar => repeat SlChar n | SStr => [SlStr n] | SInt b k => repeat (SlInt b k) n | SBool => repeat SlBool n | SPascal => [SlPascal n] | SPointer => repeat SlPointer n end)) as K.
  { intros x b m r E1 -> E Hin. injection E as <-. cbn [code_align]. rewrite <- E1, map_repeat', Nat2Z.id. cbn [part_of]. apply (code_int _ _ x b m n Hin). }
  destruct (N.eqb_spec c (cp "x")) as [->|_]; [intros H; injection H as <-; apply code_x|].
  destruct (N.eqb_spec c (cp "c")) as [->|_]; [intros H; injection H as <-; rewrite map_repeat'; apply code_c|].
  destruct (N.eqb_spec c (cp "s")) as [->|_]; [intros H; injection H as <-; apply code_s|].
  destruct (N.eqb_spec c (cp "p")) as [->|_]; [intros H; injection H as <-; apply code_p|].
  destruct (N.eqb_spec c (cp "?")) as [->|_]; [destruct o; try discriminate; intros H; injection H as <-; rewrite map_repeat'; apply code_bool; reflexivity|].
  destruct (N.eqb_spec c (cp "b")) as [E|_]; [intros H; apply (K "b"%string _ _ _ eq_refl E H); destruct o; simpl; tauto|].
  destruct (N.eqb_spec c (cp "B")) as [E|_]; [intros H; apply (K "B"%string _ _ _ eq_refl E H); destruct o; simpl; tauto|].
  destruct (N.eqb_spec c (cp "h")) as [E|_]; [intros H; apply (K "h"%string _ _ _ eq_refl E H); destruct o; simpl; tauto|].
  destruct (N.eqb_spec c (cp "H")) as [E|_]; [intros H; apply (K "H"%string _ _ _ eq_refl E H); destruct o; simpl; tauto|].
  destruct (N.eqb_spec c (cp "i")) as [E|_]; [intros H; apply (K "i"%string _ _ _ eq_refl E H); destruct o; simpl; tauto|].
  destruct (N.eqb_spec c (cp "I")) as [E|_]; [intros H; apply (K "I"%string _ _ _ eq_refl E H); destruct o; simpl; tauto|].
  destruct (N.eqb_spec c (cp "l")) as [E|_]; [intros H; apply (K "l"%string _ _ _ eq_refl E H); destruct o; simpl; tauto|].
  destruct (N.eqb_spec c (cp "L")) as [E|_]; [intros H; apply (K "L"%string _ _ _ eq_refl E H); destruct o; simpl; tauto|].
  destruct (N.eqb_spec c (cp "q")) as [E|_]; [intros H; apply (K "q"%string _ _ _ eq_refl E H); destruct o; simpl; tauto|].
  destruct (N.eqb_spec c (cp "Q")) as [E|_]; [intros H; apply (K "Q"%string _ _ _ eq_refl E H); destruct o; simpl; tauto|].
  destruct (existsb _ _); [discriminate|]. destruct o; cbn [andb]; try discriminate.
  destruct (N.eqb_spec c (cp "n")) as [E|_]; [intros H; apply (K "n"%string _ _ _ eq_refl E H); simpl; tauto|].
  destruct (N.eqb_spec c (cp "N")) as [E|_]; [intros H; apply (K "N"%string _ _ _ eq_refl E H); simpl; tauto|].
  destruct (N.eqb_spec c (cp "P")) as [->|_]; [|discriminate]. intros H; injection H as <-. rewrite map_repeat'. apply code_pointer. reflexivity.
Qed.
Lemma code_of_complete o s n a ps : code (std_of o) (big_of o) s n a ps ->
  exists c k, s = [c] /\ code_of o c = Ok k /\ ps = one_part o k n /\ code_align k = Z.of_nat a /\ (0 < a)%nat /\
    is_space c = false /\ is_digit c = false /\ (c < 128)%N /\ order_of c = None.
Proof.
  intros H. unfold one_part, slots_of_item. cbn [fst snd]. inversion H as [m|m|m|m Hs|m|x sgn size m Hin|m Hs]; subst.
  - exists (cp "x"), SPad. cbn [fst snd]. rewrite Nat2N.id. repeat split. lia.
  - exists (cp "s"), SStr. cbn [fst snd]. rewrite Nat2N.id. repeat split. lia.
  - exists (cp "c"), SChar. cbn [fst snd]. rewrite Nat2N.id, map_repeat'. repeat split. lia.
  - destruct o; try discriminate; exists (cp "?"), SBool; cbn [fst snd]; rewrite Nat2N.id, map_repeat'; repeat split; lia.
  - exists (cp "p"), SPascal. cbn [fst snd]. rewrite Nat2N.id. repeat split. lia.
  - exists (cp x), (SInt sgn a). cbn [fst snd]. rewrite Nat2N.id, map_repeat'. cbn [part_of].
    assert (code_of o (cp x) = Ok (SInt sgn a) /\ str x = [cp x] /\ (0 < a)%nat /\ is_space (cp x) = false /\ is_digit (cp x) = false /\ (cp x < 128)%N /\ order_of (cp x) = None) as (A & B & P & C & D & E & F).
    { assert (forall l : list (string * (bool * nat)), In (x, (sgn, a)) l -> Forall (fun y => code_of o (cp (fst y)) = Ok (SInt (fst (snd y)) (snd (snd y))) /\ str (fst y) = [cp (fst y)] /\ (0 < snd (snd y))%nat /\ is_space (cp (fst y)) = false /\ is_digit (cp (fst y)) = false /\ (cp (fst y) < 128)%N /\ order_of (cp (fst y)) = None) l ->
        code_of o (cp x) = Ok (SInt sgn a) /\ str x = [cp x] /\ (0 < a)%nat /\ is_space (cp x) = false /\ is_digit (cp x) = false /\ (cp x < 128)%N /\ order_of (cp x) = None) as K.
      { intros l I F. rewrite Forall_forall in F. apply (F _ I). }
      apply (K _ Hin). clear. destruct o; cbn [std_of]; unfold int_codes, native_codes; repeat (apply Forall_cons; [repeat split; cbn; lia|]); apply Forall_nil. }
    rewrite B. auto 12.
  - destruct o; try discriminate. exists (cp "P"), SPointer. cbn [fst snd]. rewrite Nat2N.id, map_repeat'. repeat split. lia.
Qed.

Definition nfold (ds : pystr) (n : N) : N := fold_left (fun a c => (a * 10 + (c - 48))%N) ds n.
Lemma nfold_decimal ds : Forall digit ds -> forall n, Z.of_N (nfold ds n) = fold_left (fun a c => 10 * a + (Z.of_N c - 48)) ds (Z.of_N n).
Proof.
  intros F. induction F as [|c ds Hc F IH]; intros n; [reflexivity|]. unfold nfold in *. cbn [fold_left]. rewrite IH. f_equal. unfold digit in Hc. lia.
Qed.
Lemma parse_some o s : forall n, 
  (exists ds c s', s = ds ++ c :: s' /\ Forall digit ds /\ is_digit c = false /\
     parse_items o (Some n) s = (do? k <- code_of o c; do? r <- parse_items o None s'; Ok ((nfold ds n, k) :: r))) \/
  (Forall digit s /\ parse_items o (Some n) s = Err StructError).
Proof.
  induction s as [|c s IH]; intros n; [right; split; [constructor|reflexivity]|].
  cbn [parse_items]. destruct (is_digit c) eqn:E.
  - assert (digit c) as Hd by (unfold is_digit, digit in *; lia).
    destruct (IH (n * 10 + (c - 48))%N) as [(ds & c' & s' & -> & F & Hc & ->)|(F & ->)].
    + left. exists (c :: ds), c', s'. split; [reflexivity|]. split; [constructor; assumption|]. split; [exact Hc|reflexivity].
    + right. split; [constructor; assumption|reflexivity].
  - left. exists [], c, s. split; [reflexivity|]. split; [constructor|]. split; [exact E|reflexivity].
Qed.
Lemma parse_ds o ds : forall c s n, Forall digit ds -> is_digit c = false ->
  parse_items o (Some n) (ds ++ c :: s) = (do? k <- code_of o c; do? r <- parse_items o None s; Ok ((nfold ds n, k) :: r)).
Proof.
  induction ds as [|d ds IH]; intros c s n F Hc; cbn [app parse_items].
  - rewrite Hc. reflexivity.
  - inversion F; subst. rewrite digit_is_digit by assumption. rewrite IH by assumption. reflexivity.
Qed.
Lemma digit_not_space c : digit c -> is_space c = false.
Proof. unfold digit, is_space. lia. Qed.
Lemma nfold_head c ds : digit c -> Forall digit ds -> N.to_nat (nfold ds (c - 48)) = repeat_count (c :: ds).
Proof.
  intros Hc F. unfold repeat_count, decimal. cbn [fold_left].
  pose proof (nfold_decimal ds F (c - 48)%N) as E. replace (Z.of_N (c - 48)) with (10 * 0 + (Z.of_N c - 48)) in E by (unfold digit in Hc; lia).
  rewrite <- E. lia.
Qed.
Lemma parts_cons o n k r : parts_of o ((n, k) :: r) = one_part o k (N.to_nat n) ++ parts_of o r.
Proof. unfold parts_of, one_part, slots_of. cbn [flat_map]. rewrite map_app, N2Nat.id. reflexivity. Qed.
Lemma total_app a b : total (a ++ b) = (total a + total b)%nat.
Proof. induction a as [|q a IH]; cbn [app total]; [reflexivity|]. rewrite IH. lia. Qed.
Lemma total_repeat q n : total (repeat q n) = (n * part_size q)%nat.
Proof. induction n as [|n IH]; cbn [repeat total]; [reflexivity|]. rewrite IH. lia. Qed.
Lemma one_part_total o k n : Z.of_nat (total (one_part o k (N.to_nat n))) = Z.of_N n * code_size k.
Proof.
  unfold one_part, slots_of_item. cbn [fst snd]. rewrite N2Nat.id.
  destruct k as [| | |b m| | |]; rewrite ?map_repeat'; cbn [map part_of code_size];
    rewrite ?total_repeat; cbn [total part_size]; lia.
Qed.
(** Items from offset [off] on. *)
Definition arrange_at (o : sorder) (off : nat) (l : list (N * scode)) : list (N * scode) :=
  match o with Native => align_items (Z.of_nat off) l | _ => l end.
Definition gap_of (o : sorder) (off : nat) (k : scode) : nat :=
  match o with Native => Z.to_nat ((- Z.of_nat off) mod code_align k) | _ => 0%nat end.
Lemma arrange_cons o off n k l : 0 < code_align k ->
  parts_of o (arrange_at o off ((n, k) :: l)) =
  gap_before (gap_of o off k) ++ one_part o k (N.to_nat n) ++
  parts_of o (arrange_at o (off + gap_of o off k + total (one_part o k (N.to_nat n))) l).
Proof.
  intros Ha. destruct o; cbn [arrange_at gap_of gap_before app]; try apply parts_cons. cbn [align_items].
  pose proof (Z.mod_pos_bound (- Z.of_nat off) _ Ha) as B.
  replace (Z.of_nat (off + Z.to_nat ((- Z.of_nat off) mod code_align k) + total (one_part Native k (N.to_nat n))))
    with (Z.of_nat off + (- Z.of_nat off) mod code_align k + Z.of_N n * code_size k) by (rewrite <- (one_part_total Native); lia).
  set (pad := (- Z.of_nat off) mod code_align k) in *. clearbody pad. destruct (Z.eqb_spec pad 0) as [->|Np].
  - cbn [Z.to_nat gap_before app]. apply parts_cons.
  - rewrite parts_cons. unfold one_part at 1. cbn [slots_of_item fst snd map part_of app]. rewrite parts_cons, N2Nat.id, <- Z_N_nat.
    destruct (N.to_nat (Z.to_N pad)) as [|m] eqn:E; [lia|]. reflexivity.
Qed.
Lemma gap_of_ok o off k a : code_align k = Z.of_nat a -> (0 < a)%nat -> gap_size (std_of o) off a (gap_of o off k).
Proof.
  intros E Ha. destruct o; cbn [std_of gap_size gap_of]; try reflexivity. rewrite E.
  pose proof (Z.mod_pos_bound (- Z.of_nat off) (Z.of_nat a) ltac:(lia)) as B. split; [lia|].
  pose proof (Z.div_mod (- Z.of_nat off) (Z.of_nat a) ltac:(lia)) as D.
  exists (Z.to_nat (- (- Z.of_nat off / Z.of_nat a))). set (q := - Z.of_nat off / Z.of_nat a) in *. set (r := (- Z.of_nat off) mod Z.of_nat a) in *. nia.
Qed.
Lemma gap_unique std off a g g' : (0 < a)%nat -> gap_size std off a g -> gap_size std off a g' -> g = g'.
Proof.
  intros Ha. unfold gap_size. destruct std; [congruence|]. intros (L & k & E) (L' & k' & E').
  destruct (Nat.lt_trichotomy k k') as [H|[<-|H]]; [|lia|].
  - assert (k * a + a <= k' * a)%nat by (replace (k * a + a)%nat with ((k + 1) * a)%nat by lia; apply Nat.mul_le_mono_r; lia). lia.
  - assert (k' * a + a <= k * a)%nat by (replace (k' * a + a)%nat with ((k' + 1) * a)%nat by lia; apply Nat.mul_le_mono_r; lia). lia.
Qed.
Lemma code_of_align o c k : code_of o c = Ok k -> 0 < code_align k.
Proof. intros H. pose proof (code_of_sound o c k 0 H) as C. apply code_of_complete in C as (c' & k' & E & H' & _ & Ea & Ha & _). injection E as <-. rewrite H in H'. injection H' as <-. lia. Qed.
Lemma parse_items_sound o : forall m s l off, (length s <= m)%nat -> parse_items o None s = Ok l ->
  items (std_of o) (big_of o) off s (parts_of o (arrange_at o off l)).
Proof.
  assert (forall off, parts_of o (arrange_at o off []) = []) as Z0 by (intros; destruct o; reflexivity).
  assert (forall off ds c s n k l, Forall digit ds -> code_of o c = Ok k -> N.to_nat n = repeat_count ds ->
    items (std_of o) (big_of o) (off + gap_of o off k + total (one_part o k (N.to_nat n))) s
      (parts_of o (arrange_at o (off + gap_of o off k + total (one_part o k (N.to_nat n))) l)) ->
    items (std_of o) (big_of o) off (ds ++ [c] ++ s) (parts_of o (arrange_at o off ((n, k) :: l)))) as K.
  { intros off ds c s n k l F Ek En H. pose proof (code_of_align _ _ _ Ek) as Pa. rewrite arrange_cons by exact Pa.
    eapply items_code; [exact F| | |exact H].
    - rewrite En. apply code_of_sound. exact Ek.
    - apply gap_of_ok; lia. }
  induction m as [|m IH]; intros s l off L H.
  - destruct s; [|cbn in L; lia]. injection H as <-. rewrite Z0. constructor.
  - destruct s as [|c s]; [injection H as <-; rewrite Z0; constructor|]. cbn [length] in L. cbn [parse_items] in H.
    destruct (is_space c) eqn:Es.
    { apply items_white; [unfold is_space, white in *; lia|]. apply IH; [lia|exact H]. }
    destruct (is_digit c) eqn:Ed.
    + assert (digit c) as Hd by (unfold is_digit, digit in *; lia).
      destruct (parse_some o s (c - 48)%N) as [(ds & c' & s' & -> & F & Hc & E)|(_ & E)]; [|congruence].
      rewrite E in H. destruct (code_of o c') as [k|] eqn:Ek; [|discriminate]. cbn [rbind] in H.
      destruct (parse_items o None s') as [r|] eqn:Er; [|discriminate]. cbn [rbind] in H. injection H as <-.
      rewrite app_length in L. cbn [length] in L.
      apply (K off (c :: ds) c' s'); [constructor; assumption|exact Ek|apply nfold_head; assumption|apply IH; [lia|exact Er]].
    + destruct (code_of o c) as [k|] eqn:Ek; [|discriminate]. cbn [rbind] in H.
      destruct (parse_items o None s) as [r|] eqn:Er; [|discriminate]. cbn [rbind] in H. injection H as <-.
      apply (K off [] c s); [constructor|exact Ek|reflexivity|apply IH; [lia|exact Er]].
Qed.
Lemma parse_items_complete o off s ps : items (std_of o) (big_of o) off s ps ->
  exists l, parse_items o None s = Ok l /\ parts_of o (arrange_at o off l) = ps.
Proof.
  intros H. induction H as [off|off c s ps Hw H (l & E & <-)|off ds c a gap s ps qs F Hc Hg H (l & E & <-)].
  - exists []. split; [reflexivity|destruct o; reflexivity].
  - exists l. split; [|reflexivity]. cbn [parse_items]. replace (is_space c) with true by (unfold is_space, white in *; lia). exact E.
  - apply code_of_complete in Hc as (x & k & -> & Ek & -> & Ea & Ha & Hs & Hd & _).
    assert (gap = gap_of o off k) as -> by (apply (gap_unique _ _ _ _ _ Ha Hg), gap_of_ok; assumption).
    destruct ds as [|d ds]; cbn [app parse_items].
    + rewrite Hs, Hd, Ek, E. cbn [rbind]. eexists. split; [reflexivity|]. rewrite arrange_cons by lia. reflexivity.
    + inversion F; subst. rewrite digit_not_space, digit_is_digit by assumption. rewrite parse_ds, Ek, E by assumption.
      cbn [rbind]. eexists. split; [reflexivity|]. rewrite arrange_cons by lia. rewrite nfold_head by assumption. reflexivity.
Qed.
Lemma items_ascii o off s ps : items (std_of o) (big_of o) off s ps -> forallb (fun c => (c <? 128)%N) s = true.
Proof.
  intros H. induction H as [off|off c s ps Hw H IH|off ds c a gap s ps qs F Hc Hg H IH]; [reflexivity| |].
  - cbn [forallb]. rewrite IH. unfold white in Hw. lia.
  - rewrite !forallb_app, IH, andb_true_r. apply andb_true_iff. split.
    + apply forallb_forall. intros x Hx. rewrite Forall_forall in F. specialize (F x Hx). unfold digit in F. lia.
    + apply code_of_complete in Hc as (x & k & -> & _ & _ & _ & _ & _ & _ & Lx & _). cbn [forallb]. lia.
Qed.
Lemma items_order o off s ps c r : items (std_of o) (big_of o) off s ps -> s = c :: r -> order_of c = None.
Proof.
  intros H E. destruct H as [off|off c' s ps Hw H|off ds c' a gap s ps qs F Hc Hg H]; [discriminate| |].
  - injection E as -> ->. unfold white in Hw. unfold order_of.
    assert (cp ">" = 62%N /\ cp "!" = 33%N /\ cp "<" = 60%N /\ cp "=" = 61%N /\ cp "@" = 64%N) as (E1 & E2 & E3 & E4 & E5) by (vm_compute; auto).
    rewrite E1, E2, E3, E4, E5.
    destruct (N.eqb_spec c 62); [lia|]. destruct (N.eqb_spec c 33); [lia|].
    destruct (N.eqb_spec c 60); [lia|]. destruct (N.eqb_spec c 61); [lia|].
    destruct (N.eqb_spec c 64); [lia|]. reflexivity.
  - destruct ds as [|d ds]; cbn [app] in E.
    + apply code_of_complete in Hc as (x & k & -> & _ & _ & _ & _ & _ & _ & _ & Lx). injection E as <- _. exact Lx.
    + injection E as <- _. inversion F; subst. apply digit_not_order. assumption.
Qed.
Definition sorder_of (o : string) : sorder :=
  if existsb (String.eqb o) [">"; "!"]%string then BigStd else if existsb (String.eqb o) ["<"; "="]%string then LittleStd else Native.
Lemma parse_format_iff fmt ps : (exists o l, parse_format fmt = Ok (o, l) /\ parts_of o l = ps) <-> format fmt ps.
Proof.
  split.
  - intros (o & l & H & <-). unfold parse_format in H.
    destruct (forallb (fun c => (c <? 128)%N) fmt); [|discriminate]. cbn [negb] in H.
    destruct fmt as [|c s].
    + injection H as <- <-. exists ""%string, false, false, []. split; [left; reflexivity|]. split; [reflexivity|constructor].
    + destruct (order_of c) as [o'|] eqn:Eo.
      * destruct (parse_items o' None s) as [r|] eqn:Er; [|discriminate]. cbn [rbind] in H. injection H as <- <-.
        assert (exists x std big, In (x, (std, big)) orders /\ str x = [c] /\ std = std_of o' /\ big = big_of o') as (x & std & big & Hin & Ex & -> & ->).
        { unfold order_of in Eo. destruct (N.eqb_spec c (cp ">")) as [->|]; [injection Eo as <-; exists ">"%string; do 2 eexists; split; [do 4 right; left; reflexivity|auto]|].
          destruct (N.eqb_spec c (cp "!")) as [->|]; [injection Eo as <-; exists "!"%string; do 2 eexists; split; [do 5 right; left; reflexivity|auto]|].
          destruct (N.eqb_spec c (cp "<")) as [->|]; [injection Eo as <-; exists "<"%string; do 2 eexists; split; [do 3 right; left; reflexivity|auto]|].
          destruct (N.eqb_spec c (cp "=")) as [->|]; [injection Eo as <-; exists "="%string; do 2 eexists; split; [do 2 right; left; reflexivity|auto]|].
          destruct (N.eqb_spec c (cp "@")) as [->|]; [injection Eo as <-; exists "@"%string; do 2 eexists; split; [right; left; reflexivity|auto]|discriminate]. }
        exists x, (std_of o'), (big_of o'), s. split; [exact Hin|]. split; [rewrite Ex; reflexivity|].
        pose proof (parse_items_sound o' _ s r 0 (le_n _) Er) as I. destruct o'; exact I.
      * destruct (parse_items Native None (c :: s)) as [r|] eqn:Er; [|discriminate]. cbn [rbind] in H. injection H as <- <-.
        exists ""%string, false, false, (c :: s). split; [left; reflexivity|]. split; [reflexivity|].
        apply (parse_items_sound Native _ _ _ 0 (le_n _) Er).
  - intros (x & std & big & s & Hin & -> & H).
    assert (std = std_of (sorder_of x) /\ big = big_of (sorder_of x) /\ (str x = [] /\ sorder_of x = Native \/ exists c, str x = [c] /\ (c < 128)%N /\ order_of c = Some (sorder_of x))) as (-> & -> & Hx).
    { unfold orders in Hin. cbn [In] in Hin.
      repeat (destruct Hin as [Hin|Hin]; [injection Hin as <- <- <-; split; [reflexivity|split; [reflexivity|]]; try (left; split; reflexivity); right; eexists; repeat split|]). contradiction. }
    pose proof (items_ascii _ _ _ _ H) as Ha. pose proof (parse_items_complete _ _ _ _ H) as (l & El & Ep).
    exists (sorder_of x), (arrange (sorder_of x) l). split; [|destruct (sorder_of x); exact Ep]. destruct Hx as [(E & En)|(c & E & Lc & Eo)]; rewrite E; cbn [app].
    + unfold parse_format. rewrite Ha. cbn [negb]. rewrite En in El |- *. destruct s as [|c s]; [injection El as <-; reflexivity|].
      rewrite (items_order _ _ _ _ _ _ H eq_refl), El. reflexivity.
    + unfold parse_format. cbn [forallb]. rewrite Ha. replace (c <? 128)%N with true by lia. cbn [andb negb]. rewrite Eo, El. reflexivity.
Qed.

(** ** Layouts *)
Definition good_slot (s : slot) : Prop := match s with SlInt _ k => (0 < k)%nat | _ => True end.
Lemma code_of_good o c k : code_of o c = Ok k -> forall n, Forall good_slot (slots_of_item (n, k)).
Proof.
  intros H n. unfold slots_of_item. cbn [fst snd].
  destruct k as [| | |b m| | |]; try (repeat constructor; fail); apply Forall_forall; intros x Hx; apply repeat_spec in Hx as ->; try exact I.
  cbn [good_slot]. pose proof (code_of_align _ _ _ H) as A. cbn [code_align] in A. lia.
Qed.
Definition good_item (it : N * scode) : Prop := forall n, Forall good_slot (slots_of_item (n, snd it)).
Lemma parse_items_good o : forall s n l, parse_items o n s = Ok l -> Forall good_item l.
Proof.
  induction s as [|c s IH]; intros n l H; cbn [parse_items] in H.
  - destruct n; [discriminate|]. injection H as <-. constructor.
  - assert (forall m, (do? k <- code_of o c; do? r <- parse_items o None s; Ok ((m, k) :: r)) = Ok l -> Forall good_item l) as K.
    { intros m E. destruct (code_of o c) as [k|] eqn:Ek; [|discriminate]. cbn [rbind] in E.
      destruct (parse_items o None s) as [r|] eqn:Er; [|discriminate]. cbn [rbind] in E. injection E as <-.
      constructor; [intros j; apply (code_of_good _ _ _ Ek)|apply (IH _ _ Er)]. }
    destruct n as [n|].
    + destruct (is_digit c); [eapply IH; exact H|apply (K _ H)].
    + destruct (is_space c); [eapply IH; exact H|]. destruct (is_digit c); [eapply IH; exact H|apply (K _ H)].
Qed.
Lemma arrange_good o l : Forall good_item l -> Forall good_slot (slots_of (arrange o l)).
Proof.
  assert (forall l, Forall good_item l -> Forall good_slot (slots_of l)) as K.
  { intros m F. induction F as [|[n k] m H F IH]; [constructor|]. unfold slots_of. cbn [flat_map]. apply Forall_app. split; [apply H|exact IH]. }
  intros F. apply K. destruct o; try exact F. cbn [arrange]. generalize 0. induction F as [|[n k] m H F IH]; intros z; cbn [align_items]; [constructor|].
  destruct (_ =? 0); repeat constructor; try exact H; try apply IH.
Qed.
Lemma parse_format_good s o l : parse_format s = Ok (o, l) -> Forall good_slot (slots_of l).
Proof.
  unfold parse_format. destruct (negb _); [discriminate|]. destruct s as [|c s]; [intros H; injection H as <- <-; constructor|].
  destruct (order_of c) as [o'|].
  - destruct (parse_items o' None s) as [r|] eqn:E; [|discriminate]. intros H. injection H as <- <-. apply arrange_good, (parse_items_good _ _ _ _ E).
  - destruct (parse_items Native None (c :: s)) as [r|] eqn:E; [|discriminate]. intros H. injection H as <- <-. apply (arrange_good Native), (parse_items_good _ _ _ _ E).
Qed.

Lemma part_of_size o s : part_size (part_of o s) = slot_size s.
Proof. destruct s; reflexivity. Qed.
Lemma items_total o l : items_size l = Z.of_nat (total (parts_of o l)).
Proof.
  induction l as [|[n k] l IH]; [reflexivity|]. rewrite parts_cons, total_app.
  unfold items_size in *. cbn [fold_right fst snd]. rewrite IH. pose proof (one_part_total o k n). lia.
Qed.

Lemma order_bytes_big o b : order_bytes o b = if big_of o then b else rev b.
Proof. destruct o; reflexivity. Qed.

Lemma unpack_holds o : forall sl b, existsb unpack_fails sl = false -> length b = total (map (part_of o) sl) ->
  holds (map (part_of o) sl) (unpack_slots o sl b) b.
Proof.
  induction sl as [|s sl IH]; intros b U L.
  - cbn in L. destruct b; [constructor|discriminate].
  - cbn [existsb] in U. apply orb_false_iff in U as (U1 & U2). cbn [map total] in L. rewrite part_of_size in L.
    assert (length (skipn (slot_size s) b) = total (map (part_of o) sl)) as L' by (rewrite skipn_length; lia).
    assert (length (firstn (slot_size s) b) = slot_size s) as L1 by (rewrite firstn_length; lia).
    specialize (IH _ U2 L'). cbn [map unpack_slots].
    match goal with |- holds ?x ?y b => enough (holds x y (firstn (slot_size s) b ++ skipn (slot_size s) b)) as K by (rewrite firstn_skipn in K; exact K) end.
    destruct s as [n|n| |sg k| |n|]; cbn [slot_takes_value part_of slot_size unpack_slot] in *.
    + apply holds_gap; assumption.
    + apply holds_value; [constructor; exact L1|exact IH].
    + destruct b as [|x b]; [cbn in L; lia|]. cbn [firstn skipn app] in *. apply holds_char. exact IH.
    + apply holds_value; [|exact IH]. constructor; [exact L1|]. rewrite order_bytes_big.
      destruct sg; [symmetry; apply signed_be|symmetry; rewrite int_from_bytes_unsigned; apply unsigned_be].
    + destruct b as [|x b]; [cbn in L; lia|]. cbn [firstn skipn app] in *. apply holds_bool; [|exact IH].
      destruct (Byte.byte_eq_dec x x00) as [->|N]; [left; auto|right; split; [exact N|destruct x; congruence]].
    + destruct n as [|n]; [discriminate|]. destruct b as [|x b]; [cbn in L; lia|]. cbn [firstn skipn app length] in *.
      set (b1 := firstn n b) in *. assert (length b1 = n) as L2 by lia.
      rewrite <- (firstn_skipn (Z.to_nat (Zb x)) b1) at 2. rewrite <- app_assoc. apply holds_pascal; [|pose proof (Zb_range x)|exact IH].
      * rewrite firstn_skipn. cbn [length]. lia.
      * rewrite firstn_length. destruct (Nat.le_gt_cases (Z.to_nat (Zb x)) (length b1)); [left; lia|right]. split; [lia|]. apply skipn_all2. lia.
    + apply holds_pointer; [|exact IH]. constructor; [exact L1|]. rewrite order_bytes_big. symmetry. rewrite int_from_bytes_unsigned. apply unsigned_be.
Qed.
Lemma holds_length ps vs b : (forall t, In (Value t) ps -> fixed_size t <> None) -> holds ps vs b -> length b = total ps.
Proof.
  intros F H. induction H as [|n g ps vs b L H IH|x ps vs b H IH|t v x ps vs b Hw H IH|x z ps vs b Hx H IH|n x w g ps vs b L Hx H IH|big z x ps vs b Hw H IH];
    cbn [total part_size]; try reflexivity; specialize (IH (fun t' Ht => F t' (or_intror Ht))).
  - rewrite app_length, IH, L. reflexivity.
  - cbn [length]. rewrite IH. reflexivity.
  - rewrite app_length, IH.
    specialize (F t (or_introl eq_refl)). destruct Hw; cbn [fixed_size] in F; try contradiction; cbn [part_size]; congruence.
  - cbn [length]. rewrite IH. reflexivity.
  - cbn [length] in L |- *. rewrite !app_length in *. lia.
  - rewrite app_length, IH. inversion Hw; subst. congruence.
Qed.
Lemma app_split {A} (a a' b b' : list A) : length a = length a' -> a ++ b = a' ++ b' -> a = a' /\ b = b'.
Proof.
  revert a'. induction a as [|x a IH]; intros [|y a'] L E; try discriminate; [auto|].
  injection E as -> E. injection L as L. destruct (IH _ L E) as (-> & ->). auto.
Qed.
Lemma pascal_unique x (w g w' g' : bytes) : length (w ++ g) = length (w' ++ g') -> w ++ g = w' ++ g' ->
  (Zb x = Z.of_nat (length w) \/ Z.of_nat (length w) <= Zb x /\ g = []) ->
  (Zb x = Z.of_nat (length w') \/ Z.of_nat (length w') <= Zb x /\ g' = []) -> w = w'.
Proof.
  intros L E H H'. assert (length w = length w') as Lw.
  { rewrite !app_length in L. destruct H as [H|(H & ->)], H' as [H'|(H' & ->)]; cbn [length] in L; lia. }
  apply app_split in E as (E & _); assumption.
Qed.
Lemma holds_functional ps vs b : (forall t, In (Value t) ps -> fixed_size t <> None) -> holds ps vs b -> forall vs', holds ps vs' b -> vs = vs'.
Proof.
  intros F H. induction H as [|n g ps vs b L H IH|x ps vs b H IH|t v x ps vs b Hw H IH|x z ps vs b Hx H IH|n x w g ps vs b L Hx H IH|big z x ps vs b Hw H IH]; intros vs' H';
    try specialize (IH (fun t' Ht => F t' (or_intror Ht))).
  - inversion H'. reflexivity.
  - inversion H' as [|n' g' ps' w' b' L2 H2 E1 E2 E3| | | | |]; subst.
    apply app_split in E3 as (_ & ->); [|assumption]. apply IH. assumption.
  - inversion H' as [| |x' ps' w' b' H2 E1 E2 E3| | | |]; subst. f_equal. apply IH. assumption.
  - inversion H' as [| | |t' v' x' ps' w' b' Hw' H2 E1 E2 E3| | |]; subst.
    assert (length x' = length x) as L.
    { specialize (F t (or_introl eq_refl)). destruct Hw; cbn [fixed_size] in F; try contradiction; inversion Hw'; subst; congruence. }
    apply app_split in E3 as (-> & ->); [|exact L].
    f_equal; [apply (wire_value _ _ _ _ Hw Hw')|apply IH; assumption].
  - inversion H' as [| | | |x' z' ps' w' b' Hx' H2 E1 E2 E3| |]; subst. f_equal; [|apply IH; assumption]. f_equal. intuition congruence.
  - inversion H' as [| | | | |n' x' w' g' ps' u' b' L2 Hx' H2 E1 E2|]; subst.
    match goal with E : _ ++ _ ++ _ = _ ++ _ ++ _ |- _ => rename E into E3 end. cbn [length] in L2. rewrite !app_assoc in E3. injection L2 as L2. apply app_split in E3 as (E3 & ->); [|exact L2].
    f_equal; [f_equal; apply (pascal_unique x w g w' g'); auto|apply IH; assumption].
  - inversion H' as [| | | | | |big' z' x' ps' w' b' Hw' H2 E1 E2 E3]; subst.
    apply app_split in E3 as (-> & ->); [|inversion Hw; inversion Hw'; subst; congruence].
    f_equal; [apply (wire_value _ _ _ _ Hw Hw')|apply IH; assumption].
Qed.
Lemma parts_fixed o sl t : In (Value t) (map (part_of o) sl) -> fixed_size t <> None.
Proof.
  intros H. apply in_map_iff in H as (s & E & _). destruct s; cbn in E; inversion E; discriminate.
Qed.

Lemma fill_or_cut n (w : bytes) : firstn n w ++ repeat x00 (n - length w) = firstn n (w ++ repeat x00 n).
Proof.
  rewrite firstn_app. f_equal. assert (forall i j, (i <= j)%nat -> repeat x00 i = firstn i (repeat x00 j)) as K.
  { induction i as [|i IH]; intros [|j] Hj; try reflexivity; [lia|]. cbn [repeat firstn]. f_equal. apply IH. lia. }
  apply K. lia.
Qed.
Lemma pack_slot_value o s v b t : good_slot s -> part_of o s = Value t ->
  pack_slot o s v = Ok b <-> conforms t v /\ wire t (stored t v) b.
Proof.
  intros G E. destruct s as [n|n| |sg k| |n|]; cbn [part_of] in E; try discriminate; injection E as <-; cbn [pack_slot].
  - destruct v as [z|w| | |]; cbn [conforms]; try (split; [discriminate|intros ([] & _)]). cbn [stored].
    rewrite fill_or_cut. split.
    + intros K. injection K as <-. split; [exact I|]. constructor. rewrite firstn_length, app_length, repeat_length. lia.
    + intros (_ & Hw). inversion Hw; subst. reflexivity.
  - cbn [good_slot] in G. destruct v as [z|w| | |]; try (split; [discriminate|cbn [conforms]; destruct sg; intros ([] & _)]). cbn [stored].
    assert (conforms (TInt (big_of o) sg k) (VInt z) <-> int_in_range sg k z = true) as R.
    { cbn [conforms]. unfold int_in_range. replace (256 ^ Z.of_nat k) with (2 ^ (8 * Z.of_nat k)) by (rewrite Z.pow_mul_r by lia; reflexivity).
      destruct sg; rewrite andb_true_iff, Z.leb_le, Z.ltb_lt; reflexivity. }
    rewrite R. rewrite order_bytes_big. split.
    + destruct (int_in_range sg k z) eqn:Er; [|discriminate]. intros K. injection K as <-. split; [reflexivity|]. constructor.
      * destruct (big_of o); rewrite ?rev_length; apply be_bytes_length.
      * destruct (big_of o); rewrite ?rev_involutive; apply (int_range_iff sg k z _ G (be_bytes_length k z)); auto.
    + intros (Hr & Hw). rewrite Hr. inversion Hw; subst. f_equal.
      destruct (proj2 (int_range_iff sg (length b) _ (if big_of o then b else rev b) G (rev_length' b (big_of o))) eq_refl) as (_ & Eb).
      destruct (big_of o); rewrite <- Eb, ?rev_involutive; reflexivity.
Qed.
Lemma truth_spec v : truth v = true <-> is_true v.
Proof.
  destruct v as [z|b|x|l|n]; cbn [truth is_true].
  - rewrite negb_true_iff, Z.eqb_neq. reflexivity.
  - destruct b; cbn; split; congruence.
  - destruct x; cbn; split; congruence.
  - destruct l; cbn; split; congruence.
  - apply N.odd_spec.
Qed.
Lemma bZ_small z : 0 <= z < 256 -> Zb (bZ z) = z.
Proof. intros H. rewrite Zb_bZ. apply Z.mod_small. exact H. Qed.
Lemma Zb_inj x y : Zb x = Zb y -> x = y.
Proof. intros E. rewrite <- (bZ_Zb x), <- (bZ_Zb y), E. reflexivity. Qed.
(** One value. *)
Lemma pack_slot_packs o s v b : good_slot s -> slot_takes_value s = true ->
  pack_slot o s v = Ok b <-> packs [part_of o s] [v] b.
Proof.
  intros G T. destruct (part_of o s) as [n| |t| |n|big] eqn:E.
  - destruct s; discriminate.
  - destruct s; try discriminate. split.
    + destruct v as [|[|x [|y w]]| | |]; cbn [pack_slot]; try discriminate. intros K. injection K as <-. repeat constructor.
    + intros K. inversion K as [| |x ps vs b' K'| | | | |]; subst. inversion K'; subst. reflexivity.
  - rewrite (pack_slot_value o s v b t G E). split.
    + intros (C & W). rewrite <- (app_nil_r b). apply packs_value; [exact C|exact W|constructor].
    + intros K. inversion K as [| | |t' v' x ps vs b' C W K'| | | |]; subst. inversion K'; subst. rewrite app_nil_r. auto.
  - destruct s; try discriminate. cbn [pack_slot]. pose proof (truth_spec v) as S. split.
    + intros K. assert (b = [if truth v then x01 else x00]) as -> by (destruct v; congruence).
      apply packs_bool; [|constructor]. destruct (truth v); [left|right]; intuition congruence.
    + intros K. inversion K as [| | | |v' x ps vs b' Hx K'| | |]; subst. inversion K'; subst.
      assert (x = if truth v then x01 else x00) as ->; [|destruct v; reflexivity].
      destruct (truth v); intuition congruence.
  - destruct s as [| | | | |n'|]; try discriminate. injection E as ->. cbn [pack_slot]. split.
    + destruct v as [|w| | |]; try discriminate. intros K. injection K as <-. destruct n as [|m]; cbn [pack_pascal].
      * apply packs_no_pascal. constructor.
      * rewrite fill_or_cut, <- (app_nil_r (firstn m _)). apply packs_pascal; [| |constructor].
        -- cbn [stored]. constructor. rewrite firstn_length, app_length, repeat_length. lia.
        -- rewrite bZ_small by lia. lia.
    + intros K. inversion K as [| | | | |w ps vs b' K'|m w x g ps vs b' W Hx K'|]; subst; inversion K'; subst; [reflexivity|].
      cbn [pack_pascal stored] in *. rewrite fill_or_cut. inversion W; subst. rewrite app_nil_r. do 2 f_equal.
      apply Zb_inj. rewrite bZ_small by lia. lia.
  - destruct s; try discriminate. injection E as <-. cbn [pack_slot]. split.
    + destruct v as [z| | | |]; try discriminate.
      destruct (int_in_range true 8 z || int_in_range false 8 z) eqn:R; [|discriminate]. intros K. assert (forall x y : bytes, Ok x = Ok y -> x = y) as Inj by (intros x y E; injection E; auto). apply Inj in K as <-.
      apply orb_true_iff in R. unfold int_in_range in R. change (Z.of_nat 8) with 8 in R. change (8 * 8 - 1) with 63 in R. change (256 ^ 8) with (2 ^ 64) in R.
      rewrite <- (app_nil_r (order_bytes _ _)). apply packs_pointer; [lia| |constructor].
      rewrite <- be_bytes_mod. change (256 ^ Z.of_nat 8) with (2 ^ 64).
      apply (pack_slot_value o (SlInt false 8) (VInt (z mod 2 ^ 64)) _ (TInt (big_of o) false 8)); [cbn; lia|reflexivity|].
      cbn [pack_slot]. unfold int_in_range. change (256 ^ Z.of_nat 8) with (2 ^ 64). pose proof (Z.mod_pos_bound z (2 ^ 64) ltac:(lia)).
      replace ((0 <=? z mod 2 ^ 64) && (z mod 2 ^ 64 <? 2 ^ 64)) with true by lia. reflexivity.
    + intros K. inversion K as [| | | | | | |big z x ps vs b' R W K']; subst. inversion K'; subst. rewrite app_nil_r.
      unfold int_in_range. change (Z.of_nat 8) with 8. change (8 * 8 - 1) with 63. change (256 ^ 8) with (2 ^ 64).
      replace ((- 2 ^ 63 <=? z) && (z <? 2 ^ 63) || (0 <=? z) && (z <? 2 ^ 64)) with true by lia.
      rewrite <- be_bytes_mod. change (256 ^ Z.of_nat 8) with (2 ^ 64). pose proof (Z.mod_pos_bound z (2 ^ 64) ltac:(lia)).
      assert (pack_slot o (SlInt false 8) (VInt (z mod 2 ^ 64)) = Ok x) as P.
      { apply (pack_slot_value o (SlInt false 8) (VInt (z mod 2 ^ 64)) _ (TInt (big_of o) false 8)); [cbn; lia|reflexivity|].
        split; [cbn [conforms]; change (8 * Z.of_nat 8) with 64; lia|exact W]. }
      cbn [pack_slot] in P. destruct (int_in_range false 8 _); [exact P|discriminate].
Qed.
Lemma packs_split q ps v vs b : takes_value q = true ->
  packs (q :: ps) (v :: vs) b <-> exists x y, b = x ++ y /\ packs [q] [v] x /\ packs ps vs y.
Proof.
  intros T. split.
  - intros H. inversion H as [|n ? ? y P|c ? ? y P|t v' x ? ? y C W P|v' c ? ? y Hx P|w ? ? y P|m w c g ? ? y W Hx P|big z x ? ? y R W P]; subst; try discriminate.
    + exists [c], y. split; [reflexivity|]. split; [repeat constructor|exact P].
    + exists (x ++ []), y. rewrite app_nil_r. split; [reflexivity|]. split; [|exact P]. rewrite <- (app_nil_r x). apply packs_value; [exact C|exact W|constructor].
    + exists [c], y. split; [reflexivity|]. split; [apply packs_bool; [exact Hx|constructor]|exact P].
    + exists [], b. split; [reflexivity|]. split; [repeat constructor|exact P].
    + exists (c :: g ++ []), y. rewrite app_nil_r. split; [reflexivity|]. split; [|exact P]. rewrite <- (app_nil_r g). apply packs_pascal; [exact W|exact Hx|constructor].
    + exists (x ++ []), y. rewrite app_nil_r. split; [reflexivity|]. split; [|exact P]. rewrite <- (app_nil_r x). apply packs_pointer; [exact R|exact W|constructor].
  - intros (x & y & -> & H & P).
    inversion H as [|n ? ? ? Q|c ? ? ? Q|t v' u ? ? ? C W Q|v' c ? ? ? Hx Q|w ? ? ? Q|m w c g ? ? ? W Hx Q|big z u ? ? ? R W Q]; subst; try discriminate;
      inversion Q; subst; rewrite ?app_nil_r; cbn [app]; rewrite ?app_nil_r; constructor; assumption.
Qed.
Lemma pack_slots_value o s sl v vs : slot_takes_value s = true ->
  pack_slots o (s :: sl) (v :: vs) = (do? b <- pack_slot o s v; do? r <- pack_slots o sl vs; Ok (b ++ r)).
Proof. destruct s; try discriminate; reflexivity. Qed.
Lemma pack_packs o : forall sl vs b, Forall good_slot sl ->
  pack_slots o sl vs = Ok b <-> packs (map (part_of o) sl) vs b.
Proof.
  induction sl as [|s sl IH]; intros vs b G.
  - cbn [pack_slots map]. destruct vs; split; intros H; inversion H; subst; constructor.
  - inversion G as [|s0 sl0 G1 G2]; subst. destruct (slot_takes_value s) eqn:T.
    + destruct vs as [|v vs]; [destruct s; try discriminate; cbn [pack_slots map part_of]; split; intros H; inversion H|].
      rewrite pack_slots_value by exact T. cbn [map]. rewrite packs_split by (destruct s; try discriminate; reflexivity). split.
      * destruct (pack_slot o s v) as [x|] eqn:Ex; [|discriminate]. cbn [rbind].
        destruct (pack_slots o sl vs) as [r|] eqn:E; [|discriminate]. cbn [rbind]. intros K. injection K as <-.
        exists x, r. split; [reflexivity|]. split; [apply pack_slot_packs; assumption|apply IH; assumption].
      * intros (x & y & -> & Hx & Hy). apply pack_slot_packs in Hx as ->; [|assumption|assumption]. cbn [rbind].
        apply IH in Hy as ->; [|assumption]. reflexivity.
    + destruct s as [n| | | | | |]; try discriminate. cbn [pack_slots map part_of]. split.
      * destruct (pack_slots o sl vs) as [r|] eqn:E; [|discriminate]. cbn [rbind]. intros K. injection K as <-.
        apply packs_gap, IH; assumption.
      * intros H. inversion H as [|n' ps' w' b' H2| | | | | |]; subst. apply IH in H2; [|assumption]. rewrite H2. reflexivity.
Qed.
Lemma pack_slots_err o : forall sl vs e, pack_slots o sl vs = Err e -> e = StructError.
Proof.
  assert (forall s v e, pack_slot o s v = Err e -> e = StructError) as K.
  { intros s v e. destruct s as [n|n| |sg k| |n|], v as [z|w| | |]; cbn [pack_slot]; try congruence.
    - destruct w as [|x [|y w]]; congruence.
    - destruct (int_in_range sg k z); congruence.
    - destruct (_ || _); congruence. }
  induction sl as [|s sl IH]; intros vs e; [destruct vs; cbn; congruence|].
  assert (match vs with [] => Err StructError | v :: vs' => do? b <- pack_slot o s v; do? r <- pack_slots o sl vs'; Ok (b ++ r) end = Err e -> e = StructError) as K2.
  { destruct vs as [|v vs]; [congruence|]. destruct (pack_slot o s v) as [x|e'] eqn:Ex; cbn [rbind]; [|intros H; injection H as <-; apply (K _ _ _ Ex)].
    destruct (pack_slots o sl vs) as [r|e'] eqn:E; cbn [rbind]; [discriminate|intros H; injection H as <-; apply (IH _ _ E)]. }
  destruct s; try exact K2. cbn [pack_slots]. destruct (pack_slots o sl vs) as [r|e'] eqn:E; cbn [rbind]; [discriminate|intros H; injection H as <-; apply (IH _ _ E)].
Qed.
Lemma packs_arity ps vs b : packs ps vs b -> arity ps = length vs.
Proof. intros H. unfold arity. induction H; cbn [filter takes_value length]; congruence. Qed.
Lemma holds_arity ps vs b : holds ps vs b -> arity ps = length vs.
Proof. intros H. unfold arity. induction H; cbn [filter takes_value length]; congruence. Qed.

(** ** Errors of the parser *)
Definition left_out (o : sorder) : pystr := match o with Native => str "efd?" | _ => str "efd" end.
Lemma code_of_err o c e : ~ In c (left_out o) -> code_of o c = Err e -> e = StructError.
Proof.
  intros H. unfold code_of.
  destruct (existsb (N.eqb c) (str "efd")) eqn:E.
  { apply existsb_exists in E as (x & Hx & Ex). apply N.eqb_eq in Ex as <-. destruct H. destruct o; [exact Hx|exact Hx|].
    change (In c (str "efd" ++ str "?")). apply in_app_iff. left. exact Hx. }
  destruct (N.eqb_spec c (cp "?")) as [->|_]; [destruct o; [discriminate|discriminate|destruct H; cbn; tauto]|].
  repeat match goal with |- (if ?x then _ else _) = _ -> _ => destruct x end; congruence.
Qed.
Lemma parse_items_err o : forall s n e, (forall c, In c s -> ~ In c (left_out o)) -> parse_items o n s = Err e -> e = StructError.
Proof.
  induction s as [|c s IH]; intros n e H1 H; cbn [parse_items] in H.
  - destruct n; congruence.
  - assert (forall c, In c s -> ~ In c (left_out o)) as H1' by (intros x Hx; apply H1; right; exact Hx).
    assert (forall m, (do? k <- code_of o c; do? r <- parse_items o None s; Ok ((m, k) :: r)) = Err e -> e = StructError) as K.
    { intros m E. destruct (code_of o c) as [k|e'] eqn:Ek; cbn [rbind] in E.
      - destruct (parse_items o None s) as [r|e'] eqn:Er; cbn [rbind] in E; [discriminate|]. injection E as <-. apply (IH _ _ H1' Er).
      - injection E as <-. apply (code_of_err o c); [apply H1; left; reflexivity|exact Ek]. }
    destruct n as [n|].
    + destruct (is_digit c); [apply (IH _ _ H1' H)|apply (K _ H)].
    + destruct (is_space c); [apply (IH _ _ H1' H)|]. destruct (is_digit c); [apply (IH _ _ H1' H)|apply (K _ H)].
Qed.
Lemma parse_format_err fmt e : supported fmt -> parse_format fmt = Err e ->
  e = if ascii fmt then StructError else UnicodeEncodeError.
Proof.
  intros Hs H. unfold parse_format in H. unfold ascii. destruct (forallb _ fmt); cbn [negb] in H; [|congruence].
  destruct fmt as [|c s]; [discriminate|]. destruct Hs as (H1 & H2).
  assert (forall x, In x (c :: s) -> (forall x, In x (c :: s) -> ~ In x (str "?")) -> ~ In x (left_out Native)) as A.
  { intros x Hx H2' I. change (In x (str "efd" ++ str "?")) in I. apply in_app_iff in I as [I|I]; [apply (H1 _ Hx I)|apply (H2' _ Hx I)]. }
  destruct (order_of c) as [o|] eqn:Eo.
  - destruct (parse_items o None s) as [r|e'] eqn:E; cbn [rbind] in H; [discriminate|]. injection H as <-.
    apply (parse_items_err o s None e'); [|exact E]. intros x Hx. destruct o; [apply H1; right; exact Hx|apply H1; right; exact Hx|].
    destruct H2 as [H2|(p & s' & I & Ef)]; [apply A; [right; exact Hx|exact H2]|].
    repeat (destruct I as [<-|I]; [injection Ef as -> _; discriminate|]). destruct I.
  - destruct (parse_items Native None (c :: s)) as [r|e'] eqn:E; cbn [rbind] in H; [discriminate|]. injection H as <-.
    apply (parse_items_err Native (c :: s) None e'); [|exact E].
    destruct H2 as [H2|(p & s' & I & Ef)]; [intros x Hx; apply A; assumption|].
    repeat (destruct I as [<-|I]; [injection Ef as -> _; discriminate|]). destruct I.
Qed.
