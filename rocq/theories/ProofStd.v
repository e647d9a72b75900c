(** The algorithms of Std.v meet the requirements that the theorems make of primitives. *)
From Verif Require Import PyBase ProofBase IntBytes Classes Crypto SpecCrypto ProofCrypto StdTables Std.
Open Scope nat_scope.

(** ** Exclusive or of bytes, bit by bit *)
Lemma byte_bits_testbit b : byte_bits b = map (Z.testbit (Zb b)) [7; 6; 5; 4; 3; 2; 1; 0]%Z.
Proof. destruct b; reflexivity. Qed.
Lemma of_bits_bits b : of_bits (byte_bits b) = [b].
Proof.
  unfold byte_bits. rewrite <- (Byte.of_bits_to_bits b) at 2.
  destruct (Byte.to_bits b) as (b0 & b1 & b2 & b3 & b4 & b5 & b6 & b7). reflexivity.
Qed.
Lemma byte_bits_inj a b : byte_bits a = byte_bits b -> a = b.
Proof. intros H. pose proof (of_bits_bits a) as A. rewrite H, of_bits_bits in A. congruence. Qed.
Lemma byte_bits_xor a b : byte_bits (byte_xor a b) = xor_bits (byte_bits a) (byte_bits b).
Proof.
  rewrite !byte_bits_testbit. pose proof (proj2 (xored_byte_xor a b _) eq_refl) as E. unfold xored in E. rewrite E.
  cbn [map xor_bits]. rewrite !Z.lxor_spec. reflexivity.
Qed.
Lemma byte_bits_8 b : exists b7 b6 b5 b4 b3 b2 b1 b0, byte_bits b = [b7; b6; b5; b4; b3; b2; b1; b0].
Proof. unfold byte_bits. destruct (Byte.to_bits b) as (b0 & b1 & b2 & b3 & b4 & b5 & b6 & b7). repeat eexists. Qed.
Lemma byte_xor_comm a b : byte_xor a b = byte_xor b a.
Proof. unfold byte_xor. rewrite Z.lxor_comm. reflexivity. Qed.
Lemma byte_xor_assoc a b c : byte_xor (byte_xor a b) c = byte_xor a (byte_xor b c).
Proof.
  apply Zb_inj.
  repeat match goal with |- context [Zb (byte_xor ?u ?v)] => rewrite (proj2 (xored_byte_xor u v _) eq_refl) end.
  apply Z.lxor_assoc.
Qed.
Lemma byte_xor_zero a : byte_xor a x00 = a.
Proof. destruct a; reflexivity. Qed.
Lemma byte_xor_self a : byte_xor a a = x00.
Proof. unfold byte_xor. rewrite Z.lxor_nilpotent. reflexivity. Qed.
Definition xtime_bits (l : list bool) : list bool :=
  match l with
  | [b7; b6; b5; b4; b3; b2; b1; b0] => [b6; b5; b4; xorb b3 b7; xorb b2 b7; b1; xorb b0 b7; b7]
  | _ => []
  end.
Lemma byte_bits_xtime b : byte_bits (xtime b) = xtime_bits (byte_bits b).
Proof.
  unfold byte_bits at 2, xtime. destruct (Byte.to_bits b) as (b0 & b1 & b2 & b3 & b4 & b5 & b6 & b7).
  unfold byte_bits. rewrite Byte.to_bits_of_bits. reflexivity.
Qed.
Lemma xtime_xor a b : xtime (byte_xor a b) = byte_xor (xtime a) (xtime b).
Proof.
  apply byte_bits_inj. rewrite byte_bits_xtime, !byte_bits_xor, !byte_bits_xtime.
  destruct (byte_bits_8 a) as (a7 & a6 & a5 & a4 & a3 & a2 & a1 & a0 & ->).
  destruct (byte_bits_8 b) as (b7 & b6 & b5 & b4 & b3 & b2 & b1 & b0 & ->).
  cbn [xor_bits xtime_bits]. repeat apply (f_equal2 cons); try reflexivity;
    repeat match goal with |- context [xorb ?x _] => is_var x; destruct x end;
    repeat match goal with |- context [xorb _ ?x] => is_var x; destruct x end; reflexivity.
Qed.
Lemma xor_swap a b c d : byte_xor (byte_xor a b) (byte_xor c d) = byte_xor (byte_xor a c) (byte_xor b d).
Proof. rewrite !byte_xor_assoc. f_equal. rewrite <- !byte_xor_assoc. f_equal. apply byte_xor_comm. Qed.

(** ** AES *)
Lemma sbox_inv b : inv_sbox (sbox b) = b.
Proof. destruct b; reflexivity. Qed.
Lemma inv_sbox_inv b : sbox (inv_sbox b) = b.
Proof. destruct b; reflexivity. Qed.
Lemma sub_bytes_inv s : inv_sub_bytes (sub_bytes s) = s.
Proof. induction s as [|x s IH]; cbn; [reflexivity|]. unfold inv_sub_bytes, sub_bytes in IH. rewrite IH, sbox_inv. reflexivity. Qed.
Lemma inv_sub_bytes_inv s : sub_bytes (inv_sub_bytes s) = s.
Proof. induction s as [|x s IH]; cbn; [reflexivity|]. unfold inv_sub_bytes, sub_bytes in IH. rewrite IH, inv_sbox_inv. reflexivity. Qed.
Ltac sixteen s :=
  do 16 (destruct s as [|? s]; [discriminate|]); destruct s; [|discriminate].
Lemma shift_rows_inv s : length s = 16 -> inv_shift_rows (shift_rows s) = s.
Proof. intros L. sixteen s. reflexivity. Qed.
Lemma inv_shift_rows_inv s : length s = 16 -> shift_rows (inv_shift_rows s) = s.
Proof. intros L. sixteen s. reflexivity. Qed.
(** Multiplication by a constant is additive. *)
Lemma xor_swap3 a b c d e f :
  byte_xor (byte_xor (byte_xor a b) (byte_xor c d)) (byte_xor e f) =
  byte_xor (byte_xor (byte_xor a c) e) (byte_xor (byte_xor b d) f).
Proof. rewrite (xor_swap a b). apply xor_swap. Qed.
Ltac additive := intros a b; unfold mul9, mulb, muld, mule, mul3, mul2, mul4, mul8; rewrite !xtime_xor;
  first [reflexivity | apply xor_swap3 | apply xor_swap].
Lemma mul2_xor : forall a b, mul2 (byte_xor a b) = byte_xor (mul2 a) (mul2 b). Proof. additive. Qed.
Lemma mul3_xor : forall a b, mul3 (byte_xor a b) = byte_xor (mul3 a) (mul3 b). Proof. additive. Qed.
Lemma mul9_xor : forall a b, mul9 (byte_xor a b) = byte_xor (mul9 a) (mul9 b). Proof. additive. Qed.
Lemma mulb_xor : forall a b, mulb (byte_xor a b) = byte_xor (mulb a) (mulb b). Proof. additive. Qed.
Lemma muld_xor : forall a b, muld (byte_xor a b) = byte_xor (muld a) (muld b). Proof. additive. Qed.
Lemma mule_xor : forall a b, mule (byte_xor a b) = byte_xor (mule a) (mule b). Proof. additive. Qed.
Lemma xor4_xor4 a b c d a' b' c' d' :
  byte_xor (xor4 a b c d) (xor4 a' b' c' d') = xor4 (byte_xor a a') (byte_xor b b') (byte_xor c c') (byte_xor d d').
Proof. unfold xor4. rewrite xor_swap. rewrite (xor_swap a b), (xor_swap c d). reflexivity. Qed.
(** A 4x4 matrix of additive functions with the identity as product. *)
Lemma xor4_rows a0 b0 c0 d0 a1 b1 c1 d1 a2 b2 c2 d2 a3 b3 c3 d3 :
  xor4 (xor4 a0 b0 c0 d0) (xor4 a1 b1 c1 d1) (xor4 a2 b2 c2 d2) (xor4 a3 b3 c3 d3) =
  xor4 (xor4 a0 a1 a2 a3) (xor4 b0 b1 b2 b3) (xor4 c0 c1 c2 c3) (xor4 d0 d1 d2 d3).
Proof. unfold xor4 at 1. rewrite !xor4_xor4. unfold xor4 at 2 3 4 5. reflexivity. Qed.
Lemma add_xor4 f : (forall a b, f (byte_xor a b) = byte_xor (f a) (f b)) ->
  forall a b c d, f (xor4 a b c d) = xor4 (f a) (f b) (f c) (f d).
Proof. intros H a b c d. unfold xor4. rewrite !H. reflexivity. Qed.
Lemma xor4_a a : xor4 a x00 x00 x00 = a. Proof. destruct a; reflexivity. Qed.
Lemma xor4_b a : xor4 x00 a x00 x00 = a. Proof. destruct a; reflexivity. Qed.
Lemma xor4_c a : xor4 x00 x00 a x00 = a. Proof. destruct a; reflexivity. Qed.
Lemma xor4_d a : xor4 x00 x00 x00 a = a. Proof. destruct a; reflexivity. Qed.
Ltac entry := let a := fresh in intros a; destruct a; vm_compute; reflexivity.
(** The columns of inverse times matrix ... *)
Lemma m_same : forall a, xor4 (mule (mul2 a)) (mulb a) (muld a) (mul9 (mul3 a)) = a. Proof. entry. Qed.
Lemma m_1 : forall a, xor4 (mule (mul3 a)) (mulb (mul2 a)) (muld a) (mul9 a) = x00. Proof. entry. Qed.
Lemma m_2 : forall a, xor4 (mule a) (mulb (mul3 a)) (muld (mul2 a)) (mul9 a) = x00. Proof. entry. Qed.
Lemma m_3 : forall a, xor4 (mule a) (mulb a) (muld (mul3 a)) (mul9 (mul2 a)) = x00. Proof. entry. Qed.
(** ... and of matrix times inverse. *)
Lemma n_same : forall a, xor4 (mul2 (mule a)) (mul3 (mul9 a)) (muld a) (mulb a) = a. Proof. entry. Qed.
Lemma n_1 : forall a, xor4 (mul2 (mulb a)) (mul3 (mule a)) (mul9 a) (muld a) = x00. Proof. entry. Qed.
Lemma n_2 : forall a, xor4 (mul2 (muld a)) (mul3 (mulb a)) (mule a) (mul9 a) = x00. Proof. entry. Qed.
Lemma n_3 : forall a, xor4 (mul2 (mul9 a)) (mul3 (muld a)) (mulb a) (mule a) = x00. Proof. entry. Qed.
Lemma xor4_rot a b c d : xor4 a b c d = xor4 b c d a.
Proof.
  unfold xor4. rewrite !byte_xor_assoc. rewrite (byte_xor_comm a). rewrite !byte_xor_assoc. reflexivity.
Qed.
Lemma xor4_eq a b c d a' b' c' d' : a = a' -> b = b' -> c = c' -> d = d' -> xor4 a b c d = xor4 a' b' c' d'.
Proof. intros -> -> -> ->. reflexivity. Qed.
Ltac turn := lazymatch goal with
  | |- xor4 (mule (mul2 ?a)) (mulb ?a) (muld ?a) (mul9 (mul3 ?a)) = _ => exact (m_same a)
  | |- xor4 (mule (mul3 ?a)) (mulb (mul2 ?a)) (muld ?a) (mul9 ?a) = _ => exact (m_1 a)
  | |- xor4 (mule ?a) (mulb (mul3 ?a)) (muld (mul2 ?a)) (mul9 ?a) = _ => exact (m_2 a)
  | |- xor4 (mule ?a) (mulb ?a) (muld (mul3 ?a)) (mul9 (mul2 ?a)) = _ => exact (m_3 a)
  | |- xor4 (mul2 (mule ?a)) (mul3 (mul9 ?a)) (muld ?a) (mulb ?a) = _ => exact (n_same a)
  | |- xor4 (mul2 (mulb ?a)) (mul3 (mule ?a)) (mul9 ?a) (muld ?a) = _ => exact (n_1 a)
  | |- xor4 (mul2 (muld ?a)) (mul3 (mulb ?a)) (mule ?a) (mul9 ?a) = _ => exact (n_2 a)
  | |- xor4 (mul2 (mul9 ?a)) (mul3 (muld ?a)) (mulb ?a) (mule ?a) = _ => exact (n_3 a)
  end.
Ltac product := apply xor4_eq; first [turn | rewrite xor4_rot; first [turn | rewrite xor4_rot; first [turn | rewrite xor4_rot; turn]]].
Definition additive f := forall a b, f (byte_xor a b) = byte_xor (f a) (f b).
Lemma row f0 f1 f2 f3 a0 b0 c0 d0 a1 b1 c1 d1 a2 b2 c2 d2 a3 b3 c3 d3 :
  additive f0 -> additive f1 -> additive f2 -> additive f3 ->
  xor4 (f0 (xor4 a0 b0 c0 d0)) (f1 (xor4 a1 b1 c1 d1)) (f2 (xor4 a2 b2 c2 d2)) (f3 (xor4 a3 b3 c3 d3)) =
  xor4 (xor4 (f0 a0) (f1 a1) (f2 a2) (f3 a3)) (xor4 (f0 b0) (f1 b1) (f2 b2) (f3 b3))
       (xor4 (f0 c0) (f1 c1) (f2 c2) (f3 c3)) (xor4 (f0 d0) (f1 d1) (f2 d2) (f3 d3)).
Proof.
  intros H0 H1 H2 H3. rewrite (add_xor4 f0 H0), (add_xor4 f1 H1), (add_xor4 f2 H2), (add_xor4 f3 H3). apply xor4_rows.
Qed.
Definition same (b : byte) := b.
Lemma same_xor : additive same. Proof. intros a b. reflexivity. Qed.
Local Opaque xor4 mul2 mul3 mul9 mulb muld mule.
Ltac columns r0 r1 r2 r3 :=
  apply (f_equal2 cons); [etransitivity; [r0|unfold same; etransitivity; [|apply xor4_a]; product]|];
  apply (f_equal2 cons); [etransitivity; [r1|unfold same; etransitivity; [|apply xor4_b]; product]|];
  apply (f_equal2 cons); [etransitivity; [r2|unfold same; etransitivity; [|apply xor4_c]; product]|];
  apply (f_equal2 cons); [etransitivity; [r3|unfold same; etransitivity; [|apply xor4_d]; product]|reflexivity].
Lemma mix_columns_inv n : forall s, length s = 4 * n -> inv_mix_columns (mix_columns s) = s.
Proof.
  induction n as [|n IH]; intros s L.
  - destruct s; [reflexivity|discriminate].
  - do 4 (destruct s as [|? s]; [cbn [length] in L; lia|]). cbn [mix_columns inv_mix_columns].
    rewrite IH by (cbn [length] in L; lia).
    columns ltac:(exact (row mule mulb muld mul9 _ _ _ _ _ _ _ _ _ _ _ _ _ _ _ _ mule_xor mulb_xor muld_xor mul9_xor))
            ltac:(exact (row mul9 mule mulb muld _ _ _ _ _ _ _ _ _ _ _ _ _ _ _ _ mul9_xor mule_xor mulb_xor muld_xor))
            ltac:(exact (row muld mul9 mule mulb _ _ _ _ _ _ _ _ _ _ _ _ _ _ _ _ muld_xor mul9_xor mule_xor mulb_xor))
            ltac:(exact (row mulb muld mul9 mule _ _ _ _ _ _ _ _ _ _ _ _ _ _ _ _ mulb_xor muld_xor mul9_xor mule_xor)).
Qed.
Lemma inv_mix_columns_inv n : forall s, length s = 4 * n -> mix_columns (inv_mix_columns s) = s.
Proof.
  induction n as [|n IH]; intros s L.
  - destruct s; [reflexivity|discriminate].
  - do 4 (destruct s as [|? s]; [cbn [length] in L; lia|]). cbn [mix_columns inv_mix_columns].
    rewrite IH by (cbn [length] in L; lia).
    columns ltac:(exact (row mul2 mul3 same same _ _ _ _ _ _ _ _ _ _ _ _ _ _ _ _ mul2_xor mul3_xor same_xor same_xor))
            ltac:(exact (row same mul2 mul3 same _ _ _ _ _ _ _ _ _ _ _ _ _ _ _ _ same_xor mul2_xor mul3_xor same_xor))
            ltac:(exact (row same same mul2 mul3 _ _ _ _ _ _ _ _ _ _ _ _ _ _ _ _ same_xor same_xor mul2_xor mul3_xor))
            ltac:(exact (row mul3 same same mul2 _ _ _ _ _ _ _ _ _ _ _ _ _ _ _ _ mul3_xor same_xor same_xor mul2_xor)).
Qed.
Lemma mix_columns_length n : forall s, length s = 4 * n -> length (mix_columns s) = 4 * n.
Proof.
  induction n as [|n IH]; intros s L.
  - destruct s; [reflexivity|discriminate].
  - do 4 (destruct s as [|? s]; [cbn [length] in L; lia|]). cbn [mix_columns length] in *. rewrite IH; lia.
Qed.
Lemma inv_mix_columns_length n : forall s, length s = 4 * n -> length (inv_mix_columns s) = 4 * n.
Proof.
  induction n as [|n IH]; intros s L.
  - destruct s; [reflexivity|discriminate].
  - do 4 (destruct s as [|? s]; [cbn [length] in L; lia|]). cbn [inv_mix_columns length] in *. rewrite IH; lia.
Qed.
Lemma sub_bytes_length s : length (sub_bytes s) = length s. Proof. apply map_length. Qed.
Lemma inv_sub_bytes_length s : length (inv_sub_bytes s) = length s. Proof. apply map_length. Qed.
Lemma shift_rows_length s : length (shift_rows s) = 16. Proof. reflexivity. Qed.
Lemma inv_shift_rows_length s : length (inv_shift_rows s) = 16. Proof. reflexivity. Qed.

Lemma mix16 s : length s = 16 -> length (mix_columns s) = 16. Proof. exact (mix_columns_length 4 s). Qed.
Lemma inv_mix16 s : length s = 16 -> length (inv_mix_columns s) = 16. Proof. exact (inv_mix_columns_length 4 s). Qed.
(** The rounds, for round keys of 16 bytes. *)
Definition keys16 (ks : list bytes) : Prop := Forall (fun k => length k = 16) ks.
Ltac lens := repeat first
  [ assumption | rewrite xor_bytes_length | rewrite sub_bytes_length | rewrite inv_sub_bytes_length
  | rewrite shift_rows_length | rewrite inv_shift_rows_length
  | rewrite mix16 | rewrite inv_mix16 | congruence | reflexivity ].
Lemma rounds_length ks : keys16 ks -> forall s, length s = 16 -> length (rounds ks s) = 16.
Proof.
  induction 1 as [|k ks Hk Hks IH]; intros s L; [exact L|]. destruct ks as [|k' r]; cbn [rounds] in *.
  - lens.
  - apply IH. lens.
Qed.
Lemma inv_rounds_length ks : keys16 ks -> forall s, length s = 16 -> length (inv_rounds ks s) = 16.
Proof.
  induction 1 as [|k ks Hk Hks IH]; intros s L; [exact L|]. destruct ks as [|k' r]; cbn [inv_rounds] in *; lens.
Qed.
Lemma rounds_inv ks : keys16 ks -> forall s, length s = 16 -> inv_rounds ks (rounds ks s) = s.
Proof.
  induction 1 as [|k ks Hk Hks IH]; intros s L; [reflexivity|]. destruct ks as [|k' r].
  - cbn [rounds inv_rounds]. rewrite xor_bytes_twice by lens.
    rewrite shift_rows_inv by lens. apply sub_bytes_inv.
  - change (rounds (k :: k' :: r) s) with (rounds (k' :: r) (xor_bytes (mix_columns (shift_rows (sub_bytes s))) k)).
    change (inv_rounds (k :: k' :: r)) with
      (fun s => inv_sub_bytes (inv_shift_rows (inv_mix_columns (xor_bytes (inv_rounds (k' :: r) s) k)))). cbv beta.
    rewrite IH by lens. rewrite xor_bytes_twice by lens. rewrite (mix_columns_inv 4) by lens.
    rewrite shift_rows_inv by lens. apply sub_bytes_inv.
Qed.
Lemma inv_rounds_inv ks : keys16 ks -> forall s, length s = 16 -> rounds ks (inv_rounds ks s) = s.
Proof.
  induction 1 as [|k ks Hk Hks IH]; intros s L; [reflexivity|]. destruct ks as [|k' r].
  - cbn [rounds inv_rounds]. rewrite inv_sub_bytes_inv, inv_shift_rows_inv by lens. apply xor_bytes_twice. lens.
  - change (rounds (k :: k' :: r)) with (fun s => rounds (k' :: r) (xor_bytes (mix_columns (shift_rows (sub_bytes s))) k)).
    change (inv_rounds (k :: k' :: r) s) with
      (inv_sub_bytes (inv_shift_rows (inv_mix_columns (xor_bytes (inv_rounds (k' :: r) s) k)))). cbv beta.
    pose proof (inv_rounds_length _ Hks s L) as Li.
    rewrite inv_sub_bytes_inv, inv_shift_rows_inv by lens.
    rewrite (inv_mix_columns_inv 4) by lens. rewrite xor_bytes_twice by lens. apply IH, L.
Qed.

(** The round keys have 16 bytes. *)
Lemma cut_all n m : (0 < n) -> forall b, length b = m * n -> Forall (fun x => length x = n) (cut n b) /\ length (cut n b) = m.
Proof.
  intros Hn. induction m as [|m IH]; intros b L.
  - destruct b; [split; [constructor|reflexivity]|discriminate].
  - assert (b = firstn n b ++ skipn n b) as E by (symmetry; apply firstn_skipn).
    assert (length (firstn n b) = n) as L1 by (rewrite firstn_length; cbn in L; lia).
    destruct (IH (skipn n b)) as [A B]; [rewrite skipn_length; cbn in L; lia|].
    unfold cut in *. rewrite E, chunks_block by assumption. split; [constructor; assumption|]. cbn [length]. rewrite B. reflexivity.
Qed.
Definition words4 (w : list bytes) : Prop := Forall (fun x => length x = 4) w.
Lemma words4_nth w i : words4 w -> i < length w -> length (nth i w []) = 4.
Proof. intros H L. apply (proj1 (Forall_forall _ _) H). apply nth_In, L. Qed.
Lemma rot_word_length w : length (rot_word w) = length w.
Proof. destruct w; cbn [rot_word]; [reflexivity|]. rewrite app_length. cbn. lia. Qed.
Lemma next_word_length nk i rcon w : words4 w -> 0 < nk <= length w -> length (next_word nk i rcon w) = 4.
Proof.
  intros Hw Hn. unfold next_word.
  assert (length (nth 0 w []) = 4) as L0 by (apply words4_nth; [assumption|lia]).
  assert (length (nth (nk - 1) w []) = 4) as L1 by (apply words4_nth; [assumption|lia]).
  rewrite xor_bytes_length; [assumption|]. rewrite L1. symmetry.
  destruct (i mod nk =? 0); [|destruct ((6 <? nk) && (i mod nk =? 4))].
  - rewrite xor_bytes_length; rewrite sub_bytes_length, rot_word_length, L0; reflexivity.
  - rewrite sub_bytes_length. exact L0.
  - exact L0.
Qed.
Lemma expand_words_ok n nk : forall i rcon w, words4 w -> 0 < nk <= length w ->
  words4 (expand_words n nk i rcon w) /\ length (expand_words n nk i rcon w) = n + length w.
Proof.
  induction n as [|n IH]; intros i rcon w Hw Hn; cbn [expand_words]; [split; [assumption|reflexivity]|].
  destruct (IH (S i) (if i mod nk =? 0 then xtime rcon else rcon) (next_word nk i rcon w :: w)) as [A B].
  - constructor; [apply next_word_length|]; assumption.
  - cbn [length]. lia.
  - split; [exact A|]. rewrite B. cbn [length]. lia.
Qed.
Lemma concat_length n (l : list bytes) : Forall (fun x => length x = n) l -> length (concat l) = length l * n.
Proof. induction 1 as [|x l Hx Hl IH]; cbn [concat length]; [reflexivity|]. rewrite app_length, IH, Hx. reflexivity. Qed.
Lemma round_keys_16 key : In (length key) [16; 24; 32] -> keys16 (round_keys key).
Proof.
  intros H. unfold round_keys, keys16.
  assert (exists nk, 0 < nk /\ length key / 4 = nk /\ length key = nk * 4) as (nk & Hp & Hd & Hl).
  { cbn [In] in H. destruct H as [H|[H|[H|[]]]]; rewrite <- H; [exists 4|exists 6|exists 8]; repeat split; lia. }
  rewrite Hd. destruct (cut_all 4 nk ltac:(lia) key Hl) as [A B].
  destruct (expand_words_ok (4 * (nk + 7) - nk) nk nk x01 (rev (cut 4 key))) as [C D].
  - apply Forall_rev, A.
  - rewrite rev_length, B. lia.
  - rewrite rev_length, B in D.
    assert (length (concat (rev (expand_words (4 * (nk + 7) - nk) nk nk x01 (rev (cut 4 key))))) = (nk + 7) * 16) as L.
    { rewrite (concat_length 4) by (apply Forall_rev, C). rewrite rev_length, D. lia. }
    exact (proj1 (cut_all 16 (nk + 7) ltac:(lia) _ L)).
Qed.
Lemma aes_sound k b : In (length k) [16; 24; 32] -> length b = 16 ->
  aes_dec k (aes_enc k b) = b /\ aes_enc k (aes_dec k b) = b /\ length (aes_enc k b) = 16 /\ length (aes_dec k b) = 16.
Proof.
  intros Hk Hb. pose proof (round_keys_16 k Hk) as HK. unfold aes_enc, aes_dec.
  destruct (round_keys k) as [|k0 ks]; [auto|]. inversion HK as [|? ? H0 Hs]; subst.
  pose proof (inv_rounds_length ks Hs b Hb) as Li.
  rewrite (rounds_inv ks Hs) by lens. rewrite xor_bytes_twice by lens.
  repeat split.
  - rewrite xor_bytes_twice by lens. apply inv_rounds_inv; assumption.
  - apply rounds_length; lens.
  - lens.
Qed.

(** ** Triple DES *)
Lemma permute_length t l : length (permute t l) = length t. Proof. apply map_length. Qed.
Lemma permute_permute t u l : (forall i, In i t -> 0 < i <= length u) ->
  permute t (permute u l) = permute (map (fun i => nth (i - 1) u 0) t) l.
Proof.
  intros H. unfold permute. rewrite map_map. apply map_ext_in. intros i Hi. specialize (H i Hi).
  rewrite (nth_indep _ false (nth (0 - 1) l false)) by (rewrite map_length; lia).
  exact (map_nth (fun i => nth (i - 1) l false) u 0 (i - 1)).
Qed.
Lemma permute_id n l : length l = n -> permute (seq 1 n) l = l.
Proof.
  intros <-. unfold permute. rewrite <- seq_shift, map_map.
  rewrite (map_ext _ (fun i => nth i l false)) by (intros i; f_equal; lia).
  induction l as [|x l IH]; [reflexivity|]. cbn [length seq map nth]. f_equal.
  rewrite <- seq_shift, map_map. exact IH.
Qed.
Lemma in_range t n : forallb (fun i => (0 <? i) && (i <=? n)) t = true -> forall i, In i t -> 0 < i <= n.
Proof. intros H i Hi. apply (proj1 (forallb_forall _ _) H) in Hi. lia. Qed.
Lemma fp_ip l : length l = 64 -> permute des_fp (permute des_ip l) = l.
Proof.
  intros L. rewrite permute_permute by (apply in_range; reflexivity).
  change (map _ des_fp) with (seq 1 64). apply permute_id, L.
Qed.
Lemma ip_fp l : length l = 64 -> permute des_ip (permute des_fp l) = l.
Proof.
  intros L. rewrite permute_permute by (apply in_range; reflexivity).
  change (map _ des_ip) with (seq 1 64). apply permute_id, L.
Qed.
Lemma xor_bits_length a : forall b, length a = length b -> length (xor_bits a b) = length a.
Proof. induction a as [|x a IH]; intros [|y b] L; try discriminate; [reflexivity|]. cbn in *. rewrite IH; congruence. Qed.
Lemma xor_bits_twice a : forall b, length a = length b -> xor_bits (xor_bits a b) b = a.
Proof.
  induction a as [|x a IH]; intros [|y b] L; try discriminate; [reflexivity|]. cbn in *. rewrite IH by congruence.
  rewrite xorb_assoc, xorb_nilpotent, xorb_false_r. reflexivity.
Qed.
Lemma des_f_length r k : length (des_f r k) = 32. Proof. apply permute_length. Qed.
Lemma feistel_app ks k l r : feistel (ks ++ [k]) l r = let '(l', r') := feistel ks l r in (r', xor_bits l' (des_f r' k)).
Proof. revert l r. induction ks as [|k' ks IH]; intros l r; cbn [app feistel]; [reflexivity|]. apply IH. Qed.
Lemma feistel_length ks : forall l r, length l = 32 -> length r = 32 ->
  length (fst (feistel ks l r)) = 32 /\ length (snd (feistel ks l r)) = 32.
Proof.
  induction ks as [|k ks IH]; intros l r Ll Lr; cbn [feistel]; [split; assumption|].
  apply IH; [assumption|]. rewrite xor_bits_length; [assumption|]. rewrite des_f_length. assumption.
Qed.
Lemma feistel_rev ks : forall l r, length l = 32 -> length r = 32 ->
  let '(l', r') := feistel ks l r in feistel (rev ks) r' l' = (r, l).
Proof.
  induction ks as [|k ks IH]; intros l r Ll Lr; cbn [feistel rev]; [reflexivity|].
  specialize (IH r (xor_bits l (des_f r k)) Lr).
  destruct (feistel ks r (xor_bits l (des_f r k))) as [l' r'].
  rewrite feistel_app, IH by (rewrite xor_bits_length; rewrite ?des_f_length; assumption).
  rewrite xor_bits_twice by (rewrite des_f_length; assumption). reflexivity.
Qed.
Lemma byte_bits_length b : length (byte_bits b) = 8.
Proof. destruct (byte_bits_8 b) as (? & ? & ? & ? & ? & ? & ? & ? & ->). reflexivity. Qed.
Lemma bits_of_length b : length (bits_of b) = 8 * length b.
Proof. induction b as [|x b IH]; [reflexivity|]. unfold bits_of in *. cbn [flat_map length]. rewrite app_length, byte_bits_length, IH. lia. Qed.
Lemma of_bits_bits_of b : of_bits (bits_of b) = b.
Proof.
  induction b as [|x b IH]; [reflexivity|]. unfold bits_of in *. cbn [flat_map]. pose proof (of_bits_bits x) as A.
  destruct (byte_bits_8 x) as (? & ? & ? & ? & ? & ? & ? & ? & E). rewrite E in *. cbn [app of_bits] in *. congruence.
Qed.
Lemma bits_of_of_bits n : forall l, length l = 8 * n -> bits_of (of_bits l) = l /\ length (of_bits l) = n.
Proof.
  induction n as [|n IH]; intros l L; [destruct l; [split; reflexivity|discriminate]|].
  do 8 (destruct l as [|? l]; [cbn [length] in L; lia|]).
  destruct (IH l) as [A B]; [cbn [length] in L; lia|]. cbn [of_bits length]. rewrite B. split; [|reflexivity].
  unfold bits_of in *. cbn [flat_map]. rewrite A. unfold byte_bits. rewrite Byte.to_bits_of_bits. reflexivity.
Qed.
Lemma des_block_length ks b : length b = 8 -> length (des_block ks b) = 8.
Proof.
  intros L. unfold des_block. destruct (feistel _ _ _) as [l r].
  apply (bits_of_of_bits 8). apply permute_length.
Qed.
Lemma des_block_rev ks b : length b = 8 -> des_block (rev ks) (des_block ks b) = b.
Proof.
  intros L. set (x := permute des_ip (bits_of b)).
  assert (length x = 64) as Lx by apply permute_length.
  assert (length (firstn 32 x) = 32 /\ length (skipn 32 x) = 32) as [L1 L2]
    by (rewrite firstn_length, skipn_length, Lx; split; reflexivity).
  pose proof (feistel_rev ks _ _ L1 L2) as F. pose proof (feistel_length ks _ _ L1 L2) as G.
  unfold des_block at 2. fold x. destruct (feistel ks (firstn 32 x) (skipn 32 x)) as [l r] eqn:E.
  cbn [fst snd] in G. destruct G as [Gl Gr]. unfold des_block.
  rewrite (proj1 (bits_of_of_bits 8 _ (permute_length des_fp (r ++ l)))).
  rewrite ip_fp by (rewrite app_length; lia).
  rewrite <- Gr at 1. rewrite firstn_app, Nat.sub_diag, firstn_all, firstn_O, app_nil_r.
  rewrite <- Gr. rewrite skipn_app, Nat.sub_diag, skipn_all, skipn_O. cbn [app].
  rewrite F. rewrite firstn_skipn. unfold x. rewrite fp_ip by (rewrite bits_of_length, L; reflexivity).
  apply of_bits_bits_of.
Qed.
Lemma tdes_sound k b : length b = 8 ->
  tdes_dec k (tdes_enc k b) = b /\ tdes_enc k (tdes_dec k b) = b /\ length (tdes_enc k b) = 8 /\ length (tdes_dec k b) = 8.
Proof.
  intros L. unfold tdes_enc, tdes_dec, des_enc, des_dec.
  assert (forall ks x, length x = 8 -> des_block ks (des_block (rev ks) x) = x) as R.
  { intros ks x Hx. rewrite <- (rev_involutive ks) at 1. apply des_block_rev, Hx. }
  repeat split; repeat first [rewrite des_block_rev | rewrite R | rewrite des_block_length | assumption | reflexivity].
Qed.

(** ** Lengths of tags and of derived keys *)
Lemma le_bytes_length n v : length (le_bytes n v) = n.
Proof. revert v. induction n as [|n IH]; intros v; cbn [le_bytes length]; [reflexivity|]. rewrite IH. reflexivity. Qed.
Lemma big_bytes_length n v : length (big_bytes n v) = n.
Proof. unfold big_bytes. rewrite rev_length. apply le_bytes_length. Qed.
Lemma std_sound : sound_prims std_prims.
Proof.
  split; cbn [std_prims p_aes_enc p_aes_dec p_tdes_enc p_tdes_dec p_poly1305 p_gcm_tag p_bcrypt].
  - exact aes_sound.
  - intros k b _. apply tdes_sound.
  - intros k m. apply le_bytes_length.
  - intros k iv c. apply big_bytes_length.
  - intros pw s n r _. unfold bcrypt_pbkdf. rewrite map_length, seq_length. reflexivity.
Qed.
