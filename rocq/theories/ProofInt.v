(** Big-endian integer codecs. *)
From Verif Require Import PyBase IntBytes ProofBase.
Open Scope Z_scope.
Ltac Zify.zify_post_hook ::= Z.div_mod_to_equations.

Lemma be_bytes_length k z : length (be_bytes k z) = k.
Proof.
  revert z; induction k as [|k IH]; intros z; simpl; [reflexivity|].
  rewrite app_length, IH; simpl; lia.
Qed.

Lemma be_value_app a b : be_value (a ++ b) = be_value a * 256 ^ Z.of_nat (length b) + be_value b.
Proof.
  unfold be_value. rewrite fold_left_app.
  set (x := fold_left (fun a x => a * 256 + Zb x) a 0). clearbody x. clear a.
  revert x. induction b as [|y b IH]; intros x; cbn [fold_left length].
  - change (Z.of_nat 0) with 0. lia.
  - rewrite IH. rewrite (IH (0 * 256 + Zb y)).
    rewrite Nat2Z.inj_succ, Z.pow_succ_r by lia. ring.
Qed.
Lemma be_value_nil : be_value [] = 0. Proof. reflexivity. Qed.
Lemma be_value_one x : be_value [x] = Zb x. Proof. unfold be_value; simpl; lia. Qed.
Lemma be_value_cons x b : be_value (x :: b) = Zb x * 256 ^ Z.of_nat (length b) + be_value b.
Proof. change (x :: b) with ([x] ++ b). rewrite be_value_app, be_value_one. reflexivity. Qed.

Lemma pow256_pos n : 0 < 256 ^ Z.of_nat n.
Proof. apply Z.pow_pos_nonneg; lia. Qed.

Lemma be_value_range b : 0 <= be_value b < 256 ^ Z.of_nat (length b).
Proof.
  induction b as [|x b IH].
  - rewrite be_value_nil. change (256 ^ Z.of_nat (length (@nil byte))) with 1. lia.
  - rewrite be_value_cons. pose proof (Zb_range x).
    cbn [length]. rewrite Nat2Z.inj_succ, Z.pow_succ_r by lia. nia.
Qed.

Lemma be_value_be_bytes k z : be_value (be_bytes k z) = z mod 256 ^ Z.of_nat k.
Proof.
  revert z; induction k as [|k IH]; intros z; cbn [be_bytes].
  - rewrite be_value_nil. change (256 ^ Z.of_nat 0) with 1. rewrite Z.mod_1_r. reflexivity.
  - rewrite be_value_app, IH, be_value_one, Zb_bZ. cbn [length].
    change (256 ^ Z.of_nat 1) with 256.
    rewrite Nat2Z.inj_succ, Z.pow_succ_r by lia.
    rewrite (Z.rem_mul_r z 256) by (pose proof (pow256_pos k); lia). lia.
Qed.

Lemma be_bytes_be_value b : be_bytes (length b) (be_value b) = b.
Proof.
  induction b as [|x b IH] using rev_ind; [reflexivity|].
  rewrite app_length. cbn [length]. replace (length b + 1)%nat with (S (length b)) by lia.
  cbn [be_bytes]. rewrite be_value_app, be_value_one. cbn [length].
  change (256 ^ Z.of_nat 1) with 256.
  rewrite Z.div_add_l by lia. rewrite (Z.div_small (Zb x)) by apply Zb_range.
  rewrite Z.add_0_r, IH. f_equal. f_equal.
  apply Zb_inj. rewrite Zb_bZ.
  rewrite Z.add_comm, Z.mod_add by lia. apply Z.mod_small, Zb_range.
Qed.

Lemma be_bytes_mod k z : be_bytes k (z mod 256 ^ Z.of_nat k) = be_bytes k z.
Proof.
  rewrite <- be_value_be_bytes.
  rewrite <- (be_bytes_length k z) at 1. apply be_bytes_be_value.
Qed.

Lemma be_value_inj a b : length a = length b -> be_value a = be_value b -> a = b.
Proof.
  intros L E. rewrite <- (be_bytes_be_value a), <- (be_bytes_be_value b), L, E. reflexivity.
Qed.

(** Leading byte of an encoding. *)
Lemma be_value_top x b :
  (128 <= Zb x <-> 256 ^ Z.of_nat (length (x :: b)) <= 2 * be_value (x :: b)).
Proof.
  rewrite be_value_cons. cbn [length].
  rewrite Nat2Z.inj_succ, Z.pow_succ_r by lia.
  pose proof (be_value_range b). pose proof (Zb_range x).
  pose proof (pow256_pos (length b)). split; intros; nia.
Qed.

Lemma int_from_bytes_signed x b :
  int_from_bytes (x :: b) true =
  if 256 ^ Z.of_nat (length (x :: b)) <=? 2 * be_value (x :: b)
  then be_value (x :: b) - 256 ^ Z.of_nat (length (x :: b))
  else be_value (x :: b).
Proof.
  unfold int_from_bytes. cbn [andb].
  pose proof (be_value_top x b).
  destruct (Z.leb_spec 128 (Zb x)), (Z.leb_spec (256 ^ Z.of_nat (length (x :: b))) (2 * be_value (x :: b)));
    try reflexivity; exfalso; lia.
Qed.

Lemma pow256_half n : (0 < n)%nat -> 256 ^ Z.of_nat n = 2 * 2 ^ (8 * Z.of_nat n - 1).
Proof.
  intros H. replace 256 with (2 ^ 8) by reflexivity.
  rewrite <- Z.pow_mul_r by lia.
  replace (8 * Z.of_nat n) with (Z.succ (8 * Z.of_nat n - 1)) at 1 by lia.
  rewrite Z.pow_succ_r by lia. reflexivity.
Qed.

Lemma int_from_bytes_signed_range b :
  (0 < length b)%nat ->
  - 2 ^ (8 * Z.of_nat (length b) - 1) <= int_from_bytes b true < 2 ^ (8 * Z.of_nat (length b) - 1).
Proof.
  destruct b as [|x b]; cbn [length]; [lia|]. intros _.
  rewrite int_from_bytes_signed. pose proof (be_value_range (x :: b)).
  pose proof (pow256_half (S (length b)) ltac:(lia)). cbn [length] in *.
  destruct (Z.leb_spec (256 ^ Z.of_nat (S (length b))) (2 * be_value (x :: b))); lia.
Qed.

Lemma int_from_to_signed k z :
  (0 < k)%nat ->
  - 2 ^ (8 * Z.of_nat k - 1) <= z < 2 ^ (8 * Z.of_nat k - 1) ->
  int_from_bytes (be_bytes k z) true = z.
Proof.
  intros Hk Hz.
  pose proof (pow256_half k Hk) as HP.
  destruct (be_bytes k z) as [|x b] eqn:E.
  - exfalso. pose proof (be_bytes_length k z). rewrite E in *. simpl in *. lia.
  - rewrite int_from_bytes_signed, <- E, be_bytes_length, be_value_be_bytes.
    set (M := 256 ^ Z.of_nat k) in *.
    destruct (Z.ltb_spec z 0).
    + assert (z mod M = z + M) as ->.
      { rewrite <- (Z.mod_add z 1 M) by lia. rewrite Z.mod_small; lia. }
      destruct (Z.leb_spec M (2 * (z + M))); lia.
    + rewrite Z.mod_small by lia.
      destruct (Z.leb_spec M (2 * z)); lia.
Qed.

Lemma int_from_signed_mod b :
  int_from_bytes b true mod 256 ^ Z.of_nat (length b) = be_value b.
Proof.
  pose proof (be_value_range b).
  destruct b as [|x b]; [reflexivity|].
  rewrite int_from_bytes_signed.
  set (M := 256 ^ Z.of_nat (length (x :: b))) in *.
  destruct (Z.leb_spec M (2 * be_value (x :: b))).
  - rewrite <- (Z.mod_add _ 1 M) by lia. rewrite Z.mod_small by lia. lia.
  - apply Z.mod_small; lia.
Qed.

Lemma be_bytes_from_signed b : be_bytes (length b) (int_from_bytes b true) = b.
Proof.
  rewrite <- be_bytes_mod, int_from_signed_mod. apply be_bytes_be_value.
Qed.

Lemma int_from_signed_inj a b :
  length a = length b -> int_from_bytes a true = int_from_bytes b true -> a = b.
Proof.
  intros L E. rewrite <- (be_bytes_from_signed a), <- (be_bytes_from_signed b), L, E. reflexivity.
Qed.

Lemma int_from_bytes_unsigned b : int_from_bytes b false = be_value b.
Proof. reflexivity. Qed.

(** to_bytes inverts from_bytes and conversely. *)
Lemma int_to_bytes_unsigned_ok z len b :
  int_to_bytes z len false = Ok b <->
  0 <= len <= ssize_max /\ 0 <= z < 256 ^ len /\ b = be_bytes (Z.to_nat len) z.
Proof.
  unfold int_to_bytes.
  destruct (Z.ltb_spec len 0); [split; [discriminate|lia]|].
  destruct (Z.ltb_spec ssize_max len); [split; [discriminate|lia]|].
  destruct (Z.leb_spec 0 z), (Z.ltb_spec z (256 ^ len)); cbn [andb];
    split; intros Hx; try discriminate; try lia.
  - injection Hx as <-. repeat split; lia.
  - destruct Hx as (_ & _ & ->). reflexivity.
Qed.

Lemma int_to_from_unsigned z len b :
  int_to_bytes z len false = Ok b -> Z.of_nat (length b) = len /\ int_from_bytes b false = z.
Proof.
  intros H. apply int_to_bytes_unsigned_ok in H as (H1 & H2 & ->).
  rewrite be_bytes_length. split; [lia|].
  rewrite int_from_bytes_unsigned, be_value_be_bytes, Z2Nat.id by lia.
  apply Z.mod_small; lia.
Qed.

Lemma bit_length_nonneg z : 0 <= bit_length z.
Proof.
  unfold bit_length. destruct (Z.eqb_spec z 0); [lia|].
  pose proof (Z.log2_nonneg (Z.abs z)). lia.
Qed.

Lemma bit_length_pos z : 0 < z -> 2 ^ (bit_length z - 1) <= z < 2 ^ bit_length z.
Proof.
  intros H. unfold bit_length. destruct (Z.eqb_spec z 0); [lia|].
  pose proof (Z.log2_spec (Z.abs z) ltac:(lia)).
  rewrite Z.abs_eq in * by lia.
  replace (Z.log2 z + 1 - 1) with (Z.log2 z) by lia.
  replace (Z.log2 z + 1) with (Z.succ (Z.log2 z)) by lia. lia.
Qed.
Lemma bit_length_opp z : bit_length (- z) = bit_length z.
Proof.
  unfold bit_length. rewrite Z.abs_opp.
  destruct (Z.eqb_spec (- z) 0), (Z.eqb_spec z 0); lia.
Qed.
