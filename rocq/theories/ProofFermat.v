(** Fermat's little theorem, and square roots modulo a prime that is 3 modulo 4. Used for the
    compressed points of C83. *)
From Coq Require Import ZArith Znumtheory Lia List.
From Verif Require Import Std.
Open Scope Z_scope.

(** Binomial coefficients. *)
Fixpoint binom (n k : nat) : Z :=
  match n, k with
  | _, O => 1
  | O, S _ => 0
  | S n', S k' => binom n' k' + binom n' (S k')
  end.
Lemma binom_0 n : binom n 0 = 1.
Proof. destruct n; reflexivity. Qed.
Lemma binom_over n : forall k, (n < k)%nat -> binom n k = 0.
Proof.
  induction n as [|n IH]; intros [|k] H; try lia; [reflexivity|]. cbn [binom]. rewrite !IH by lia. reflexivity.
Qed.
Lemma binom_n n : binom n n = 1.
Proof. induction n as [|n IH]; [reflexivity|]. cbn [binom]. rewrite IH, binom_over by lia. reflexivity. Qed.
Lemma binom_absorb n : forall k, Z.of_nat (S k) * binom (S n) (S k) = Z.of_nat (S n) * binom n k.
Proof.
  induction n as [|n IH]; intros k.
  - destruct k as [|k]; [reflexivity|]. cbn [binom]. destruct k; lia.
  - change (binom (S (S n)) (S k)) with (binom (S n) k + binom (S n) (S k)).
    rewrite Z.mul_add_distr_l, IH. destruct k as [|k].
    + rewrite !binom_0. lia.
    + replace (Z.of_nat (S (S k)) * binom (S n) (S k)) with (Z.of_nat (S k) * binom (S n) (S k) + binom (S n) (S k)) by lia.
      rewrite IH. change (binom (S n) (S k)) with (binom n k + binom n (S k)). nia.
Qed.
(** (a + 1)^n as a sum. *)
Fixpoint sum (f : nat -> Z) (n : nat) : Z := match n with O => f O | S n' => sum f n' + f n end.
Lemma sum_ext f g n : (forall k, (k <= n)%nat -> f k = g k) -> sum f n = sum g n.
Proof. induction n as [|n IH]; intros H; cbn [sum]; [apply H; lia|]. rewrite IH by (intros; apply H; lia). rewrite H by lia. reflexivity. Qed.
Lemma sum_mul f n a : a * sum f n = sum (fun k => a * f k) n.
Proof. induction n as [|n IH]; cbn [sum]; [reflexivity|]. rewrite Z.mul_add_distr_l, IH. reflexivity. Qed.
Lemma sum_add f g n : sum f n + sum g n = sum (fun k => f k + g k) n.
Proof. induction n as [|n IH]; cbn [sum]; [reflexivity|]. rewrite <- IH. lia. Qed.
Lemma sum_shift f n : sum f (S n) = f O + sum (fun k => f (S k)) n.
Proof. induction n as [|n IH]; [reflexivity|]. change (sum f (S (S n))) with (sum f (S n) + f (S (S n))). rewrite IH. cbn [sum]. lia. Qed.
Lemma binomial a n : (a + 1) ^ Z.of_nat n = sum (fun k => binom n k * a ^ Z.of_nat k) n.
Proof.
  induction n as [|n IH]; [reflexivity|].
  rewrite Nat2Z.inj_succ, Z.pow_succ_r by lia. rewrite IH, Z.mul_add_distr_r, Z.mul_1_l, sum_mul.
  rewrite (sum_shift (fun k => binom (S n) k * a ^ Z.of_nat k)). rewrite binom_0.
  rewrite (sum_ext (fun k => binom (S n) (S k) * a ^ Z.of_nat (S k)) (fun k => a * (binom n k * a ^ Z.of_nat k) + binom n (S k) * a ^ Z.of_nat (S k))).
  2: { intros k _. cbn [binom]. rewrite Nat2Z.inj_succ, Z.pow_succ_r by lia. lia. }
  rewrite <- sum_add.
  assert (sum (fun k => binom n k * a ^ Z.of_nat k) n = 1 + sum (fun k => binom n (S k) * a ^ Z.of_nat (S k)) n) as E.
  { rewrite <- (Z.add_0_r (sum _ n)). rewrite <- (Z.mul_0_l (a ^ Z.of_nat (S n))). rewrite <- (binom_over n (S n)) by lia.
    change (sum (fun k => binom n k * a ^ Z.of_nat k) n + binom n (S n) * a ^ Z.of_nat (S n)) with (sum (fun k => binom n k * a ^ Z.of_nat k) (S n)).
    rewrite sum_shift, binom_0. reflexivity. }
  rewrite E. change (a ^ Z.of_nat 0) with 1. lia.
Qed.
Lemma prime_binom p k : prime (Z.of_nat p) -> (0 < k < p)%nat -> (Z.of_nat p | binom p k).
Proof.
  intros P H. destruct p as [|p], k as [|k]; try lia.
  assert (Z.of_nat (S p) | Z.of_nat (S k) * binom (S p) (S k)) as D by (rewrite binom_absorb; exists (binom p k); lia).
  apply prime_mult in D; [|exact P]. destruct D as [D|D]; [|exact D]. apply Z.divide_pos_le in D; lia.
Qed.
Lemma sum_divide f n p : (forall k, (k <= n)%nat -> (p | f k)) -> (p | sum f n).
Proof. induction n as [|n IH]; intros H; cbn [sum]; [apply H; lia|]. apply Z.divide_add_r; [apply IH; intros; apply H; lia|apply H; lia]. Qed.
Lemma frobenius p a : prime (Z.of_nat p) -> (Z.of_nat p | (a + 1) ^ Z.of_nat p - (a ^ Z.of_nat p + 1)).
Proof.
  intros P. pose proof (prime_ge_2 _ P). destruct p as [|[|p]]; try lia. rewrite binomial.
  change (sum ?f (S (S p))) with (sum f (S p) + f (S (S p))). cbv beta. rewrite sum_shift, binom_0, binom_n.
  replace (1 * a ^ Z.of_nat 0 + sum (fun k => binom (S (S p)) (S k) * a ^ Z.of_nat (S k)) p + 1 * a ^ Z.of_nat (S (S p)) - (a ^ Z.of_nat (S (S p)) + 1))
    with (sum (fun k => binom (S (S p)) (S k) * a ^ Z.of_nat (S k)) p) by (change (a ^ Z.of_nat 0) with 1; lia).
  apply sum_divide. intros k Hk. apply Z.divide_mul_l. apply prime_binom; [exact P|lia].
Qed.
Theorem fermat p a : prime p -> 0 <= a -> (p | a ^ p - a).
Proof.
  intros P. pose proof (prime_ge_2 _ P) as G. rewrite <- (Z2Nat.id p) in P |- * by lia. set (q := Z.to_nat p) in *. clearbody q.
  revert a. apply natlike_ind.
  - rewrite Z.pow_0_l by (pose proof (prime_ge_2 _ P); lia). exists 0. reflexivity.
  - intros a Ha IH. rewrite <- Z.add_1_r. pose proof (frobenius q a P) as F.
    replace ((a + 1) ^ Z.of_nat q - (a + 1)) with (((a + 1) ^ Z.of_nat q - (a ^ Z.of_nat q + 1)) + (a ^ Z.of_nat q - a)) by lia.
    apply Z.divide_add_r; assumption.
Qed.
Lemma pow_mod_spec a e m : m <> 0 -> pow_mod a e m = a ^ Z.pos e mod m.
Proof.
  intros M. induction e as [e IH|e IH|]; cbn [pow_mod].
  - rewrite IH. replace (Z.pos e~1) with (Z.pos e + Z.pos e + 1) by lia. rewrite !Z.pow_add_r, Z.pow_1_r by lia.
    rewrite <- Z.mul_mod by exact M. rewrite Z.mul_mod_idemp_l by exact M. reflexivity.
  - rewrite IH. replace (Z.pos e~0) with (Z.pos e + Z.pos e) by lia. rewrite Z.pow_add_r by lia.
    rewrite <- Z.mul_mod by exact M. reflexivity.
  - rewrite Z.pow_1_r. reflexivity.
Qed.
(** If [s] is a square, s^((p+1)/4) is a root of it. *)
Theorem root_mod p s y : prime p -> p mod 4 = 3 -> 0 <= y -> y * y mod p = s mod p ->
  let r := pow_mod (s mod p) (Z.to_pos ((p + 1) / 4)) p in r * r mod p = s mod p.
Proof.
  intros P M Hy E. cbv zeta. pose proof (prime_ge_2 _ P) as G. pose proof (Z.div_mod p 4 ltac:(lia)) as D. rewrite M in D.
  set (k := p / 4) in *. assert ((p + 1) / 4 = k + 1) as -> by (replace (p + 1) with ((k + 1) * 4) by lia; apply Z.div_mul; lia).
  assert (0 <= k) as Hk by (apply Z.div_pos; lia).
  rewrite pow_mod_spec by lia. rewrite Z2Pos.id by lia. rewrite <- E, <- Z.mul_mod by lia.
  assert (forall a b n, 0 <= n -> a mod p = b mod p -> a ^ n mod p = b ^ n mod p) as Pw.
  { intros a b n Hn Eab. pattern n. apply natlike_ind; [reflexivity| |exact Hn]. intros x Hx IH. rewrite !Z.pow_succ_r by lia.
    rewrite Z.mul_mod, Eab, IH, <- Z.mul_mod by lia. reflexivity. }
  rewrite <- Z.pow_add_r by lia. rewrite (Pw (y * y mod p) (y * y)) by (try lia; apply Z.mod_mod; lia).
  rewrite <- Z.pow_2_r, <- Z.pow_mul_r by lia.
  replace (2 * (k + 1 + (k + 1))) with (p + 1) by lia. rewrite Z.pow_add_r, Z.pow_1_r by lia.
  destruct (fermat p y P Hy) as (c & Ec). replace (y ^ p) with (y + c * p) by lia.
  replace ((y + c * p) * y) with (y ^ 2 + (c * y) * p) by (rewrite Z.pow_2_r; lia). apply Z.mod_add. lia.
Qed.
