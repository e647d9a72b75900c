(** str() of integers and bytes meets its specification. *)
From Coq Require Import Decimal DecimalFacts DecimalN DecimalZ DecimalPos.
From Verif Require Import PyBase SpecWire Repr SpecRepr.
Open Scope N_scope.

Notation dstep := (fun a c => (10 * a + (Z.of_N c - 48))%Z).
Lemma digits_acc u acc : fold_left dstep (uint_digits u) (Zpos acc) = Zpos (Pos.of_uint_acc u acc).
Proof.
  revert acc. induction u; intros acc; [reflexivity|..]; cbn [uint_digits fold_left Pos.of_uint_acc]; rewrite <- IHu; f_equal; lia.
Qed.
Lemma digits_decimal u : decimal (uint_digits u) = Z.of_N (Pos.of_uint u).
Proof.
  unfold decimal. induction u; [reflexivity|..]; cbn [uint_digits fold_left Pos.of_uint].
  - exact IHu.
  - exact (digits_acc u 1).
  - exact (digits_acc u 2).
  - exact (digits_acc u 3).
  - exact (digits_acc u 4).
  - exact (digits_acc u 5).
  - exact (digits_acc u 6).
  - exact (digits_acc u 7).
  - exact (digits_acc u 8).
  - exact (digits_acc u 9).
Qed.
Lemma uint_digits_digit u : Forall digit (uint_digits u).
Proof. induction u; cbn [uint_digits]; constructor; try assumption; unfold digit; lia. Qed.
Lemma nzhead_d0 u r : nzhead u <> D0 r.
Proof. induction u; cbn [nzhead]; try discriminate. exact IHu. Qed.
Lemma norm_digits u : unorm u = u -> uint_digits u <> [] /\ forall r, uint_digits u = 48 :: r -> r = [].
Proof.
  intros E. rewrite <- E. unfold unorm. destruct (nzhead u) eqn:H; cbn [uint_digits]; (split; [discriminate|]); intros r K; try discriminate.
  - injection K as <-. reflexivity.
  - exfalso. exact (nzhead_d0 _ _ H).
Qed.
Lemma pos_digits q : let ds := uint_digits (Pos.to_uint q) in
  ds <> [] /\ Forall digit ds /\ (forall r, ds = 48 :: r -> r = []) /\ decimal ds = Zpos q.
Proof.
  cbv zeta. change (Pos.to_uint q) with (N.to_uint (Npos q)).
  assert (unorm (N.to_uint (Npos q)) = N.to_uint (Npos q)) as E.
  { rewrite <- DecimalN.Unsigned.to_of, DecimalN.Unsigned.of_to. reflexivity. }
  destruct (norm_digits _ E) as (A & B). split; [exact A|]. split; [apply uint_digits_digit|]. split; [exact B|].
  rewrite digits_decimal. change Pos.of_uint with N.of_uint. rewrite DecimalN.Unsigned.of_to. reflexivity.
Qed.
Lemma int_repr_text z : int_text z (int_repr z).
Proof.
  unfold int_repr. destruct z as [|q|q]; cbn [Z.to_int].
  - exists [48]. split; [discriminate|]. split; [repeat constructor; unfold digit; lia|]. split; [intros r E; injection E as <-; reflexivity|]. left. split; [lia|auto].
  - destruct (pos_digits q) as (A & B & C & D). exists (uint_digits (Pos.to_uint q)). repeat (split; [assumption|]). left. split; [lia|auto].
  - destruct (pos_digits q) as (A & B & C & D). exists (uint_digits (Pos.to_uint q)). repeat (split; [assumption|]). right. rewrite D. split; [lia|auto].
Qed.
Lemma hex_digit_lower n : n < 16 -> lower_hex (hex_digit n) n.
Proof. intros H. unfold lower_hex, hex_digit. destruct (N.ltb_spec n 10); lia. Qed.
Lemma repr_byte_ok q x : q = 39 \/ q = 34 -> literal_byte q x (repr_byte q x).
Proof.
  intros Q. unfold repr_byte. assert (Byte.to_N x < 256) as L by (pose proof (Byte.to_N_bounded x); lia).
  destruct (N.eqb_spec (Byte.to_N x) q); [cbn [orb]; apply lb_quoted; auto|].
  destruct (N.eqb_spec (Byte.to_N x) 92); [cbn [orb]; apply lb_quoted; auto|]. cbn [orb].
  repeat match goal with |- context [if ?a =? ?b then _ else _] => destruct (N.eqb_spec a b) as [E|]; [apply lb_short; rewrite E; cbn; tauto|] end.
  destruct (N.ltb_spec (Byte.to_N x) 32); cbn [orb].
  - apply lb_hex with (va := Byte.to_N x / 16) (vb := Byte.to_N x mod 16).
    + auto.
    + intros [K|[K|[K|[]]]]; congruence.
    + apply hex_digit_lower, N.div_lt_upper_bound; lia.
    + apply hex_digit_lower, N.mod_lt. lia.
    + pose proof (N.div_mod (Byte.to_N x) 16 ltac:(lia)). lia.
  - destruct (N.leb_spec 127 (Byte.to_N x)).
    + apply lb_hex with (va := Byte.to_N x / 16) (vb := Byte.to_N x mod 16).
      * right. lia.
      * intros [K|[K|[K|[]]]]; congruence.
      * apply hex_digit_lower, N.div_lt_upper_bound; lia.
      * apply hex_digit_lower, N.mod_lt. lia.
      * pose proof (N.div_mod (Byte.to_N x) 16 ltac:(lia)). lia.
    + apply lb_plain; [lia|assumption|assumption].
Qed.
Lemma quote_of_cases b : quote_of b = 39 \/ quote_of b = 34.
Proof. unfold quote_of. destruct (_ && _); auto. Qed.
Lemma inside_spec n b : existsb (fun x => Byte.to_N x =? n) b = true <-> In n (map Byte.to_N b).
Proof.
  rewrite existsb_exists, in_map_iff. split; intros (x & A & B); exists x; [apply N.eqb_eq in B|rewrite N.eqb_eq]; auto.
Qed.
Lemma quote_of_ok b : quoted_by b (quote_of b).
Proof.
  unfold quoted_by, quote_of. rewrite <- !inside_spec.
  destruct (existsb (fun x => Byte.to_N x =? 39) b); destruct (existsb (fun x => Byte.to_N x =? 34) b); cbn;
    [right|left|right|right]; intuition discriminate.
Qed.
Lemma quoted_cases b q : quoted_by b q -> q = 39 \/ q = 34.
Proof. unfold quoted_by. tauto. Qed.
Lemma bytes_repr_ok b : bytes_literal b (bytes_repr b).
Proof.
  exists (quote_of b), (map (repr_byte (quote_of b)) b). split; [apply quote_of_ok|]. split.
  - pose proof (quote_of_cases b) as Q. generalize dependent (quote_of b). intros q Q. induction b as [|x b IH]; [constructor|]. cbn [map]. constructor; [apply repr_byte_ok; exact Q|exact IH].
  - unfold bytes_repr. rewrite flat_map_concat_map. reflexivity.
Qed.
