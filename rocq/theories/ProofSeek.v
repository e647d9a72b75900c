(** Lemmas for C96. *)
From Coq Require Import Permutation.
From Verif Require Import PyBase IntBytes Utf8 StructFmt Stream Seek SpecWire SpecSeek ProofBase ProofInt ProofWire ProofRecord.
Open Scope Z_scope.

Lemma nth_firstn {A} (l : list A) n i : nth_error (firstn n l) i = if (i <? n)%nat then nth_error l i else None.
Proof.
  revert n i. induction l as [|x l IH]; intros [|n] [|i]; cbn; try reflexivity; [match goal with |- _ = if ?c then _ else _ => destruct c end; reflexivity|].
  rewrite IH. reflexivity.
Qed.
Lemma nth_skipn {A} (l : list A) n i : nth_error (skipn n l) i = nth_error l (n + i).
Proof. revert n. induction l as [|x l IH]; intros [|n]; cbn; try reflexivity; [destruct i; reflexivity|apply IH]. Qed.
Lemma nth_repeat {A} (x : A) n i : nth_error (repeat x n) i = if (i <? n)%nat then Some x else None.
Proof. revert i. induction n as [|n IH]; intros [|i]; cbn; try reflexivity. rewrite IH. reflexivity. Qed.
Lemma nth_app {A} (a b : list A) i : nth_error (a ++ b) i = if (i <? length a)%nat then nth_error a i else nth_error b (i - length a).
Proof. destruct (Nat.ltb_spec i (length a)); [apply nth_error_app1; assumption|apply nth_error_app2; assumption]. Qed.
Lemma nth_none {A} (a : list A) i : (length a <= i)%nat -> nth_error a i = None.
Proof. apply nth_error_None. Qed.
Lemma nth_ext {A} (a b : list A) : (forall i, nth_error a i = nth_error b i) -> a = b.
Proof.
  revert b. induction a as [|x a IH]; intros [|y b] H; [reflexivity|discriminate (H 0%nat)|discriminate (H 0%nat)|].
  injection (H 0%nat) as <-. f_equal. apply IH. intros i. apply (H (S i)).
Qed.
Ltac cases := repeat match goal with
  | |- context [(?a <? ?b)%nat] => destruct (Nat.ltb_spec a b)
  | |- context [(?a <=? ?b)%nat] => destruct (Nat.leb_spec a b)
  end; cbn [andb].

(** ** Writing *)
Lemma write_put b s : put (sbuf s) (spos s) b (sbuf (bio_write b s)) /\ spos (bio_write b s) = (spos s + length b)%nat.
Proof.
  destruct b as [|x b']; [split; [reflexivity|cbn; lia]|]. split; [|reflexivity]. unfold put, bio_write. cbn [sbuf].
  set (b := x :: b'). clearbody b. clear b' x.
  set (p := spos s). set (old := sbuf s).
  set (buf := old ++ repeat x00 (p - length old)).
  assert (length buf = Nat.max (length old) p) as Lb by (unfold buf; rewrite app_length, repeat_length; lia).
  assert (length (firstn p buf ++ b ++ skipn (p + length b) buf) = Nat.max (length old) (p + length b)) as L.
  { rewrite !app_length, firstn_length, skipn_length, Lb. lia. }
  split; [exact L|]. intros i. rewrite L. intros Hi.
  rewrite !nth_app, firstn_length, Lb, Nat.min_l, nth_firstn, nth_skipn by lia.
  unfold buf. rewrite !nth_app, !nth_repeat. cases; try lia; try reflexivity; f_equal; lia.
Qed.
Lemma put_functional old p b new new' : put old p b new -> put old p b new' -> new = new'.
Proof.
  unfold put. destruct b as [|x b]; [congruence|]. intros (L & H) (L' & H'). apply nth_ext. intros i.
  destruct (Nat.lt_ge_cases i (length new)) as [I|I].
  - rewrite H, H' by lia. reflexivity.
  - rewrite !nth_none by lia. reflexivity.
Qed.
Lemma put_length old p b new : put old p b new -> (length old <= length new)%nat.
Proof. destruct b; [intros ->; lia|intros (L & _); lia]. Qed.
Lemma put_there old p b new : put old p b new -> bytes_at new p b.
Proof.
  destruct b as [|x b]; [intros _ i I; cbn in I; lia|]. intros (L & H) i I. rewrite H by (cbn [length] in *; lia).
  cbn [length] in *. replace (p + i - p)%nat with i by lia. cases; try lia; reflexivity.
Qed.
(** What is written elsewhere does not matter. *)
Lemma put_elsewhere old p b new i : put old p b new -> (i < length old)%nat -> (i < p \/ p + length b <= i)%nat ->
  nth_error new i = nth_error old i.
Proof.
  destruct b as [|x b]; [intros -> _ _; reflexivity|]. intros (L & H) I D. rewrite H by lia. cases; try lia; reflexivity.
Qed.
Lemma put_spares old p b new q c : put old p b new -> (q + length c <= length old)%nat -> (q + length c <= p \/ p + length b <= q)%nat ->
  bytes_at old q c -> bytes_at new q c.
Proof. intros H L D A i I. rewrite (put_elsewhere _ _ _ _ _ H) by lia. apply A. exact I. Qed.
Lemma put_app old p b c new mid : put old p b mid -> put mid (p + length b) c new -> put old p (b ++ c) new.
Proof.
  intros H1 H2. destruct b as [|x b]; [cbn in *; subst; rewrite Nat.add_0_r in H2; exact H2|].
  destruct c as [|y c].
  { cbn [put] in H2. subst. rewrite app_nil_r. exact H1. }
  destruct H1 as (L1 & N1), H2 as (L2 & N2). unfold put. cbn [app]. cbv beta iota. change (x :: b ++ y :: c) with ((x :: b) ++ y :: c).
  rewrite app_length. split; [lia|]. intros i I. rewrite N2 by exact I. rewrite nth_app.
  destruct (Nat.ltb_spec i (length mid)) as [M|M].
  - rewrite N1 by exact M. cases; try lia; try reflexivity; f_equal; lia.
  - cases; try lia; try reflexivity; f_equal; lia.
Qed.
Lemma put_commute old p b q c m1 m2 n1 n2 : (p + length b <= q \/ q + length c <= p)%nat ->
  put old p b m1 -> put m1 q c n1 -> put old q c m2 -> put m2 p b n2 -> n1 = n2.
Proof.
  intros D A B A' B'. destruct b as [|x b]; destruct c as [|y c]; cbn [put] in A, B, A', B'; subst; try reflexivity.
  - exact (put_functional old q (y :: c) _ _ B A').
  - exact (put_functional old p (x :: b) _ _ A B').
  - destruct A as (L1 & N1), B as (L2 & N2), A' as (L1' & N1'), B' as (L2' & N2').
    apply nth_ext. intros i. destruct (Nat.lt_ge_cases i (length n1)) as [I|I]; [|rewrite !nth_none by lia; reflexivity].
    rewrite N2, N2' by lia.
    assert (forall P Q : option byte, (i < length m1)%nat \/ P = Q -> (if (i <? length m1)%nat then P else Q) = P) as E1
      by (intros P Q [K|K]; destruct (Nat.ltb_spec i (length m1)); congruence || lia).
    destruct (Nat.ltb_spec i (length m1)) as [M|M]; destruct (Nat.ltb_spec i (length m2)) as [M'|M'];
      rewrite ?N1, ?N1' by assumption; cases; try lia; try reflexivity.
Qed.

(** ** Reading *)
Lemma at_unread t b : bytes_at (sbuf t) (spos t) b <-> exists r, unread t = b ++ r.
Proof.
  unfold bytes_at, unread. split.
  - intros H. exists (skipn (length b) (skipn (spos t) (sbuf t))). rewrite <- (firstn_skipn (length b) (skipn (spos t) (sbuf t))) at 1. f_equal.
    apply nth_ext. intros i. rewrite nth_firstn, nth_skipn. destruct (Nat.ltb_spec i (length b)); [apply H; assumption|].
    rewrite nth_none by lia. reflexivity.
  - intros (r & E) i I. rewrite <- nth_skipn, E. apply nth_error_app1. exact I.
Qed.
Definition local {A} (x : P A) : Prop := forall s s' a, x s = (s', Ok a) ->
  exists b, s' = adv (length b) s /\ (exists r, unread s = b ++ r) /\
    forall t r, unread t = b ++ r -> x t = (adv (length b) t, Ok a).
Lemma adv_none s : adv 0 s = s.
Proof. destruct s. unfold adv. cbn. f_equal. lia. Qed.
Lemma local_ret {A} (a : A) : local (pret a).
Proof.
  intros s s' b E. injection E as <- <-. exists []. split; [symmetry; apply adv_none|]. split; [eexists; reflexivity|].
  intros t r _. cbn [length]. rewrite adv_none. reflexivity.
Qed.
Lemma local_err {A} e : local (@perr A e).
Proof. intros s s' a E. discriminate. Qed.
Lemma local_lift {A} (r : res A) : local (plift r).
Proof. destruct r as [a|e]; [exact (local_ret a)|exact (local_err e)]. Qed.
Lemma local_bind {A B} (x : P A) (f : A -> P B) : local x -> (forall a, local (f a)) -> local (pbind x f).
Proof.
  intros X F s s' y E. unfold pbind in E. destruct (x s) as [s1 [a|e]] eqn:E1; [|discriminate].
  apply X in E1 as (b & -> & (r & U) & H). apply F in E as (c & -> & (r' & U') & H').
  exists (b ++ c). rewrite app_length. split; [rewrite adv_adv; reflexivity|]. split.
  - exists r'. rewrite unread_adv, U, skipn_app, skipn_all, Nat.sub_diag in U'. cbn in U'. rewrite U, U', app_assoc. reflexivity.
  - intros t r2 Et. unfold pbind. rewrite (H t (c ++ r2)) by (rewrite Et, app_assoc; reflexivity).
    rewrite (H' (adv (length b) t) r2), adv_adv; [reflexivity|].
    rewrite unread_adv, Et, <- app_assoc, skipn_app, skipn_all, Nat.sub_diag. reflexivity.
Qed.
Lemma local_bind_ok {A B} (z : A) (f : A -> P B) : local (f z) -> local (pbind (plift (Ok z)) f).
Proof. intros H s s' y E. exact (H s s' y E). Qed.
Lemma local_fixed n : 0 <= n -> local (read_fixed_bytes n).
Proof.
  intros N s s' a E. destruct (Z.le_gt_cases n ssize_max) as [L|L]; [|rewrite read_fixed_big in E by lia; discriminate].
  rewrite read_fixed_spec in E by lia. destruct (Nat.leb_spec (Z.to_nat n) (length (unread s))) as [K|K]; [|discriminate].
  injection E as <- <-. exists (firstn (Z.to_nat n) (unread s)). rewrite firstn_length, Nat.min_l by exact K. split; [reflexivity|].
  split; [exists (skipn (Z.to_nat n) (unread s)); symmetry; apply firstn_skipn|].
  intros t r Et. rewrite read_fixed_spec by lia. rewrite Et, app_length, firstn_length, Nat.min_l by exact K.
  destruct (Nat.leb_spec (Z.to_nat n) (Z.to_nat n + length r)); [|lia]. f_equal. f_equal.
  rewrite firstn_app, firstn_firstn, firstn_length, Nat.min_id, Nat.min_l, Nat.sub_diag by exact K. cbn. apply app_nil_r.
Qed.
Lemma from_bytes_nonneg b : 0 <= int_from_bytes b false.
Proof. rewrite int_from_bytes_unsigned. apply be_value_range. Qed.
Lemma local_pascal n : local (read_pascal_bytes n).
Proof.
  unfold read_pascal_bytes. destruct (Z.leb_spec n 0); [apply local_err|]. apply local_bind; [apply local_fixed; lia|].
  intros a. apply local_fixed, from_bytes_nonneg.
Qed.
Lemma items_size_nonneg l : 0 <= items_size l.
Proof.
  induction l as [|(n, k) l IH]; [reflexivity|]. unfold items_size in *. cbn [fold_right fst snd].
  assert (0 <= code_size k) by (destruct k; cbn; lia). nia.
Qed.
Lemma local_read f : local (read_instr f).
Proof.
  assert (forall i n, local (do! b <- read_pascal_bytes n; match i with BYTES => pret (VBytes b) | STRING => do! s <- plift (utf8_decode b); pret (VStr s) | MPINT => pret (VInt (int_from_bytes b true)) end)) as K.
  { intros i n. apply local_bind; [apply local_pascal|]. intros b. destruct i; [apply local_ret| |apply local_ret].
    apply local_bind; [apply local_lift|]. intros; apply local_ret. }
  destruct f as [fmt|i|i n|]; cbn [read_instr]; [|apply K|apply K|apply local_err].
  unfold struct_calcsize. destruct (parse_format fmt) as [(o, l)|e]; cbn [rbind]; [|intros s s' a E; discriminate].
  destruct (ssize_max <? items_size l); [intros s s' a E; discriminate|].
  apply (local_bind_ok (items_size l)). apply local_bind; [apply local_fixed, items_size_nonneg|]. intros b.
  apply local_bind; [apply local_lift|]. intros [|v [|w r]]; apply local_ret.
Qed.
Lemma local_read_dict f : local (read_dict f).
Proof.
  induction f as [|(k, i) f IH]; cbn [read_dict]; [apply local_ret|]. apply local_bind; [apply local_read|]. intros v.
  apply local_bind; [exact IH|]. intros r. apply local_ret.
Qed.
Lemma at_inside file p b : bytes_at file p b -> b <> [] -> (p + length b <= length file)%nat.
Proof.
  intros H N. destruct b as [|x b]; [contradiction|]. assert (nth_error file (p + length b) <> None) as K.
  { rewrite H by (cbn; lia). apply nth_error_Some. cbn. lia. }
  apply nth_error_Some in K. cbn. lia.
Qed.
Lemma value_moves file p q f v : value_at file p q f v ->
  exists b, q = (p + length b)%nat /\ bytes_at file p b /\ forall file' p', bytes_at file' p' b -> value_at file' p' (p' + length b) f v.
Proof.
  intros H. apply local_read in H as (b & E & U & M). exists b. unfold adv in E. injection E as ->. split; [reflexivity|].
  split; [apply (at_unread (mkstream file p)); exact U|]. intros file' p' A. apply (at_unread (mkstream file' p')) in A as (r & A).
  exact (M _ _ A).
Qed.
Lemma record_moves file p q f v : record_at file p q f v ->
  exists b, q = (p + length b)%nat /\ bytes_at file p b /\ forall file' p', bytes_at file' p' b -> record_at file' p' (p' + length b) f v.
Proof.
  intros H. apply local_read_dict in H as (b & E & U & M). exists b. unfold adv in E. injection E as ->. split; [reflexivity|].
  split; [apply (at_unread (mkstream file p)); exact U|]. intros file' p' A. apply (at_unread (mkstream file' p')) in A as (r & A).
  exact (M _ _ A).
Qed.

(** ** Histories *)
Definition keeps {A} (x : P A) : Prop := forall s, sbuf (fst (x s)) = sbuf s.
Lemma keeps_ret {A} (a : A) : keeps (pret a). Proof. intros s. reflexivity. Qed.
Lemma keeps_err {A} e : keeps (@perr A e). Proof. intros s. reflexivity. Qed.
Lemma keeps_lift {A} (r : res A) : keeps (plift r). Proof. intros s. reflexivity. Qed.
Lemma keeps_bind {A B} (x : P A) (f : A -> P B) : keeps x -> (forall a, keeps (f a)) -> keeps (pbind x f).
Proof.
  intros X F s. unfold pbind. specialize (X s). destruct (x s) as [s1 [a|e]]; cbn [fst] in *; [|exact X].
  rewrite F. exact X.
Qed.
Lemma keeps_fixed n : keeps (read_fixed_bytes n).
Proof.
  unfold read_fixed_bytes. apply keeps_bind.
  - intros s. unfold bio_read. destruct (_ || _); reflexivity.
  - intros b. destruct (_ <? _); [|apply keeps_ret]. destruct (_ =? _)%nat; apply keeps_err.
Qed.
Lemma keeps_pascal n : keeps (read_pascal_bytes n).
Proof. unfold read_pascal_bytes. destruct (_ <=? _); [apply keeps_err|]. apply keeps_bind; [apply keeps_fixed|intros; apply keeps_fixed]. Qed.
Lemma keeps_read f : keeps (read_instr f).
Proof.
  assert (forall i n, keeps (do! b <- read_pascal_bytes n; match i with BYTES => pret (VBytes b) | STRING => do! s <- plift (utf8_decode b); pret (VStr s) | MPINT => pret (VInt (int_from_bytes b true)) end)) as K.
  { intros i n. apply keeps_bind; [apply keeps_pascal|]. intros b. destruct i; [apply keeps_ret| |apply keeps_ret].
    apply keeps_bind; [apply keeps_lift|]. intros; apply keeps_ret. }
  destruct f as [fmt|i|i n|]; cbn [read_instr]; [|apply K|apply K|apply keeps_err].
  apply keeps_bind; [apply keeps_lift|]. intros n. apply keeps_bind; [apply keeps_fixed|]. intros b.
  apply keeps_bind; [apply keeps_lift|]. intros [|v [|w r]]; apply keeps_ret.
Qed.
Lemma keeps_read_dict f : keeps (read_dict f).
Proof.
  induction f as [|(k, i) f IH]; cbn [read_dict]; [apply keeps_ret|]. apply keeps_bind; [apply keeps_read|]. intros v.
  apply keeps_bind; [exact IH|]. intros r. apply keeps_ret.
Qed.
Lemma keeps_loop f : forall n acc, keeps (read_loop n f acc).
Proof.
  induction n as [|n IH]; intros acc s; [reflexivity|]. cbn [read_loop]. pose proof (keeps_read_dict f s) as K.
  destruct (read_dict f s) as [s1 [d|e]]; cbn [fst] in *; [rewrite IH; exact K|]. destruct e; try exact K. destruct empty; exact K.
Qed.
Lemma keeps_op o : writes o = false -> truncates o = false -> keeps (run_op o).
Proof.
  assert (forall A (x : P A) f, keeps x -> keeps (answers x f)) as K.
  { intros A x f H. apply keeps_bind; [exact H|]. intros a. apply keeps_ret. }
  intros W T. destruct o as [off wh| |size| |n|n|f|f|f|f v|f vals|f l]; try discriminate; cbn [run_op].
  - apply K. intros s. unfold bio_seek. cbn zeta. repeat match goal with |- context [if ?c then _ else _] => destruct c end; reflexivity.
  - apply K. intros s. reflexivity.
  - intros s. reflexivity.
  - apply K, keeps_fixed.
  - apply K, keeps_pascal.
  - apply K, keeps_read.
  - apply K, keeps_read_dict.
  - apply K. intros s. unfold read_repeatedly. destruct f; [reflexivity|]. apply keeps_loop.
Qed.
Definition puts {A} (x : P A) : Prop := forall s, exists b,
  put (sbuf s) (spos s) b (sbuf (fst (x s))) /\ spos (fst (x s)) = (spos s + length b)%nat.
Lemma puts_same {A} (x : P A) : (forall s, fst (x s) = s) -> puts x.
Proof. intros H s. exists []. rewrite H. split; [reflexivity|cbn; lia]. Qed.
Lemma puts_bind {A B} (x : P A) (f : A -> P B) : puts x -> (forall a, puts (f a)) -> puts (pbind x f).
Proof.
  intros X F s. unfold pbind. destruct (X s) as (b & Pb & Eb). destruct (x s) as [s1 [a|e]]; cbn [fst] in *; [|eauto].
  destruct (F a s1) as (c & Pc & Ec). exists (b ++ c). rewrite Eb in *. split; [eapply put_app; eassumption|].
  rewrite Ec, app_length. lia.
Qed.
Lemma puts_write f v : puts (write_instr f v).
Proof.
  intros s. unfold write_instr. destruct (instr_bytes f v) as [b|e]; cbn [fst]; [exists b; apply write_put|].
  exists []. split; [reflexivity|cbn; lia].
Qed.
Lemma puts_write_dict f vals : puts (write_dict f vals).
Proof.
  induction f as [|(k, i) f IH]; cbn [write_dict]; [apply puts_same; reflexivity|].
  apply puts_bind; [apply puts_same; reflexivity|]. intros v. apply puts_bind; [apply puts_write|]. intros _. exact IH.
Qed.
Lemma puts_op o : writes o = true -> puts (run_op o).
Proof.
  assert (forall (x : P unit) f, puts x -> puts (answers x f)) as K.
  { intros x f H. apply puts_bind; [exact H|]. intros a. apply puts_same. reflexivity. }
  intros W. destruct o as [off wh| |size| |n|n|f|f|f|f v|f vals|f l]; try discriminate; cbn [run_op]; apply K.
  - apply puts_write.
  - apply puts_write_dict.
  - induction l as [|d l IH]; cbn [write_repeatedly]; [apply puts_same; reflexivity|].
    apply puts_bind; [apply puts_write_dict|]. intros _. exact (IH eq_refl).
Qed.
Lemma truncates_op o s : truncates o = true -> exists n, sbuf (fst (run_op o s)) = firstn n (sbuf s).
Proof.
  destruct o; try discriminate. intros _. cbn [run_op]. unfold answers, pbind, bio_truncate. destruct size as [z|]; [|eexists; reflexivity].
  assert (sbuf s = firstn (length (sbuf s)) (sbuf s)) as E by (symmetry; apply firstn_all).
  destruct (negb _); [exists (length (sbuf s)); exact E|]. destruct (_ <? _); [exists (length (sbuf s)); exact E|]. eexists; reflexivity.
Qed.
Lemma run_ops_cons o l s : fst (run_ops (o :: l) s) = fst (run_ops l (fst (run_op o s))).
Proof. cbn [run_ops]. destruct (run_op o s) as [s1 r]. cbn [fst]. destruct (run_ops l s1). reflexivity. Qed.
Lemma spares_at b p l : forall s, bytes_at (sbuf s) p b -> spares p (p + length b) l s ->
  bytes_at (sbuf (fst (run_ops l s))) p b.
Proof.
  destruct b as [|x b']; [intros s _ _ i I; cbn in I; lia|]. set (b := x :: b'). assert (b <> []) as N by discriminate. clearbody b. clear x b'.
  induction l as [|o l IH]; intros s A S; [exact A|]. cbn [spares] in S. cbn zeta in S. destruct S as (S1 & S2 & S3).
  rewrite run_ops_cons. apply IH; [|exact S3]. destruct (writes o) eqn:W.
  - destruct (puts_op o W s) as (c & Pc & Ec). rewrite Ec in S1. apply (put_spares _ _ _ _ _ _ Pc); [apply at_inside; assumption| |exact A].
    destruct (S1 eq_refl); auto.
  - destruct (truncates o) eqn:T.
    + destruct (S2 eq_refl) as [L|L]; [|rewrite L; exact A]. destruct (truncates_op o s T) as (n & En). rewrite En in *.
      intros i I. rewrite nth_firstn. rewrite firstn_length in L. destruct (Nat.ltb_spec (p + i) n); [apply A; exact I|lia].
    + rewrite keeps_op by assumption. exact A.
Qed.

(** ** Places *)
Definition place_bytes (file : bytes) (x : nat * bytes) : bytes := sbuf (bio_write (snd x) (mkstream file (fst x))).
Lemma place_put file x : put file (fst x) (snd x) (place_bytes file x).
Proof. exact (proj1 (write_put (snd x) (mkstream file (fst x)))). Qed.
Lemma places_keep x l : forall file, (snd x <> [] -> (fst x + length (snd x) <= length file)%nat) -> bytes_at file (fst x) (snd x) ->
  Forall (apart x) l -> bytes_at (fold_left place_bytes l file) (fst x) (snd x).
Proof.
  induction l as [|y l IH]; intros file L A F; [exact A|]. inversion F as [|? ? D F']; subst. cbn [fold_left].
  apply IH; [| |exact F'].
  - intros N. specialize (L N). pose proof (put_length _ _ _ _ (place_put file y)). lia.
  - destruct (snd x) as [|b bs] eqn:E; [intros i I; cbn in I; lia|]. rewrite <- E in *.
    apply (put_spares file (fst y) (snd y)); [apply place_put|apply L; rewrite E; discriminate|exact D|exact A].
Qed.
Lemma places_there l : forall file, ForallOrdPairs apart l -> forall x, In x l -> bytes_at (fold_left place_bytes l file) (fst x) (snd x).
Proof.
  induction l as [|y l IH]; intros file F x I; [destruct I|]. inversion F as [|? ? D F']; subst. cbn [fold_left].
  destruct I as [->|I]; [|apply IH; assumption].
  pose proof (place_put file x) as Px. apply places_keep; [|eapply put_there; exact Px|exact D].
  intros N. apply at_inside; [eapply put_there; exact Px|exact N].
Qed.
Lemma apart_sym x y : apart x y -> apart y x.
Proof. unfold apart. tauto. Qed.
Lemma ordpairs_perm l l' : Permutation l l' -> ForallOrdPairs apart l -> ForallOrdPairs apart l'.
Proof.
  intros P. induction P as [|x l l' P IH|x y l|l l' l'' P1 IH1 P2 IH2]; intros F.
  - exact F.
  - inversion F as [|? ? D F']; subst. constructor; [|apply IH; exact F']. rewrite Forall_forall in *.
    intros z I. apply D. apply (Permutation_in _ (Permutation_sym P) I).
  - inversion F as [|? ? D F']; subst. inversion F' as [|? ? D' F'']; subst. inversion D as [|? ? D1 D2]; subst.
    constructor; [constructor; [apply apart_sym; exact D1|exact D']|constructor; assumption].
  - auto.
Qed.
Lemma places_perm l l' : Permutation l l' -> forall file, ForallOrdPairs apart l ->
  fold_left place_bytes l file = fold_left place_bytes l' file.
Proof.
  intros P. induction P as [|x l l' P IH|x y l|l l' l'' P1 IH1 P2 IH2]; intros file F.
  - reflexivity.
  - inversion F; subst. cbn [fold_left]. apply IH. assumption.
  - inversion F as [|? ? D F']; subst. inversion D as [|? ? D1 D2]; subst. cbn [fold_left]. f_equal.
    eapply put_commute; [exact D1|apply place_put..].
  - rewrite IH1 by exact F. apply IH2. apply (ordpairs_perm _ _ P1 F).
Qed.
Lemma written_bytes f v b : written_as f v b <-> instr_bytes f v = Ok b.
Proof.
  unfold written_as, write_instr. destruct (instr_bytes f v) as [c|e]; [|split; discriminate].
  assert (bio_write c (stream_of []) = mkstream c (length c)) as ->.
  { unfold bio_write, stream_of. cbn [sbuf spos]. destruct c as [|x c]; [reflexivity|]. rewrite firstn_nil, skipn_nil, app_nil_r. reflexivity. }
  split; intros H; [injection H as ->; reflexivity|congruence].
Qed.
Lemma run_ops_app l l' s : fst (run_ops (l ++ l') s) = fst (run_ops l' (fst (run_ops l s))).
Proof. revert s. induction l as [|o l IH]; intros s; [reflexivity|]. cbn [app]. rewrite !run_ops_cons. apply IH. Qed.
Lemma seek_to n s : Z.of_nat n <= ssize_max -> bio_seek (Z.of_nat n) 0 s = (mkstream (sbuf s) n, Ok (Z.of_nat n)).
Proof.
  intros L. unfold bio_seek. cbn zeta. replace (negb (is_ssize (Z.of_nat n) && is_cint 0)) with false.
  - destruct (Z.ltb_spec (Z.of_nat n) 0); [lia|]. cbn [andb Z.eqb]. destruct (Z.ltb_spec (ssize_max - 0) (Z.of_nat n)); [lia|].
    rewrite Z.add_0_l, Z.max_r, Nat2Z.id by lia. reflexivity.
  - unfold is_ssize. destruct (Z.leb_spec (- ssize_max - 1) (Z.of_nat n)); [|unfold ssize_max in *; lia].
    destruct (Z.leb_spec (Z.of_nat n) ssize_max); [reflexivity|lia].
Qed.
Lemma run_places l bs : Forall2 (fun x b => written_as (fst (snd x)) (snd (snd x)) b /\ Z.of_nat (fst x) <= ssize_max) l bs -> forall s,
  sbuf (fst (run_ops (write_places l) s)) = fold_left place_bytes (combine (map fst l) bs) (sbuf s) /\
  Forall (fun r => exists a, r = Ok a) (snd (run_ops (write_places l) s)).
Proof.
  intros F. induction F as [|(p, (f, v)) b l bs (W & L) F IH]; intros s; [split; [reflexivity|constructor]|]. cbn [fst snd] in *.
  apply written_bytes in W.
  assert (run_ops (write_places ((p, (f, v)) :: l)) s =
    (fst (run_ops (write_places l) (bio_write b (mkstream (sbuf s) p))),
     Ok (ANumber (Z.of_nat p)) :: Ok ADone :: snd (run_ops (write_places l) (bio_write b (mkstream (sbuf s) p))))) as ->.
  { change (write_places ((p, (f, v)) :: l)) with (OSeek (Z.of_nat p) 0 :: OWrite f v :: write_places l).
    cbn [run_ops run_op]. unfold answers, pbind, pret. rewrite seek_to by exact L. unfold write_instr. rewrite W.
    destruct (run_ops (write_places l) _). reflexivity. }
  specialize (IH (bio_write b (mkstream (sbuf s) p))). destruct IH as (IH1 & IH2). cbn [fst snd].
  split; [rewrite IH1; reflexivity|]. constructor; [eauto|]. constructor; [eauto|exact IH2].
Qed.
Lemma write_read_value f t v s s' : has_type f t -> write_instr f v s = (s', Ok tt) -> sized s' ->
  value_at (sbuf s') (spos s) (spos s') f (stored t v).
Proof.
  intros H W Sz. destruct (write_read_stored [([], f)] [([], t)] [([], v)] s s') as (vs & K & G & R).
  - constructor; [split; [reflexivity|exact H]|constructor].
  - constructor; [intros []|constructor].
  - cbn [write_dict]. unfold pbind, plift, ditem. cbn [dget]. rewrite (str_eqb_refl []). rewrite W. reflexivity.
  - exact Sz.
  - unfold value_at. cbn [read_dict] in R. unfold pbind in R. destruct (read_instr f _) as [s1 [w|e]]; [|discriminate].
    cbn [pret] in R. injection R as -> <-. destruct (G [] t (or_introl eq_refl)) as (v' & E1 & E2).
    cbn [dget] in E1, E2. rewrite (str_eqb_refl []) in E1, E2. injection E1 as <-. injection E2 as ->. destruct s'; reflexivity.
Qed.
