(** C91: writing that is interrupted. *)
From Verif Require Import PyBase IntBytes Utf8 StructFmt Stream Interrupt.
From Verif Require Import SpecWire ProofBase ProofInt ProofUtf8 ProofWire ProofRecord Props_Stream.
Local Open Scope nat_scope.

(** Without an exception from outside nothing is different. *)
Lemma dict_until_enough f vals : forall s n, length f <= n ->
  match write_dict f vals s with
  | (s', Ok _) => write_dict_until f vals s n = (s', n - length f, Returned)
  | (s', Err e) => exists n', write_dict_until f vals s n = (s', n', Raised e)
  end.
Proof.
  induction f as [|(k, i) f IH]; intros s n L; cbn [write_dict write_dict_until length] in *.
  - unfold pret. rewrite Nat.sub_0_r. reflexivity.
  - unfold pbind, plift. destruct (ditem k vals) as [v|e]; [|eexists; reflexivity].
    destruct n as [|n]; [lia|]. unfold write_instr, write_instr_until. destruct (instr_bytes i v) as [b|e]; [|eexists; reflexivity].
    apply (IH (bio_write b s) n). lia.
Qed.
Theorem C91_not_interrupted f l s n : length l * length f <= n ->
  match write_repeatedly f l s with
  | (s', Ok _) => write_repeatedly_until f l s n = (s', n - length l * length f, Returned)
  | (s', Err e) => exists n', write_repeatedly_until f l s n = (s', n', Raised e)
  end.
Proof.
  revert s n. induction l as [|d l IH]; intros s n L; cbn [write_repeatedly write_repeatedly_until length Nat.mul] in *.
  - unfold pret. rewrite Nat.sub_0_r. reflexivity.
  - unfold pbind. pose proof (dict_until_enough f d s n) as D. destruct (write_dict f d s) as [s1 [u|e]].
    + rewrite D by lia. pose proof (IH s1 (n - length f)) as K. replace (n - (length f + length l * length f)) with (n - length f - length l * length f) by lia.
      apply K. lia.
    + destruct D as (n' & ->); [lia|]. eexists. reflexivity.
Qed.

(** A record of which the write is interrupted, or fails: exactly the first fields have been written. *)
Lemma dict_until_cut f vals : forall s n s' n' o, write_dict_until f vals s n = (s', n', o) ->
  match o with
  | Returned => write_dict f vals s = (s', Ok tt) /\ n = length f + n'
  | _ => exists f1 ki f2, f = f1 ++ ki :: f2 /\ write_dict f1 vals s = (s', Ok tt) /\ n = length f1 + n' /\ (o = Interrupted -> n' = 0)
  end.
Proof.
  induction f as [|(k, i) f IH]; intros s n s' n' o H; cbn [write_dict write_dict_until length] in *.
  - injection H as <- <- <-. split; reflexivity.
  - unfold pbind, plift. destruct (ditem k vals) as [v|e] eqn:D.
    2:{ injection H as <- <- <-. exists [], (k, i), f. split; [reflexivity|]. split; [reflexivity|]. split; [reflexivity|discriminate]. }
    destruct n as [|n]; cbn [write_instr_until] in H.
    + injection H as <- <- <-. exists [], (k, i), f. repeat split.
    + destruct (instr_bytes i v) as [b|e] eqn:B.
      2:{ injection H as <- <- <-. exists [], (k, i), f. split; [reflexivity|]. split; [reflexivity|]. split; [reflexivity|discriminate]. }
      apply IH in H. assert (forall g, write_dict g vals (bio_write b s) = (s', Ok tt) -> write_dict ((k, i) :: g) vals s = (s', Ok tt)) as W.
      { intros g G. cbn [write_dict]. unfold pbind, plift, write_instr. rewrite D, B. exact G. }
      destruct o as [|e|].
      * destruct H as (H & ->). split; [unfold write_instr; rewrite B; exact H|reflexivity].
      * destruct H as (f1 & ki & f2 & -> & H & -> & J). exists ((k, i) :: f1), ki, f2. split; [reflexivity|]. split; [apply W; exact H|]. split; [reflexivity|exact J].
      * destruct H as (f1 & ki & f2 & -> & H & -> & J). exists ((k, i) :: f1), ki, f2. split; [reflexivity|]. split; [apply W; exact H|]. split; [reflexivity|exact J].
Qed.
(** Whenever the write of a sequence of records ends early, with an exception of its own or from
    outside, the stream is as if some first records and then some first fields, but not all, of
    the next record had been written; and if it was interrupted after n operations, the
    operations were n complete fields. *)
Theorem C91_interrupted_write f l s n s' n' o :
  write_repeatedly_until f l s n = (s', n', o) -> o <> Returned ->
  exists l1 d l2 f1 ki f2 s1, l = l1 ++ d :: l2 /\ f = f1 ++ ki :: f2 /\
    write_repeatedly f l1 s = (s1, Ok tt) /\ write_dict f1 d s1 = (s', Ok tt) /\
    (o = Interrupted -> n = length l1 * length f + length f1).
Proof.
  revert s n. induction l as [|d l IH]; intros s n H N; cbn [write_repeatedly_until] in H.
  - injection H as <- <- <-. destruct (N eq_refl).
  - destruct (write_dict_until f d s n) as [[s1 n1] o1] eqn:D. apply dict_until_cut in D.
    destruct o1 as [|e|].
    + destruct D as (D & ->). apply IH in H as (l1 & d' & l2 & f1 & ki & f2 & s2 & -> & -> & W & W' & J); [|exact N].
      exists (d :: l1), d', l2, f1, ki, f2, s2. split; [reflexivity|]. split; [reflexivity|]. split.
      { cbn [write_repeatedly]. unfold pbind. rewrite D. exact W. }
      split; [exact W'|]. intros K. rewrite (J K). cbn [length Nat.mul]. lia.
    + destruct D as (f1 & ki & f2 & -> & D & -> & J). injection H as <- <- <-.
      exists [], d, l, f1, ki, f2, s. repeat split; auto. discriminate.
    + destruct D as (f1 & ki & f2 & -> & D & -> & J). injection H as <- <- <-.
      exists [], d, l, f1, ki, f2, s. repeat split; auto. cbn [length Nat.mul]. rewrite (J eq_refl). lia.
Qed.
(** Reading back what an interrupted or failed write has left gives exactly the records that were
    written completely, without an error (compare C13): that it ended early is not noticed. *)
Lemma format_types_app f1 ki f2 ts : format_types (f1 ++ ki :: f2) ts ->
  exists ts1 t ts2, ts = ts1 ++ t :: ts2 /\ format_types f1 ts1.
Proof.
  revert ts. induction f1 as [|a f1 IH]; intros ts F; inversion F as [|? t ? ts' E F']; subst.
  - exists [], t, ts'. split; [reflexivity|constructor].
  - destruct (IH _ F') as (ts1 & t1 & ts2 & -> & G). exists (t :: ts1), t1, ts2. split; [reflexivity|]. constructor; assumption.
Qed.
Lemma stops_record ts1 t ts2 vs b : record_of wire ts1 vs b -> nonempty_type (snd t) = true -> stops (ts1 ++ t :: ts2) b.
Proof.
  intros R N. induction R as [|x ty ts v vs b bs W R IH]; [destruct t; apply stop_before; exact N|].
  cbn [app]. eapply stop_later; eassumption.
Qed.
Theorem C91_early_end_goes_unnoticed f ts l n s' n' o :
  format_types f ts -> NoDup (dkeys f) -> (forall k t, In (k, t) ts -> nonempty_type t = true) -> Forall (blobs_exact ts) l ->
  write_repeatedly_until f l (stream_of []) n = (s', n', o) -> o <> Returned -> sized s' ->
  exists l1 d l2 vs s2, l = l1 ++ d :: l2 /\ Forall2 (restricts (dkeys f)) l1 vs /\
    read_repeatedly f (stream_of (getvalue s')) = (s2, Ok vs) /\ (o = Interrupted -> length l1 = n / length f).
Proof.
  intros F N Ne X W E Sz. destruct (C91_interrupted_write _ _ _ _ _ _ _ W E) as (l1 & d & l2 & f1 & ki & f2 & s1 & -> & Ef & W1 & W2 & J).
  apply write_repeatedly_ok in W1 as (b1 & D1 & ->). apply write_dict_ok in W2 as (b2 & D2 & ->).
  rewrite bio_write_app, bio_write_fresh in *. unfold getvalue, sized in *. cbn [sbuf] in *.
  apply Forall_app in X as (X1 & X2). inversion X2 as [|? ? Xd _]; subst.
  destruct (dicts_bytes_canonical _ _ _ _ F N X1 D1) as (vs & bs & G1 & G2 & ->).
  destruct (format_types_app _ _ _ _ F) as (ts1 & t & ts2 & -> & F1).
  destruct (dict_bytes_canonical f1 ts1 d b2) as (vd & _ & Rd); [exact F1| | |exact D2|].
  { intros k m b I. apply Xd. apply in_or_app. left. exact I. }
  { unfold dkeys in N |- *. rewrite map_app in N. revert N. clear. induction f1 as [|a f1 IH]; cbn [map app]; intros N; [constructor|].
    inversion N as [|? ? A B]; subst. constructor; [intros I; apply A; apply in_or_app; left; exact I|exact (IH B)]. }
  exists l1, d, l2, vs.
  assert (exists s2, read_repeatedly (f1 ++ ki :: f2) (stream_of (List.concat bs ++ b2)) = (s2, Ok vs)) as (s2 & R).
  { apply (C13_repeated_read_partial _ (ts1 ++ t :: ts2)); [exact F| | |].
    - unfold some_nonempty. rewrite existsb_app. cbn [existsb]. destruct t as (k, t). cbn [snd]. rewrite (Ne k t) by (apply in_or_app; right; left; reflexivity).
      rewrite orb_true_r. reflexivity.
    - unfold sized, stream_of. cbn [sbuf]. exact Sz.
    - exists bs, b2. split; [eapply Forall2_impl; [|exact G2]; apply record_canonical_wire|]. split; [reflexivity|].
      eapply stops_record; [apply record_canonical_wire; exact Rd|]. destruct t as (k, t). apply (Ne k t). apply in_or_app. right. left. reflexivity. }
  exists s2. split; [reflexivity|]. split; [exact G1|]. split; [exact R|].
  intros K. rewrite (J K), app_length. cbn [length]. apply (Nat.div_unique _ _ _ (length f1)); [lia|]. lia.
Qed.
(** Three records of five fields; the exception comes after seven writes, in the second record. *)
Example C91_example :
  exists s', write_repeatedly_until ex_fmt [ex_vals; dset (str "n") (VInt 7) ex_vals; ex_vals] (stream_of []) 7 = (s', 0, Interrupted) /\
  (exists s2 vs, read_repeatedly ex_fmt (stream_of (getvalue s')) = (s2, Ok vs) /\ length vs = 7 / length ex_fmt).
Proof. eexists. split; [vm_compute; reflexivity|]. do 2 eexists. split; vm_compute; reflexivity. Qed.
Print Assumptions C91_not_interrupted.
Print Assumptions C91_interrupted_write.
Print Assumptions C91_early_end_goes_unnoticed.
