(** Which warnings the parsing and construction of keys can give. *)
From Verif Require Import PyBase IntBytes Utf8 StructFmt Stream Text Classes Key.
From Verif Require Import SpecWire SpecKey ProofBase ProofWire ProofRecord ProofKey.
Open Scope Z_scope.

(** Warnings about a single key (not about a line, a pair, a list of keys). *)
Definition key_warning (e : event) : bool :=
  match e with
  | Warn (WClearType | WCheckInts | WPairType _ | WPairValues _ | WPadding | WLine _) => false
  | Warn _ => true
  | Prompt => false
  end.
Definition keylog {A} (x : W A) : Prop := Forall (fun e => key_warning e = true) (fst x).

Lemma keylog_bind {A B} (x : W A) (f : A -> W B) : keylog x -> (forall a, keylog (f a)) -> keylog (wbind x f).
Proof.
  unfold keylog. destruct x as [l [a|e]]; cbn [wbind fst]; [|auto].
  intros H F. specialize (F a). destruct (f a) as [l' r]. cbn [fst] in *. apply Forall_app. auto.
Qed.
Lemma keylog_seq {B} (x : W unit) (y : W B) : keylog x -> keylog y -> keylog (wseq x y).
Proof. intros H H'. apply keylog_bind; auto. Qed.
Lemma keylog_lift {A} (r : res A) : keylog (wlift r).
Proof. constructor. Qed.
Lemma keylog_ret {A} (a : A) : keylog (wret a).
Proof. constructor. Qed.
Lemma keylog_err {A} e : keylog (@werr A e).
Proof. constructor. Qed.
Lemma keylog_warn w : key_warning (Warn w) = true -> keylog (wwarn w).
Proof. repeat constructor. assumption. Qed.
Lemma keylog_when b x : keylog x -> keylog (wwhen b x).
Proof. destruct b; [auto|constructor]. Qed.
Lemma keylog_catch {A} (x : W A) h f : keylog x -> (forall e, keylog (f e)) -> keylog (wcatch x h f).
Proof.
  unfold keylog. intros H F. destruct x as [l [a|e]]; cbn [wcatch]; [auto|].
  destruct (h e); [|auto]. specialize (F e). destruct (f e) as [l' r]. cbn [fst] in *. apply Forall_app. auto.
Qed.
Lemma keylog_check_dict d f : keylog (check_dict d f).
Proof.
  induction f as [|(k, i) f IH]; [apply keylog_ret|]. cbn [check_dict]. apply keylog_seq; [|exact IH].
  unfold check_field. destruct (dget k d) as [v|]; [|apply keylog_warn; reflexivity].
  destruct i; [destruct (struct_pack _ _) as [u|[]] | destruct (is_instance _ _) | destruct (is_instance _ _) |];
    first [apply keylog_ret | apply keylog_err | apply keylog_warn; reflexivity].
Qed.
Lemma keylog_collect param acc l : keylog (collect_options param acc l).
Proof.
  revert acc; induction l as [|inner l IH]; intros acc; cbn [collect_options]; [apply keylog_ret|].
  destruct (dget (str "option") inner) as [[]|]; try apply keylog_err.
  destruct (dget (str "value") inner); try apply keylog_err.
  apply keylog_seq; [apply keylog_when, keylog_warn; reflexivity|apply IH].
Qed.
Lemma keylog_options param d : keylog (get_option_values_dict param d).
Proof.
  unfold get_option_values_dict. apply keylog_bind; [apply keylog_lift|]. intros v.
  apply keylog_bind; [apply keylog_lift|]. intros s. apply keylog_bind; [apply keylog_lift|].
  intros l. apply keylog_collect.
Qed.

Section Ec.
Variable ec : curve -> bytes -> bool.
Lemma keylog_signature pp d : (forall b, keylog (pp b)) -> keylog (get_signature_key pp d).
Proof.
  intros H. unfold get_signature_key. apply keylog_bind; [apply keylog_lift|]. intros [ | | | | ]; try apply keylog_err.
  apply keylog_bind; [apply H|]. intros k. apply keylog_seq; [apply keylog_when, keylog_warn; reflexivity|apply keylog_ret].
Qed.
Lemma keylog_steps pp c d l : (forall b, keylog (pp b)) -> keylog (run_steps ec pp c d l).
Proof.
  intros H. induction l as [|s l IH]; cbn [run_steps]; [apply keylog_ret|]. apply keylog_seq; [|exact IH].
  destruct s; cbn [check_step].
  - apply keylog_check_dict.
  - unfold check_ecdsa. destruct (dget _ d); [|apply keylog_ret].
    apply keylog_seq; [apply keylog_when, keylog_warn; reflexivity|].
    destruct (get_bytes "q" d); [|apply keylog_ret]. apply keylog_when, keylog_warn; reflexivity.
  - unfold check_ed_pub. destruct (get_bytes "public" d); [|apply keylog_ret].
    apply keylog_when, keylog_warn; reflexivity.
  - unfold check_ed_priv. destruct (get_bytes "private_public" d); [|apply keylog_ret].
    destruct (get_bytes "public" d); [|apply keylog_ret].
    apply keylog_seq; apply keylog_when, keylog_warn; reflexivity.
  - unfold check_cert, wdiscard.
    repeat apply keylog_seq.
    + destruct (dmem _ d); [|apply keylog_ret]. apply keylog_catch; [|intros; apply keylog_warn; reflexivity].
      apply keylog_bind; [apply keylog_lift|intros; apply keylog_ret].
    + destruct (get_bytes _ d); [|apply keylog_ret]. apply keylog_catch; [|intros; apply keylog_warn; reflexivity].
      apply keylog_bind; [apply keylog_lift|intros; apply keylog_ret].
    + destruct (get_bytes _ d); [|apply keylog_ret]. apply keylog_catch; [|intros; apply keylog_warn; reflexivity].
      apply keylog_bind; [apply keylog_options|intros; apply keylog_ret].
    + destruct (get_bytes _ d); [|apply keylog_ret]. apply keylog_catch; [|intros; apply keylog_warn; reflexivity].
      apply keylog_bind; [apply keylog_options|intros; apply keylog_ret].
    + destruct (get_bytes _ d); [|apply keylog_ret]. apply keylog_catch; [|intros; apply keylog_warn; reflexivity].
      apply keylog_bind; [apply keylog_signature; assumption|intros; apply keylog_ret].
Qed.
Lemma keylog_new_key pp kd h ps fo cl : (forall b, keylog (pp b)) -> keylog (new_key ec pp kd h ps fo cl).
Proof.
  intros H. unfold new_key. apply keylog_seq; [apply keylog_check_dict|].
  apply keylog_bind; [apply keylog_lift|]. intros kt. apply keylog_bind; [apply keylog_lift|]. intros c.
  apply keylog_seq; [apply keylog_steps; assumption|]. apply keylog_seq; [apply keylog_check_dict|apply keylog_ret].
Qed.
Lemma keylog_from_stream pp kd cl s : (forall b, keylog (pp b)) -> keylog (snd (key_from_stream ec pp kd cl s)).
Proof.
  intros H. unfold key_from_stream. destruct (read_key_parts kd s) as [s' [[[h ps] fo]|e]]; cbn [snd];
    [apply keylog_new_key; assumption|apply keylog_err].
Qed.
Lemma keylog_from_bytes_with pp kd b cl : (forall b, keylog (pp b)) -> keylog (key_from_bytes_with ec pp kd b cl).
Proof.
  intros H. unfold key_from_bytes_with. pose proof (keylog_from_stream pp kd cl (stream_of b) H) as K.
  destruct (key_from_stream ec pp kd cl (stream_of b)) as [s' w]. cbn [snd] in K.
  apply keylog_bind; [exact K|]. intros k. destruct (unread s'); [apply keylog_ret|].
  apply keylog_seq; [apply keylog_warn; reflexivity|apply keylog_ret].
Qed.
Lemma keylog_parse_pub b : keylog (parse_pub ec b).
Proof.
  unfold parse_pub. generalize (S (length b)) as n. intros n; revert b.
  induction n as [|n IH]; intros b; cbn [parse_pub_fuel]; [apply keylog_err|].
  apply keylog_from_bytes_with. exact IH.
Qed.
Lemma keylog_from_bytes kd b cl : keylog (key_from_bytes ec kd b cl).
Proof. apply keylog_from_bytes_with. apply keylog_parse_pub. Qed.
Lemma keylog_not_in {A} (x : W A) e : keylog x -> key_warning e = false -> ~ In e (fst x).
Proof. intros K N Hin. unfold keylog in K. rewrite Forall_forall in K. apply K in Hin. congruence. Qed.
End Ec.
