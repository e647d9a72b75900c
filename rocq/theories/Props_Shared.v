(** C94: several threads that use one stream. *)
From Verif Require Import PyBase IntBytes Utf8 StructFmt Stream Shared SpecShared.
From Verif Require Import ProofBase ProofRecord.
Lemma Forall2_length {A B} (R : A -> B -> Prop) l l' : Forall2 R l l' -> length l = length l'.
Proof. induction 1; cbn [length]; congruence. Qed.

(** ** Without other threads *)
Fixpoint alone {A} (x : prog A) (s : stream) : stream * res A :=
  match x with
  | Done r => (s, r)
  | Access a k => let '(s', r) := do_access a s in alone (k r) s'
  end.
Lemma alone_pthen {A B} (x : prog A) (f : res A -> prog B) s :
  alone (pthen x f) s = let '(s', r) := alone x s in alone (f r) s'.
Proof.
  revert s. induction x as [r|a k IH]; intros s; cbn [pthen alone]; [reflexivity|].
  destruct (do_access a s) as (s', r). apply IH.
Qed.
Lemma alone_pgo {A B} (x : prog A) (f : A -> prog B) s :
  alone (pgo x f) s = pbind (alone x) (fun a => alone (f a)) s.
Proof.
  unfold pgo, pbind. rewrite alone_pthen. destruct (alone x s) as (s', [a|e]); reflexivity.
Qed.
Lemma alone_fixed n s : alone (g_fixed n) s = read_fixed_bytes n s.
Proof.
  unfold g_fixed, read_fixed_bytes, fixed_result, pbind. cbn [alone do_access]. destruct (bio_read n s) as (s', [b|e]); cbn [rbind]; [|reflexivity].
  destruct (_ <? _)%Z; [|reflexivity]. destruct (_ =? _)%nat; reflexivity.
Qed.
Lemma alone_pascal n s : alone (g_pascal n) s = read_pascal_bytes n s.
Proof.
  unfold g_pascal, read_pascal_bytes. destruct (n <=? 0)%Z; [reflexivity|]. rewrite alone_pgo. unfold pbind. rewrite alone_fixed.
  destruct (read_fixed_bytes n s) as (s', [b|e]); [apply alone_fixed|reflexivity].
Qed.
Lemma alone_read f s : alone (g_read f) s = read_instr f s.
Proof.
  destruct f as [fmt|i|i n|]; cbn [g_read read_instr].
  - rewrite alone_pgo. unfold pbind, plift. cbn [alone]. destruct (struct_calcsize fmt) as [n|e]; [|reflexivity].
    rewrite alone_pgo. unfold pbind. rewrite alone_fixed. destruct (read_fixed_bytes n s) as (s', [b|e]); [|reflexivity]. cbn [alone]. unfold unpack_result.
    destruct (struct_unpack fmt b) as [[|v [|w l]]|e]; reflexivity.
  - rewrite alone_pgo. unfold pbind, plift. rewrite alone_pascal. destruct (read_pascal_bytes default_size s) as (s', [b|e]); [|reflexivity].
    cbn [alone]. destruct i; try reflexivity. destruct (utf8_decode b); reflexivity.
  - rewrite alone_pgo. unfold pbind, plift. rewrite alone_pascal. destruct (read_pascal_bytes n s) as (s', [b|e]); [|reflexivity].
    cbn [alone]. destruct i; try reflexivity. destruct (utf8_decode b); reflexivity.
  - reflexivity.
Qed.
Lemma alone_read_dict f s : alone (g_read_dict f) s = read_dict f s.
Proof.
  revert s. induction f as [|(k, i) f IH]; intros s; cbn [g_read_dict read_dict]; [reflexivity|].
  rewrite alone_pgo. unfold pbind. rewrite alone_read. destruct (read_instr i s) as (s1, [v|e]); [|reflexivity].
  rewrite alone_pgo. unfold pbind. rewrite IH. destruct (read_dict f s1) as (s2, [r|e]); reflexivity.
Qed.
Lemma alone_write f v s : alone (g_write f v) s = write_instr f v s.
Proof. unfold g_write, write_instr. destruct (instr_bytes f v); reflexivity. Qed.
Lemma alone_write_dict f d s : alone (g_write_dict f d) s = write_dict f d s.
Proof.
  revert s. induction f as [|(k, i) f IH]; intros s; cbn [g_write_dict write_dict]; [reflexivity|].
  rewrite alone_pgo. unfold pbind, plift. cbn [alone]. destruct (ditem k d) as [v|e]; [|reflexivity].
  rewrite alone_pgo. unfold pbind. rewrite alone_write. destruct (write_instr i v s) as (s1, [u|e]); [|reflexivity]. apply IH.
Qed.
Lemma alone_write_repeatedly f l s : alone (g_write_repeatedly f l) s = write_repeatedly f l s.
Proof.
  revert s. induction l as [|d l IH]; intros s; cbn [g_write_repeatedly write_repeatedly]; [reflexivity|].
  rewrite alone_pgo. unfold pbind. rewrite alone_write_dict. destruct (write_dict f d s) as (s1, [u|e]); [|reflexivity]. apply IH.
Qed.
Lemma alone_call c s : alone (call_prog c) s = sequential c s.
Proof.
  destruct c; cbn [call_prog sequential]; unfold answering; rewrite alone_pgo; unfold pbind, answers;
    rewrite ?alone_read, ?alone_read_dict, ?alone_write, ?alone_write_dict, ?alone_write_repeatedly.
  - destruct (read_instr f s) as (s', [a|e]); reflexivity.
  - destruct (read_dict f s) as (s', [a|e]); reflexivity.
  - destruct (write_instr f v s) as (s', [a|e]); reflexivity.
  - destruct (write_dict f d s) as (s', [a|e]); reflexivity.
  - destruct (write_repeatedly f l s) as (s', [a|e]); reflexivity.
Qed.

Lemma nth_set_same {A} i (x y : A) l : nth_error l i = Some y -> nth_error (set_thread i x l) i = Some x.
Proof. revert i. induction l as [|z l IH]; intros [|i] H; try discriminate; cbn [set_thread nth_error] in *; [reflexivity|auto]. Qed.
Lemma nth_set_other {A} i j (x : A) l : i <> j -> nth_error (set_thread i x l) j = nth_error l j.
Proof.
  revert i j. induction l as [|z l IH]; intros [|i] [|j] N; cbn [set_thread nth_error]; try reflexivity; [destruct (N eq_refl)|]. apply IH. congruence.
Qed.
Lemma set_set {A} i (x y : A) l : set_thread i x (set_thread i y l) = set_thread i x l.
Proof. revert i. induction l as [|z l IH]; intros [|i]; cbn [set_thread]; [reflexivity..|]. rewrite IH. reflexivity. Qed.
Lemma set_map {A B} (g : A -> B) i x l : set_thread i (g x) (map g l) = map g (set_thread i x l).
Proof. revert i. induction l as [|z l IH]; intros [|i]; cbn [set_thread map]; [reflexivity..|]. rewrite IH. reflexivity. Qed.
Lemma set_length {A} i (x : A) l : length (set_thread i x l) = length l.
Proof. revert i. induction l as [|z l IH]; intros [|i]; cbn [set_thread length]; auto. Qed.
Lemma set_same {A} i (x : A) l : nth_error l i = Some x -> set_thread i x l = l.
Proof. revert i. induction l as [|z l IH]; intros [|i] H; try discriminate; cbn [set_thread nth_error] in *; [congruence|]. rewrite (IH _ H). reflexivity. Qed.

(** A call during which no other thread runs is the plain method. *)
Theorem C94_uninterleaved clients i c k s s' r :
  nth_error clients i = Some (Call c k) -> sequential c s = (s', r) ->
  exists n, run_threads (repeat i n) (s, map thread clients) = (s', map thread (set_thread i (k r) clients)).
Proof.
  intros N E. rewrite <- alone_call in E. rewrite <- set_map.
  assert (nth_error (map thread clients) i = Some (pthen (call_prog c) (fun r => thread (k r)))) as N'
    by (rewrite nth_error_map, N; reflexivity).
  clear N. revert N' E. generalize (map thread clients) as ts. generalize (call_prog c) as x. clear clients c.
  intros x. revert s. induction x as [r0|a g IH]; intros s ts N E; cbn [alone pthen] in *.
  - injection E as <- <-. exists O. cbn [repeat run_threads]. rewrite (set_same _ _ _ N). reflexivity.
  - destruct (do_access a s) as (s1, r1) eqn:D.
    destruct (IH r1 s1 (set_thread i (pthen (g r1) (fun r => thread (k r))) ts)) as (n & R); [eapply nth_set_same; exact N|exact E|].
    exists (S n). cbn [repeat run_threads step_thread]. rewrite N, D, R. rewrite set_set. reflexivity.
Qed.

(** ** Calls that do one operation *)
Lemma one_field_prog c : one_field c ->
  (exists r, call_prog c = Done r /\ forall s, sequential c s = (s, r)) \/
  (exists a k g, call_prog c = Access a k /\ (forall r, k r = Done (g r)) /\
     forall s, sequential c s = let '(s', r) := do_access a s in (s', g r)).
Proof.
  intros O. assert (
    (exists r, call_prog c = Done r) \/ (exists a k g, call_prog c = Access a k /\ (forall r, k r = Done (g r)))) as [(r & E)|(a & k & g & E & K)].
  { destruct c as [f|f|f v|f d|f l]; try contradiction; cbn [call_prog].
    - destruct f as [fmt|i|i n|]; try contradiction. cbn [g_read]. unfold answering, pgo. cbn [pthen].
      destruct (struct_calcsize fmt) as [n|e]; [|left; eexists; reflexivity]. right. unfold g_fixed. cbn [pthen].
      eexists _, _, (fun r => match fixed_result n r with
        | Ok b => match unpack_result fmt b with Ok v => Ok (Value v) | Err e => Err e end
        | Err e => Err e end). split; [reflexivity|].
      intros r. cbn beta. destruct (fixed_result n r) as [b|e]; [|reflexivity]. cbn [pthen]. destruct (unpack_result fmt b); reflexivity.
    - destruct f as [|(k, [fmt| | |]) [|? ?]]; try contradiction. cbn [g_read_dict g_read]. unfold answering, pgo. cbn [pthen].
      destruct (struct_calcsize fmt) as [n|e]; [|left; eexists; reflexivity]. right. unfold g_fixed. cbn [pthen].
      eexists _, _, (fun r => match fixed_result n r with
        | Ok b => match unpack_result fmt b with Ok v => Ok (Record_ [(k, v)]) | Err e => Err e end
        | Err e => Err e end). split; [reflexivity|].
      intros r. cbn beta. destruct (fixed_result n r) as [b|e]; [|reflexivity]. cbn [pthen]. destruct (unpack_result fmt b); reflexivity.
    - unfold answering, pgo, g_write. destruct (instr_bytes f v) as [b|e]; cbn [pthen]; [right|left; eexists; reflexivity].
      eexists _, _, (fun _ => Ok Nothing). split; reflexivity.
    - destruct f as [|(k, i) [|? ?]]; try contradiction. cbn [g_write_dict]. unfold answering, pgo, g_write. cbn [pthen].
      destruct (ditem k d) as [v|e]; [|left; eexists; reflexivity].
      destruct (instr_bytes i v) as [b|e]; cbn [pthen]; [right|left; eexists; reflexivity].
      eexists _, _, (fun _ => Ok Nothing). split; reflexivity. }
  - left. exists r. split; [exact E|]. intros s. rewrite <- alone_call, E. reflexivity.
  - right. exists a, k, g. split; [exact E|]. split; [exact K|]. intros s. rewrite <- alone_call, E. cbn [alone].
    destruct (do_access a s) as (s', r). rewrite K. reflexivity.
Qed.
Lemma in_turn_app s l1 s1 l2 s2 : in_turn s l1 s1 -> in_turn s1 l2 s2 -> in_turn s (l1 ++ l2) s2.
Proof. intros A. induction A; intros B; [exact B|]. econstructor; eauto. Qed.
Lemma path_app c l1 c1 l2 c2 : path c l1 c1 -> path c1 l2 c2 -> path c (l1 ++ l2) c2.
Proof. intros A. induction A; intros B; [exact B|]. constructor. auto. Qed.
Lemma those_app {A} i (l1 l2 : list (nat * A)) : those i (l1 ++ l2) = those i l1 ++ those i l2.
Proof. unfold those. rewrite filter_app, map_app. reflexivity. Qed.
Lemma those_own {A} i (l : list A) : those i (map (pair i) l) = l.
Proof.
  unfold those. induction l as [|a l IH]; [reflexivity|]. cbn [map filter fst]. rewrite Nat.eqb_refl. cbn [map snd]. f_equal. exact IH.
Qed.
Lemma those_foreign {A} i j (l : list A) : i <> j -> those j (map (pair i) l) = [].
Proof.
  intros N. unfold those. induction l as [|a l IH]; [reflexivity|]. cbn [map filter fst]. destruct (Nat.eqb_spec i j) as [E|_]; [destruct (N E)|exact IH].
Qed.

(** The next operation of a client, after the calls that need none. *)
Lemma client_next c : only one_field c ->
  exists l c', path c l c' /\ only one_field c' /\ thread c' = thread c /\ (forall s, in_turn s l s) /\
    ((c' = Stop) \/
     (exists call k a g h, c' = Call call k /\ thread c' = Access a g /\ (forall r, g r = thread (k (h r))) /\
        forall s, sequential call s = let '(s', r) := do_access a s in (s', h r))).
Proof.
  induction c as [|c k IH]; intros O.
  - exists [], Stop. split; [constructor|]. split; [exact O|]. split; [reflexivity|]. split; [constructor|]. left. reflexivity.
  - destruct O as (O & Ok). destruct (one_field_prog c O) as [(r & E & Sq)|(a & g & h & E & K & Sq)].
    + destruct (IH r (Ok r)) as (l & c' & Pa & O' & T & I & H). exists ((c, r) :: l), c'. split; [constructor; exact Pa|].
      split; [exact O'|]. split; [cbn [thread]; rewrite E; exact T|]. split; [intros s; econstructor; [apply Sq|apply I]|exact H].
    + exists [], (Call c k). split; [constructor|]. split; [split; assumption|]. split; [reflexivity|]. split; [constructor|]. right.
      exists c, k, a, (fun r => pthen (g r) (fun r => thread (k r))), h. split; [reflexivity|]. split; [cbn [thread]; rewrite E; reflexivity|].
      split; [intros r; rewrite K; reflexivity|exact Sq].
Qed.
(** All clients at the end of what they do without an operation. *)
Lemma settle clients : Forall (only one_field) clients ->
  forall a, exists trace clients', Forall2 (fun c c' => only one_field c' /\ thread c' = thread c) clients clients' /\
    (forall s, in_turn s (map snd trace) s) /\
    (forall i, (i < a)%nat -> those i trace = []) /\
    (forall i c c', nth_error clients i = Some c -> nth_error clients' i = Some c' -> path c (those (a + i) trace) c') /\
    (Forall (fun c => is_done (thread c)) clients -> Forall (eq Stop) clients').
Proof.
  induction 1 as [|c clients O F IH]; intros a.
  - exists [], []. split; [constructor|]. split; [constructor|]. split; [reflexivity|]. split; [intros [|i] ? ? H; discriminate|constructor].
  - destruct (IH (S a)) as (trace & clients' & F2 & I & B & Pa & D). destruct (client_next c O) as (l & c' & Pc & O' & T & Ic & H).
    exists (map (pair a) l ++ trace), (c' :: clients'). split; [constructor; [split; assumption|exact F2]|]. split.
    { intros s. rewrite map_app, map_map. cbn [snd]. rewrite map_id. eapply in_turn_app; [apply Ic|apply I]. }
    split; [intros i L; rewrite those_app, those_foreign by lia; apply B; lia|]. split.
    + intros [|i] d d' N N'; cbn [nth_error] in N, N'.
      * injection N as <-. injection N' as <-. rewrite Nat.add_0_r, those_app, those_own, B by lia. rewrite app_nil_r. exact Pc.
      * rewrite those_app, those_foreign by lia. replace (a + S i)%nat with (S a + i)%nat by lia. apply (Pa _ _ _ N N').
    + intros Da. inversion Da as [|? ? D1 D2]; subst. constructor; [|apply D; exact D2].
      destruct H as [->|(call & k & b & g & h & -> & E & _)]; [reflexivity|]. rewrite <- T, E in D1. destruct D1.
Qed.

(** Threads that only write single fields and read single fields of fixed size: whatever the
    schedule, everything is as if the calls had been made one after the other, those of each thread
    in their order. *)
Theorem C94_single_fields clients sched s s' ts :
  Forall (only one_field) clients -> run_threads sched (s, map thread clients) = (s', ts) ->
  exists trace clients', ts = map thread clients' /\ length clients' = length clients /\
    in_turn s (map snd trace) s' /\
    (forall i c c', nth_error clients i = Some c -> nth_error clients' i = Some c' -> path c (those i trace) c') /\
    (Forall is_done ts -> Forall (eq Stop) clients').
Proof.
  revert s clients. induction sched as [|i sched IH]; intros s clients O R; cbn [run_threads] in R.
  - injection R as <- <-. destruct (settle clients O 0) as (trace & clients' & F2 & I & _ & Pa & D).
    exists trace, clients'. split; [|split; [symmetry; eapply Forall2_length; exact F2|split; [apply I|split; [exact Pa|]]]].
    + clear -F2. induction F2 as [|c c' l l' (_ & E) F2 IH]; [reflexivity|]. cbn [map]. rewrite E, IH. reflexivity.
    + intros Fd. apply D. apply (proj1 (Forall_map thread is_done clients)). exact Fd.
  - unfold step_thread in R. rewrite nth_error_map in R. destruct (nth_error clients i) as [c|] eqn:N; cbn [option_map] in R; [|apply IH; assumption].
    assert (only one_field c) as Oc by (rewrite Forall_forall in O; apply O; eapply nth_error_In; exact N).
    destruct (client_next c Oc) as (l & c' & Pc & O' & T & Ic & H).
    destruct H as [->|(call & k & a & g & h & -> & E & G & Sq)].
    { rewrite <- T in R. cbn [thread] in R. apply IH; assumption. }
    rewrite <- T, E in R. destruct (do_access a s) as (s1, r) eqn:A. rewrite G, set_map in R.
    destruct (IH s1 (set_thread i (k (h r)) clients)) as (trace & clients' & Et & L & I & Pa & D); [|exact R|].
    { destruct O' as (_ & O'). clear -O O'. revert i. induction O as [|c l O F IH]; intros [|i]; cbn [set_thread]; constructor; auto. }
    exists (map (pair i) (l ++ [(call, h r)]) ++ trace), clients'. split; [exact Et|]. split; [rewrite L; apply set_length|]. split; [|split; [|exact D]].
    + rewrite map_app, map_map. cbn [snd]. rewrite map_id. eapply in_turn_app; [|exact I]. eapply in_turn_app; [apply Ic|].
      econstructor; [rewrite Sq, A; reflexivity|constructor].
    + intros j d d' Nj Nj'. rewrite those_app. destruct (Nat.eq_dec i j) as [<-|Ne].
      * rewrite those_own. rewrite N in Nj. injection Nj as <-. eapply path_app; [eapply path_app; [exact Pc|constructor; constructor]|].
        apply (Pa i); [eapply nth_set_same; exact N|exact Nj'].
      * rewrite those_foreign by exact Ne. apply (Pa j); [rewrite nth_set_other by exact Ne; exact Nj|exact Nj'].
Qed.

(** ** Threads that write records *)
Inductive writes : list (res bytes) -> prog unit -> Prop :=
| writes_end : writes [] (Done (Ok tt))
| writes_fail e l : writes (Err e :: l) (Done (Err e))
| writes_field b l k : (forall r, writes l (k r)) -> writes (Ok b :: l) (Access (Writing b) k).
Lemma writes_then l1 l2 x y : writes l1 x -> writes l2 y ->
  writes (l1 ++ l2) (dog _ <- x; y).
Proof.
  intros W W2. unfold pgo. induction W as [|e l|b l k W IH]; cbn [app pthen]; [exact W2|constructor|]. constructor. exact IH.
Qed.
Lemma dict_writes f d : writes (map (fun x => do? v <- ditem (fst x) d; instr_bytes (snd x) v) f) (g_write_dict f d).
Proof.
  induction f as [|(k, i) f IH]; cbn [map g_write_dict fst snd]; [constructor|]. unfold pgo at 1. cbn [pthen].
  destruct (ditem k d) as [v|e]; cbn [rbind]; [|constructor]. unfold g_write. destruct (instr_bytes i v) as [b|e]; [|constructor].
  apply (writes_then [Ok b]); [|exact IH]. constructor. constructor.
Qed.
Lemma repeatedly_writes f l : writes (fields f l) (g_write_repeatedly f l).
Proof.
  induction l as [|d l IH]; cbn [fields flat_map g_write_repeatedly]; [constructor|]. apply writes_then; [apply dict_writes|exact IH].
Qed.
Lemma bio_write_nil s : bio_write [] s = s.
Proof. reflexivity. Qed.
Lemma run_writers sched : forall s ts ls s' ts', Forall2 writes ls ts -> run_threads sched (s, ts) = (s', ts') ->
  exists log, s' = bio_write (List.concat (map snd log)) s /\ length ts' = length ts /\
    forall i l, nth_error ls i = Some l -> exists l' x, l = map Ok (those i log) ++ l' /\ nth_error ts' i = Some x /\ writes l' x.
Proof.
  induction sched as [|i sched IH]; intros s ts ls s' ts' F R; cbn [run_threads] in R.
  - injection R as <- <-. exists []. split; [reflexivity|]. split; [reflexivity|]. intros i l N. exists l.
    destruct (nth_error ts i) as [x|] eqn:E.
    + exists x. split; [reflexivity|]. split; [reflexivity|]. revert i N E. clear -F.
      induction F as [|l0 x0 ls ts W F IH]; intros [|i] N E; try discriminate; cbn [nth_error] in *; [congruence|]. eapply IH; eassumption.
    + exfalso. apply nth_error_None in E. apply Forall2_length in F. assert (i < length ls)%nat by (apply nth_error_Some; congruence). lia.
  - unfold step_thread in R. destruct (nth_error ts i) as [[r|a k]|] eqn:N; [eapply IH; eassumption| |eapply IH; eassumption].
    destruct (do_access a s) as (s1, r) eqn:A.
    assert (exists b l0, nth_error ls i = Some (Ok b :: l0) /\ a = Writing b /\ Forall2 writes (set_thread i l0 ls) (set_thread i (k r) ts)) as (b & l0 & N0 & -> & F').
    { clear IH R A. revert i N. induction F as [|l x ls ts W F IH]; intros [|i] N; try discriminate; cbn [nth_error set_thread] in *.
      - injection N as ->. inversion W as [| |b l0 k0 W']; subst. exists b, l0. split; [reflexivity|]. split; [reflexivity|]. constructor; [apply W'|exact F].
      - destruct (IH _ N) as (b & l0 & N0 & E & F'). exists b, l0. split; [exact N0|]. split; [exact E|]. constructor; assumption. }
    injection A as <- <-. destruct (IH _ _ _ _ _ F' R) as (log & -> & L & H). exists ((i, b) :: log). split; [|split].
    + cbn [map snd List.concat]. rewrite bio_write_app. reflexivity.
    + rewrite L. apply set_length.
    + intros j l Nj. destruct (Nat.eq_dec i j) as [<-|Ne].
      * rewrite N0 in Nj. injection Nj as <-. destruct (H i l0) as (l' & x & -> & Nx & W); [eapply nth_set_same; exact N0|].
        exists l', x. split; [|split; assumption]. unfold those. cbn [filter fst]. rewrite Nat.eqb_refl. reflexivity.
      * destruct (H j l) as (l' & x & -> & Nx & W); [rewrite nth_set_other by exact Ne; exact Nj|].
        exists l', x. split; [|split; assumption]. unfold those. cbn [filter fst]. destruct (Nat.eqb_spec i j) as [E|_]; [destruct (Ne E)|reflexivity].
Qed.
(** Threads that write sequences of records: what is written is some sequence of whole fields, in
    which each thread's fields are the first ones of its records, in their order; all of them, if
    its call has returned, and those before the first that cannot be written, if it has raised. *)
Theorem C94_writers jobs sched s s' ts :
  run_threads sched (s, map (fun j => g_write_repeatedly (fst j) (snd j)) jobs) = (s', ts) ->
  exists log : list (nat * bytes), s' = bio_write (List.concat (map snd log)) s /\
    forall i f l, nth_error jobs i = Some (f, l) ->
      exists later x, fields f l = map Ok (those i log) ++ later /\ nth_error ts i = Some x /\
        (forall r, x = Done r -> match r with Ok _ => later = [] | Err e => exists l', later = Err e :: l' end) /\
        ((forall r, x <> Done r) -> exists b l', later = Ok b :: l').
Proof.
  intros R. destruct (run_writers sched s (map (fun j => g_write_repeatedly (fst j) (snd j)) jobs) (map (fun j => fields (fst j) (snd j)) jobs) s' ts) as (log & E & _ & H); [|exact R|].
  { clear. induction jobs as [|j jobs IH]; cbn [map]; constructor; [apply repeatedly_writes|exact IH]. }
  exists log. split; [exact E|]. intros i f l N. destruct (H i (fields f l)) as (later & x & El & Nx & W); [rewrite nth_error_map, N; reflexivity|].
  exists later, x. split; [exact El|]. split; [exact Nx|]. inversion W; subst.
  - split; [intros r K; injection K as <-; reflexivity|intros K; destruct (K _ eq_refl)].
  - split; [intros r K; injection K as <-; eauto|intros K; destruct (K _ eq_refl)].
  - split; [intros r K; discriminate|eauto].
Qed.

(** Against what one would like: two threads write a record of two fields each, without an error, and
    what is read afterwards are two records that no one has written. *)
Definition two_texts : fmt_dict := [(str "name", FPascal STRING); (str "value", FPascal STRING)].
Definition text_pair (a b : string) : dict pyval := [(str "name", VStr (str a)); (str "value", VStr (str b))].
Definition done_ok (x : prog unit) : bool := match x with Done (Ok _) => true | _ => false end.
Theorem C94_records_mix_refuted :
  let d1 := text_pair "user" "alice" in
  let d2 := text_pair "host" "example" in
  exists sched s' ts r1 r2 s2,
    run_threads sched (stream_of [], [g_write_repeatedly two_texts [d1]; g_write_repeatedly two_texts [d2]]) = (s', ts) /\
    forallb done_ok ts = true /\
    read_repeatedly two_texts (stream_of (getvalue s')) = (s2, Ok [r1; r2]) /\
    forall r, In r [r1; r2] -> r <> d1 /\ r <> d2.
Proof.
  cbn zeta. exists [0; 1; 0; 1]%nat.
  eexists (mkstream _ _), _, (text_pair "user" "host"), (text_pair "alice" "example"), (mkstream _ _).
  split; [vm_compute; reflexivity|]. split; [reflexivity|]. split; [vm_compute; reflexivity|].
  intros r [<-|[<-|[]]]; split; intros E; vm_compute in E; discriminate E.
Qed.
(** Two threads read one byte string each, and get values that are not in the stream. *)
Theorem C94_readers_mix_refuted :
  let a := VBytes [x00; x00; x00; x02] in
  let b := VBytes [x07; x08] in
  exists s0 s1 s2 sched s' va vb,
    write_instr (FPascal BYTES) a (stream_of []) = (s1, Ok tt) /\ write_instr (FPascal BYTES) b s1 = (s0, Ok tt) /\
    s2 = stream_of (getvalue s0) /\
    run_threads sched (s2, [g_read (FPascal BYTES); g_read (FPascal BYTES)]) = (s', [Done (Ok va); Done (Ok vb)]) /\
    va <> a /\ va <> b /\ vb <> a /\ vb <> b.
Proof.
  cbn zeta. eexists (mkstream _ _), (mkstream _ _), (mkstream _ _), [0; 1; 1; 0]%nat, (mkstream _ _), (VBytes [x00; x02; x07; x08]), (VBytes [x00; x00]).
  split; [vm_compute; reflexivity|]. split; [vm_compute; reflexivity|]. split; [vm_compute; reflexivity|]. split; [vm_compute; reflexivity|].
  repeat split; discriminate.
Qed.

(** A thread that writes two numbers and one that reads twice and then writes what it has read (or
    7, if there was nothing to read): a schedule, and the order of the calls. *)
Definition ex_writer : client := Call (WriteField (FStruct (str ">I")) (VInt 5)) (fun _ => Call (WriteField (FStruct (str ">I")) (VInt 6)) (fun _ => Stop)).
Definition ex_reader : client := Call (ReadField (FStruct (str ">H"))) (fun r => Call (ReadField (FStruct (str ">H"))) (fun r =>
  Call (WriteField (FStruct (str ">H")) (match r with Ok (Value v) => v | _ => VInt 7 end)) (fun _ => Stop))).
Example C94_example :
  Forall (only one_field) [ex_writer; ex_reader] /\
  run_threads [1; 0; 1; 1; 0]%nat (stream_of (repeat x01 8), map thread [ex_writer; ex_reader]) =
    (mkstream [x01; x01; x00; x00; x00; x05; x01; x01; x01; x01; x00; x00; x00; x06] 14, [Done (Ok tt); Done (Ok tt)]) /\
  fields two_texts [text_pair "user" "alice"; [(str "name", VInt 3)]] =
    [Ok [x00; x00; x00; x04; x75; x73; x65; x72]; Ok [x00; x00; x00; x05; x61; x6c; x69; x63; x65]; Err ValueError; Err (KeyError (VStr (str "value")))].
Proof.
  split; [|split; vm_compute; reflexivity].
  constructor; [cbn; auto|]. constructor; [|constructor]. cbn. split; [exact I|]. intros _. split; [exact I|]. intros r. split; auto.
Qed.
Print Assumptions C94_uninterleaved.
Print Assumptions C94_single_fields.
Print Assumptions C94_writers.
Print Assumptions C94_records_mix_refuted.
Print Assumptions C94_readers_mix_refuted.
