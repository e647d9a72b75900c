(** Counting reads: the counted parsers give what the parsers give, and the count is bounded. *)
From Verif Require Import PyBase IntBytes Utf8 StructFmt Stream Text Classes Key Crypto PrivateKeyList Work.
From Verif Require Import SpecWire SpecKey SpecCrypto SpecDepth SpecWork ProofBase ProofInt ProofUtf8 ProofWire ProofRecord ProofKey ProofCrypto ProofRead Props_Depth.
Open Scope Z_scope.

(** ** The counted functions are the functions *)
Lemma ebind {A B} (x : CP A) (y : P A) (f : A -> CP B) (g : A -> P B) :
  (forall s, snd (x s) = y s) -> (forall a s, snd (f a s) = g a s) -> forall s, snd (cpbind x f s) = pbind y g s.
Proof.
  intros Hx Hf s. unfold cpbind, pbind. rewrite <- Hx. destruct (x s) as [n [s' [a|e]]]; cbn [snd]; [|reflexivity].
  rewrite <- Hf. destruct (f a s'). reflexivity.
Qed.
Lemma ewbind {A B} (x : CW A) (y : W A) (f : A -> CW B) (g : A -> W B) :
  snd x = y -> (forall a, snd (f a) = g a) -> snd (cwbind x f) = wbind y g.
Proof.
  intros <- Hf. unfold cwbind, wbind. destruct x as [n [l [a|e]]]; cbn [snd]; [|reflexivity].
  rewrite <- Hf. destruct (f a) as [m [l' r]]. reflexivity.
Qed.
Lemma eswbind {A B} (x : CSW A) (y : SW A) (f : A -> CSW B) (g : A -> SW B) :
  (forall s, snd (x s) = y s) -> (forall a s, snd (f a s) = g a s) -> forall s, snd (cswbind x f s) = swbind y g s.
Proof.
  intros Hx Hf s. unfold cswbind, swbind. rewrite <- Hx. destruct (x s) as [n [s' [l [a|e]]]]; cbn [snd]; [|reflexivity].
  rewrite <- Hf. destruct (f a s') as [m [s2 [l2 r]]]. reflexivity.
Qed.
Lemma ecp {A} (x : P A) s : snd (cp x s) = x s. Proof. reflexivity. Qed.
Lemma eswp {A} (x : CP A) (y : P A) : (forall s, snd (x s) = y s) -> forall s, snd (cswp x s) = swp y s.
Proof. intros H s. unfold cswp, swp. rewrite <- H. destruct (x s) as [n [s' r]]. reflexivity. Qed.
Lemma esww {A} (x : CW A) (y : W A) : snd x = y -> forall s, snd (csww x s) = sww y s.
Proof. intros <- s. reflexivity. Qed.

Lemma e_fixed n s : snd (c_fixed n s) = read_fixed_bytes n s.
Proof. revert s. apply ebind; intros; reflexivity. Qed.
Lemma e_pascal n s : snd (c_pascal n s) = read_pascal_bytes n s.
Proof.
  unfold c_pascal, read_pascal_bytes. destruct (n <=? 0); [reflexivity|]. revert s. apply ebind; intros; apply e_fixed.
Qed.
Lemma e_instr i s : snd (c_instr i s) = read_instr i s.
Proof.
  destruct i; cbn [c_instr read_instr]; revert s.
  - apply ebind; [reflexivity|intros a]. apply ebind; [apply e_fixed|reflexivity].
  - apply ebind; [apply e_pascal|reflexivity].
  - apply ebind; [apply e_pascal|reflexivity].
  - reflexivity.
Qed.
Lemma e_dict f s : snd (c_dict f s) = read_dict f s.
Proof.
  revert s. induction f as [|[k i] f IH]; [reflexivity|]. cbn [c_dict read_dict].
  apply ebind; [apply e_instr|intros v]. apply ebind; [exact IH|reflexivity].
Qed.
Lemma e_loop n f acc s : snd (c_loop n f acc s) = read_loop n f acc s.
Proof.
  revert acc s. induction n as [|n IH]; intros acc s; [reflexivity|]. cbn [c_loop read_loop]. rewrite <- e_dict.
  destruct (c_dict f s) as [c [s' [d|e]]]; cbn [snd].
  - rewrite <- IH. destruct (c_loop n f (acc ++ [d]) s'). reflexivity.
  - destruct e as [empty msg| | | | | | | | | | | | | | | |]; try reflexivity. destruct empty; reflexivity.
Qed.

Lemma e_repeatedly f s : snd (c_repeatedly f s) = read_repeatedly f s.
Proof. unfold c_repeatedly, read_repeatedly. destruct f; [reflexivity|]. apply e_loop. Qed.
Lemma e_principals d : snd (c_principals d) = wlift (get_valid_principals d).
Proof.
  unfold get_valid_principals.
  transitivity (wbind (wlift (ditem (str "valid_principals") d)) (fun v => wbind (wlift (stream_of_val v)) (fun s =>
    wbind (wlift (snd (read_repeatedly [fld "principal" fS] s))) (fun l => wlift (rmap (ditem (str "principal")) l))))).
  - apply ewbind; [reflexivity|intros v]. apply ewbind; [reflexivity|intros s]. apply ewbind; [|reflexivity].
    rewrite <- e_repeatedly. destruct (c_repeatedly _ s) as [n [s' r]]. reflexivity.
  - unfold wlift, wbind. destruct (ditem _ d) as [v|e]; [|reflexivity]. cbn [rbind].
    destruct (stream_of_val v) as [s|e]; [|reflexivity]. cbn [rbind].
    destruct (snd (read_repeatedly _ s)) as [l|e]; reflexivity.
Qed.
Lemma e_options k d : snd (c_options k d) = get_option_values_dict k d.
Proof.
  unfold get_option_values_dict. apply ewbind; [reflexivity|intros v]. apply ewbind; [reflexivity|intros s].
  apply ewbind; [|reflexivity]. rewrite <- e_repeatedly. destruct (c_repeatedly _ s) as [n [s' r]]. reflexivity.
Qed.

Section Ec.
Variable ec : curve -> bytes -> bool.
Section Inner.
Variable cpp : bytes -> CW key.
Variable pp : bytes -> W key.
Hypothesis Hpp : forall b, snd (cpp b) = pp b.

Lemma e_authority d : snd (c_authority cpp d) = get_signature_key pp d.
Proof.
  unfold c_authority, get_signature_key. apply ewbind; [reflexivity|intros v].
  destruct v; try reflexivity. apply ewbind; [apply Hpp|reflexivity].
Qed.
Lemma ecatch {A} (x : CW A) (y : W A) h f : snd x = y ->
  snd (cwcatch (cdiscard x) h f) = wcatch (wdiscard y) h f.
Proof. intros H. unfold cwcatch. cbn [snd]. f_equal. unfold cdiscard, wdiscard. apply ewbind; [exact H|reflexivity]. Qed.
Lemma e_check_cert d : snd (c_check_cert cpp d) = check_cert pp d.
Proof.
  unfold c_check_cert, check_cert, wseq.
  apply ewbind; [reflexivity|intros _].
  apply ewbind; [destruct (get_bytes _ d); [|reflexivity]; apply ecatch, e_principals|intros _].
  apply ewbind; [destruct (get_bytes _ d); [|reflexivity]; apply ecatch, e_options|intros _].
  apply ewbind; [destruct (get_bytes _ d); [|reflexivity]; apply ecatch, e_options|intros _].
  destruct (get_bytes _ d); [|reflexivity]. apply ecatch, e_authority.
Qed.
Lemma e_run_steps c d l : snd (c_run_steps ec cpp c d l) = run_steps ec pp c d l.
Proof.
  induction l as [|s l IH]; [reflexivity|]. cbn [c_run_steps run_steps]. unfold wseq.
  apply ewbind; [|intros _; exact IH]. destruct s; try reflexivity. apply e_check_cert.
Qed.
Lemma e_new_key k h ps fo clear : snd (c_new_key ec cpp k h ps fo clear) = new_key ec pp k h ps fo clear.
Proof.
  unfold c_new_key, new_key, wseq at 1. apply ewbind; [reflexivity|intros _].
  apply ewbind; [reflexivity|intros kt]. apply ewbind; [reflexivity|intros c].
  unfold wseq at 1. apply ewbind; [apply e_run_steps|reflexivity].
Qed.
Lemma e_key_parts k s : snd (c_key_parts k s) = read_key_parts k s.
Proof.
  revert s. unfold c_key_parts, read_key_parts. apply ebind; [apply e_dict|intros h].
  apply ebind; [reflexivity|intros kt]. apply ebind; [reflexivity|intros c].
  apply ebind; [apply e_dict|intros ps]. apply ebind; [apply e_dict|reflexivity].
Qed.
Lemma e_key_from_stream k clear s : snd (c_key_from_stream ec cpp k clear s) = key_from_stream ec pp k clear s.
Proof.
  unfold c_key_from_stream, key_from_stream. rewrite <- e_key_parts.
  destruct (c_key_parts k s) as [n [s' [[[h ps] fo]|e]]]; cbn [snd]; [|reflexivity].
  rewrite <- e_new_key. destruct (c_new_key _ _ _ _ _ _ _). reflexivity.
Qed.
Lemma read_rest s : bio_read (-1) s = (mkstream (sbuf s) (spos s + length (unread s)), Ok (unread s)).
Proof. unfold bio_read. cbn [orb Z.ltb Z.compare]. change (ssize_max <? -1) with false. change (-1 <? - ssize_max - 1) with false.
  cbn [orb]. rewrite firstn_all. reflexivity. Qed.
Lemma e_key_from_bytes_with k b clear :
  snd (c_key_from_bytes_with ec cpp k b clear) = key_from_bytes_with ec pp k b clear.
Proof.
  unfold c_key_from_bytes_with, key_from_bytes_with. rewrite <- e_key_from_stream.
  destruct (c_key_from_stream ec cpp k clear (stream_of b)) as [n [s' w]]. cbn [snd].
  apply ewbind; [reflexivity|intros key]. unfold c_remainder, c_read. rewrite read_rest. unfold wlift, cwbind, cw.
  destruct (unread s'); reflexivity.
Qed.
End Inner.
Lemma e_parse_pub_fuel n b : snd (c_parse_pub_fuel ec n b) = parse_pub_fuel ec n b.
Proof. revert b. induction n as [|n IH]; intros b; [reflexivity|]. apply e_key_from_bytes_with. exact IH. Qed.
Lemma e_parse_pub b : snd (c_parse_pub ec b) = parse_pub ec b.
Proof. apply e_parse_pub_fuel. Qed.
Lemma e_key_from_bytes k b clear : snd (c_key_from_bytes ec k b clear) = key_from_bytes ec k b clear.
Proof. apply e_key_from_bytes_with, e_parse_pub. Qed.
End Ec.

Lemma etail {A} (x : nat * (stream * W A)) y : snd x = y -> snd (let '(n, (_, w)) := x in (n, w)) = snd y.
Proof. intros <-. destruct x as [n [s w]]. reflexivity. Qed.
Section EList.
Variable p : prims.
Lemma e_read_pubs f n s : snd (c_read_pubs p f n s) = read_pubs p f n s.
Proof.
  revert n s. induction f as [|f IH]; intros n; cbn [c_read_pubs read_pubs]; destruct (n <=? 0); try reflexivity.
  apply eswbind; [apply eswp, e_instr|intros b]. destruct b; try (apply esww; reflexivity).
  apply eswbind; [apply esww, e_key_from_bytes|intros k]. apply eswbind; [intros s; apply IH|reflexivity].
Qed.
Lemma e_read_privs i l s : snd (c_read_privs p i l s) = read_privs p i l s.
Proof.
  revert i s. induction l as [|k l IH]; intros i; cbn [c_read_privs read_privs]; [reflexivity|].
  apply eswbind; [intros s; apply e_key_from_stream, e_parse_pub|intros priv].
  do 4 (apply eswbind; [reflexivity|intros ?]). apply eswbind; [intros s; apply IH|reflexivity].
Qed.
Lemma e_parse_deciphered c pubs plain : snd (c_parse_deciphered p c pubs plain) = parse_deciphered p c pubs plain.
Proof.
  unfold c_parse_deciphered, parse_deciphered.
  apply etail.
  apply eswbind; [apply eswp, e_dict|intros h]. do 3 (apply eswbind; [reflexivity|intros ?]).
  apply eswbind; [intros s; apply e_read_privs|intros pairs]. apply eswbind; [apply eswp; reflexivity|intros pad].
  apply eswbind; reflexivity.
Qed.
Lemma e_from_bytes_try e b pass : snd (c_from_bytes_try p e b pass) = from_bytes_try p e b pass.
Proof.
  unfold c_from_bytes_try, from_bytes_try.
  apply etail.
  apply eswbind; [apply eswp, e_dict|intros h]. do 4 (apply eswbind; [reflexivity|intros ?]).
  apply eswbind; [intros s; apply e_read_pubs|intros pubs]. apply eswbind; [apply eswp, e_instr|intros cv].
  do 5 (apply eswbind; [reflexivity|intros ?]).
  apply eswbind.
  { apply esww. rewrite <- e_dict. destruct (c_dict _ _) as [m [s' r]]. reflexivity. }
  intros options. do 4 (apply eswbind; [reflexivity|intros ?]).
  apply eswbind.
  { match goal with |- context [is_integrity ?c] => destruct (is_integrity c) end; [apply eswp, e_fixed|reflexivity]. }
  intros tag. do 2 (apply eswbind; [reflexivity|intros ?]).
  apply eswbind; [apply esww, e_parse_deciphered|intros r]. destruct r as [[pairs dh] pad]. reflexivity.
Qed.
Lemma e_list_from_bytes e b pass : snd (c_list_from_bytes p e b pass) = list_from_bytes p e b pass.
Proof.
  unfold c_list_from_bytes, list_from_bytes. rewrite <- e_from_bytes_try.
  destruct (c_from_bytes_try p e b pass) as [n [l [x|x]]]; reflexivity.
Qed.
End EList.

(** ** Bounds *)
Definition len (s : stream) : nat := length (unread s).
Definition owed {A} (e : nat) (r : res A) : nat := match r with Ok _ => 0 | Err _ => e end.
(** [m] times the reads of [x] are paid for by the bytes it takes from the stream, but for [e] if it raises. *)
Definition within (m e : nat) {A} (x : CP A) : Prop := forall s,
  (m * fst (x s) + len (fst (snd (x s))) <= len s + owed e (snd (snd (x s))))%nat.
Definition costs (n : nat) {A} (x : CP A) : Prop := forall s, (fst (x s) <= n)%nat.
Lemma within_bind m e {A B} (x : CP A) (f : A -> CP B) :
  within m e x -> (forall a, within m e (f a)) -> within m e (cpbind x f).
Proof.
  intros Hx Hf s. specialize (Hx s). unfold cpbind. destruct (x s) as [n [s' [a|x']]]; cbn [fst snd owed] in *; [|lia].
  specialize (Hf a s'). destruct (f a s') as [n' [s2 r]]. cbn [fst snd] in *. nia.
Qed.
Lemma within_pure m e {A} (x : P A) : (forall s, fst (x s) = s) -> within m e (cp x).
Proof. intros H s. unfold cp. cbn [fst snd]. rewrite H. lia. Qed.
Lemma costs_bind n m {A B} (x : CP A) (f : A -> CP B) : costs n x -> (forall a, costs m (f a)) -> costs (n + m) (cpbind x f).
Proof.
  intros Hx Hf s. specialize (Hx s). unfold cpbind. destruct (x s) as [c [s' [a|x']]]; cbn [fst] in *; [|lia].
  specialize (Hf a s'). destruct (f a s') as [c' r]. cbn [fst] in *. lia.
Qed.
Lemma costs_pure {A} (x : P A) : costs 0 (cp x).
Proof. intros s. apply Nat.le_refl. Qed.

Lemma bio_read_len n s s' r : bio_read n s = (s', r) ->
  match r with Ok b => len s = (len s' + length b)%nat | Err _ => s' = s end.
Proof.
  unfold bio_read. destruct (_ || _); intros H; injection H as <- <-; [reflexivity|].
  unfold len, unread at 2. cbn [sbuf spos].
  set (k := if n <? 0 then length (unread s) else Z.to_nat (Z.min n (Z.of_nat (length (unread s))))).
  assert (skipn (spos s + k) (sbuf s) = skipn k (unread s)) as ->.
  { unfold unread. rewrite skipn_skipn. reflexivity. }
  rewrite skipn_length, firstn_length. lia.
Qed.
(** read_fixed_bytes: one read. *)
Lemma fixed_len n s : exists s' r, c_fixed n s = (1%nat, (s', r)) /\ (len s' <= len s)%nat /\
  forall b, r = Ok b -> (len s = len s' + length b)%nat /\ n <= Z.of_nat (length b).
Proof.
  unfold c_fixed, cpbind, c_read. destruct (bio_read n s) as [s' [b|e]] eqn:E; apply bio_read_len in E.
  - destruct (Z.ltb_spec (Z.of_nat (length b)) n).
    + destruct (length b =? 0)%nat; unfold cp, perr; (do 2 eexists; split; [reflexivity|]; split; [lia|discriminate]).
    + unfold cp, pret. do 2 eexists. split; [reflexivity|]. split; [lia|]. intros ? K. injection K as <-. lia.
  - subst. do 2 eexists. split; [reflexivity|]. split; [lia|discriminate].
Qed.
Lemma fixed_within n m : (m <= Z.to_nat n)%nat -> within m m (c_fixed n).
Proof.
  intros H s. destruct (fixed_len n s) as (s' & r & -> & L & K). cbn [fst snd].
  destruct r as [b|e]; cbn [owed]; [|lia]. destruct (K b eq_refl). lia.
Qed.
(** read_pascal_bytes with lengths of four bytes: at most two reads. *)
Lemma pascal_len s : exists c s' r, c_pascal default_size s = (c, (s', r)) /\ (c <= 2)%nat /\
  (2 * c + len s' <= len s + owed 2 r)%nat /\
  forall b, r = Ok b -> c = 2%nat /\ (len s' + 4 + length b <= len s)%nat.
Proof.
  unfold c_pascal, default_size. change (4 <=? 0) with false. unfold cpbind.
  destruct (fixed_len 4 s) as (s1 & r1 & -> & L1 & K1). destruct r1 as [l|e].
  - destruct (K1 l eq_refl) as (E1 & G1).
    destruct (fixed_len (int_from_bytes l false) s1) as (s2 & r2 & -> & L2 & K2).
    do 3 eexists. split; [reflexivity|]. split; [lia|]. split; [lia|].
    intros b ->. destruct (K2 b eq_refl) as (E2 & G2). lia.
  - do 3 eexists. split; [reflexivity|]. split; [lia|]. cbn [owed]. split; [lia|discriminate].
Qed.
Lemma pascal_within : within 2 2 (c_pascal default_size).
Proof. intros s. destruct (pascal_len s) as (c & s' & r & -> & _ & H & _). exact H. Qed.

(** Formats: what the library's consist of, and the reads that they need. *)
Definition strings_only (f : fmt_dict) : bool :=
  forallb (fun kf => match snd kf with FPascal _ => true | _ => false end) f.
Definition takes_bytes (f : fmt_dict) : bool :=
  forallb (fun kf => match snd kf with
                     | FPascal _ | FBad => true
                     | FStruct x => match struct_calcsize x with Ok n => 1 <=? n | Err _ => true end
                     | FPascalSize _ _ => false
                     end) f.
Lemma instr_pascal_within i : within 2 2 (c_instr (FPascal i)).
Proof.
  cbn [c_instr]. apply within_bind; [apply pascal_within|intros b]. apply within_pure. intros s.
  destruct i; try reflexivity. unfold pbind, plift. destruct (utf8_decode b); reflexivity.
Qed.
Lemma within_less m e {A} (x : CP A) : (1 <= m)%nat -> within m e x -> within 1 e x.
Proof. intros Hm H s. specialize (H s). nia. Qed.
Lemma within_more m e e' {A} (x : CP A) : (e <= e')%nat -> within m e x -> within m e' x.
Proof. intros He H s. specialize (H s). destruct (snd (snd (x s))); cbn [owed] in *; lia. Qed.
Lemma dict_strings f : strings_only f = true -> within 2 2 (c_dict f).
Proof.
  induction f as [|[k i] f IH]; intros H; cbn [c_dict]; [apply within_pure; reflexivity|].
  cbn [strings_only forallb snd] in H. apply andb_prop in H as (Hi & Hf).
  apply within_bind; [destruct i; try discriminate; apply instr_pascal_within|intros v].
  apply within_bind; [exact (IH Hf)|intros r]. apply within_pure. reflexivity.
Qed.
Lemma within_lift m e {A B} (r : res A) (f : A -> CP B) :
  (forall a, r = Ok a -> within m e (f a)) -> within m e (cpbind (cp (plift r)) f).
Proof.
  intros H s. unfold cpbind, cp, plift. destruct r as [a|x]; cbn [fst snd owed]; [|lia].
  specialize (H a eq_refl s). destruct (f a s) as [c [s' r]]. exact H.
Qed.
Lemma dict_takes f : takes_bytes f = true -> within 1 2 (c_dict f).
Proof.
  induction f as [|[k i] f IH]; intros H; cbn [c_dict]; [apply within_pure; reflexivity|].
  cbn [takes_bytes forallb snd] in H. apply andb_prop in H as (Hi & Hf).
  apply within_bind; [|intros v; apply within_bind; [exact (IH Hf)|intros r]; apply within_pure; reflexivity].
  destruct i; try discriminate; [|apply (within_less 2); [lia|apply instr_pascal_within]|apply within_pure; reflexivity].
  cbn [c_instr]. apply within_lift. intros n E. rewrite E in Hi. apply Z.leb_le in Hi.
  apply within_bind; [apply (within_more 1 1); [lia|apply fixed_within; lia]|intros b].
  apply within_pure. intros s. unfold pbind, plift. destruct (struct_unpack fmt b) as [[|v [|w l]]|x]; reflexivity.
Qed.
Lemma fixed_costs n : costs 1 (c_fixed n).
Proof. intros s. destruct (fixed_len n s) as (s' & r & -> & _). apply Nat.le_refl. Qed.
Lemma pascal_costs n : costs 2 (c_pascal n).
Proof.
  unfold c_pascal. destruct (n <=? 0); [intros s; cbn; lia|].
  apply (costs_bind 1 1); [apply fixed_costs|intros; apply fixed_costs].
Qed.
Lemma dict_costs f : costs (reads_of f) (c_dict f).
Proof.
  induction f as [|[k i] f IH]; [apply costs_pure|].
  assert (forall v, costs (reads_of f) (cpbind (c_dict f) (fun r => cp (pret ((k, v) :: r))))) as Hf.
  { intros v. rewrite <- (Nat.add_0_r (reads_of f)). apply costs_bind; [exact IH|intros; apply costs_pure]. }
  cbn [c_dict]. destruct i; cbn [reads_of].
  - apply costs_bind; [|exact Hf]. cbn [c_instr]. apply (costs_bind 0 1); [apply costs_pure|intros n].
    apply (costs_bind 1 0); [apply fixed_costs|intros; apply costs_pure].
  - apply costs_bind; [|exact Hf]. cbn [c_instr]. apply (costs_bind 2 0); [apply pascal_costs|intros; apply costs_pure].
  - apply costs_bind; [|exact Hf]. cbn [c_instr]. apply (costs_bind 2 0); [apply pascal_costs|intros; apply costs_pure].
  - apply costs_bind; [|exact Hf]. cbn [c_instr]. intros s. cbn. lia.
Qed.
Lemma loop_reads f : within 2 2 (c_dict f) -> forall n acc s, (2 * fst (c_loop n f acc s) <= len s + 2)%nat.
Proof.
  intros H. induction n as [|n IH]; intros acc s; [cbn; lia|]. cbn [c_loop]. specialize (H s).
  destruct (c_dict f s) as [c [s' [d|e]]]; cbn [fst snd owed] in *.
  - specialize (IH (acc ++ [d]) s'). destruct (c_loop n f (acc ++ [d]) s') as [c' r]. cbn [fst] in *. lia.
  - destruct e as [empty msg| | | | | | | | | | | | | | | |]; try (cbn [fst]; lia). destruct empty; cbn [fst]; lia.
Qed.
Lemma repeatedly_reads f b : strings_only f = true -> (2 * fst (c_repeatedly f (stream_of b)) <= length b + 2)%nat.
Proof.
  intros H. unfold c_repeatedly. destruct f as [|x f]; [cbn; lia|].
  exact (loop_reads _ (dict_strings _ H) _ _ (stream_of b)).
Qed.

(** ** Certificates *)
Definition blen (k : string) (d : dict pyval) : nat := match get_bytes k d with Some b => length b | None => 0 end.
Lemma cwbind_fst {A B} (x : CW A) (f : A -> CW B) n :
  (forall a, snd (snd x) = Ok a -> (fst x + fst (f a) <= n)%nat) -> (fst x <= n)%nat -> (fst (cwbind x f) <= n)%nat.
Proof.
  unfold cwbind. destruct x as [c [l [a|e]]]; cbn [fst snd]; intros H H'; [|exact H'].
  specialize (H a eq_refl). destruct (f a) as [m [l' r]]. exact H.
Qed.
Lemma cwbind_le {A B} (x : CW A) (f : A -> CW B) n m :
  (fst x <= n)%nat -> (forall a, (fst (f a) <= m)%nat) -> (fst (cwbind x f) <= n + m)%nat.
Proof. intros Hx Hf. apply cwbind_fst; [intros a _; specialize (Hf a); lia|lia]. Qed.
Lemma cdiscard_fst {A} (x : CW A) : fst (cdiscard x) = fst x.
Proof. unfold cdiscard, cwbind. destruct x as [c [l [a|e]]]; cbn; lia. Qed.
Lemma get_bytes_item k d b : get_bytes k d = Some b -> ditem (str k) d = Ok (VBytes b).
Proof. unfold get_bytes, ditem. destruct (dget (str k) d) as [[]|]; try discriminate. intros H. injection H as ->. reflexivity. Qed.
Lemma principals_reads d b : get_bytes "valid_principals" d = Some b -> (2 * fst (c_principals d) <= length b + 2)%nat.
Proof.
  intros H. unfold c_principals. rewrite (get_bytes_item _ _ _ H). unfold wlift, cw, stream_of_val. cbn [cwbind].
  pose proof (repeatedly_reads [fld "principal" fS] b eq_refl) as K.
  destruct (c_repeatedly _ (stream_of b)) as [n [s [l|e]]]; cbn [fst cwbind] in *; lia.
Qed.
Lemma options_reads k d b : get_bytes k d = Some b -> (2 * fst (c_options (str k) d) <= length b + 2)%nat.
Proof.
  intros H. unfold c_options. rewrite (get_bytes_item _ _ _ H). unfold wlift, cw, stream_of_val. cbn [cwbind].
  pose proof (repeatedly_reads options_fmt b eq_refl) as K.
  destruct (c_repeatedly _ (stream_of b)) as [n [s [l|e]]]; cbn [fst cwbind] in *;
    try destruct (collect_options _ _ _); cbn [fst]; lia.
Qed.
Definition authority_reads (cpp : bytes -> CW key) (d : dict pyval) : nat :=
  match get_bytes "signature_key" d with Some b => fst (cpp b) | None => 0 end.
Definition lists_size (d : dict pyval) : nat :=
  (blen "valid_principals" d + blen "critical_options" d + blen "extensions" d)%nat.
Lemma authority_fst cpp d b : get_bytes "signature_key" d = Some b -> fst (c_authority cpp d) = fst (cpp b).
Proof.
  intros H. unfold c_authority. rewrite (get_bytes_item _ _ _ H). unfold wlift, cw. cbn [cwbind].
  destruct (cpp b) as [c [l [k|e]]]; cbn [cwbind]; [|reflexivity].
  destruct (wwhen _ _ ;; wret k) as [l' r]. cbn [fst]. lia.
Qed.
Lemma check_cert_reads cpp d :
  (2 * fst (c_check_cert cpp d) <= lists_size d + 6 + 2 * authority_reads cpp d)%nat.
Proof.
  set (a := match get_bytes "valid_principals" d with Some _ => fst (c_principals d) | None => 0%nat end).
  set (b := match get_bytes "critical_options" d with Some _ => fst (c_options (str "critical_options") d) | None => 0%nat end).
  set (c := match get_bytes "extensions" d with Some _ => fst (c_options (str "extensions") d) | None => 0%nat end).
  assert (fst (c_check_cert cpp d) <= 0 + (a + (b + (c + authority_reads cpp d))))%nat as H.
  { unfold c_check_cert. apply cwbind_le; [apply Nat.le_refl|intros _].
    apply cwbind_le; [unfold a; destruct (get_bytes "valid_principals" d); [unfold cwcatch; cbn [fst]; rewrite cdiscard_fst|]; apply Nat.le_refl|intros _].
    apply cwbind_le; [unfold b; destruct (get_bytes "critical_options" d); [unfold cwcatch; cbn [fst]; rewrite cdiscard_fst|]; apply Nat.le_refl|intros _].
    apply cwbind_le; [unfold c; destruct (get_bytes "extensions" d); [unfold cwcatch; cbn [fst]; rewrite cdiscard_fst|]; apply Nat.le_refl|intros _].
    unfold authority_reads. destruct (get_bytes "signature_key" d) as [u|] eqn:E; [|apply Nat.le_refl].
    unfold cwcatch. cbn [fst]. rewrite cdiscard_fst, (authority_fst _ _ _ E). apply Nat.le_refl. }
  assert (2 * a <= blen "valid_principals" d + 2)%nat.
  { unfold a, blen. destruct (get_bytes "valid_principals" d) eqn:E; [apply principals_reads, E|lia]. }
  assert (2 * b <= blen "critical_options" d + 2)%nat.
  { unfold b, blen. destruct (get_bytes "critical_options" d) eqn:E; [apply options_reads, E|lia]. }
  assert (2 * c <= blen "extensions" d + 2)%nat.
  { unfold c, blen. destruct (get_bytes "extensions" d) eqn:E; [apply options_reads, E|lia]. }
  unfold lists_size. lia.
Qed.
(** How often parameters of a class are checked as a certificate's. *)
Definition cert_checks (l : list step) : nat := length (filter (fun s => match s with StCert => true | _ => false end) l).
Section Ec2.
Variable ec : curve -> bytes -> bool.
Lemma run_steps_reads cpp c d l : (fst (c_run_steps ec cpp c d l) <= cert_checks l * fst (c_check_cert cpp d))%nat.
Proof.
  induction l as [|s l IH]; [apply Nat.le_refl|]. cbn [c_run_steps].
  destruct s; (eapply Nat.le_trans; [apply cwbind_le; [apply Nat.le_refl|intros _; exact IH]|]);
    cbn [c_check_step cw fst]; unfold cert_checks; cbn [filter length]; lia.
Qed.
Lemma new_key_reads cpp k h ps fo clear n :
  (forall kt c, ditem (str "key_type") h = Ok kt -> params_class k kt = Ok c ->
     (cert_checks (check_plan c) * fst (c_check_cert cpp ps) <= n)%nat) ->
  (fst (c_new_key ec cpp k h ps fo clear) <= n)%nat.
Proof.
  intros H. unfold c_new_key. apply cwbind_fst; [intros _ _|cbn; lia]. cbn [cw fst Nat.add].
  apply cwbind_fst; [intros kt Ek|cbn; lia]. cbn [cw fst snd wlift Nat.add] in *.
  apply cwbind_fst; [intros c Ec|cbn; lia]. cbn [cw fst snd wlift Nat.add] in *. specialize (H kt c Ek Ec).
  pose proof (run_steps_reads cpp c ps (check_plan c)) as K. unfold c_new_params.
  apply cwbind_fst; [intros _ _; cbn [cw fst]|]; lia.
Qed.

Lemma plain_never_certificate : forallb (fun s => match params_class KPub (VStr (fst s)) with
    | Ok c => (cert_checks (check_plan c) =? 0)%nat && (reads_of (format_of c) + 3 <=? 4 + total (fst (snd s)))%nat
    | Err _ => false end) plain_specs = true.
Proof. vm_compute. reflexivity. Qed.
Lemma certificate_once : forallb (fun s => match params_class KPub (VStr (fst s)) with
    | Ok c => (cert_checks (check_plan c) =? 1)%nat
    | Err _ => false end) cert_specs = true.
Proof. vm_compute. reflexivity. Qed.

Lemma class_in k kt c : params_class k kt = Ok c ->
  exists t v, In (t, v) key_type_mapping /\ match k with KPub => fst v = c | KPriv => snd v = Some c end.
Proof.
  destruct k; unfold params_class, get_public_class, get_private_class; destruct kt as [| |t| |]; try discriminate;
    unfold ditem; destruct (dget t key_type_mapping) as [v|] eqn:E; cbn [rbind]; try discriminate.
  - intros H. injection H as <-. exists t, v. split; [apply dget_In, E|reflexivity].
  - destruct (snd v) as [x|] eqn:Es; [|discriminate]. intros H. injection H as <-. exists t, v.
    split; [apply dget_In, E|exact Es].
Qed.
Lemma class_formats k kt c : params_class k kt = Ok c ->
  takes_bytes (format_of c) = true /\ (reads_of (format_of c) <= 28)%nat /\ (k = KPriv -> cert_checks (check_plan c) = 0%nat).
Proof.
  intros H. apply class_in in H as (t & v & Hin & Hv).
  assert (forallb (fun tv => takes_bytes (format_of (fst (snd tv))) && (reads_of (format_of (fst (snd tv))) <=? 28)%nat &&
    match snd (snd tv) with
    | Some c => takes_bytes (format_of c) && (reads_of (format_of c) <=? 28)%nat && (cert_checks (check_plan c) =? 0)%nat
    | None => true end) key_type_mapping = true) as A by (vm_compute; reflexivity).
  rewrite forallb_forall in A. specialize (A _ Hin). destruct v as [a b]. cbn [fst snd] in *.
  apply andb_prop in A as (A1 & A2). apply andb_prop in A1 as (A0 & A1). destruct k; [subst a|subst b].
  - apply Nat.leb_le in A1. split; [exact A0|]. split; [exact A1|discriminate].
  - apply andb_prop in A2 as (A2 & A4). apply andb_prop in A2 as (A2 & A3). apply Nat.leb_le in A3. apply Nat.eqb_eq in A4. auto.
Qed.
Lemma parts_reads k s : exists n s' r, c_key_parts k s = (n, (s', r)) /\
  (n <= 30 + reads_of (footer_fmt k))%nat /\ (n + len s' <= len s + owed 2 r)%nat /\
  forall h ps fo, r = Ok (h, ps, fo) -> exists kt c, ditem (str "key_type") h = Ok kt /\ params_class k kt = Ok c /\
    (n <= 2 + reads_of (format_of c) + reads_of (footer_fmt k))%nat.
Proof.
  pose proof (dict_costs (header_fmt k) s) as C1. change (reads_of (header_fmt k)) with 2%nat in C1.
  pose proof (dict_takes (header_fmt k) eq_refl s) as T1.
  unfold c_key_parts. unfold cpbind at 1. destruct (c_dict (header_fmt k) s) as [n1 [s1 [h|e]]]; cbn [fst snd owed] in C1, T1.
  2: { do 3 eexists. split; [reflexivity|]. cbn [owed]. split; [lia|]. split; [lia|discriminate]. }
  unfold cpbind at 1, cp at 1, plift at 1. destruct (ditem (str "key_type") h) as [kt|e] eqn:Eh.
  2: { do 3 eexists. split; [reflexivity|]. cbn [owed]. split; [lia|]. split; [lia|discriminate]. }
  unfold cpbind at 1, cp at 1, plift at 1. destruct (params_class k kt) as [c|e] eqn:Ec.
  2: { do 3 eexists. split; [reflexivity|]. cbn [owed]. split; [lia|]. split; [lia|discriminate]. }
  destruct (class_formats _ _ _ Ec) as (T & C & _).
  pose proof (dict_costs (format_of c) s1) as C2. pose proof (dict_takes (format_of c) T s1) as T2.
  unfold cpbind at 1. destruct (c_dict (format_of c) s1) as [n2 [s2 [ps|e]]]; cbn [fst snd owed] in C2, T2.
  2: { do 3 eexists. split; [reflexivity|]. cbn [owed]. split; [lia|]. split; [lia|discriminate]. }
  assert (takes_bytes (footer_fmt k) = true) as Tf by (destruct k; reflexivity).
  pose proof (dict_costs (footer_fmt k) s2) as C3. pose proof (dict_takes (footer_fmt k) Tf s2) as T3.
  unfold cpbind, cp, pret. destruct (c_dict (footer_fmt k) s2) as [n3 [s3 [fo|e]]]; cbn [fst snd owed] in C3, T3.
  2: { do 3 eexists. split; [reflexivity|]. cbn [owed]. split; [lia|]. split; [lia|discriminate]. }
  do 3 eexists. split; [reflexivity|]. cbn [owed]. split; [lia|]. split; [lia|].
  intros h' ps' fo' H. injection H as <- _ _. exists kt, c. split; [exact Eh|]. split; [exact Ec|lia].
Qed.

(** ** The sizes of the parts of a certificate *)
Definition bytes_in (v : pyval) : nat := match v with VBytes u => length u | _ => 0 end.
Definition bytes_total (vs : dict pyval) : nat := fold_right (fun kv a => (bytes_in (snd kv) + a)%nat) 0%nat vs.
Definition no_blob (ts : list (pystr * ftype)) : bool := forallb (fun kt => match snd kt with TBlob _ => false | _ => true end) ts.
Lemma record_bytes_size ts vs b : no_blob ts = true -> record_of wire ts vs b -> (total ts + bytes_total vs <= length b)%nat.
Proof.
  intros N R. induction R as [|k t ts v vs b bs W R IH]; [apply Nat.le_refl|].
  cbn [no_blob forallb snd] in N. apply andb_prop in N as (Nt & N). specialize (IH N).
  unfold total, bytes_total in *. cbn [fold_right snd]. rewrite app_length.
  assert (min_size t + bytes_in v <= length b)%nat; [|lia].
  inversion W; subst; cbn [min_size bytes_in]; try discriminate; try lia;
    match goal with H : prefixed _ _ _ |- _ => apply prefixed_length in H; lia end.
Qed.
Definition sizes (ks : list pystr) (vs : dict pyval) : nat :=
  fold_right (fun k a => (match dget k vs with Some v => bytes_in v | None => 0 end + a)%nat) 0%nat ks.
Lemma sizes_step k ks vs : sizes (k :: ks) vs = (match dget k vs with Some v => bytes_in v | None => 0 end + sizes ks vs)%nat.
Proof. reflexivity. Qed.
Lemma sizes_cons_other ks k v vs : ~ In k ks -> sizes ks ((k, v) :: vs) = sizes ks vs.
Proof.
  induction ks as [|k1 ks IH]; intros H; [reflexivity|]. rewrite !sizes_step, IH by (intros K; apply H; right; exact K).
  cbn [dget]. destruct (str_eqb_reflect k1 k) as [->|_]; [exfalso; apply H; left; reflexivity|reflexivity].
Qed.
Lemma sizes_cons ks k v vs : NoDup ks -> (sizes ks ((k, v) :: vs) <= bytes_in v + sizes ks vs)%nat.
Proof.
  induction 1 as [|k1 ks Hk N IH]; [cbn; lia|]. rewrite !sizes_step. cbn [dget].
  destruct (str_eqb_reflect k1 k) as [->|Nk]; [rewrite (sizes_cons_other ks k v vs Hk)|]; lia.
Qed.
Lemma sizes_total ks vs : NoDup ks -> (sizes ks vs <= bytes_total vs)%nat.
Proof.
  intros N. induction vs as [|[k v] vs IH].
  - induction ks as [|k ks IH]; [apply Nat.le_refl|]. inversion N; subst. apply IH. assumption.
  - pose proof (sizes_cons ks k v vs N). unfold bytes_total in *. cbn [fold_right snd]. lia.
Qed.
Lemma blen_sizes (k : string) d : blen k d = match dget (str k) d with Some v => bytes_in v | None => 0%nat end.
Proof. unfold blen, get_bytes. destruct (dget (str k) d) as [[]|]; reflexivity. Qed.
Lemma certificate_sizes t base ps b : In (t, base) cert_specs ->
  record_of wire (type_field :: cert_fields base) ((str "key_type", VStr t) :: ps) b ->
  (100 + lists_size ps + blen "signature_key" ps <= length b)%nat.
Proof.
  intros Hs R. pose proof (certificates_are_large _ _ Hs) as L. inversion R as [|? ? ? ? ? b1 b2 W1 R2]; subst.
  inversion W1 as [|? ? ? ? U P| | |]; subst. apply prefixed_length in P. apply utf8_length in U.
  assert (no_blob (cert_fields base) = true) as N.
  { assert (forallb (fun s => no_blob (cert_fields (snd s))) cert_specs = true) as A by (vm_compute; reflexivity).
    rewrite forallb_forall in A. exact (A _ Hs). }
  pose proof (record_bytes_size _ _ _ N R2) as B.
  assert (NoDup [str "valid_principals"; str "critical_options"; str "extensions"; str "signature_key"]) as D.
  { repeat constructor; cbn [In]; intros K; repeat destruct K as [K|K]; try discriminate; contradiction. }
  pose proof (sizes_total _ ps D) as S. unfold sizes in S. cbn [fold_right] in S.
  unfold lists_size. rewrite !blen_sizes, app_length. lia.
Qed.

(** ** PublicKey.from_bytes *)
Lemma remainder_reads s k : (fst (c_remainder s k) <= 1)%nat.
Proof.
  unfold c_remainder, c_read. rewrite read_rest. apply (cwbind_le _ _ 1 0); [apply Nat.le_refl|intros; apply Nat.le_refl].
Qed.
Lemma from_bytes_reads cpp b clear :
  (forall u, (2 * fst (cpp u) <= length u + 68)%nat) ->
  (2 * fst (c_key_from_bytes_with ec cpp KPub b clear) <= length b + 68)%nat /\
  forall k, snd (snd (c_key_from_bytes_with ec cpp KPub b clear)) = Ok k ->
    (fst (c_key_from_bytes_with ec cpp KPub b clear) <= length b)%nat.
Proof.
  intros Hpp. destruct (parts_reads KPub (stream_of b)) as (n & s' & r & E & Cn & _ & Hr).
  change (reads_of (footer_fmt KPub)) with 0%nat in *.
  unfold c_key_from_bytes_with, c_key_from_stream. rewrite E. destruct r as [[[h ps] fo]|e].
  2: { cbn [cwbind werr fst snd]. split; [lia|discriminate]. }
  destruct (Hr h ps fo eq_refl) as (kt & c & Ek & Ec & Cc).
  assert (read_key_parts KPub (stream_of b) = (s', Ok (h, ps, fo))) as Er by (rewrite <- e_key_parts, E; reflexivity).
  destruct (read_key_parts_sound _ _ _ _ _ _ Er) as (t & pub & priv & ts & b0 & Hs & Hf & -> & R & Hk & Hfo & U & _).
  cbn [fields_of fst] in Hf. injection Hf as <-.
  change (ditem (str "key_type") [(str "key_type", VStr t)]) with (Ok (VStr t)) in Ek. injection Ek as <-.
  unfold key_fields in R. cbn [footer_fields] in *. rewrite app_nil_r in R.
  destruct fo; [|discriminate]. rewrite app_nil_r in R. cbn [app] in R.
  change (unread (stream_of b)) with b in U.
  assert (length b0 <= length b)%nat as Lb by (rewrite U, app_length; lia).
  set (x := c_new_key ec cpp KPub [(str "key_type", VStr t)] ps [] clear).
  assert (fst x <= cert_checks (check_plan c) * fst (c_check_cert cpp ps))%nat as Hx.
  { apply new_key_reads. intros kt' c' Ek' Ec'.
    change (ditem (str "key_type") [(str "key_type", VStr t)]) with (Ok (VStr t)) in Ek'. injection Ek' as <-.
    rewrite Ec in Ec'. injection Ec' as <-. apply Nat.le_refl. }
  assert (fst x + n + 1 <= length b /\ 2 * (fst x + n + 1) <= length b + 68)%nat as G.
  2: { destruct G as (G1 & G2). destruct x as [m w]. cbn [fst] in G1, G2.
       assert (fst (cwbind ((n + m)%nat, w) (fun key => c_remainder s' key)) <= (n + m) + 1)%nat as T
         by (apply cwbind_le; [apply Nat.le_refl|intros key; apply remainder_reads]).
       split; [lia|intros; lia]. }
  unfold key_specs in Hs. apply in_app_or in Hs as [Hs|Hs]; apply in_map_iff in Hs as (z & Ez & Hz).
  - pose proof plain_never_certificate as A. rewrite forallb_forall in A. specialize (A _ Hz).
    injection Ez as <- <- _. rewrite Ec in A. apply andb_prop in A as (A0 & A1). apply Nat.eqb_eq in A0. apply Nat.leb_le in A1.
    rewrite A0 in Hx. inversion R as [|? ? ? ? ? b1 b2 W1 R2]; subst. apply record_min_size in R2. apply wire_min_size in W1.
    cbn [min_size] in W1. rewrite app_length in Lb. lia.
  - pose proof certificate_once as A. rewrite forallb_forall in A. specialize (A _ Hz). destruct z as [t' base].
    cbn [fst snd] in *. injection Ez as <- <- _. rewrite Ec in A. apply Nat.eqb_eq in A. rewrite A in Hx.
    pose proof (certificate_sizes _ _ _ _ Hz R) as S. pose proof (check_cert_reads cpp ps) as K.
    assert (2 * authority_reads cpp ps <= blen "signature_key" ps + 68)%nat as Ha.
    { unfold authority_reads, blen. destruct (get_bytes "signature_key" ps) as [u|]; [apply Hpp|lia]. }
    lia.
Qed.
Lemma parse_pub_reads n b : (2 * fst (c_parse_pub_fuel ec n b) <= length b + 68)%nat.
Proof.
  revert b. induction n as [|n IH]; intros b; [cbn; lia|]. apply from_bytes_reads. exact IH.
Qed.
Lemma public_reads b clear : (2 * fst (c_key_from_bytes ec KPub b clear) <= length b + 68)%nat /\
  forall k, snd (snd (c_key_from_bytes ec KPub b clear)) = Ok k -> (fst (c_key_from_bytes ec KPub b clear) <= length b)%nat.
Proof. apply from_bytes_reads. intros u. apply parse_pub_reads. Qed.
End Ec2.

(** ** PrivateKeyList.from_bytes *)
Definition swithin (e : nat) {A} (x : CSW A) : Prop := forall s,
  (fst (x s) + len (fst (snd (x s))) <= len s + owed e (snd (snd (snd (x s)))))%nat.
Lemma swithin_bind e {A B} (x : CSW A) (f : A -> CSW B) :
  swithin e x -> (forall a, swithin e (f a)) -> swithin e (cswbind x f).
Proof.
  intros Hx Hf s. specialize (Hx s). unfold cswbind. destruct (x s) as [n [s' [l [a|x']]]]; cbn [fst snd owed] in *; [|lia].
  specialize (Hf a s'). destruct (f a s') as [n' [s2 [l2 r]]]. cbn [fst snd] in *. lia.
Qed.
Lemma swithin_pure e {A} (x : W A) : swithin e (csww (cw x)).
Proof. intros s. unfold csww, cw. cbn [fst snd]. lia. Qed.
Lemma swithin_read e {A} (x : CP A) : within 1 e x -> swithin e (cswp x).
Proof. intros H s. specialize (H s). unfold cswp. destruct (x s) as [n [s' r]]. cbn [fst snd] in *. lia. Qed.

Lemma cswbind_eq {A B} (x : CSW A) (f : A -> CSW B) s n s' l r : x s = (n, (s', (l, r))) ->
  cswbind x f s = match r with
                  | Ok a => ((n + fst (f a s'))%nat, (fst (snd (f a s')), (l ++ fst (snd (snd (f a s'))), snd (snd (snd (f a s'))))))
                  | Err e => (n, (s', (l, Err e)))
                  end.
Proof. intros E. unfold cswbind. rewrite E. destruct r as [a|e]; [|reflexivity]. destruct (f a s') as [m [s2 [l2 r]]]. reflexivity. Qed.
Lemma cswp_eq {A} (x : CP A) s n s' r : x s = (n, (s', r)) -> cswp x s = (n, (s', ([], r))).
Proof. intros E. unfold cswp. rewrite E. reflexivity. Qed.
Lemma csww_eq {A} (x : CW A) s n l r : x = (n, (l, r)) -> csww x s = (n, (s, (l, r))).
Proof. intros ->. reflexivity. Qed.

Section List_.
Variable p : prims.
Lemma octets_len s : exists c s' r, c_instr fB s = (c, (s', r)) /\ (c <= 2)%nat /\ (2 * c + len s' <= len s + owed 2 r)%nat /\
  forall v, r = Ok v -> exists b, v = VBytes b /\ c = 2%nat /\ (len s' + 4 + length b <= len s)%nat.
Proof.
  destruct (pascal_len s) as (c & s' & r & E & C & H & K). cbn [c_instr fB]. unfold cpbind. rewrite E. destruct r as [b|e].
  - unfold cp, pret. do 3 eexists. split; [reflexivity|]. rewrite Nat.add_0_r. split; [exact C|]. split; [exact H|].
    intros v Ev. injection Ev as <-. exists b. destruct (K b eq_refl). auto.
  - do 3 eexists. split; [reflexivity|]. split; [exact C|]. split; [exact H|discriminate].
Qed.
Lemma read_pubs_reads f n : swithin 32 (c_read_pubs p f n).
Proof.
  revert n. induction f as [|f IH]; intros n; cbn [c_read_pubs]; destruct (n <=? 0); try apply swithin_pure.
  intros s. destruct (octets_len s) as (c & s' & r & E & C & H & K).
  rewrite (cswbind_eq _ _ _ _ _ _ _ (cswp_eq _ _ _ _ _ E)).
  destruct r as [v|e]; [|cbn [fst snd owed] in *; lia].
  destruct (K v eq_refl) as (b & -> & -> & L). cbv beta iota.
  destruct (public_reads (p_ec_ok p) b None) as (B1 & B2).
  assert (exists m l r, c_key_from_bytes (p_ec_ok p) KPub b None = (m, (l, r))) as (m & l & r & Eb)
    by (destruct (c_key_from_bytes (p_ec_ok p) KPub b None) as [m [l r]]; eauto).
  rewrite Eb in B1, B2. rewrite (cswbind_eq _ _ _ _ _ _ _ (csww_eq _ s' _ _ _ Eb)). destruct r as [k|e]; cbn [fst snd] in *; [|cbn [owed]; lia].
  specialize (B2 k eq_refl).
  assert (swithin 32 (docs r <- c_read_pubs p f (n - 1); csww (cw (wret (k :: r))))) as Hr
    by (apply swithin_bind; [apply IH|intros; apply swithin_pure]).
  specialize (Hr s'). destruct (cswbind _ _ s') as [m' [s2 [l2 r2]]]. cbn [fst snd] in *. lia.
Qed.
Lemma private_key_reads ec cpp clear : swithin 2 (c_key_from_stream ec cpp KPriv clear).
Proof.
  intros s. destruct (parts_reads KPriv s) as (n & s' & r & E & _ & L & _). unfold c_key_from_stream. rewrite E.
  destruct r as [[[h ps] fo]|e]; [|cbn [fst snd werr owed] in *; lia].
  pose proof (new_key_reads ec cpp KPriv h ps fo clear 0) as N.
  destruct (c_new_key _ _ _ _ _ _ _) as [m w]. cbn [fst snd owed] in *.
  assert (m <= 0)%nat; [|destruct (snd w); cbn [owed]; lia]. apply N. intros kt c _ Ec.
  destruct (class_formats _ _ _ Ec) as (_ & _ & Z). rewrite (Z eq_refl). lia.
Qed.
Lemma read_privs_reads i l : swithin 2 (c_read_privs p i l).
Proof.
  revert i. induction l as [|k l IH]; intros i; cbn [c_read_privs]; [apply swithin_pure|].
  apply swithin_bind; [apply private_key_reads|intros priv].
  do 4 (apply swithin_bind; [apply swithin_pure|intros ?]). apply swithin_bind; [apply IH|intros; apply swithin_pure].
Qed.
(** Reads from the decrypted bytes. *)
Definition sreads {A} (x : CSW A) (s : stream) : nat := fst (x s).
Lemma sreads_pure {A B} (x : W A) (f : A -> CSW B) s n :
  (forall a, snd x = Ok a -> (sreads (f a) s <= n)%nat) -> (sreads (cswbind (csww (cw x)) f) s <= n)%nat.
Proof.
  intros H. unfold sreads, cswbind, csww, cw. cbn [fst snd]. destruct x as [l [a|e]]; [|cbn [fst]; lia].
  specialize (H a eq_refl). unfold sreads in H. destruct (f a s) as [m [s2 [l2 r]]]. exact H.
Qed.
Lemma sreads_bind {A B} (x : CSW A) (f : A -> CSW B) s n s' l r m : x s = (n, (s', (l, r))) -> (n <= m)%nat ->
  (forall a, r = Ok a -> (n + sreads (f a) s' <= m)%nat) -> (sreads (cswbind x f) s <= m)%nat.
Proof.
  intros E L H. unfold sreads. rewrite (cswbind_eq _ _ _ _ _ _ _ E). destruct r as [a|e]; cbn [fst]; [|exact L].
  exact (H a eq_refl).
Qed.
Lemma tail_le {A} (x : CSW A) s m : (sreads x s <= m)%nat -> (fst (let '(n, (_, w)) := x s in (n, w)) <= m)%nat.
Proof. unfold sreads. destruct (x s) as [n [s' w]]. trivial. Qed.
Lemma deciphered_reads c pubs plain : (fst (c_parse_deciphered p c pubs plain) <= length plain + 3)%nat.
Proof.
  unfold c_parse_deciphered. apply tail_le.
  pose proof (dict_takes decipher_header_fmt eq_refl (stream_of plain)) as T1. change (len (stream_of plain)) with (length plain) in T1.
  destruct (c_dict decipher_header_fmt (stream_of plain)) as [n1 [s1 r1]] eqn:E1. cbn [fst snd] in T1.
  eapply sreads_bind; [exact (cswp_eq _ _ _ _ _ E1)|destruct r1; cbn [owed] in T1; lia|]. intros dh ->. cbn [owed] in T1.
  enough (forall m, (m <= length plain + 3 - n1)%nat -> (n1 + m <= length plain + 3)%nat) as En; [apply En|lia].
  do 3 (apply sreads_pure; intros ? _).
  pose proof (read_privs_reads 0 pubs s1) as T2. destruct (c_read_privs p 0 pubs s1) as [n2 [s2 [l2 r2]]] eqn:E2. cbn [fst snd] in T2.
  eapply sreads_bind; [exact E2|destruct r2; cbn [owed] in T2; lia|]. intros pairs ->. cbn [owed] in T2.
  enough (sreads (docs padding <- cswp (c_read (-1));
     docs _ <- csww (cw (wwhen (negb (padding_ok c (length plain) padding)) (wwarn WPadding)));
     csww (cw (wret (pairs, dh, padding)))) s2 <= 1)%nat by lia.
  eapply sreads_bind; [apply cswp_eq; unfold c_read; rewrite read_rest; reflexivity|lia|]. intros pad _.
  enough (forall m, (m <= 0)%nat -> (1 + m <= 1)%nat) as En'; [apply En'|lia].
  apply sreads_pure. intros ? _. apply Nat.le_refl.
Qed.
Lemma tdes_key_length key k : tdes_key key = Some k -> length k = 24%nat.
Proof.
  unfold tdes_key. destruct (Nat.eqb_spec (length key) 8) as [L|]; [intros E; injection E as <-; rewrite !app_length; lia|].
  destruct (Nat.eqb_spec (length key) 16) as [L|]; [intros E; apply Some_inj in E as <-; rewrite app_length, firstn_length; lia|].
  destruct (Nat.eqb_spec (length key) 24) as [L|]; [intros E; injection E as <-; exact L|discriminate].
Qed.
(** Decryption does not lengthen. *)
Lemma decrypt_shrinks c k d pass x y : sound_prims p -> cipher_decrypt p c k d pass x = Ok y -> (length y <= length x)%nat.
Proof.
  intros S. 
  assert (forall n E D iv, (0 < n)%nat ->
    (forall b, length b = n -> D (E b) = b) -> (forall b, length b = n -> E (D b) = b) ->
    (forall b, length b = n -> length (E b) = n) -> (forall b, length b = n -> length (D b) = n) ->
    cbc_crypt false n D x iv = Ok y -> (length y <= length x)%nat) as Hcbc.
  { intros n E D iv Hn HDE HED HE HD. unfold cbc_crypt.
    destruct (Nat.eqb_spec (length iv) n) as [Li|Ni]; cbn [andb]; [|discriminate].
    destruct (Nat.eqb_spec (length x mod n) 0) as [Ex|Ex]; [|discriminate].
    intros K; injection K as <-. apply blocks_iff in Ex; [|exact Hn].
    destruct (cbc_dec_blocks n E D Hn HDE HED HE HD iv x Ex Li) as (_ & L & _). lia. }
  assert (forall key iv, ctr_crypt p x key iv = Ok y -> (length y <= length x)%nat) as Hctr.
  { intros key iv. unfold ctr_crypt. destruct (_ && _); [|discriminate]. intros K; injection K as <-. rewrite xor_stream_length. lia. }
  assert (forall n, (length (slice_butlast n x) <= length x)%nat) as Hs.
  { intros n. unfold slice_butlast. destruct n; [cbn; lia|]. rewrite firstn_length. lia. }
  assert (forall key iv, gcm_decrypt p x key iv = Ok y -> (length y <= length x)%nat) as Hgcm.
  { intros key iv. unfold gcm_decrypt. cbv zeta. destruct (negb _); [discriminate|]. destruct (negb _); [discriminate|].
    destruct (_ <? _)%nat; [discriminate|]. destruct (bytes_eqb _ _); [|discriminate]. intros K; apply Ok_inj in K as <-.
    rewrite xor_stream_length. apply Hs. }
  assert (forall key, chacha_decrypt p x key = Ok y -> (length y <= length x)%nat) as Hcha.
  { intros key. unfold chacha_decrypt. cbv zeta. destruct (negb _); [discriminate|].
    destruct (bytes_eqb _ _); [|discriminate]. intros K; apply Ok_inj in K as <-. rewrite xor_stream_length. apply Hs. }
  assert (forall key iv, (if aes_key_ok key then cbc_crypt false 16 (p_aes_dec p key) x iv else Err ValueError) = Ok y ->
    (length y <= length x)%nat) as Haes.
  { intros key iv. destruct (aes_key_ok key) eqn:Ek; [|discriminate]. apply aes_key_ok_iff in Ek.
    apply (Hcbc 16%nat (p_aes_enc p key)); [lia| | | |]; intros u Lu; apply (sp_aes p S); assumption. }
  unfold cipher_decrypt. destruct c; try (intros K; injection K as <-; lia);
    intros K; apply rbind_ok in K as (r & _ & K); cbn [decrypt_with_key_iv] in K; eauto.
  revert K. match goal with |- context [tdes_key ?key] => destruct (tdes_key key) as [k'|] eqn:Ek; [|discriminate] end.
  apply tdes_key_length in Ek.
  apply (Hcbc 8%nat (p_tdes_enc p k')); [lia| | | |]; intros u Lu; apply (sp_tdes p S); assumption.
Qed.

Lemma header_len s : exists n s' r, c_dict list_header_fmt s = (n, (s', r)) /\ (n <= 8)%nat /\ (n + len s' <= len s + owed 2 r)%nat /\
  forall h o, r = Ok h -> ditem (str "kdf_options") h = Ok (VBytes o) -> (31 + length o + len s' <= len s)%nat.
Proof.
  pose proof (dict_costs list_header_fmt s) as C. change (reads_of list_header_fmt) with 8%nat in C.
  pose proof (dict_takes list_header_fmt eq_refl s) as T. pose proof (e_dict list_header_fmt s) as E.
  destruct (c_dict list_header_fmt s) as [n [s' r]]. do 3 eexists. split; [reflexivity|]. split; [exact C|].
  split; [cbn [fst snd] in T; lia|].
  intros h o -> Ho. cbn [snd] in E. symmetry in E.
  destruct (read_dict_sound _ _ _ _ _ header_types_ok E) as (b & R & U & _).
  assert (dget (str "kdf_options") h = Some (VBytes o)) as G.
  { unfold ditem in Ho. destruct (dget _ h); [injection Ho as ->; reflexivity|discriminate]. }
  assert (NoDup (map fst header_types)) as D.
  { repeat constructor; cbn [map fst header_types In]; intros K; repeat destruct K as [K|K]; try discriminate; contradiction. }
  pose proof (record_field_size _ _ _ (str "kdf_options") 4 o D R
    ltac:(cbn; tauto) G) as L. change (total header_types) with 31%nat in L.
  unfold len. rewrite U, app_length. lia.
Qed.

(** All of PrivateKeyList.from_bytes. *)
Lemma list_try_reads e b pass : sound_prims p -> (fst (c_from_bytes_try p e b pass) <= length b + 32)%nat.
Proof.
  intros S. unfold c_from_bytes_try. apply tail_le.
  assert (forall n m k, (m <= k - n)%nat -> (n <= k)%nat -> (n + m <= k)%nat) as En by (intros; lia).
  destruct (header_len (stream_of b)) as (n1 & s1 & r1 & E1 & C1 & T1 & L1). change (len (stream_of b)) with (length b) in *.
  eapply sreads_bind; [exact (cswp_eq _ _ _ _ _ E1)|lia|]. intros h ->. cbn [owed] in T1. apply En; [|lia].
  do 4 (apply sreads_pure; intros ? _).
  match goal with |- context [c_read_pubs p ?f ?n] => pose proof (read_pubs_reads f n s1) as T2;
    destruct (c_read_pubs p f n s1) as [n2 [s2 [l2 r2]]] eqn:E2 end. cbn [fst snd] in T2.
  eapply sreads_bind; [exact E2|destruct r2; cbn [owed] in T2; lia|]. intros pubs ->. cbn [owed] in T2. apply En; [|lia].
  destruct (octets_len s2) as (n3 & s3 & r3 & E3 & C3 & _ & L3).
  eapply sreads_bind; [exact (cswp_eq _ _ _ _ _ E3)|lia|]. intros cv ->. destruct (L3 cv eq_refl) as (cb & -> & -> & L3').
  apply En; [|lia].
  apply sreads_pure; intros cb' Ecb. cbn [wlift as_bytes snd] in Ecb. injection Ecb as <-.
  apply sreads_pure; intros kv _. apply sreads_pure; intros k _. apply sreads_pure; intros ov Eov.
  apply sreads_pure; intros os Eos. cbn [wlift snd] in Eov, Eos.
  destruct ov as [|o| | |]; try discriminate Eos. cbn [stream_of_val] in Eos. injection Eos as <-.
  specialize (L1 h o eq_refl Eov).
  assert (takes_bytes (kdf_format k) = true) as Tk by (destruct k; reflexivity).
  pose proof (dict_takes (kdf_format k) Tk (stream_of o)) as T4. change (len (stream_of o)) with (length o) in T4.
  destruct (c_dict (kdf_format k) (stream_of o)) as [n4 [s4 r4]] eqn:E4. cbn [fst snd] in T4.
  eapply sreads_bind; [apply (csww_eq (n4, wlift r4)); reflexivity|destruct r4; cbn [owed] in T4; lia|].
  intros options ->. cbn [owed] in T4. apply En; [|lia].
  do 2 (apply sreads_pure; intros ? _). apply sreads_pure; intros c _. apply sreads_pure; intros pw _.
  assert (exists n5 s5 r5, (if is_integrity c then cswp (c_fixed (Z.of_nat (tag_length c))) else csww (cw (wret []))) s3 = (n5, (s5, ([], r5))) /\
    (n5 <= 1)%nat /\ forall tag, r5 = Ok tag -> (length tag <= len s3)%nat) as (n5 & s5 & r5 & E5 & C5 & L5).
  { destruct (is_integrity c).
    - destruct (fixed_len (Z.of_nat (tag_length c)) s3) as (s5 & r5 & E5 & _ & K5). exists 1%nat, s5, r5.
      split; [exact (cswp_eq _ _ _ _ _ E5)|]. split; [lia|]. intros tag ->. destruct (K5 tag eq_refl). lia.
    - exists 0%nat, s3, (Ok []). split; [reflexivity|]. split; [lia|]. intros tag Et. injection Et as <-. cbn. lia. }
  eapply sreads_bind; [exact E5|lia|]. intros tag ->. specialize (L5 tag eq_refl). apply En; [|lia].
  apply sreads_pure; intros ? _. apply sreads_pure; intros plain Ep. cbn [wlift snd] in Ep.
  apply decrypt_shrinks in Ep; [|exact S]. rewrite app_length in Ep.
  pose proof (deciphered_reads c pubs plain) as T6.
  destruct (c_parse_deciphered p c pubs plain) as [n6 [l6 r6]] eqn:E6. cbn [fst] in T6.
  eapply sreads_bind; [apply (csww_eq (n6, (l6, r6))); reflexivity|lia|]. intros [[pairs dh] pad] ->.
  unfold sreads, csww, cw. cbn [fst]. lia.
Qed.
Lemma list_reads e b pass : sound_prims p -> (fst (c_list_from_bytes p e b pass) <= length b + 32)%nat.
Proof.
  intros S. pose proof (list_try_reads e b pass S) as H. unfold c_list_from_bytes.
  destruct (c_from_bytes_try p e b pass) as [n [l [x|x]]]; exact H.
Qed.
End List_.

(** A record that is read takes exactly as many reads as its format has parts. *)
Lemma fixed_exact n s : fst (c_fixed n s) = 1%nat.
Proof. destruct (fixed_len n s) as (s' & r & -> & _). reflexivity. Qed.
Lemma pascal_exact n s b s' : snd (c_pascal n s) = (s', Ok b) -> fst (c_pascal n s) = 2%nat.
Proof.
  unfold c_pascal. destruct (n <=? 0); [discriminate|]. unfold cpbind. pose proof (fixed_exact n s) as E.
  destruct (c_fixed n s) as [c [s1 [l|e]]]; [|discriminate]. cbn [fst] in E. subst c. intros _.
  pose proof (fixed_exact (int_from_bytes l false) s1) as E. destruct (c_fixed _ s1) as [c r]. cbn [fst] in *. lia.
Qed.
Lemma dict_exact f s vs s' : snd (c_dict f s) = (s', Ok vs) -> fst (c_dict f s) = reads_of f.
Proof.
  revert s vs. induction f as [|[k i] f IH]; intros s vs; [reflexivity|]. cbn [c_dict]. unfold cpbind at 1 3.
  assert (forall v s1, snd (c_instr i s) = (s1, Ok v) -> (fst (c_instr i s) + reads_of f)%nat = reads_of ((k, i) :: f)) as Hi.
  { intros v s1 E. cbn [reads_of].
    assert (forall n (g : bytes -> P pyval), snd (cpbind (c_pascal n) (fun b => cp (g b)) s) = (s1, Ok v) ->
      fst (cpbind (c_pascal n) (fun b => cp (g b)) s) = 2%nat) as Hp.
    { intros n g. unfold cpbind. destruct (c_pascal n s) as [c [s2 [b|e]]] eqn:Ep; [|discriminate]. intros _.
      pose proof (pascal_exact n s b s2) as Ex. rewrite Ep in Ex. specialize (Ex eq_refl). cbn [fst] in Ex. unfold cp. cbn [fst]. lia. }
    destruct i; [|pose proof (Hp _ _ E) as X; cbn [c_instr]; lia|pose proof (Hp _ _ E) as X; cbn [c_instr]; lia|discriminate].
    enough (fst (c_instr (FStruct fmt) s) = 1%nat) as -> by reflexivity. revert E. cbn [c_instr].
    unfold cpbind, cp, plift. destruct (struct_calcsize fmt) as [n|e]; [|discriminate].
    pose proof (fixed_exact n s) as Ef. destruct (c_fixed n s) as [c [s2 [b|e]]]; cbn [fst] in *; [|discriminate]. intros _. lia. }
  destruct (c_instr i s) as [n [s1 [v|e]]]; [|discriminate]. cbn [snd fst] in Hi. intros H. rewrite <- (Hi v s1 eq_refl). clear Hi.
  unfold cpbind in *. destruct (c_dict f s1) as [m [s2 [r|e]]] eqn:E; [|discriminate].
  pose proof (IH s1 r) as IH'. rewrite E in IH'. unfold cp, pret in *. cbn [fst snd] in *. injection H as <- _.
  rewrite <- IH' by reflexivity. lia.
Qed.

(** ** Exact counts of what succeeds *)
Lemma cwbind_ok {A B} (x : CW A) (f : A -> CW B) b : snd (snd (cwbind x f)) = Ok b ->
  exists a, snd (snd x) = Ok a /\ snd (snd (f a)) = Ok b /\ fst (cwbind x f) = (fst x + fst (f a))%nat.
Proof.
  unfold cwbind. destruct x as [n [l [a|e]]]; cbn [fst snd]; [|discriminate]. intros H. exists a.
  destruct (f a) as [m [l' r]]. auto.
Qed.
Lemma cpbind_ok {A B} (x : CP A) (f : A -> CP B) n s s' b : cpbind x f s = (n, (s', Ok b)) ->
  exists n1 s1 a n2, x s = (n1, (s1, Ok a)) /\ f a s1 = (n2, (s', Ok b)) /\ n = (n1 + n2)%nat.
Proof.
  unfold cpbind. destruct (x s) as [n1 [s1 [a|e]]]; [|discriminate]. destruct (f a s1) as [n2 r] eqn:F. intros H.
  injection H as <- ->. exists n1, s1, a, n2. auto.
Qed.
Lemma cp_lift_ok {A} (r : res A) n s s' a : cp (plift r) s = (n, (s', Ok a)) -> n = 0%nat /\ s' = s /\ r = Ok a.
Proof. unfold cp, plift. intros H. injection H as <- <- ->. auto. Qed.
Lemma dict_counts f s n s' vs : c_dict f s = (n, (s', Ok vs)) -> n = reads_of f.
Proof. intros H. rewrite <- (dict_exact f s vs s'); rewrite H; reflexivity. Qed.
Lemma parts_exact k s n s' h ps fo : c_key_parts k s = (n, (s', Ok (h, ps, fo))) ->
  exists kt c, ditem (str "key_type") h = Ok kt /\ params_class k kt = Ok c /\
    n = (2 + reads_of (format_of c) + reads_of (footer_fmt k))%nat.
Proof.
  unfold c_key_parts. intros H. apply cpbind_ok in H as (n1 & s1 & h1 & m1 & E1 & H & ->).
  apply cpbind_ok in H as (n2 & s2 & kt & m2 & E2 & H & ->). apply cp_lift_ok in E2 as (-> & -> & E2).
  apply cpbind_ok in H as (n3 & s3 & c & m3 & E3 & H & ->). apply cp_lift_ok in E3 as (-> & -> & E3).
  apply cpbind_ok in H as (n4 & s4 & ps1 & m4 & E4 & H & ->). apply cpbind_ok in H as (n5 & s5 & fo1 & m5 & E5 & H & ->).
  unfold cp, pret in H. injection H as <- _ <- <- <-. apply dict_counts in E1, E4, E5. exists kt, c.
  split; [exact E2|]. split; [exact E3|]. change (reads_of (header_fmt k)) with 2%nat in E1. lia.
Qed.
Lemma wcatch_reads {A} (x : CW A) h f : fst (cwcatch (cdiscard x) h f) = fst x.
Proof. unfold cwcatch. cbn [fst]. apply cdiscard_fst. Qed.
Lemma principals_exact d b : get_bytes "valid_principals" d = Some b ->
  fst (c_principals d) = fst (c_repeatedly [fld "principal" fS] (stream_of b)).
Proof.
  intros H. unfold c_principals. rewrite (get_bytes_item _ _ _ H). unfold wlift, cw, stream_of_val. cbn [cwbind].
  destruct (c_repeatedly _ (stream_of b)) as [n [s [l|e]]]; cbn [fst cwbind] in *; lia.
Qed.
Lemma options_exact k d b : get_bytes k d = Some b ->
  fst (c_options (str k) d) = fst (c_repeatedly options_fmt (stream_of b)).
Proof.
  intros H. unfold c_options. rewrite (get_bytes_item _ _ _ H). unfold wlift, cw, stream_of_val. cbn [cwbind].
  destruct (c_repeatedly _ (stream_of b)) as [n [s [l|e]]]; cbn [fst cwbind] in *;
    [destruct (collect_options _ _ l) as [l' r]; cbn [fst]; lia|reflexivity].
Qed.
Lemma check_cert_exact cpp d u pr cr ex sg : snd (snd (c_check_cert cpp d)) = Ok u ->
  get_bytes "valid_principals" d = Some pr -> get_bytes "critical_options" d = Some cr ->
  get_bytes "extensions" d = Some ex -> get_bytes "signature_key" d = Some sg ->
  fst (c_check_cert cpp d) =
    (fst (c_repeatedly [fld "principal" fS] (stream_of pr)) + fst (c_repeatedly options_fmt (stream_of cr)) +
     fst (c_repeatedly options_fmt (stream_of ex)) + fst (cpp sg))%nat.
Proof.
  intros H P C X S. unfold c_check_cert in *. rewrite P, C, X, S in *.
  apply cwbind_ok in H as (u1 & _ & H & ->). apply cwbind_ok in H as (u2 & _ & H & ->).
  apply cwbind_ok in H as (u3 & _ & H & ->). apply cwbind_ok in H as (u4 & _ & _ & ->).
  rewrite !wcatch_reads, (principals_exact _ _ P), (options_exact _ _ _ C), (options_exact _ _ _ X), (authority_fst _ _ _ S).
  cbn [cw fst]. lia.
Qed.
Lemma run_steps_exact ec cpp c d l u : snd (snd (c_run_steps ec cpp c d l)) = Ok u ->
  fst (c_run_steps ec cpp c d l) = (cert_checks l * fst (c_check_cert cpp d))%nat /\
  (cert_checks l <> 0%nat -> exists u', snd (snd (c_check_cert cpp d)) = Ok u').
Proof.
  revert u. induction l as [|s l IH]; intros u H; [split; [reflexivity|intros []; reflexivity]|]. cbn [c_run_steps] in *.
  apply cwbind_ok in H as (a & A & H & ->). destruct (IH _ H) as (E & N). rewrite E.
  destruct s; unfold cert_checks in *; cbn [c_check_step cw fst filter length] in *; (split; [lia|]); try exact N.
  intros _. exists a. exact A.
Qed.
Lemma loop_counts f n : forall acc s s' l, snd (c_loop n f acc s) = (s', Ok l) ->
  (reads_of f * length l <= fst (c_loop n f acc s) + reads_of f * length acc)%nat /\
  (fst (c_loop n f acc s) + reads_of f * length acc <= reads_of f * S (length l))%nat.
Proof.
  induction n as [|n IH]; intros acc s s' l H; [discriminate|]. cbn [c_loop] in *.
  pose proof (dict_costs f s) as C. pose proof (dict_counts f s) as D.
  destruct (c_dict f s) as [c [s1 [d|e]]]; cbn [fst] in C.
  - pose proof (D _ _ _ eq_refl) as ->. specialize (IH (acc ++ [d]) s1 s' l). destruct (c_loop n f (acc ++ [d]) s1) as [c' r].
    cbn [fst snd] in *. destruct (IH H) as (A & B). rewrite app_length in A, B. cbn [length] in A, B. lia.
  - destruct e as [[] m| | | | | | | | | | | | | | | |]; cbn [fst snd] in *; try discriminate; injection H as <- <-; lia.
Qed.

Lemma remainder_exact s k k' : snd (snd (c_remainder s k)) = Ok k' -> fst (c_remainder s k) = 1%nat /\ k_pcls k' = k_pcls k /\ k_params k' = k_params k.
Proof.
  unfold c_remainder, c_read. rewrite read_rest. intros H. apply cwbind_ok in H as (r & E & H & ->). split; [reflexivity|].
  destruct r; cbn in H; injection H as <-; auto.
Qed.
Lemma certificates_checked_once kt c : params_class KPub kt = Ok c ->
  cert_checks (check_plan c) = if issubclass c CertPub then 1%nat else 0%nat.
Proof.
  intros H. apply class_in in H as (t & v & Hin & <-).
  assert (forallb (fun tv => (cert_checks (check_plan (fst (snd tv))) =? if issubclass (fst (snd tv)) CertPub then 1 else 0)%nat) key_type_mapping = true) as A
    by (vm_compute; reflexivity).
  rewrite forallb_forall in A. specialize (A _ Hin). apply Nat.eqb_eq, A.
Qed.
Lemma new_key_exact ec cpp h ps fo clear kt c k : ditem (str "key_type") h = Ok kt -> params_class KPub kt = Ok c ->
  snd (snd (c_new_key ec cpp KPub h ps fo clear)) = Ok k ->
  k_pcls k = c /\ k_params k = ps /\
  fst (c_new_key ec cpp KPub h ps fo clear) = fst (c_new_params ec cpp c ps) /\
  exists u, snd (snd (c_new_params ec cpp c ps)) = Ok u.
Proof.
  intros Ek Ec. unfold c_new_key. rewrite Ek. intros H.
  apply cwbind_ok in H as (a1 & _ & H & ->). apply cwbind_ok in H as (kt2 & A2 & H & ->).
  assert (kt = kt2) as <- by (unfold cw, wlift in A2; cbn [snd] in A2; congruence). rewrite Ec in H |- *.
  apply cwbind_ok in H as (c2 & A3 & H & ->). assert (c = c2) as <- by (unfold cw, wlift in A3; cbn [snd] in A3; congruence).
  generalize dependent (c_new_params ec cpp c ps). intros x H.
  apply cwbind_ok in H as (u & A4 & H & ->).
  assert (k_pcls k = c /\ k_params k = ps) as (E1 & E2).
  { unfold cw, wseq, wbind in H. cbn [snd] in H. destruct (check_dict fo (footer_fmt KPub)) as [l [y|y]]; [|discriminate].
    unfold wret in H. cbn [snd] in H. injection H as <-. auto. }
  split; [exact E1|]. split; [exact E2|]. split; [|exists u; exact A4]. unfold cw. cbn [fst]. rewrite !Nat.add_0_l, Nat.add_0_r. reflexivity.
Qed.
Lemma steps_exact ec cpp c d l i u : snd (snd (c_run_steps ec cpp c d l)) = Ok u ->
  cert_checks l = (if i : bool then 1%nat else 0%nat) ->
  fst (c_run_steps ec cpp c d l) = (if i then fst (c_check_cert cpp d) else 0%nat) /\
  (i = true -> exists u', snd (snd (c_check_cert cpp d)) = Ok u').
Proof.
  intros A B. destruct (run_steps_exact _ _ _ _ _ _ A) as (X & Y).
  rewrite X, B. rewrite B in Y. destruct i; (split; [lia|]); [intros _; apply Y; discriminate|discriminate].
Qed.
Lemma new_params_eq ec cpp c d : c_new_params ec cpp c d = c_run_steps ec cpp c d (check_plan c).
Proof. reflexivity. Qed.
Lemma public_exact ec cpp b clear k : snd (snd (c_key_from_bytes_with ec cpp KPub b clear)) = Ok k ->
  fst (c_key_from_bytes_with ec cpp KPub b clear) =
    (3 + reads_of (format_of (k_pcls k)) + (if issubclass (k_pcls k) CertPub then fst (c_check_cert cpp (k_params k)) else 0))%nat /\
  (issubclass (k_pcls k) CertPub = true -> exists u, snd (snd (c_check_cert cpp (k_params k))) = Ok u).
Proof.
  unfold c_key_from_bytes_with, c_key_from_stream.
  destruct (c_key_parts KPub (stream_of b)) as [n [s' [[[h ps] fo]|e]]] eqn:E; [|discriminate].
  destruct (parts_exact _ _ _ _ _ _ _ E) as (kt & c & Ek & Ec & En). change (reads_of (footer_fmt KPub)) with 0%nat in En.
  pose proof (new_key_exact ec cpp h ps fo clear kt c) as K.
  destruct (c_new_key ec cpp KPub h ps fo clear) as [m w]. intros H. apply cwbind_ok in H as (k1 & H1 & H & ->).
  apply remainder_exact in H as (-> & -> & ->). cbn [fst snd] in K, H1 |- *.
  destruct (K k1 Ek Ec H1) as (-> & -> & -> & u & U).
  rewrite new_params_eq in U |- *.
  destruct (steps_exact _ _ _ _ _ _ _ U (certificates_checked_once _ _ Ec)) as (-> & Y). split; [|exact Y].
  generalize dependent (reads_of (format_of c)). generalize (if issubclass c CertPub then fst (c_check_cert cpp ps) else 0%nat). intros; lia.
Qed.
