(** Properties of certificates: C44 - C50, C60. *)
From Verif Require Import PyBase IntBytes Utf8 StructFmt Stream Text Classes Key.
From Verif Require Import SpecWire SpecKey SpecCert.
From Verif Require Import ProofBase ProofInt ProofUtf8 ProofWire ProofRecord ProofKey ProofLog ProofErr ProofCrypto ProofList ProofCert.
From Verif Require Import Props_Stream Props_Key.
Open Scope Z_scope.

(** ** C44 *)
Lemma string_bytes k v x : dict_bytes [fld k fS] [(str k, v)] = Ok x <-> exists s, v = VStr s /\ wire (TText 4) (VStr s) x.
Proof.
  unfold fld. cbn [dict_bytes]. unfold ditem. cbn [dget]. rewrite str_eqb_refl. cbn [rbind]. split.
  - intros H. apply rbind_ok in H as (y & Hy & H). apply Ok_inj in H as <-. rewrite app_nil_r.
    assert (exists s, v = VStr s) as (s & ->).
    { cbn [instr_bytes fS] in Hy. unfold write_pascal in Hy. apply rbind_ok in Hy as (u & Hu & _). destruct v; try discriminate. eauto. }
    exists s. split; [reflexivity|]. apply text_iff. exact Hy.
  - intros (s & -> & W). apply text_iff in W. rewrite W. cbn [rbind]. rewrite app_nil_r. reflexivity.
Qed.
Lemma pack_list_iff vs b : pack_list vs fS = Ok b <-> exists l, vs = map VStr l /\ strings_of l b.
Proof.
  unfold pack_list. rewrite pack_repeated. revert b; induction vs as [|v vs IH]; intros b; cbn [map dicts_bytes].
  - split.
    + intros H. apply Ok_inj in H as <-. exists []. split; [reflexivity|]. exists []. split; [constructor|reflexivity].
    + intros (l & E & xs & F & ->). destruct l; [|discriminate]. inversion F. reflexivity.
  - split.
    + intros H. apply rbind_ok in H as (x & Hx & H). apply rbind_ok in H as (y & Hy & H). apply Ok_inj in H as <-.
      apply string_bytes in Hx as (s & -> & W). apply IH in Hy as (l & -> & xs & F & ->).
      exists (s :: l). split; [reflexivity|]. exists (x :: xs). split; [constructor; assumption|reflexivity].
    + intros (l & E & xs & F & ->). destruct l as [|s l]; [discriminate|]. cbn in E. injection E as -> ->.
      inversion F as [|? x ? xs' W F']; subst. rewrite (proj2 (string_bytes "item" (VStr s) x)) by (exists s; auto). cbn [rbind].
      rewrite (proj2 (IH (concat xs'))) by (exists l; split; [reflexivity|exists xs'; auto]). reflexivity.
Qed.
(** Reading a well-formed list of principals. *)
Theorem C44_get_principals d l b :
  dget (str "valid_principals") d = Some (VBytes b) -> strings_of l b -> Z.of_nat (length b) <= ssize_max ->
  get_valid_principals d = Ok (map VStr l).
Proof.
  intros G (xs & F & ->) L. unfold get_valid_principals, ditem at 1. rewrite G. cbn [rbind stream_of_val].
  destruct (proj2 (C13_repeated_read_partial [fld "principal" fS] [(str "principal", TText 4)] (stream_of (concat xs))
    (map (fun s => [(str "principal", VStr s)]) l) principal_types eq_refl L)) as (s' & E).
  - exists xs, []. split; [|split; [rewrite app_nil_r; reflexivity|constructor; reflexivity]].
    clear G L. induction F as [|s x l xs H F IH]; constructor; [apply record_one; exact H|exact IH].
  - rewrite E. cbn [snd rbind]. clear. induction l as [|s l IH]; [reflexivity|]. cbn [map rmap].
    change (ditem (str "principal") [(str "principal", VStr s)]) with (Ok (VStr s)). cbn [rbind]. rewrite IH. reflexivity.
Qed.
(** Setting: whatever is accepted is what the getter returns, and nothing else changes. *)
Theorem C44_principals_roundtrip vs d d' b :
  set_valid_principals vs d = Ok d' ->
  dget (str "valid_principals") d' = Some (VBytes b) -> Z.of_nat (length b) <= ssize_max ->
  get_valid_principals d' = Ok vs /\ (exists l, vs = map VStr l /\ strings_of l b) /\
  (forall x, x <> str "valid_principals" -> dget x d' = dget x d).
Proof.
  unfold set_valid_principals. intros H G L. apply rbind_ok in H as (b' & Hb & H). apply Ok_inj in H as <-.
  rewrite dget_dset_same in G. injection G as ->. apply pack_list_iff in Hb as (l & -> & S).
  split; [eapply C44_get_principals; [apply dget_dset_same|exact S|exact L]|]. split; [eauto|].
  intros x N. apply dget_dset_other. exact N.
Qed.
(** Every list of strings that have a UTF-8 encoding (shorter than 4 GiB) is accepted. *)
Theorem C44_encodable_principals_accepted l d :
  (forall s, In s l -> exists u, utf8 s u /\ Z.of_nat (length u) < 2 ^ 32) ->
  exists d', set_valid_principals (map VStr l) d = Ok d'.
Proof.
  intros H. assert (exists b, strings_of l b) as (b & S).
  { assert (exists xs, Forall2 (fun s x => wire (TText 4) (VStr s) x) l xs) as (xs & F).
    { induction l as [|s l IH]; [exists []; constructor|]. destruct IH as (xs & F); [intros t Ht; apply H; right; exact Ht|].
      destruct (H s (or_introl eq_refl)) as (u & Hu & Lu). exists ((be_bytes 4 (Z.of_nat (length u)) ++ u) :: xs). constructor; [|exact F].
      econstructor; [exact Hu|]. exists (be_bytes 4 (Z.of_nat (length u))). rewrite be_bytes_length, unsigned_be, be_value_be_bytes.
      split; [reflexivity|]. split; [apply Z.mod_small; change (256 ^ Z.of_nat 4) with (2 ^ 32); lia|reflexivity]. }
    exists (concat xs), xs. auto. }
  unfold set_valid_principals. rewrite (proj2 (pack_list_iff _ b)) by eauto. eexists. reflexivity.
Qed.
(** Anything else raises. *)
Theorem C44_other_principals_rejected vs d :
  (forall l b, vs = map VStr l -> ~ strings_of l b) -> exists e, set_valid_principals vs d = Err e.
Proof.
  intros H. unfold set_valid_principals. destruct (pack_list vs fS) as [b|e] eqn:E; [|eexists; reflexivity].
  apply pack_list_iff in E as (l & -> & S). exfalso. eapply H; [reflexivity|exact S].
Qed.
(** A certificate without the field, or with a value there that is not bytes. *)
Theorem C44_not_bytes d :
  (dget (str "valid_principals") d = None -> get_valid_principals d = Err (KeyError (VStr (str "valid_principals")))) /\
  (forall v, dget (str "valid_principals") d = Some v -> (forall b, v <> VBytes b) -> get_valid_principals d = Err TypeError).
Proof.
  unfold get_valid_principals, ditem. split; [intros ->; reflexivity|]. intros v -> N.
  destruct v as [z|b|s|vs|n]; try reflexivity. exfalso. apply (N b). reflexivity.
Qed.
Definition ex_cert_params : dict pyval :=
  [(str "nonce", VBytes (bstr "n0nce")); (str "public", VBytes ex_ed_pub); (str "serial", VInt 7);
   (str "type", VInt 1); (str "key_id", VStr (str "id")); (str "valid_principals", VBytes []);
   (str "valid_after", VInt 0); (str "valid_before", VInt 18446744073709551615);
   (str "critical_options", VBytes []); (str "extensions", VBytes []); (str "reserved", VBytes []);
   (str "signature_key", VBytes []); (str "signature", VBytes (bstr "sig"))].
Example C44_example :
  exists d' b, set_valid_principals [VStr (str "root"); VStr []; VStr [233; 8364]%N] ex_cert_params = Ok d' /\
    dget (str "valid_principals") d' = Some (VBytes b) /\ length b = 21%nat /\
    get_valid_principals d' = Ok [VStr (str "root"); VStr []; VStr [233; 8364]%N] /\
    set_valid_principals [VStr [0xD800%N]] ex_cert_params = Err UnicodeEncodeError /\
    get_valid_principals (dset (str "valid_principals") (VStr (str "root")) ex_cert_params) = Err TypeError.
Proof.
  eexists _, _. split; [vm_compute; reflexivity|]. split; [vm_compute; reflexivity|]. split; [reflexivity|]. repeat split; vm_compute; reflexivity.
Qed.

(** ** C45 *)
(** The getter, called with a name. *)
Lemma get_option_at d param l b name :
  dget param d = Some (VBytes b) -> options_list l b -> Z.of_nat (length b) <= ssize_max ->
  exists r, snd (get_option_from_param param (OptStr name) d) = Ok (option_map VBytes r) /\ option_value l name r.
Proof.
  intros G O L. pose proof (options_list_read _ _ _ _ G O L) as E.
  destruct (dget_dict_of_options l [] name) as [(v & Hv & K)|(Hv & K)]; [exists (Some v)|exists None];
    (split; [|exact Hv]); apply get_option_eq; (split; [reflexivity|]); eexists; (split; [exact E|]); symmetry; exact K.
Qed.
Theorem C45_get_option param get set d l b name :
  accessors param get set ->
  dget param d = Some (VBytes b) -> options_list l b -> Z.of_nat (length b) <= ssize_max ->
  exists r, snd (get (OptStr name) d) = Ok (option_map VBytes r) /\ option_value l name r.
Proof. intros Ac. destruct Ac; apply get_option_at. Qed.
(** A certificate without the field, or with a value there that is not bytes: nothing is read or set. *)
Lemma options_not_bytes param d :
  (dget param d = None -> get_option_values_dict param d = ([], Err (KeyError (VStr param)))) /\
  (forall v, dget param d = Some v -> (forall b, v <> VBytes b) -> get_option_values_dict param d = ([], Err TypeError)).
Proof.
  unfold get_option_values_dict, ditem. split; [intros ->; reflexivity|]. intros v -> N.
  destruct v as [z|b|s|vs|n]; try reflexivity. exfalso. apply (N b). reflexivity.
Qed.
Theorem C45_not_bytes param get set d name w :
  accessors param get set ->
  (dget param d = None ->
     get (OptStr name) d = ([], Err (KeyError (VStr param))) /\ set (OptStr name) w d = ([], Err (KeyError (VStr param)))) /\
  (forall v, dget param d = Some v -> (forall b, v <> VBytes b) ->
     get (OptStr name) d = ([], Err TypeError) /\ set (OptStr name) w d = ([], Err TypeError)).
Proof.
  intros Ac.
  assert (forall e, get_option_values_dict param d = ([], Err e) -> get (OptStr name) d = ([], Err e) /\ set (OptStr name) w d = ([], Err e)) as K.
  { intros e E. destruct Ac; unfold get_critical_option, get_extension_value, set_critical_option, set_extension_value, get_option_from_param, set_option_for_param;
      cbn [option_guard wlift wbind]; rewrite E; split; reflexivity. }
  destruct (options_not_bytes param d) as (A & B). split; [intros G; apply K, A, G|intros v G N; apply K, (B v G N)].
Qed.
(** After a set, the getter returns the value set for that name and the previous value for
    every other name; no other parameter changes. [o] and [o'] are names or known options. *)
Lemma get_after_set_at param o v d d' b :
  option_field param -> snd (set_option_for_param param o v d) = Ok d' ->
  dget param d' = Some (VBytes b) -> Z.of_nat (length b) <= ssize_max ->
  snd (get_option_from_param param o d') = Ok (Some v) /\
  (forall o', option_key o' <> option_key o ->
     snd (get_option_from_param param o' d') = snd (get_option_from_param param o' d)) /\
  (forall x, x <> param -> dget x d' = dget x d).
Proof.
  intros Hp H G L. assert (param <> str "type") as Np by (destruct Hp as [<-|[<-|[]]]; discriminate).
  destruct (set_option_effect _ _ _ _ _ _ Np H G L) as (opts & opts' & l & R & R' & Hg & Gs & _ & _ & _ & _ & D & X).
  split; [|split; [|exact X]].
  - apply get_option_eq. split; [rewrite Gs; exact Hg|]. exists opts'. split; [exact R'|]. rewrite D, dget_dset_same. reflexivity.
  - intros o' N. unfold get_option_from_param. rewrite Gs. destruct (option_guard o' d) as [[]|e]; [|reflexivity]. unfold wlift. cbn [wbind app].
    destruct (get_option_values_dict param d') as [lg r] eqn:E1. destruct (get_option_values_dict param d) as [lg2 r2] eqn:E2.
    cbn [snd] in R, R'. subst r r2. cbn [wbind]. rewrite !find_dget, D, dget_dset_other by exact N. reflexivity.
Qed.
Theorem C45_get_after_set param get set o v d d' b :
  accessors param get set ->
  snd (set o v d) = Ok d' ->
  dget param d' = Some (VBytes b) -> Z.of_nat (length b) <= ssize_max ->
  snd (get o d') = Ok (Some v) /\
  (forall o', option_key o' <> option_key o ->
     snd (get o' d') = snd (get o' d)) /\
  (forall x, x <> param -> dget x d' = dget x d).
Proof. intros Ac. destruct Ac; apply get_after_set_at; solve [left; reflexivity|right; left; reflexivity]. Qed.
Lemma get_by_name param o d r : snd (get_option_from_param param o d) = Ok r ->
  snd (get_option_from_param param (OptStr (option_key o)) d) = Ok r.
Proof. intros H. apply get_option_eq in H as (_ & H). apply get_option_eq. split; [reflexivity|exact H]. Qed.
(** Any sequence of sets: each name has the value last set, or the one it had. *)
Lemma sequence_of_sets_at param d hist d' name :
  option_field param -> sets (set_option_for_param param) d hist d' ->
  (forall d1 h1 h2, hist = h1 ++ h2 -> sets (set_option_for_param param) d h1 d1 -> forall b1, dget param d1 = Some (VBytes b1) -> Z.of_nat (length b1) <= ssize_max) ->
  (exists v, last_set hist name (Some v) /\ snd (get_option_from_param param (OptStr name) d') = Ok (Some v)) \/
  (last_set hist name None /\ snd (get_option_from_param param (OptStr name) d') = snd (get_option_from_param param (OptStr name) d)).
Proof.
  intros Hp H. induction H as [d|d o v d1 l d2 S H IH]; intros Hb.
  - right. split; [intros ? ? []|reflexivity].
  - assert (exists b1, dget param d1 = Some (VBytes b1)) as (b1 & G1).
    { apply set_option_iff in S as (_ & opts & b1 & _ & _ & ->). exists b1. apply dget_dset_same. }
    assert (Z.of_nat (length b1) <= ssize_max) as L1.
    { apply (Hb d1 [(o, v)] l eq_refl); [econstructor; [exact S|constructor]|exact G1]. }
    destruct (get_after_set_at param o v d d1 b1 Hp S G1 L1) as (A & B & _).
    destruct IH as [(w & (l1 & o2 & l2 & -> & Ek & N) & E)|(N & E)].
    { intros d3 h1 h2 -> S3 b3 G3. apply (Hb d3 ((o, v) :: h1) h2 eq_refl); [econstructor; eassumption|exact G3]. }
    + left. exists w. split; [exists ((o, v) :: l1), o2, l2; auto|exact E].
    + destruct (str_eqb_reflect (option_key o) name) as [<-|Ne].
      * left. exists v. split; [exists [], o, l; auto|]. rewrite E. apply get_by_name. exact A.
      * right. split; [|rewrite E; apply B; cbn; congruence].
        intros o' v' [K|K]; [injection K as <- <-; exact Ne|apply (N o' v' K)].
Qed.
Theorem C45_sequence_of_sets param get set d hist d' name :
  accessors param get set ->
  sets set d hist d' ->
  (forall d1 h1 h2, hist = h1 ++ h2 -> sets set d h1 d1 -> forall b1, dget param d1 = Some (VBytes b1) -> Z.of_nat (length b1) <= ssize_max) ->
  (exists v, last_set hist name (Some v) /\ snd (get (OptStr name) d') = Ok (Some v)) \/
  (last_set hist name None /\ snd (get (OptStr name) d') = snd (get (OptStr name) d)).
Proof. intros Ac. destruct Ac; apply sequence_of_sets_at; solve [left; reflexivity|right; left; reflexivity]. Qed.
Lemma dict_of_options_keys acc l name v : NoDup (dkeys acc) -> dget name (dict_of_options acc l) = Some v ->
  dget name acc = Some v \/ exists w, v = VBytes w /\ In (name, w) l.
Proof.
  intros _. destruct (dget_dict_of_options l acc name) as [(w & (l1 & l2 & -> & _) & ->)|(_ & ->)]; [|auto].
  intros K. injection K as <-. right. exists w. split; [reflexivity|]. apply in_or_app. right. left. reflexivity.
Qed.
(** A set succeeds if the field is well formed, the name has an encoding and the value is
    bytes (both shorter than 4 GiB). *)
Lemma set_succeeds_at param d l b name v :
  dget param d = Some (VBytes b) -> options_list l b -> Z.of_nat (length b) <= ssize_max ->
  (exists x, option_of (name, v) x) ->
  exists d', snd (set_option_for_param param (OptStr name) (VBytes v) d) = Ok d'.
Proof.
  intros G O L (x0 & Hx0). pose proof (options_list_read _ _ _ _ G O L) as E.
  set (opts := dset name (VBytes v) (dict_of_options [] l)).
  assert (forall k, In k (dkeys opts) -> exists w x, dget k opts = Some (VBytes w) /\ option_of (k, w) x) as K.
  { intros k Hk. unfold opts. destruct (str_eqb_reflect k name) as [->|N].
    - exists v, x0. rewrite dget_dset_same. auto.
    - rewrite dget_dset_other by exact N. destruct (dget k (dict_of_options [] l)) as [w|] eqn:Ew.
      + apply dict_of_options_keys in Ew as [Ew|(u & -> & Hin)]; [discriminate| |constructor]. exists u.
        destruct O as (xs & F & _). clear - F Hin. induction F as [|o x l xs H F IH]; [contradiction|].
        destruct Hin as [->|Hin]; [eauto|auto].
      + exfalso. rewrite <- (dget_dset_other k name (VBytes v)) in Ew by exact N. apply dget_None in Ew. exact (Ew Hk). }
  assert (exists b', pack_options opts fB = Ok b') as (b' & Hb').
  { assert (forall ks, (forall k, In k ks -> In k (dkeys opts)) -> exists b' l', options_list l' b' /\ map fst l' = ks /\ forall n w, In (n, w) l' -> dget n opts = Some (VBytes w)) as A.
    { induction ks as [|k ks IH]; intros Hks.
      - exists [], []. split; [exists []; split; [constructor|reflexivity]|]. split; [reflexivity|intros ? ? []].
      - destruct IH as (b' & l' & (xs & F & ->) & E' & D); [intros; apply Hks; right; assumption|].
        destruct (K k (Hks k (or_introl eq_refl))) as (w & x & Gw & Hx).
        exists (x ++ concat xs), ((k, w) :: l'). split; [exists (x :: xs); split; [constructor; assumption|reflexivity]|].
        split; [cbn; f_equal; exact E'|]. intros n u [Q|Q]; [injection Q as <- <-; exact Gw|auto]. }
    destruct (A (sorted_strs (dkeys opts))) as (b' & l' & A1 & A2 & A3).
    { intros k Hk. apply (Permutation.Permutation_in _ (sorted_perm _)). exact Hk. }
    exists b'. apply pack_options_iff. eauto. }
  eexists. apply set_option_iff. split; [reflexivity|]. do 2 eexists. split; [exact E|]. split; [exact Hb'|reflexivity].
Qed.
Theorem C45_set_succeeds param get set d l b name v :
  accessors param get set ->
  dget param d = Some (VBytes b) -> options_list l b -> Z.of_nat (length b) <= ssize_max ->
  (exists x, option_of (name, v) x) ->
  exists d', snd (set (OptStr name) (VBytes v) d) = Ok d'.
Proof. intros Ac. destruct Ac; apply set_succeeds_at. Qed.

Definition ex_opt_params : dict pyval :=
  match snd (set_critical_option (OptStr (str "source-address")) (VBytes (bstr "::1")) ex_cert_params) with
  | Ok d => match snd (set_critical_option (OptEnum FORCE_COMMAND) (VBytes (bstr "ls")) d) with Ok d' => d' | Err _ => [] end
  | Err _ => [] end.
Example C45_example :
  sets set_critical_option ex_cert_params
    [(OptStr (str "source-address"), VBytes (bstr "::1")); (OptEnum FORCE_COMMAND, VBytes (bstr "ls"))] ex_opt_params /\
  get_critical_option (OptEnum FORCE_COMMAND) ex_opt_params = ([], Ok (Some (VBytes (bstr "ls")))) /\
  get_critical_option (OptStr (str "source-address")) ex_opt_params = ([], Ok (Some (VBytes (bstr "::1")))) /\
  get_critical_option (OptEnum VERIFY_REQUIRED) ex_opt_params = ([], Ok None) /\
  get_extension_value (OptEnum PERMIT_PTY) ex_opt_params = ([], Ok None).
Proof.
  split; [|repeat split; vm_compute; reflexivity].
  eapply sets_cons; [vm_compute; reflexivity|]. eapply sets_cons; [vm_compute; reflexivity|].
  replace ex_opt_params with (ltac:(let x := eval vm_compute in ex_opt_params in exact x)) by (vm_compute; reflexivity).
  apply sets_nil.
Qed.

(** ** C46 *)
(** Whatever the field held before (duplicates, any order), after a set it is a list of
    options in strictly increasing order of the bytes of their names. *)
Lemma canonical_options_at param o v d d' b :
  option_field param -> snd (set_option_for_param param o v d) = Ok d' ->
  dget param d' = Some (VBytes b) -> Z.of_nat (length b) <= ssize_max ->
  exists l, options_list l b /\ lexically_ordered l /\ NoDup (map fst l) /\
    In (option_key o) (map fst l).
Proof.
  intros Hp H G L. assert (param <> str "type") as Np by (destruct Hp as [<-|[<-|[]]]; discriminate).
  destruct (get_after_set_at _ _ _ _ _ _ Hp H G L) as (A & _).
  destruct (set_option_effect _ _ _ _ _ _ Np H G L) as (opts & opts' & l & _ & _ & _ & _ & _ & O & Lx & Nd & _).
  exists l. split; [exact O|]. split; [exact Lx|]. split; [exact Nd|].
  apply get_by_name in A. destruct (get_option_at _ _ _ _ (option_key o) G O L) as (r & R & V). rewrite R in A.
  destruct r as [u|]; [|discriminate]. destruct V as (l1 & l2 & -> & _). rewrite map_app. apply in_or_app. right. left. reflexivity.
Qed.
Theorem C46_canonical_options param get set o v d d' b :
  accessors param get set ->
  snd (set o v d) = Ok d' ->
  dget param d' = Some (VBytes b) -> Z.of_nat (length b) <= ssize_max ->
  exists l, options_list l b /\ lexically_ordered l /\ NoDup (map fst l) /\
    In (option_key o) (map fst l).
Proof. intros Ac. destruct Ac; apply canonical_options_at; solve [left; reflexivity|right; left; reflexivity]. Qed.
(** The same options set in any order give the same field: setting two different names
    commutes (on certificates where both orders succeed). *)
Lemma strongly_sorted_unique l l' : Sorted.StronglySorted before l -> Sorted.StronglySorted before l' ->
  (forall x, In x l <-> In x l') -> l = l'.
Proof.
  revert l'; induction l as [|x l IH]; intros l' S S' E.
  - destruct l' as [|y l']; [reflexivity|]. exfalso. apply (proj2 (E y)). left. reflexivity.
  - destruct l' as [|y l']; [exfalso; apply (proj1 (E x)); left; reflexivity|].
    apply Sorted.StronglySorted_inv in S as (S & F). apply Sorted.StronglySorted_inv in S' as (S' & F').
    rewrite Forall_forall in F, F'.
    assert (x = y) as <-.
    { destruct (proj1 (E x) (or_introl eq_refl)) as [K|K]; [congruence|].
      destruct (proj2 (E y) (or_introl eq_refl)) as [K'|K']; [congruence|].
      pose proof (F y K') as A. pose proof (F' x K) as B. unfold before in A, B.
      pose proof (str_ltb_trans _ _ _ A B) as C. rewrite str_ltb_irrefl in C. discriminate. }
    f_equal. apply IH; [exact S|exact S'|]. intros z. split; intros Hz.
    + destruct (proj1 (E z) (or_intror Hz)) as [K|K]; [|exact K]. subst z.
      pose proof (F x Hz) as A. unfold before in A. rewrite str_ltb_irrefl in A. discriminate.
    + destruct (proj2 (E z) (or_intror Hz)) as [K|K]; [|exact K]. subst z.
      pose proof (F' x Hz) as A. unfold before in A. rewrite str_ltb_irrefl in A. discriminate.
Qed.
Lemma dicts_same_keys (a b : dict pyval) : (forall n, dget n a = dget n b) -> forall x, In x (dkeys a) <-> In x (dkeys b).
Proof.
  intros E x. destruct (dget x a) eqn:Ex.
  - assert (dget x a <> None) by congruence. assert (dget x b <> None) by (rewrite <- E; assumption).
    split; intros _.
    + destruct (in_dec (fun a b => Bool.reflect_dec _ _ (str_eqb_reflect a b)) x (dkeys b)) as [I|N]; [exact I|]. apply dget_None in N. contradiction.
    + destruct (in_dec (fun a b => Bool.reflect_dec _ _ (str_eqb_reflect a b)) x (dkeys a)) as [I|N]; [exact I|]. apply dget_None in N. contradiction.
  - pose proof Ex as Ey. rewrite E in Ey. apply dget_None in Ex. apply dget_None in Ey. tauto.
Qed.
(** pack_options depends only on the mapping. *)
Lemma pack_options_ext (a b : dict pyval) : NoDup (dkeys a) -> NoDup (dkeys b) -> (forall n, dget n a = dget n b) ->
  pack_options a fB = pack_options b fB.
Proof.
  intros Na Nb E. unfold pack_options.
  assert (sorted_strs (dkeys a) = sorted_strs (dkeys b)) as ->.
  { apply strongly_sorted_unique; [apply sorted_sorted; exact Na|apply sorted_sorted; exact Nb|].
    intros x. pose proof (dicts_same_keys a b E x) as K.
    split; intros Hx; apply (Permutation.Permutation_in _ (Permutation.Permutation_sym (sorted_perm _))), K, (Permutation.Permutation_in _ (sorted_perm _)); exact Hx. }
  assert (forall ks, rmap (fun o => do? v <- ditem o a; Ok [(str "option", VStr o); (str "value", v)]) ks =
    rmap (fun o => do? v <- ditem o b; Ok [(str "option", VStr o); (str "value", v)]) ks) as ->; [|reflexivity].
  induction ks as [|k ks IH]; [reflexivity|]. cbn [rmap]. rewrite IH. unfold ditem. rewrite E. reflexivity.
Qed.
Lemma order_of_sets_is_irrelevant_at param o1 v1 o2 v2 d d1 d12 d2 d21 b1 b2 :
  option_field param -> option_key o1 <> option_key o2 ->
  snd (set_option_for_param param o1 v1 d) = Ok d1 -> snd (set_option_for_param param o2 v2 d1) = Ok d12 ->
  snd (set_option_for_param param o2 v2 d) = Ok d2 -> snd (set_option_for_param param o1 v1 d2) = Ok d21 ->
  dget param d1 = Some (VBytes b1) -> Z.of_nat (length b1) <= ssize_max ->
  dget param d2 = Some (VBytes b2) -> Z.of_nat (length b2) <= ssize_max ->
  forall x, dget x d12 = dget x d21.
Proof.
  intros Hp Ne H1 H12 H2 H21 G1 L1 G2 L2. assert (param <> str "type") as Np by (destruct Hp as [<-|[<-|[]]]; discriminate).
  destruct (set_option_effect _ _ _ _ _ _ Np H1 G1 L1) as (opts & opts1 & _ & R & R1 & _ & _ & _ & _ & _ & _ & D1 & X1).
  destruct (set_option_effect _ _ _ _ _ _ Np H2 G2 L2) as (optsb & opts2 & _ & Rb & R2 & _ & _ & _ & _ & _ & _ & D2 & X2).
  assert (optsb = opts) as -> by congruence.
  apply set_option_iff in H12 as (_ & q1 & c1 & Q1 & P1 & ->). assert (q1 = opts1) as -> by congruence.
  apply set_option_iff in H21 as (_ & q2 & c2 & Q2 & P2 & ->). assert (q2 = opts2) as -> by congruence.
  assert (c1 = c2) as <-.
  { apply Ok_inj. rewrite <- P1, <- P2. apply pack_options_ext.
    - apply NoDup_dset. destruct (options_read_iff _ _ _ R1) as (? & ? & _ & _ & ->). apply dict_of_options_nodup. constructor.
    - apply NoDup_dset. destruct (options_read_iff _ _ _ R2) as (? & ? & _ & _ & ->). apply dict_of_options_nodup. constructor.
    - intros n. destruct (str_eqb_reflect n (option_key o2)) as [->|N2].
      + rewrite dget_dset_same, dget_dset_other by congruence. rewrite D2, dget_dset_same. reflexivity.
      + rewrite dget_dset_other by exact N2. rewrite D1. destruct (str_eqb_reflect n (option_key o1)) as [->|N1].
        * rewrite !dget_dset_same. reflexivity.
        * rewrite !dget_dset_other by exact N1. rewrite D2, dget_dset_other by exact N2. reflexivity. }
  intros x. destruct (str_eqb_reflect x param) as [->|N].
  - rewrite !dget_dset_same. reflexivity.
  - rewrite !dget_dset_other by exact N. rewrite X1, X2 by exact N. reflexivity.
Qed.
Theorem C46_order_of_sets_is_irrelevant param get set o1 v1 o2 v2 d d1 d12 d2 d21 b1 b2 :
  accessors param get set ->
  option_key o1 <> option_key o2 ->
  snd (set o1 v1 d) = Ok d1 -> snd (set o2 v2 d1) = Ok d12 ->
  snd (set o2 v2 d) = Ok d2 -> snd (set o1 v1 d2) = Ok d21 ->
  dget param d1 = Some (VBytes b1) -> Z.of_nat (length b1) <= ssize_max ->
  dget param d2 = Some (VBytes b2) -> Z.of_nat (length b2) <= ssize_max ->
  forall x, dget x d12 = dget x d21.
Proof. intros Ac. destruct Ac; apply order_of_sets_is_irrelevant_at; solve [left; reflexivity|right; left; reflexivity]. Qed.
Example C46_example :
  dget (str "critical_options") ex_opt_params =
    Some (VBytes (map bZ [0; 0; 0; 13] ++ bstr "force-command" ++ map bZ [0; 0; 0; 2] ++ bstr "ls" ++
                  map bZ [0; 0; 0; 14] ++ bstr "source-address" ++ map bZ [0; 0; 0; 3] ++ bstr "::1")).
Proof. vm_compute. reflexivity. Qed.

(** ** C47 *)
(** Every known option is for user certificates only (PROTOCOL.certkeys: "No critical
    options are defined for host certificates at present", and likewise for extensions). *)
Lemma guard_refuses_at param c v d t :
  dget (str "type") d = Some t -> ~ is_user_cert d ->
  get_option_from_param param (OptEnum c) d = ([], Err ValueError) /\
  set_option_for_param param (OptEnum c) v d = ([], Err ValueError).
Proof.
  intros G N. assert (option_guard (OptEnum c) d = Err ValueError) as E.
  { cbn [option_guard]. unfold get_type, ditem. rewrite G. cbn [rbind find].
    destruct (val_eqb_reflect t (VInt (principal_value USER))) as [->|_]; [exfalso; apply N; exact G|].
    destruct (val_eqb t (VInt (principal_value HOST))); [|reflexivity]. destruct c; reflexivity. }
  unfold get_option_from_param, set_option_for_param. rewrite E. split; reflexivity.
Qed.
Theorem C47_guard_refuses param get set c v d t :
  accessors param get set ->
  dget (str "type") d = Some t -> ~ is_user_cert d ->
  get (OptEnum c) d = ([], Err ValueError) /\
  set (OptEnum c) v d = ([], Err ValueError).
Proof. intros Ac. destruct Ac; apply guard_refuses_at. Qed.
(** On a user certificate a known option is the same as its name. *)
Lemma guard_admits_at param c v d :
  is_user_cert d ->
  get_option_from_param param (OptEnum c) d = get_option_from_param param (OptStr (option_name c)) d /\
  set_option_for_param param (OptEnum c) v d = set_option_for_param param (OptStr (option_name c)) v d.
Proof.
  intros G. assert (option_guard (OptEnum c) d = Ok tt) as E.
  { cbn [option_guard]. unfold get_type, ditem. rewrite G. destruct c; reflexivity. }
  unfold get_option_from_param, set_option_for_param. rewrite E. split; reflexivity.
Qed.
Theorem C47_guard_admits param get set c v d :
  accessors param get set ->
  is_user_cert d ->
  get (OptEnum c) d = get (OptStr (option_name c)) d /\
  set (OptEnum c) v d = set (OptStr (option_name c)) v d.
Proof. intros Ac. destruct Ac; apply guard_admits_at. Qed.
(** With a plain name the type is not consulted: whatever it is changed to (or if it is
    removed), the outcome is the same. *)
Lemma names_bypass_guard_at param name v d d2 :
  dget param d = dget param d2 ->
  get_option_from_param param (OptStr name) d = get_option_from_param param (OptStr name) d2 /\
  (forall b, (exists d', snd (set_option_for_param param (OptStr name) v d) = Ok d' /\ dget param d' = Some b) <->
             (exists d', snd (set_option_for_param param (OptStr name) v d2) = Ok d' /\ dget param d' = Some b)).
Proof.
  intros G. assert (get_option_values_dict param d = get_option_values_dict param d2) as E
    by (unfold get_option_values_dict, ditem; rewrite G; reflexivity).
  split; [unfold get_option_from_param; rewrite E; reflexivity|]. intros b.
  split; intros (d' & H & K); apply set_option_iff in H as (_ & opts & b0 & Ho & Hb & ->);
    rewrite dget_dset_same in K; injection K as <-; [rewrite E in Ho|rewrite <- E in Ho];
    eexists; (split; [apply set_option_iff; split; [reflexivity|]; eauto 6|apply dget_dset_same]).
Qed.
Theorem C47_names_bypass_guard param get set name v d d2 :
  accessors param get set ->
  dget param d = dget param d2 ->
  get (OptStr name) d = get (OptStr name) d2 /\
  (forall b, (exists d', snd (set (OptStr name) v d) = Ok d' /\ dget param d' = Some b) <->
             (exists d', snd (set (OptStr name) v d2) = Ok d' /\ dget param d' = Some b)).
Proof. intros Ac. destruct Ac; apply names_bypass_guard_at. Qed.
(** get_type: user, host, or ValueError; set_type. *)
Theorem C47_get_type d t : dget (str "type") d = Some t ->
  (is_user_cert d -> get_type d = Ok USER) /\ (is_host_cert d -> get_type d = Ok HOST) /\
  (~ is_user_cert d -> ~ is_host_cert d -> get_type d = Err ValueError).
Proof.
  intros G. unfold is_user_cert, is_host_cert, get_type, ditem. rewrite G. cbn [rbind find].
  destruct (val_eqb_reflect t (VInt (principal_value USER))) as [->|N1].
  - split; [reflexivity|]. split; [intros K; discriminate|intros K; exfalso; apply K; reflexivity].
  - split; [intros K; injection K as ->; exfalso; apply N1; reflexivity|].
    destruct (val_eqb_reflect t (VInt (principal_value HOST))) as [->|N2].
    + split; [reflexivity|]. intros _ K. exfalso. apply K. reflexivity.
    + split; [intros K; injection K as ->; exfalso; apply N2; reflexivity|reflexivity].
Qed.
Theorem C47_set_type t d :
  get_type (set_type t d) = Ok t /\ (t = USER <-> is_user_cert (set_type t d)) /\ (t = HOST <-> is_host_cert (set_type t d)) /\
  (forall x, x <> str "type" -> dget x (set_type t d) = dget x d).
Proof.
  unfold get_type, is_user_cert, is_host_cert, set_type, ditem. rewrite dget_dset_same.
  split; [destruct t; reflexivity|]. split; [destruct t; cbn [principal_value]; split; congruence|]. split; [destruct t; cbn [principal_value]; split; congruence|].
  intros x N. apply dget_dset_other. exact N.
Qed.
Example C47_example :
  is_user_cert ex_cert_params /\ is_host_cert (set_type HOST ex_cert_params) /\
  get_critical_option (OptEnum FORCE_COMMAND) (set_type HOST ex_opt_params) = ([], Err ValueError) /\
  get_critical_option (OptStr (str "force-command")) (set_type HOST ex_opt_params) = ([], Ok (Some (VBytes (bstr "ls")))).
Proof. repeat split; vm_compute; reflexivity. Qed.

(** ** C48 *)
Lemma cert_spec_key t base : In (t, base) cert_specs -> In (t, (cert_fields base, None)) key_specs.
Proof.
  intros H. unfold key_specs. apply in_or_app. right. apply in_map_iff. exists (t, base). auto.
Qed.
Lemma cert_class t base : In (t, base) cert_specs -> exists c, get_public_class (VStr t) = Ok c /\
  format_of c = signed_format_of c ++ [fld "signature" fB] /\ format_types (signed_format_of c) (cert_signed base) /\
  NoDup (map fst (cert_signed base)) /\ issubclass c CertPub = true.
Proof.
  intros H. unfold cert_specs in H. cbn [In] in H.
  repeat (destruct H as [H|H]; [injection H as <- <-; eexists; split; [vm_compute; reflexivity|];
    split; [vm_compute; reflexivity|]; split; [apply ftypes_of_sound; vm_compute; reflexivity|];
    split; [apply nodupb_sound; vm_compute; reflexivity|vm_compute; reflexivity]|]). contradiction.
Qed.
Lemma one_text k h v x : dget k h = Some v -> dict_bytes [(k, fS)] h = Ok x <-> exists s, v = VStr s /\ wire (TText 4) (VStr s) x.
Proof.
  intros G. cbn [dict_bytes]. unfold ditem. rewrite G. cbn [rbind]. split.
  - intros H. apply rbind_ok in H as (y & Hy & H). apply Ok_inj in H as <-. rewrite app_nil_r.
    assert (exists s, v = VStr s) as (s & ->).
    { cbn [instr_bytes fS] in Hy. unfold write_pascal in Hy. apply rbind_ok in Hy as (u & Hu & _). destruct v; try discriminate. eauto. }
    exists s. split; [reflexivity|]. apply text_iff. exact Hy.
  - intros (s & -> & W). apply text_iff in W. rewrite W. cbn [rbind]. rewrite app_nil_r. reflexivity.
Qed.
Lemma one_octets k h x : dict_bytes [(k, fB)] h = Ok x <-> exists u, dget k h = Some (VBytes u) /\ prefixed 4 u x.
Proof.
  cbn [dict_bytes]. unfold ditem. split.
  - intros H. destruct (dget k h) as [v|]; [|discriminate]. cbn [rbind] in H. apply rbind_ok in H as (y & Hy & H). apply Ok_inj in H as <-. rewrite app_nil_r.
    assert (exists s, v = VBytes s) as (s & ->).
    { cbn [instr_bytes fB] in Hy. unfold write_pascal in Hy. apply rbind_ok in Hy as (u & Hu & _). destruct v; try discriminate. eauto. }
    exists s. split; [reflexivity|]. apply octets_iff in Hy. exact Hy.
  - intros (s & -> & W). apply octets_iff in W. cbn [rbind]. rewrite W. cbn [rbind]. rewrite app_nil_r. reflexivity.
Qed.
(** A certificate's packed bytes are the type string, the signed bytes and the signature. *)
Theorem C48_signed_bytes t base k b :
  In (t, base) cert_specs -> is_key t k -> k_kind k = KPub ->
  pack_public_bytes k = Ok b <->
  exists h body sig s, wire (TText 4) (VStr t) h /\ pack_signed_bytes (k_pcls k) (k_params k) = Ok body /\
    dget (str "signature") (k_params k) = Some (VBytes sig) /\ prefixed 4 sig s /\ b = h ++ body ++ s.
Proof.
  intros Hs (Hk & Hc) Kd. rewrite Kd in Hc. cbn [params_class] in Hc.
  destruct (cert_class _ _ Hs) as (c & A & F & _). assert (c = k_pcls k) as -> by congruence.
  destruct (spec_public _ _ _ (cert_spec_key _ _ Hs)) as (c & A' & _ & _ & Fp). assert (c = k_pcls k) as -> by congruence.
  rewrite pack_public_eq, Fp, F, dict_bytes_app. unfold pack_signed_bytes. rewrite pack_with_dict.
  change (header_fmt KPub) with [(str "key_type", fS)]. change ([fld "signature" fB]) with [(str "signature", fB)]. split.
  - intros H. apply rbind_ok in H as (h & Hh & H). apply rbind_ok in H as (r & Hr & H). apply Ok_inj in H as <-.
    apply rbind_ok in Hr as (body & Hb & Hr). apply rbind_ok in Hr as (s & Hs' & Hr). apply Ok_inj in Hr as <-.
    apply (one_text _ _ _ _ Hk) in Hh as (t' & E & W). injection E as <-. apply one_octets in Hs' as (sig & G & P).
    exists h, body, sig, s. auto.
  - intros (h & body & sig & s & W & Hb & G & P & ->).
    rewrite (proj2 (one_text _ _ _ h Hk)) by eauto. cbn [rbind]. rewrite Hb. cbn [rbind].
    rewrite (proj2 (one_octets (str "signature") (k_params k) s)) by eauto. reflexivity.
Qed.
(** The signed bytes are exactly the fields that PROTOCOL.certkeys lists between the type
    string and the signature. *)
Theorem C48_signed_layout t base k b :
  In (t, base) cert_specs -> is_key t k -> k_kind k = KPub ->
  pack_signed_bytes (k_pcls k) (k_params k) = Ok b ->
  exists vs, restricts (map fst (cert_signed base)) (k_params k) vs /\ record_of canonical (cert_signed base) vs b.
Proof.
  intros Hs (_ & Hc) Kd. rewrite Kd in Hc. cbn [params_class] in Hc.
  destruct (cert_class _ _ Hs) as (c & A & _ & F & N & _). assert (c = k_pcls k) as -> by congruence.
  unfold pack_signed_bytes. rewrite pack_with_dict. intros E.
  rewrite <- (format_keys _ _ F) in N |- *.
  eapply dict_bytes_canonical; [exact F| |exact N|exact E]. apply blobs_none.
  intros x n Hin. apply (proj1 (spec_no_blobs _ _ _ (cert_spec_key _ _ Hs)) x n). apply in_or_app. left. exact Hin.
Qed.
Definition ex_ca_bytes : bytes := map bZ [0; 0; 0; 11] ++ bstr "ssh-ed25519" ++ map bZ [0; 0; 0; 32] ++ ex_ed_pub.
Definition ex_cert : key :=
  mkkey KPub [(str "key_type", VStr (str "ssh-ed25519-cert-v01@openssh.com"))] CertEd
        (dset (str "signature_key") (VBytes ex_ca_bytes) ex_opt_params) [] [].
Example C48_example :
  is_key (str "ssh-ed25519-cert-v01@openssh.com") ex_cert /\
  In (str "ssh-ed25519-cert-v01@openssh.com", ed25519_public) cert_specs /\
  exists b body, pack_public_bytes ex_cert = Ok b /\ pack_signed_bytes CertEd (k_params ex_cert) = Ok body /\
    b = map bZ [0; 0; 0; 32] ++ bstr "ssh-ed25519-cert-v01@openssh.com" ++ body ++ map bZ [0; 0; 0; 3] ++ bstr "sig".
Proof.
  split; [split; vm_compute; reflexivity|]. split; [right; right; left; reflexivity|].
  eexists _, _. split; [vm_compute; reflexivity|]. split; vm_compute; reflexivity.
Qed.
(** PROTOCOL.certkeys: the signature is "computed over all preceding fields from the initial
    string up to, and including the signature key". The result of pack_signed_bytes is not
    that: the initial string is missing. *)
Theorem C48_initial_string_refuted :
  exists t base k b body, In (t, base) cert_specs /\ is_key t k /\ k_kind k = KPub /\
    pack_public_bytes k = Ok b /\ pack_signed_bytes (k_pcls k) (k_params k) = Ok body /\
    forall rest, b <> body ++ rest.
Proof.
  exists (str "ssh-ed25519-cert-v01@openssh.com"), ed25519_public, ex_cert.
  destruct C48_example as (A & B & b & body & Hb & Hs & _). exists b, body.
  split; [exact B|]. split; [exact A|]. split; [reflexivity|]. split; [exact Hb|]. split; [exact Hs|].
  vm_compute in Hb, Hs. apply Ok_inj in Hb as <-. apply Ok_inj in Hs as <-. intros rest K. discriminate K.
Qed.

(** ** C49 *)
Lemma plain_class t pub priv kd c : In (t, (pub, Some priv)) key_specs -> params_class kd (VStr t) = Ok c -> issubclass c CertPub = false.
Proof.
  intros Hs Hc. each_spec Hs; try discriminate; injection Hs as <- <- <-; destruct kd;
    vm_compute in Hc; injection Hc as <-; vm_compute; reflexivity.
Qed.
(** The authority set is the authority returned. *)
Theorem C49_authority_roundtrip ec t pub priv sk d d' b :
  In (t, (pub, Some priv)) key_specs -> is_key t sk ->
  set_signature_key sk d = Ok d' ->
  dget (str "signature_key") d' = Some (VBytes b) -> Z.of_nat (length b) <= ssize_max ->
  (exists l k', get_signature_key (parse_pub ec) d' = (l, Ok k') /\ ~ In (Warn WCertCA) l /\ ~ In (Warn WExcess) l /\
    k_kind k' = KPub /\ is_key t k' /\ restricts (map fst pub) (k_params sk) (k_params k') /\ k_clear k' = []) /\
  pack_public_bytes sk = Ok b /\ (forall x, x <> str "signature_key" -> dget x d' = dget x d).
Proof.
  intros Hs Hk H G L. unfold set_signature_key in H.
  rewrite (plain_class _ _ _ _ _ Hs (proj2 Hk)) in H. apply rbind_ok in H as (b' & Hb & H). apply Ok_inj in H as <-.
  rewrite dget_dset_same in G. injection G as ->.
  split; [|split; [exact Hb|intros x N; apply dget_dset_other; exact N]].
  destruct (C17_public_bytes_roundtrip ec _ _ _ _ _ Hs Hk Hb L) as (l & k' & E & X & Kd & Hk' & _ & Rs & _ & Cl).
  unfold key_from_bytes in E. rewrite <- parse_pub_unfold in E.
  unfold get_signature_key, ditem. rewrite dget_dset_same. cbn [wlift wbind]. rewrite E. cbn [wbind app].
  rewrite (plain_class _ _ _ _ _ Hs (proj2 Hk')). unfold wwhen, wseq, wret. cbn [wbind app].
  exists l, k'. rewrite !app_nil_r. split; [reflexivity|]. split; [|auto 8].
  intros K. assert (key_from_bytes ec KPub b None = (l, Ok k')) as E' by (unfold key_from_bytes; rewrite <- parse_pub_unfold; exact E).
  pose proof (plain_parse_quiet _ _ _ _ _ _ _ _ _ E' Hs Hk' _ K). discriminate.
Qed.
(** A certificate is refused as an authority. *)
Theorem C49_certificate_authority_refused t base sk d :
  In (t, base) cert_specs -> is_key t sk -> k_kind sk = KPub -> set_signature_key sk d = Err ValueError.
Proof.
  intros Hs (_ & Hc) Kd. rewrite Kd in Hc. cbn [params_class] in Hc.
  destruct (cert_class _ _ Hs) as (c & A & _ & _ & _ & I). assert (c = k_pcls sk) as -> by congruence.
  unfold set_signature_key. rewrite I. reflexivity.
Qed.
(** Reading: the authority is whatever the field's bytes parse to as a public key; a warning
    is added exactly if that is a certificate. *)
Theorem C49_get_authority ec d b l k t :
  dget (str "signature_key") d = Some (VBytes b) -> key_from_bytes ec KPub b None = (l, Ok k) -> is_key t k ->
  (In t (map fst cert_specs) -> get_signature_key (parse_pub ec) d = (l ++ [Warn WCertCA], Ok k)) /\
  (~ In t (map fst cert_specs) -> get_signature_key (parse_pub ec) d = (l, Ok k)).
Proof.
  intros G E Hk. destruct (C17_parsed_keys_have_types _ _ _ _ _ _ E) as (Kd & t' & pub & priv & Hs & Hk').
  assert (t' = t) as -> by (destruct Hk as (A & _), Hk' as (B & _); congruence).
  unfold key_from_bytes in E. rewrite <- parse_pub_unfold in E.
  unfold get_signature_key, ditem. rewrite G. cbn [wlift wbind]. rewrite E. cbn [wbind app]. split.
  - intros Hin. apply in_map_iff in Hin as ((t' & base) & Et & Hc). cbn [fst] in Et. subst t'.
    destruct (cert_class _ _ Hc) as (c & A & _ & _ & _ & I). destruct Hk as (_ & B). rewrite Kd in B. cbn [params_class] in B.
    assert (c = k_pcls k) as -> by congruence. rewrite I. reflexivity.
  - intros N. destruct priv as [priv|].
    + rewrite (plain_class _ _ _ _ _ Hs (proj2 Hk)). cbn. rewrite app_nil_r. reflexivity.
    + exfalso. apply N. clear - Hs. unfold key_specs in Hs. apply in_app_or in Hs as [Hs|Hs].
      * apply in_map_iff in Hs as (x & K & _). discriminate.
      * apply in_map_iff in Hs as ((t' & base) & K & H). cbn [fst snd] in K. injection K as <- _. apply in_map_iff. exists (t', base). auto.
Qed.
Theorem C49_no_authority ec d :
  (dget (str "signature_key") d = None -> get_signature_key (parse_pub ec) d = ([], Err (KeyError (VStr (str "signature_key"))))) /\
  (forall v, dget (str "signature_key") d = Some v -> (forall b, v <> VBytes b) -> get_signature_key (parse_pub ec) d = ([], Err TypeError)).
Proof.
  unfold get_signature_key, ditem. split; [intros ->; reflexivity|]. intros v -> N.
  destruct v as [z|b|s|vs|n]; try reflexivity. exfalso. apply (N b). reflexivity.
Qed.
(** Parsing satisfies its recursive definition and always terminates, however deeply
    certificates are nested: the outcome is never the model's out-of-fuel marker. *)
Theorem C49_nested_parsing_terminates ec b :
  parse_pub ec b = key_from_bytes_with ec (parse_pub ec) KPub b None /\
  forall e, snd (parse_pub ec b) = Err e -> is_model_error e = false.
Proof.
  split; [apply parse_pub_unfold|]. intros e H. destruct (parse_pub_errors _ _ _ H) as [K|[K|(o & ->)]]; [| |reflexivity]; destruct e; (reflexivity || discriminate).
Qed.
Definition ex_ca : key := mkkey KPub [(str "key_type", VStr (str "ssh-ed25519"))] EdPub [(str "public", VBytes ex_ed_pub)] [] [].
Example C49_example :
  is_key (str "ssh-ed25519") ex_ed /\
  exists d', set_signature_key ex_ed ex_cert_params = Ok d' /\ dget (str "signature_key") d' = Some (VBytes ex_ca_bytes) /\
    get_signature_key (parse_pub ex_ec) d' = ([], Ok ex_ca) /\
    set_signature_key ex_cert d' = Err ValueError /\
    exists b, pack_public_bytes ex_cert = Ok b /\
      get_signature_key (parse_pub ex_ec) (dset (str "signature_key") (VBytes b) d') = ([Warn WCertCA], Ok ex_cert).
Proof.
  split; [split; vm_compute; reflexivity|]. eexists. split; [vm_compute; reflexivity|]. split; [vm_compute; reflexivity|].
  split; [vm_compute; reflexivity|]. split; [vm_compute; reflexivity|]. eexists. split; [vm_compute; reflexivity|]. vm_compute. reflexivity.
Qed.

(** ** C50 *)
Lemma cert_plan t base c : In (t, base) cert_specs -> get_public_class (VStr t) = Ok c -> In StCert (check_plan c).
Proof.
  intros Hs Hc. assert (existsb (fun s => match s with StCert => true | _ => false end) (check_plan c) = true) as A.
  { unfold cert_specs in Hs. cbn [In] in Hs. repeat (destruct Hs as [Hs|Hs]; [injection Hs as <- <-; vm_compute in Hc; injection Hc as <-; vm_compute; reflexivity|]). contradiction. }
  apply existsb_exists in A as (s & Hin & K). destruct s; (discriminate || exact Hin).
Qed.
(** Constructing certificate parameters from any mapping raises exactly in these cases. The
    property says never; the cases are witnessed below. *)
Theorem C50_construction_raises_partial ec t base c d :
  In (t, base) cert_specs -> get_public_class (VStr t) = Ok c ->
  (exists e, snd (new_params ec (parse_pub ec) c d) = Err e) <->
  (exists b, dget (str "valid_principals") d = Some (VBytes b) /\ exists o, get_valid_principals d = Err (UnicodeDecodeError o)) \/
  (exists param b, option_field param /\ dget param d = Some (VBytes b) /\
     exists o, forall name, snd (get_option_from_param param (OptStr name) d) = Err (UnicodeDecodeError o)) \/
  (exists b, dget (str "signature_key") d = Some (VBytes b) /\ exists o, snd (key_from_bytes ec KPub b None) = Err (KeyError o)).
Proof.
  intros Hs Hc. destruct (spec_of_class KPub _ _ Hc) as (ts & F & _). pose proof (cert_plan _ _ _ Hs Hc) as Hin.
  assert (raises (new_params ec (parse_pub ec) c d) <-> raises (check_cert (parse_pub ec) d)) as E.
  { unfold new_params. generalize (check_plan c) Hin. intros pl Hpl. exact (run_steps_raises ec (parse_pub ec) c d pl ts F Hpl). }
  unfold raises in E. rewrite E. fold (raises (check_cert (parse_pub ec) d)).
  rewrite (check_cert_raises (parse_pub ec) d) by (intros b e _; apply parse_pub_errors).
  assert (forall param r, (forall name, snd (get_option_from_param param (OptStr name) d) = Err r) <-> snd (get_option_values_dict param d) = Err r) as O.
  { intros param r. unfold get_option_from_param. split.
    - intros H. specialize (H []). unfold option_guard, wlift in H. cbn [wbind] in H. destruct (get_option_values_dict param d) as [l [o|e]]; cbn [wbind snd wret] in *; congruence.
    - intros H name. unfold option_guard, wlift. cbn [wbind]. destruct (get_option_values_dict param d) as [l [o|e]]; cbn [wbind snd wret] in *; congruence. }
  split; (intros [H|[(param & b & A & B & o & C)|(b & A & o & B)]]; [left; exact H|right; left|right; right]).
  - exists param, b. split; [exact A|]. split; [exact B|]. exists o. rewrite O. exact C.
  - exists b. split; [exact A|]. exists o. unfold key_from_bytes. rewrite <- parse_pub_unfold. exact B.
  - exists param, b. split; [exact A|]. split; [exact B|]. exists o. rewrite <- O. exact C.
  - exists b. split; [exact A|]. exists o. rewrite parse_pub_unfold. exact B.
Qed.
Lemma catch_reports {A} (x : W A) h w e : snd (wcatch (wdiscard x) h (fun _ => wwarn w)) = Ok tt -> snd x = Err e ->
  In (Warn w) (fst (wcatch (wdiscard x) h (fun _ => wwarn w))).
Proof. intros H E. rewrite (proj2 (catch_log _ _ _ H) _ E). apply in_or_app. right. left. reflexivity. Qed.
Lemma catch_keeps {A} (x : W A) h w ev : snd (wcatch (wdiscard x) h (fun _ => wwarn w)) = Ok tt -> In ev (fst x) ->
  In ev (fst (wcatch (wdiscard x) h (fun _ => wwarn w))).
Proof.
  intros H E. destruct (catch_log _ _ _ H) as (A1 & A2). destruct (snd x) as [a|e] eqn:Ex; [rewrite (A1 a eq_refl)|rewrite (A2 e eq_refl); apply in_or_app; left]; exact E.
Qed.
(** Whatever is wrong with the contents is reported, if construction does not raise. *)
Theorem C50_bad_contents_reported ec t base c d l :
  In (t, base) cert_specs -> get_public_class (VStr t) = Ok c -> new_params ec (parse_pub ec) c d = (l, Ok tt) ->
  (forall v, dget (str "type") d = Some v -> ~ is_user_cert d -> ~ is_host_cert d -> In (Warn WCertType) l) /\
  (forall b e, dget (str "valid_principals") d = Some (VBytes b) -> get_valid_principals d = Err e -> In (Warn WCertPrincipals) l) /\
  (forall b e, dget (str "critical_options") d = Some (VBytes b) -> snd (get_critical_option (OptStr []) d) = Err e -> In (Warn WCertCritical) l) /\
  (forall b e, dget (str "extensions") d = Some (VBytes b) -> snd (get_extension_value (OptStr []) d) = Err e -> In (Warn WCertExtensions) l) /\
  (forall param b l1 o v l2, option_field param -> dget param d = Some (VBytes b) -> options_list (l1 ++ (o, v) :: l2) b ->
     Z.of_nat (length b) <= ssize_max -> In o (map fst l1) -> In (Warn (WCertDuplicate o param)) l) /\
  (forall b e, dget (str "signature_key") d = Some (VBytes b) -> snd (key_from_bytes ec KPub b None) = Err e -> In (Warn WCertAuthority) l) /\
  (forall b lb k t', dget (str "signature_key") d = Some (VBytes b) -> key_from_bytes ec KPub b None = (lb, Ok k) -> is_key t' k ->
     In t' (map fst cert_specs) -> In (Warn WCertCA) l).
Proof.
  intros Hs Hc H. destruct (spec_of_class KPub _ _ Hc) as (ts & F & _). pose proof (cert_plan _ _ _ Hs Hc) as Hin.
  assert (forall w, is_cert_warning w = true -> In (Warn w) (fst (check_cert (parse_pub ec) d)) -> In (Warn w) l) as Hl.
  { intros w Hw K. revert H. unfold new_params. generalize (check_plan c) Hin. intros pl Hpl H.
    apply (run_steps_log ec (parse_pub ec) c d pl ts l F H w Hw). auto. }
  assert (snd (check_cert (parse_pub ec) d) = Ok tt) as Hok.
  { destruct (snd (check_cert (parse_pub ec) d)) as [[]|e] eqn:E; [reflexivity|exfalso].
    assert (raises (new_params ec (parse_pub ec) c d)) as (e' & K).
    { unfold new_params. generalize (check_plan c) Hin. intros pl Hpl. apply (run_steps_raises ec (parse_pub ec) c d pl ts F Hpl). exists e. exact E. }
    rewrite H in K. discriminate. }
  destruct (check_cert_split _ _ Hok) as ((Sa & Sp & Sc & Se & Sk) & Lg). cbv zeta in *.
  assert (forall param o e, snd (get_option_from_param param (OptStr o) d) = Err e -> snd (get_option_values_dict param d) = Err e) as O.
  { intros param o e. unfold get_option_from_param, option_guard, wlift. cbn [wbind].
    destruct (get_option_values_dict param d) as [lg [os|e1]]; cbn [wbind snd wret]; congruence. }
  repeat apply conj.
  - intros v G N1 N2. apply Hl; [reflexivity|]. rewrite Lg. apply in_or_app. left.
    unfold dmem in *. rewrite G in *. eapply catch_reports; [exact Sa|]. rewrite snd_wlift. apply (C47_get_type d v G); assumption.
  - intros b e G E. apply Hl; [reflexivity|]. rewrite Lg. apply in_or_app; right. apply in_or_app; left.
    rewrite (proj2 (get_bytes_iff _ _ _) G) in *. eapply catch_reports; [exact Sp|]. rewrite snd_wlift. exact E.
  - intros b e G E. apply Hl; [reflexivity|]. rewrite Lg. do 2 (apply in_or_app; right). apply in_or_app; left.
    rewrite (proj2 (get_bytes_iff _ _ _) G) in *. eapply catch_reports; [exact Sc|]. eapply O. exact E.
  - intros b e G E. apply Hl; [reflexivity|]. rewrite Lg. do 3 (apply in_or_app; right). apply in_or_app; left.
    rewrite (proj2 (get_bytes_iff _ _ _) G) in *. eapply catch_reports; [exact Se|]. eapply O. exact E.
  - intros param b l1 o v l2 Hp G Ol L Hdup. apply Hl; [reflexivity|].
    assert (In (Warn (WCertDuplicate o param)) (fst (get_option_values_dict param d))) as K.
    { rewrite (options_list_eq _ _ _ _ G Ol L). apply collect_duplicates; [constructor|left; exact Hdup]. }
    rewrite Lg. destruct Hp as [<-|[<-|[]]].
    + do 2 (apply in_or_app; right). apply in_or_app; left. rewrite (proj2 (get_bytes_iff _ _ _) G) in *. apply catch_keeps; assumption.
    + do 3 (apply in_or_app; right). apply in_or_app; left. rewrite (proj2 (get_bytes_iff _ _ _) G) in *. apply catch_keeps; assumption.
  - intros b e G E. apply Hl; [reflexivity|]. rewrite Lg. do 4 (apply in_or_app; right).
    rewrite (proj2 (get_bytes_iff _ _ _) G) in *. eapply catch_reports; [exact Sk|]. apply (signature_key_snd _ _ _ G).
    rewrite parse_pub_unfold. exact E.
  - intros b lb k t' G E Hk Hcert. apply Hl; [reflexivity|]. rewrite Lg. do 4 (apply in_or_app; right).
    rewrite (proj2 (get_bytes_iff _ _ _) G) in *. apply catch_keeps; [exact Sk|].
    rewrite (proj1 (C49_get_authority ec d b lb k t' G E Hk) Hcert). apply in_or_app. right. left. reflexivity.
Qed.
(** Well-formed contents with a plain authority: no exception and no warning about them. *)
Theorem C50_good_contents_accepted ec t base c d lp bp bc lc be le bk lk k t' pub priv :
  In (t, base) cert_specs -> get_public_class (VStr t) = Ok c ->
  is_user_cert d \/ is_host_cert d ->
  dget (str "valid_principals") d = Some (VBytes bp) -> strings_of lp bp -> Z.of_nat (length bp) <= ssize_max ->
  dget (str "critical_options") d = Some (VBytes bc) -> options_list lc bc -> NoDup (map fst lc) -> Z.of_nat (length bc) <= ssize_max ->
  dget (str "extensions") d = Some (VBytes be) -> options_list le be -> NoDup (map fst le) -> Z.of_nat (length be) <= ssize_max ->
  dget (str "signature_key") d = Some (VBytes bk) -> key_from_bytes ec KPub bk None = (lk, Ok k) ->
  In (t', (pub, Some priv)) key_specs -> is_key t' k ->
  exists l, new_params ec (parse_pub ec) c d = (l, Ok tt) /\ forall w, In (Warn w) l -> is_cert_warning w = false.
Proof.
  intros Hs Hc Ht Gp Op Lp Gc Oc Nc Lc Ge Oe Ne Le Gk Ek Hs' Hk.
  destruct (spec_of_class KPub _ _ Hc) as (ts & F & _). pose proof (cert_plan _ _ _ Hs Hc) as Hin.
  assert (~ raises (check_cert (parse_pub ec) d)) as Nr.
  { rewrite (check_cert_raises (parse_pub ec) d) by (intros b e _; apply parse_pub_errors).
    intros [(b & _ & o & K)|[(param & b & Hp & _ & o & K)|(b & G & o & K)]].
    - rewrite (C44_get_principals _ _ _ Gp Op Lp) in K. discriminate.
    - destruct Hp as [<-|[<-|[]]]; [rewrite (options_list_read _ _ _ _ Gc Oc Lc) in K|rewrite (options_list_read _ _ _ _ Ge Oe Le) in K]; discriminate.
    - assert (b = bk) as -> by congruence. rewrite parse_pub_unfold in K. unfold key_from_bytes in Ek. rewrite Ek in K. discriminate. }
  assert (snd (check_cert (parse_pub ec) d) = Ok tt) as Hok.
  { destruct (snd (check_cert (parse_pub ec) d)) as [[]|e] eqn:E; [reflexivity|exfalso; apply Nr; exists e; exact E]. }
  assert (forall w, In (Warn w) (fst (check_cert (parse_pub ec) d)) -> is_cert_warning w = false) as Q.
  { destruct (check_cert_split _ _ Hok) as ((Sa & Sp & Sc & Se & Sk) & Lg). cbv zeta in *. rewrite Lg.
    rewrite (proj2 (get_bytes_iff _ _ _) Gp) in *. rewrite (proj2 (get_bytes_iff _ _ _) Gc) in *.
    rewrite (proj2 (get_bytes_iff _ _ _) Ge) in *. rewrite (proj2 (get_bytes_iff _ _ _) Gk) in *.
    assert (dmem (str "type") d = true) as Em by (unfold dmem; destruct Ht as [T|T]; rewrite T; reflexivity).
    rewrite Em in *.
    assert (exists ty, get_type d = Ok ty) as (ty & Ety) by (unfold get_type, ditem; destruct Ht as [T|T]; rewrite T; eexists; reflexivity).
    rewrite (proj1 (catch_log _ _ _ Sa) ty) by (rewrite snd_wlift; exact Ety).
    rewrite (proj1 (catch_log _ _ _ Sp) (map VStr lp)) by (rewrite snd_wlift; exact (C44_get_principals _ _ _ Gp Op Lp)).
    rewrite (proj1 (catch_log _ _ _ Sc) _ (options_list_read _ _ _ _ Gc Oc Lc)).
    rewrite (proj1 (catch_log _ _ _ Se) _ (options_list_read _ _ _ _ Ge Oe Le)).
    assert (get_signature_key (parse_pub ec) d = (lk, Ok k)) as Eg.
    { apply (C49_get_authority ec d bk lk k t' Gk Ek Hk). intros K. apply in_map_iff in K as ((t2 & base2) & <- & K). cbn [fst] in *.
      destruct (cert_class _ _ K) as (c2 & A & _ & _ & _ & I).
      rewrite (plain_class t2 pub priv KPub c2 Hs' A) in I. discriminate. }
    rewrite (proj1 (catch_log _ _ _ Sk) k) by (rewrite Eg; reflexivity). rewrite Eg. cbn [fst].
    rewrite (options_list_eq _ _ _ _ Gc Oc Lc), (options_list_eq _ _ _ _ Ge Oe Le).
    rewrite !collect_no_duplicates by (assumption || (intros ? _ [])). cbn [wlift fst app].
    exact (plain_parse_quiet _ _ _ _ _ _ _ _ _ Ek Hs' Hk). }
  destruct (new_params ec (parse_pub ec) c d) as [l r] eqn:E.
  assert (r = Ok tt) as ->.
  { destruct r as [[]|e]; [reflexivity|]. exfalso. apply Nr. revert E. unfold new_params. generalize (check_plan c) Hin. intros pl Hpl E.
    apply (run_steps_raises ec (parse_pub ec) c d pl ts F Hpl). exists e. rewrite E. reflexivity. }
  exists l. split; [reflexivity|]. intros w K. destruct (is_cert_warning w) eqn:Ew; [|reflexivity].
  exfalso. revert E. unfold new_params. generalize (check_plan c). intros pl E.
  apply (run_steps_log ec (parse_pub ec) c d pl ts l F E w Ew) in K as (_ & K). rewrite (Q w K) in Ew. discriminate.
Qed.
(** Against the property: contents that make the construction raise, and a malformed list
    that is not reported. *)
Theorem C50_never_raises_refuted :
  (exists d, snd (new_params ex_ec (parse_pub ex_ec) CertEd d) = Err (KeyError (VStr (str "ssh-foo"))) /\
     dget (str "signature_key") d = Some (VBytes (map bZ [0; 0; 0; 7] ++ bstr "ssh-foo"))) /\
  (exists d, snd (new_params ex_ec (parse_pub ex_ec) CertEd d) = Err (UnicodeDecodeError [xff]) /\
     dget (str "valid_principals") d = Some (VBytes (map bZ [0; 0; 0; 1; 255]))).
Proof.
  split.
  - exists (dset (str "signature_key") (VBytes (map bZ [0; 0; 0; 7] ++ bstr "ssh-foo")) ex_cert_params). split; vm_compute; reflexivity.
  - exists (dset (str "valid_principals") (VBytes (map bZ [0; 0; 0; 1; 255])) (k_params ex_cert)). split; vm_compute; reflexivity.
Qed.
Theorem C50_truncation_reported_refuted :
  exists d b, dget (str "valid_principals") d = Some (VBytes b) /\ (forall l, ~ strings_of l b) /\
    new_params ex_ec (parse_pub ex_ec) CertEd d = ([], Ok tt).
Proof.
  exists (dset (str "valid_principals") (VBytes (map bZ [0; 0; 0; 5])) (k_params ex_cert)), (map bZ [0; 0; 0; 5]).
  split; [vm_compute; reflexivity|]. split; [|vm_compute; reflexivity].
  intros l (xs & F & E). destruct F as [|s x l xs W F]; [discriminate|]. cbn [concat] in E.
  inversion W as [|k0 s0 u b0 Hu P| | |]; subst. destruct P as (p & Lp & V & ->).
  destruct p as [|p0 [|p1 [|p2 [|p3 [|]]]]]; try discriminate. cbn in E. injection E as <- <- <- <- E.
  change (unsigned (map bZ [0; 0; 0; 5])) with 5 in V. destruct u; [|discriminate]. cbn in V. vm_compute in V. discriminate.
Qed.
Example C50_example :
  new_params ex_ec (parse_pub ex_ec) CertEd (k_params ex_cert) = ([], Ok tt) /\
  new_params ex_ec (parse_pub ex_ec) CertEd (set_type USER (dset (str "type") (VInt 3) (k_params ex_cert))) = ([], Ok tt) /\
  new_params ex_ec (parse_pub ex_ec) CertEd (dset (str "type") (VInt 3) (k_params ex_cert)) = ([Warn WCertType], Ok tt) /\
  new_params ex_ec (parse_pub ex_ec) CertEd (dset (str "signature_key") (VBytes []) (k_params ex_cert)) = ([Warn WCertAuthority], Ok tt) /\
  new_params ex_ec (parse_pub ex_ec) CertEd (dset (str "extensions") (VBytes (map bZ [0; 0; 0; 1; 97; 0; 0; 0; 0; 0; 0; 0; 1; 97; 0; 0; 0; 0])) (k_params ex_cert))
    = ([Warn (WCertDuplicate (str "a") (str "extensions"))], Ok tt) /\
  new_params ex_ec (parse_pub ex_ec) CertEd (dset (str "extensions") (VBytes (map bZ [0; 0; 0; 1; 97; 0; 0; 0; 2; 0])) (k_params ex_cert))
    = ([Warn WCertExtensions], Ok tt).
Proof. repeat split; vm_compute; reflexivity. Qed.

(** ** C60 *)
(** The names of options in PROTOCOL.certkeys ("Critical options", "Extensions"). *)
Definition protocol_name (c : cert_option) : pystr :=
  match c with
  | FORCE_COMMAND => str "force-command"
  | SOURCE_ADDRESS => str "source-address"
  | VERIFY_REQUIRED => str "verify-required"
  | NO_TOUCH_REQUIRED => str "no-touch-required"
  | PERMIT_X11_FORWARDING => str "permit-X11-forwarding"
  | PERMIT_AGENT_FORWARDING => str "permit-agent-forwarding"
  | PERMIT_PORT_FORWARDING => str "permit-port-forwarding"
  | PERMIT_PTY => str "permit-pty"
  | PERMIT_USER_RC => str "permit-user-rc"
  end.
(** Setting a known option on a user certificate makes the protocol's name present, for all
    options but one. *)
Lemma set_known_option_at param c v d d' b :
  c <> PERMIT_X11_FORWARDING -> option_field param -> snd (set_option_for_param param (OptEnum c) (VBytes v) d) = Ok d' ->
  dget param d' = Some (VBytes b) -> Z.of_nat (length b) <= ssize_max ->
  exists l, options_list l b /\ option_value l (protocol_name c) (Some v).
Proof.
  intros Nc Hp H G L. assert (option_key (OptEnum c) = protocol_name c) as Ek by (destruct c; (reflexivity || contradiction)).
  destruct (canonical_options_at _ _ _ _ _ _ Hp H G L) as (l & O & _). exists l. split; [exact O|].
  destruct (get_after_set_at _ _ _ _ _ _ Hp H G L) as (A & _). apply get_by_name in A. rewrite Ek in A.
  destruct (get_option_at _ _ _ _ (protocol_name c) G O L) as (r & R & V). rewrite R in A.
  destruct r as [u|]; [|discriminate]. cbn in A. injection A as ->. exact V.
Qed.
Theorem C60_set_known_option_partial param get set c v d d' b :
  accessors param get set ->
  c <> PERMIT_X11_FORWARDING -> snd (set (OptEnum c) (VBytes v) d) = Ok d' ->
  dget param d' = Some (VBytes b) -> Z.of_nat (length b) <= ssize_max ->
  exists l, options_list l b /\ option_value l (protocol_name c) (Some v).
Proof. intros Ac Nc. destruct Ac; apply set_known_option_at; (exact Nc || solve [left; reflexivity|right; left; reflexivity]). Qed.
Theorem C60_x11_name_refuted :
  exists d d' b l, snd (set_extension_value (OptEnum PERMIT_X11_FORWARDING) (VBytes []) d) = Ok d' /\
    dget (str "extensions") d' = Some (VBytes b) /\ options_list l b /\ option_value l (protocol_name PERMIT_X11_FORWARDING) None.
Proof.
  assert (exists d', snd (set_extension_value (OptEnum PERMIT_X11_FORWARDING) (VBytes []) ex_cert_params) = Ok d' /\
    dget (str "extensions") d' = Some (VBytes (map bZ [0; 0; 0; 21] ++ bstr "permit-x11-forwarding" ++ map bZ [0; 0; 0; 0]))) as (d' & H & G)
    by (eexists; split; vm_compute; reflexivity).
  assert (Z.of_nat (length (map bZ [0; 0; 0; 21] ++ bstr "permit-x11-forwarding" ++ map bZ [0; 0; 0; 0])) <= ssize_max) as L by (vm_compute; discriminate).
  assert (option_field (str "extensions")) as Hp by (right; left; reflexivity).
  destruct (canonical_options_at _ _ _ _ _ _ Hp H G L) as (l & O & _).
  exists ex_cert_params, d', (map bZ [0; 0; 0; 21] ++ bstr "permit-x11-forwarding" ++ map bZ [0; 0; 0; 0]), l.
  split; [exact H|]. split; [exact G|]. split; [exact O|].
  destruct (get_option_at _ _ _ _ (protocol_name PERMIT_X11_FORWARDING) G O L) as (r & R & V).
  assert (snd (get_option_from_param (str "extensions") (OptStr (protocol_name PERMIT_X11_FORWARDING)) d') = Ok None) as N.
  { destruct (get_after_set_at _ _ _ _ _ _ Hp H G L) as (_ & B & _). rewrite B by discriminate. vm_compute. reflexivity. }
  rewrite R in N. destruct r; [discriminate|exact V].
Qed.
Example C60_example :
  exists d', snd (set_extension_value (OptEnum PERMIT_PTY) (VBytes []) ex_cert_params) = Ok d' /\
    dget (str "extensions") d' = Some (VBytes (map bZ [0; 0; 0; 10] ++ bstr "permit-pty" ++ map bZ [0; 0; 0; 0])).
Proof. eexists. split; vm_compute; reflexivity. Qed.

Print Assumptions C44_not_bytes.
Print Assumptions C45_not_bytes.
Print Assumptions C49_no_authority.
Print Assumptions C44_get_principals.
Print Assumptions C44_principals_roundtrip.
Print Assumptions C44_encodable_principals_accepted.
Print Assumptions C44_other_principals_rejected.
Print Assumptions C45_get_option.
Print Assumptions C45_get_after_set.
Print Assumptions C45_sequence_of_sets.
Print Assumptions C45_set_succeeds.
Print Assumptions C46_canonical_options.
Print Assumptions C46_order_of_sets_is_irrelevant.
Print Assumptions C47_guard_refuses.
Print Assumptions C47_guard_admits.
Print Assumptions C47_names_bypass_guard.
Print Assumptions C47_get_type.
Print Assumptions C47_set_type.
Print Assumptions C48_signed_bytes.
Print Assumptions C48_signed_layout.
Print Assumptions C48_initial_string_refuted.
Print Assumptions C49_authority_roundtrip.
Print Assumptions C49_certificate_authority_refused.
Print Assumptions C49_get_authority.
Print Assumptions C49_nested_parsing_terminates.
Print Assumptions C50_construction_raises_partial.
Print Assumptions C50_bad_contents_reported.
Print Assumptions C50_good_contents_accepted.
Print Assumptions C50_never_raises_refuted.
Print Assumptions C50_truncation_reported_refuted.
Print Assumptions C60_set_known_option_partial.
Print Assumptions C60_x11_name_refuted.
