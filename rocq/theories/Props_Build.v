(** Properties of lists made with from_list: C64. *)
From Verif Require Import PyBase IntBytes Utf8 StructFmt Stream Text Classes Key Crypto PrivateKeyList SpecWire SpecKey SpecText SpecCrypto SpecList.
From Verif Require Import ProofBase ProofInt ProofUtf8 ProofWire ProofRecord ProofKey ProofLog ProofErr ProofText ProofCrypto ProofList.
From Verif Require Import ProofRead Props_Key Props_Crypto Props_List Props_Round.
Open Scope Z_scope.

(** The element is the pair [q] of a PublicKey and a PrivateKey. *)
Definition item_is (i : item) (q : pair) : Prop :=
  i = PairItem (Some (pr_public q)) (Some (pr_private q)) /\
  k_kind (pr_public q) = KPub /\ k_kind (pr_private q) = KPriv.
Lemma check_item_iff i q : check_item i = Ok q <-> item_is i q.
Proof.
  unfold item_is. split.
  - destruct i as [[pub|] [priv|]|]; cbn [check_item]; try discriminate.
    destruct (k_kind pub) eqn:A, (k_kind priv) eqn:B; try discriminate. intros H. injection H as <-. auto.
  - intros (-> & A & B). cbn [check_item]. rewrite A, B. destruct q; reflexivity.
Qed.
Lemma check_item_err i e : check_item i = Err e -> e = ValueError.
Proof.
  destruct i as [[pub|] [priv|]|]; cbn [check_item]; try congruence.
  destruct (k_kind pub), (k_kind priv); congruence.
Qed.
(** from_list accepts exactly the lists of pairs, and returns them in order with the names and
    options it was given; any other element makes it raise ValueError. *)
Theorem C64_from_list_exact items cn kn o :
  (forall pairs, Forall2 item_is items pairs ->
     exists l, from_list items cn kn o = Ok l /\ l_pairs l = pairs /\
       l_header l = Some [(str "cipher", VStr cn); (str "kdf", VStr kn)] /\
       l_kdf_options l = Some (match o with Some d => d | None => [] end)) /\
  (forall i, In i items -> (forall q, ~ item_is i q) -> from_list items cn kn o = Err ValueError).
Proof.
  split.
  - intros pairs F. unfold from_list.
    assert (rmap check_item items = Ok pairs) as ->.
    { induction F as [|i q items pairs H F IH]; [reflexivity|]. cbn [rmap]. apply check_item_iff in H. rewrite H, IH. reflexivity. }
    cbn [rbind]. eexists. split; [reflexivity|]. auto.
  - intros i I N. unfold from_list.
    assert (rmap check_item items = Err ValueError) as ->; [|reflexivity].
    induction items as [|j items IH]; [destruct I|]. cbn [rmap]. destruct (check_item j) as [q|e] eqn:E.
    + cbn [rbind]. destruct I as [->|I]; [exfalso; apply (N q); apply check_item_iff; exact E|]. rewrite (IH I). reflexivity.
    + apply check_item_err in E as ->. reflexivity.
Qed.
(** Pairs put in a list with from_list, packed to bytes and parsed again with the same
    passphrase: the same keys in the same order, under the cipher and KDF that were asked for;
    the options that were given, if they are retained. *)
Theorem C64_build_pack_parse p e e' items pairs cn kn o l given given' ov retain b :
  sound_prims p -> Z.of_nat (length b) <= ssize_max ->
  Forall2 item_is items pairs -> Forall is_pair pairs ->
  from_list items cn kn o = Ok l ->
  snd (list_pack_bytes p e l given None ov retain) = Ok b ->
  (ov = false -> Forall (fun q => reparses (p_ec_ok p) (pr_public q)) pairs) ->
  (forall kn pass, passphrase_used e kn given pass -> passphrase_used e' kn given' pass) ->
  exists lg l' h, list_from_bytes p e' b given' = (lg, Ok l') /\
    Forall2 (fun q q' => same_private (pr_private q) (pr_private q') /\
                         same_public (if ov then pr_private q else pr_public q) (pr_public q')) pairs (l_pairs l') /\
    l_header l' = Some h /\ dget (str "cipher") h = Some (VStr cn) /\ dget (str "kdf") h = Some (VStr kn) /\
    (retain = true -> forall d x v, o = Some d -> l_kdf_options l' = Some v ->
       In x (dkeys v) -> dget x v = dget x d).
Proof.
  intros S L F Ip Hl H Rp Hpass.
  destruct (proj1 (C64_from_list_exact items cn kn o) pairs F) as (l0 & E0 & El & Eh & Eo).
  assert (l0 = l) as -> by congruence. clear E0.
  assert (list_names l (VStr cn) (VStr kn)) as Hn by (left; exists [(str "cipher", VStr cn); (str "kdf", VStr kn)]; auto).
  apply (pack_layout _ _ _ _ _ _ _ _ S) in H.
  assert (forall c k, list_names l (VStr c) (VStr k) -> c = cn /\ k = kn) as Fn.
  { intros c k Hn'. apply list_names_iff in Hn, Hn'. rewrite Hn in Hn'. injection Hn' as <- <-. auto. }
  assert (chosen (l_pairs l) None pairs) as Hsel by (symmetry; exact El).
  destruct (packed_parsed p e e' l given given' None ov retain b pairs S L H Hsel Ip Rp Hpass) as
    (c & k & d & vs & opts & pubs & privs & bs & pad & plain & pass & body & tag & pairs' & l' & lg &
     Hn' & Hd & (ts & _ & (K1 & K2) & _) & _ & _ & _ & _ & _ & _ & _ & _ & _ & _ & _ & _ & P1 & -> & E & _).
  destruct (Fn _ _ Hn') as (-> & ->).
  exists lg. do 2 eexists. split; [exact E|]. cbn [l_pairs l_header l_kdf_options]. split; [exact P1|].
  split; [reflexivity|]. split; [reflexivity|]. split; [reflexivity|].
  intros -> d1 x v -> Ev Ix. injection Ev as <-.
  assert (d = d1) as <-.
  { destruct Hd as [(_ & Hd)|([Hd|Hd] & _)]; [congruence|discriminate|congruence]. }
  apply K2. rewrite <- K1. exact Ix.
Qed.
(** Hypotheses met: an encrypted list of two pairs; and what is refused. *)
Definition ex_items : list item :=
  [PairItem (Some ex_ed_public) (Some ex_ed); PairItem (Some ex_rsa_public) (Some ex_rsa)].
Example C64_example :
  Forall2 item_is ex_items ex_pairs /\ Forall is_pair ex_pairs /\
  (exists l b, from_list ex_items (str "aes256-ctr") (str "bcrypt") None = Ok l /\
     snd (list_pack_bytes toy_prims ex_env l (Some (str "pw")) None true false) = Ok b) /\
  (* the halves swapped; a pair of other objects; not a pair *)
  from_list [PairItem (Some ex_ed) (Some ex_ed_public)] (str "none") (str "none") None = Err ValueError /\
  from_list (ex_items ++ [PairItem None (Some ex_ed)]) (str "none") (str "none") None = Err ValueError /\
  from_list [OtherItem] (str "none") (str "none") None = Err ValueError.
Proof.
  split; [repeat constructor|]. split; [apply ex_pairs_ok|].
  split; [do 2 eexists; split; [reflexivity|vm_compute; reflexivity]|]. repeat split.
Qed.

Print Assumptions C64_from_list_exact.
Print Assumptions C64_build_pack_parse.
