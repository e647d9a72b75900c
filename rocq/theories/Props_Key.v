(** Properties of keys: C17-C23, C54. *)
From Verif Require Import PyBase IntBytes Utf8 StructFmt Stream Text Classes Key PrivateKeyList SpecWire SpecKey.
From Verif Require Import ProofBase ProofInt ProofUtf8 ProofWire ProofRecord ProofKey.
Open Scope Z_scope.

(** Whether a point is on a curve is decided by the cryptography package; every theorem
    holds for every such decision [ec]. Examples use this one. *)
Definition ex_ec : curve -> bytes -> bool := fun _ q => (length q =? 65)%nat.

(** An Ed25519 private key and an RSA private key (toy numbers). *)
Definition ex_ed_pub : bytes := repeat "007"%byte 32.
Definition ex_ed_params : dict pyval :=
  [(str "public", VBytes ex_ed_pub); (str "private_public", VBytes (repeat "001"%byte 32 ++ ex_ed_pub))].
Definition ex_ed : key :=
  mkkey KPriv [(str "key_type", VStr (str "ssh-ed25519"))] EdPriv ex_ed_params
        [(str "comment", VStr (str "me@host"))] [].
Definition ex_rsa : key :=
  mkkey KPriv [(str "key_type", VStr (str "ssh-rsa"))] RSAPriv
        [(str "n", VInt 3233); (str "e", VInt 17); (str "d", VInt 413); (str "iqmp", VInt 38);
         (str "p", VInt 61); (str "q", VInt 53)]
        [(str "comment", VStr (str "toy"))] [].
Ltac in_specs := vm_compute; repeat (first [left; reflexivity | right]).

(** ** C17 *)
(** There are sixteen key types, eight of them with private keys. *)
Theorem C17_sixteen_types :
  length (map fst key_specs) = 16%nat /\ NoDup (map fst key_specs) /\
  length (filter (fun s => match snd (snd s) with Some _ => true | None => false end) key_specs) = 8%nat.
Proof. split; [reflexivity|]. split; [apply key_specs_nodup|reflexivity]. Qed.
(** Every key that the constructors and parsers return has one of these types. *)
Theorem C17_constructed_keys_have_types ec kd h ps fo cl l k :
  new_key ec (parse_pub ec) kd h ps fo cl = (l, Ok k) ->
  k_kind k = kd /\ exists t pub priv, In (t, (pub, priv)) key_specs /\ is_key t k.
Proof.
  intros H. split; [|eapply new_key_is_key; eassumption].
  apply new_key_inv in H as (kt & c & l1 & G & Hc & -> & _). reflexivity.
Qed.
Theorem C17_parsed_keys_have_types ec kd b cl l k :
  key_from_bytes ec kd b cl = (l, Ok k) ->
  k_kind k = kd /\ exists t pub priv, In (t, (pub, priv)) key_specs /\ is_key t k.
Proof.
  intros H. destruct (key_from_bytes_sound _ _ _ _ _ _ H) as
    (t & pub & priv & ts & ps & fo & b1 & rest & c & l1 & k1 & Hs & _ & _ & _ & _ & Hc & _ & _ & -> & E).
  assert (k_kind k = kd /\ is_key t k) as (A & B); [|split; [assumption|exists t, pub, priv; auto]].
  destruct rest; destruct E as (_ & ->); unfold is_key; cbn [with_remainder k_kind k_header k_pcls dget];
    rewrite str_eqb_refl; auto.
Qed.
(** Any key object (public or private) of the eight plain types: whatever values its
    parameters were given, if it packs then the packed bytes parse to a public key with that
    type, exactly its public parameters, and nothing else. *)
Theorem C17_public_bytes_roundtrip ec t pub priv k b :
  In (t, (pub, Some priv)) key_specs -> is_key t k ->
  pack_public_bytes k = Ok b -> Z.of_nat (length b) <= ssize_max ->
  exists l k', key_from_bytes ec KPub b None = (l, Ok k') /\ ~ In (Warn WExcess) l /\
    k_kind k' = KPub /\ is_key t k' /\ k_header k' = [(str "key_type", VStr t)] /\
    restricts (map fst pub) (k_params k) (k_params k') /\ k_footer k' = [] /\ k_clear k' = [].
Proof.
  intros Hs Hk E L. destruct (pack_public_layout _ _ _ _ _ Hs Hk E) as (vs & Rs & R).
  apply record_canonical_wire in R.
  pose proof (key_from_bytes_record ec KPub None t pub (Some priv) pub vs [] b [] Hs eq_refl) as P.
  unfold key_fields in P. cbn [footer_fields app] in P. rewrite !app_nil_r in P.
  specialize (P R ltac:(rewrite (restricts_length _ _ _ Rs), map_length; reflexivity) L).
  assert (dget (str "key_type") [(str "key_type", VStr t)] = Some (VStr t)) as G
    by (cbn [dget]; rewrite str_eqb_refl; reflexivity).
  destruct (new_key_plain_no_excess ec (parse_pub ec) KPub t pub priv _ vs [] None Hs G) as (l & k' & Nk & X).
  pose proof (new_key_inv _ _ _ _ _ _ _ _ _ Nk) as (kt & c & l1 & G' & Hc & -> & _).
  rewrite G in G'. injection G' as <-.
  rewrite P, Nk. unfold wret. cbn [wbind]. rewrite app_nil_r. do 2 eexists. split; [reflexivity|].
  split; [exact X|]. cbn [k_kind k_header k_params k_footer k_clear].
  split; [reflexivity|]. split; [split; assumption|]. repeat split; apply Rs.
Qed.
(** Public keys of all sixteen types, including certificates, as constructed: the packed
    bytes parse to the same key, with the same warnings as the construction. *)
Theorem C17_constructed_public_key_roundtrip ec t pub priv h ps fo cl l k b :
  In (t, (pub, priv)) key_specs ->
  new_key ec (parse_pub ec) KPub h ps fo cl = (l, Ok k) -> is_key t k ->
  pack_public_bytes k = Ok b -> Z.of_nat (length b) <= ssize_max ->
  exists k', key_from_bytes ec KPub b None = (l, Ok k') /\
    k_kind k' = KPub /\ is_key t k' /\ k_header k' = [(str "key_type", VStr t)] /\
    restricts (map fst pub) (k_params k) (k_params k') /\ k_footer k' = [] /\ k_clear k' = [].
Proof.
  intros Hs Nk Hk E L. destruct (pack_public_layout _ _ _ _ _ Hs Hk E) as (vs & Rs & R).
  apply record_canonical_wire in R.
  pose proof (key_from_bytes_record ec KPub None t pub priv pub vs [] b [] Hs eq_refl) as P.
  unfold key_fields in P. cbn [footer_fields app] in P. rewrite !app_nil_r in P.
  specialize (P R ltac:(rewrite (restricts_length _ _ _ Rs), map_length; reflexivity) L).
  assert (dget (str "key_type") [(str "key_type", VStr t)] = Some (VStr t)) as G
    by (cbn [dget]; rewrite str_eqb_refl; reflexivity).
  pose proof (new_key_inv _ _ _ _ _ _ _ _ _ Nk) as (kt & c & l1 & G' & Hc & Ek & Hp & El).
  assert (kt = VStr t) as -> by (destruct Hk as (K & _); rewrite Ek in K; cbn [k_header] in K; congruence).
  rewrite (new_params_ext ec KPub t pub priv pub c (parse_pub ec) ps vs Hs eq_refl Hc) in Hp
    by (intros x Hx; rewrite Ek in Rs; cbn [k_params] in Rs; apply (restricts_ext _ _ _ Rs); exact Hx).
  rewrite P, (new_key_intro ec (parse_pub ec) KPub _ vs [] None (VStr t) c l1 G Hc Hp).
  assert (check_dict h (header_fmt KPub) = check_dict [(str "key_type", VStr t)] (header_fmt KPub)) as Eh.
  { apply check_dict_ext. intros x [<-|[]]. cbn [fst header_fmt fld dget]. rewrite str_eqb_refl. exact G'. }
  rewrite <- Eh. unfold wret. cbn [wbind]. rewrite app_nil_r. cbn [footer_fmt check_dict] in El |- *.
  rewrite <- El. eexists. split; [reflexivity|]. cbn [k_kind k_header k_params k_footer k_clear].
  split; [reflexivity|]. split; [split; assumption|]. repeat split; apply Rs.
Qed.
Example C17_example :
  is_key (str "ssh-ed25519") ex_ed /\ is_key (str "ssh-rsa") ex_rsa /\
  (exists b, pack_public_bytes ex_ed = Ok b /\ length b = 51%nat /\
     key_from_bytes ex_ec KPub b None =
       ([], Ok (mkkey KPub [(str "key_type", VStr (str "ssh-ed25519"))] EdPub
                      [(str "public", VBytes ex_ed_pub)] [] []))) /\
  (exists b, pack_public_bytes ex_rsa = Ok b /\
     key_from_bytes ex_ec KPub b None =
       ([], Ok (mkkey KPub [(str "key_type", VStr (str "ssh-rsa"))] RSAPub
                      [(str "e", VInt 17); (str "n", VInt 3233)] [] []))).
Proof.
  split; [split; vm_compute; reflexivity|]. split; [split; vm_compute; reflexivity|]. split.
  - eexists. split; [vm_compute; reflexivity|]. split; vm_compute; reflexivity.
  - eexists. split; [vm_compute; reflexivity|vm_compute; reflexivity].
Qed.

(** ** C18 *)
(** A key packs to [b] exactly if its public parameters are there, encodable, and [b] is
    the type string followed by their canonical encodings in specification order. *)
Theorem C18_public_layout t pub priv k b :
  In (t, (pub, priv)) key_specs -> is_key t k -> Z.of_nat (length b) <= ssize_max ->
  pack_public_bytes k = Ok b <->
  exists vs, restricts (map fst pub) (k_params k) vs /\ no_gap pub vs /\
    record_of canonical (type_field :: pub) ((str "key_type", VStr t) :: vs) b.
Proof.
  intros Hs Hk L. split.
  - intros E. destruct (pack_public_layout _ _ _ _ _ Hs Hk E) as (vs & Rs & R).
    exists vs. split; [assumption|]. split; [|assumption].
    apply (no_gap_restricts _ _ _ Rs). eapply pack_public_no_gap; eassumption.
  - intros (vs & Rs & G & R). eapply pack_public_intro; eassumption.
Qed.
Example C18_example :
  pack_public_bytes ex_rsa =
  Ok (map bZ [0; 0; 0; 7; 115; 115; 104; 45; 114; 115; 97;  (* string "ssh-rsa" *)
              0; 0; 0; 1; 17;                                (* mpint e *)
              0; 0; 0; 2; 12; 161]).                         (* mpint n *)
Proof. vm_compute. reflexivity. Qed.

(** ** C19 *)
Theorem C19_no_private_parameter_in_public_bytes t pub priv k1 k2 :
  In (t, (pub, priv)) key_specs -> is_key t k1 -> is_key t k2 ->
  (forall x, In x (map fst pub) -> dget x (k_params k1) = dget x (k_params k2)) ->
  pack_public_bytes k1 = pack_public_bytes k2.
Proof.
  intros Hs H1 H2 A. rewrite !pack_public_eq.
  pose proof (public_class_of _ _ _ _ Hs H1) as C1. pose proof (public_class_of _ _ _ _ Hs H2) as C2.
  rewrite C1 in C2. injection C2 as C2. rewrite <- C2.
  destruct (spec_public _ _ _ Hs) as (c & Hc & F & N & _).
  assert (c = first_public_class (k_pcls k1)) as <- by congruence.
  assert (forall f d d', (forall x, In x (dkeys f) -> dget x d = dget x d') -> dict_bytes f d = dict_bytes f d') as X.
  { induction f as [|(x, i) f IH]; intros d d' H; [reflexivity|]. cbn [dict_bytes]. unfold ditem.
    rewrite (H x) by (left; reflexivity). rewrite (IH d d') by (intros y Hy; apply H; right; exact Hy). reflexivity. }
  rewrite (X (header_fmt KPub) (k_header k1) (k_header k2)).
  - rewrite (X (format_of c) (k_params k1) (k_params k2)); [reflexivity|].
    intros x Hx. apply A. rewrite <- (format_keys _ _ F). exact Hx.
  - intros x [<-|[]]. cbn [fst fld header_fmt]. rewrite (proj1 H1), (proj1 H2). reflexivity.
Qed.
(** In particular a private key and a public key with the same public parameters pack to the
    same public bytes, and [d] does not matter. *)
Example C19_example :
  pack_public_bytes ex_rsa =
  pack_public_bytes (mkkey KPub [(str "key_type", VStr (str "ssh-rsa"))] RSAPub
                       [(str "e", VInt 17); (str "n", VInt 3233)] [] []) /\
  pack_public_bytes ex_rsa =
  pack_public_bytes (mkkey KPriv [(str "key_type", VStr (str "ssh-rsa"))] RSAPriv
                       [(str "e", VInt 17); (str "n", VInt 3233); (str "d", VInt 0)] [] []).
Proof. split; vm_compute; reflexivity. Qed.

(** ** C20 *)
Theorem C20_repack_is_exact ec b l k t pub priv :
  key_from_bytes ec KPub b None = (l, Ok k) -> k_clear k = [] -> Z.of_nat (length b) <= ssize_max ->
  In (t, (pub, priv)) key_specs -> is_key t k ->
  record_of canonical (type_field :: pub) (k_header k ++ k_params k) b -> no_gap pub (k_params k) ->
  pack_public_bytes k = Ok b.
Proof.
  intros H Hcl L Hs Hk R G.
  destruct (key_from_bytes_sound _ _ _ _ _ _ H) as
    (t' & pub' & priv' & ts & ps & fo & b1 & rest & c & l1 & k1 & Hs' & Hf & _ & Hps & _ & Hc & _ & _ & Ek & E).
  cbn [fields_of fst] in Hf. injection Hf as <-.
  destruct rest as [|y rest]; [|destruct E as (_ & ->); rewrite Ek in Hcl; discriminate].
  destruct E as (_ & <-). rewrite Ek in *. cbn [k_header k_params app] in *.
  assert (t' = t) as -> by (destruct Hk as (K & _); cbn [k_header dget] in K; rewrite str_eqb_refl in K; congruence).
  pose proof (key_specs_fun _ _ _ Hs Hs') as Es. injection Es as <- <-.
  eapply (pack_public_intro t pub priv _ ps b Hs Hk); cbn [k_params]; auto.
  split; [symmetry; exact Hps|]. reflexivity.
Qed.
(** The canonicity premise is necessary. *)
Theorem C20_repack_exact_only_if_canonical ec b l k t pub priv :
  key_from_bytes ec KPub b None = (l, Ok k) -> In (t, (pub, priv)) key_specs -> is_key t k ->
  pack_public_bytes k = Ok b ->
  record_of canonical (type_field :: pub) (k_header k ++ k_params k) b /\ no_gap pub (k_params k).
Proof.
  intros H Hs Hk E. split; [|eapply pack_public_no_gap; eassumption].
  destruct (pack_public_layout _ _ _ _ _ Hs Hk E) as (vs & Rs & R).
  destruct (key_from_bytes_sound _ _ _ _ _ _ H) as
    (t' & pub' & priv' & ts & ps & fo & b1 & rest & c & l1 & k1 & Hs' & Hf & _ & Hps & _ & Hc & _ & _ & Ek & E').
  cbn [fields_of fst] in Hf. injection Hf as <-.
  assert (k_header k = [(str "key_type", VStr t')] /\ k_params k = ps) as (Eh & Ep)
    by (destruct rest; destruct E' as (_ & ->); rewrite Ek; auto).
  rewrite Eh, Ep in *. clear Ek E'.
  assert (t' = t) as -> by (destruct Hk as (K & _); rewrite Eh in K; cbn [dget] in K; rewrite str_eqb_refl in K; congruence).
  pose proof (key_specs_fun _ _ _ Hs Hs') as Es. injection Es as <- <-.
  assert (vs = ps) as <-; [|exact R].
  destruct (spec_public _ _ _ Hs) as (_ & _ & _ & N & _).
  eapply restricts_unique; [exact N|exact Rs|]. split; [symmetry; exact Hps|reflexivity].
Qed.
(** Without it the bytes can change, or packing can fail. *)
Definition ex_rsa_loose : bytes :=
  map bZ [0; 0; 0; 7; 115; 115; 104; 45; 114; 115; 97; 0; 0; 0; 2; 0; 17; 0; 0; 0; 2; 12; 161].
Definition ex_rsa_gap : bytes :=
  map bZ [0; 0; 0; 7; 115; 115; 104; 45; 114; 115; 97; 0; 0; 0; 1; 17; 0; 0; 0; 2; 255; 56].
Theorem C20_repack_without_premise_refuted :
  (exists b l k b', key_from_bytes ex_ec KPub b None = (l, Ok k) /\ k_clear k = [] /\
     pack_public_bytes k = Ok b' /\ b' <> b) /\
  (exists b l k, key_from_bytes ex_ec KPub b None = (l, Ok k) /\ k_clear k = [] /\
     pack_public_bytes k = Err OverflowError).
Proof.
  split.
  - exists ex_rsa_loose. do 3 eexists. split; [vm_compute; reflexivity|].
    split; [reflexivity|]. split; [vm_compute; reflexivity|discriminate].
  - exists ex_rsa_gap. do 2 eexists. split; [vm_compute; reflexivity|].
    split; [reflexivity|]. vm_compute; reflexivity.
Qed.

(** A canonical RSA blob: the premises hold, and it is returned byte for byte. *)
Example C20_example :
  let b := map bZ [0; 0; 0; 7; 115; 115; 104; 45; 114; 115; 97; 0; 0; 0; 1; 17; 0; 0; 0; 2; 12; 161] in
  exists k pub priv, key_from_bytes ex_ec KPub b None = ([], Ok k) /\ k_clear k = [] /\
    Z.of_nat (length b) <= ssize_max /\ In (str "ssh-rsa", (pub, priv)) key_specs /\ is_key (str "ssh-rsa") k /\
    record_of canonical (type_field :: pub) (k_header k ++ k_params k) b /\ no_gap pub (k_params k) /\
    pack_public_bytes k = Ok b.
Proof.
  intros b.
  set (k := mkkey KPub [(str "key_type", VStr (str "ssh-rsa"))] RSAPub [(str "e", VInt 17); (str "n", VInt 3233)] [] []).
  assert (H : key_from_bytes ex_ec KPub b None = ([], Ok k)) by (vm_compute; reflexivity).
  assert (P : pack_public_bytes k = Ok b) by (vm_compute; reflexivity).
  assert (K : is_key (str "ssh-rsa") k) by (split; vm_compute; reflexivity).
  exists k. do 2 eexists.
  split; [exact H|]. split; [reflexivity|]. split; [vm_compute; discriminate|].
  split; [left; reflexivity|]. split; [exact K|].
  destruct (C20_repack_exact_only_if_canonical ex_ec b [] k (str "ssh-rsa") _ _ H ltac:(left; reflexivity) K P) as (R & G).
  split; [exact R|]. split; [exact G|exact P].
Qed.

(** ** C21 *)
Theorem C21_excess_bytes ec kd b0 cl l k :
  key_from_bytes ec kd b0 cl = (l, Ok k) -> Z.of_nat (length b0) <= ssize_max ->
  exists b rest l1 k1 t pub priv ts,
    b0 = b ++ rest /\ key_from_bytes ec kd b cl = (l1, Ok k1) /\
    (* b is exactly one key blob *)
    In (t, (pub, priv)) key_specs /\ fields_of kd (pub, priv) = Some ts /\
    record_of wire (key_fields kd ts) (k_header k ++ k_params k ++ k_footer k) b /\
    (* the clear dict of the shorter parse is the one passed in *)
    k_clear k1 = match cl with Some d => d | None => [] end /\
    (rest = [] -> l = l1 /\ k = k1) /\
    (rest <> [] -> l = l1 ++ [Warn WExcess] /\
       k_clear k = dset (str "remainder") (VBytes rest) (k_clear k1) /\
       k_kind k = k_kind k1 /\ k_header k = k_header k1 /\ k_pcls k = k_pcls k1 /\
       k_params k = k_params k1 /\ k_footer k = k_footer k1) /\
    pack_public_bytes k = pack_public_bytes k1 /\ pack_private_bytes k = pack_private_bytes k1.
Proof.
  intros H L. destruct (key_from_bytes_sound _ _ _ _ _ _ H) as
    (t & pub & priv & ts & ps & fo & b & rest & c & l1 & k1 & Hs & Hf & R & Hk & Hfo & Hc & -> & Nk & Ek & E).
  rewrite app_length in L.
  pose proof (key_from_bytes_record ec kd cl t pub priv ts ps fo b [] Hs Hf R
    ltac:(rewrite <- (map_length fst ts), Hk; unfold dkeys; rewrite map_length; reflexivity) ltac:(lia)) as P.
  rewrite app_nil_r, Nk in P. unfold wret in P. cbn [wbind] in P. rewrite app_nil_r in P.
  exists b, rest, l1, k1, t, pub, priv, ts. split; [reflexivity|]. split; [exact P|].
  split; [assumption|]. split; [assumption|]. split.
  { assert (k_header k ++ k_params k ++ k_footer k = [(str "key_type", VStr t)] ++ ps ++ fo) as ->
      by (destruct rest; destruct E as (_ & ->); rewrite Ek; reflexivity). exact R. }
  split; [rewrite Ek; reflexivity|].
  destruct rest as [|y rest]; destruct E as (-> & ->).
  - split; [auto|]. split; [congruence|]. auto.
  - split; [discriminate|]. split; [intros _|].
    + repeat split.
    + split; reflexivity.
Qed.
(** Whatever follows a key blob. *)
Theorem C21_any_suffix ec kd b rest cl l k t pub priv ts vs :
  In (t, (pub, priv)) key_specs -> fields_of kd (pub, priv) = Some ts ->
  record_of wire (key_fields kd ts) ((str "key_type", VStr t) :: vs) b -> Z.of_nat (length b) <= ssize_max ->
  rest <> [] -> key_from_bytes ec kd b cl = (l, Ok k) ->
  key_from_bytes ec kd (b ++ rest) cl =
    (l ++ [Warn WExcess],
     Ok (mkkey (k_kind k) (k_header k) (k_pcls k) (k_params k) (k_footer k)
               (dset (str "remainder") (VBytes rest) (k_clear k)))).
Proof.
  intros Hs Hf R L Nr H.
  unfold key_fields in R. inversion R; subst.
  match goal with X : record_of wire (ts ++ _) vs _ |- _ =>
    pose proof (record_app_inv _ _ _ _ _ X) as (ps & fo & b1 & b2 & -> & -> & R1 & R2) end.
  pose proof (record_length _ _ _ _ R1) as Lp.
  rewrite (key_from_bytes_record ec kd cl t pub priv ts ps fo (b0 ++ b1 ++ b2) rest Hs Hf R (eq_sym Lp) L).
  pose proof (key_from_bytes_record ec kd cl t pub priv ts ps fo (b0 ++ b1 ++ b2) [] Hs Hf R (eq_sym Lp) L) as P.
  rewrite app_nil_r, H in P.
  destruct (new_key ec (parse_pub ec) kd [(str "key_type", VStr t)] ps fo cl) as [l1 [k1|e]]; [|discriminate].
  unfold wret in P. cbn [wbind] in P. rewrite app_nil_r in P. injection P as <- <-.
  destruct rest; [congruence|]. reflexivity.
Qed.
Example C21_example :
  let b := map bZ [0; 0; 0; 7; 115; 115; 104; 45; 114; 115; 97; 0; 0; 0; 1; 17; 0; 0; 0; 2; 12; 161] in
  key_from_bytes ex_ec KPub (b ++ [bZ 9]) None =
    ([Warn WExcess], Ok (mkkey KPub [(str "key_type", VStr (str "ssh-rsa"))] RSAPub
        [(str "e", VInt 17); (str "n", VInt 3233)] [] [(str "remainder", VBytes [bZ 9])])) /\
  exists k, key_from_bytes ex_ec KPub b None = ([], Ok k) /\ k_clear k = [].
Proof. split; [vm_compute; reflexivity|]. eexists. split; [vm_compute; reflexivity|reflexivity]. Qed.

(** ** C22 *)
Theorem C22_private_bytes_roundtrip ec t pub priv k b s rest cl :
  In (t, (pub, Some priv)) key_specs -> is_key t k -> k_kind k = KPriv ->
  pack_private_bytes k = Ok b -> remaining s = b ++ rest -> sized s ->
  exists s' k', key_from_stream ec (parse_pub ec) KPriv cl s =
      (s', (fst (new_key ec (parse_pub ec) KPriv (k_header k) (k_params k) (k_footer k) None), Ok k')) /\
    remaining s' = rest /\ k_kind k' = KPriv /\ is_key t k' /\
    k_header k' = [(str "key_type", VStr t)] /\
    restricts (map fst priv) (k_params k) (k_params k') /\
    restricts [str "comment"] (k_footer k) (k_footer k') /\
    k_clear k' = match cl with Some d => d | None => [] end.
Proof.
  intros Hs Hk Ek E U Sz.
  destruct (pack_private_layout _ _ _ _ _ Hs Hk Ek E) as (vs & co & Rs & Gc & R).
  apply record_canonical_wire in R.
  assert (Z.of_nat (length b) <= ssize_max) as Lb.
  { unfold sized in Sz. unfold remaining in U. apply (f_equal (@length _)) in U.
    rewrite skipn_length, app_length in U. lia. }
  pose proof (key_from_stream_record ec (parse_pub ec) KPriv cl t pub (Some priv) priv s vs [(str "comment", co)] b rest
    Hs eq_refl R ltac:(rewrite (restricts_length _ _ _ Rs), map_length; reflexivity) Lb U) as P.
  assert (dget (str "key_type") [(str "key_type", VStr t)] = Some (VStr t)) as G
    by (cbn [dget]; rewrite str_eqb_refl; reflexivity).
  destruct Hk as (Hk1 & Hk2). rewrite Ek in Hk2.
  pose proof (new_params_plain_ok ec t pub priv KPriv _ (parse_pub ec) (k_params k) Hs Hk2) as Op.
  destruct (new_params ec (parse_pub ec) (k_pcls k) (k_params k)) as [l1 r1] eqn:E1. cbn [snd] in Op. subst r1.
  rewrite (new_key_intro ec (parse_pub ec) KPriv (k_header k) (k_params k) (k_footer k) None _ _ l1 Hk1 Hk2 E1).
  rewrite (new_params_ext ec KPriv t pub (Some priv) priv _ (parse_pub ec) (k_params k) vs Hs eq_refl Hk2) in E1
    by (intros x Hx; apply (restricts_ext _ _ _ Rs); exact Hx).
  rewrite (new_key_intro ec (parse_pub ec) KPriv _ vs [(str "comment", co)] cl _ _ l1 G Hk2 E1) in P.
  rewrite P. cbn [fst].
  rewrite (check_dict_ext (k_header k) [(str "key_type", VStr t)])
    by (intros x [<-|[]]; cbn [fst header_fmt fld dget]; rewrite str_eqb_refl; exact Hk1).
  rewrite (check_dict_ext (k_footer k) [(str "comment", co)])
    by (intros x [<-|[]]; cbn [fst footer_fmt fld dget]; rewrite str_eqb_refl; exact Gc).
  do 2 eexists. split; [reflexivity|]. cbn [k_kind k_header k_params k_footer k_clear].
  split; [|split; [reflexivity|]; split; [split; assumption|]; split; [reflexivity|]; split; [exact Rs|]; split; [|reflexivity]].
  - change (remaining (adv (length b) s)) with (unread (adv (length b) s)).
    change (remaining s) with (unread s) in U.
    rewrite unread_adv, U. apply skipn_app_exact. reflexivity.
  - split; [reflexivity|]. intros x [<-|[]]. cbn [dget]. rewrite str_eqb_refl. symmetry. exact Gc.
Qed.
(** Layout, and exactly when packing succeeds. *)
Theorem C22_private_layout t pub priv k b :
  In (t, (pub, Some priv)) key_specs -> is_key t k -> k_kind k = KPriv -> Z.of_nat (length b) <= ssize_max ->
  pack_private_bytes k = Ok b <->
  exists vs co, restricts (map fst priv) (k_params k) vs /\ no_gap priv vs /\
    dget (str "comment") (k_footer k) = Some co /\
    record_of canonical (type_field :: priv ++ [comment_field])
      ((str "key_type", VStr t) :: vs ++ [(str "comment", co)]) b.
Proof.
  intros Hs Hk Ek L. split.
  - intros E. destruct (pack_private_layout _ _ _ _ _ Hs Hk Ek E) as (vs & co & Rs & Gc & R).
    exists vs, co. split; [assumption|]. split; [|auto].
    apply (no_gap_restricts _ _ _ Rs). eapply pack_private_no_gap; eassumption.
  - intros (vs & co & Rs & G & Gc & R). eapply pack_private_intro; eassumption.
Qed.
Example C22_example :
  exists b, pack_private_bytes ex_ed = Ok b /\
    key_from_stream ex_ec (parse_pub ex_ec) KPriv None (mkstream (bZ 1 :: b ++ [bZ 2]) 1) =
    (mkstream (bZ 1 :: b ++ [bZ 2]) (S (length b)), ([], Ok ex_ed)).
Proof. eexists. split; [vm_compute; reflexivity|vm_compute; reflexivity]. Qed.

(** ** C23 *)
Theorem C23_unknown_type_rejected ec kd t b rest cl :
  ~ In t (map fst key_specs) -> wire (TText 4) (VStr t) b -> Z.of_nat (length b) <= ssize_max ->
  key_from_bytes ec kd (b ++ rest) cl = ([], Err (KeyError (VStr t))).
Proof.
  intros N W L. apply unknown_type in N as (N1 & N2).
  unfold key_from_bytes, key_from_bytes_with, key_from_stream, read_key_parts. unfold pbind at 1.
  rewrite (read_dict_complete _ _ (stream_of (b ++ rest)) [(str "key_type", VStr t)] b rest (header_types kd));
    [|apply record_one; exact W|assumption|reflexivity].
  unfold pbind at 1, plift at 1. unfold ditem. cbn [dget]. rewrite str_eqb_refl.
  unfold pbind at 1, plift. destruct kd; cbn [params_class]; [rewrite N1|rewrite N2]; reflexivity.
Qed.
Theorem C23_unknown_type_not_constructible ec pp kd t h ps fo cl :
  ~ In t (map fst key_specs) -> dget (str "key_type") h = Some (VStr t) ->
  snd (new_key ec pp kd h ps fo cl) = Err (KeyError (VStr t)).
Proof.
  intros N G. apply unknown_type in N as (N1 & N2). unfold new_key.
  rewrite snd_wseq_ok by apply (check_dict_spec h _ _ (header_types kd)).
  unfold ditem. rewrite G. unfold wlift. cbn [wbind].
  destruct kd; cbn [params_class]; [rewrite N1|rewrite N2]; reflexivity.
Qed.
Theorem C23_certificates_have_no_private_form ec t b rest cl :
  In t (map fst cert_specs) -> wire (TText 4) (VStr t) b -> Z.of_nat (length b) <= ssize_max ->
  key_from_bytes ec KPriv (b ++ rest) cl =
    ([], Err (KeyError (VStr (str "No subclass of PrivateKeyParams corresponds to the given key type name")))).
Proof.
  intros Hin W L. change (VStr _) with no_private_class.
  assert (get_private_class (VStr t) = Err (KeyError no_private_class)) as N2.
  { apply in_map_iff in Hin as ((t', base) & <- & Hin). apply (spec_cert_no_private _ (cert_fields base)).
    unfold key_specs. apply in_or_app. right. apply in_map_iff. exists (t', base). auto. }
  unfold key_from_bytes, key_from_bytes_with, key_from_stream, read_key_parts. unfold pbind at 1.
  rewrite (read_dict_complete _ _ (stream_of (b ++ rest)) [(str "key_type", VStr t)] b rest (header_types KPriv));
    [|apply record_one; exact W|assumption|reflexivity].
  unfold pbind at 1, plift at 1. unfold ditem. cbn [dget]. rewrite str_eqb_refl.
  unfold pbind at 1, plift. cbn [params_class]. rewrite N2. reflexivity.
Qed.
(** Conversely, whatever is accepted starts with the name of a supported type, and with
    KPriv of a type that has a private form. *)
Theorem C23_only_supported_types_accepted ec kd b cl l k :
  key_from_bytes ec kd b cl = (l, Ok k) ->
  exists t b1 rest, b = b1 ++ rest /\ wire (TText 4) (VStr t) b1 /\
    dget (str "key_type") (k_header k) = Some (VStr t) /\
    match kd with KPub => In t (map fst plain_specs ++ map fst cert_specs) | KPriv => In t (map fst plain_specs) end.
Proof.
  intros H. destruct (key_from_bytes_sound _ _ _ _ _ _ H) as
    (t & pub & priv & ts & ps & fo & b1 & rest & c & l1 & k1 & Hs & Hf & R & Hk & Hfo & Hc & -> & Nk & Ek & E).
  cbn [app] in R. unfold key_fields in R. inversion R as [|? ? ? ? ? bt bs Wt R']; subst.
  exists t, bt, (bs ++ rest). split; [rewrite <- app_assoc; reflexivity|]. split; [assumption|]. split.
  - destruct rest; destruct E as (_ & ->); cbn [k_header with_remainder dget]; rewrite str_eqb_refl; reflexivity.
  - unfold key_specs in Hs. apply in_app_or in Hs as [Hs|Hs]; apply in_map_iff in Hs as (x & Ex & Hx);
      injection Ex as <- <- <-; destruct kd; try (apply in_or_app); try discriminate;
      [left|idtac|right]; apply in_map; exact Hx.
Qed.
Example C23_example :
  ~ In (str "ssh-foo") (map fst key_specs) /\
  wire (TText 4) (VStr (str "ssh-foo")) (map bZ [0; 0; 0; 7; 115; 115; 104; 45; 102; 111; 111]) /\
  key_from_bytes ex_ec KPub (map bZ [0; 0; 0; 7; 115; 115; 104; 45; 102; 111; 111; 1]) None = ([], Err (KeyError (VStr (str "ssh-foo")))).
Proof.
  split; [|split; [|vm_compute; reflexivity]].
  - rewrite <- str_mem_In. vm_compute. discriminate.
  - eapply (wire_text 4 _ (map bZ [115; 115; 104; 45; 102; 111; 111])).
    + apply utf8_encode_iff. vm_compute. reflexivity.
    + exists (map bZ [0; 0; 0; 7]). repeat split; vm_compute; reflexivity.
Qed.

(** ** C54 *)
Theorem C54_dict_equality a b :
  NoDup (dkeys a) -> NoDup (dkeys b) -> dict_eqb a b = true <-> same_mapping a b.
Proof.
  intros Na Nb. unfold dict_eqb. rewrite andb_true_iff, Nat.eqb_eq, forallb_forall. split.
  - intros (L & H).
    assert (forall k v, dget k a = Some v -> dget k b = Some v) as A.
    { intros k v G. apply dget_In in G. specialize (H _ G). cbn [fst snd] in H.
      destruct (dget k b) as [w|]; [|discriminate]. apply val_eqb_spec in H. congruence. }
    assert (incl (dkeys a) (dkeys b)) as I.
    { intros k Hk. destruct (dget k a) as [v|] eqn:G; [|apply dget_None in G; contradiction].
      apply A in G. destruct (in_dec (list_eq_dec N.eq_dec) k (dkeys b)) as [X|X]; [exact X|].
      apply dget_None in X. congruence. }
    assert (incl (dkeys b) (dkeys a)) as I'.
    { apply NoDup_length_incl; auto. unfold dkeys. rewrite !map_length. lia. }
    intros k. destruct (dget k a) as [v|] eqn:G; [symmetry; auto|].
    symmetry. apply dget_None. apply dget_None in G. auto.
  - intros H. split.
    + rewrite <- (map_length fst a), <- (map_length fst b). apply Nat.le_antisymm; apply NoDup_incl_length; auto.
      * intros k Hk. destruct (in_dec (list_eq_dec N.eq_dec) k (dkeys b)) as [X|X]; [exact X|].
        apply dget_None in X. rewrite <- H in X. apply dget_None in X. contradiction.
      * intros k Hk. destruct (in_dec (list_eq_dec N.eq_dec) k (dkeys a)) as [X|X]; [exact X|].
        apply dget_None in X. rewrite H in X. apply dget_None in X. contradiction.
    + intros (k, v) Hin. cbn [fst snd]. rewrite <- H, (In_dget k v a Na Hin). apply val_eqb_refl.
Qed.
Lemma kind_eqb_spec a b : kind_eqb a b = true <-> a = b.
Proof. destruct a, b; cbn; split; congruence. Qed.
Theorem C54_key_equality a b :
  well_formed a -> well_formed b ->
  key_eqb a b = true <->
  k_kind a = k_kind b /\ same_mapping (k_header a) (k_header b) /\
  same_mapping (k_params a) (k_params b) /\ same_mapping (k_footer a) (k_footer b) /\
  same_mapping (k_clear a) (k_clear b).
Proof.
  intros (A1 & A2 & A3 & A4) (B1 & B2 & B3 & B4). unfold key_eqb.
  rewrite !andb_true_iff, kind_eqb_spec, !C54_dict_equality by assumption. tauto.
Qed.
Theorem C54_key_equality_is_equivalence a b c :
  well_formed a -> well_formed b -> well_formed c ->
  key_eqb a a = true /\ key_eqb a b = key_eqb b a /\
  (key_eqb a b = true -> key_eqb b c = true -> key_eqb a c = true).
Proof.
  intros A B C. repeat split.
  - apply C54_key_equality; auto. repeat split.
  - apply eq_true_iff_eq. rewrite !C54_key_equality by assumption. unfold same_mapping.
    split; intros (-> & E1 & E2 & E3 & E4); repeat split; intros; symmetry; auto.
  - rewrite !C54_key_equality by assumption. unfold same_mapping.
    intros (-> & E1 & E2 & E3 & E4) (-> & F1 & F2 & F3 & F4).
    repeat split; intros; congruence.
Qed.
Theorem C54_pair_equality a b :
  pair_eqb a b = true <-> key_eqb (pr_public a) (pr_public b) = true /\ key_eqb (pr_private a) (pr_private b) = true.
Proof. unfold pair_eqb. apply andb_true_iff. Qed.
Theorem C54_pair_equality_is_equivalence a b c :
  (forall p, In p [a; b; c] -> well_formed (pr_public p) /\ well_formed (pr_private p)) ->
  pair_eqb a a = true /\ pair_eqb a b = pair_eqb b a /\
  (pair_eqb a b = true -> pair_eqb b c = true -> pair_eqb a c = true).
Proof.
  intros H. destruct (H a ltac:(simpl; auto)) as (A1 & A2). destruct (H b ltac:(simpl; auto)) as (B1 & B2).
  destruct (H c ltac:(simpl; auto)) as (D1 & D2).
  destruct (C54_key_equality_is_equivalence _ _ _ A1 B1 D1) as (R1 & S1 & T1).
  destruct (C54_key_equality_is_equivalence _ _ _ A2 B2 D2) as (R2 & S2 & T2).
  unfold pair_eqb. rewrite R1, R2, S1, S2. split; [reflexivity|]. split; [reflexivity|].
  rewrite S1 in T1. rewrite S2 in T2. rewrite !andb_true_iff. intuition.
Qed.
(** Parsed keys are well formed, so the hypotheses hold for them. *)
Theorem C54_parsed_keys_are_well_formed ec kd b l k :
  key_from_bytes ec kd b None = (l, Ok k) -> well_formed k.
Proof.
  intros H. destruct (key_from_bytes_sound _ _ _ _ _ _ H) as
    (t & pub & priv & ts & ps & fo & b1 & rest & c & l1 & k1 & Hs & Hf & R & Hk & Hfo & Hc & -> & Nk & Ek & E).
  destruct (spec_class _ _ _ _ _ Hs Hf) as (c' & _ & _ & N).
  assert (NoDup (dkeys ps)) as Np by (rewrite <- Hk; exact N).
  assert (NoDup (dkeys fo)) as Nf by (rewrite Hfo; destruct kd; [constructor|apply nodup_one]).
  destruct rest; destruct E as (_ & ->); rewrite Ek; unfold well_formed;
    cbn [with_remainder k_header k_params k_footer k_clear];
    (split; [apply nodup_one|]; split; [assumption|]; split; [assumption|]); [constructor|apply nodup_one].
Qed.
Example C54_example :
  let reordered := mkkey KPriv [(str "key_type", VStr (str "ssh-ed25519"))] EdPriv
      (rev ex_ed_params) [(str "comment", VStr (str "me@host"))] [] in
  well_formed ex_ed /\ well_formed reordered /\ key_eqb ex_ed reordered = true /\ ex_ed <> reordered /\
  key_eqb ex_ed ex_rsa = false.
Proof.
  repeat split; try (apply nodupb_sound; vm_compute; reflexivity); try (vm_compute; reflexivity); discriminate.
Qed.

Print Assumptions C17_sixteen_types.
Print Assumptions C17_constructed_keys_have_types.
Print Assumptions C17_parsed_keys_have_types.
Print Assumptions C17_public_bytes_roundtrip.
Print Assumptions C17_constructed_public_key_roundtrip.
Print Assumptions C18_public_layout.
Print Assumptions C19_no_private_parameter_in_public_bytes.
Print Assumptions C20_repack_is_exact.
Print Assumptions C20_repack_exact_only_if_canonical.
Print Assumptions C20_repack_without_premise_refuted.
Print Assumptions C21_excess_bytes.
Print Assumptions C21_any_suffix.
Print Assumptions C22_private_bytes_roundtrip.
Print Assumptions C22_private_layout.
Print Assumptions C23_unknown_type_rejected.
Print Assumptions C23_unknown_type_not_constructible.
Print Assumptions C23_certificates_have_no_private_form.
Print Assumptions C23_only_supported_types_accepted.
Print Assumptions C54_dict_equality.
Print Assumptions C54_key_equality.
Print Assumptions C54_key_equality_is_equivalence.
Print Assumptions C54_pair_equality.
Print Assumptions C54_pair_equality_is_equivalence.
Print Assumptions C54_parsed_keys_are_well_formed.
