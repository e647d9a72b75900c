(** Properties of key parameters: security key flags (C51), Ed25519 checks (C52), generated
    pairs (C53). *)
From Verif Require Import PyBase IntBytes Utf8 StructFmt Stream Text Classes Key Crypto PrivateKeyList.
From Verif Require Import SpecWire SpecKey SpecCrypto.
From Verif Require Import ProofBase ProofInt ProofUtf8 ProofWire ProofRecord ProofKey ProofLog ProofErr ProofCrypto ProofList.
From Verif Require Import Props_Key Props_Crypto.
Open Scope Z_scope.

(** ** C51 *)
(** OpenSSH's PROTOCOL.u2f and sk-api.h: SSH_SK_USER_PRESENCE_REQD 0x01,
    SSH_SK_USER_VERIFICATION_REQD 0x04, SSH_SK_RESIDENT_KEY 0x20. *)
Definition flag_bit (f : sk_flag) : Z :=
  match f with USER_PRESENCE_REQUIRED => 0 | USER_VERIFICATION_REQUIRED => 2 | RESIDENT_KEY => 5 end.
Lemma flag_value_bit f : flag_value f = 2 ^ flag_bit f.
Proof. destruct f; reflexivity. Qed.
Lemma flag_bit_nonneg f : 0 <= flag_bit f.
Proof. destruct f; cbn; lia. Qed.
Lemma land_bit z k : 0 <= k -> negb (Z.land z (2 ^ k) =? 0) = Z.testbit z k.
Proof.
  intros Hk. assert (Z.land z (2 ^ k) = if Z.testbit z k then 2 ^ k else 0) as E.
  { apply Z.bits_inj'. intros n Hn. rewrite Z.land_spec, Z.pow2_bits_eqb by exact Hk.
    destruct (Z.eqb_spec k n) as [->|N].
    - destruct (Z.testbit z n); [rewrite Z.pow2_bits_true by exact Hk; reflexivity|rewrite Z.bits_0; reflexivity].
    - rewrite andb_false_r. destruct (Z.testbit z k); [rewrite Z.pow2_bits_false by exact N|rewrite Z.bits_0]; reflexivity. }
  rewrite E. destruct (Z.testbit z k); [|reflexivity]. destruct (Z.eqb_spec (2 ^ k) 0) as [K|K]; [|reflexivity].
  pose proof (Z.pow_pos_nonneg 2 k). lia.
Qed.
(** get_flag is the flag's bit. *)
Theorem C51_get_flag f d z :
  dget (str "flags") d = Some (VInt z) -> get_flag f d = Ok (Z.testbit z (flag_bit f)).
Proof.
  intros G. unfold get_flag, ditem. rewrite G. cbn [rbind]. rewrite flag_value_bit, land_bit by apply flag_bit_nonneg. reflexivity.
Qed.
(** set_flag changes that bit and nothing else. *)
Theorem C51_set_flag f v d z :
  dget (str "flags") d = Some (VInt z) ->
  exists d' z', set_flag f v d = Ok d' /\ dget (str "flags") d' = Some (VInt z') /\
    (forall n, 0 <= n -> Z.testbit z' n = if n =? flag_bit f then v else Z.testbit z n) /\
    (0 <= z < 256 -> 0 <= z' < 256) /\
    (forall x, x <> str "flags" -> dget x d' = dget x d) /\
    get_flag f d' = Ok v /\ (forall g, g <> f -> get_flag g d' = get_flag g d) /\
    set_flag f v d' = Ok d'.
Proof.
  intros G. pose proof (flag_bit_nonneg f) as Hb.
  assert (exists z', set_flag f v d = Ok (if Bool.eqb v (Z.testbit z (flag_bit f)) then d else dset (str "flags") (VInt z') d) /\
    z' = (if Bool.eqb v (Z.testbit z (flag_bit f)) then z else z') /\
    forall n, 0 <= n -> Z.testbit z' n = if n =? flag_bit f then v else Z.testbit z n) as (z' & E & Ez & B).
  { unfold set_flag. rewrite (C51_get_flag f d z G). unfold ditem. rewrite G. cbn [rbind]. rewrite flag_value_bit.
    destruct (Z.testbit z (flag_bit f)) eqn:T, v; cbn [negb andb Bool.eqb].
    - exists z. split; [reflexivity|]. split; [reflexivity|]. intros n Hn. destruct (Z.eqb_spec n (flag_bit f)) as [->|_]; [exact T|reflexivity].
    - exists (z - 2 ^ flag_bit f). split; [reflexivity|]. split; [reflexivity|]. intros n Hn.
      rewrite Z.sub_nocarry_ldiff.
      + rewrite Z.ldiff_spec, Z.pow2_bits_eqb by exact Hb. rewrite (Z.eqb_sym (flag_bit f) n).
        destruct (Z.eqb_spec n (flag_bit f)); [apply andb_false_r|apply andb_true_r].
      + apply Z.bits_inj'. intros m Hm. rewrite Z.ldiff_spec, Z.pow2_bits_eqb, Z.bits_0 by exact Hb.
        destruct (Z.eqb_spec (flag_bit f) m) as [<-|_]; [rewrite T|]; reflexivity.
    - exists (z + 2 ^ flag_bit f). split; [reflexivity|]. split; [reflexivity|]. intros n Hn.
      rewrite Z.add_nocarry_lxor.
      + rewrite Z.lxor_spec, Z.pow2_bits_eqb by exact Hb. rewrite (Z.eqb_sym (flag_bit f) n).
        destruct (Z.eqb_spec n (flag_bit f)) as [->|_]; [rewrite T; reflexivity|apply xorb_false_r].
      + apply Z.bits_inj'. intros m Hm. rewrite Z.land_spec, Z.pow2_bits_eqb, Z.bits_0 by exact Hb.
        destruct (Z.eqb_spec (flag_bit f) m) as [<-|_]; [rewrite T; reflexivity|apply andb_false_r].
    - exists z. split; [reflexivity|]. split; [reflexivity|]. intros n Hn. destruct (Z.eqb_spec n (flag_bit f)) as [->|_]; [exact T|reflexivity]. }
  set (d' := if Bool.eqb v (Z.testbit z (flag_bit f)) then d else dset (str "flags") (VInt z') d) in E.
  assert (dget (str "flags") d' = Some (VInt z')) as G'.
  { unfold d'. destruct (Bool.eqb v (Z.testbit z (flag_bit f))); [rewrite Ez; exact G|apply dget_dset_same]. }
  assert (forall x, x <> str "flags" -> dget x d' = dget x d) as X.
  { intros x N. unfold d'. destruct (Bool.eqb v (Z.testbit z (flag_bit f))); [reflexivity|apply dget_dset_other; exact N]. }
  assert (get_flag f d' = Ok v) as Gv.
  { rewrite (C51_get_flag f d' z' G'), B by exact Hb. rewrite Z.eqb_refl. reflexivity. }
  exists d', z'. split; [exact E|]. split; [exact G'|]. split; [exact B|]. split.
  - intros Hz. assert (flag_bit f < 8) as H8 by (destruct f; cbn; lia).
    assert (0 <= z') as Hp.
    { apply Z.bits_iff_nonneg_ex. exists 8. intros m Hm. rewrite B by lia. destruct (Z.eqb_spec m (flag_bit f)); [lia|].
      apply Z.bits_above_log2; [lia|]. destruct (Z.eq_dec z 0) as [->|Nz]; [cbn; lia|]. apply Z.log2_lt_pow2; [lia|]. apply Z.lt_le_trans with 256; [lia|]. change 256 with (2 ^ 8). apply Z.pow_le_mono_r; lia. }
    split; [exact Hp|]. destruct (Z.eq_dec z' 0) as [->|Nz]; [lia|]. change 256 with (2 ^ 8). apply Z.log2_lt_pow2; [lia|].
    destruct (Z.lt_ge_cases (Z.log2 z') 8) as [K|K]; [exact K|exfalso].
    pose proof (Z.bit_log2 z' ltac:(lia)) as T. rewrite B in T by lia. destruct (Z.eqb_spec (Z.log2 z') (flag_bit f)); [lia|].
    rewrite Z.bits_above_log2 in T; [discriminate|lia|]. destruct (Z.eq_dec z 0) as [->|Nz']; [cbn; lia|]. apply Z.log2_lt_pow2; [lia|]. apply Z.lt_le_trans with 256; [lia|]. change 256 with (2 ^ 8). apply Z.pow_le_mono_r; lia.
  - split; [exact X|]. split; [exact Gv|]. split.
    + intros g Ng. rewrite (C51_get_flag g d' z' G'), (C51_get_flag g d z G), B by apply flag_bit_nonneg.
      destruct (Z.eqb_spec (flag_bit g) (flag_bit f)) as [K|_]; [|reflexivity]. destruct f, g; (contradiction || discriminate).
    + unfold set_flag. rewrite Gv. unfold ditem. rewrite G'. cbn [rbind]. destruct v; reflexivity.
Qed.
(** A sequence of calls. *)
Inductive flag_sets : dict pyval -> list (sk_flag * bool) -> dict pyval -> Prop :=
| flag_sets_nil d : flag_sets d [] d
| flag_sets_cons d f v d1 l d2 : set_flag f v d = Ok d1 -> flag_sets d1 l d2 -> flag_sets d ((f, v) :: l) d2.
(** Each flag has the value last set, or the one it had. *)
Theorem C51_sequence d z l d' f :
  dget (str "flags") d = Some (VInt z) -> flag_sets d l d' ->
  (forall l1 v l2, l = l1 ++ (f, v) :: l2 -> ~ In f (map fst l2) -> get_flag f d' = Ok v) /\
  (~ In f (map fst l) -> get_flag f d' = get_flag f d) /\
  (forall x, x <> str "flags" -> dget x d' = dget x d).
Proof.
  intros G H. revert z G. induction H as [d|d g v d1 l d2 S H IH]; intros z G.
  - split; [intros l1 v l2 E; destruct l1; discriminate|]. split; reflexivity.
  - destruct (C51_set_flag g v d z G) as (d1' & z' & S' & G' & _ & _ & X & Gv & Go & _).
    assert (d1' = d1) as -> by (apply Ok_inj; congruence). destruct (IH z' G') as (A & B & C).
    split; [|split].
    + intros l1 w l2 E N. destruct l1 as [|(g1, v1) l1]; cbn [app] in E; injection E as -> -> E.
      * subst l2. rewrite (B N). exact Gv.
      * eapply A; eassumption.
    + cbn [map fst In]. intros N. rewrite B by tauto. apply Go. intros ->. apply N. left. reflexivity.
    + intros x N. rewrite C by exact N. apply X. exact N.
Qed.
(** Every sequence of calls succeeds. *)
Theorem C51_sets_succeed d z l : dget (str "flags") d = Some (VInt z) -> exists d', flag_sets d l d'.
Proof.
  revert d z; induction l as [|(f, v) l IH]; intros d z G; [exists d; constructor|].
  destruct (C51_set_flag f v d z G) as (d1 & z' & S & G' & _). destruct (IH d1 z' G') as (d' & H). exists d'. econstructor; eassumption.
Qed.
(** A key without flags, or with flags that are not an integer. *)
Theorem C51_not_an_integer f v d :
  (dget (str "flags") d = None ->
     get_flag f d = Err (KeyError (VStr (str "flags"))) /\ set_flag f v d = Err (KeyError (VStr (str "flags")))) /\
  (forall w, dget (str "flags") d = Some w -> (forall z, w <> VInt z) -> get_flag f d = Err TypeError /\ set_flag f v d = Err TypeError).
Proof.
  unfold set_flag, get_flag, ditem. split; [intros ->; split; reflexivity|]. intros w -> N.
  destruct w as [z|b|s|vs|n]; try (split; reflexivity). exfalso. apply (N z). reflexivity.
Qed.
Example C51_example :
  let d := [(str "application", VStr (str "ssh:")); (str "flags", VInt 33)] in
  get_flag USER_PRESENCE_REQUIRED d = Ok true /\ get_flag USER_VERIFICATION_REQUIRED d = Ok false /\
  set_flag USER_VERIFICATION_REQUIRED true d = Ok [(str "application", VStr (str "ssh:")); (str "flags", VInt 37)] /\
  set_flag RESIDENT_KEY false d = Ok [(str "application", VStr (str "ssh:")); (str "flags", VInt 1)] /\
  set_flag RESIDENT_KEY true d = Ok d /\
  set_flag RESIDENT_KEY true (dset (str "flags") (VBytes [x21]) d) = Err TypeError.
Proof. repeat split. Qed.

(** ** C52 *)
Lemma wwhen_log b w : fst (wwhen b (wwarn w)) = if b then [Warn w] else [].
Proof. destruct b; reflexivity. Qed.
Lemma seq_log {B} (x : W unit) (y : W B) : snd x = Ok tt -> fst (wseq x y) = fst x ++ fst y.
Proof. unfold wseq. destruct x as [l [[]|e]]; cbn [snd]; [|discriminate]. intros _. cbn [wbind]. destruct y; reflexivity. Qed.
Lemma bytes_field_ok k b : check_field [(str k, VBytes b)] (str k) fB = wret tt.
Proof. unfold check_field. cbn [dget]. rewrite str_eqb_refl. reflexivity. Qed.
Lemma length_32 (b : bytes) : (length b =? ed_key_size)%nat = true <-> Z.of_nat (length b) = 32.
Proof. rewrite Nat.eqb_eq. change ed_key_size with 32%nat. lia. Qed.
Section Ed.
Variable ec : curve -> bytes -> bool.
Variable pp : bytes -> W key.
(** The log of the checks of an Ed25519 public key whose field is bytes. *)
Theorem C52_public_warnings d pub :
  dget (str "public") d = Some (VBytes pub) ->
  (Z.of_nat (length pub) = 32 -> new_params ec pp EdPub d = ([], Ok tt)) /\
  (Z.of_nat (length pub) <> 32 -> new_params ec pp EdPub d = ([Warn WEdPublicLength], Ok tt)).
Proof.
  intros G. pose proof (length_32 pub) as L.
  assert (new_params ec pp EdPub d = wseq (wwhen (negb (length pub =? ed_key_size)%nat) (wwarn WEdPublicLength)) (wret tt)) as E.
  { unfold new_params. change (check_plan EdPub) with [StFormat; StEdPub]. cbn [run_steps check_step].
    change (format_of EdPub) with [fld "public" fB]. unfold fld. cbn [check_dict]. unfold check_field. rewrite G.
    change (is_instance (VBytes pub) BYTES) with true. cbn [fB].
    unfold check_ed_pub, get_bytes. rewrite G. destruct (negb (length pub =? ed_key_size)%nat); reflexivity. }
  rewrite E. destruct (length pub =? ed_key_size)%nat; (split; intros K; [|]); try reflexivity.
  - exfalso. apply K, L. reflexivity.
  - exfalso. apply L in K. discriminate.
Qed.
(** The three checks of an Ed25519 private key whose fields are bytes: which warnings. *)
Theorem C52_private_warnings d pub both :
  dget (str "public") d = Some (VBytes pub) -> dget (str "private_public") d = Some (VBytes both) ->
  exists l, new_params ec pp EdPriv d = (l, Ok tt) /\
    (In (Warn WEdPublicLength) l <-> Z.of_nat (length pub) <> 32) /\
    (In (Warn WEdMismatch) l <-> skipn 32 both <> pub) /\
    (In (Warn WEdPrivateLength) l <-> Z.of_nat (length both) <> 64) /\
    (l = [] <-> Z.of_nat (length pub) = 32 /\ exists seed, Z.of_nat (length seed) = 32 /\ both = seed ++ pub).
Proof.
  intros Gp Gb.
  assert (exists l, new_params ec pp EdPriv d = (l, Ok tt) /\
    forall ev, In ev l <-> (ev = Warn WEdPublicLength /\ (length pub =? ed_key_size)%nat = false) \/
      (ev = Warn WEdMismatch /\ bytes_eqb (skipn ed_key_size both) pub = false) \/
      (ev = Warn WEdPrivateLength /\ (length (skipn ed_key_size both) =? ed_key_size)%nat = false)) as (l & E & M).
  { unfold new_params. set (plan := check_plan EdPriv). vm_compute in plan. subst plan. cbn [run_steps check_step].
    change (format_of EdPriv) with [fld "public" fB; fld "private_public" fB]. unfold fld. cbn [check_dict]. unfold check_field. rewrite Gp, Gb.
    change (is_instance (VBytes pub) BYTES) with true. change (is_instance (VBytes both) BYTES) with true. cbn [fB].
    unfold check_ed_pub, check_ed_priv, get_bytes. rewrite Gp, Gb.
    destruct (length pub =? ed_key_size)%nat, (bytes_eqb (skipn ed_key_size both) pub), (length (skipn ed_key_size both) =? ed_key_size)%nat;
      (eexists; split; [reflexivity|]); intros ev; cbn; intuition congruence. }
  assert (skipn ed_key_size both = pub <-> bytes_eqb (skipn ed_key_size both) pub = true) as Eq.
  { destruct (bytes_eqb_reflect (skipn ed_key_size both) pub); split; congruence. }
  pose proof (length_32 pub) as L1. pose proof (length_32 (skipn ed_key_size both)) as L2. rewrite skipn_length in L2.
  change ed_key_size with 32%nat in *.
  exists l. split; [exact E|].
  assert (In (Warn WEdPublicLength) l <-> Z.of_nat (length pub) <> 32) as H1.
  { rewrite M. rewrite <- L1. destruct (length pub =? 32)%nat; intuition congruence. }
  assert (In (Warn WEdMismatch) l <-> skipn 32 both <> pub) as H2.
  { rewrite M, Eq. destruct (bytes_eqb (skipn 32 both) pub); intuition congruence. }
  assert (In (Warn WEdPrivateLength) l <-> Z.of_nat (length both) <> 64) as H3.
  { rewrite M. rewrite skipn_length. destruct (length both - 32 =? 32)%nat eqn:Q; rewrite ?Nat.eqb_eq, ?Nat.eqb_neq in Q; intuition (congruence || lia). }
  split; [exact H1|]. split; [exact H2|].
  split; [exact H3|]. split.
  - intros ->. cbn [In] in *. assert (Z.of_nat (length pub) = 32) as A by (destruct (Z.eq_dec (Z.of_nat (length pub)) 32); tauto).
    assert (Z.of_nat (length both) = 64) as B by (destruct (Z.eq_dec (Z.of_nat (length both)) 64); tauto).
    split; [exact A|]. exists (firstn 32 both). split; [rewrite firstn_length; lia|].
    assert (skipn 32 both = pub) as <-. { destruct (bytes_eqb_reflect (skipn 32 both) pub) as [K|K]; [exact K|]. exfalso. apply H2 in K. exact K. }
    symmetry. apply firstn_skipn.
  - intros (A & seed & Ls & ->). destruct l as [|ev l]; [reflexivity|exfalso].
    destruct (proj1 (M ev) (or_introl eq_refl)) as [(-> & _)|[(-> & _)|(-> & _)]].
    + apply (proj1 H1); [left; reflexivity|exact A].
    + apply (proj1 H2); [left; reflexivity|]. replace 32%nat with (length seed + 0)%nat by lia. rewrite skipn_app, Nat.add_0_r, skipn_all, Nat.sub_diag. reflexivity.
    + apply (proj1 H3); [left; reflexivity|]. rewrite app_length. lia.
Qed.
End Ed.
Example C52_example :
  new_params ex_ec (parse_pub ex_ec) EdPriv ex_ed_params = ([], Ok tt) /\
  new_params ex_ec (parse_pub ex_ec) EdPriv
    [(str "public", VBytes ex_ed_pub); (str "private_public", VBytes (ex_ed_pub ++ repeat "001"%byte 31))] =
  ([Warn WEdMismatch; Warn WEdPrivateLength], Ok tt).
Proof. split; vm_compute; reflexivity. Qed.

(** ** C53 *)
(** The key types that can be generated. *)
Definition generable (t : pystr) : Prop :=
  In t [str "ssh-rsa"; str "ssh-dss"; str "ecdsa-sha2-nistp256"; str "ecdsa-sha2-nistp384"; str "ecdsa-sha2-nistp521"; str "ssh-ed25519"].
Definition security_key (t : pystr) : Prop :=
  In t [str "sk-ecdsa-sha2-nistp256@openssh.com"; str "sk-ssh-ed25519@openssh.com"].
Definition curve_named (t : pystr) : curve :=
  if str_eqb t (str "ecdsa-sha2-nistp256") then P256 else if str_eqb t (str "ecdsa-sha2-nistp384") then P384 else P521.
(** What the generator's output means for each type. *)
Definition generated_values (g : generated) (t : pystr) : list (pystr * pyval) :=
  if str_eqb t (str "ssh-rsa") then
    let '(n, e, d, iqmp, p, q) := g_rsa g in
    [(str "n", VInt n); (str "e", VInt e); (str "d", VInt d); (str "iqmp", VInt iqmp); (str "p", VInt p); (str "q", VInt q)]
  else if str_eqb t (str "ssh-dss") then
    let '(p, q, g, y, x) := g_dss g in
    [(str "p", VInt p); (str "q", VInt q); (str "g", VInt g); (str "y", VInt y); (str "x", VInt x)]
  else if str_eqb t (str "ssh-ed25519") then
    let '(seed, pub) := g_ed g in [(str "public", VBytes pub); (str "private_public", VBytes (seed ++ pub))]
  else let '(q, d) := g_ec g (curve_named t) in
    [(str "identifier", VStr (match curve_named t with P256 => str "nistp256" | P384 => str "nistp384" | P521 => str "nistp521" end));
     (str "q", VBytes q); (str "d", VInt d)].
(** The generator delivers what the cryptography package documents: valid points, 32-byte
    seeds and keys. *)
Definition good_generator (p : prims) (g : generated) : Prop :=
  (forall c, p_ec_ok p c (fst (g_ec g c)) = true) /\
  Z.of_nat (length (fst (g_ed g))) = 32 /\ Z.of_nat (length (snd (g_ed g))) = 32.

Lemma generable_spec t : generable t -> exists c, get_private_class (VStr t) = Ok c /\
  exists pub priv, In (t, (pub, Some priv)) key_specs /\
  forall g, lookup_attr (own_generate g c) (mro c) = Some (Ok (generated_values g t)).
Proof.
  intros H. unfold generable in H. cbn [In] in H.
  repeat (destruct H as [<-|H]; [eexists; split; [vm_compute; reflexivity|]; eexists _, _; split;
    [unfold key_specs, plain_specs; cbn [map app fst snd In]; eauto 20|]; intros g;
    destruct g as [[[[[[n e] d] iqmp] p0] q] [[[[p1 q1] g1] y] x] gec [seed pub]]; vm_compute; repeat (match goal with |- context [gec ?c] => destruct (gec c) end); reflexivity|]).
  contradiction.
Qed.
Lemma generated_quiet ec pp g t kd c :
  generable t -> params_class kd (VStr t) = Ok c ->
  (forall cv, ec cv (fst (g_ec g cv)) = true) -> Z.of_nat (length (fst (g_ed g))) = 32 -> Z.of_nat (length (snd (g_ed g))) = 32 ->
  new_params ec pp c (generated_values g t) = ([], Ok tt).
Proof.
  intros H Hc Ok1 L1 L2.
  destruct g as [[[[[[n e] d] iqmp] p0] q] [[[[p1 q1] g1] y] x] gec [seed pub]]. cbn [g_ec g_ed fst snd] in *.
  pose proof (Ok1 P256) as O1. pose proof (Ok1 P384) as O2. pose proof (Ok1 P521) as O3. clear Ok1.
  destruct (gec P256) as [q256 d256] eqn:E1. destruct (gec P384) as [q384 d384] eqn:E2. destruct (gec P521) as [q521 d521] eqn:E3. cbn [fst] in *.
  unfold generable in H. cbn [In] in H.
  repeat (destruct H as [<-|H]; [destruct kd; vm_compute in Hc; injection Hc as <-;
    try (vm_compute; rewrite ?E1, ?E2, ?E3, ?O1, ?O2, ?O3; reflexivity)|]); [| |contradiction].
  - apply (C52_public_warnings ec pp _ pub); [reflexivity|exact L2].
  - destruct (C52_private_warnings ec pp (generated_values (mkgen (n, e, d, iqmp, p0, q) (p1, q1, g1, y, x) gec (seed, pub)) (str "ssh-ed25519")) pub (seed ++ pub) eq_refl eq_refl)
      as (l & E & _ & _ & _ & N). rewrite E. rewrite (proj2 N) by eauto. reflexivity.
Qed.
(** Generating a key of one of the six types returns, for every generator output, a pair
    whose halves have that type, hold the generated values, pack to the same public bytes, and
    whose private half has the comment. Missing: that the public half has only the public
    parameters, which is false ([k_params pub = k_params priv], and C53_public_half_refuted). *)
Theorem C53_generate_partial p g t comment :
  generable t ->
  exists l pub priv, generate p g t comment = (l, Ok (mkpair pub priv)) /\
    k_kind pub = KPub /\ k_kind priv = KPriv /\ is_key t pub /\ is_key t priv /\
    k_header pub = k_header priv /\ k_params priv = generated_values g t /\ k_params pub = k_params priv /\
    k_footer priv = [(str "comment", VStr comment)] /\ k_footer pub = [] /\ k_clear pub = [] /\ k_clear priv = [] /\
    pack_public_bytes pub = pack_public_bytes priv /\
    (good_generator p g -> l = []).
Proof.
  intros Ht. destruct (generable_spec t Ht) as (c & Hc & pub & priv & Hs & Hg).
  destruct (spec_public _ _ _ Hs) as (cp & Hcp & _ & _ & Fp).
  assert (forall kd : kind, dget (str "key_type") [(str "key_type", VStr t)] = Some (VStr t)) as G by (intros _; cbn [dget]; rewrite str_eqb_refl; reflexivity).
  set (h := [(str "key_type", VStr t)]). set (d := generated_values g t).
  pose proof (new_params_plain_ok (p_ec_ok p) _ _ _ KPriv c (parse_pub (p_ec_ok p)) d Hs Hc) as N1.
  pose proof (new_params_plain_ok (p_ec_ok p) _ _ _ KPub cp (parse_pub (p_ec_ok p)) d Hs Hcp) as N2.
  assert (good_generator p g -> fst (new_params (p_ec_ok p) (parse_pub (p_ec_ok p)) c d) = [] /\
    fst (new_params (p_ec_ok p) (parse_pub (p_ec_ok p)) cp d) = []) as Q.
  { intros (A & B & C). unfold d. rewrite (generated_quiet _ _ g t KPriv c Ht Hc A B C), (generated_quiet _ _ g t KPub cp Ht Hcp A B C). auto. }
  destruct (new_params (p_ec_ok p) (parse_pub (p_ec_ok p)) c d) as [l1 r1] eqn:E1. cbn [snd] in N1. subst r1.
  destruct (new_params (p_ec_ok p) (parse_pub (p_ec_ok p)) cp d) as [l2 r2] eqn:E2. cbn [snd] in N2. subst r2.
  pose proof (new_key_intro (p_ec_ok p) (parse_pub (p_ec_ok p)) KPriv h d [(str "comment", VStr comment)] None (VStr t) c l1 (G KPriv) Hc E1) as K1.
  pose proof (new_key_intro (p_ec_ok p) (parse_pub (p_ec_ok p)) KPub h d [] None (VStr t) cp l2 (G KPub) Hcp E2) as K2.
  unfold generate. cbn [wlift wbind]. rewrite Hc. cbn [wlift wbind]. unfold generate_private_params at 1. rewrite (Hg g). cbn [wlift wbind].
  fold d. rewrite E1. unfold wseq. cbn [wbind wret app]. fold h. rewrite K1. cbn [wbind]. rewrite K2. cbn [wbind].
  eexists _, _, _. split; [reflexivity|]. cbn [k_kind k_header k_params k_footer k_clear].
  split; [reflexivity|]. split; [reflexivity|]. split; [split; [apply (G KPub)|exact Hcp]|]. split; [split; [apply (G KPub)|exact Hc]|].
  do 7 (split; [reflexivity|]). split.
  - rewrite !pack_public_eq. cbn [k_header k_params k_pcls]. rewrite Fp.
    assert (first_public_class c = cp) as ->; [|reflexivity].
    pose proof (public_class_of t pub (Some priv) (mkkey KPriv h c d [(str "comment", VStr comment)] []) Hs) as K.
    cbn [k_pcls] in K. apply Ok_inj. rewrite <- Hcp. symmetry. apply K. split; [apply (G KPub)|exact Hc].
  - intros Hgood. destruct (Q Hgood) as (A & B). cbn [fst] in A, B. subst l1 l2.
    rewrite !app_nil_r. cbn [app]. reflexivity.
Qed.
(** Security keys and unknown types cannot be generated. *)
Theorem C53_not_generable p g t comment :
  (security_key t -> generate p g t comment = ([], Err NotImplementedError)) /\
  (~ In t (map fst plain_specs) -> exists v, generate p g t comment = ([], Err (KeyError v))).
Proof.
  split.
  - intros [<-|[<-|[]]]; reflexivity.
  - intros N. unfold generate. assert (exists v, get_private_class (VStr t) = Err (KeyError v)) as (v & ->); [|exists v; reflexivity].
    destruct (get_private_class (VStr t)) as [c|e] eqn:E.
    + exfalso. destruct (known_type KPriv _ _ E) as (t' & pub & priv & K & Hs). injection K as <-.
      unfold key_specs in Hs. apply in_app_or in Hs as [Hs|Hs].
      * apply in_map_iff in Hs as (x & K & Hx). injection K as <- _ _. apply N. apply in_map. exact Hx.
      * apply in_map_iff in Hs as (x & K & Hx). injection K as K1 K2 K3. subst priv.
        rewrite (spec_cert_no_private t pub) in E; [discriminate|]. unfold key_specs. apply in_or_app. right. apply in_map_iff. exists x. subst. auto.
    + destruct (params_class_errors KPriv t e E) as (v & ->). exists v. reflexivity.
Qed.
(** Against the property: the public half also holds the private values. *)
Theorem C53_public_half_refuted :
  exists p g t comment l pub priv, generate p g t comment = (l, Ok (mkpair pub priv)) /\
    dget (str "d") (k_params pub) = Some (VInt 413).
Proof.
  set (g := mkgen (3233, 17, 413, 38, 61, 53) (0, 0, 0, 0, 0) (fun _ => ([], 0)) ([], [])).
  destruct (C53_generate_partial toy_prims g (str "ssh-rsa") [] (or_introl eq_refl)) as (l & pub & priv & E & _ & _ & _ & _ & _ & A & B & _).
  exists toy_prims, g, (str "ssh-rsa"), [], l, pub, priv. split; [exact E|]. rewrite B, A. reflexivity.
Qed.
Example C53_example :
  exists pub priv, generate toy_prims (mkgen (3233, 17, 413, 38, 61, 53) (0, 0, 0, 0, 0) (fun _ => ([], 0)) (repeat "001"%byte 32, ex_ed_pub))
     (str "ssh-ed25519") (str "me@host") = ([], Ok (mkpair pub priv)) /\ priv = ex_ed /\
     pack_public_bytes pub = pack_public_bytes ex_ed.
Proof. eexists _, _. split; [vm_compute; reflexivity|]. split; vm_compute; reflexivity. Qed.

Print Assumptions C51_not_an_integer.
Print Assumptions C51_get_flag.
Print Assumptions C51_set_flag.
Print Assumptions C51_sequence.
Print Assumptions C51_sets_succeed.
Print Assumptions C52_public_warnings.
Print Assumptions C52_private_warnings.
Print Assumptions C53_generate_partial.
Print Assumptions C53_not_generable.
Print Assumptions C53_public_half_refuted.
