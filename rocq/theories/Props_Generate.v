(** C71: generating keys with keyword arguments. *)
From Verif Require Import PyBase IntBytes Utf8 StructFmt Stream Text Classes Key Crypto PrivateKeyList Convert Generate.
From Verif Require Import SpecWire SpecKey SpecConvert SpecGenerate.
From Verif Require Import ProofBase ProofInt ProofUtf8 ProofWire ProofRecord ProofKey ProofErr ProofConvert Props_Key Props_Params Props_Convert.
Open Scope Z_scope.

Section Gen.
Variable x : ext.
Definition derives32 : Prop := forall s, Z.of_nat (length s) = 32 -> Z.of_nat (length (x_ed_derive x s)) = 32.

Lemma asks_fun kwargs f r r' : asks kwargs f r -> asks kwargs f r' -> r = r'.
Proof.
  intros A B. destruct A as [e s He Hs| | |]; inversion B as [e' s' He' Hs'| | |]; subst; try reflexivity.
  f_equal; [destruct He, He'|destruct Hs, Hs']; congruence.
Qed.
Lemma asks_exists kwargs f : exists r, asks kwargs f r.
Proof.
  assert (forall k z, exists v, argument kwargs k z v) as K.
  { intros k z. destruct (dget (str k) kwargs) as [v|] eqn:E; eexists; [apply arg_given|apply arg_default]; eassumption. }
  destruct f as [| |c|]; [|eexists; constructor..].
  destruct (K "e"%string 65537) as (e & He), (K "key_size"%string 4096) as (s & Hs). eexists. constructor; eassumption.
Qed.
Lemma kwarg_spec kwargs k z v : argument kwargs k z v -> kwarg k (VInt z) kwargs = v.
Proof. unfold kwarg. intros [w ->| ->]; reflexivity. Qed.

(** The values generate_private_params computes. *)
Definition generated_from (gen : request -> res obj) (f : family) (r : request) : res (dict pyval) :=
  do? o <- gen r;
  match private_values x f o with Some v => Ok v | None => Err AttributeError end.
Lemma class_generator gen kwargs f r :
  asks kwargs f r -> (forall o, gen r = Ok o -> answers x r o) ->
  lookup_attr (own_generator x gen kwargs (class_of f KPriv)) (mro (class_of f KPriv)) = Some (generated_from gen f r).
Proof.
  intros A H. unfold generated_from. destruct A as [e s He Hs| |c|].
  - change (lookup_attr _ _) with (Some (rsa_generate gen kwargs)). f_equal. unfold rsa_generate, rsa_public_exponent, rsa_key_size.
    rewrite (kwarg_spec _ _ _ _ He), (kwarg_spec _ _ _ _ Hs). destruct (gen (AskRSA e s)) as [o|]; [|reflexivity]. cbn [rbind].
    specialize (H o eq_refl). destruct o; try contradiction. reflexivity.
  - change (lookup_attr _ _) with (Some (dss_generate gen)). f_equal. unfold dss_generate, dss_key_size.
    destruct (gen (AskDSA (VInt 1024))) as [o|]; [|reflexivity]. cbn [rbind].
    specialize (H o eq_refl). destruct o; try contradiction. reflexivity.
  - transitivity (Some (ec_generate gen (class_of (FamEC c) KPriv))); [destruct c; reflexivity|]. f_equal. unfold ec_generate.
    assert (curve_of (class_of (FamEC c) KPriv) = Some c) as -> by (destruct c; reflexivity).
    assert (class_curve_identifier (class_of (FamEC c) KPriv) = nist_curve c) as -> by (destruct c; reflexivity).
    destruct (gen (AskEC c)) as [o|]; [|reflexivity]. cbn [rbind].
    specialize (H o eq_refl). destruct o; try contradiction. destruct H as (-> & _). cbn [private_values]. rewrite str_eqb_refl. reflexivity.
  - change (lookup_attr _ _) with (Some (ed_generate x gen)). f_equal. unfold ed_generate.
    destruct (gen AskEd25519) as [o|]; [|reflexivity]. cbn [rbind].
    specialize (H o eq_refl). destruct o; try contradiction. reflexivity.
Qed.

(** The generated values are accepted without warnings, by both classes. *)
Lemma generated_is_valid kwargs f r o : asks kwargs f r -> derives32 -> answers x r o ->
  exists v, private_values x f o = Some v /\ valid_object x o /\
    fst (new_params (x_ec_ok x) (parse_pub (x_ec_ok x)) (class_of f KPub) v) = [].
Proof.
  intros A D H. generalize (parse_pub (x_ec_ok x)) as pp. intros pp.
  destruct A as [e s He Hs| |c|]; destruct o; cbn [answers] in H; try contradiction; cbn [private_values valid_object].
  - eexists. split; [reflexivity|]. split; [split; [exact I|exact D]|]. vm_compute. reflexivity.
  - eexists. split; [reflexivity|]. split; [split; [exact I|exact D]|]. vm_compute. reflexivity.
  - destruct H as (-> & H). rewrite str_eqb_refl. eexists. split; [reflexivity|]. split; [split; [|exact D]|].
    + intros c' E. replace c' with c by (destruct c, c'; try reflexivity; discriminate E). exact H.
    + assert (x_ec_ok x c point = true) as O by (unfold x_ec_ok; rewrite H; reflexivity).
      generalize dependent (x_ec_ok x). intros ok O. destruct c; vm_compute; rewrite O; reflexivity.
  - eexists. split; [reflexivity|]. split; [split; [exact H|exact D]|].
    set (v := [(str "public", VBytes (x_ed_derive x seed)); (str "private_public", VBytes (seed ++ x_ed_derive x seed))]).
    assert (dget (str "public") v = Some (VBytes (x_ed_derive x seed))) as G by reflexivity.
    pose proof (proj1 (C52_public_warnings (x_ec_ok x) pp v _ G) (D _ H)) as E.
    exact (f_equal fst E).
Qed.

Lemma first_public f kd : first_public_class (class_of f kd) = class_of f KPub.
Proof. destruct f as [| |[]|], kd; vm_compute; reflexivity. Qed.
Lemma class_generate_eq gen f kwargs r :
  asks kwargs f r -> (forall o, gen r = Ok o -> answers x r o) ->
  class_generate x gen (class_of f KPriv) kwargs = wbind (wlift (generated_from gen f r)) (construct x (class_of f KPriv)).
Proof.
  intros A H. unfold class_generate. assert (delegate (class_of f KPriv) = class_of f KPriv) as -> by (destruct f as [| |[]|]; reflexivity).
  rewrite (class_generator gen kwargs f r A H). reflexivity.
Qed.
Lemma quiet_construct f kd v : fst (construct x (class_of f kd) v) = [] ->
  new_params (x_ec_ok x) (parse_pub (x_ec_ok x)) (class_of f kd) v = ([], Ok tt) /\ construct x (class_of f kd) v = ([], Ok (class_of f kd, v)).
Proof.
  destruct (construct_plain x f kd v) as (l & C). rewrite C. cbn [fst]. intros ->. split; [|reflexivity].
  revert C. unfold construct. rewrite class_of_concrete. generalize (new_params (x_ec_ok x) (parse_pub (x_ec_ok x)) (class_of f kd) v).
  intros [l [[]|]]; cbn [wseq wbind wret]; [|discriminate]. intros C. injection C as C. rewrite app_nil_r in C. subst l. reflexivity.
Qed.
Definition made_key (f : family) (kd : kind) (v footer : dict pyval) : key :=
  mkkey kd [(str "key_type", VStr (family_type f))] (class_of f kd) v footer [].
Lemma make_key f kd v fo : (kd = KPub -> fo = []) -> (kd = KPriv -> exists s, fo = [(str "comment", VStr s)]) ->
  new_params (x_ec_ok x) (parse_pub (x_ec_ok x)) (class_of f kd) v = ([], Ok tt) ->
  new_key (x_ec_ok x) (parse_pub (x_ec_ok x)) kd [(str "key_type", VStr (family_type f))] v fo None = ([], Ok (made_key f kd v fo)).
Proof.
  intros F1 F2 E.
  assert (dget (str "key_type") [(str "key_type", VStr (family_type f))] = Some (VStr (family_type f))) as G by reflexivity.
  rewrite (new_key_intro (x_ec_ok x) (parse_pub (x_ec_ok x)) kd _ v fo None (VStr (family_type f)) _ [] G (class_of_ok f kd) E).
  unfold made_key. f_equal. destruct kd; [rewrite F1 by reflexivity|destruct (F2 eq_refl) as (s & ->)]; reflexivity.
Qed.
(** Generating a key asks for exactly one key: the one the key type and the keyword arguments
    say. If the generator raises, so does the call. If it answers, the pair holds the
    parameters of that key (those convert_from gives for it), there are no warnings, and
    the halves are the same key. *)
Theorem C71_generate gen f kwargs r comment :
  derives32 -> asks kwargs f r -> (forall o, gen r = Ok o -> answers x r o) ->
  match gen r with
  | Err e => generate_pair x gen (family_type f) comment kwargs = ([], Err e)
  | Ok o => exists pub priv v,
      generate_pair x gen (family_type f) comment kwargs = ([], Ok (mkpair pub priv)) /\
      private_values x f o = Some v /\ convert_from x (class_of f KPriv) o = ([], Ok (class_of f KPriv, v)) /\
      k_kind pub = KPub /\ k_kind priv = KPriv /\ is_key (family_type f) pub /\ is_key (family_type f) priv /\
      k_params priv = v /\ k_params pub = v /\
      k_footer priv = [(str "comment", VStr comment)] /\ k_footer pub = [] /\ k_clear priv = [] /\ k_clear pub = [] /\
      pack_public_bytes pub = pack_public_bytes priv
  end.
Proof.
  intros D A H. unfold generate_pair.
  assert (get_private_class (VStr (family_type f)) = Ok (class_of f KPriv)) as -> by exact (class_of_ok f KPriv).
  cbn [wlift wbind]. rewrite (class_generate_eq gen f kwargs r A H). unfold generated_from.
  destruct (gen r) as [o|e] eqn:Eg; [|reflexivity]. cbn [rbind].
  destruct (generated_is_valid kwargs f r o A D (H o eq_refl)) as (v & Hv & V & Q). rewrite Hv. cbn [wlift wbind].
  destruct (quiet_construct f KPriv v (values_quiet x f KPriv o v Hv V)) as (E1 & ->). cbn [wbind snd].
  rewrite (make_key f KPriv v [(str "comment", VStr comment)] ltac:(discriminate) ltac:(eauto) E1). cbn [wbind].
  destruct (family_spec f) as (fp & fv & Hs).
  pose proof (new_params_plain_ok (x_ec_ok x) _ _ _ KPub (class_of f KPub) (parse_pub (x_ec_ok x)) v Hs (class_of_ok f KPub)) as N2.
  assert (new_params (x_ec_ok x) (parse_pub (x_ec_ok x)) (class_of f KPub) v = ([], Ok tt)) as E2.
  { revert Q N2. generalize (new_params (x_ec_ok x) (parse_pub (x_ec_ok x)) (class_of f KPub) v). intros [l rr]. cbn [fst snd]. intros -> ->. reflexivity. }
  rewrite (make_key f KPub v [] ltac:(reflexivity) ltac:(discriminate) E2). cbn [wbind].
  exists (made_key f KPub v []), (made_key f KPriv v [(str "comment", VStr comment)]), v. split; [reflexivity|]. split; [reflexivity|].
  split. { destruct (convert_from_values x f KPriv o v Hv) as (l & E & L). rewrite (L V) in E. exact E. }
  unfold made_key. cbn [k_kind k_header k_params k_footer k_clear].
  do 2 (split; [reflexivity|]). do 2 (split; [split; [reflexivity|apply class_of_ok]|]). do 6 (split; [reflexivity|]).
  rewrite !pack_public_eq. cbn [k_header k_params k_pcls].
  rewrite !first_public. reflexivity.
Qed.
(** Nothing else is asked for: the result depends on the generator's answer to that request
    only, and on no other keyword argument. *)
Theorem C71_single_request gen gen' f kwargs kwargs' r comment :
  asks kwargs f r -> asks kwargs' f r -> gen r = gen' r ->
  generate_pair x gen (family_type f) comment kwargs = generate_pair x gen' (family_type f) comment kwargs'.
Proof.
  intros A A' E. unfold generate_pair.
  pose proof (class_of_ok f KPriv) as Hc. cbn [params_class] in Hc. rewrite Hc. cbn [wlift wbind].
  unfold class_generate. assert (delegate (class_of f KPriv) = class_of f KPriv) as -> by (destruct f as [| |[]|]; reflexivity).
  replace (lookup_attr (own_generator x gen kwargs (class_of f KPriv)) (mro (class_of f KPriv))) with
    (lookup_attr (own_generator x gen' kwargs' (class_of f KPriv)) (mro (class_of f KPriv))); [reflexivity|].
  destruct A as [e s He Hs| |c|].
  - inversion A' as [e' s' He' Hs'| | |]; subst.
    change (Some (rsa_generate gen' kwargs') = Some (rsa_generate gen kwargs)). unfold rsa_generate, rsa_public_exponent, rsa_key_size.
    rewrite (kwarg_spec _ _ _ _ He), (kwarg_spec _ _ _ _ Hs), (kwarg_spec _ _ _ _ He'), (kwarg_spec _ _ _ _ Hs'), E. reflexivity.
  - change (Some (dss_generate gen') = Some (dss_generate gen)). unfold dss_generate, dss_key_size. rewrite E. reflexivity.
  - transitivity (Some (ec_generate gen' (class_of (FamEC c) KPriv))); [destruct c; reflexivity|].
    transitivity (Some (ec_generate gen (class_of (FamEC c) KPriv))); [|destruct c; reflexivity].
    unfold ec_generate. assert (curve_of (class_of (FamEC c) KPriv) = Some c) as -> by (destruct c; reflexivity). rewrite E. reflexivity.
  - change (Some (ed_generate x gen') = Some (ed_generate x gen)). unfold ed_generate. rewrite E. reflexivity.
Qed.
(** So an RSA key has the requested exponent and size, by default 65537 and 4096 bits, and a
    DSS key has 1024 bits. *)
Theorem C71_rsa_size gen kwargs comment e s lg q :
  argument kwargs "e" 65537 (VInt e) -> argument kwargs "key_size" 4096 (VInt s) ->
  (forall r o, gen r = Ok o -> answers x r o) -> derives32 ->
  generate_pair x gen (str "ssh-rsa") comment kwargs = (lg, Ok q) ->
  exists n, bits n s /\ dget (str "n") (k_params (pr_private q)) = Some (VInt n) /\
    dget (str "e") (k_params (pr_private q)) = Some (VInt e).
Proof.
  intros He Hs H D G. pose proof (asks_rsa kwargs _ _ He Hs) as A.
  pose proof (C71_generate gen FamRSA kwargs _ comment D A (H _)) as K.
  destruct (gen (AskRSA (VInt e) (VInt s))) as [o|er] eqn:Eg.
  - destruct K as (pub & priv & v & Eq & Hv & _ & _ & _ & _ & _ & Ep & _).
    change (family_type FamRSA) with (str "ssh-rsa") in Eq. rewrite G in Eq. injection Eq as _ ->. cbn [pr_private]. rewrite Ep.
    pose proof (H _ _ Eg) as B. destruct o; cbn [answers] in B; try contradiction. destruct B as (E1 & s' & E2 & B).
    injection E1 as ->. injection E2 as ->. cbn [private_values] in Hv. injection Hv as <-. eexists. split; [exact B|]. split; reflexivity.
  - change (family_type FamRSA) with (str "ssh-rsa") in K. rewrite G in K. discriminate.
Qed.
Theorem C71_dss_size gen kwargs comment lg q :
  (forall r o, gen r = Ok o -> answers x r o) -> derives32 ->
  generate_pair x gen (str "ssh-dss") comment kwargs = (lg, Ok q) ->
  exists p, bits p 1024 /\ dget (str "p") (k_params (pr_private q)) = Some (VInt p).
Proof.
  intros H D G.
  pose proof (C71_generate gen FamDSS kwargs _ comment D (asks_dss kwargs) (H _)) as K.
  destruct (gen (AskDSA (VInt 1024))) as [o|er] eqn:Eg.
  - destruct K as (pub & priv & v & Eq & Hv & _ & _ & _ & _ & _ & Ep & _).
    change (family_type FamDSS) with (str "ssh-dss") in Eq. rewrite G in Eq. injection Eq as _ ->. cbn [pr_private]. rewrite Ep.
    pose proof (H _ _ Eg) as B. destruct o; cbn [answers] in B; try contradiction. destruct B as (s' & E2 & B).
    injection E2 as <-. cbn [private_values] in Hv. injection Hv as <-. eexists. split; [exact B|]. reflexivity.
  - change (family_type FamDSS) with (str "ssh-dss") in K. rewrite G in K. discriminate.
Qed.
(** A generated key converts back to the key object the generator returned. *)
Theorem C71_converts_back gen f kwargs r comment o ty lg q :
  derives32 -> asks kwargs f r -> gen r = Ok o -> answers x r o ->
  obj_type o = Some ty -> In ty (foreign_types x f KPriv) -> constructible x o ->
  generate_pair x gen (family_type f) comment kwargs = (lg, Ok q) ->
  convert_to x (k_pcls (pr_private q)) (k_params (pr_private q)) (exactly ty) = Ok o.
Proof.
  intros D A Eg B T I C G. pose proof (C71_generate gen f kwargs r comment D A) as K. rewrite Eg in K.
  destruct K as (pub & priv & v & Eq & Hv & _ & _ & Kd & _ & Ik & Ep & _); [intros o' E; injection E as <-; exact B|].
  rewrite G in Eq. injection Eq as _ ->. cbn [pr_private]. rewrite Ep. destruct Ik as (_ & Ic). rewrite Kd in Ic.
  exact (C56_object_roundtrip x f KPriv _ o ty v Ic T I C Hv).
Qed.
(** The generic ECDSA class generates a nistp256 key; security keys and unknown types cannot be
    generated, whatever the arguments. *)
Theorem C71_generic_ecdsa gen kwargs :
  class_generate x gen ECDSAPriv kwargs = class_generate x gen (class_of (FamEC P256) KPriv) kwargs.
Proof. reflexivity. Qed.
Theorem C71_not_generable gen t comment kwargs :
  (security_key t -> generate_pair x gen t comment kwargs = ([], Err NotImplementedError)) /\
  (~ In t (map fst plain_specs) -> exists v, generate_pair x gen t comment kwargs = ([], Err (KeyError v))).
Proof.
  split.
  - intros [<-|[<-|[]]]; reflexivity.
  - intros N. unfold generate_pair. assert (exists v, get_private_class (VStr t) = Err (KeyError v)) as (v & ->); [|exists v; reflexivity].
    destruct (get_private_class (VStr t)) as [c|e] eqn:E.
    + exfalso. destruct (known_type KPriv _ _ E) as (t' & pub & priv & K & Hs). injection K as <-.
      unfold key_specs in Hs. apply in_app_or in Hs as [Hs|Hs].
      * apply in_map_iff in Hs as (y & K & Hy). injection K as <- _ _. apply N. apply in_map. exact Hy.
      * apply in_map_iff in Hs as (y & K & Hy). injection K as K1 K2 K3. subst priv.
        rewrite (spec_cert_no_private t pub) in E; [discriminate|]. unfold key_specs. apply in_or_app. right. apply in_map_iff. exists y. subst. auto.
    + destruct (params_class_errors KPriv t e E) as (v & ->). exists v. reflexivity.
Qed.
End Gen.

(** A generator of small keys: it answers every request for a key of at most 16 bits. *)
Definition ex_x : ext := mkext false (fun _ _ => Ok tt) (fun _ _ _ _ _ _ _ _ => Ok tt) (fun _ _ _ _ => Ok tt) (fun _ _ _ _ _ => Ok tt)
  (fun _ b => Some b) (fun _ _ _ => Ok tt) (fun s => rev s).
Definition ex_gen (r : request) : res obj :=
  match r with
  | AskRSA e s => if val_eqb e (VInt 17) && val_eqb s (VInt 12) then Ok (ORSAPriv 3233 17 413 53 49 38 61 53) else Err ValueError
  | AskEC c => Ok (OECPriv (sec_curve c) (bstr "point") 5)
  | AskEd25519 => Ok (OEdPriv (repeat x01 32))
  | _ => Err ValueError
  end.
Example C71_example :
  derives32 ex_x /\ (forall r o, ex_gen r = Ok o -> answers ex_x r o) /\
  asks [(str "key_size", VInt 12); (str "e", VInt 17); (str "colour", VStr [])] FamRSA (AskRSA (VInt 17) (VInt 12)) /\
  asks [] FamRSA (AskRSA (VInt 65537) (VInt 4096)) /\
  (exists q, generate_pair ex_x ex_gen (str "ssh-rsa") (str "me") [(str "key_size", VInt 12); (str "e", VInt 17)] = ([], Ok q) /\
     dget (str "d") (k_params (pr_private q)) = Some (VInt 413)) /\
  (exists q, generate_pair ex_x ex_gen (str "ssh-ed25519") (str "me") [] = ([], Ok q)) /\
  generate_pair ex_x ex_gen (str "ssh-rsa") (str "me") [] = ([], Err ValueError).
Proof.
  split; [intros s; cbn; rewrite rev_length; auto|]. split.
  - intros r o. destruct r as [e s|s|c|]; cbn [ex_gen].
    + destruct (val_eqb_reflect e (VInt 17)) as [->|]; [|discriminate]. destruct (val_eqb_reflect s (VInt 12)) as [->|]; [|discriminate].
      intros H. injection H as <-. split; [reflexivity|]. exists 12. split; [reflexivity|]. unfold bits. lia.
    + discriminate.
    + intros H. injection H as <-. split; reflexivity.
    + intros H. injection H as <-. reflexivity.
  - split; [constructor; apply arg_given; reflexivity|]. split; [constructor; apply arg_default; reflexivity|].
    split; [eexists; split; vm_compute; reflexivity|]. split; [eexists; vm_compute; reflexivity|]. vm_compute; reflexivity.
Qed.

Print Assumptions C71_generate.
Print Assumptions C71_single_request.
Print Assumptions C71_rsa_size.
Print Assumptions C71_dss_size.
Print Assumptions C71_converts_back.
Print Assumptions C71_generic_ecdsa.
Print Assumptions C71_not_generable.
