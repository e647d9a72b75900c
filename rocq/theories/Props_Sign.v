(** Properties of what a certificate's signature covers (C74). *)
From Verif Require Import PyBase IntBytes Utf8 StructFmt Stream Text Classes Key.
From Verif Require Import SpecWire SpecKey SpecCert.
From Verif Require Import ProofBase ProofInt ProofUtf8 ProofWire ProofRecord ProofKey ProofLog ProofErr ProofCrypto ProofList ProofCert.
From Verif Require Import Props_Stream Props_Key Props_Cert.
Open Scope Z_scope.

Lemma dict_bytes_same f d d' : (forall x, In x (dkeys f) -> dget x d = dget x d') -> dict_bytes f d = dict_bytes f d'.
Proof.
  induction f as [|(k, i) f IH]; intros H; [reflexivity|]. cbn [dict_bytes]. unfold ditem. rewrite (H k) by (left; reflexivity).
  rewrite IH by (intros x X; apply H; right; exact X). reflexivity.
Qed.
(** For certificates of one type, the signed bytes are the same exactly if all the fields but
    the signature are. The full claim, that the signed bytes determine the type too, is false
    (C74_signed_bytes_determine_the_type_refuted). *)
Theorem C74_signed_bytes_determine_the_fields_partial t base k k' b :
  In (t, base) cert_specs -> is_key t k -> k_kind k = KPub -> is_key t k' -> k_kind k' = KPub ->
  pack_signed_bytes (k_pcls k) (k_params k) = Ok b ->
  pack_signed_bytes (k_pcls k') (k_params k') = Ok b <->
  forall x, In x (map fst (cert_signed base)) -> dget x (k_params k') = dget x (k_params k).
Proof.
  intros Hs Hk Kd Hk' Kd' H. split.
  - intros H'. destruct (C48_signed_layout _ _ _ _ Hs Hk Kd H) as (vs & (Dv & Rv) & R). destruct (C48_signed_layout _ _ _ _ Hs Hk' Kd' H') as (vs' & (Dv' & Rv') & R').
    apply record_canonical_wire in R. apply record_canonical_wire in R'.
    destruct (record_prefix_free _ _ _ _ _ [] [] R R' eq_refl) as (_ & <- & _).
    intros x X. rewrite <- (Rv x X), <- (Rv' x X). reflexivity.
  - intros E. destruct Hk as (_ & Hc), Hk' as (_ & Hc'). rewrite Kd in Hc. rewrite Kd' in Hc'. cbn [params_class] in Hc, Hc'.
    assert (k_pcls k' = k_pcls k) as -> by congruence. destruct (cert_class _ _ Hs) as (c & A & _ & F & _). assert (c = k_pcls k) as -> by congruence.
    unfold pack_signed_bytes in *. rewrite pack_with_dict in *. rewrite <- H. apply dict_bytes_same. intros x X. apply E. rewrite <- (format_keys _ _ F). exact X.
Qed.
(** In particular another signature does not change the signed bytes, and any other change of
    a field changes them or makes them impossible to pack. *)
Theorem C74_signature_is_not_covered t base k v :
  In (t, base) cert_specs -> is_key t k -> k_kind k = KPub ->
  pack_signed_bytes (k_pcls k) (dset (str "signature") v (k_params k)) = pack_signed_bytes (k_pcls k) (k_params k).
Proof.
  intros Hs (_ & Hc) Kd. rewrite Kd in Hc. cbn [params_class] in Hc. destruct (cert_class _ _ Hs) as (c & A & _ & F & N & _).
  assert (c = k_pcls k) as -> by congruence. unfold pack_signed_bytes. rewrite !pack_with_dict. apply dict_bytes_same. intros x X.
  apply dget_dset_other. intros ->. rewrite (format_keys _ _ F) in X.
  cbn [cert_specs In] in Hs. repeat (destruct Hs as [Hs|Hs]; [injection Hs as <- <-; vm_compute in X; intuition discriminate|]). exact Hs.
Qed.
Theorem C74_every_other_change_shows t base k x v b b' :
  In (t, base) cert_specs -> is_key t k -> k_kind k = KPub ->
  In x (map fst (cert_signed base)) -> dget x (k_params k) <> Some v ->
  pack_signed_bytes (k_pcls k) (k_params k) = Ok b ->
  pack_signed_bytes (k_pcls k) (dset x v (k_params k)) = Ok b' -> b' <> b.
Proof.
  intros Hs Hk Kd X Nv H H' ->.
  set (k' := mkkey KPub (k_header k) (k_pcls k) (dset x v (k_params k)) (k_footer k) (k_clear k)).
  assert (is_key t k') as Hk' by (destruct Hk as (A & B); split; [exact A|rewrite Kd in B; exact B]).
  pose proof (proj1 (C74_signed_bytes_determine_the_fields_partial _ _ _ _ _ Hs Hk Kd Hk' eq_refl H) H' x X) as E.
  unfold k' in E. cbn [k_params] in E. rewrite dget_dset_same in E. congruence.
Qed.
(** A certificate that is packed and parsed has the same signed bytes and signature: what was
    verified before is what is verified after. *)
Theorem C74_signed_bytes_survive ec t base k h ps fo cl l b body :
  In (t, base) cert_specs -> new_key ec (parse_pub ec) KPub h ps fo cl = (l, Ok k) -> is_key t k ->
  pack_public_bytes k = Ok b -> Z.of_nat (length b) <= ssize_max ->
  pack_signed_bytes (k_pcls k) (k_params k) = Ok body ->
  exists k', key_from_bytes ec KPub b None = (l, Ok k') /\ is_key t k' /\
    pack_signed_bytes (k_pcls k') (k_params k') = Ok body /\
    dget (str "signature") (k_params k') = dget (str "signature") (k_params k).
Proof.
  intros Hs Nk Hk H L Hb. pose proof (cert_spec_key _ _ Hs) as Hk0.
  destruct (C17_constructed_keys_have_types _ _ _ _ _ _ _ _ Nk) as (Kd & _).
  destruct (C17_constructed_public_key_roundtrip _ _ _ _ _ _ _ _ _ _ _ Hk0 Nk Hk H L) as (k' & E & Kd' & Hk' & _ & (Dk & Rk) & _).
  exists k'. split; [exact E|]. split; [exact Hk'|]. unfold cert_fields in Rk. split.
  - apply (proj2 (C74_signed_bytes_determine_the_fields_partial _ _ _ _ _ Hs Hk Kd Hk' Kd' Hb)). intros x X. apply Rk. rewrite map_app. apply in_or_app. left. exact X.
  - apply Rk. rewrite map_app. apply in_or_app. right. left. reflexivity.
Qed.

(** ** Certificates of different types *)
(** The signed bytes do not name the type. An RSA certificate and a security key's certificate
    that both pack, parse back without a warning and have the same signed bytes. *)
Definition tail_params : dict pyval :=
  [(str "serial", VInt 7); (str "type", VInt 1); (str "key_id", VStr (str "id")); (str "valid_principals", VBytes []);
   (str "valid_after", VInt 0); (str "valid_before", VInt 1000); (str "critical_options", VBytes []);
   (str "extensions", VBytes []); (str "reserved", VBytes []); (str "signature_key", VBytes ex_ca_bytes); (str "signature", VBytes (bstr "sig"))].
Definition ex_rsa_cert : key :=
  mkkey KPub [(str "key_type", VStr (str "ssh-rsa-cert-v01@openssh.com"))] CertRSA
    ([(str "nonce", VBytes (bstr "nonce")); (str "e", VInt (int_from_bytes ex_ed_pub true)); (str "n", VInt (int_from_bytes (bstr "ssh:") true))] ++ tail_params) [] [].
Definition ex_sk_cert : key :=
  mkkey KPub [(str "key_type", VStr (str "sk-ssh-ed25519-cert-v01@openssh.com"))] CertSKEd
    ([(str "nonce", VBytes (bstr "nonce")); (str "public", VBytes ex_ed_pub); (str "application", VStr (str "ssh:"))] ++ tail_params) [] [].
Theorem C74_signed_bytes_determine_the_type_refuted :
  exists k k' t t' b b' body,
    key_from_bytes (fun _ _ => true) KPub b None = ([], Ok k) /\ key_from_bytes (fun _ _ => true) KPub b' None = ([], Ok k') /\
    is_key t k /\ is_key t' k' /\ t <> t' /\
    pack_signed_bytes (k_pcls k) (k_params k) = Ok body /\ pack_signed_bytes (k_pcls k') (k_params k') = Ok body.
Proof.
  exists ex_rsa_cert, ex_sk_cert, (str "ssh-rsa-cert-v01@openssh.com"), (str "sk-ssh-ed25519-cert-v01@openssh.com").
  eexists (match pack_public_bytes ex_rsa_cert with Ok b => b | Err _ => [] end), (match pack_public_bytes ex_sk_cert with Ok b => b | Err _ => [] end),
    (match pack_signed_bytes CertRSA (k_params ex_rsa_cert) with Ok b => b | Err _ => [] end).
  split; [vm_compute; reflexivity|]. split; [vm_compute; reflexivity|].
  split; [split; vm_compute; reflexivity|]. split; [split; vm_compute; reflexivity|]. split; [discriminate|]. split; vm_compute; reflexivity.
Qed.
Example C74_example :
  In (str "ssh-ed25519-cert-v01@openssh.com", ed25519_public) cert_specs /\
  is_key (str "ssh-ed25519-cert-v01@openssh.com") ex_cert /\ k_kind ex_cert = KPub /\
  In (str "serial") (map fst (cert_signed ed25519_public)) /\
  exists b b', pack_signed_bytes CertEd (k_params ex_cert) = Ok b /\
    pack_signed_bytes CertEd (dset (str "serial") (VInt 99) (k_params ex_cert)) = Ok b' /\ b <> b' /\
    pack_signed_bytes CertEd (dset (str "signature") (VBytes []) (k_params ex_cert)) = Ok b.
Proof.
  split; [right; right; left; reflexivity|]. split; [split; vm_compute; reflexivity|]. split; [reflexivity|].
  split; [right; right; left; reflexivity|]. do 2 eexists. split; [vm_compute; reflexivity|]. split; [vm_compute; reflexivity|].
  split; [discriminate|vm_compute; reflexivity].
Qed.

Print Assumptions C74_signed_bytes_determine_the_fields_partial.
Print Assumptions C74_signature_is_not_covered.
Print Assumptions C74_every_other_change_shows.
Print Assumptions C74_signed_bytes_survive.
Print Assumptions C74_signed_bytes_determine_the_type_refuted.
