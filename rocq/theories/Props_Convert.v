(** Properties of conversions to and from key objects of other packages (C56). *)
From Verif Require Import PyBase IntBytes Utf8 StructFmt Stream Text Classes Key Convert.
From Verif Require Import SpecWire SpecKey SpecConvert.
From Verif Require Import ProofBase ProofKey ProofConvert.
Open Scope Z_scope.

Section C56.
Variable x : ext.

(** For each of the six plain key types, public or private: an object the type can be made
    from gives an object of the receiving class holding exactly the specified values, without
    warnings if the object is valid; every other object is refused with ValueError. *)
Theorem C56_convert_from f kd c o :
  params_class kd (VStr (family_type f)) = Ok c ->
  match values x f kd o with
  | Some v => exists l, convert_from x c o = (l, Ok (c, v)) /\ (valid_object x o -> l = [])
  | None => convert_from x c o = ([], Err ValueError)
  end.
Proof.
  intros Hc. apply class_of_spec in Hc. subst c. destruct (values x f kd o) as [v|] eqn:E.
  - apply convert_from_values. exact E.
  - apply convert_from_no_values. exact E.
Qed.
(** The specified values are exactly the fields of the key type, in order. *)
Theorem C56_fields f kd o v :
  values x f kd o = Some v ->
  exists pub priv, In (family_type f, (pub, Some priv)) key_specs /\
    dkeys v = map fst (match kd with KPub => pub | KPriv => priv end).
Proof.
  intros Hv. destruct f as [| |[]|];
  (eexists _, _; split; [unfold key_specs, plain_specs; cbn [map app fst snd In family_type]; eauto 12|]);
  destruct o, kd; cbn [values public_values private_values] in Hv; try discriminate;
  try (match type of Hv with (if ?b then _ else _) = _ => destruct b; [|discriminate] end);
  injection Hv as <-; reflexivity.
Qed.

(** Security key and certificate classes: KeyError, naming a field of the type that the
    underlying type does not have, for an object that is a public key of the underlying
    type, ValueError for every other object; never a result. *)
Definition special_types : list (pystr * family) :=
  [(str "sk-ecdsa-sha2-nistp256@openssh.com", FamEC P256);
   (str "sk-ssh-ed25519@openssh.com", FamEd);
   (str "ssh-rsa-cert-v01@openssh.com", FamRSA);
   (str "ssh-dss-cert-v01@openssh.com", FamDSS);
   (str "ssh-ed25519-cert-v01@openssh.com", FamEd);
   (str "ecdsa-sha2-nistp256-cert-v01@openssh.com", FamEC P256);
   (str "ecdsa-sha2-nistp384-cert-v01@openssh.com", FamEC P384);
   (str "ecdsa-sha2-nistp521-cert-v01@openssh.com", FamEC P521);
   (str "sk-ssh-ed25519-cert-v01@openssh.com", FamEd);
   (str "sk-ecdsa-sha2-nistp256-cert-v01@openssh.com", FamEC P256)].
Lemma special_missing t f kd c :
  In (t, f) special_types -> params_class kd (VStr t) = Ok c ->
  exists pub priv, In (t, (pub, priv)) key_specs /\ In (missing_field c) (map fst pub) /\
    forall bpub bpriv, In (family_type f, (bpub, bpriv)) key_specs -> ~ In (missing_field c) (map fst bpub).
Proof.
  intros Ht Hc.
  assert (existsb (fun s => str_eqb t (fst s) && str_mem (missing_field c) (map fst (fst (snd s)))) key_specs &&
          forallb (fun s => negb (str_eqb (family_type f) (fst s)) || negb (str_mem (missing_field c) (map fst (fst (snd s))))) key_specs = true) as H.
  { unfold special_types in Ht. cbn [In] in Ht.
    repeat (destruct Ht as [Ht|Ht]; [injection Ht as <- <-; destruct kd; vm_compute in Hc; try discriminate; injection Hc as <-; vm_compute; reflexivity|]). contradiction. }
  apply andb_true_iff in H as (H1 & H2). apply existsb_exists in H1 as ((t' & (pub & priv)) & Hs & H1). cbn [fst snd] in H1.
  apply andb_true_iff in H1 as (E & M). destruct (str_eqb_reflect t t') as [<-|]; [|discriminate].
  exists pub, priv. split; [exact Hs|]. split; [apply str_mem_In; exact M|].
  intros bpub bpriv Hb I. rewrite forallb_forall in H2. specialize (H2 _ Hb). cbn [fst snd] in H2.
  rewrite str_eqb_refl in H2. cbn [negb orb] in H2. apply str_mem_In in I. rewrite I in H2. discriminate.
Qed.
Theorem C56_security_keys_and_certificates t f kd c o :
  In (t, f) special_types -> params_class kd (VStr t) = Ok c ->
  exists e, convert_from x c o = ([], Err e) /\
    ((exists ty, obj_type o = Some ty /\ In ty (foreign_types x f KPub)) /\ public_values x f o <> None ->
       exists k pub priv, e = KeyError (VStr k) /\ In (t, (pub, priv)) key_specs /\ In k (map fst pub) /\
         forall bpub bpriv, In (family_type f, (bpub, bpriv)) key_specs -> ~ In k (map fst bpub)) /\
    (~ ((exists ty, obj_type o = Some ty /\ In ty (foreign_types x f KPub)) /\ public_values x f o <> None) -> e = ValueError).
Proof.
  intros Ht Hc.
  assert (In (c, f) special_classes) as Hs.
  { unfold special_types in Ht. cbn [In] in Ht.
    repeat (destruct Ht as [Ht|Ht]; [injection Ht as <- <-; destruct kd; vm_compute in Hc; try discriminate; injection Hc as <-; unfold special_classes; cbn [In]; eauto 20|]). contradiction. }
  eexists. split; [apply special_convert_from; exact Hs|]. unfold public_object.
  assert (forall a b, ext_type_eqb a b = true <-> a = b) as Eq by (intros [] []; cbn; split; congruence).
  split.
  - intros ((ty & -> & Hin) & N). destruct (public_values x f o); [|contradiction].
    assert (existsb (ext_type_eqb ty) (foreign_types x f KPub) = true) as ->;
      [|destruct (special_missing _ _ _ _ Ht Hc) as (pub & priv & A); exists (missing_field c), pub, priv; auto].
    apply existsb_exists. exists ty. split; [exact Hin|]. apply Eq. reflexivity.
  - intros N. destruct (obj_type o) as [ty|] eqn:T; [|reflexivity]. destruct (public_values x f o); [|reflexivity].
    destruct (existsb (ext_type_eqb ty) (foreign_types x f KPub)) eqn:E; [|reflexivity]. exfalso. apply N.
    apply existsb_exists in E as (ty' & Hin & E). apply Eq in E. subst ty'. split; [eauto|discriminate].
Qed.

(** ** convert_to *)
(** Only classes are accepted. *)
Theorem C56_not_a_class c d : convert_to x c d DNotClass = Err ValueError.
Proof. reflexivity. Qed.
(** A class that none of the key's foreign types belongs to is refused. *)
Theorem C56_unsupported_destination f kd c d super :
  params_class kd (VStr (family_type f)) = Ok c ->
  (forall t, In t (foreign_types x f KPub) -> super t = false) ->
  (kd = KPriv -> forall t, In t (foreign_types x f KPriv) -> super t = false) ->
  convert_to x c d (DClass super) = Err ValueError.
Proof.
  intros Hc H1 H2. apply class_of_spec in Hc. subst c. rewrite convert_to_eq.
  destruct (find _ _) as [cv|] eqn:E; [|reflexivity]. exfalso.
  apply find_some in E as (Hin & E).
  assert (In (cv_type cv) (foreign_types x f KPub) \/ (kd = KPriv /\ In (cv_type cv) (foreign_types x f KPriv))) as [K|[K1 K2]].
  { destruct f as [| |cc|], kd; cbn [all_conversions foreign_types] in *; unfold convs_ed_pub, convs_ed_priv in Hin;
    try (destruct (x_nacl x)); cbn [In app] in *;
    repeat (destruct Hin as [<-|Hin]; [cbn [cv_type conv_rsa_pub conv_rsa_priv conv_dsa_pub conv_dsa_priv conv_ec_pub conv_ec_priv]; tauto|]); contradiction. }
  - rewrite (H1 _ K) in E. discriminate.
  - rewrite (H2 K1 _ K2) in E. discriminate.
Qed.

Ltac inv_to H := repeat (match type of H with
  | rbind ?e _ = Ok _ => let E := fresh "E" in destruct e eqn:E; cbn [rbind] in H; [|discriminate H]
  | (if ?b then _ else _) = Ok _ => let E := fresh "E" in destruct b eqn:E; try discriminate H
  end); try (injection H as <-).
Lemma ditem_get {A} k (d : dict A) v : ditem k d = Ok v -> dget k d = Some v.
Proof. unfold ditem. destruct (dget k d); [|discriminate]. intros H. injection H as <-. reflexivity. Qed.
Lemma want_int_ok v z : want_int v = Ok z -> v = VInt z.
Proof. destruct v; cbn; try discriminate. intros H. injection H as <-. reflexivity. Qed.
Lemma want_bytes_ok v z : want_bytes v = Ok z -> v = VBytes z.
Proof. destruct v; cbn; try discriminate. intros H. injection H as <-. reflexivity. Qed.
Lemma raw32_ok b b' : raw32 b = Ok b' -> b' = b /\ Z.of_nat (length b) = 32.
Proof.
  unfold raw32. destruct (length b =? ed_key_size)%nat eqn:E; [|discriminate]. intros H. injection H as <-.
  split; [reflexivity|]. apply Nat.eqb_eq in E. change ed_key_size with 32%nat in E. lia.
Qed.
Lemma ed_seed_bytes d b : dget (str "private_public") d = Some (VBytes b) -> ed_seed d = Ok (VBytes (firstn 32 b)).
Proof. intros E. unfold ed_seed, ditem. rewrite E. reflexivity. Qed.
Lemma curve_of_class cv kd : curve_of (class_of (FamEC cv) kd) = Some cv.
Proof. destruct cv, kd; vm_compute; reflexivity. Qed.
Lemma ec_point_ok cv kd v k pt : ec_point_of x (class_of (FamEC cv) kd) v = Ok (k, pt) ->
  k = cv /\ exists q, v = VBytes q /\ x_ec_point x cv q = Some pt.
Proof.
  unfold ec_point_of. rewrite curve_of_class. destruct (want_bytes v) as [b|] eqn:W; cbn [rbind]; [|discriminate].
  apply want_bytes_ok in W. subst v. destruct (x_ec_point x cv b) as [p|] eqn:E; [|discriminate]. intros H. injection H as <- <-. eauto.
Qed.
Ltac to_facts := repeat (match goal with
  | H : ditem _ _ = Ok _ |- _ => apply ditem_get in H
  | H : want_int ?v = Ok _ |- _ => apply want_int_ok in H; subst v
  | H : want_bytes ?v = Ok _ |- _ => apply want_bytes_ok in H; subst v
  end).
Ltac holds_tac := let k := fresh "k" in let w := fresh "w" in let K := fresh "K" in
  intros k w K; cbn [dget] in K;
  repeat (match type of K with (if str_eqb k ?s then _ else _) = _ =>
    destruct (str_eqb_reflect k s) as [->|]; [injection K as <-; assumption|] end); discriminate.
Lemma firstn_seed (s p : bytes) : Z.of_nat (length s) = 32 -> firstn 32 (s ++ p) = s.
Proof. intros L. replace 32%nat with (length s + 0)%nat by lia. rewrite firstn_app_2. cbn [firstn]. apply app_nil_r. Qed.
Lemma find_cases {A} (p : A -> bool) a l : find p (a :: l) = if p a then Some a else find p l.
Proof. reflexivity. Qed.

Lemma ditem_here {A} k (v : A) d : ditem k ((k, v) :: d) = Ok v.
Proof. unfold ditem. cbn [dget]. rewrite str_eqb_refl. reflexivity. Qed.
Lemma ditem_there {A} k k' (v : A) d : str_eqb k k' = false -> ditem k ((k', v) :: d) = ditem k d.
Proof. intros E. unfold ditem. cbn [dget]. rewrite E. reflexivity. Qed.
Ltac items := repeat (first [rewrite ditem_here | rewrite ditem_there by reflexivity]).
Lemma class_identifier cv kd : class_curve_identifier (class_of (FamEC cv) kd) = nist_curve cv.
Proof. destruct cv, kd; vm_compute; reflexivity. Qed.

(** What one conversion function of a plain class makes of parameters that describe a key. *)
Definition made (f : family) (kd : kind) (ty : ext_type) (d : dict pyval) (o : obj) : Prop :=
  obj_type o = Some ty /\ exists v, values x f kd o = Some v /\ holds d v.
Lemma made_rsa_pub d o : cv_to (conv_rsa_pub x) d = Ok o -> made FamRSA KPub TyRSAPub d o.
Proof. intros H. cbn [cv_to conv_rsa_pub] in H. inv_to H. to_facts. split; [reflexivity|]. eexists. split; [reflexivity|]. holds_tac. Qed.
Lemma made_rsa_priv d o : cv_to (conv_rsa_priv x) d = Ok o -> made FamRSA KPriv TyRSAPriv d o.
Proof. intros H. cbn [cv_to conv_rsa_priv] in H. inv_to H. to_facts. split; [reflexivity|]. eexists. split; [reflexivity|]. holds_tac. Qed.
Lemma made_dsa_pub d o : cv_to (conv_dsa_pub x) d = Ok o -> made FamDSS KPub TyDSAPub d o.
Proof. intros H. cbn [cv_to conv_dsa_pub] in H. inv_to H. to_facts. split; [reflexivity|]. eexists. split; [reflexivity|]. holds_tac. Qed.
Lemma made_dsa_priv d o : cv_to (conv_dsa_priv x) d = Ok o -> made FamDSS KPriv TyDSAPriv d o.
Proof. intros H. cbn [cv_to conv_dsa_priv] in H. inv_to H. to_facts. split; [reflexivity|]. eexists. split; [reflexivity|]. holds_tac. Qed.
Lemma curve_name_sec c : curve_name c = sec_curve c.
Proof. destruct c; reflexivity. Qed.
Lemma made_ec_pub cv kd d o : consistent x (FamEC cv) kd d ->
  cv_to (conv_ec_pub x (class_of (FamEC cv) KPub)) d = Ok o -> made (FamEC cv) KPub TyECPub d o.
Proof.
  intros (Ci & Cq) H. cbn [cv_to conv_ec_pub] in H. inv_to H. to_facts.
  destruct a1 as [k pt]. match goal with E : ec_point_of _ _ _ = _ |- _ => apply ec_point_ok in E as (-> & q & -> & E) end.
  specialize (Cq q ltac:(assumption)). assert (pt = q) as -> by congruence.
  cbn [fst snd]. split; [reflexivity|]. exists [(str "identifier", VStr (nist_curve cv)); (str "q", VBytes q)].
  split; [|holds_tac]. cbn [values public_values]. rewrite curve_name_sec, str_eqb_refl. reflexivity.
Qed.
Lemma made_ec_priv cv kd d o : consistent x (FamEC cv) kd d ->
  cv_to (conv_ec_priv x (class_of (FamEC cv) KPriv)) d = Ok o -> made (FamEC cv) KPriv TyECPriv d o.
Proof.
  intros (Ci & Cq) H. cbn [cv_to conv_ec_priv] in H. inv_to H. to_facts.
  destruct a1 as [k pt]. match goal with E : ec_point_of _ _ _ = _ |- _ => apply ec_point_ok in E as (-> & q & -> & E) end.
  specialize (Cq q ltac:(assumption)). assert (pt = q) as -> by congruence.
  cbn [fst snd]. split; [reflexivity|]. eexists.
  split; [cbn [values private_values]; rewrite curve_name_sec, str_eqb_refl; reflexivity|]. holds_tac.
Qed.
Lemma made_ed_pub cv d o : In cv (convs_ed_pub x) -> consistent x FamEd KPub d ->
  cv_to cv d = Ok o -> made FamEd KPub (cv_type cv) d o.
Proof.
  unfold convs_ed_pub. intros Hin C H. cbn [consistent] in C. unfold made. cbn [values public_values].
  destruct (x_nacl x); cbn [app In] in Hin;
  repeat (destruct Hin as [<-|Hin]; [cbn [cv_to cv_type] in *; inv_to H; to_facts; try (match goal with E : dget _ _ = Some _ |- _ => destruct (C _ E) as (? & ->) end);
     try (match goal with E : py_bytes _ = Ok _ |- _ => injection E as -> end); try (match goal with E : raw32 _ = Ok _ |- _ => apply raw32_ok in E as (-> & E) end);
     split; [reflexivity|]; eexists; split; [reflexivity|]; holds_tac|]); contradiction.
Qed.
Lemma made_ed_priv cv d o : In cv (convs_ed_priv x) -> consistent x FamEd KPriv d ->
  cv_to cv d = Ok o -> made FamEd KPriv (cv_type cv) d o.
Proof.
  unfold convs_ed_priv. intros Hin (s & L & Cp & Cb) H. unfold made. cbn [values private_values].
  pose proof (ed_seed_bytes _ _ Cb) as S. rewrite (firstn_seed _ _ L) in S.
  assert ((length s =? 32)%nat = true) as L' by (apply Nat.eqb_eq; lia).
  destruct (x_nacl x); cbn [app In] in Hin;
  repeat (destruct Hin as [<-|Hin]; [cbn [cv_to cv_type] in *; rewrite S in H; cbn [rbind want_bytes py_bytes py_prefix py_bytes] in H; inv_to H; try (match goal with E : raw32 _ = Ok _ |- _ => apply raw32_ok in E as (-> & E) end);
     split; [reflexivity|]; eexists; split; [rewrite ?L'; reflexivity|]; holds_tac|]); contradiction.
Qed.
Lemma consistent_public kd d : consistent x FamEd kd d -> consistent x FamEd KPub d.
Proof. destruct kd; [auto|]. cbn [consistent]. intros (s & _ & E & _) v E'. rewrite E in E'. injection E' as <-. eauto. Qed.
(** A successful conversion of parameters that describe a key returns an instance of the
    destination class, of one of the key's foreign types, holding the parameters' values; only
    private keys are converted to private objects. *)
Theorem C56_convert_to f kd c d t o :
  params_class kd (VStr (family_type f)) = Ok c -> consistent x f kd d ->
  convert_to x c d t = Ok o ->
  exists super ty kd' v, t = DClass super /\ super ty = true /\ obj_type o = Some ty /\
    In ty (foreign_types x f kd') /\ (kd' = KPriv -> kd = KPriv) /\
    values x f kd' o = Some v /\ holds d v.
Proof.
  intros Hc Hk H. apply class_of_spec in Hc. subst c. destruct t as [|super]; [discriminate|]. rewrite convert_to_eq in H.
  enough (exists ty kd', super ty = true /\ In ty (foreign_types x f kd') /\ (kd' = KPriv -> kd = KPriv) /\ made f kd' ty d o)
    as (ty & kd' & A & B & C & D & v & E & F) by (exists super, ty, kd', v; auto 10).
  destruct f as [| |cv|].
  - destruct kd; cbn [all_conversions find cv_type conv_rsa_pub conv_rsa_priv] in H.
    + destruct (super TyRSAPub) eqn:S; [|discriminate]. apply made_rsa_pub in H. exists TyRSAPub, KPub. cbn; auto.
    + destruct (super TyRSAPriv) eqn:S; [apply made_rsa_priv in H; exists TyRSAPriv, KPriv; cbn; auto|].
      destruct (super TyRSAPub) eqn:S'; [|discriminate]. apply made_rsa_pub in H. exists TyRSAPub, KPub. cbn. intuition discriminate.
  - destruct kd; cbn [all_conversions find cv_type conv_dsa_pub conv_dsa_priv] in H.
    + destruct (super TyDSAPub) eqn:S; [|discriminate]. apply made_dsa_pub in H. exists TyDSAPub, KPub. cbn; auto.
    + destruct (super TyDSAPriv) eqn:S; [apply made_dsa_priv in H; exists TyDSAPriv, KPriv; cbn; auto|].
      destruct (super TyDSAPub) eqn:S'; [|discriminate]. apply made_dsa_pub in H. exists TyDSAPub, KPub. cbn. intuition discriminate.
  - destruct kd; cbn [all_conversions find] in H.
    + change (cv_type (conv_ec_pub x (class_of (FamEC cv) KPub))) with TyECPub in H. change (cv_type (conv_ec_pub x ECDSAPub)) with TyECPub in H.
      destruct (super TyECPub) eqn:S; [|discriminate]. apply (made_ec_pub cv KPub) in H; [|exact Hk]. exists TyECPub, KPub. cbn; auto.
    + change (cv_type (conv_ec_pub x (class_of (FamEC cv) KPub))) with TyECPub in H. change (cv_type (conv_ec_pub x ECDSAPub)) with TyECPub in H.
      change (cv_type (conv_ec_priv x (class_of (FamEC cv) KPriv))) with TyECPriv in H. change (cv_type (conv_ec_priv x ECDSAPriv)) with TyECPriv in H.
      destruct (super TyECPriv) eqn:S; [apply (made_ec_priv cv KPriv) in H; [|exact Hk]; exists TyECPriv, KPriv; cbn; auto|].
      destruct (super TyECPub) eqn:S'; [|discriminate]. apply (made_ec_pub cv KPriv) in H; [|exact Hk]. exists TyECPub, KPub. cbn. intuition discriminate.
  - destruct (find _ _) as [cv|] eqn:E in H; [|discriminate]. apply find_some in E as (Hin & S).
    assert (In cv (convs_ed_pub x) \/ (kd = KPriv /\ In cv (convs_ed_priv x))) as [K|(-> & K)].
    { destruct kd; cbn [all_conversions] in Hin; [auto|]. apply in_app_or in Hin. tauto. }
    + exists (cv_type cv), KPub. split; [exact S|]. split; [|split; [discriminate|apply made_ed_pub; [assumption|exact (consistent_public _ _ Hk)|assumption]]].
      unfold convs_ed_pub in K. cbn [foreign_types]. destruct (x_nacl x); cbn [app In] in *; repeat (destruct K as [<-|K]; [cbn [cv_type]; tauto|]); contradiction.
    + exists (cv_type cv), KPriv. split; [exact S|]. split; [|split; [reflexivity|apply made_ed_priv; assumption]].
      unfold convs_ed_priv in K. cbn [foreign_types]. destruct (x_nacl x); cbn [app In] in *; repeat (destruct K as [<-|K]; [cbn [cv_type]; tauto|]); contradiction.
Qed.
(** The names of the numbers of an RSA or DSA key. *)
Definition numbers_of (f : family) (kd : kind) : list pystr :=
  match f, kd with
  | FamRSA, KPub => [str "e"; str "n"]
  | FamRSA, KPriv => [str "n"; str "e"; str "d"; str "iqmp"; str "p"; str "q"]
  | FamDSS, KPub => [str "p"; str "q"; str "g"; str "y"]
  | FamDSS, KPriv => [str "p"; str "q"; str "g"; str "y"; str "x"]
  | _, _ => []
  end.
Lemma want_int_not v : (forall z, v <> VInt z) -> want_int v = Err TypeError.
Proof. intros N. destruct v as [z| | | |]; [destruct (N z eq_refl)|reflexivity..]. Qed.
Lemma ditem_ok {A} k (d : dict A) v : dget k d = Some v -> ditem k d = Ok v.
Proof. intros E. unfold ditem. rewrite E. reflexivity. Qed.
(** An RSA or DSA key with a value that is not an int is not converted: TypeError. (Unless p or
    q is 1: then computing the exponents can raise ZeroDivisionError first.) *)
Theorem C56_not_integers f kd c d k v super ty :
  params_class kd (VStr (family_type f)) = Ok c -> foreign_types x f kd = [ty] -> super ty = true ->
  (forall k', In k' (numbers_of f kd) -> exists v', dget k' d = Some v') ->
  In k (numbers_of f kd) -> dget k d = Some v -> (forall z, v <> VInt z) ->
  convert_to x c d (DClass super) = Err TypeError \/
  (f = FamRSA /\ kd = KPriv /\ (dget (str "p") d = Some (VInt 1) \/ dget (str "q") d = Some (VInt 1)) /\
   convert_to x c d (DClass super) = Err OtherError).
Proof.
  intros Hc Ht Hs Ha Hk Hv Hn. apply class_of_spec in Hc. subst c. rewrite convert_to_eq. apply want_int_not in Hn.
  assert (forall v', want_int v' = Err TypeError \/ exists z, v' = VInt z) as W by (intros [z| | | |]; cbn [want_int]; eauto).
  destruct f as [| |cv|], kd; cbn [numbers_of] in Ha, Hk; try contradiction; cbn [foreign_types] in Ht; injection Ht as <-;
    cbn [all_conversions find cv_type conv_rsa_pub conv_rsa_priv conv_dsa_pub conv_dsa_priv]; rewrite Hs; cbn [cv_to conv_rsa_pub conv_rsa_priv conv_dsa_pub conv_dsa_priv];
    repeat (match type of Ha with forall k', In k' (?a :: ?l) -> _ =>
      let v := fresh "v" in let E := fresh "E" in destruct (Ha a (or_introl eq_refl)) as (v & E);
      assert (forall k', In k' l -> exists v', dget k' d = Some v') as Ha' by (intros k' K; apply Ha; right; exact K);
      clear Ha; rename Ha' into Ha; apply ditem_ok in E end); clear Ha;
    apply ditem_ok in Hv;
    repeat (match goal with E : ditem ?a d = Ok _ |- context [ditem ?a d] => rewrite E end); cbn [rbind];
    repeat (match goal with
      | |- context [want_int ?u] =>
          let E := fresh "E" in destruct (W u) as [E|(? & E)];
            [rewrite E; left; reflexivity|subst u; cbn [want_int rbind]]
      | |- context [rsa_crt ?a ?b] =>
          let E := fresh "E" in unfold rsa_crt at 1; destruct (Z.eqb_spec b 1) as [E|E];
            [right; subst b; repeat (split; [first [reflexivity|left; apply ditem_get; assumption|right; apply ditem_get; assumption]|]); reflexivity|cbn [rbind]]
      end);
    exfalso; cbn [In] in Hk;
    repeat (destruct Hk as [<-|Hk]; [match goal with E : ditem ?a d = Ok (VInt _), E' : ditem ?a d = Ok v |- _ =>
      rewrite E in E'; injection E' as <-; discriminate Hn end|]); contradiction.
Qed.
Lemma rsa_crt_ok d p z : rsa_crt d p = Ok z -> z = d mod (p - 1).
Proof. unfold rsa_crt. destruct (p =? 1); [discriminate|]. intros H. injection H as <-. reflexivity. Qed.
Lemma rsa_priv_exponents d o : cv_to (conv_rsa_priv x) d = Ok o ->
  match o with ORSAPriv n e pe dmp1 dmq1 iqmp p q => dmp1 = pe mod (p - 1) /\ dmq1 = pe mod (q - 1) | _ => False end.
Proof.
  intros H. cbn [cv_to conv_rsa_priv] in H. inv_to H.
  repeat (match goal with E : rsa_crt _ _ = Ok _ |- _ => apply rsa_crt_ok in E end). auto.
Qed.
(** The CRT exponents handed to the RSA object belong to its primes. *)
Theorem C56_rsa_exponents d t n e pe dmp1 dmq1 iqmp p q :
  convert_to x RSAPriv d t = Ok (ORSAPriv n e pe dmp1 dmq1 iqmp p q) ->
  dmp1 = pe mod (p - 1) /\ dmq1 = pe mod (q - 1).
Proof.
  destruct t as [|super]; [discriminate|]. change RSAPriv with (class_of FamRSA KPriv). rewrite convert_to_eq. cbn [all_conversions find].
  destruct (super (cv_type (conv_rsa_priv x))).
  - intros H. exact (rsa_priv_exponents _ _ H).
  - destruct (super _); [|discriminate]. cbn [cv_to conv_rsa_pub]. intros H. inv_to H. discriminate.
Qed.

Lemma own_made f kd d ty o :
  In ty (foreign_types x f kd) -> consistent x f kd d -> convert_to x (class_of f kd) d (exactly ty) = Ok o -> made f kd ty d o.
Proof.
  intros Hin Hk H. unfold exactly in H. rewrite convert_to_eq in H.
  destruct f as [| |cv|], kd; cbn [foreign_types all_conversions] in *.
  - destruct Hin as [<-|[]]. cbn [find cv_type conv_rsa_pub ext_type_eqb] in H. apply made_rsa_pub. exact H.
  - destruct Hin as [<-|[]]. cbn [find cv_type conv_rsa_priv ext_type_eqb] in H. apply made_rsa_priv. exact H.
  - destruct Hin as [<-|[]]. cbn [find cv_type conv_dsa_pub ext_type_eqb] in H. apply made_dsa_pub. exact H.
  - destruct Hin as [<-|[]]. cbn [find cv_type conv_dsa_priv ext_type_eqb] in H. apply made_dsa_priv. exact H.
  - destruct Hin as [<-|[]]. cbn [find cv_type conv_ec_pub ext_type_eqb] in H. apply (made_ec_pub cv KPub); [exact Hk|exact H].
  - destruct Hin as [<-|[]]. cbn [find cv_type conv_ec_priv ext_type_eqb] in H. apply (made_ec_priv cv KPriv); [exact Hk|exact H].
  - destruct (find _ _) as [cv|] eqn:E in H; [|discriminate]. apply find_some in E as (I1 & S).
    assert (cv_type cv = ty) as <- by (destruct ty, (cv_type cv); (reflexivity || discriminate S)). apply made_ed_pub; assumption.
  - destruct (find _ (convs_ed_priv x ++ _)) as [cv|] eqn:E in H; [|discriminate].
    assert (In cv (convs_ed_priv x) /\ cv_type cv = ty) as (I1 & <-).
    { unfold convs_ed_priv in E |- *. destruct (x_nacl x); cbn [app In] in Hin |- *.
      - destruct Hin as [<-|[<-|[<-|[]]]]; cbn [app find cv_type ext_type_eqb] in E; injection E as <-; auto.
      - destruct Hin as [<-|[<-|[]]]; cbn [app find cv_type ext_type_eqb] in E; injection E as <-; auto. }
    apply made_ed_priv; assumption.
Qed.
(** convert_from(convert_to(p)) returns p's parameters. *)
Theorem C56_roundtrip f kd c d ty o :
  params_class kd (VStr (family_type f)) = Ok c -> consistent x f kd d ->
  In ty (foreign_types x f kd) -> convert_to x c d (exactly ty) = Ok o ->
  exists l v pub priv, convert_from x c o = (l, Ok (c, v)) /\ obj_type o = Some ty /\
    In (family_type f, (pub, Some priv)) key_specs /\
    dkeys v = map fst (match kd with KPub => pub | KPriv => priv end) /\
    forall k, In k (dkeys v) -> dget k v = dget k d /\ dget k d <> None.
Proof.
  intros Hc Hk Hin H. apply class_of_spec in Hc. subst c.
  destruct (own_made f kd d ty o Hin Hk H) as (T & v & Hv & Hh).
  destruct (convert_from_values x f kd o v Hv) as (l & E & _). destruct (C56_fields f kd o v Hv) as (pub & priv & Hs & Ek).
  exists l, v, pub, priv. split; [exact E|]. split; [exact T|]. split; [exact Hs|]. split; [exact Ek|].
  intros k Ik. destruct (dget k v) as [w|] eqn:G; [rewrite (Hh _ _ G); split; congruence|].
  exfalso. apply (proj1 (dget_None _ _)) in G. contradiction.
Qed.
(** The packages accept the numbers of the object, and it has the CRT exponents of its primes. *)
Definition constructible (o : obj) : Prop :=
  match o with
  | ORSAPub n e => x_rsa_pub x e n = Ok tt
  | ORSAPriv n e d dmp1 dmq1 iqmp p q =>
      x_rsa_priv x p q d dmp1 dmq1 iqmp e n = Ok tt /\ p <> 1 /\ q <> 1 /\
      dmp1 = d mod (p - 1) /\ dmq1 = d mod (q - 1)
  | ODSAPub p q g y => x_dsa_pub x y p q g = Ok tt
  | ODSAPriv p q g y xv => x_dsa_priv x xv y p q g = Ok tt
  | OECPub name pt => forall c, name = sec_curve c -> x_ec_point x c pt = Some pt
  | OECPriv name pt d => forall c, name = sec_curve c -> x_ec_point x c pt = Some pt /\ x_ec_priv x c d pt = Ok tt
  | OEdPub b | OVerifyKey b => Z.of_nat (length b) = 32
  | OEdPriv s | OSigningKey s => Z.of_nat (length s) = 32
  | OBytes _ => True
  | OOther _ => False
  end.
(** convert_to(convert_from(o)) returns o. *)
Theorem C56_object_roundtrip f kd c o ty v :
  params_class kd (VStr (family_type f)) = Ok c ->
  obj_type o = Some ty -> In ty (foreign_types x f kd) -> constructible o -> values x f kd o = Some v ->
  convert_to x c v (exactly ty) = Ok o.
Proof.
  intros Hc T Hin C Hv. apply class_of_spec in Hc. subst c. unfold exactly. rewrite convert_to_eq.
  assert (forall b, Z.of_nat (length b) = 32 -> raw32 b = Ok b) as R.
  { intros b L. unfold raw32. replace (length b =? ed_key_size)%nat with true; [reflexivity|]. symmetry. apply Nat.eqb_eq. change ed_key_size with 32%nat. lia. }
  destruct f as [| |cv|], kd; destruct o; cbn [values public_values private_values] in Hv; try discriminate; cbn [obj_type] in T; injection T as <-;
    cbn [foreign_types In] in Hin; try (intuition discriminate);
    cbn [all_conversions find cv_type conv_rsa_pub conv_rsa_priv conv_dsa_pub conv_dsa_priv conv_ec_pub conv_ec_priv ext_type_eqb cv_to constructible] in *.
  - injection Hv as <-. items. cbn [rbind want_int]. rewrite C. reflexivity.
  - injection Hv as <-. items. cbn [rbind want_int]. destruct C as (C & Np & Nq & -> & ->). unfold rsa_crt.
    destruct (Z.eqb_spec p 1); [contradiction|]. destruct (Z.eqb_spec q 1); [contradiction|]. cbn [rbind]. items. cbn [rbind want_int]. rewrite C. reflexivity.
  - injection Hv as <-. items. cbn [rbind want_int]. rewrite C. reflexivity.
  - injection Hv as <-. items. cbn [rbind want_int]. rewrite C. reflexivity.
  - destruct (str_eqb_reflect name (sec_curve cv)) as [->|]; [|discriminate]. injection Hv as <-. items. cbn [rbind].
    rewrite class_identifier, val_eqb_refl. cbn [negb]. items. cbn [rbind]. unfold ec_point_of. rewrite curve_of_class. cbn [want_bytes rbind].
    rewrite (C cv eq_refl). cbn [rbind fst snd]. rewrite curve_name_sec. reflexivity.
  - destruct (str_eqb_reflect name (sec_curve cv)) as [->|]; [|discriminate]. injection Hv as <-. items. cbn [rbind].
    unfold ec_point_of. rewrite curve_of_class. cbn [want_bytes rbind]. destruct (C cv eq_refl) as (C1 & C2).
    rewrite C1. cbn [rbind fst snd want_int]. rewrite C2. cbn [rbind]. rewrite curve_name_sec. reflexivity.
  - injection Hv as <-. unfold convs_ed_pub. cbn [app find cv_type ext_type_eqb cv_to]. items. cbn [rbind want_bytes py_bytes py_prefix]. rewrite (R _ C). reflexivity.
  - exfalso. destruct (x_nacl x); cbn in Hin; intuition discriminate.
  - unfold convs_ed_pub. destruct (x_nacl x); [|discriminate]. injection Hv as <-. cbn [app find cv_type ext_type_eqb cv_to]. items. cbn [rbind want_bytes py_bytes py_prefix]. rewrite (R _ C). reflexivity.
  - exfalso. destruct (x_nacl x); cbn in Hin; intuition discriminate.
  - injection Hv as <-. unfold convs_ed_pub. cbn [app find cv_type ext_type_eqb cv_to]. items. reflexivity.
  - injection Hv as <-. unfold convs_ed_priv. cbn [app find cv_type ext_type_eqb cv_to]. unfold ed_seed. items. cbn [rbind want_bytes py_bytes py_prefix].
    change ed_key_size with 32%nat. rewrite (firstn_seed _ _ C), (R _ C). reflexivity.
  - unfold convs_ed_priv. destruct (x_nacl x); [|discriminate]. injection Hv as <-. cbn [app find cv_type ext_type_eqb cv_to]. unfold ed_seed. items. cbn [rbind want_bytes py_bytes py_prefix].
    change ed_key_size with 32%nat. rewrite (firstn_seed _ _ C), (R _ C). reflexivity.
  - destruct (Nat.eqb_spec (length b) 32) as [L|]; [|discriminate]. injection Hv as <-. unfold convs_ed_priv. cbn [app find cv_type ext_type_eqb cv_to]. unfold ed_seed. items. cbn [rbind want_bytes py_bytes py_prefix].
    change ed_key_size with 32%nat. rewrite firstn_seed by lia. reflexivity.
Qed.
(** Against the property: an Ed25519 private key whose stored public half is not the one its
    seed determines (checked by C52 only for equality of the two stored copies) is accepted by
    convert_to, and convert_from then returns another public key. *)
Theorem C56_inconsistent_refuted s other :
  Z.of_nat (length s) = 32 -> other <> x_ed_derive x s ->
  exists d o l v, dget (str "public") d = Some (VBytes other) /\
    dget (str "private_public") d = Some (VBytes (s ++ other)) /\
    convert_to x EdPriv d (exactly TyEdPriv) = Ok o /\ convert_from x EdPriv o = (l, Ok (EdPriv, v)) /\
    dget (str "public") v <> dget (str "public") d.
Proof.
  intros L N. exists [(str "public", VBytes other); (str "private_public", VBytes (s ++ other))], (OEdPriv s).
  destruct (convert_from_values x FamEd KPriv (OEdPriv s) _ eq_refl) as (l & E & _). cbn [class_of] in E.
  do 2 eexists. split; [reflexivity|]. split; [reflexivity|]. split; [|split; [exact E|]].
  - change EdPriv with (class_of FamEd KPriv). unfold exactly. rewrite convert_to_eq. cbn [all_conversions]. unfold convs_ed_priv. cbn [app find cv_type ext_type_eqb cv_to].
    unfold ed_seed. items. cbn [rbind want_bytes py_bytes py_prefix]. change ed_key_size with 32%nat. rewrite (firstn_seed _ _ L).
    unfold raw32. replace (length s =? ed_key_size)%nat with true; [reflexivity|]. symmetry. apply Nat.eqb_eq. change ed_key_size with 32%nat. lia.
  - cbn [dget]. rewrite str_eqb_refl. congruence.
Qed.
(** A point in another encoding comes back uncompressed. *)
Theorem C56_point_encoding cv d q q' o :
  dget (str "identifier") d = Some (VStr (nist_curve cv)) -> dget (str "q") d = Some (VBytes q) -> x_ec_point x cv q = Some q' ->
  convert_to x (class_of (FamEC cv) KPub) d (exactly TyECPub) = Ok o ->
  exists l, convert_from x (class_of (FamEC cv) KPub) o =
    (l, Ok (class_of (FamEC cv) KPub, [(str "identifier", VStr (nist_curve cv)); (str "q", VBytes q')])).
Proof.
  intros Gi Gq P H. unfold exactly in H. rewrite convert_to_eq in H. cbn [all_conversions find cv_type conv_ec_pub ext_type_eqb cv_to] in H.
  inv_to H. to_facts. destruct a1 as [k pt]. match goal with E : ec_point_of _ _ _ = _ |- _ => apply ec_point_ok in E as (-> & q0 & -> & E) end.
  assert (q0 = q) as -> by congruence. assert (pt = q') as -> by congruence. cbn [fst snd].
  destruct (convert_from_values x (FamEC cv) KPub (OECPub (curve_name cv) q') [(str "identifier", VStr (nist_curve cv)); (str "q", VBytes q')]) as (l & E' & _).
  { cbn [values public_values]. rewrite curve_name_sec, str_eqb_refl. reflexivity. }
  exists l. exact E'.
Qed.

(** What is refused: another curve's name, a point that does not decode on the curve, an Ed25519
    key or seed of the wrong length, and a missing entry. *)
Theorem C56_refusals k d :
  (forall v, dget (str "identifier") d = Some v -> v <> VStr (nist_curve k) ->
     convert_to x (class_of (FamEC k) KPub) d (exactly TyECPub) = Err ValueError) /\
  (forall q, dget (str "identifier") d = Some (VStr (nist_curve k)) -> dget (str "q") d = Some (VBytes q) ->
     x_ec_point x k q = None ->
     convert_to x (class_of (FamEC k) KPub) d (exactly TyECPub) = Err ValueError) /\
  (forall q, dget (str "d") d <> None -> dget (str "q") d = Some (VBytes q) -> x_ec_point x k q = None ->
     convert_to x (class_of (FamEC k) KPriv) d (exactly TyECPriv) = Err ValueError) /\
  (forall b, dget (str "public") d = Some (VBytes b) -> length b <> 32%nat ->
     convert_to x (class_of FamEd KPub) d (exactly TyEdPub) = Err ValueError) /\
  (forall b, dget (str "private_public") d = Some (VBytes b) -> (length b < 32)%nat ->
     convert_to x (class_of FamEd KPriv) d (exactly TyEdPriv) = Err ValueError) /\
  (dget (str "identifier") d = None -> convert_to x (class_of (FamEC k) KPub) d (exactly TyECPub) = Err (KeyError (VStr (str "identifier")))) /\
  (dget (str "d") d = None -> convert_to x (class_of (FamEC k) KPriv) d (exactly TyECPriv) = Err (KeyError (VStr (str "d")))) /\
  (dget (str "public") d = None -> convert_to x (class_of FamEd KPub) d (exactly TyEdPub) = Err (KeyError (VStr (str "public")))) /\
  (dget (str "private_public") d = None -> convert_to x (class_of FamEd KPriv) d (exactly TyEdPriv) = Err (KeyError (VStr (str "private_public")))).
Proof.
  unfold exactly. rewrite !convert_to_eq.
  cbn [all_conversions find cv_type conv_ec_pub conv_ec_priv ext_type_eqb cv_to convs_ed_pub convs_ed_priv app].
  repeat split.
  - intros v E N. rewrite (ditem_ok _ _ _ E). cbn [rbind]. rewrite class_identifier.
    destruct (val_eqb_reflect v (VStr (nist_curve k))) as [K|K]; [destruct (N K)|reflexivity].
  - intros q E Q P. rewrite (ditem_ok _ _ _ E), (ditem_ok _ _ _ Q). cbn [rbind]. rewrite class_identifier, val_eqb_refl. cbn [negb].
    unfold ec_point_of. rewrite curve_of_class. cbn [want_bytes rbind]. rewrite P. reflexivity.
  - intros q E Q P. destruct (dget (str "d") d) as [v|] eqn:D; [|destruct (E eq_refl)].
    rewrite (ditem_ok _ _ _ D), (ditem_ok _ _ _ Q). cbn [rbind].
    unfold ec_point_of. rewrite curve_of_class. cbn [want_bytes rbind]. rewrite P. reflexivity.
  - intros b E L. rewrite (ditem_ok _ _ _ E). cbn [rbind want_bytes py_bytes py_prefix]. unfold raw32. change ed_key_size with 32%nat.
    destruct (Nat.eqb_spec (length b) 32) as [K|K]; [destruct (L K)|reflexivity].
  - intros b E L. unfold ed_seed. rewrite (ditem_ok _ _ _ E). cbn [rbind want_bytes py_bytes py_prefix]. unfold raw32. change ed_key_size with 32%nat.
    destruct (Nat.eqb_spec (length (firstn 32 b)) 32) as [K|K]; [rewrite firstn_length in K; lia|reflexivity].
  - intros E. unfold ditem. rewrite E. reflexivity.
  - intros E. unfold ditem. rewrite E. reflexivity.
  - intros E. unfold ditem. rewrite E. reflexivity.
  - intros E. unfold ed_seed, ditem. rewrite E. reflexivity.
Qed.

(** A str, an int or a tuple in place of the bytes of a key is refused with TypeError. *)
Theorem C56_not_bytes k d v :
  match v with VInt _ | VStr _ | VTuple _ => True | _ => False end ->
  (dget (str "identifier") d = Some (VStr (nist_curve k)) -> dget (str "q") d = Some v ->
     convert_to x (class_of (FamEC k) KPub) d (exactly TyECPub) = Err TypeError) /\
  (dget (str "d") d <> None -> dget (str "q") d = Some v ->
     convert_to x (class_of (FamEC k) KPriv) d (exactly TyECPriv) = Err TypeError) /\
  (forall ty, In ty (foreign_types x FamEd KPub) -> ty <> TyBytes -> dget (str "public") d = Some v ->
     convert_to x (class_of FamEd KPub) d (exactly ty) = Err TypeError) /\
  (forall ty, In ty (foreign_types x FamEd KPriv) -> ty <> TyBytes -> dget (str "private_public") d = Some v ->
     convert_to x (class_of FamEd KPriv) d (exactly ty) = Err TypeError).
Proof.
  intros V. assert (want_bytes v = Err TypeError) as W by (destruct v; (contradiction || reflexivity)).
  assert (py_prefix ed_key_size v = Err TypeError \/ exists v', py_prefix ed_key_size v = Ok v' /\ want_bytes v' = Err TypeError) as Pv
    by (destruct v; (contradiction || (left; reflexivity) || (right; eexists; split; reflexivity))).
  clear V. unfold exactly. repeat split.
  - intros E Q. rewrite convert_to_eq. cbn [all_conversions find cv_type conv_ec_pub ext_type_eqb cv_to].
    rewrite (ditem_ok _ _ _ E), (ditem_ok _ _ _ Q). cbn [rbind]. rewrite class_identifier, val_eqb_refl. cbn [negb].
    unfold ec_point_of. rewrite curve_of_class, W. reflexivity.
  - intros E Q. rewrite convert_to_eq. cbn [all_conversions find cv_type conv_ec_priv ext_type_eqb cv_to].
    destruct (dget (str "d") d) as [w|] eqn:D; [|destruct (E eq_refl)].
    rewrite (ditem_ok _ _ _ D), (ditem_ok _ _ _ Q). cbn [rbind]. unfold ec_point_of. rewrite curve_of_class, W. reflexivity.
  - intros ty I N E. rewrite convert_to_eq. cbn [all_conversions]. unfold convs_ed_pub. cbn [foreign_types] in I.
    destruct (x_nacl x); cbn [app In] in I;
      repeat (destruct I as [<-|I]; [try (destruct (N eq_refl)); cbn [app find cv_type ext_type_eqb cv_to]; rewrite (ditem_ok _ _ _ E); cbn [rbind]; rewrite W; reflexivity|]); contradiction.
  - intros ty I N E. rewrite convert_to_eq. cbn [all_conversions]. unfold convs_ed_priv. cbn [foreign_types] in I.
    destruct (x_nacl x); cbn [app In] in I;
      repeat (destruct I as [<-|I]; [try (destruct (N eq_refl)); cbn [app find cv_type ext_type_eqb cv_to]; unfold ed_seed; rewrite (ditem_ok _ _ _ E); cbn [rbind];
        (destruct Pv as [->|(v' & -> & W')]; [reflexivity|cbn [rbind]; rewrite W'; reflexivity])|]); contradiction.
Qed.
(** But the conversion to bytes does not refuse them: a str is refused, an int gives as many
    zero bytes, which do not hold the parameters' value (if there is room for so many), and a tuple of
    ints the bytes with these values (if they are values of bytes). *)
Theorem C56_numbers_as_bytes_refuted d :
  (forall s, dget (str "public") d = Some (VStr s) -> convert_to x (class_of FamEd KPub) d (exactly TyBytes) = Err TypeError) /\
  (forall z, dget (str "public") d = Some (VInt z) -> z < 0 -> convert_to x (class_of FamEd KPub) d (exactly TyBytes) = Err ValueError) /\
  (forall z, dget (str "public") d = Some (VInt z) -> 0 <= z < 2 ^ 63 - 33 ->
     exists b, convert_to x (class_of FamEd KPub) d (exactly TyBytes) = Ok (OBytes b) /\
       Z.of_nat (length b) = z /\ (forall y, In y b -> y = x00) /\
       exists v, values x FamEd KPub (OBytes b) = Some v /\ ~ holds d v) /\
  (forall b, dget (str "public") d = Some (VTuple (map (fun y => VInt (Zb y)) b)) ->
     convert_to x (class_of FamEd KPub) d (exactly TyBytes) = Ok (OBytes b)) /\
  (forall z, dget (str "public") d = Some (VInt z) -> 2 ^ 63 - 33 <= z ->
     convert_to x (class_of FamEd KPub) d (exactly TyBytes) = Err OverflowError) /\
  (forall l, dget (str "public") d = Some (VTuple (map VInt l)) -> (exists z, In z l /\ ~ 0 <= z < 256) ->
     convert_to x (class_of FamEd KPub) d (exactly TyBytes) = Err ValueError).
Proof.
  unfold exactly. rewrite convert_to_eq. cbn [all_conversions]. unfold convs_ed_pub. cbn [app find cv_type ext_type_eqb cv_to].
  repeat split.
  - intros s E. rewrite (ditem_ok _ _ _ E). reflexivity.
  - intros z E L. rewrite (ditem_ok _ _ _ E). cbn [rbind py_bytes]. apply Z.ltb_lt in L. rewrite L. reflexivity.
  - intros z E L. rewrite (ditem_ok _ _ _ E). cbn [rbind py_bytes].
    destruct (Z.ltb_spec z 0) as [K|_]; [lia|]. destruct (Z.ltb_spec (ssize_max - 33) z) as [K|_]; [unfold ssize_max in *; lia|]. cbn [rbind].
    exists (repeat x00 (Z.to_nat z)). split; [reflexivity|]. split; [rewrite repeat_length; lia|].
    split; [intros y I; exact (repeat_spec _ _ _ I)|]. eexists. split; [reflexivity|]. intros Hh.
    specialize (Hh (str "public") _ eq_refl). rewrite E in Hh. discriminate Hh.
  - intros b E. rewrite (ditem_ok _ _ _ E). cbn [rbind py_bytes].
    enough (rmap byte_of_item (map (fun y => VInt (Zb y)) b) = Ok b) as -> by reflexivity.
    clear E. induction b as [|y b IH]; [reflexivity|]. cbn [map rmap byte_of_item].
    assert (0 <= Zb y < 256) as R by (unfold Zb; pose proof (Byte.to_N_bounded y); lia).
    destruct (Z.leb_spec 0 (Zb y)) as [_|K]; [|lia]. destruct (Z.ltb_spec (Zb y) 256) as [_|K]; [|lia]. cbn [andb rbind].
    rewrite IH. cbn [rbind]. f_equal. f_equal. destruct y; reflexivity.
  - intros z E L. rewrite (ditem_ok _ _ _ E). cbn [rbind py_bytes].
    destruct (Z.ltb_spec z 0) as [K|_]; [lia|]. destruct (Z.ltb_spec (ssize_max - 33) z) as [_|K]; [reflexivity|unfold ssize_max in *; lia].
  - intros l E (z & I & N). rewrite (ditem_ok _ _ _ E). cbn [rbind py_bytes].
    enough (rmap byte_of_item (map VInt l) = Err ValueError) as -> by reflexivity.
    clear E. induction l as [|y l IH]; [destruct I|]. cbn [map rmap byte_of_item].
    destruct ((0 <=? y) && (y <? 256)) eqn:R; [|reflexivity]. cbn [rbind].
    apply andb_true_iff in R as (R1 & R2). apply Z.leb_le in R1. apply Z.ltb_lt in R2.
    destruct I as [->|I]; [lia|]. rewrite (IH I). reflexivity.
Qed.

(** Parameters built for an ECDSA key are checked against the same decoding of points that the
    conversions use: the warning about the point is given exactly if the bytes encode none. *)
Theorem C56_point_warning k q :
  construct x (class_of (FamEC k) KPub) [(str "identifier", VStr (nist_curve k)); (str "q", VBytes q)] =
    (match x_ec_point x k q with Some _ => [] | None => [Warn WPoint] end,
     Ok (class_of (FamEC k) KPub, [(str "identifier", VStr (nist_curve k)); (str "q", VBytes q)])).
Proof.
  assert (x_ec_ok x k q = match x_ec_point x k q with Some _ => true | None => false end) as O by reflexivity.
  unfold construct. rewrite class_of_concrete. revert O. generalize (x_ec_ok x) as ec. intros ec O.
  destruct (x_ec_point x k q); destruct k; vm_compute; rewrite O; reflexivity.
Qed.

(** ** Abstract classes *)
(** The abstract base classes never return anything ... *)
Theorem C56_abstract_classes c o :
  In c [PublicKeyParams; PrivateKeyParams; SKPub; SKPriv; CertPub] ->
  forall l r, convert_from x c o <> (l, Ok r).
Proof.
  intros Hc l r H. unfold convert_from in H. cbn [convert_from_fuel] in H.
  assert (issubclass c ECDSAPub = false /\ is_abstract c = true) as (I1 & I2).
  { cbn [In] in Hc. repeat (destruct Hc as [<-|Hc]; [vm_compute; auto|]). contradiction. }
  rewrite I1 in H. unfold common_convert_from at 1 in H.
  apply wbind_inv in H as (l1 & own & l2 & _ & H & _). apply wbind_inv in H as (l3 & [d|] & l4 & _ & H & _); [|discriminate].
  apply wbind_inv in H as (l5 & d' & l6 & _ & H & _). unfold construct in H. rewrite I2 in H. discriminate.
Qed.
(** ... and raise exactly these exceptions. *)
Theorem C56_abstract_outcomes c e o :
  (forall pt d, o <> OECPub [] pt /\ o <> OECPriv [] pt d) -> In (c, e) (abstract_outcomes x o) ->
  snd (convert_from x c o) = Err e.
Proof.
  intros Hn H. unfold convert_from.
  rewrite (convert_from_ext x (construct x) (easy (construct x)) o o 8 c (easy_eq x) (fun _ => eq_refl)).
  exact (abstract_table x (construct x) o c e Hn H).
Qed.
(** ... but the abstract ECDSA classes return an object of the class of the key's curve. *)
Theorem C56_ecdsa_class kd o :
  let c := match kd with KPub => ECDSAPub | KPriv => ECDSAPriv end in
  (forall cv v, values x (FamEC cv) kd o = Some v ->
     exists l c', convert_from x c o = (l, Ok (c', v)) /\ params_class kd (VStr (family_type (FamEC cv))) = Ok c') /\
  ((forall cv, values x (FamEC cv) kd o = None) -> (forall pt d, o <> OECPub [] pt /\ o <> OECPriv [] pt d) ->
     convert_from x c o = ([], Err ValueError)).
Proof.
  cbv zeta. set (c := match kd with KPub => ECDSAPub | KPriv => ECDSAPriv end).
  destruct (ec_table x (construct x) kd o) as (T1 & T2). fold c in T1, T2. unfold convert_from.
  rewrite (convert_from_ext x (construct x) (easy (construct x)) o o 8 c (easy_eq x) (fun _ => eq_refl)).
  split; [|exact T2]. intros cv v Hv. destruct (T1 cv v Hv) as (l & E). exists l, (class_of (FamEC cv) kd). split; [exact E|apply class_of_ok].
Qed.
(** The search of convert_from goes through all classes that are defined with this class as a base. *)
Theorem C56_subclasses c k : In k (subclasses c) <-> In c (bases k).
Proof.
  unfold subclasses. rewrite filter_In. split.
  - intros (_ & H). destruct c, k; cbn in *; intuition congruence.
  - intros H. split; [destruct k; cbn; tauto|]. destruct k; cbn in H; repeat (destruct H as [<-|H]; [reflexivity|]); contradiction.
Qed.
End C56.

(** ** Examples *)
Definition ex_ext : ext :=
  mkext true (fun e n => if 3 <=? e then Ok tt else Err ValueError)
    (fun p q d dmp1 dmq1 iqmp e n => if (p * q =? n) then Ok tt else Err ValueError)
    (fun _ _ _ _ => Ok tt) (fun _ _ _ _ _ => Ok tt)
    (fun _ q => match q with [] => None | b :: _ => if byte_eqb b "004"%byte then Some q else None end)
    (fun _ _ _ => Ok tt) (fun s => rev s).
Definition ex_rsa_object : obj := ORSAPriv 3233 17 413 53 49 38 61 53.
Definition ex_rsa_values : dict pyval :=
  [(str "n", VInt 3233); (str "e", VInt 17); (str "d", VInt 413); (str "iqmp", VInt 38);
   (str "p", VInt 61); (str "q", VInt 53)].
(** From a private RSA object to parameters and back, and the public half of it. *)
Example C56_rsa_example :
  convert_from ex_ext RSAPriv ex_rsa_object = ([], Ok (RSAPriv, ex_rsa_values)) /\
  convert_to ex_ext RSAPriv ex_rsa_values (exactly TyRSAPriv) = Ok ex_rsa_object /\
  convert_to ex_ext RSAPriv ex_rsa_values (exactly TyRSAPub) = Ok (ORSAPub 3233 17) /\
  convert_to ex_ext RSAPriv ex_rsa_values (exactly TyBytes) = Err ValueError /\
  convert_to ex_ext RSAPriv (dset (str "e") (VStr (str "17")) ex_rsa_values) (exactly TyRSAPriv) = Err TypeError /\
  convert_to ex_ext RSAPriv (dset (str "p") (VInt 1) (dset (str "e") (VStr (str "17")) ex_rsa_values)) (exactly TyRSAPriv) = Err OtherError /\
  convert_to ex_ext RSAPriv (dset (str "e") (VStr (str "17")) ex_rsa_values) (exactly TyRSAPub) = Err TypeError /\
  convert_from ex_ext RSAPub ex_rsa_object = ([], Ok (RSAPub, [(str "e", VInt 17); (str "n", VInt 3233)])) /\
  convert_from ex_ext DSSPub ex_rsa_object = ([], Err ValueError) /\
  consistent ex_ext FamRSA KPriv ex_rsa_values /\ valid_object ex_ext ex_rsa_object /\ constructible ex_ext ex_rsa_object.
Proof.
  repeat match goal with |- _ /\ _ => split end; try (vm_compute; reflexivity); try exact I.
  - split; [exact I|]. intros s H. cbn [x_ed_derive ex_ext]. rewrite rev_length. exact H.
  - split; [reflexivity|]. split; [discriminate|]. split; [discriminate|]. split; reflexivity.
Qed.
Example C56_ec_example :
  let pt := ["004"; "001"; "002"]%byte in
  let v := [(str "identifier", VStr (str "nistp384")); (str "q", VBytes pt); (str "d", VInt 7)] in
  convert_from ex_ext ECDSAPriv (OECPriv (str "secp384r1") pt 7) = ([], Ok (E384Priv, v)) /\
  convert_from ex_ext E256Pub (OECPriv (str "secp384r1") pt 7) = ([], Err ValueError) /\
  convert_to ex_ext E384Priv v (exactly TyECPriv) = Ok (OECPriv (str "secp384r1") pt 7) /\
  consistent ex_ext (FamEC P384) KPriv v.
Proof.
  repeat match goal with |- _ /\ _ => split | |- let _ := _ in _ => cbv zeta end; try (vm_compute; reflexivity).
  split; [reflexivity|]. intros q H. vm_compute in H. injection H as <-. reflexivity.
Qed.
Example C56_ed_example :
  let s := repeat "001"%byte 31 ++ ["002"%byte] in
  let v := [(str "public", VBytes (rev s)); (str "private_public", VBytes (s ++ rev s))] in
  convert_from ex_ext EdPriv (OBytes s) = ([], Ok (EdPriv, v)) /\
  convert_from ex_ext EdPriv (OSigningKey s) = ([], Ok (EdPriv, v)) /\
  convert_from ex_ext EdPriv (OBytes (tl s)) = ([], Err ValueError) /\
  convert_to ex_ext EdPriv v (exactly TyBytes) = Ok (OBytes s) /\
  convert_from ex_ext SKEdPub (OEdPub s) = ([], Err (KeyError (VStr (str "application")))) /\
  consistent ex_ext FamEd KPriv v.
Proof.
  repeat match goal with |- _ /\ _ => split | |- let _ := _ in _ => cbv zeta end; try (vm_compute; reflexivity).
  eexists. split; [|split; reflexivity]. reflexivity.
Qed.
(** The documentation of convert_from has the base class search its subclasses for one that
    knows the object; the search ends in an exception. *)
Example C56_abstract_example :
  snd (convert_from ex_ext PublicKeyParams (ORSAPub 3233 17)) = Err TypeError /\
  snd (convert_from ex_ext PublicKeyParams (OEdPub (repeat "001"%byte 32))) = Err (KeyError (VStr (str "application"))) /\
  snd (convert_from ex_ext CertPub (ORSAPub 3233 17)) = Err (KeyError (VStr (str "nonce"))) /\
  snd (convert_from ex_ext PublicKeyParams (OOther 0)) = Err ValueError.
Proof. repeat match goal with |- _ /\ _ => split end; vm_compute; reflexivity. Qed.

Print Assumptions C56_convert_from.
Print Assumptions C56_fields.
Print Assumptions C56_security_keys_and_certificates.
Print Assumptions C56_not_a_class.
Print Assumptions C56_unsupported_destination.
Print Assumptions C56_convert_to.
Print Assumptions C56_not_bytes.
Print Assumptions C56_numbers_as_bytes_refuted.
Print Assumptions C56_subclasses.
Print Assumptions C56_rsa_exponents.
Print Assumptions C56_roundtrip.
Print Assumptions C56_object_roundtrip.
Print Assumptions C56_inconsistent_refuted.
Print Assumptions C56_point_encoding.
Print Assumptions C56_not_integers.
Print Assumptions C56_refusals.
Print Assumptions C56_point_warning.
Print Assumptions C56_abstract_classes.
Print Assumptions C56_abstract_outcomes.
Print Assumptions C56_ecdsa_class.
