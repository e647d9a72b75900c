(** Proofs about conversions to and from key objects of other packages. *)
From Verif Require Import PyBase IntBytes Utf8 StructFmt Stream Text Classes Key PrivateKeyList Convert.
From Verif Require Import SpecWire SpecKey SpecConvert.
From Verif Require Import ProofBase ProofKey.
From Verif Require Import Props_Params.
Open Scope Z_scope.

Definition class_of (f : family) (kd : kind) : cls :=
  match f, kd with
  | FamRSA, KPub => RSAPub | FamRSA, KPriv => RSAPriv | FamDSS, KPub => DSSPub | FamDSS, KPriv => DSSPriv
  | FamEC P256, KPub => E256Pub | FamEC P256, KPriv => E256Priv | FamEC P384, KPub => E384Pub
  | FamEC P384, KPriv => E384Priv | FamEC P521, KPub => E521Pub | FamEC P521, KPriv => E521Priv
  | FamEd, KPub => EdPub | FamEd, KPriv => EdPriv
  end.
Lemma class_of_ok f kd : params_class kd (VStr (family_type f)) = Ok (class_of f kd).
Proof. destruct f as [| |[]|], kd; vm_compute; reflexivity. Qed.
Lemma class_of_spec f kd c : params_class kd (VStr (family_type f)) = Ok c -> c = class_of f kd.
Proof. rewrite class_of_ok. intros H. injection H as <-. reflexivity. Qed.
Lemma class_of_concrete f kd : is_abstract (class_of f kd) = false.
Proof. destruct f as [| |[]|], kd; vm_compute; reflexivity. Qed.
Lemma family_spec f : exists pub priv, In (family_type f, (pub, Some priv)) key_specs.
Proof.
  destruct f as [| |[]|]; eexists _, _; unfold key_specs, plain_specs; cbn [map app fst snd In family_type]; eauto 12.
Qed.

(** ** Extensionality *)
Section Ext.
Variable x : ext.
Lemma first_subclass_ext f g l : (forall c, f c = g c) -> first_subclass f l = first_subclass g l.
Proof. intros H. induction l as [|c l IH]; [reflexivity|]. cbn [first_subclass]. rewrite H, IH. reflexivity. Qed.
Lemma common_ext b1 b2 f g o1 o2 c :
  (forall c d, b1 c d = b2 c d) -> (forall c, f c = g c) -> (forall c, own_mapping x c o1 = own_mapping x c o2) ->
  common_convert_from x b1 f c o1 = common_convert_from x b2 g c o2.
Proof.
  intros Hb Hf Ho. unfold common_convert_from. rewrite Ho, (first_subclass_ext _ _ _ Hf).
  apply wbind_ext. intros own. apply wbind_ext. intros [d|]; [|reflexivity]. apply wbind_ext. intros d'. apply Hb.
Qed.
Lemma convert_from_ext b1 b2 o1 o2 n c :
  (forall c d, b1 c d = b2 c d) -> (forall c, own_mapping x c o1 = own_mapping x c o2) ->
  convert_from_fuel x b1 n c o1 = convert_from_fuel x b2 n c o2.
Proof.
  intros Hb Ho. revert c. induction n as [|n IH]; intros c; [reflexivity|]. cbn [convert_from_fuel].
  destruct (issubclass c ECDSAPub); [|apply common_ext; assumption].
  unfold ecdsa_convert_from. destruct (is_abstract c); [|apply common_ext; assumption].
  rewrite (first_subclass_ext _ _ _ IH). apply wbind_ext. intros [y|]; [reflexivity|]. apply common_ext; assumption.
Qed.

(** An EC key on a curve other than the three is like an unsupported object. *)
Definition curve_names : list pystr := [sec_curve P256; sec_curve P384; sec_curve P521; []].
Lemma foreign_curve_pub name pt c : ~ In name curve_names -> own_mapping x c (OECPub name pt) = own_mapping x c (OOther 0).
Proof.
  intros H. cbn [curve_names In sec_curve] in H.
  assert (forall k, str_eqb name (class_curve_name k) = false) as N.
  { intros k. destruct (str_eqb_reflect name (class_curve_name k)) as [E|E]; [|reflexivity]. exfalso. apply H.
    rewrite E. destruct k; vm_compute; eauto 6. }
  unfold own_mapping, conversion_functions. destruct c;
  (match goal with |- context [lookup_attr (own_conversions x ?k) (mro ?k)] => let l := eval vm_compute in (mro k) in change (mro k) with l end);
  cbn [lookup_attr own_conversions find obj_isinstance obj_type cv_type conv_rsa_pub conv_rsa_priv conv_dsa_pub conv_dsa_priv conv_ec_pub conv_ec_priv ext_type_eqb cv_from];
  try reflexivity; try (unfold convs_ed_pub, convs_ed_priv; destruct (x_nacl x); reflexivity); rewrite N; reflexivity.
Qed.
Lemma foreign_curve_priv name pt d c : ~ In name curve_names -> own_mapping x c (OECPriv name pt d) = own_mapping x c (OOther 0).
Proof.
  intros H. cbn [curve_names In sec_curve] in H.
  assert (forall k, str_eqb name (class_curve_name k) = false) as N.
  { intros k. destruct (str_eqb_reflect name (class_curve_name k)) as [E|E]; [|reflexivity]. exfalso. apply H.
    rewrite E. destruct k; vm_compute; eauto 6. }
  unfold own_mapping, conversion_functions. destruct c;
  (match goal with |- context [lookup_attr (own_conversions x ?k) (mro ?k)] => let l := eval vm_compute in (mro k) in change (mro k) with l end);
  cbn [lookup_attr own_conversions find obj_isinstance obj_type cv_type conv_rsa_pub conv_rsa_priv conv_dsa_pub conv_dsa_priv conv_ec_pub conv_ec_priv ext_type_eqb cv_from];
  try reflexivity; try (unfold convs_ed_pub, convs_ed_priv; destruct (x_nacl x); reflexivity); rewrite N; reflexivity.
Qed.
Lemma curve_name_dec (name : pystr) : In name curve_names \/ ~ In name curve_names.
Proof.
  destruct (in_dec (list_eq_dec N.eq_dec) name curve_names); auto.
Qed.

(** ** The constructor of the plain classes never raises *)
Definition plain_class (c : cls) : bool :=
  cls_mem c [RSAPub; RSAPriv; DSSPub; DSSPriv; E256Pub; E256Priv; E384Pub; E384Priv; E521Pub; E521Priv; EdPub; EdPriv].
Lemma plain_class_of c : plain_class c = true -> exists f kd, c = class_of f kd.
Proof.
  destruct c; vm_compute; intros H; try discriminate;
  ((exists FamRSA, KPub; reflexivity) || (exists FamRSA, KPriv; reflexivity) || (exists FamDSS, KPub; reflexivity) ||
   (exists FamDSS, KPriv; reflexivity) || (exists (FamEC P256), KPub; reflexivity) || (exists (FamEC P256), KPriv; reflexivity) ||
   (exists (FamEC P384), KPub; reflexivity) || (exists (FamEC P384), KPriv; reflexivity) || (exists (FamEC P521), KPub; reflexivity) ||
   (exists (FamEC P521), KPriv; reflexivity) || (exists FamEd, KPub; reflexivity) || (exists FamEd, KPriv; reflexivity)).
Qed.
Lemma construct_plain f kd d : exists l, construct x (class_of f kd) d = (l, Ok (class_of f kd, d)).
Proof.
  unfold construct. rewrite class_of_concrete. destruct (family_spec f) as (pub & priv & Hs).
  pose proof (new_params_plain_ok (x_ec_ok x) _ _ _ kd (class_of f kd) (parse_pub (x_ec_ok x)) d Hs (class_of_ok f kd)) as E.
  destruct (new_params (x_ec_ok x) (parse_pub (x_ec_ok x)) (class_of f kd) d) as [l r]. cbn [snd] in E. subst r.
  eexists. reflexivity.
Qed.
Definition easy (K : cls -> dict pyval -> W (cls * dict pyval)) (c : cls) (d : dict pyval) : W (cls * dict pyval) :=
  if plain_class c then (fst (K c d), Ok (c, d)) else if is_abstract c then werr TypeError else K c d.
Lemma easy_eq c d : construct x c d = easy (construct x) c d.
Proof.
  unfold easy. destruct (plain_class c) eqn:P.
  - destruct (plain_class_of c P) as (f & kd & ->). destruct (construct_plain f kd d) as (l & ->). reflexivity.
  - unfold construct at 1. destruct (is_abstract c) eqn:A; [reflexivity|]. unfold construct. rewrite A. reflexivity.
Qed.

End Ext.

(** ** The table of results *)
Ltac use H f kd := try (let R := fresh "R" in pose proof (H f kd _ eq_refl) as R; vm_compute in R; rewrite ?R; clear R).
Ltac row := cbv [values public_values private_values x_nacl x_ed_derive]; try (vm_compute; reflexivity);
  (eexists; split; [vm_compute; reflexivity|]);
  let H := fresh "H" in intros H;
  use H FamRSA KPub; use H FamRSA KPriv; use H FamDSS KPub; use H FamDSS KPriv;
  use H (FamEC P256) KPub; use H (FamEC P256) KPriv; use H (FamEC P384) KPub; use H (FamEC P384) KPriv;
  use H (FamEC P521) KPub; use H (FamEC P521) KPriv; use H FamEd KPub; use H FamEd KPriv; try reflexivity.
Lemma convert_from_table x K f kd o :
  match values x f kd o with
  | Some v => exists l, convert_from_fuel x (easy K) 8 (class_of f kd) o = (l, Ok (class_of f kd, v)) /\
      ((forall f kd v, values x f kd o = Some v -> fst (K (class_of f kd) v) = []) -> l = [])
  | None => convert_from_fuel x (easy K) 8 (class_of f kd) o = ([], Err ValueError)
  end.
Proof.
  destruct o as [n e|n e d dmp1 dmq1 iqmp p q|p q g y|p q g y xv|name pt|name pt d|b|s|b|s|b|n].
  - destruct x as [[] ? ? ? ? ? ? ?]; destruct f as [| |[]|], kd; row.
  - destruct x as [[] ? ? ? ? ? ? ?]; destruct f as [| |[]|], kd; row.
  - destruct x as [[] ? ? ? ? ? ? ?]; destruct f as [| |[]|], kd; row.
  - destruct x as [[] ? ? ? ? ? ? ?]; destruct f as [| |[]|], kd; row.
  - destruct (curve_name_dec name) as [H|H].
    + destruct x as [[] ? ? ? ? ? ? ?]; destruct f as [| |[]|], kd;
      (repeat (destruct H as [<-|H]; [row|]); contradiction).
    + assert (values x f kd (OECPub name pt) = None) as ->.
      { destruct f as [| |c|], kd; cbn [values public_values private_values]; try reflexivity.
        destruct (str_eqb_reflect name (sec_curve c)) as [->|]; [|reflexivity]. exfalso. apply H. destruct c; cbn [curve_names In]; auto. }
      rewrite (convert_from_ext x (easy K) (easy K) _ (OOther 0) 8 (class_of f kd) (fun _ _ => eq_refl) (fun c => foreign_curve_pub x name pt c H)).
      clear H. destruct x as [[] ? ? ? ? ? ? ?]; destruct f as [| |[]|], kd; vm_compute; reflexivity.
  - destruct (curve_name_dec name) as [H|H].
    + destruct x as [[] ? ? ? ? ? ? ?]; destruct f as [| |[]|], kd;
      (repeat (destruct H as [<-|H]; [row|]); contradiction).
    + assert (values x f kd (OECPriv name pt d) = None) as ->.
      { destruct f as [| |c|], kd; cbn [values public_values private_values]; try reflexivity;
        (destruct (str_eqb_reflect name (sec_curve c)) as [->|]; [|reflexivity]); exfalso; apply H; destruct c; cbn [curve_names In]; auto. }
      rewrite (convert_from_ext x (easy K) (easy K) _ (OOther 0) 8 (class_of f kd) (fun _ _ => eq_refl) (fun c => foreign_curve_priv x name pt d c H)).
      clear H. destruct x as [[] ? ? ? ? ? ? ?]; destruct f as [| |[]|], kd; vm_compute; reflexivity.
  - destruct x as [[] ? ? ? ? ? ? ?]; destruct f as [| |[]|], kd; row.
  - destruct x as [[] ? ? ? ? ? ? ?]; destruct f as [| |[]|], kd; row.
  - destruct x as [[] ? ? ? ? ? ? ?]; destruct f as [| |[]|], kd; row.
  - destruct x as [[] ? ? ? ? ? ? ?]; destruct f as [| |[]|], kd; row.
  - assert (forall f kd, (f, kd) <> (FamEd, KPriv) ->
      match values x f kd (OBytes b) with
      | Some v => exists l, convert_from_fuel x (easy K) 8 (class_of f kd) (OBytes b) = (l, Ok (class_of f kd, v)) /\
          ((forall f kd v, values x f kd (OBytes b) = Some v -> fst (K (class_of f kd) v) = []) -> l = [])
      | None => convert_from_fuel x (easy K) 8 (class_of f kd) (OBytes b) = ([], Err ValueError)
      end) as T.
    { clear f kd. intros f kd N. destruct x as [[] ? ? ? ? ? ? ?]; destruct f as [| |[]|], kd; try congruence; row. }
    destruct f as [| |cv|], kd; try (apply T; discriminate). clear T.
    cbn [values private_values]. destruct (length b =? 32)%nat eqn:E.
    + assert (own_mapping x EdPriv (OBytes b) = Ok (Some (ed_private x b))) as O.
      { destruct x as [[] ? ? ? ? ? ? ?]; unfold own_mapping; cbv -[raw32 ed_private]; unfold raw32; change ed_key_size with 32%nat; rewrite E; reflexivity. }
      cbn [convert_from_fuel class_of]. change (issubclass EdPriv ECDSAPub) with false. cbv iota.
      unfold common_convert_from. rewrite O. cbn [wlift wbind wret]. 
      eexists. split; [vm_compute; reflexivity|]. intros H. specialize (H FamEd KPriv). cbn [values private_values] in H. rewrite E in H.
      specialize (H _ eq_refl). vm_compute in H. rewrite H. reflexivity.
    + assert (own_mapping x EdPriv (OBytes b) = Err ValueError) as O.
      { destruct x as [[] ? ? ? ? ? ? ?]; unfold own_mapping; cbv -[raw32 ed_private]; unfold raw32; change ed_key_size with 32%nat; rewrite E; reflexivity. }
      cbn [convert_from_fuel class_of]. change (issubclass EdPriv ECDSAPub) with false. cbv iota.
      unfold common_convert_from. rewrite O. reflexivity.
  - destruct x as [[] ? ? ? ? ? ? ?]; destruct f as [| |[]|], kd; row.
Qed.

(** ** No warnings for valid objects *)
Lemma sec_curve_inj a b : sec_curve a = sec_curve b -> a = b.
Proof. destruct a, b; vm_compute; intros H; (reflexivity || discriminate). Qed.
Lemma ec_quiet x pp cv pt (rest : dict pyval) kd :
  x_ec_point x cv pt = Some pt -> rest = match kd with KPub => [] | KPriv => rest end ->
  match kd with KPub => True | KPriv => exists z, rest = [(str "d", VInt z)] end ->
  fst (new_params (x_ec_ok x) pp (class_of (FamEC cv) kd)
    ([(str "identifier", VStr (nist_curve cv)); (str "q", VBytes pt)] ++ rest)) = [].
Proof.
  intros V Er R. assert (x_ec_ok x cv pt = true) as O by (unfold x_ec_ok; rewrite V; reflexivity).
  revert O. generalize (x_ec_ok x) as ec. clear V. intros ec O.
  destruct kd; [rewrite Er|destruct R as (z & ->)]; clear Er; destruct cv; vm_compute; rewrite O; reflexivity.
Qed.
Lemma values_quiet x f kd o v :
  values x f kd o = Some v -> valid_object x o -> fst (construct x (class_of f kd) v) = [].
Proof.
  intros Hv (V & D). unfold construct. rewrite class_of_concrete.
  assert (fst (new_params (x_ec_ok x) (parse_pub (x_ec_ok x)) (class_of f kd) v) = []) as E.
  { generalize (parse_pub (x_ec_ok x)) as pp. intros pp.
    destruct f as [| |cv|].
    - destruct o, kd; cbn [values public_values private_values] in Hv; try discriminate; injection Hv as <-; vm_compute; reflexivity.
    - destruct o, kd; cbn [values public_values private_values] in Hv; try discriminate; injection Hv as <-; vm_compute; reflexivity.
    - destruct o, kd; cbn [values public_values private_values] in Hv; try discriminate;
      (destruct (str_eqb_reflect name (sec_curve cv)) as [->|]; [|discriminate]); injection Hv as <-;
      specialize (V cv eq_refl).
      + apply (ec_quiet x pp cv point [] KPub); [exact V|reflexivity|exact I].
      + apply (ec_quiet x pp cv point [] KPub); [exact V|reflexivity|exact I].
      + apply (ec_quiet x pp cv point [(str "d", VInt d)] KPriv); [exact V|reflexivity|eauto].
    - assert (exists pub, Z.of_nat (length pub) = 32 /\ dget (str "public") v = Some (VBytes pub) /\
        (kd = KPriv -> exists s, Z.of_nat (length s) = 32 /\ dget (str "private_public") v = Some (VBytes (s ++ pub)))) as (pub & L & G & P).
      { destruct o, kd; cbn [values public_values private_values] in Hv; try discriminate; cbv beta iota delta [valid_object] in V.
        all: try (destruct (x_nacl x); [|discriminate]). all: try (destruct (length b =? 32)%nat; [|discriminate]).
        all: injection Hv as <-; eexists; (split; [|split; [reflexivity|]]); eauto; try (intros K; discriminate). }
      destruct kd.
      + pose proof (proj1 (C52_public_warnings (x_ec_ok x) pp v pub G) L) as E. exact (f_equal fst E).
      + destruct (P eq_refl) as (s & Ls & Gp).
        destruct (C52_private_warnings (x_ec_ok x) pp v pub (s ++ pub) G Gp) as (l & E & _ & _ & _ & N).
        transitivity l; [exact (f_equal fst E)|]. apply (proj2 N). eauto. }
  pose proof (construct_plain x f kd v) as (l & C). unfold construct in C. rewrite class_of_concrete in C.
  destruct (new_params (x_ec_ok x) (parse_pub (x_ec_ok x)) (class_of f kd) v) as [l' [[]|e]]; cbn [fst] in E; subst l'; reflexivity.
Qed.
Lemma convert_from_values x f kd o v :
  values x f kd o = Some v ->
  exists l, convert_from x (class_of f kd) o = (l, Ok (class_of f kd, v)) /\ (valid_object x o -> l = []).
Proof.
  intros Hv. unfold convert_from.
  rewrite (convert_from_ext x (construct x) (easy (construct x)) o o 8 (class_of f kd) (easy_eq x) (fun _ => eq_refl)).
  pose proof (convert_from_table x (construct x) f kd o) as T. rewrite Hv in T. destruct T as (l & E & Q).
  exists l. split; [exact E|]. intros V. apply Q. intros f' kd' v' Hv'. exact (values_quiet _ _ _ _ _ Hv' V).
Qed.
Lemma convert_from_no_values x f kd o :
  values x f kd o = None -> convert_from x (class_of f kd) o = ([], Err ValueError).
Proof.
  intros Hv. unfold convert_from.
  rewrite (convert_from_ext x (construct x) (easy (construct x)) o o 8 (class_of f kd) (easy_eq x) (fun _ => eq_refl)).
  pose proof (convert_from_table x (construct x) f kd o) as T. rewrite Hv in T. exact T.
Qed.

(** ** Security keys and certificates *)
Definition special_classes : list (cls * family) :=
  [(SKE256Pub, FamEC P256); (SKE256Priv, FamEC P256); (SKEdPub, FamEd); (SKEdPriv, FamEd);
   (CertRSA, FamRSA); (CertEd, FamEd); (CertDSS, FamDSS); (CertE256, FamEC P256); (CertE384, FamEC P384);
   (CertE521, FamEC P521); (CertSKEd, FamEd); (CertSKE256, FamEC P256)].
(** The object is itself a public key of the family. *)
Definition public_object (x : ext) (f : family) (o : obj) : bool :=
  match obj_type o, public_values x f o with
  | Some t, Some _ => existsb (ext_type_eqb t) (foreign_types x f KPub)
  | _, _ => false
  end.
(** The first field of the type that a public key of the family does not have. *)
Definition missing_field (c : cls) : pystr := if issubclass c CertPub then str "nonce" else str "application".
Lemma special_table x K c f o :
  In (c, f) special_classes ->
  convert_from_fuel x (easy K) 8 c o = ([], Err (if public_object x f o then KeyError (VStr (missing_field c)) else ValueError)).
Proof.
  intros H. unfold special_classes in H. cbn [In] in H.
  assert (forall name, ~ In name curve_names -> forall cv, str_eqb name (sec_curve cv) = false) as N.
  { intros name F cv. destruct (str_eqb_reflect name (sec_curve cv)) as [->|]; [|reflexivity]. exfalso. apply F. destruct cv; cbn [curve_names In]; auto. }
  destruct o as [n e|n e d dmp1 dmq1 iqmp p q|p q g y|p q g y xv|name pt|name pt d|b|s|b|s|b|n].
  all: try (destruct x as [[] ? ? ? ? ? ? ?]; repeat (destruct H as [H|H]; [injection H as <- <-; vm_compute; reflexivity|]); contradiction).
  - destruct (curve_name_dec name) as [F|F].
    + destruct x as [[] ? ? ? ? ? ? ?]; repeat (destruct F as [<-|F]; [repeat (destruct H as [H|H]; [injection H as <- <-; vm_compute; reflexivity|]); contradiction|]); contradiction.
    + assert (public_object x f (OECPub name pt) = false) as ->.
      { unfold public_object. cbn [obj_type]. destruct f; cbn [public_values]; try reflexivity. rewrite (N name F). reflexivity. }
      rewrite (convert_from_ext x (easy K) (easy K) _ (OOther 0) 8 c (fun _ _ => eq_refl) (fun c => foreign_curve_pub x name pt c F)).
      clear F N. destruct x as [[] ? ? ? ? ? ? ?]; repeat (destruct H as [H|H]; [injection H as <- <-; vm_compute; reflexivity|]); contradiction.
  - destruct (curve_name_dec name) as [F|F].
    + destruct x as [[] ? ? ? ? ? ? ?]; repeat (destruct F as [<-|F]; [repeat (destruct H as [H|H]; [injection H as <- <-; vm_compute; reflexivity|]); contradiction|]); contradiction.
    + assert (public_object x f (OECPriv name pt d) = false) as ->.
      { unfold public_object. cbn [obj_type]. destruct f; cbn [public_values]; try reflexivity. rewrite (N name F). reflexivity. }
      rewrite (convert_from_ext x (easy K) (easy K) _ (OOther 0) 8 c (fun _ _ => eq_refl) (fun c => foreign_curve_priv x name pt d c F)).
      clear F N. destruct x as [[] ? ? ? ? ? ? ?]; repeat (destruct H as [H|H]; [injection H as <- <-; vm_compute; reflexivity|]); contradiction.
Qed.
Lemma special_convert_from x c f o :
  In (c, f) special_classes ->
  convert_from x c o = ([], Err (if public_object x f o then KeyError (VStr (missing_field c)) else ValueError)).
Proof.
  intros H. unfold convert_from.
  rewrite (convert_from_ext x (construct x) (easy (construct x)) o o 8 c (easy_eq x) (fun _ => eq_refl)).
  apply special_table. exact H.
Qed.

(** ** The abstract ECDSA classes *)
Lemma ec_table x K kd o :
  let c := match kd with KPub => ECDSAPub | KPriv => ECDSAPriv end in
  (forall cv v, values x (FamEC cv) kd o = Some v ->
     exists l, convert_from_fuel x (easy K) 8 c o = (l, Ok (class_of (FamEC cv) kd, v))) /\
  ((forall cv, values x (FamEC cv) kd o = None) -> (forall pt d, o <> OECPub [] pt /\ o <> OECPriv [] pt d) ->
     convert_from_fuel x (easy K) 8 c o = ([], Err ValueError)).
Proof.
  cbv zeta. split.
  - intros cv v Hv. destruct o, kd; cbn [values public_values private_values] in Hv; try discriminate;
    (destruct (str_eqb_reflect name (sec_curve cv)) as [->|]; [|discriminate]); injection Hv as <-;
    destruct x as [[] ? ? ? ? ? ? ?]; destruct cv; eexists; vm_compute; reflexivity.
  - intros Hv Hn. destruct o as [n e|n e d dmp1 dmq1 iqmp p q|p q g y|p q g y xv|name pt|name pt d|b|s|b|s|b|n].
    all: try (destruct x as [[] ? ? ? ? ? ? ?]; destruct kd; vm_compute; reflexivity).
    + destruct (curve_name_dec name) as [F|F].
      * destruct kd.
        -- exfalso. destruct F as [<-|[<-|[<-|[<-|[]]]]]; [specialize (Hv P256)|specialize (Hv P384)|specialize (Hv P521)|destruct (Hn pt 0); congruence];
           cbn [values public_values] in Hv; rewrite str_eqb_refl in Hv; discriminate.
        -- destruct F as [<-|[<-|[<-|[<-|[]]]]]; destruct x as [[] ? ? ? ? ? ? ?]; vm_compute; reflexivity.
      * match goal with |- convert_from_fuel _ _ _ ?c _ = _ =>
          rewrite (convert_from_ext x (easy K) (easy K) _ (OOther 0) 8 c (fun _ _ => eq_refl) (fun c0 => foreign_curve_pub x name pt c0 F)) end.
        clear F Hv Hn. destruct x as [[] ? ? ? ? ? ? ?]; destruct kd; vm_compute; reflexivity.
    + destruct (curve_name_dec name) as [F|F].
      * exfalso. destruct F as [<-|[<-|[<-|[<-|[]]]]]; [specialize (Hv P256)|specialize (Hv P384)|specialize (Hv P521)|destruct (Hn pt d); congruence];
        destruct kd; cbn [values public_values private_values] in Hv; rewrite str_eqb_refl in Hv; discriminate.
      * match goal with |- convert_from_fuel _ _ _ ?c _ = _ =>
          rewrite (convert_from_ext x (easy K) (easy K) _ (OOther 0) 8 c (fun _ _ => eq_refl) (fun c0 => foreign_curve_priv x name pt d c0 F)) end.
        clear F Hv Hn. destruct x as [[] ? ? ? ? ? ? ?]; destruct kd; vm_compute; reflexivity.
Qed.

(** Base classes. *)
Lemma sec_none x kd cv (o : obj) name pt : (o = OECPub name pt \/ exists d, o = OECPriv name pt d) -> ~ In name curve_names ->
  values x (FamEC cv) kd o = None.
Proof.
  intros O H.
  assert (str_eqb name (sec_curve cv) = false) as E.
  { destruct (str_eqb_reflect name (sec_curve cv)) as [->|]; [|reflexivity]. exfalso. apply H. destruct cv; cbn [curve_names In]; auto. }
  destruct O as [->|(d & ->)], kd; cbn [values public_values private_values]; rewrite ?E; reflexivity.
Qed.
Ltac rows H := cbn [In abstract_outcomes] in H;
    repeat (destruct H as [H|H]; [injection H as <- <-; vm_compute; reflexivity|]); contradiction.
Lemma abstract_table x K o c e : (forall pt d, o <> OECPub [] pt /\ o <> OECPriv [] pt d) -> In (c, e) (abstract_outcomes x o) ->
  snd (convert_from_fuel x (easy K) 8 c o) = Err e.
Proof.
  intros Hn H. 
  destruct o as [n e'|n e' d dmp1 dmq1 iqmp p q|p q g y|p q g y xv|name pt|name pt d|b|s|b|s|b|n].
  1-4: destruct x as [[] ? ? ? ? ? ? ?]; rows H.
  3-6: destruct x as [[] ? ? ? ? ? ? ?]; rows H.
  4: destruct x as [[] ? ? ? ? ? ? ?]; rows H.
  - destruct (curve_name_dec name) as [F|F].
    + destruct F as [<-|[<-|[<-|[<-|[]]]]]; [| | |destruct (Hn pt 0); congruence];
      destruct x as [[] ? ? ? ? ? ? ?]; rows H.
    + rewrite (convert_from_ext x (easy K) (easy K) _ (OOther 0) 8 c (fun _ _ => eq_refl) (fun c0 => foreign_curve_pub x name pt c0 F)).
      assert (abstract_outcomes x (OECPub name pt) = abstract_outcomes x (OOther 0)) as E.
      { unfold abstract_outcomes, base_outcome, sk_outcome, cert_outcome, gives, families. cbn [existsb].
        rewrite !(fun kd cv => sec_none x kd cv (OECPub name pt) name pt (or_introl eq_refl) F). reflexivity. }
      rewrite E in H. clear E F Hn. destruct x as [[] ? ? ? ? ? ? ?]; rows H.
  - destruct (curve_name_dec name) as [F|F].
    + destruct F as [<-|[<-|[<-|[<-|[]]]]]; [| | |destruct (Hn pt d); congruence];
      destruct x as [[] ? ? ? ? ? ? ?]; rows H.
    + rewrite (convert_from_ext x (easy K) (easy K) _ (OOther 0) 8 c (fun _ _ => eq_refl) (fun c0 => foreign_curve_priv x name pt d c0 F)).
      assert (abstract_outcomes x (OECPriv name pt d) = abstract_outcomes x (OOther 0)) as E.
      { unfold abstract_outcomes, base_outcome, sk_outcome, cert_outcome, gives, families. cbn [existsb].
        rewrite !(fun kd cv => sec_none x kd cv (OECPriv name pt d) name pt (or_intror (ex_intro _ d eq_refl)) F). reflexivity. }
      rewrite E in H. clear E F Hn. destruct x as [[] ? ? ? ? ? ? ?]; rows H.
  - clear Hn. do 32 (destruct b as [|? b]; [destruct x as [[] ? ? ? ? ? ? ?]; rows H|]).
    destruct b as [|? b]; destruct x as [[] ? ? ? ? ? ? ?]; rows H.
Qed.

(** ** convert_to *)
Definition all_conversions (x : ext) (f : family) (kd : kind) : list conversion :=
  match f, kd with
  | FamRSA, KPub => [conv_rsa_pub x] | FamRSA, KPriv => [conv_rsa_priv x; conv_rsa_pub x]
  | FamDSS, KPub => [conv_dsa_pub x] | FamDSS, KPriv => [conv_dsa_priv x; conv_dsa_pub x]
  | FamEC c, KPub => [conv_ec_pub x (class_of (FamEC c) KPub); conv_ec_pub x ECDSAPub]
  | FamEC c, KPriv => [conv_ec_priv x (class_of (FamEC c) KPriv); conv_ec_pub x (class_of (FamEC c) KPub);
                       conv_ec_priv x ECDSAPriv; conv_ec_pub x ECDSAPub]
  | FamEd, KPub => convs_ed_pub x | FamEd, KPriv => convs_ed_priv x ++ convs_ed_pub x
  end.
Lemma all_conversions_eq x f kd :
  flat_map (conversion_functions x) (params_classes (mro (class_of f kd))) = all_conversions x f kd.
Proof.
  unfold conversion_functions.
  destruct f as [| |[]|], kd; cbn [class_of all_conversions];
  (match goal with |- flat_map _ ?l = _ => let l' := eval vm_compute in l in change l with l' end);
  cbn [flat_map];
  repeat (match goal with |- context [lookup_attr _ (mro ?k)] => let l := eval vm_compute in (mro k) in change (mro k) with l end);
  cbn [lookup_attr own_conversions app]; rewrite ?app_nil_r; reflexivity.
Qed.
Lemma convert_to_eq x f kd d super :
  convert_to x (class_of f kd) d (DClass super) =
  match find (fun cv => super (cv_type cv)) (all_conversions x f kd) with Some cv => cv_to cv d | None => Err ValueError end.
Proof. unfold convert_to. rewrite all_conversions_eq. reflexivity. Qed.
