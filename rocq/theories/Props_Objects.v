(** C86 and C87: static properties, subclasses and abstract classes. *)
From Verif Require Import PyBase Classes Convert Crypto PrivateKeyList Generate Objects Library SpecObjects ProofBase ProofObjects.
Open Scope Z_scope.

(** ** C86: static properties *)
(** A static property of a class, read on the class or on an instance without an attribute of that
    name, is what the first definition of its getter along the MRO returns, if this is a static method
    or a class method with a constant result. *)
Theorem C86_first_getter : forall w c name getter kd ab v fuel,
  first_definition w c name (AStatic getter) ->
  first_definition w c getter (AMethod kd ab (EConst v)) -> kd <> MPlain ->
  get_attr (S fuel) w c name = Ok v /\
  (forall d, dget name d = None -> get_instance_attr (S fuel) w c d name = Ok v).
Proof.
  intros w c name g kd ab v f Hn Hg Hk. apply find_attr_spec in Hn, Hg.
  assert (get_attr (S f) w c name = Ok v) as E by (cbn [get_attr]; rewrite Hn, Hg; destruct kd; [reflexivity|reflexivity|congruence]).
  split; [exact E|]. intros d Hd. unfold get_instance_attr. rewrite Hn, Hd. exact E.
Qed.
(** A getter that reads another property of its class reads it on the class that was asked, not on
    the class that defines the getter. *)
Theorem C86_derived_getter : forall w c name getter kd ab other fuel,
  first_definition w c name (AStatic getter) -> kd <> MPlain ->
  (first_definition w c getter (AMethod kd ab (EAttr other)) -> get_attr (S fuel) w c name = get_attr fuel w c other) /\
  (first_definition w c getter (AMethod kd ab (EHalf (EAttr other))) -> forall z, get_attr fuel w c other = Ok (VInt z) ->
     get_attr (S fuel) w c name = Ok (VInt (z / 2))).
Proof.
  intros w c name g kd ab o f Hn Hk. apply find_attr_spec in Hn. split; intros Hg; apply find_attr_spec in Hg; cbn [get_attr]; rewrite Hn, Hg.
  - destruct kd; [reflexivity|reflexivity|congruence].
  - intros z Ez. destruct kd; [| |congruence]; cbn [eval_expr]; rewrite Ez; reflexivity.
Qed.
(** A getter that is not a static method or class method gives no value: a plain function is called
    without its argument, and other values are not callable. *)
Theorem C86_other_getters : forall w c name getter fuel,
  first_definition w c name (AStatic getter) ->
  (forall ab body, first_definition w c getter (AMethod MPlain ab body) -> get_attr (S fuel) w c name = Err TypeError) /\
  (forall v, first_definition w c getter (AValue v) -> get_attr (S fuel) w c name = Err TypeError) /\
  ((forall a, ~ first_definition w c getter a) -> get_attr (S fuel) w c name = Err AttributeError).
Proof.
  intros w c name g f Hn. apply find_attr_spec in Hn. cbn [get_attr]. rewrite Hn. split; [|split].
  - intros ab body Hg. apply find_attr_spec in Hg. rewrite Hg. reflexivity.
  - intros v Hg. apply find_attr_spec in Hg. rewrite Hg. reflexivity.
  - intros Hg. destruct (find_attr w c g) as [a|] eqn:E; [|reflexivity]. apply find_attr_spec in E. destruct (Hg _ E).
Qed.
(** A name that nothing along the MRO defines is no attribute of the class; an instance has it only if
    it is in the instance's own dictionary. *)
Theorem C86_no_attribute : forall w c name fuel, (forall a, ~ first_definition w c name a) ->
  get_attr (S fuel) w c name = Err AttributeError /\
  forall d, get_instance_attr (S fuel) w c d name = match dget name d with Some v => Ok v | None => Err AttributeError end.
Proof.
  intros w c name f H. assert (find_attr w c name = None) as E.
  { destruct (find_attr w c name) as [a|] eqn:E; [|reflexivity]. apply find_attr_spec in E. destruct (H _ E). }
  split; [cbn [get_attr]; rewrite E; reflexivity|]. intros d. unfold get_instance_attr. rewrite E. reflexivity.
Qed.
(** A class that derives from one class has its own definitions and, for other names, that of its
    base; no attribute of an existing class changes. *)
Theorem C86_subclass : forall w c b abc attrs w', declared w -> define_class w c [b] abc attrs = Ok w' ->
  (forall n a, first_definition w' c n a <-> dget n attrs = Some a \/ (dget n attrs = None /\ first_definition w b n a)) /\
  (forall k n fuel, is_class w k -> get_attr fuel w' k n = get_attr fuel w k n).
Proof.
  intros w c b abc attrs w' D H. split.
  - intros n a. rewrite <- !find_attr_spec, (find_attr_single _ _ _ _ _ _ n D H). destruct (dget n attrs) as [a'|].
    + split; [auto|intros [K|(K & _)]; [exact K|discriminate]].
    + split; [auto|intros [K|(_ & K)]; [discriminate|exact K]].
  - intros k n f Hk. apply get_attr_ext. intros m. exact (find_attr_old _ _ _ _ _ _ k m D H Hk).
Qed.
(** Overriding a getter in a subclass therefore changes the property of the subclass and nothing of
    its base; a subclass that overrides nothing has the properties of its base. *)
Theorem C86_override : forall w c b abc getter kd ab v w' name fuel, declared w ->
  first_definition w b name (AStatic getter) -> name <> getter -> kd <> MPlain ->
  define_class w c [b] abc [(getter, AMethod kd ab (EConst v))] = Ok w' ->
  get_attr (S fuel) w' c name = Ok v /\ (forall n, get_attr fuel w' b n = get_attr fuel w b n).
Proof.
  intros w c b abc g kd ab v w' name f D Hn Ne Hk H. destruct (C86_subclass _ _ _ _ _ _ D H) as (S1 & S2). split.
  - apply (C86_first_getter w' c name g kd ab v f).
    + apply S1. right. split; [|exact Hn]. cbn [dget]. destruct (str_eqb_reflect name g); [congruence|reflexivity].
    + apply S1. left. cbn [dget]. rewrite str_eqb_refl. reflexivity.
    + exact Hk.
  - intros n. apply S2. destruct Hn as (bf & k & s & Em & _). unfold mro_of in Em. destruct (dget b w) as [o|] eqn:E; [exists o; exact E|destruct bf; discriminate].
Qed.
Theorem C86_plain_subclass : forall w c b abc w', declared w -> define_class w c [b] abc [] = Ok w' ->
  forall n fuel, get_attr fuel w' c n = get_attr fuel w b n.
Proof.
  intros w c b abc w' D H n f. apply get_attr_ext. intros m. rewrite (find_attr_single _ _ _ _ _ _ m D H). reflexivity.
Qed.
(** The bound on the depth of the evaluation does not matter once the result is not "too deep". *)
Theorem C86_depth : forall w c n r fuel fuel', get_attr fuel w c n = r -> r <> Err OutOfFuel -> (fuel <= fuel')%nat ->
  get_attr fuel' w c n = r.
Proof. intros w c n r f f' H N L. exact (get_attr_mono f f' w c n r H N L). Qed.
(** Exactly what an assignment to an attribute of a class changes: lookups of this name that get to
    the class. *)
Theorem C86_assignment : forall w c name v w', set_attr w c name v = Ok w' -> forall k n a,
  first_definition w' k n a <->
  (n = name /\ consults w k c name /\ a = AValue v) \/ (~ (n = name /\ consults w k c name) /\ first_definition w k n a).
Proof.
  intros w c name v w' H k n a. destruct (set_attr_find _ _ _ _ _ k n H) as (F1 & F2). rewrite <- !find_attr_spec.
  destruct (str_eqb_reflect n name) as [->|Nn].
  - destruct (consults_dec w k c name) as [C|C].
    + rewrite (F1 eq_refl C). split; [intros E; injection E as <-; auto|intros [(_ & _ & ->)|(K & _)]; [reflexivity|tauto]].
    + rewrite F2 by tauto. split; [right; split; [tauto|assumption]|intros [(_ & K & _)|(_ & K)]; [contradiction|exact K]].
  - rewrite F2 by tauto. split; [right; split; [tauto|assumption]|intros [(K & _)|(_ & K)]; [contradiction|exact K]].
Qed.
(** So the properties are not read-only, in spite of their name: what is assigned on a class is what
    is read afterwards, and what is assigned on an instance hides the property there. *)
Theorem C86_readonly_refuted : forall w c name v w' fuel, declared w -> set_attr w c name v = Ok w' ->
  get_attr (S fuel) w' c name = Ok v.
Proof.
  intros w c name v w' f D H. assert (exists o, dget c w = Some o) as (o & E) by (unfold set_attr in H; destruct (dget c w); [eauto|discriminate]).
  destruct (gw_self _ (declared_good _ D) _ _ E) as (r & Er). destruct (set_attr_find _ _ _ _ _ c name H) as (F1 & _).
  cbn [get_attr]. rewrite F1; [reflexivity|reflexivity|]. exists [], r. split; [unfold mro_of; rewrite E; exact Er|constructor].
Qed.
Theorem C86_instance_hides : forall w c name v d fuel, dget name d = Some v -> get_instance_attr fuel w c d name = Ok v.
Proof. intros w c name v d f H. unfold get_instance_attr. rewrite H. destruct (find_attr w c name) as [[]|]; reflexivity. Qed.

(** *** The library *)
Definition nat_ (n : nat) : res pyval := Ok (VInt (Z.of_nat n)).
Local Open Scope string_scope.
(** The properties that the rest of the model takes as constants are those of the classes: sizes of
    the ciphers ... *)
Theorem C86_library_ciphers : forall c,
  get_attr 4 library_world (cipher_class c) (str "BLOCK_SIZE") = nat_ (block_size c) /\
  (c <> NoneCipher -> get_attr 4 library_world (cipher_class c) (str "KEY_LENGTH") = nat_ (key_length c) /\
                      get_attr 4 library_world (cipher_class c) (str "IV_LENGTH") = nat_ (iv_length c)) /\
  (is_integrity c = true -> get_attr 4 library_world (cipher_class c) (str "TAG_LENGTH") = nat_ (tag_length c)) /\
  (is_integrity c = false -> get_attr 4 library_world (cipher_class c) (str "TAG_LENGTH") = Err AttributeError) /\
  (c = NoneCipher -> get_attr 4 library_world (cipher_class c) (str "KEY_LENGTH") = Err AttributeError /\
                     get_attr 4 library_world (cipher_class c) (str "IV_LENGTH") = Err AttributeError).
Proof.
  intros c. destruct c; vm_compute; repeat split; congruence.
Qed.
Definition all_cls : list cls :=
  [UserDict; ABC; PascalStyleDict; PublicKeyParams; PrivateKeyParams; RSAPub; RSAPriv; DSSPub; DSSPriv; ECDSAPub; ECDSAPriv;
   E256Pub; E256Priv; E384Pub; E384Priv; E521Pub; E521Priv; EdPub; EdPriv; SKPub; SKPriv; SKE256Pub; SKE256Priv; SKEdPub; SKEdPriv;
   CertPub; CertRSA; CertEd; CertDSS; CertE256; CertE384; CertE521; CertSKEd; CertSKE256].
Lemma python_name_inj c k : python_name c = python_name k -> c = k.
Proof.
  assert (forallb (fun c => forallb (fun k => Bool.eqb (str_eqb (python_name c) (python_name k)) (cls_eqb c k)) all_cls) all_cls = true) as A by (vm_compute; reflexivity).
  intros H. rewrite forallb_forall in A. specialize (A c ltac:(destruct c; cbn; tauto)). rewrite forallb_forall in A.
  specialize (A k ltac:(destruct k; cbn; tauto)). rewrite H, str_eqb_refl in A. unfold cls_eqb in A. destruct (cls_eq_dec c k); [assumption|discriminate].
Qed.
(** ... the curves and the key classes that certificates and security keys refer to ... *)
Theorem C86_library_params : forall c,
  get_attr 4 library_world (python_name c) (str "CURVE_IDENTIFIER") =
    (if issubclass c ECDSAPub then Ok (VStr (class_curve_identifier c)) else Err AttributeError) /\
  get_attr 4 library_world (python_name c) (str "CURVE_NAME") =
    (if issubclass c ECDSAPub then Ok (VStr (class_curve_name c)) else Err AttributeError) /\
  (forall k, sk_base c = Some k <-> exists kd ab, find_attr library_world (python_name c) (str "get_sk_base_public_key_class") =
                                      Some (AMethod kd ab (EConst (VStr (python_name k))))) /\
  (forall k, cert_base c = Some k <-> exists kd ab, find_attr library_world (python_name c) (str "get_cert_base_public_key_class") =
                                      Some (AMethod kd ab (EConst (VStr (python_name k))))).
Proof.
  pose proof python_name_inj as Inj.
  intros c. split; [destruct c; vm_compute; reflexivity|]. split; [destruct c; vm_compute; reflexivity|].
  assert (find_attr library_world (python_name c) (str "get_sk_base_public_key_class") =
          match sk_base c with Some k => Some (AMethod MStatic (cls_eqb k PublicKeyParams) (EConst (VStr (python_name k)))) | None => None end) as E1
    by (destruct c; vm_compute; reflexivity).
  assert (find_attr library_world (python_name c) (str "get_cert_base_public_key_class") =
          match cert_base c with Some k => Some (AMethod MStatic (cls_eqb k PublicKeyParams) (EConst (VStr (python_name k)))) | None => None end) as E2
    by (destruct c; vm_compute; reflexivity).
  rewrite E1, E2. split; intros k.
  - destruct (sk_base c) as [k'|]; [|split; [discriminate|intros (? & ? & K); discriminate]]. split.
    + intros H. injection H as ->. eauto.
    + intros (kd & ab & H). assert (python_name k' = python_name k) as H' by congruence. apply Inj in H'. congruence.
  - destruct (cert_base c) as [k'|]; [|split; [discriminate|intros (? & ? & K); discriminate]]. split.
    + intros H. injection H as ->. eauto.
    + intros (kd & ab & H). assert (python_name k' = python_name k) as H' by congruence. apply Inj in H'. congruence.
Qed.
(** ... and the defaults. *)
Theorem C86_library_defaults :
  (forall class name v, In (class, name, v)
     [("ChaCha20Poly1305Cipher", "CHACHA20_KEY_LENGTH", VInt (Z.of_nat chacha_key_length));
      ("ChaCha20Poly1305Cipher", "CHACHA20_INITIAL_COUNTER_NONCE", VBytes chacha_nonce);
      ("ChaCha20Poly1305Cipher", "CHACHA20_CIPHER_TEXT_BLOCK_SIZE", VInt (Z.of_nat chacha_block));
      ("ChaCha20Poly1305Cipher", "POLY1305_KEY_LENGTH", VInt (Z.of_nat poly_key_length));
      ("BcryptKDFOptions", "SALT_LENGTH", VInt 16); ("BcryptKDFOptions", "ROUNDS", VInt 16);
      ("RSAPrivateKeyParams", "PUBLIC_EXPONENT", rsa_public_exponent); ("RSAPrivateKeyParams", "KEY_SIZE", rsa_key_size);
      ("DSSPrivateKeyParams", "KEY_SIZE", dss_key_size);
      ("Ed25519PublicKeyParams", "KEY_SIZE", VInt 32); ("Ed25519PrivateKeyParams", "KEY_SIZE", VInt 32);
      ("PascalStyleByteStream", "OPENSSH_DEFAULT_STRING_LENGTH_SIZE", VInt 4);
      ("PrivateKeyList", "OPENSSH_PRIVATE_KEY_HEADER", VStr pem_header);
      ("PrivateKeyList", "OPENSSH_PRIVATE_KEY_FOOTER", VStr pem_footer);
      ("PrivateKeyList", "WRAP_COL", VInt (Z.of_nat wrap_col))] ->
   get_attr 4 library_world (str class) (str name) = Ok v).
Proof.
  assert (forall (l : list (String.string * String.string * pyval)),
            forallb (fun x => match get_attr 4 library_world (str (fst (fst x))) (str (snd (fst x))) with Ok v => val_eqb v (snd x) | _ => false end) l = true ->
            forall class name v, In (class, name, v) l -> get_attr 4 library_world (str class) (str name) = Ok v) as A.
  { intros l H class name v K. rewrite forallb_forall in H. specialize (H _ K). cbn [fst snd] in H.
    destruct (get_attr 4 library_world (str class) (str name)) as [v'|]; [|discriminate]. destruct (val_eqb_reflect v' v); [subst; reflexivity|discriminate]. }
  apply A. vm_compute. reflexivity.
Qed.

(** A user's cipher on top of the library: class Wide(AES128_CTRCipher) with a block size of 32. Its
    IV_LENGTH, which is not overridden, follows; the properties of AES128_CTRCipher do not change. The
    hypotheses of C86_override hold of it. And AES128_CTRCipher.BLOCK_SIZE = 1 is accepted. *)
Definition wide : dict attr := [method "get_block_size" MStatic (int_ 32)].
Definition after_ (r : res world) : world := match r with Ok w => w | Err _ => [] end.
Definition wide_world : world := after_ (define_class library_world (str "Wide") [str "AES128_CTRCipher"] false wide).
Definition assigned_world : world := after_ (set_attr wide_world (str "AES128_CTRCipher") (str "BLOCK_SIZE") (VInt 1)).
Definition succeeds (r : res world) : bool := match r with Ok _ => true | Err _ => false end.
Lemma succeeds_after r : succeeds r = true -> r = Ok (after_ r).
Proof. destruct r; [reflexivity|discriminate]. Qed.
Example C86_example :
  define_class library_world (str "Wide") [str "AES128_CTRCipher"] false wide = Ok wide_world /\
  set_attr wide_world (str "AES128_CTRCipher") (str "BLOCK_SIZE") (VInt 1) = Ok assigned_world /\
  first_definition library_world (str "AES128_CTRCipher") (str "BLOCK_SIZE") (AStatic (str "get_block_size")) /\
  get_attr 4 wide_world (str "Wide") (str "BLOCK_SIZE") = Ok (VInt 32) /\
  get_attr 4 wide_world (str "Wide") (str "IV_LENGTH") = Ok (VInt 32) /\
  get_attr 4 wide_world (str "Wide") (str "KEY_LENGTH") = Ok (VInt 16) /\
  get_attr 4 wide_world (str "AES128_CTRCipher") (str "IV_LENGTH") = Ok (VInt 16) /\
  get_attr 4 assigned_world (str "AES128_CTRCipher") (str "BLOCK_SIZE") = Ok (VInt 1) /\
  get_attr 4 assigned_world (str "AES128_CTRCipher") (str "IV_LENGTH") = Ok (VInt 1) /\
  get_attr 4 assigned_world (str "Wide") (str "BLOCK_SIZE") = Ok (VInt 1) /\
  get_attr 4 assigned_world (str "AES192_CTRCipher") (str "BLOCK_SIZE") = Ok (VInt 16).
Proof.
  split; [apply succeeds_after; vm_compute; reflexivity|]. split; [apply succeeds_after; vm_compute; reflexivity|].
  split; [apply find_attr_spec; vm_compute; reflexivity|].
  do 7 (split; [vm_compute; reflexivity|]). vm_compute. reflexivity.
Qed.

(** ** C87: class hierarchies *)
(** In every hierarchy, the MRO of a class begins with the class, contains exactly its ancestors,
    each once, keeps the order of its bases and the order of the MRO of each base. *)
Theorem C87_mro : forall w c o, declared w -> dget c w = Some o ->
  (exists rest, mro_of w c = c :: rest) /\ NoDup (mro_of w c) /\
  (forall k, In k (mro_of w c) <-> ancestor w k c) /\
  subsequence (c_bases o) (mro_of w c) /\
  (forall b, In b (c_bases o) -> subsequence (mro_of w b) (mro_of w c)).
Proof.
  intros w c o D E. pose proof (declared_good _ D) as G. assert (mro_of w c = c_mro o) as Em by (unfold mro_of; rewrite E; reflexivity). rewrite Em.
  split; [exact (gw_self _ G _ _ E)|]. split; [exact (gw_nodup _ G _ _ E)|]. split.
  - intros k. split; [apply (mro_ancestor _ D); exact E|]. intros A. rewrite <- Em. apply ancestor_mro; assumption.
  - split; [exact (gw_order _ G _ _ E)|]. intros b Hb. destruct (gw_bases _ G _ _ _ E Hb) as (ob & Eb & Sb). unfold mro_of. rewrite Eb. exact Sb.
Qed.
(** A class statement succeeds exactly if such an order exists, and raises TypeError otherwise. *)
Theorem C87_class_statement : forall w c bs abc attrs, declared w -> dget c w = None -> (forall b, In b bs -> is_class w b) ->
  ((exists w', define_class w c bs abc attrs = Ok w') <->
   NoDup bs /\ exists r, NoDup r /\ subsequence bs r /\ forall b, In b bs -> subsequence (mro_of w b) r) /\
  (forall e, define_class w c bs abc attrs = Err e -> e = TypeError).
Proof.
  intros w c bs abc attrs D N H. split; [apply define_class_iff; assumption|]. intros e. apply define_class_err.
Qed.
(** A class is abstract, and cannot be instantiated, exactly if for some name the first definition
    along the MRO is an abstract method. *)
Theorem C87_abstract : forall w c, declared w -> abstract_in_abc w ->
  (class_is_abstract w c = true <-> exists n a, first_definition w c n a /\ abstract_method a) /\
  (instantiate w c = Err TypeError <-> exists n a, first_definition w c n a /\ abstract_method a).
Proof.
  intros w c D A. pose proof (class_is_abstract_iff w c D A) as I. split; [exact I|]. rewrite <- I. unfold instantiate.
  destruct (class_is_abstract w c); split; congruence.
Qed.
(** So a subclass is concrete exactly if it has no abstract method of its own and defines every name
    for which its base has one. *)
Theorem C87_subclass : forall w c b abc attrs w', declared w -> define_class w c [b] abc attrs = Ok w' -> abstract_in_abc w' ->
  (instantiate w' c = Ok tt <->
   (forall n a, dget n attrs = Some a -> ~ abstract_method a) /\
   (forall n a, first_definition w b n a -> abstract_method a -> exists a', dget n attrs = Some a')).
Proof.
  intros w c b abc attrs w' D H A. pose proof (class_is_abstract_iff w' c (declared_class _ _ _ _ _ _ D H) A) as I.
  destruct (C86_subclass _ _ _ _ _ _ D H) as (F & _). unfold instantiate. destruct (class_is_abstract w' c).
  - split; [discriminate|]. intros (H1 & H2). exfalso. destruct (proj1 I eq_refl) as (n & a & Fn & Ha). apply F in Fn as [E|(E & Fb)].
    + exact (H1 _ _ E Ha).
    + destruct (H2 _ _ Fb Ha) as (a' & E'). congruence.
  - split; [|reflexivity]. intros _. assert (forall n a, first_definition w' c n a -> ~ abstract_method a) as N.
    { intros n a Fn Ha. assert (false = true); [|discriminate]. apply I. eauto. }
    split.
    + intros n a E. apply (N n). apply F. auto.
    + intros n a Fb Ha. destruct (dget n attrs) as [a'|] eqn:E; [eauto|]. exfalso. apply (N n a); [apply F; auto|exact Ha].
Qed.

(** *** The library *)
Lemma library_imports : import_library = Ok library_world.
Proof. vm_compute. reflexivity. Qed.
Lemma import_declared w : import_library = Ok w -> declared w.
Proof. exact (define_all_declared library [] w declared_nothing). Qed.
Definition abstract_in_abc_check (w : world) : bool :=
  forallb (fun kv => c_abc (snd kv) || negb (existsb (fun na => is_abstract_attr (Some (snd na))) (c_attrs (snd kv)))) w.
Lemma abstract_in_abc_check_ok w : abstract_in_abc_check w = true -> abstract_in_abc w.
Proof.
  unfold abstract_in_abc_check. intros A. rewrite forallb_forall in A. intros c o n a Ec En (kd & body & ->). apply dget_In in Ec, En. specialize (A _ Ec). cbn [snd] in A.
  destruct (c_abc o); [reflexivity|]. exfalso. apply negb_true_iff in A.
  assert (existsb (fun na => is_abstract_attr (Some (snd na))) (c_attrs o) = true); [|congruence]. apply existsb_exists. exists (n, AMethod kd true body). auto.
Qed.
Lemma library_check : abstract_in_abc_check library_world = true.
Proof. vm_compute. reflexivity. Qed.
(** Importing the package succeeds; the theorems above apply to its classes. *)
Theorem C87_library_world : import_library = Ok library_world /\ declared library_world /\ abstract_in_abc library_world.
Proof.
  exact (conj library_imports (conj (import_declared _ library_imports) (abstract_in_abc_check_ok _ library_check))).
Qed.
(** The MROs and the abstract classes of the rest of the model are those of the class statements. *)
Theorem C87_library_params : forall c : cls,
  mro_of library_world (python_name c) = map python_name (mro c) /\
  class_is_abstract library_world (python_name c) = is_abstract c.
Proof. intros c. split; destruct c; vm_compute; reflexivity. Qed.
(** The classes that cannot be instantiated. *)
Theorem C87_library_abstract : forall c, is_class library_world c ->
  (instantiate library_world c = Err TypeError <->
   In c (map str ["PascalStyleDict"; "Cipher"; "InitializationVectorCipher"; "ConfidentialityOnlyCipher"; "AESCipher"; "CTRCipher";
     "AES128_CTRCipher"; "AES192_CTRCipher"; "AES256_CTRCipher"; "CBCCipher"; "AES128_CBCCipher"; "AES192_CBCCipher"; "AES256_CBCCipher";
     "TripleDESCipher"; "TripleDES_CBCCipher"; "ConfidentialityIntegrityCipher"; "AES_GCMCipher"; "KDFOptions"; "PublicKeyParams";
     "PrivateKeyParams"; "ECDSAPublicKeyParams"; "ECDSAPrivateKeyParams"; "SecurityKeyPublicKeyParams"; "SecurityKeyPrivateKeyParams";
     "CertPublicKeyParams"; "Key"])).
Proof.
  intros c (o & E). apply dget_In in E.
  match goal with |- _ <-> In c ?l => set (names := l) end.
  assert (forallb (fun kv => Bool.eqb (class_is_abstract library_world (fst kv)) (smem (fst kv) names)) library_world = true) as A by (vm_compute; reflexivity).
  rewrite forallb_forall in A. specialize (A _ E). cbn [fst] in A. apply Bool.eqb_prop in A. rewrite <- smem_spec, <- A.
  unfold instantiate. destruct (class_is_abstract library_world c); split; congruence.
Qed.
(** The methods each of them leaves abstract: what a subclass has to define. *)
Definition left_abstract : list (pystr * list pystr) := map (fun cn => (str (fst cn), map str (snd cn)))
  [("PascalStyleDict", ["get_format_instructions_dict"]);
   ("Cipher", ["encrypt"; "decrypt"; "get_block_size"]);
   ("InitializationVectorCipher", ["get_key_length"; "get_iv_length"; "get_block_size"; "encrypt_with_key_iv"; "decrypt_with_key_iv"]);
   ("ConfidentialityOnlyCipher", ["get_key_length"; "get_iv_length"; "get_block_size"; "get_mode"; "get_algorithm"]);
   ("AESCipher", ["get_key_length"; "get_iv_length"; "get_mode"]);
   ("TripleDESCipher", ["get_key_length"; "get_iv_length"; "get_mode"]);
   ("CTRCipher", ["get_key_length"; "get_iv_length"; "get_block_size"; "get_algorithm"]);
   ("CBCCipher", ["get_key_length"; "get_iv_length"; "get_block_size"; "get_algorithm"]);
   ("AES128_CTRCipher", ["get_iv_length"]); ("AES192_CTRCipher", ["get_iv_length"]); ("AES256_CTRCipher", ["get_iv_length"]);
   ("AES128_CBCCipher", ["get_iv_length"]); ("AES192_CBCCipher", ["get_iv_length"]); ("AES256_CBCCipher", ["get_iv_length"]);
   ("TripleDES_CBCCipher", ["get_iv_length"]);
   ("ConfidentialityIntegrityCipher", ["get_key_length"; "get_iv_length"; "get_block_size"; "get_tag_length"; "encrypt_with_key_iv"; "decrypt_with_key_iv"]);
   ("AES_GCMCipher", ["get_key_length"]);
   ("KDFOptions", ["derive_key"; "generate_options"; "get_format_instructions_dict"]);
   ("PublicKeyParams", ["get_format_instructions_dict"]);
   ("PrivateKeyParams", ["get_format_instructions_dict"; "generate_private_params"]);
   ("ECDSAPublicKeyParams", ["get_curve_identifier"; "get_curve_name"; "get_curve_oid"]);
   ("ECDSAPrivateKeyParams", ["get_curve_identifier"; "get_curve_name"; "get_curve_oid"]);
   ("SecurityKeyPublicKeyParams", ["get_sk_base_public_key_class"]);
   ("SecurityKeyPrivateKeyParams", ["get_sk_base_public_key_class"]);
   ("CertPublicKeyParams", ["get_cert_base_public_key_class"]);
   ("Key", ["get_header_format_instructions_dict"; "get_footer_format_instructions_dict"; "create_key_params"])].
Lemma smem_subset a b n : forallb (fun x => smem x b) a = true -> In n a -> In n b.
Proof. intros F I. rewrite forallb_forall in F. apply smem_spec. apply F. exact I. Qed.
Theorem C87_library_left_abstract : forall c n, is_class library_world c ->
  ((exists a, first_definition library_world c n a /\ abstract_method a) <->
   exists ns, In (c, ns) left_abstract /\ In n ns).
Proof.
  intros c n (o & E). destruct C87_library_world as (_ & D & A). destruct (abstract_set _ D A c o n E) as (I & _).
  transitivity (In n (c_abstract o)).
  { rewrite I. split; intros (a & F & H); exists a; (split; [apply find_attr_spec; exact F|exact H]). }
  assert (forallb (fun kv => let ns := match dget (fst kv) left_abstract with Some ns => ns | None => [] end in
            forallb (fun x => smem x ns) (c_abstract (snd kv)) && forallb (fun x => smem x (c_abstract (snd kv))) ns) library_world = true) as F by (vm_compute; reflexivity).
  rewrite forallb_forall in F. specialize (F _ (dget_In _ _ _ E)). cbn [fst snd] in F. apply andb_prop in F as (F1 & F2).
  split.
  - intros K. apply (smem_subset _ _ _ F1) in K. destruct (dget c left_abstract) as [ns|] eqn:G; [|destruct K]. exists ns. split; [apply dget_In; exact G|exact K].
  - intros (ns & G & K). assert (dget c left_abstract = Some ns) as Gd.
    { apply In_dget; [|exact G]. apply no_duplicates_spec. vm_compute. reflexivity. }
    rewrite Gd in F2. exact (smem_subset _ _ _ F2 K).
Qed.
(** The classical inconsistent hierarchy is refused; a diamond is accepted; a subclass of an abstract
    class of the library becomes concrete by defining the method that was left, get_iv_length. *)
Definition mine_world : world :=
  after_ (define_class library_world (str "Mine") [str "AES128_CTRCipher"] false [method "get_iv_length" MClass (int_ 16)]).
Example C87_example :
  (exists w, define_all [] [class_ "A" [] []; class_ "B" [] []; class_ "X" ["A"; "B"] []; class_ "Y" ["B"; "A"] []] = Ok w /\
             define_class w (str "Z") [str "X"; str "Y"] false [] = Err TypeError) /\
  (exists w, define_all [] [class_ "A" [] []; class_ "B" ["A"] []; class_ "C" ["A"] []; class_ "D" ["B"; "C"] []] = Ok w /\
             mro_of w (str "D") = map str ["D"; "B"; "C"; "A"]) /\
  instantiate library_world (str "AES128_CTRCipher") = Err TypeError /\
  define_class library_world (str "Mine") [str "AES128_CTRCipher"] false [method "get_iv_length" MClass (int_ 16)] = Ok mine_world /\
  instantiate mine_world (str "Mine") = Ok tt /\
  instantiate library_world (str "ChaCha20Poly1305Cipher") = Ok tt.
Proof.
  split. { eexists. split; vm_compute; reflexivity. }
  split. { eexists. split; vm_compute; reflexivity. }
  split; [vm_compute; reflexivity|]. split; [apply succeeds_after; vm_compute; reflexivity|]. split; vm_compute; reflexivity.
Qed.

Print Assumptions C86_first_getter.
Print Assumptions C86_derived_getter.
Print Assumptions C86_other_getters.
Print Assumptions C86_no_attribute.
Print Assumptions C86_subclass.
Print Assumptions C86_override.
Print Assumptions C86_plain_subclass.
Print Assumptions C86_depth.
Print Assumptions C86_assignment.
Print Assumptions C86_readonly_refuted.
Print Assumptions C86_instance_hides.
Print Assumptions C86_library_ciphers.
Print Assumptions C86_library_params.
Print Assumptions C86_library_defaults.
Print Assumptions C87_mro.
Print Assumptions C87_class_statement.
Print Assumptions C87_abstract.
Print Assumptions C87_subclass.
Print Assumptions C87_library_world.
Print Assumptions C87_library_params.
Print Assumptions C87_library_abstract.
Print Assumptions C87_library_left_abstract.
