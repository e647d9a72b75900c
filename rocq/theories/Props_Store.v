(** From the cryptography package to a file and back: C75. *)
From Verif Require Import PyBase IntBytes Utf8 StructFmt Stream Text Classes Key Crypto PrivateKeyList Convert Generate.
From Verif Require Import SpecWire SpecKey SpecText SpecCrypto SpecList SpecConvert SpecGenerate.
From Verif Require Import ProofBase ProofInt ProofUtf8 ProofWire ProofRecord ProofKey ProofErr ProofLog ProofText ProofCrypto ProofList ProofRead ProofConvert.
From Verif Require Import Props_Key Props_Crypto Props_List Props_Round Props_Build Props_Params Props_Convert Props_Generate Props_Edit Props_Flow.
Open Scope Z_scope.

Section Store.
Variable x : ext.
(** [q] is what generating a key of family [f] with some arguments returned, when the
    generator's answer was [o]. *)
Definition generated (gen : request -> res obj) (f : family) (comment : pystr) (o : obj) (q : pair) : Prop :=
  exists kwargs r lg, asks kwargs f r /\ gen r = Ok o /\ answers x r o /\ constructible x o /\
    generate_pair x gen (family_type f) comment kwargs = (lg, Ok q).
Lemma answers_type f kwargs r o : asks kwargs f r -> answers x r o -> exists ty, obj_type o = Some ty /\ In ty (foreign_types x f KPriv).
Proof.
  intros A B. destruct A as [e s He Hs| |c|]; destruct o; cbn [answers] in B; try contradiction; cbn [obj_type foreign_types];
    eexists; (split; [reflexivity|]); try (left; reflexivity); destruct (x_nacl x); cbn; tauto.
Qed.
Lemma family_spec f : exists pub priv, In (family_type f, (pub, Some priv)) key_specs.
Proof. destruct f as [| |[]|]; (eexists _, _; unfold key_specs, plain_specs; cbn [map app fst snd In family_type]; eauto 12). Qed.
Lemma generated_facts gen f comment o q : derives32 x -> generated gen f comment o q ->
  is_pair q /\ reparses (x_ec_ok x) (pr_public q) /\ is_key (family_type f) (pr_public q) /\ is_key (family_type f) (pr_private q) /\
  exists v, values x f KPriv o = Some v /\ k_params (pr_private q) = v /\ k_params (pr_public q) = v /\
    k_footer (pr_private q) = [(str "comment", VStr comment)] /\ exists ty, obj_type o = Some ty /\ In ty (foreign_types x f KPriv) /\ constructible x o.
Proof.
  intros D (kwargs & r & lg & A & Eg & B & C & G). pose proof (C71_generate x gen f kwargs r comment D A) as K. rewrite Eg in K.
  destruct K as (pub & priv & v & Eq & Hv & _ & K1 & K2 & I1 & I2 & E1 & E2 & F1 & _); [intros o' E; injection E as <-; exact B|].
  rewrite G in Eq. injection Eq as _ ->. cbn [pr_public pr_private].
  split; [unfold is_pair; cbn [pr_public pr_private]; eauto 10|]. destruct (family_spec f) as (pu & pr & Hs).
  split; [left; eexists _, _, _; split; [exact Hs|exact I1]|]. split; [exact I1|]. split; [exact I2|].
  exists v. split; [exact Hv|]. split; [exact E1|]. split; [exact E2|]. split; [exact F1|].
  destruct (answers_type _ _ _ _ A B) as (ty & T & I). exists ty. auto.
Qed.
(** Keys are generated, put in a list, packed to a file with any cipher, KDF and passphrase;
    the file is parsed with that passphrase. The keys read convert to the very objects that the
    cryptography package had generated, and carry the comments that were given. *)
Theorem C75_generate_store_load gen p e e' fs comments os qs items cn kn oo l given given' ov retain b :
  sound_prims p -> derives32 x -> Z.of_nat (length b) <= ssize_max ->
  length comments = length fs -> length os = length fs -> length qs = length fs ->
  (forall i f c o q, nth_error fs i = Some f -> nth_error comments i = Some c -> nth_error os i = Some o -> nth_error qs i = Some q -> generated gen f c o q) ->
  Forall2 item_is items qs -> from_list items cn kn oo = Ok l ->
  snd (list_pack_bytes p e l given None ov retain) = Ok b ->
  (forall kn pass, passphrase_used e kn given pass -> passphrase_used e' kn given' pass) ->
  exists lg l', list_from_bytes p e' b given' = (lg, Ok l') /\ length (l_pairs l') = length fs /\
    forall i f c o q', nth_error fs i = Some f -> nth_error comments i = Some c -> nth_error os i = Some o -> nth_error (l_pairs l') i = Some q' ->
      k_header (pr_public q') = [(str "key_type", VStr (family_type f))] /\ k_header (pr_private q') = [(str "key_type", VStr (family_type f))] /\
      k_footer (pr_private q') = [(str "comment", VStr c)] /\
      values x f KPriv o = Some (k_params (pr_private q')) /\
      (exists ty, obj_type o = Some ty /\
         convert_to x (k_pcls (pr_private q')) (k_params (pr_private q')) (exactly ty) = Ok o) /\
      (forall y v, dget y (k_params (pr_public q')) = Some v -> dget y (k_params (pr_private q')) = Some v).
Proof.
  intros S D L Lc Lo Lq Hg Fi Hl Hp Hpass.
  assert (forall q, In q qs -> exists f c o, generated gen f c o q) as Hq.
  { intros q Q. apply In_nth_error in Q as (i & Q). assert (i < length qs)%nat as Li by (apply nth_error_Some; congruence).
    destruct (nth_error fs i) as [f|] eqn:Ef; [|apply nth_error_None in Ef; lia].
    destruct (nth_error comments i) as [c|] eqn:Ec; [|apply nth_error_None in Ec; lia].
    destruct (nth_error os i) as [o|] eqn:Eo; [|apply nth_error_None in Eo; lia]. exists f, c, o. eapply Hg; eassumption. }
  assert (Forall is_pair qs) as Ip.
  { apply Forall_forall. intros q Q. destruct (Hq q Q) as (f & c & o & G). apply (generated_facts _ _ _ _ _ D G). }
  assert (ov = false -> Forall (fun q => reparses (p_ec_ok p) (pr_public q)) qs) as Rp.
  { intros _. apply Forall_forall. intros q Q. destruct (Hq q Q) as (f & c & o & G). destruct (generated_facts _ _ _ _ _ D G) as (_ & _ & I1 & _).
    left. destruct (family_spec f) as (pu & pr & Hs). eexists _, _, _. split; [exact Hs|exact I1]. }
  destruct (C64_build_pack_parse p e e' items qs cn kn oo l given given' ov retain b S L Fi Ip Hl Hp Rp Hpass) as (lg & l' & h & E & F & _).
  exists lg, l'. split; [exact E|]. split; [rewrite <- (Forall2_len _ _ _ F); exact Lq|].
  intros i f c o q' Ef Ec Eo Eq.
  assert (exists q, nth_error qs i = Some q /\ same_private (pr_private q) (pr_private q') /\ same_public (if ov then pr_private q else pr_public q) (pr_public q')) as (q & Hq' & A & B).
  { clear - F Eq. revert i Eq. induction F as [|q0 q1 qs qs' H F IH]; intros [|i] Eq; cbn [nth_error] in *; try discriminate; [|exact (IH i Eq)]. injection Eq as ->. exists q0. split; [reflexivity|exact H]. }
  pose proof (generated_facts _ _ _ _ _ D (Hg _ _ _ _ _ Ef Ec Eo Hq')) as (_ & _ & I1 & I2 & v & Hv & P1 & P2 & F1 & ty & T & It & Cn).
  destruct A as (t & pu & pr & Hs & Ik1 & Ik2 & Kd & Hh & Rp' & Rf & _).
  assert (t = family_type f) as -> by (destruct Ik1 as (X & _), I2 as (Y & _); rewrite X in Y; injection Y as Y; exact Y).
  destruct B as (t2 & pu2 & pr2 & Hs2 & Jk1 & Jk2 & Kd2 & Hh2 & Rp2 & _).
  assert (t2 = family_type f) as ->.
  { destruct Jk1 as (X & _), I1 as (Y & _), I2 as (Z & _). destruct ov; [rewrite X in Z; injection Z as Z; exact Z|rewrite X in Y; injection Y as Y; exact Y]. }
  pose proof (key_specs_fun _ _ _ Hs Hs2) as Es. injection Es as <- <-.
  destruct (C56_fields x f KPriv o v Hv) as (pu3 & pr3 & Hs3 & Ek). pose proof (key_specs_fun _ _ _ Hs Hs3) as Es. injection Es as <- <-.
  destruct (spec_private _ _ _ Hs) as (cc & _ & _ & Nd & _).
  assert (k_params (pr_private q') = v) as Ev by (rewrite P1 in Rp'; exact (restricts_self _ _ _ Nd Ek Rp')).
  split; [exact Hh2|]. split; [exact Hh|]. split; [rewrite F1 in Rf; refine (restricts_self [str "comment"] _ _ (nodup_one _) _ Rf); reflexivity|].
  split; [rewrite Ev; exact Hv|]. split.
  - exists ty. split; [exact T|]. destruct Ik2 as (_ & Ic). rewrite Kd in Ic. rewrite Ev. exact (C56_object_roundtrip x f KPriv _ o ty v Ic T It Cn Hv).
  - intros y w G. destruct Rp2 as (Dk & Rk). assert (In y (map fst pu)) as Iy.
    { rewrite <- Dk. destruct (in_dec (list_eq_dec N.eq_dec) y (dkeys (k_params (pr_public q')))) as [I|I]; [exact I|]. apply (proj2 (dget_None _ _)) in I. congruence. }
    rewrite (Rk y Iy) in G. rewrite Ev. destruct ov; congruence.
Qed.
End Store.

(** An RSA and an Ed25519 key, generated, stored encrypted and loaded. *)
Definition ex_generated : list pair := Eval vm_compute in
  match generate_pair ex_x ex_gen (str "ssh-rsa") (str "first") [(str "key_size", VInt 12); (str "e", VInt 17)],
        generate_pair ex_x ex_gen (str "ssh-ed25519") (str "second") [] with
  | (_, Ok a), (_, Ok b) => [a; b]
  | _, _ => []
  end.
Example C75_example :
  (forall i f c o q, nth_error [FamRSA; FamEd] i = Some f -> nth_error [str "first"; str "second"] i = Some c ->
     nth_error [ORSAPriv 3233 17 413 53 49 38 61 53; OEdPriv (repeat x01 32)] i = Some o -> nth_error ex_generated i = Some q -> generated ex_x ex_gen f c o q) /\
  exists l b, from_list (map (fun q => PairItem (Some (pr_public q)) (Some (pr_private q))) ex_generated) (str "aes256-ctr") (str "bcrypt") None = Ok l /\
    snd (list_pack_bytes toy_prims ex_env l (Some (str "pw")) None true false) = Ok b.
Proof.
  split; [|eexists _, _; split; [reflexivity|vm_compute; reflexivity]].
  intros [|[|[|i]]] f c o q Ef Ec Eo Eq; cbn [nth_error] in *; try discriminate;
    injection Ef as <-; injection Ec as <-; injection Eo as <-; injection Eq as <-.
  - exists [(str "key_size", VInt 12); (str "e", VInt 17)], (AskRSA (VInt 17) (VInt 12)), [].
    split; [constructor; apply arg_given; reflexivity|]. split; [reflexivity|].
    split; [split; [reflexivity|]; exists 12; split; [reflexivity|unfold bits; lia]|].
    split; [|vm_compute; reflexivity]. split; [reflexivity|]. split; [discriminate|]. split; [discriminate|]. split; reflexivity.
  - exists [], AskEd25519, []. split; [constructor|]. split; [reflexivity|]. split; [reflexivity|]. split; [reflexivity|vm_compute; reflexivity].
Qed.

Print Assumptions C75_generate_store_load.
