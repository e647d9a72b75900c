(** Properties of private key lists: C24 to C35, C38 to C40, C58. *)
From Verif Require Import PyBase IntBytes Utf8 StructFmt Stream Text Classes Key Crypto PrivateKeyList.
From Verif Require Import SpecWire SpecKey SpecText SpecCrypto SpecList.
From Verif Require Import ProofBase ProofInt ProofUtf8 ProofWire ProofRecord ProofKey ProofLog ProofErr ProofText ProofCrypto ProofList.
From Verif Require Import Props_Stream Props_Key Props_Crypto ProofRead.
Open Scope Z_scope.

(** ** C25 *)
(** pack_bytes returns [b] exactly if [b] is the file described by [packed] (SpecList). *)
Theorem C25_pack_bytes_layout p e l given idx ov retain b :
  sound_prims p -> Z.of_nat (length b) <= ssize_max ->
  snd (list_pack_bytes p e l given idx ov retain) = Ok b <-> packed p e l given idx ov retain b.
Proof. intros S L. split; [apply pack_layout; exact S|]. intros H. apply pack_complete; assumption. Qed.
(** Nothing else has that layout: the file is determined by its parts. *)
Theorem C25_layout_functional cn kn opts pubs body tail b b' :
  file_of cn kn opts pubs body tail b -> file_of cn kn opts pubs body tail b' -> b = b'.
Proof.
  intros (c & k & o & n & ps & x & Wc & Wk & Po & Ln & Un & F & Px & ->) (c' & k' & o' & n' & ps' & x' & Wc' & Wk' & Po' & Ln' & Un' & F' & Px' & ->).
  assert (c = c') as <- by (inversion Wc; inversion Wc'; subst; match goal with A : utf8 cn ?u, B : utf8 cn ?v |- _ => assert (u = v) as -> by (eapply utf8_functional; eassumption) end; eapply prefixed_functional; eassumption).
  assert (k = k') as <- by (inversion Wk; inversion Wk'; subst; match goal with A : utf8 kn ?u, B : utf8 kn ?v |- _ => assert (u = v) as -> by (eapply utf8_functional; eassumption) end; eapply prefixed_functional; eassumption).
  assert (o = o') as <- by (eapply prefixed_functional; eassumption).
  assert (x = x') as <- by (eapply prefixed_functional; eassumption).
  assert (n = n') as <- by (rewrite !unsigned_be in *; apply be_value_inj; congruence).
  assert (ps = ps') as <-; [|reflexivity].
  clear - F F'. revert ps' F'. induction F as [|u v us vs P F IH]; intros ps' F'; inversion F' as [|? v' ? vs' P' F2]; subst; [reflexivity|].
  f_equal; [eapply prefixed_functional; eassumption|apply IH; assumption].
Qed.

(** ** C26 *)
(** The plaintext ends with 1, 2, 3, ..., as few as make it a multiple of the block size. *)
Theorem C26_padding p e l given idx ov retain b :
  sound_prims p -> snd (list_pack_bytes p e l given idx ov retain) = Ok b ->
  exists cn kn d opts pubs body tag pass plain privs pad bs,
    file_of cn kn opts pubs body tag b /\ enciphers p cn kn d pass plain (body ++ tag) /\ block_of cn bs /\
    plaintext_of (e_randbits e) (e_randbits e) privs pad plain /\
    (length plain mod bs = 0)%nat /\ (length pad < bs)%nat /\ counting pad.
Proof.
  intros S H. apply pack_layout in H; [|exact S].
  destruct H as (cn & kn & d & opts & sel & pubs & privs & bs & pad & plain & pass & body & tag & H).
  exists cn, kn, d, opts, pubs, body, tag, pass, plain, privs, pad, bs. intuition assumption.
Qed.

(** ** C33 *)
Definition with_pairs (l : pkl) (ps : list pair) : pkl :=
  mkpkl ps (l_byte_string l) (l_header l) (l_cipher_bytes l) (l_kdf_options l)
        (l_decipher_bytes l) (l_decipher_header l) (l_padding l).
(** Packing with include_indices is packing the list of the pairs at these indices: same
    bytes or exception, same warnings and prompts. *)
Theorem C33_selects p e l given idx sel ov retain :
  chosen (l_pairs l) (Some idx) sel ->
  list_pack_bytes p e l given (Some idx) ov retain = list_pack_bytes p e (with_pairs l sel) given None ov retain.
Proof.
  intros H. rewrite !list_pack_eq. cbn [with_pairs]. unfold list_cipher_kdf, options_for. cbn [l_header l_kdf_options l_pairs].
  rewrite (proj1 (chosen_iff l (Some idx) sel) H).
  rewrite (proj1 (chosen_iff (with_pairs l sel) None sel) eq_refl). reflexivity.
Qed.
(** Without include_indices all pairs are packed, in order. *)
Theorem C33_default p e l given ov retain :
  list_pack_bytes p e l given None ov retain =
  list_pack_bytes p e l given (Some (map Z.of_nat (seq 0 (length (l_pairs l))))) ov retain.
Proof. reflexivity. Qed.
(** An index that is out of range is never accepted. *)
Theorem C33_out_of_range_rejected p e l given idx i ov retain :
  In i idx -> (i >= Z.of_nat (length (l_pairs l)) \/ i < - Z.of_nat (length (l_pairs l))) ->
  exists x, snd (list_pack_bytes p e l given (Some idx) ov retain) = Err x.
Proof.
  intros Hi Hr. destruct (snd (list_pack_bytes p e l given (Some idx) ov retain)) as [b|x] eqn:E; [|eexists; reflexivity]. exfalso.
  rewrite list_pack_eq in E. cbn [indices] in E. unfold pack_selected in E.
  apply snd_wbind in E as (o & _ & E). apply snd_wbind in E as (k & _ & E). apply snd_wbind in E as (ob & _ & E).
  apply snd_wbind in E as (prefix & E & _). rewrite snd_wlift in E.
  destruct (dict_bytes list_header_fmt _) as [h|]; [|discriminate]. cbn [rbind] in E.
  destruct (pubs_bytes ov _) as [y|] eqn:Ey; [|discriminate]. apply pubs_sel in Ey as (sel & Es).
  assert (exists q, py_index (l_pairs l) i = Ok q) as (q & Eq).
  { apply (in_map (py_index (l_pairs l))) in Hi. rewrite Es in Hi. apply in_map_iff in Hi as (q & <- & _). exists q. reflexivity. }
  apply py_index_iff in Eq as [(Hp & En)|(Hp & Hn & En)]; [|lia].
  assert (Z.to_nat i < length (l_pairs l))%nat by (apply nth_error_Some; congruence). lia.
Qed.
(** If it is the first thing that is wrong, the exception is an IndexError. *)
Lemma pubs_bytes_app_err ov rs r rs' y : pubs_bytes ov rs = Ok y -> r = Err IndexError -> pubs_bytes ov (rs ++ r :: rs') = Err IndexError.
Proof.
  intros H ->. revert y H. induction rs as [|q rs IH]; intros y H; [reflexivity|]. cbn [app pubs_bytes] in *.
  destruct q as [q|]; [|discriminate]. cbn [rbind] in *.
  destruct (pack_public_bytes _) as [b|]; [|discriminate]. cbn [rbind] in *.
  destruct (instr_bytes fB (VBytes b)) as [x|]; [|discriminate]. cbn [rbind] in *.
  destruct (pubs_bytes ov rs) as [z|]; [|discriminate]. rewrite (IH z eq_refl). reflexivity.
Qed.
Theorem C33_out_of_range_index_error p e l given good i rest ov retain b :
  snd (list_pack_bytes p e l given (Some good) ov retain) = Ok b ->
  (i >= Z.of_nat (length (l_pairs l)) \/ i < - Z.of_nat (length (l_pairs l))) ->
  Z.of_nat (length (good ++ i :: rest)) < 2 ^ 31 ->
  snd (list_pack_bytes p e l given (Some (good ++ i :: rest)) ov retain) = Err IndexError.
Proof.
  intros H Hr Hn. rewrite list_pack_eq in *. cbn [indices] in *.
  destruct (list_cipher_kdf l) as [cv kv]. cbn [fst snd] in *. set (opts := options_for e l retain kv) in *.
  unfold pack_selected in *.
  destruct opts as [lo [o|]]; [|discriminate]. cbn [wbind] in *.
  assert (py_index (l_pairs l) i = Err IndexError) as Ei.
  { destruct (py_index (l_pairs l) i) as [q|x] eqn:Eq; [|f_equal; eapply py_index_err; exact Eq]. exfalso.
    apply py_index_iff in Eq as [(Hp & En)|(Hp & Hn' & En)]; [|lia].
    assert (Z.to_nat i < length (l_pairs l))%nat by (apply nth_error_Some; congruence). lia. }
  assert (forall (x y : list event * res bytes), snd x = snd y -> snd (let '(l', r) := x in (lo ++ l', r)) = snd (let '(l', r) := y in (lo ++ l', r))) as Sn.
  { intros [? ?] [? ?]. auto. }
  assert (forall (x : list event * res bytes), snd (let '(l', r) := x in (lo ++ l', r)) = snd x) as Sn' by (intros [? ?]; reflexivity).
  rewrite Sn' in *. clear Sn Sn'.
  destruct (get_kdf kv) as [k|] eqn:Ek; [|discriminate]. rewrite !wbind_lift in *.
  destruct (dict_bytes (kdf_format k) o) as [ob|] eqn:Eob; [|discriminate]. rewrite !wbind_lift in *.
  rewrite map_app, map_cons, Ei. rewrite map_length in H.
  match goal with |- context [file_header cv kv ob ?m] => assert (Z.of_nat m < 2 ^ 31) as Hm
    by (rewrite app_length in *; cbn [length] in *; rewrite !map_length; exact Hn); generalize m Hm; intros m' Hm'; clear Hm end.
  destruct (dict_bytes list_header_fmt (file_header cv kv ob (length good))) as [h|] eqn:Eh; [|discriminate]. cbn [rbind] in H.
  destruct (pubs_bytes ov (map (py_index (l_pairs l)) good)) as [y|] eqn:Ey; [|discriminate].
  rewrite (pubs_bytes_app_err _ _ _ _ _ Ey eq_refl).
  assert (exists h', dict_bytes list_header_fmt (file_header cv kv ob m') = Ok h') as (h' & ->); [|reflexivity].
  assert (exists cn, cv = VStr cn) as (cn & ->).
  { apply snd_wbind in H as (pfx & _ & H). apply snd_wbind in H as (plain & H & _). rewrite snd_wlift in H.
    apply rbind_ok in H as (a1 & _ & H). apply rbind_ok in H as (a2 & _ & H). apply rbind_ok in H as (c & Hc & _).
    apply get_cipher_str in Hc. exact Hc. }
  assert (exists kn, kv = VStr kn) as (kn & ->) by (apply get_kdf_iff in Ek as [(-> & _)|(-> & _)]; eexists; reflexivity).
  apply file_header_iff in Eh as (c & k0 & o0 & x & Ec & Ek0 & Eo & _).
  exists (magic ++ c ++ k0 ++ o0 ++ be_bytes 4 (Z.of_nat m')). apply file_header_iff.
  exists c, k0, o0, (be_bytes 4 (Z.of_nat m')). do 3 (split; [assumption|]). split; [apply be_bytes_length|].
  split; [rewrite unsigned_be; rewrite be_value_be_bytes; apply Z.mod_small; change (256 ^ Z.of_nat 4) with (2 * 2 ^ 31); lia|]. auto.
Qed.

(** ** C34 *)
Definition same_choice (r r' : res pair) : Prop :=
  match r, r' with Ok q, Ok q' => pr_private q = pr_private q' | Err x, Err x' => x = x' | _, _ => False end.
Lemma same_choice_index l l' i : map pr_private l = map pr_private l' -> same_choice (py_index l i) (py_index l' i).
Proof.
  intros E. unfold py_index. assert (length l = length l') as L by (rewrite <- (map_length pr_private l), E, map_length; reflexivity).
  rewrite L. destruct ((0 <=? _) && _); [|reflexivity].
  generalize (Z.to_nat (if i <? 0 then i + Z.of_nat (length l') else i)). intros n.
  pose proof (f_equal (fun m => nth_error m n) E) as En. cbv beta in En. rewrite !nth_error_map in En.
  destruct (nth_error l n), (nth_error l' n); cbn in En; try discriminate; cbn; congruence.
Qed.
Lemma same_choice_bytes rs rs' : Forall2 same_choice rs rs' -> pubs_bytes true rs = pubs_bytes true rs' /\ privs_bytes rs = privs_bytes rs'.
Proof.
  intros H. induction H as [|r r' rs rs' Hr _ (IH1 & IH2)]; [auto|]. cbn [pubs_bytes privs_bytes].
  destruct r, r'; cbn [same_choice] in Hr; try contradiction; [|subst; auto]. cbn [rbind]. rewrite Hr, IH1, IH2. auto.
Qed.
(** With override_public_with_private the public halves do not matter at all. *)
Theorem C34_override p e l l' given idx retain :
  map pr_private (l_pairs l) = map pr_private (l_pairs l') ->
  l_header l = l_header l' -> l_kdf_options l = l_kdf_options l' ->
  list_pack_bytes p e l given idx true retain = list_pack_bytes p e l' given idx true retain.
Proof.
  intros E Eh Eo. rewrite !list_pack_eq. unfold list_cipher_kdf, options_for. rewrite Eh, Eo.
  assert (length (l_pairs l) = length (l_pairs l')) as L by (rewrite <- (map_length pr_private), E, map_length; reflexivity).
  assert (indices l idx = indices l' idx) as -> by (unfold indices; rewrite L; reflexivity).
  assert (Forall2 same_choice (map (py_index (l_pairs l)) (indices l' idx)) (map (py_index (l_pairs l')) (indices l' idx))) as F.
  { generalize (indices l' idx). intros is. induction is as [|i is IH]; constructor; [apply same_choice_index; exact E|exact IH]. }
  destruct (same_choice_bytes _ _ F) as (E1 & E2). unfold pack_selected. rewrite E1, E2, !map_length. reflexivity.
Qed.
(** Without it each public section is what the public half packs to. *)
Theorem C34_no_override p e l given idx retain b :
  sound_prims p -> snd (list_pack_bytes p e l given idx false retain) = Ok b ->
  exists cn kn opts sel pubs body tag, file_of cn kn opts pubs body tag b /\ chosen (l_pairs l) idx sel /\
    Forall2 (fun q x => pack_public_bytes (pr_public q) = Ok x) sel pubs.
Proof.
  intros S H. apply pack_layout in H; [|exact S].
  destruct H as (cn & kn & d & opts & sel & pubs & privs & bs & pad & plain & pass & body & tag & H).
  exists cn, kn, opts, sel, pubs, body, tag. intuition assumption.
Qed.

(** ** C35, packing *)
Lemma keylog_options e l retain kv : keylog (options_for e l retain kv).
Proof.
  unfold options_for. destruct (if retain then l_kdf_options l else None); [apply keylog_ret|].
  apply keylog_bind; [apply keylog_lift|]. intros k. apply keylog_seq; [apply keylog_check_dict|apply keylog_ret].
Qed.
Lemma keylog_pack p e cv kv opts rs pass ov : keylog opts -> (val_eqb kv (VStr (str "none")) = true \/ pass <> None) ->
  keylog (pack_selected p e cv kv opts rs pass ov).
Proof.
  intros Ho Hp. unfold pack_selected. apply keylog_bind; [exact Ho|intros o]. apply keylog_bind; [apply keylog_lift|intros k].
  apply keylog_bind; [apply keylog_lift|intros ob]. apply keylog_bind; [apply keylog_lift|intros prefix].
  apply keylog_bind; [apply keylog_lift|intros plain].
  apply keylog_bind; [|intros pw].
  { destruct (val_eqb kv (VStr (str "none"))); [apply keylog_ret|]. destruct pass; [apply keylog_ret|]. destruct Hp; [discriminate|congruence]. }
  apply keylog_bind; [apply keylog_lift|intros c]. apply keylog_seq; [apply keylog_check_dict|].
  apply keylog_bind; [apply keylog_lift|intros x]. apply keylog_lift.
Qed.
(** With kdf none: no prompt, and the result does not depend on the passphrase or on what the
    user would answer. *)
Theorem C35_pack_without_kdf p e e' l c given given' idx ov retain :
  list_names l c (VStr (str "none")) -> e_randbits e = e_randbits e' -> e_salt e = e_salt e' ->
  list_pack_bytes p e l given idx ov retain = list_pack_bytes p e' l given' idx ov retain /\
  ~ In Prompt (fst (list_pack_bytes p e l given idx ov retain)).
Proof.
  intros H Er Es. apply list_names_iff in H. rewrite !list_pack_eq, H. cbn [fst snd].
  split; [|apply (keylog_not_in _ Prompt); [apply keylog_pack; [apply keylog_options|left; apply val_eqb_refl]|reflexivity]].
  unfold pack_selected, options_for, check_ints. rewrite Er, Es, val_eqb_refl. reflexivity.
Qed.
(** With a passphrase there is no prompt. *)
Theorem C35_pack_with_passphrase p e l pw idx ov retain :
  ~ In Prompt (fst (list_pack_bytes p e l (Some pw) idx ov retain)).
Proof.
  rewrite list_pack_eq. apply (keylog_not_in _ Prompt); [apply keylog_pack; [apply keylog_options|right; discriminate]|reflexivity].
Qed.
(** Without one there is exactly one prompt, and its answer is used as if it had been given. *)
Lemma keylog_no_prompt l : Forall (fun ev => key_warning ev = true) l -> ~ In Prompt l.
Proof. rewrite Forall_forall. intros H K. apply H in K. discriminate. Qed.
Theorem C35_pack_prompts_once p e l c kn idx ov retain lg b :
  list_names l c (VStr kn) -> kn <> str "none" ->
  list_pack_bytes p e l None idx ov retain = (lg, Ok b) ->
  exists pw l1 l2, e_getpass e = Ok pw /\ lg = l1 ++ Prompt :: l2 /\ ~ In Prompt (l1 ++ l2) /\
    list_pack_bytes p e l (Some pw) idx ov retain = (l1 ++ l2, Ok b).
Proof.
  intros Hn Nn. apply list_names_iff in Hn. rewrite list_pack_eq, Hn. cbn [fst snd]. intros H.
  unfold pack_selected in H.
  assert (val_eqb (VStr kn) (VStr (str "none")) = false) as Ev by (destruct (val_eqb_reflect (VStr kn) (VStr (str "none"))); congruence).
  rewrite Ev in H.
  apply wbind_inv in H as (l0 & o & l0' & E0 & H & ->).
  apply wbind_inv in H as (l1 & k & l1' & E1 & H & ->). apply wlift_inv in E1 as (-> & E1).
  apply wbind_inv in H as (l2 & ob & l2' & E2 & H & ->). apply wlift_inv in E2 as (-> & E2).
  apply wbind_inv in H as (l3 & prefix & l3' & E3 & H & ->). apply wlift_inv in E3 as (-> & E3).
  apply wbind_inv in H as (l4 & plain & l4' & E4 & H & ->). apply wlift_inv in E4 as (-> & E4).
  apply wbind_inv in H as (l5 & pw & l5' & E5 & H & ->). unfold get_passphrase in E5. injection E5 as <- E5.
  apply wbind_inv in H as (l6 & ci & l6' & E6 & H & ->). apply wlift_inv in E6 as (-> & E6).
  unfold wseq in H. apply wbind_inv in H as (l7 & [] & l7' & E7 & H & ->).
  apply wbind_inv in H as (l8 & x & l8' & E8 & H & ->). apply wlift_inv in E8 as (-> & E8). apply wlift_inv in H as (-> & H).
  assert (list_pack_bytes p e l (Some pw) idx ov retain = (l0 ++ l7, Ok b)) as E.
  { rewrite list_pack_eq, Hn. cbn [fst snd]. unfold pack_selected. rewrite Ev, E0. cbn [wbind]. rewrite E1, wbind_lift, E2, wbind_lift, E3, wbind_lift, E4, wbind_lift.
    cbn [get_passphrase]. rewrite wbind_ret, E6, wbind_lift. unfold wseq. rewrite E7. cbn [wbind]. rewrite E8, wbind_lift. cbv zeta. rewrite H.
    unfold wlift. rewrite app_nil_r. reflexivity. }
  exists pw, l0, l7. split; [exact E5|]. split; [cbn [app]; rewrite app_nil_r; reflexivity|]. split; [|exact E].
  intros K. apply (C35_pack_with_passphrase p e l pw idx ov retain).
  exact (eq_ind_r (fun z => In Prompt z) K (f_equal fst E)).
Qed.
Lemma snd_wbind_ext {A B} (x y : W A) (f g : A -> W B) :
  snd x = snd y -> (forall a, snd (f a) = snd (g a)) -> snd (wbind x f) = snd (wbind y g).
Proof.
  destruct x as [l [a|e]], y as [l' [a'|e']]; cbn [snd]; intros E H; try discriminate; injection E as ->; [|reflexivity].
  cbn [wbind]. specialize (H a'). destruct (f a'), (g a'). cbn in *. congruence.
Qed.
(** Also when packing fails. *)
Theorem C35_pack_answer_is_used p e l pw idx ov retain :
  e_getpass e = Ok pw ->
  snd (list_pack_bytes p e l None idx ov retain) = snd (list_pack_bytes p e l (Some pw) idx ov retain).
Proof.
  intros H. rewrite !list_pack_eq. unfold pack_selected. do 5 (apply snd_wbind_ext; [reflexivity|intros ?]).
  apply snd_wbind_ext; [|reflexivity]. destruct (val_eqb _ _); [reflexivity|]. cbn [get_passphrase snd wret]. exact H.
Qed.

(** ** C39 *)
(** retain_kdf_options_if_present: the options in the file are those of the list. *)
Theorem C39_options_retained p e l given idx ov b d :
  sound_prims p -> snd (list_pack_bytes p e l given idx ov true) = Ok b -> l_kdf_options l = Some d ->
  exists cn kn opts pubs body tag, file_of cn kn opts pubs body tag b /\ options_of kn d opts.
Proof.
  intros S H Ed. apply pack_layout in H; [|exact S].
  destruct H as (cn & kn & d' & opts & sel & pubs & privs & bs & pad & plain & pass & body & tag & Hn & Hd & Ho & H).
  exists cn, kn, opts, pubs, body, tag. split; [intuition assumption|].
  destruct Hd as [(_ & E)|([E|E] & _)]; [|discriminate|congruence]. rewrite Ed in E. injection E as ->. exact Ho.
Qed.
(** Otherwise they are fresh: the random salt, 16 rounds. *)
Theorem C39_fresh_options p e l given idx ov retain b :
  sound_prims p -> snd (list_pack_bytes p e l given idx ov retain) = Ok b ->
  retain = false \/ l_kdf_options l = None ->
  exists cn kn opts pubs body tag, file_of cn kn opts pubs body tag b /\
    ((kn = str "none" /\ opts = []) \/
     (kn = str "bcrypt" /\ options_of kn [(str "salt", VBytes (e_salt e)); (str "rounds", VInt 16)] opts)).
Proof.
  intros S H Hr. apply pack_layout in H; [|exact S].
  destruct H as (cn & kn & d' & opts & sel & pubs & privs & bs & pad & plain & pass & body & tag & Hn & Hd & Ho & H).
  exists cn, kn, opts, pubs, body, tag. split; [intuition assumption|].
  destruct Hd as [(E & E')|(_ & [(-> & ->)|(-> & ->)])]; [destruct Hr; congruence| |auto].
  left. split; [reflexivity|]. destruct Ho as (ts & vs & [K|[K|[]]] & _ & R); injection K; [|discriminate]. intros <-. inversion R. reflexivity.
Qed.

(** ** C58 *)
Lemma list_from_bytes_ok p e b given lg l :
  list_from_bytes p e b given = (lg, Ok l) <-> from_bytes_try p e b given = (lg, Ok l).
Proof. unfold list_from_bytes. destruct (from_bytes_try p e b given) as [l0 [a|x]]; split; try tauto; discriminate. Qed.
(** from_bytes returns [l] exactly if [l] is what [parsed] (SpecList) says about the file. *)
Theorem C58_from_bytes_exact p e b given l :
  sound_prims p -> Z.of_nat (length b) <= ssize_max ->
  snd (list_from_bytes p e b given) = Ok l <-> parsed p e b given l.
Proof.
  intros S L. split.
  - destruct (list_from_bytes p e b given) as [lg r] eqn:E. cbn [snd]. intros ->. apply list_from_bytes_ok in E.
    destruct (parse_sound p e b given lg l S L E) as
      (cn & kn & opts & pubs & body & tag & extra & d & pass & plain & c1 & c2 & privs & pad & pairs & c & k & lg1 & lg2 & H).
    exists cn, kn, opts, pubs, body, tag, extra, d, pass, plain, c1, c2, privs, pad, pairs. intuition assumption.
  - intros H. destruct (parse_complete p e b given l S L H) as (lg & E). apply list_from_bytes_ok in E. rewrite E. reflexivity.
Qed.

(** ** C28 *)
Theorem C28_magic_and_count p e b given lg l :
  sound_prims p -> Z.of_nat (length b) <= ssize_max ->
  list_from_bytes p e b given = (lg, Ok l) ->
  exists cn kn opts pubs body tail n, file_of cn kn opts pubs body tail b /\
    (exists h, l_header l = Some h /\ dget (str "num_keys") h = Some (VInt n)) /\
    0 <= n /\ n = Z.of_nat (length pubs) /\ n = Z.of_nat (length (l_pairs l)) /\ firstn 15 b = bstr "openssh-key-v1" ++ [x00].
Proof.
  intros S L H. apply list_from_bytes_ok in H.
  destruct (parse_sound p e b given lg l S L H) as
      (cn & kn & opts & pubs & body & tag & extra & d & pass & plain & c1 & c2 & privs & pad & pairs & c & k & lg1 & lg2 &
       Hf & Hn & _ & _ & _ & _ & _ & F & _ & -> & _).
  exists cn, kn, opts, pubs, body, (tag ++ extra), (Z.of_nat (length pubs)). split; [exact Hf|].
  split; [eexists; split; reflexivity|]. split; [lia|]. split; [reflexivity|]. cbn [l_pairs]. rewrite (Forall2_len _ _ _ F).
  split; [reflexivity|]. destruct Hf as (? & ? & ? & ? & ? & ? & _ & _ & _ & _ & _ & _ & _ & ->). reflexivity.
Qed.

(** ** C27 *)
Lemma sw_err {A B} (f : SW A) (g : A -> SW B) s x : snd (snd (swbind f g s)) = Err x ->
  snd (snd (f s)) = Err x \/ exists s1 l a, f s = (s1, (l, Ok a)) /\ snd (snd (g a s1)) = Err x.
Proof.
  unfold swbind. destruct (f s) as [s1 [l [a|y]]]; cbn [snd].
  - intros H. right. exists s1, l, a. split; [reflexivity|]. destruct (g a s1) as [s2 [l2 r]]. exact H.
  - intros H. left. injection H as ->. reflexivity.
Qed.
Lemma sww_err {A} (w : W A) s x : snd (snd (sww w s)) = Err x -> snd w = Err x.
Proof. exact (fun H => H). Qed.
Lemma parse_error_real x : parse_error x -> is_model_error x = false.
Proof. intros [H|[H|(o & ->)]]; [| |reflexivity]; destruct x; try discriminate; reflexivity. Qed.
Definition real {A} (r : res A) : Prop := forall x, r = Err x -> is_model_error x = false.
Lemma read_dict_real f ts s : format_types f ts -> default_sizes f = true -> real (snd (read_dict f s)).
Proof.
  intros F D x H. destruct (read_dict f s) as [s' r] eqn:E. cbn [snd] in H. subst r.
  apply (read_dict_errors4 _ _ _ _ _ F D) in E as [K|(o & ->)]; [destruct x; try discriminate; reflexivity|reflexivity].
Qed.
Lemma octets_real s : real (snd (read_instr fB s)).
Proof.
  intros x H. destruct (read_instr fB s) as [s' r] eqn:E. cbn [snd] in H. subst r.
  apply (read_instr_errors4 fB (TBytes 4)) in E; [|constructor|discriminate].
  destruct E as [E|(o & ->)]; [destruct x; try discriminate; reflexivity|reflexivity].
Qed.
Lemma read_pubs_real p fuel n s : (length (unread s) < fuel)%nat -> real (snd (snd (read_pubs p fuel n s))).
Proof.
  revert n s. induction fuel as [|fuel IH]; intros n s L x H; [lia|]. cbn [read_pubs] in H.
  destruct (n <=? 0); [discriminate|]. apply sw_err in H as [H|(s1 & l & v & E & H)].
  - rewrite snd_swp in H. eapply octets_real. exact H.
  - unfold swp in E. destruct (read_instr fB s) as [s' r] eqn:R. injection E as -> <- ->.
    apply read_octets_sound in R as (u & y & -> & Py & Uy & _).
    apply sw_err in H as [H|(s2 & l2 & k & E & H)].
    + apply sww_err in H. apply parse_error_real. eapply key_from_bytes_errors. exact H.
    + unfold sww in E. injection E as <- E. apply sw_err in H as [H|(s3 & l3 & r & E' & H)]; [|discriminate].
      eapply IH; [|exact H]. apply prefixed_length in Py. rewrite Uy, app_length in L. lia.
Qed.
Lemma read_privs_real p i pubs s : real (snd (snd (read_privs p i pubs s))).
Proof.
  revert i s. induction pubs as [|pub pubs IH]; intros i s x H; [discriminate|]. cbn [read_privs] in H.
  apply sw_err in H as [H|(s1 & l & k & E & H)].
  { destruct (key_from_stream (p_ec_ok p) (parse_pub (p_ec_ok p)) KPriv None s) as [s' w] eqn:E. cbn [snd] in H.
    apply parse_error_real. eapply key_from_stream_errors; [|exact E|exact H]. intros b y _. apply parse_pub_errors. }
  apply sw_err in H as [H|(s2 & l2 & kt1 & E2 & H)]; [apply sww_err in H; unfold wlift, ditem in H; cbn [snd] in H; destruct (dget _ _); [discriminate|injection H as <-; reflexivity]|].
  apply sw_err in H as [H|(s3 & l3 & kt2 & E3 & H)]; [apply sww_err in H; unfold wlift, ditem in H; cbn [snd] in H; destruct (dget _ _); [discriminate|injection H as <-; reflexivity]|].
  apply sw_err in H as [H|(s4 & l4 & [] & E4 & H)]; [apply sww_err in H; rewrite snd_wwhen in H; discriminate|].
  apply sw_err in H as [H|(s5 & l5 & [] & E5 & H)]; [apply sww_err in H; rewrite snd_wwhen in H; discriminate|].
  apply sw_err in H as [H|(s6 & l6 & r & E6 & H)]; [|discriminate]. eapply IH; exact H.
Qed.
Lemma derive_key_real p k d pw n : real (derive_key p k d pw n).
Proof.
  intros x H. destruct k; [discriminate|]. cbn [derive_key] in H.
  destruct (utf8_encode pw) as [b|y] eqn:Eu; cbn [rbind] in H.
  2: { injection H as <-. apply utf8_encode_err in Eu. subst. reflexivity. }
  unfold ditem in H. destruct (dget (str "salt") d) as [s|]; cbn [rbind] in H; [|injection H as <-; reflexivity].
  destruct (dget (str "rounds") d) as [r|]; cbn [rbind] in H; [|injection H as <-; reflexivity].
  unfold bcrypt_kdf in H. destruct s, r; try (injection H as <-; reflexivity).
  repeat match type of H with (if ?g then _ else _) = _ => destruct g; [injection H as <-; reflexivity|] end. discriminate.
Qed.
Lemma decrypt_real p c k d pw b : real (cipher_decrypt p c k d pw b).
Proof.
  intros x H. unfold cipher_decrypt in H.
  assert (forall r, (do? r <- r; decrypt_with_key_iv p c b (slice_to (key_length c) r) (slice_last (iv_length c) r)) = Err x -> real r -> is_model_error x = false) as K.
  { intros r. destruct r as [r|y]; cbn [rbind]; [|intros E Hr; apply Hr; exact E]. intros E _.
    revert E. generalize (slice_to (key_length c) r), (slice_last (iv_length c) r). intros key iv E.
    unfold decrypt_with_key_iv, ctr_crypt, cbc_crypt, gcm_decrypt, chacha_decrypt in E.
    destruct c; repeat match type of E with
      | (if ?g then _ else _) = _ => destruct g
      | match ?g with _ => _ end = _ => destruct g
      | Ok _ = Err _ => discriminate
      | Err _ = Err _ => injection E as <-; reflexivity
      end; cbv zeta in E; repeat match type of E with
      | (if ?g then _ else _) = _ => destruct g
      | Ok _ = Err _ => discriminate
      | Err _ = Err _ => injection E as <-; reflexivity
      end. }
  destruct c; try discriminate; eapply K; try exact H; apply derive_key_real.
Qed.
Lemma ditem_real {A} k (d : dict A) : real (ditem k d).
Proof. intros x H. unfold ditem in H. destruct (dget k d); [discriminate|injection H as <-; reflexivity]. Qed.
Lemma get_kdf_real v : real (get_kdf v).
Proof. intros x H. destruct v; try (injection H as <-; reflexivity). eapply ditem_real; exact H. Qed.
Lemma get_cipher_real v : real (get_cipher v).
Proof. intros x H. apply get_cipher_errors in H as (o & ->). reflexivity. Qed.
Lemma parse_deciphered_real p c pubs plain : real (snd (parse_deciphered p c pubs plain)).
Proof.
  intros x H. unfold parse_deciphered in H.
  apply sw_err in H as [H|(s1 & l1 & dh & E1 & H)].
  { rewrite snd_swp in H. cbn [wlift snd] in H. eapply (read_dict_real decipher_header_fmt); [exact check_types_ok|reflexivity|exact H]. }
  apply sw_err in H as [H|(s2 & l2 & c1 & E2 & H)]; [apply sww_err in H; eapply ditem_real; exact H|].
  apply sw_err in H as [H|(s3 & l3 & c2 & E3 & H)]; [apply sww_err in H; eapply ditem_real; exact H|].
  apply sw_err in H as [H|(s4 & l4 & [] & E4 & H)]; [apply sww_err in H; rewrite snd_wwhen in H; discriminate|].
  apply sw_err in H as [H|(s5 & l5 & prs & E5 & H)]; [eapply read_privs_real; exact H|].
  apply sw_err in H as [H|(s6 & l6 & pad & E6 & H)]; [rewrite snd_swp, read_rest in H; discriminate|].
  apply sw_err in H as [H|(s7 & l7 & [] & E7 & H)]; [apply sww_err in H; rewrite snd_wwhen in H; discriminate|].
  discriminate.
Qed.
Lemma from_bytes_try_real p e b given : real (e_getpass e) -> real (snd (from_bytes_try p e b given)).
Proof.
  intros Hg x H. unfold from_bytes_try in H.
  apply sw_err in H as [H|(s1 & l1 & hd & E1 & H)].
  { rewrite snd_swp in H. cbn [wlift snd] in H. eapply (read_dict_real list_header_fmt); [exact header_types_ok|reflexivity|exact H]. }
  assert (length (unread s1) < length b)%nat as Ls.
  { unfold swp in E1. destruct (read_dict list_header_fmt (stream_of b)) as [s1' r] eqn:R. injection E1 as -> <- ->.
    apply (read_dict_sound _ _ _ _ _ header_types_ok) in R as (h & Rh & Uh & _).
    change (unread (stream_of b)) with b in Uh. inversion Rh as [|? ? ? ? ? m ? Wm]; subst. inversion Wm; subst.
    rewrite !app_length. lia. }
  apply sw_err in H as [H|(s2 & l2 & m & E2 & H)]; [apply sww_err in H; eapply ditem_real; exact H|].
  unfold sww in E2. injection E2 as <- _ _.
  apply sw_err in H as [H|(s3 & l3 & [] & E3 & H)]; [apply sww_err in H; destruct (val_eqb _ _); [discriminate|injection H as <-; reflexivity]|].
  unfold sww in E3. injection E3 as <- _.
  apply sw_err in H as [H|(s4 & l4 & n & E4 & H)].
  { apply sww_err in H. unfold wlift in H. cbn [snd] in H. destruct (ditem (str "num_keys") hd) as [v|y] eqn:Ed; cbn [rbind] in H.
    - destruct v; try discriminate; injection H as <-; reflexivity.
    - injection H as <-. eapply ditem_real; exact Ed. }
  unfold sww in E4. injection E4 as <- _ _.
  apply sw_err in H as [H|(s5 & l5 & [] & E5 & H)]; [apply sww_err in H; destruct (n <? 0); [injection H as <-; reflexivity|discriminate]|].
  unfold sww in E5. injection E5 as <- _.
  apply sw_err in H as [H|(s6 & l6 & ks & E6 & H)]; [eapply read_pubs_real; [exact Ls|exact H]|].
  apply sw_err in H as [H|(s7 & l7 & cv & E7 & H)].
  { rewrite snd_swp in H. eapply octets_real. exact H. }
  apply sw_err in H as [H|(s8 & l8 & cb & E8 & H)]; [apply sww_err in H; destruct cv; try discriminate; injection H as <-; reflexivity|].
  apply sw_err in H as [H|(s9 & l9 & kv & E9 & H)]; [apply sww_err in H; eapply ditem_real; exact H|].
  apply sw_err in H as [H|(s10 & l10 & k & E10 & H)]; [apply sww_err in H; eapply get_kdf_real; exact H|].
  apply sw_err in H as [H|(s11 & l11 & ov & E11 & H)]; [apply sww_err in H; eapply ditem_real; exact H|].
  apply sw_err in H as [H|(s12 & l12 & os & E12 & H)]; [apply sww_err in H; destruct ov; try discriminate; injection H as <-; reflexivity|].
  apply sw_err in H as [H|(s13 & l13 & o & E13 & H)].
  { apply sww_err in H. cbn [wlift snd] in H. eapply (read_dict_real (kdf_format k)); [apply kdf_dict_types|destruct k; reflexivity|exact H]. }
  apply sw_err in H as [H|(s14 & l14 & [] & E14 & H)]; [apply sww_err in H; rewrite new_kdf_ok in H; discriminate|].
  apply sw_err in H as [H|(s15 & l15 & ci & E15 & H)]; [apply sww_err in H; eapply ditem_real; exact H|].
  apply sw_err in H as [H|(s16 & l16 & c & E16 & H)]; [apply sww_err in H; eapply get_cipher_real; exact H|].
  apply sw_err in H as [H|(s17 & l17 & pw & E17 & H)].
  { apply sww_err in H. destruct k; [discriminate|]. destruct given; [discriminate|]. apply Hg. exact H. }
  apply sw_err in H as [H|(s18 & l18 & tag & E18 & H)].
  { destruct (is_integrity c); [|discriminate]. rewrite snd_swp in H. cbn [wlift snd] in H.
    change (Z.of_nat (tag_length c)) with 16 in H. rewrite read_fixed_spec in H by (unfold ssize_max; lia).
    destruct (Z.to_nat 16 <=? length (unread s17))%nat; [discriminate|]. cbn [snd] in H. injection H as <-. unfold eof. destruct (length (unread s17)); reflexivity. }
  apply sw_err in H as [H|(s19 & l19 & [] & E19 & H)]; [apply sww_err in H; rewrite new_kdf_ok in H; discriminate|].
  apply sw_err in H as [H|(s20 & l20 & plain & E20 & H)]; [apply sww_err in H; eapply decrypt_real; exact H|].
  apply sw_err in H as [H|(s21 & l21 & ((prs & dh) & pad) & E21 & H)]; [apply sww_err in H; eapply parse_deciphered_real; exact H|].
  discriminate.
Qed.
(** Whatever happens, from_bytes raises a ValueError or a subclass of it. *)
Theorem C27_only_value_error p e b given lg x :
  (forall y, e_getpass e = Err y -> is_model_error y = false) ->
  list_from_bytes p e b given = (lg, Err x) -> is_value_error x = true.
Proof.
  intros Hg. unfold list_from_bytes. pose proof (from_bytes_try_real p e b given Hg) as R.
  destruct (from_bytes_try p e b given) as [l [a|y]]; [discriminate|]. intros H. injection H as _ <-.
  unfold reraise. destruct (is_value_error y) eqn:E; [exact E|]. rewrite (R y eq_refl). reflexivity.
Qed.

(** ** A concrete list *)
(** An Ed25519 and an RSA pair, encrypted with AES-GCM and a bcrypt key (toy primitives). *)
Definition ex_ed_public : key :=
  mkkey KPub [(str "key_type", VStr (str "ssh-ed25519"))] EdPub [(str "public", VBytes ex_ed_pub)] [] [].
Definition ex_rsa_public : key :=
  mkkey KPub [(str "key_type", VStr (str "ssh-rsa"))] RSAPub [(str "e", VInt 17); (str "n", VInt 3233)] [] [].
Definition ex_pairs : list pair := [mkpair ex_ed_public ex_ed; mkpair ex_rsa_public ex_rsa].
Definition ex_env : env :=
  mkenv (Ok (str "pw")) 305419896 (map bZ [1; 2; 3; 4; 5; 6; 7; 8; 9; 10; 11; 12; 13; 14; 15; 16]).
Definition ex_list : pkl :=
  mkpkl ex_pairs None
    (Some [(str "cipher", VStr (str "aes256-gcm@openssh.com")); (str "kdf", VStr (str "bcrypt"))])
    None None None None None.
Definition ex_plain_list : pkl := mkpkl ex_pairs None None None None None None None.
Definition ex_file : bytes := Eval vm_compute in
  match snd (list_pack_bytes toy_prims ex_env ex_list (Some (str "pw")) None true false) with Ok b => b | Err _ => [] end.
Definition ex_plain_file : bytes := Eval vm_compute in
  match snd (list_pack_bytes toy_prims ex_env ex_plain_list None None true false) with Ok b => b | Err _ => [] end.

(** The file of [ex_list] has 376 bytes, and is [packed]. *)
Example C25_example :
  list_pack_bytes toy_prims ex_env ex_list (Some (str "pw")) None true false = ([], Ok ex_file) /\ length ex_file = 376%nat /\
  packed toy_prims ex_env ex_list (Some (str "pw")) None true false ex_file /\
  list_pack_bytes toy_prims ex_env ex_plain_list None None true false = ([], Ok ex_plain_file) /\
  packed toy_prims ex_env ex_plain_list None None true false ex_plain_file.
Proof.
  assert (list_pack_bytes toy_prims ex_env ex_list (Some (str "pw")) None true false = ([], Ok ex_file)) as E by (vm_compute; reflexivity).
  assert (list_pack_bytes toy_prims ex_env ex_plain_list None None true false = ([], Ok ex_plain_file)) as E' by (vm_compute; reflexivity).
  split; [exact E|]. split; [reflexivity|]. split; [apply (pack_layout _ _ _ _ _ _ _ _ toy_sound); rewrite E; reflexivity|].
  split; [exact E'|]. apply (pack_layout _ _ _ _ _ _ _ _ toy_sound). rewrite E'. reflexivity.
Qed.
(** The plaintexts of the two lists, in blocks of 16 and of 8 bytes, end with 1, 2, 3, ... *)
Example C26_example :
  snd (list_pack_bytes toy_prims ex_env ex_list (Some (str "pw")) None true false) = Ok ex_file /\
  (exists plain, pack_plain ex_env ex_list (VStr (str "aes256-gcm@openssh.com")) [0; 1] = Ok plain /\
    (length plain mod 16 = 0)%nat /\ skipn (length plain - 4) plain = map bZ [1; 2; 3; 4]) /\
  (exists plain, pack_plain ex_env ex_plain_list (VStr (str "none")) [0; 1] = Ok plain /\
    (length plain mod 8 = 0)%nat /\ skipn (length plain - 4) plain = map bZ [1; 2; 3; 4]).
Proof.
  split; [vm_compute; reflexivity|].
  split; (eexists; split; [vm_compute; reflexivity|]; split; vm_compute; reflexivity).
Qed.
(** Selecting the second pair twice, counting from the end; and an index out of range. *)
Example C33_example :
  chosen (l_pairs ex_list) (Some [-1; 1]) [mkpair ex_rsa_public ex_rsa; mkpair ex_rsa_public ex_rsa] /\
  (exists b, list_pack_bytes toy_prims ex_env ex_list (Some (str "pw")) (Some [-1; 1]) true false = ([], Ok b) /\ b <> ex_file) /\
  snd (list_pack_bytes toy_prims ex_env ex_list (Some (str "pw")) (Some [-1; 1; 2; 0]) true false) = Err IndexError /\
  snd (list_pack_bytes toy_prims ex_env ex_list (Some (str "pw")) (Some [-3]) true false) = Err IndexError.
Proof.
  split.
  { apply Forall2_cons; [right; split; [lia|split; [vm_compute; discriminate|reflexivity]]|].
    apply Forall2_cons; [left; split; [lia|reflexivity]|constructor]. }
  split; [eexists; split; [vm_compute; reflexivity|discriminate]|]. split; vm_compute; reflexivity.
Qed.
(** With a public half that belongs to another key: written as it is, or overridden. *)
Definition ex_swapped : pkl :=
  with_pairs ex_list [mkpair ex_rsa_public ex_ed; mkpair ex_ed_public ex_rsa].
Example C34_example :
  map pr_private (l_pairs ex_swapped) = map pr_private (l_pairs ex_list) /\
  list_pack_bytes toy_prims ex_env ex_swapped (Some (str "pw")) None true false = ([], Ok ex_file) /\
  exists b, list_pack_bytes toy_prims ex_env ex_swapped (Some (str "pw")) None false false = ([], Ok b) /\ b <> ex_file.
Proof.
  split; [reflexivity|]. split; [vm_compute; reflexivity|]. eexists. split; [vm_compute; reflexivity|discriminate].
Qed.
Example C35_pack_example :
  list_names ex_plain_list (VStr (str "none")) (VStr (str "none")) /\
  list_names ex_list (VStr (str "aes256-gcm@openssh.com")) (VStr (str "bcrypt")) /\
  list_pack_bytes toy_prims ex_env ex_list None None true false = ([Prompt], Ok ex_file).
Proof.
  split; [right; split; [discriminate|split; reflexivity]|].
  split; [left; eexists; split; [reflexivity|split; reflexivity]|]. vm_compute. reflexivity.
Qed.
(** Retaining options: other options than the fresh ones are written. *)
Example C39_example :
  exists b, snd (list_pack_bytes toy_prims ex_env
      (mkpkl ex_pairs None (l_header ex_list) None (Some toy_opts) None None None) (Some (str "pw")) None true true) = Ok b /\
    length b = (length ex_file - 13)%nat /\
    snd (list_pack_bytes toy_prims ex_env
      (mkpkl ex_pairs None (l_header ex_list) None (Some toy_opts) None None None) (Some (str "pw")) None true false) = Ok ex_file.
Proof. eexists. split; [vm_compute; reflexivity|]. split; vm_compute; reflexivity. Qed.
(** Parsing the file: both pairs; and files that are rejected. *)
Definition ex_parsed : pkl := Eval vm_compute in
  match snd (list_from_bytes toy_prims ex_env ex_file (Some (str "pw"))) with Ok l => l | Err _ => ex_list end.
Example C58_example :
  list_from_bytes toy_prims ex_env ex_file (Some (str "pw")) = ([], Ok ex_parsed) /\
  l_pairs ex_parsed =
    [mkpair ex_ed_public ex_ed; mkpair ex_rsa_public ex_rsa] /\
  parsed toy_prims ex_env ex_file (Some (str "pw")) ex_parsed.
Proof.
  assert (list_from_bytes toy_prims ex_env ex_file (Some (str "pw")) = ([], Ok ex_parsed)) as E by (vm_compute; reflexivity).
  split; [exact E|]. split; [vm_compute; reflexivity|]. apply (C58_from_bytes_exact _ _ _ _ _ toy_sound).
  - vm_compute. discriminate.
  - rewrite E. reflexivity.
Qed.
Example C28_example :
  exists h, l_header ex_parsed = Some h /\ dget (str "num_keys") h = Some (VInt 2) /\ length (l_pairs ex_parsed) = 2%nat.
Proof. eexists. split; [reflexivity|]. split; [vm_compute; reflexivity|reflexivity]. Qed.
(** A file with wrong magic, one with the wrong passphrase, and no file at all. *)
Example C27_example :
  (exists x, list_from_bytes toy_prims ex_env (x00 :: ex_file) (Some (str "pw")) = ([], Err x) /\ is_value_error x = true) /\
  (exists x, list_from_bytes toy_prims ex_env ex_file (Some (str "wp")) = ([], Err x) /\ is_value_error x = true) /\
  (exists x, list_from_bytes toy_prims ex_env [] None = ([], Err x) /\ is_value_error x = true).
Proof.
  split; [eexists; split; [vm_compute; reflexivity|reflexivity]|].
  split; [eexists; split; [vm_compute; reflexivity|reflexivity]|]. eexists; split; [vm_compute; reflexivity|reflexivity].
Qed.

Print Assumptions C25_pack_bytes_layout.
Print Assumptions C25_layout_functional.
Print Assumptions C26_padding.
Print Assumptions C33_selects.
Print Assumptions C33_default.
Print Assumptions C33_out_of_range_rejected.
Print Assumptions C33_out_of_range_index_error.
Print Assumptions C34_override.
Print Assumptions C34_no_override.
Print Assumptions C35_pack_without_kdf.
Print Assumptions C35_pack_with_passphrase.
Print Assumptions C35_pack_prompts_once.
Print Assumptions C35_pack_answer_is_used.
Print Assumptions C39_options_retained.
Print Assumptions C39_fresh_options.
Print Assumptions C58_from_bytes_exact.
Print Assumptions C28_magic_and_count.
Print Assumptions C27_only_value_error.
