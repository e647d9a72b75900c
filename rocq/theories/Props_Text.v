(** Properties of the textual public key format and the command line tool:
    C41-C43, C55, C57. *)
From Verif Require Import PyBase IntBytes Utf8 StructFmt Stream Text Classes Key Crypto PrivateKeyList.
From Verif Require Import SpecWire SpecRepr SpecKey SpecText.
From Verif Require Import ProofBase ProofRepr ProofInt ProofUtf8 ProofWire ProofRecord ProofKey ProofLog ProofErr ProofText.
From Verif Require Import Props_Key.
Open Scope Z_scope.

(** ** C43 *)
Theorem C43_encode_is_base64 b s : b64encode b = s <-> base64 b s.
Proof. symmetry. apply base64_iff. Qed.
Theorem C43_decode_inverts_encode b s s' : base64 b s -> noisy s s' -> b64decode s' = Ok b.
Proof. intros H N. rewrite (noisy_decode _ _ N). apply base64_decode. exact H. Qed.
Theorem C43_noise_is_ignored s s' : noisy s s' -> b64decode s' = b64decode s.
Proof. apply noisy_decode. Qed.
(** Anything accepted has only ASCII characters; otherwise a ValueError is raised. *)
Theorem C43_decode_errors s e : b64decode s = Err e -> is_value_error e = true.
Proof.
  unfold b64decode. destruct (forallb _ s); [|intros K; injection K as <-; reflexivity].
  assert (forall q lf pd, a2b_base64 s q lf pd = Err e -> is_value_error e = true) as A; [|apply A].
  induction s as [|c s IH]; intros q lf pd; cbn [a2b_base64].
  - destruct (q =? 0)%N; [discriminate|]. intros K; injection K as <-; reflexivity.
  - destruct (c =? b64_pad)%N.
    + destruct (2 <=? q)%N; [|apply IH]. destruct (4 <=? q + (pd + 1))%N; [discriminate|apply IH].
    + destruct (b64_value c) as [v|]; [|apply IH].
      destruct (q =? 0)%N; [apply IH|].
      destruct (q =? 1)%N; [|destruct (q =? 2)%N];
        (match goal with |- rbind ?x _ = _ -> _ => destruct x as [r|e1] eqn:E end; cbn [rbind]; [discriminate|];
         intros K; injection K as <-; eapply IH; exact E).
Qed.
Example C43_example :
  base64 (map bZ [0; 1; 254; 255]) (str "AAH+/w==") /\
  noisy (str "AAH+/w==") (str "AA" ++ [10%N] ++ str "H+-/w==") /\
  b64decode (str "AA" ++ [10%N] ++ str "H+-/w==") = Ok (map bZ [0; 1; 254; 255]).
Proof.
  split; [apply base64_iff; vm_compute; reflexivity|]. split; [|vm_compute; reflexivity].
  assert (noise 10 /\ noise 45) as (N1 & N2).
  { split; (split; [reflexivity|]; split; [|discriminate]); vm_compute; intuition discriminate. }
  cbn. repeat first [apply noisy_insert; [assumption|] | constructor].
Qed.

(** ** C42 *)
Lemma split_key_line s t b c :
  key_line s t b c <->
  exists rest, split_max 32 2 s = t :: b :: rest /\ c = match rest with c :: _ => c | [] => [] end.
Proof.
  cbn [split_max]. split.
  - intros H. inversion H as [? ? Wt Wb|? ? ? Wt Wb]; subst.
    + rewrite (proj2 (break_at_some 32 _ t b) (conj eq_refl Wt)).
      rewrite (proj2 (break_at_none 32 b) Wb). exists []. auto.
    + rewrite (proj2 (break_at_some 32 _ t (b ++ 32%N :: c)) (conj eq_refl Wt)).
      rewrite (proj2 (break_at_some 32 _ b c) (conj eq_refl Wb)). exists [c]. auto.
  - intros (rest & E & ->). destruct (break_at 32 s) as [[t' r]|] eqn:E1; [|discriminate].
    apply break_at_some in E1 as (-> & Wt).
    destruct (break_at 32 r) as [[b' c']|] eqn:E2; injection E as -> -> <-.
    + apply break_at_some in E2 as (-> & Wb). apply key_line_comment; assumption.
    + apply break_at_none in E2. apply key_line_plain; assumption.
Qed.
Lemma no_key_line s : ~ In 32%N s <-> ~ exists t b c, key_line s t b c.
Proof.
  split.
  - intros N (t & b & c & H). apply N. inversion H; subst; apply in_or_app; right; left; reflexivity.
  - intros N Hin. apply N. destruct (break_at 32 s) as [[t r]|] eqn:E1; [|apply break_at_none in E1; contradiction].
    pose proof (proj1 (break_at_some _ _ _ _) E1) as (-> & Wt).
    destruct (break_at 32 r) as [[b c]|] eqn:E2.
    + apply break_at_some in E2 as (-> & Wb). exists t, b, c. apply key_line_comment; assumption.
    + apply break_at_none in E2. exists t, r, []. apply key_line_plain; assumption.
Qed.
Definition clear_dict (t c : pystr) : dict pyval := [(str "key_type", VStr t); (str "comment", VStr c)].
Lemma key_from_string_line ec kd s t b64 c :
  key_line s t b64 c ->
  key_from_string ec kd s =
  match b64decode b64 with
  | Err e => ([], Err e)
  | Ok b =>
      match key_from_bytes ec kd b (Some (clear_dict t c)) with
      | (l, Err e) => (l, Err e)
      | (l, Ok k) =>
          (l ++ (match dget (str "key_type") (k_header k) with
                 | Some v => if val_eqb v (VStr t) then [] else [Warn WClearType]
                 | None => []
                 end), Ok k)
      end
  end.
Proof.
  intros H. apply split_key_line in H as (rest & E & ->). unfold key_from_string.
  change (cp " ") with 32%N. rewrite E.
  destruct (b64decode b64) as [b|e]; cbn [wlift wbind]; [|reflexivity].
  unfold clear_dict. destruct (key_from_bytes _ _ _ _) as [l [k|e]] eqn:Ek; cbn [wbind].
  - destruct (key_from_bytes_sound _ _ _ _ _ _ Ek) as
      (t' & pub & priv & ts & ps & fo & b1 & rest' & c & l1 & k1 & _ & _ & _ & _ & _ & _ & _ & _ & -> & E').
    assert (k_header k = [(str "key_type", VStr t')]) as ->
      by (destruct rest'; destruct E' as (_ & ->); reflexivity).
    unfold ditem. cbn [dget]. rewrite str_eqb_refl. cbn [wlift wbind].
    destruct (val_eqb (VStr t') (VStr t)); cbn [negb wwhen]; reflexivity.
  - reflexivity.
Qed.
Lemma b64decode_fun s b b' : b64decode s = Ok b -> b64decode s = Ok b' -> b = b'.
Proof. congruence. Qed.
(** A line that parses is a type, a base64 text and a comment; the result is what the decoded
    bytes parse to, with the first word and the comment kept as clear text, and the
    inconsistency warning is emitted exactly if the first word is not the encoded type. *)
Theorem C42_type_mismatch_reported ec kd s l k :
  key_from_string ec kd s = (l, Ok k) ->
  exists w b64 c b l0 t b1 rest,
    key_line s w b64 c /\ b64decode b64 = Ok b /\
    key_from_bytes ec kd b (Some [(str "key_type", VStr w); (str "comment", VStr c)]) = (l0, Ok k) /\
    b = b1 ++ rest /\ wire (TText 4) (VStr t) b1 /\ dget (str "key_type") (k_header k) = Some (VStr t) /\
    (In (Warn WClearType) l <-> w <> t) /\
    l = l0 ++ (if str_eqb w t then [] else [Warn WClearType]).
Proof.
  intros H. destruct (break_at 32 s) as [[w r]|] eqn:E1.
  2: { unfold key_from_string in H. change (cp " ") with 32%N in H. cbn [split_max] in H. rewrite E1 in H. discriminate. }
  assert (exists b64 c, key_line s w b64 c) as (b64 & c & KL).
  { pose proof (proj1 (break_at_some _ _ _ _) E1) as (-> & Wt).
    destruct (break_at 32 r) as [[b c]|] eqn:E2.
    + apply break_at_some in E2 as (-> & Wb). exists b, c. apply key_line_comment; assumption.
    + apply break_at_none in E2. exists r, []. apply key_line_plain; assumption. }
  rewrite (key_from_string_line _ _ _ _ _ _ KL) in H.
  destruct (b64decode b64) as [b|e] eqn:Eb; [|discriminate].
  destruct (key_from_bytes ec kd b (Some (clear_dict w c))) as [l0 [k0|e]] eqn:Ek; [|discriminate].
  injection H as <- ->.
  destruct (C23_only_supported_types_accepted _ _ _ _ _ _ Ek) as (t & b1 & rest & -> & W & G & _).
  rewrite G. cbn [val_eqb]. exists w, b64, c, (b1 ++ rest), l0, t, b1, rest.
  split; [exact KL|]. split; [exact Eb|]. split; [exact Ek|]. split; [reflexivity|]. split; [exact W|]. split; [reflexivity|].
  rewrite (str_eqb_sym t w). split; [|reflexivity].
  pose proof (keylog_not_in _ (Warn WClearType) (keylog_from_bytes ec kd (b1 ++ rest) (Some (clear_dict w c))) eq_refl) as N.
  rewrite Ek in N. cbn [fst] in N.
  destruct (str_eqb_reflect w t) as [->|Ne]; split; intros K; try congruence.
  - rewrite app_nil_r in K. contradiction.
  - apply in_or_app. right. left. reflexivity.
Qed.
(** A line determines its parts. *)
Theorem C42_line_is_unambiguous s w b c w' b' c' :
  key_line s w b c -> key_line s w' b' c' -> w = w' /\ b = b' /\ c = c'.
Proof.
  intros H H'. apply split_key_line in H as (r & E & ->). apply split_key_line in H' as (r' & E' & ->).
  rewrite E in E'. injection E' as -> -> ->. auto.
Qed.
(** The other outcomes: no space is an IndexError, otherwise base64 and key errors are passed on. *)
Theorem C42_without_space ec kd s :
  ~ In 32%N s -> key_from_string ec kd s = ([], Err IndexError).
Proof.
  intros N. unfold key_from_string. change (cp " ") with 32%N. cbn [split_max].
  rewrite (proj2 (break_at_none 32 s) N). reflexivity.
Qed.
Definition ex_line : pystr := str "ssh-rsa AAAAB3NzaC1yc2EAAAABEQAAAAIMoQ== me @host".
Definition ex_line_bad : pystr := str "ssh-dss AAAAB3NzaC1yc2EAAAABEQAAAAIMoQ== me @host".
Example C42_example :
  key_from_string ex_ec KPub ex_line =
    ([], Ok (mkkey KPub [(str "key_type", VStr (str "ssh-rsa"))] RSAPub
       [(str "e", VInt 17); (str "n", VInt 3233)] []
       [(str "key_type", VStr (str "ssh-rsa")); (str "comment", VStr (str "me @host"))])) /\
  fst (key_from_string ex_ec KPub ex_line_bad) = [Warn WClearType].
Proof. split; vm_compute; reflexivity. Qed.

(** ** C57: the exceptions of parsing a key *)
Theorem C57_from_bytes_errors ec kd b cl l e :
  key_from_bytes ec kd b cl = (l, Err e) ->
  is_value_error e = true \/ is_eof_error e = true \/ (exists o, e = KeyError o).
Proof. intros H. apply (key_from_bytes_errors ec kd b cl). rewrite H. reflexivity. Qed.
Theorem C57_from_string_errors ec kd s l e :
  key_from_string ec kd s = (l, Err e) ->
  is_value_error e = true \/ is_eof_error e = true \/ (exists o, e = KeyError o) \/ (e = IndexError /\ ~ In 32%N s).
Proof.
  intros H. destruct (in_dec N.eq_dec 32%N s) as [I|N].
  - assert (exists t b c, key_line s t b c) as (t & b64 & c & KL).
    { destruct (break_at 32 s) as [[t r]|] eqn:E1; [|apply break_at_none in E1; contradiction].
      apply break_at_some in E1 as (-> & Wt). destruct (break_at 32 r) as [[b c]|] eqn:E2.
      - apply break_at_some in E2 as (-> & Wb). exists t, b, c. apply key_line_comment; assumption.
      - apply break_at_none in E2. exists t, r, []. apply key_line_plain; assumption. }
    rewrite (key_from_string_line _ _ _ _ _ _ KL) in H.
    destruct (b64decode b64) as [b|e1] eqn:Eb; [|injection H as _ <-; left; eapply C43_decode_errors; exact Eb].
    destruct (key_from_bytes ec kd b _) as [l0 [k0|e1]] eqn:Ek; [discriminate|].
    injection H as _ <-. apply C57_from_bytes_errors in Ek. tauto.
  - rewrite C42_without_space in H by assumption. injection H as _ <-. auto.
Qed.
(** Constructing a key of a supported type raises at most UnicodeDecodeError or KeyError, and
    only for certificates. *)
Theorem C57_constructor_errors ec kd h ps fo cl t l e :
  dget (str "key_type") h = Some (VStr t) ->
  new_key ec (parse_pub ec) kd h ps fo cl = (l, Err e) ->
  ((exists o, e = UnicodeDecodeError o) \/ (exists o, e = KeyError o)) /\
  (In t (map fst plain_specs) -> False).
Proof.
  intros G H. split.
  - apply (new_key_errors ec (parse_pub ec) kd h ps fo cl t e G); [|rewrite H; reflexivity].
    intros b e1 _. apply parse_pub_errors.
  - intros I. apply in_map_iff in I as ((t' & (pub & priv)) & <- & I). cbn [fst] in G.
    assert (In (t', (pub, Some priv)) key_specs) as Hs.
    { unfold key_specs. apply in_or_app. left. apply in_map_iff. exists (t', (pub, priv)). auto. }
    destruct (new_key_plain_no_excess ec (parse_pub ec) kd t' pub priv h ps fo cl Hs G) as (l' & k & E & _).
    congruence.
Qed.
Example C57_example :
  (exists m, snd (key_from_bytes ex_ec KPub (map bZ [0; 0; 0]) None) = Err (EOFError false m)) /\
  snd (key_from_bytes ex_ec KPub (map bZ [0; 0; 0; 1; 255]) None) = Err (UnicodeDecodeError [xff]) /\
  snd (key_from_bytes ex_ec KPub (map bZ [0; 0; 0; 1; 65]) None) = Err (KeyError (VStr (str "A"))) /\
  snd (key_from_string ex_ec KPub (str "ssh-rsa A")) = Err BinasciiError /\
  snd (key_from_string ex_ec KPub (str "ssh-rsa")) = Err IndexError.
Proof. split; [eexists; reflexivity|]. repeat split; vm_compute; reflexivity. Qed.

(** ** C41 *)
Lemma b64encode_length b : (length b <= length (b64encode b))%nat.
Proof.
  remember (length b) as n eqn:En. revert b En. induction n as [n IH] using (well_founded_induction Nat.lt_wf_0).
  intros [|x [|y [|z b]]] ->; cbn [b64encode length]; try lia.
  specialize (IH (length b) ltac:(cbn [length]; lia) b eq_refl). lia.
Qed.
Lemma base64_wordlike b : wordlike (b64encode b).
Proof.
  intros H. pose proof (base64_char_range _ _ (b64encode_base64 b) _ H) as K. lia.
Qed.
Lemma type_wordlike t pub priv : In (t, (pub, priv)) key_specs -> wordlike t.
Proof.
  intros H K.
  assert (forallb (fun s => negb (existsb (N.eqb 32) (fst s))) key_specs = true) as A by (vm_compute; reflexivity).
  rewrite forallb_forall in A. specialize (A _ H). cbn [fst] in A. apply negb_true_iff in A.
  assert (existsb (N.eqb 32) t = true) as B by (apply existsb_exists; exists 32%N; split; [exact K|reflexivity]).
  congruence.
Qed.
(** The text of the comments written after the base64 text. *)
Definition comment_of (use : bool) (d : dict pyval) (c : pystr) : Prop :=
  if use then match dget (str "comment") d with
              | Some v => exists s, value_text v s /\ c = str " " ++ s
              | None => c = []
              end
  else c = [].
Lemma to_str_text v s : to_str v = Ok s -> value_text v s.
Proof.
  destruct v; cbn [to_str]; intros E; try discriminate; injection E as <-; constructor; [apply int_repr_text|apply bytes_repr_ok].
Qed.
Lemma opt_comment_of use d c : opt_comment use d = Ok c -> comment_of use d c.
Proof.
  unfold opt_comment, comment_of. destruct use; [|congruence].
  destruct (dget (str "comment") d) as [v|]; [|congruence]. destruct (to_str v) as [s|] eqn:E; [|discriminate].
  cbn [rbind]. intros K. injection K as <-. exists s. split; [apply to_str_text; exact E|reflexivity].
Qed.
(** What follows the base64 text when read back: nothing if there is no comment (the newline
    then ends up behind the base64 text, where it is ignored), else everything after the
    space, including the final newline. *)
Definition read_comment (c : pystr) : pystr := match c with [] => [] | _ :: c' => c' ++ [10%N] end.
Lemma packed_line t pub priv k uf uc s :
  In (t, (pub, priv)) key_specs -> is_key t k -> pack_public_string uf uc k = Ok s ->
  exists b c1 c2 b64, pack_public_bytes k = Ok b /\ comment_of uf (k_footer k) c1 /\
    comment_of uc (k_clear k) c2 /\ s = t ++ str " " ++ b64encode b ++ c1 ++ c2 ++ [10%N] /\
    key_line s t b64 (read_comment (c1 ++ c2)) /\ b64decode b64 = Ok b.
Proof.
  intros Hs (Hk & _) E. unfold pack_public_string, ditem in E. rewrite Hk in E. cbn [rbind] in E.
  destruct (pack_public_bytes k) as [b|] eqn:Eb; [|discriminate]. cbn [rbind to_str] in E.
  destruct (opt_comment uf (k_footer k)) as [c1|] eqn:E1; [|discriminate]. cbn [rbind] in E.
  destruct (opt_comment uc (k_clear k)) as [c2|] eqn:E2; [|discriminate]. cbn [rbind] in E.
  apply opt_comment_of in E1, E2. injection E as <-.
  assert (c1 = [] \/ exists c, c1 = 32%N :: c) as H1.
  { unfold comment_of in E1. destruct uf; auto.
    destruct (dget (str "comment") (k_footer k)) as [v|]; [|auto]. destruct E1 as (x & _ & ->). right. eexists. reflexivity. }
  assert (c2 = [] \/ exists c, c2 = 32%N :: c) as H2.
  { unfold comment_of in E2. destruct uc; auto.
    destruct (dget (str "comment") (k_clear k)) as [v|]; [|auto]. destruct E2 as (x & _ & ->). right. eexists. reflexivity. }
  pose proof (type_wordlike _ _ _ Hs) as Wt.
  assert (c1 ++ c2 = [] \/ exists c, c1 ++ c2 = 32%N :: c) as H3.
  { destruct H1 as [->|(c & ->)]; [exact H2|right; exists (c ++ c2); reflexivity]. }
  destruct H3 as [H3|(c & H3)].
  - exists b, c1, c2, (b64encode b ++ [10%N]). rewrite H3. cbn [read_comment].
    apply app_eq_nil in H3 as (-> & ->). cbn [app].
    split; [reflexivity|]. split; [assumption|]. split; [assumption|]. split; [reflexivity|]. split.
    + apply (key_line_plain t (b64encode b ++ [10%N])); [assumption|].
      intros K. apply in_app_or in K as [K|[K|[]]]; [eapply base64_wordlike; exact K|discriminate].
    + apply (C43_decode_inverts_encode b (b64encode b)); [apply b64encode_base64|].
      assert (noise 10) as N10
        by (split; [reflexivity|]; split; [|discriminate]; vm_compute; intuition discriminate).
      induction (b64encode b) as [|x r IH]; cbn [app]; [apply noisy_insert; [assumption|constructor]|constructor; exact IH].
  - exists b, c1, c2, (b64encode b). rewrite H3. cbn [read_comment].
    split; [reflexivity|]. split; [assumption|]. split; [assumption|]. split; [reflexivity|]. split.
    + match goal with |- key_line ?x _ _ _ => replace x with (t ++ 32%N :: b64encode b ++ 32%N :: c ++ [10%N]) end.
      * apply key_line_comment; [assumption|apply base64_wordlike].
      * f_equal. cbn. f_equal. f_equal. rewrite app_assoc, H3. reflexivity.
    + apply base64_decode, b64encode_base64.
Qed.
(** The clear dict has no other effect than being stored. *)
Lemma key_from_bytes_clear ec kd b d l k :
  key_from_bytes ec kd b None = (l, Ok k) -> k_clear k = [] ->
  key_from_bytes ec kd b (Some d) = (l, Ok (mkkey (k_kind k) (k_header k) (k_pcls k) (k_params k) (k_footer k) d)).
Proof.
  intros H C. unfold key_from_bytes, key_from_bytes_with in *.
  unfold key_from_stream in *. destruct (read_key_parts kd (stream_of b)) as [s' [[[h ps] fo]|e]]; [|discriminate].
  apply wbind_inv in H as (l1 & k1 & l2 & H1 & H2 & ->).
  pose proof (new_key_inv _ _ _ _ _ _ _ _ _ H1) as (kt & c & l3 & G & Hc & -> & Hp & ->).
  rewrite (new_key_intro ec (parse_pub ec) kd h ps fo (Some d) kt c l3 G Hc Hp). cbn [wbind].
  destruct (unread s') as [|y r].
  - injection H2 as <- <-. reflexivity.
  - exfalso. unfold wseq in H2. apply wbind_inv in H2 as (? & ? & ? & _ & H2 & _). injection H2 as _ <-. discriminate.
Qed.
Lemma line_roundtrip ec t pub priv k uf uc s :
  In (t, (pub, priv)) key_specs -> is_key t k -> pack_public_string uf uc k = Ok s ->
  (forall b, pack_public_bytes k = Ok b -> Z.of_nat (length b) <= Z.of_nat (length s) ->
     exists l k', key_from_bytes ec KPub b None = (l, Ok k') /\ k_header k' = [(str "key_type", VStr t)] /\ k_clear k' = []) ->
  exists b c1 c2 l k', pack_public_bytes k = Ok b /\ comment_of uf (k_footer k) c1 /\ comment_of uc (k_clear k) c2 /\
    key_from_bytes ec KPub b None = (l, Ok k') /\ k_header k' = [(str "key_type", VStr t)] /\ k_clear k' = [] /\
    s = t ++ str " " ++ b64encode b ++ c1 ++ c2 ++ [10%N] /\
    key_from_string ec KPub s =
      (l, Ok (mkkey (k_kind k') (k_header k') (k_pcls k') (k_params k') (k_footer k')
                [(str "key_type", VStr t); (str "comment", VStr (read_comment (c1 ++ c2)))])).
Proof.
  intros Hs Hk E P. destruct (packed_line _ _ _ _ _ _ _ Hs Hk E) as (b & c1 & c2 & b64 & Eb & H1 & H2 & -> & KL & Ed).
  destruct (P b Eb) as (l & k' & Ek & Eh & Ec).
  { rewrite !app_length. pose proof (b64encode_length b). lia. }
  exists b, c1, c2, l, k'. do 6 (split; [assumption|]). split; [reflexivity|].
  rewrite (key_from_string_line _ _ _ _ _ _ KL), Ed.
  rewrite (key_from_bytes_clear _ _ _ (clear_dict t (read_comment (c1 ++ c2))) _ _ Ek Ec).
  cbn [k_header]. rewrite Eh. cbn [dget]. rewrite str_eqb_refl, val_eqb_refl, app_nil_r. reflexivity.
Qed.
(** Any key object (public or private) of a plain type. *)
Theorem C41_public_string_roundtrip ec t pub priv k uf uc s :
  In (t, (pub, Some priv)) key_specs -> is_key t k ->
  pack_public_string uf uc k = Ok s -> Z.of_nat (length s) <= ssize_max ->
  exists l k' c1 c2, key_from_string ec KPub s = (l, Ok k') /\
    ~ In (Warn WClearType) l /\ ~ In (Warn WExcess) l /\
    k_kind k' = KPub /\ is_key t k' /\ k_header k' = [(str "key_type", VStr t)] /\
    restricts (map fst pub) (k_params k) (k_params k') /\ k_footer k' = [] /\
    comment_of uf (k_footer k) c1 /\ comment_of uc (k_clear k) c2 /\
    k_clear k' = [(str "key_type", VStr t); (str "comment", VStr (read_comment (c1 ++ c2)))].
Proof.
  intros Hs Hk E L.
  destruct (line_roundtrip ec _ _ _ _ _ _ _ Hs Hk E) as (b & c1 & c2 & l & k' & Eb & H1 & H2 & Ek & Eh & Ec & Es & Er).
  { intros b Eb Lb. destruct (C17_public_bytes_roundtrip ec _ _ _ _ _ Hs Hk Eb ltac:(lia)) as
      (l & k' & Ek & _ & _ & _ & Eh & _ & _ & Ec). eauto. }
  assert (Z.of_nat (length b) <= ssize_max) as Lb.
  { rewrite Es, !app_length in L. pose proof (b64encode_length b). lia. }
  destruct (C17_public_bytes_roundtrip ec _ _ _ _ _ Hs Hk Eb Lb) as (l' & k2 & Ek' & X & Kk & Ik & Eh' & Rs & Ef & Ec').
  rewrite Ek in Ek'. injection Ek' as <- <-.
  exists l. eexists. exists c1, c2. split; [exact Er|].
  split. { pose proof (keylog_not_in _ (Warn WClearType) (keylog_from_bytes ec KPub b None) eq_refl) as N. rewrite Ek in N. exact N. }
  split; [exact X|]. cbn [k_kind k_header k_pcls k_params k_footer k_clear].
  split; [exact Kk|]. split; [exact Ik|]. auto 10.
Qed.
(** Public keys of all sixteen types, as constructed: the same warnings as the construction. *)
Theorem C41_constructed_public_key_string_roundtrip ec t pub priv h ps fo cl l k uf uc s :
  In (t, (pub, priv)) key_specs ->
  new_key ec (parse_pub ec) KPub h ps fo cl = (l, Ok k) -> is_key t k ->
  pack_public_string uf uc k = Ok s -> Z.of_nat (length s) <= ssize_max ->
  exists k' c1 c2, key_from_string ec KPub s = (l, Ok k') /\ ~ In (Warn WClearType) l /\
    k_kind k' = KPub /\ is_key t k' /\ k_header k' = [(str "key_type", VStr t)] /\
    restricts (map fst pub) (k_params k) (k_params k') /\ k_footer k' = [] /\
    comment_of uf (k_footer k) c1 /\ comment_of uc (k_clear k) c2 /\
    k_clear k' = [(str "key_type", VStr t); (str "comment", VStr (read_comment (c1 ++ c2)))].
Proof.
  intros Hs Nk Hk E L.
  destruct (line_roundtrip ec _ _ _ _ _ _ _ Hs Hk E) as (b & c1 & c2 & l' & k' & Eb & H1 & H2 & Ek & Eh & Ec & Es & Er).
  { intros b Eb Lb. destruct (C17_constructed_public_key_roundtrip ec _ _ _ _ _ _ _ _ _ _ Hs Nk Hk Eb ltac:(lia)) as
      (k' & Ek & _ & _ & Eh & _ & _ & Ec). eauto. }
  assert (Z.of_nat (length b) <= ssize_max) as Lb.
  { rewrite Es, !app_length in L. pose proof (b64encode_length b). lia. }
  destruct (C17_constructed_public_key_roundtrip ec _ _ _ _ _ _ _ _ _ _ Hs Nk Hk Eb Lb) as
    (k2 & Ek' & Kk & Ik & Eh' & Rs & Ef & Ec').
  rewrite Ek in Ek'. injection Ek' as <- <-.
  eexists. exists c1, c2. split; [exact Er|].
  split. { pose proof (keylog_not_in _ (Warn WClearType) (keylog_from_bytes ec KPub b None) eq_refl) as N. rewrite Ek in N. exact N. }
  cbn [k_kind k_header k_pcls k_params k_footer k_clear].
  split; [exact Kk|]. split; [exact Ik|]. auto 10.
Qed.
(** The line itself: type, space, base64 of the public bytes, comments, newline. *)
Theorem C41_public_string_format t pub priv k uf uc s :
  In (t, (pub, priv)) key_specs -> is_key t k -> pack_public_string uf uc k = Ok s ->
  exists b b64 c1 c2, pack_public_bytes k = Ok b /\ base64 b b64 /\
    comment_of uf (k_footer k) c1 /\ comment_of uc (k_clear k) c2 /\
    s = t ++ str " " ++ b64 ++ c1 ++ c2 ++ newline.
Proof.
  intros Hs Hk E. destruct (packed_line _ _ _ _ _ _ _ Hs Hk E) as (b & c1 & c2 & b64 & Eb & H1 & H2 & -> & _).
  exists b, (b64encode b), c1, c2. split; [exact Eb|]. split; [apply b64encode_base64|]. auto.
Qed.
(** A line is made whenever the public bytes are, and the comments are str, int or bytes or absent
    or not wanted. *)
Theorem C41_public_string_made t pub priv k uf uc b :
  In (t, (pub, priv)) key_specs -> is_key t k -> pack_public_bytes k = Ok b ->
  (uf = true -> forall v, dget (str "comment") (k_footer k) = Some v -> exists s, value_text v s) ->
  (uc = true -> forall v, dget (str "comment") (k_clear k) = Some v -> exists s, value_text v s) ->
  exists s, pack_public_string uf uc k = Ok s.
Proof.
  intros Hs (Hk & _) Eb Hf Hc. unfold pack_public_string, ditem. rewrite Hk, Eb. cbn [rbind to_str].
  assert (forall use d, (use = true -> forall v, dget (str "comment") d = Some v -> exists s, value_text v s) ->
            exists c, opt_comment use d = Ok c) as K.
  { intros use d H. unfold opt_comment. destruct use; [|eauto]. destruct (dget (str "comment") d) as [v|]; [|eauto].
    destruct (H eq_refl v eq_refl) as (s & V). inversion V; subst; cbn [to_str rbind]; eauto. }
  destruct (K uf (k_footer k) Hf) as (c1 & ->). destruct (K uc (k_clear k) Hc) as (c2 & ->). cbn [rbind]. eauto.
Qed.
(** The newline that ends the line becomes part of the comment. *)
Theorem C41_comment_preserved_refuted :
  exists k s l k', pack_public_string true true k = Ok s /\ is_key (str "ssh-ed25519") k /\
    dget (str "comment") (k_footer k) = Some (VStr (str "me@host")) /\
    key_from_string ex_ec KPub s = (l, Ok k') /\
    dget (str "comment") (k_clear k') = Some (VStr (str "me@host" ++ newline)).
Proof.
  exists ex_ed. do 3 eexists. split; [vm_compute; reflexivity|]. split; [split; vm_compute; reflexivity|].
  split; [reflexivity|]. split; [vm_compute; reflexivity|vm_compute; reflexivity].
Qed.
Definition with_comments (k : key) (f c : pyval) : key :=
  mkkey (k_kind k) (k_header k) (k_pcls k) (k_params k) (dset (str "comment") f (k_footer k)) (dset (str "comment") c (k_clear k)).
Example C41_example_other_comments :
  pack_public_string true true (with_comments ex_rsa (VInt (-40)) (VBytes (bstr "it's" ++ [x00]))) =
    Ok (str "ssh-rsa AAAAB3NzaC1yc2EAAAABEQAAAAIMoQ== -40 b""it's\x00""" ++ newline) /\
  pack_public_string false false (with_comments ex_rsa (VOther 1) (VTuple [])) =
    Ok (str "ssh-rsa AAAAB3NzaC1yc2EAAAABEQAAAAIMoQ==" ++ newline).
Proof. split; vm_compute; reflexivity. Qed.
Example C41_example :
  pack_public_string true true ex_rsa = Ok (str "ssh-rsa AAAAB3NzaC1yc2EAAAABEQAAAAIMoQ== toy" ++ newline) /\
  key_from_string ex_ec KPub (str "ssh-rsa AAAAB3NzaC1yc2EAAAABEQAAAAIMoQ== toy" ++ newline) =
    ([], Ok (mkkey KPub [(str "key_type", VStr (str "ssh-rsa"))] RSAPub
       [(str "e", VInt 17); (str "n", VInt 3233)] []
       [(str "key_type", VStr (str "ssh-rsa")); (str "comment", VStr (str "toy" ++ newline))])).
Proof. split; vm_compute; reflexivity. Qed.

(** ** C55 *)
(** The tool's result on the lines [ls], numbered from [i]: keys in order and log. *)
Inductive line_results (ec : curve -> bytes -> bool) : nat -> list pystr -> list key -> list event -> Prop :=
| lr_nil i : line_results ec i [] [] []
| lr_key i s ls k ks l l' :
    key_from_string ec KPub s = (l, Ok k) -> line_results ec (S i) ls ks l' ->
    line_results ec i (s :: ls) (k :: ks) (l ++ l')
| lr_skip i s ls e ks l l' :
    key_from_string ec KPub s = (l, Err e) -> is_value_error e = true \/ is_eof_error e = true ->
    line_results ec (S i) ls ks l' ->
    line_results ec i (s :: ls) ks (l ++ Warn (WLine i) :: l').
Lemma parse_lines_ok p i ls lg ks :
  parse_lines p i ls = (lg, Ok ks) <-> line_results (p_ec_ok p) i ls ks lg.
Proof.
  revert i lg ks. induction ls as [|s ls IH]; intros i lg ks; cbn [parse_lines].
  - split; [intros K; injection K as <- <-; constructor|intros K; inversion K; reflexivity].
  - split.
    + intros H. apply wbind_inv in H as (l1 & o & l2 & H1 & H2 & ->).
      apply wbind_inv in H2 as (l3 & r & l4 & H3 & H4 & ->). apply IH in H3. injection H4 as <- <-. rewrite app_nil_r.
      destruct (key_from_string (p_ec_ok p) KPub s) as [l [k|e]] eqn:E; cbn [wbind wcatch wret] in H1.
      * rewrite app_nil_r in H1. injection H1 as <- <-. constructor; assumption.
      * destruct (is_line_error e) eqn:Ee; [|discriminate]. unfold wseq, wwarn in H1. cbn [wbind wret app] in H1.
        injection H1 as <- <-. rewrite <- app_assoc. cbn [app]. eapply lr_skip; [eassumption| |assumption].
        pose proof (C57_from_string_errors _ _ _ _ _ E) as [K|[K|[(o & ->)|(-> & _)]]]; auto; discriminate.
    + intros H. inversion H as [|? ? ? k ks' l l' E R|? ? ? e ks' l l' E Ee R]; subst; apply IH in R; rewrite E, R; cbn [wbind wcatch wret].
      * rewrite !app_nil_r. reflexivity.
      * assert (is_line_error e = true) as -> by (unfold is_line_error; destruct Ee as [-> | ->]; [|destruct (is_value_error e)]; reflexivity).
        unfold wseq, wwarn. cbn [wbind wret app]. rewrite app_nil_r, <- app_assoc. reflexivity.
Qed.
Lemma parse_lines_err p i ls lg e :
  parse_lines p i ls = (lg, Err e) ->
  exists pre s post l, ls = pre ++ s :: post /\ key_from_string (p_ec_ok p) KPub s = (l, Err e) /\
    ((exists o, e = KeyError o) \/ (e = IndexError /\ ~ In 32%N s)).
Proof.
  revert i lg. induction ls as [|s ls IH]; intros i lg H; cbn [parse_lines] in H; [discriminate|].
  destruct (key_from_string (p_ec_ok p) KPub s) as [l [k|e1]] eqn:E; cbn [wbind wcatch wret] in H.
  - destruct (parse_lines p (S i) ls) as [l2 [r|e2]] eqn:E2; cbn [wbind wret] in H; [discriminate|].
    injection H as _ <-. apply IH in E2 as (pre & s' & post & l' & -> & E' & H'). exists (s :: pre), s', post, l'. auto.
  - destruct (is_line_error e1) eqn:Ee.
    + unfold wseq, wwarn in H. cbn [wbind wret app] in H.
      destruct (parse_lines p (S i) ls) as [l2 [r|e2]] eqn:E2; cbn [wbind wret] in H; [discriminate|].
      injection H as _ <-. apply IH in E2 as (pre & s' & post & l' & -> & E' & H'). exists (s :: pre), s', post, l'. auto.
    + cbn [wbind] in H. injection H as _ <-. exists [], s, ls, l. split; [reflexivity|]. split; [assumption|].
      pose proof (C57_from_string_errors _ _ _ _ _ E) as [K|[K|[(o & ->)|(-> & K)]]]; eauto;
        unfold is_line_error in Ee; rewrite K in Ee; try discriminate; destruct (is_value_error e1); discriminate.
Qed.
(** A file that does not start with the private key header prints keys [ks] with messages
    [lg] exactly if its lines give these. Missing for the full property: aborts (below). *)
Theorem C55_lines_parsed_or_reported_partial p e s pass lg ks :
  (forall rest, s <> begin_line ++ rest) ->
  main_parse p e s pass = (lg, Ok (ParsedKeys ks)) <->
  exists ls, lines s ls /\ line_results (p_ec_ok p) 0 ls ks lg.
Proof.
  intros N. unfold main_parse.
  assert (starts_with pem_header s = false) as ->.
  { assert (forall q x, starts_with q x = true -> exists r, x = q ++ r) as A.
    { induction q as [|a q IH]; intros x Hx; [exists x; reflexivity|]. destruct x as [|y x]; [discriminate|].
      cbn [starts_with] in Hx. apply andb_true_iff in Hx as (Ea & Hx). apply N.eqb_eq in Ea as ->.
      apply IH in Hx as (r & ->). exists r. reflexivity. }
    destruct (starts_with pem_header s) eqn:Es; [|reflexivity]. exfalso.
    apply A in Es as (r & Er). apply (N r). exact Er. }
  split.
  - intros H. apply wbind_inv in H as (l1 & r & l2 & H & H2 & ->). injection H2 as <- <-. rewrite app_nil_r.
    exists (splitlines s). split; [apply lines_iff; reflexivity|]. apply parse_lines_ok. exact H.
  - intros (ls & Hl & R). apply lines_iff in Hl as <-. apply parse_lines_ok in R. rewrite R.
    unfold wret. cbn [wbind]. rewrite app_nil_r. reflexivity.
Qed.
(** [parse_pub]-independent reading of the log: line [j] is reported exactly if it did not parse. *)
Lemma line_results_reported ec i ls ks lg : line_results ec i ls ks lg ->
  forall j, In (Warn (WLine j)) lg <->
    exists n s l e, j = (i + n)%nat /\ nth_error ls n = Some s /\ key_from_string ec KPub s = (l, Err e).
Proof.
  assert (forall s l r j, key_from_string ec KPub s = (l, r) -> ~ In (Warn (WLine j)) l) as X.
  { intros s l r j E Hin.
    destruct (in_dec N.eq_dec 32%N s) as [I|N].
    2: { rewrite C42_without_space in E by assumption. injection E as <- <-. destruct Hin. }
    destruct (break_at 32 s) as [[t rr]|] eqn:E1; [|apply break_at_none in E1; contradiction].
    assert (exists b c, key_line s t b c) as (b64 & c & KL).
    { apply break_at_some in E1 as (-> & Wt). destruct (break_at 32 rr) as [[b c]|] eqn:E2.
      - apply break_at_some in E2 as (-> & Wb). exists b, c. apply key_line_comment; assumption.
      - apply break_at_none in E2. exists rr, []. apply key_line_plain; assumption. }
    rewrite (key_from_string_line _ _ _ _ _ _ KL) in E.
    destruct (b64decode b64) as [b|e1]; [|injection E as <- <-; destruct Hin].
    pose proof (keylog_not_in _ (Warn (WLine j)) (keylog_from_bytes ec KPub b (Some (clear_dict t c))) eq_refl) as N.
    destruct (key_from_bytes ec KPub b _) as [l0 [k0|e1]]; injection E as <- <-; cbn [fst] in N; [|contradiction].
    apply in_app_or in Hin as [Hin|Hin]; [contradiction|].
    destruct (dget _ _) as [v|]; [|destruct Hin]. destruct (val_eqb v _); [destruct Hin|].
    destruct Hin as [Hin|[]]. discriminate. }
  induction 1 as [i|i s ls k ks l l' E R IH|i s ls e ks l l' E Ee R IH]; intros j.
  - split; [intros []|]. intros (n & s & l & e & _ & K & _). destruct n; discriminate.
  - rewrite in_app_iff, IH. split.
    + intros [K|(n & s' & l1 & e1 & -> & K & K')]; [destruct (X _ _ _ _ E K)|].
      exists (S n), s', l1, e1. split; [lia|]. auto.
    + intros (n & s' & l1 & e1 & -> & K & K'). right. destruct n as [|n]; cbn [nth_error] in K.
      * injection K as <-. congruence.
      * exists n, s', l1, e1. split; [lia|]. auto.
  - rewrite in_app_iff. cbn [In]. rewrite IH. split.
    + intros [K|[K|(n & s' & l1 & e1 & -> & K & K')]]; [destruct (X _ _ _ _ E K)| |].
      * injection K as <-. exists 0%nat, s, l, e. split; [lia|]. auto.
      * exists (S n), s', l1, e1. split; [lia|]. auto.
    + intros (n & s' & l1 & e1 & -> & K & K'). right. destruct n as [|n]; cbn [nth_error] in K.
      * left. f_equal. f_equal. lia.
      * right. exists n, s', l1, e1. split; [lia|]. auto.
Qed.
Theorem C55_reported_lines_partial p e s pass lg ks ls :
  (forall rest, s <> begin_line ++ rest) -> lines s ls ->
  main_parse p e s pass = (lg, Ok (ParsedKeys ks)) ->
  forall j, In (Warn (WLine j)) lg <->
    exists line l e, nth_error ls j = Some line /\ key_from_string (p_ec_ok p) KPub line = (l, Err e).
Proof.
  intros N Hl H j. apply C55_lines_parsed_or_reported_partial in H as (ls' & Hl' & R); [|exact N].
  apply lines_iff in Hl. apply lines_iff in Hl'. assert (ls' = ls) as -> by congruence.
  rewrite (line_results_reported _ _ _ _ _ R j). split.
  - intros (n & x & l & e1 & -> & K). exists x, l, e1. exact K.
  - intros (x & l & e1 & K). exists j, x, l, e1. auto.
Qed.
(** The only aborts: a line without a space (IndexError) or with an unknown key type or
    authority key type (KeyError). *)
Theorem C55_aborts p e s pass lg x :
  (forall rest, s <> begin_line ++ rest) ->
  main_parse p e s pass = (lg, Err x) ->
  exists ls pre line post l, lines s ls /\ ls = pre ++ line :: post /\
    key_from_string (p_ec_ok p) KPub line = (l, Err x) /\
    ((exists o, x = KeyError o) \/ (x = IndexError /\ ~ In 32%N line)).
Proof.
  intros N. unfold main_parse.
  assert (starts_with pem_header s = false) as ->.
  { assert (forall q x, starts_with q x = true -> exists r, x = q ++ r) as A.
    { induction q as [|a q IH]; intros y Hx; [exists y; reflexivity|]. destruct y as [|z y]; [discriminate|].
      cbn [starts_with] in Hx. apply andb_true_iff in Hx as (Ea & Hx). apply N.eqb_eq in Ea as ->.
      apply IH in Hx as (r & ->). exists r. reflexivity. }
    destruct (starts_with pem_header s) eqn:Es; [|reflexivity]. exfalso.
    apply A in Es as (r & Er). apply (N r). exact Er. }
  intros H. destruct (parse_lines p 0 (splitlines s)) as [l1 [r|e1]] eqn:E; cbn [wbind wret] in H; [discriminate|].
  injection H as _ <-. apply parse_lines_err in E as (pre & line & post & l & El & K1 & K2).
  exists (splitlines s), pre, line, post, l. split; [apply lines_iff; reflexivity|]. auto.
Qed.
Theorem C55_bad_line_skipped_refuted :
  (forall p e pass, main_parse p e (str "garbage") pass = ([], Err IndexError)) /\
  (forall p e pass, main_parse p e (str "ssh-foo AAAAB3NzaC1mb28=") pass = ([], Err (KeyError (VStr (str "ssh-foo"))))).
Proof. split; intros; vm_compute; reflexivity. Qed.
Example C55_example p e pass :
  main_parse p e (ex_line ++ newline ++ str "a b" ++ newline ++ ex_line_bad) pass =
  ([Warn (WLine 1); Warn WClearType],
   Ok (ParsedKeys
    (map (fun t => mkkey KPub [(str "key_type", VStr (str "ssh-rsa"))] RSAPub
       [(str "e", VInt 17); (str "n", VInt 3233)] []
       [(str "key_type", VStr (str t)); (str "comment", VStr (str "me @host"))]) ["ssh-rsa"; "ssh-dss"]%string))).
Proof. vm_compute. reflexivity. Qed.

Print Assumptions C43_encode_is_base64.
Print Assumptions C43_decode_inverts_encode.
Print Assumptions C43_noise_is_ignored.
Print Assumptions C43_decode_errors.
Print Assumptions C42_type_mismatch_reported.
Print Assumptions C42_line_is_unambiguous.
Print Assumptions C42_without_space.
Print Assumptions C57_from_bytes_errors.
Print Assumptions C57_from_string_errors.
Print Assumptions C57_constructor_errors.
Print Assumptions C41_public_string_roundtrip.
Print Assumptions C41_constructed_public_key_string_roundtrip.
Print Assumptions C41_public_string_format.
Print Assumptions C41_public_string_made.
Print Assumptions C41_comment_preserved_refuted.
Print Assumptions C55_lines_parsed_or_reported_partial.
Print Assumptions C55_reported_lines_partial.
Print Assumptions C55_aborts.
Print Assumptions C55_bad_line_skipped_refuted.
