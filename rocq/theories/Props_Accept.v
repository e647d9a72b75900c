(** C105: from text to result. Which texts are read as a private key file, which lines as a
    public key, and what the others raise, without reference to the steps of the parser. *)
From Verif Require Import PyBase IntBytes Utf8 StructFmt Stream Text Classes Key Crypto PrivateKeyList.
From Verif Require Import SpecWire SpecKey SpecText SpecCrypto SpecList SpecBase64 SpecUnread SpecAccept.
From Verif Require Import ProofBase ProofText ProofLog ProofList ProofRead.
From Verif Require Import Props_Text Props_Key Props_Crypto Props_List Props_Armor Props_Base64 Props_Unread.
From Coq Require Import Lia.
Open Scope Z_scope.

(** ** Sizes: what a text decodes to is no longer than the text *)
Lemma sextets_length s vs : sextets s vs -> (length vs <= length s)%nat.
Proof. intros H; induction H; cbn [length]; lia. Qed.
Lemma decodes_length s b : decodes s b -> (length b <= length s)%nat.
Proof.
  intros (p & vs & S & (L & _) & D). apply sextets_length in S.
  assert (length p <= length s)%nat as P.
  { destruct D as [(_ & (r & ->) & _)|(-> & _)]; [rewrite app_length|]; lia. }
  assert (Z.of_nat (length b) <= Z.of_nat (length vs)) by (rewrite L; Z.to_euclidean_division_equations; lia). lia.
Qed.
Lemma lines_length s ls : lines s ls -> (length (concat ls) <= length s)%nat.
Proof.
  intros H; induction H; cbn [concat]; repeat rewrite app_length; cbn [length]; lia.
Qed.
Lemma armored_length s mid : armored s mid -> (length (concat mid) <= length s)%nat.
Proof.
  intros A. apply lines_length in A. cbn [concat] in A. rewrite concat_app, !app_length in A. lia.
Qed.
Lemma key_line_length s w b c : key_line s w b c -> (length b <= length s)%nat.
Proof. intros H; inversion H; subst; repeat (rewrite app_length; cbn [length]); lia. Qed.

(** ** Private key files *)
Lemma content_length s b : content s b -> (length b <= length s)%nat.
Proof. intros (mid & A & _ & D). apply armored_length in A. apply decodes_length in D. lia. Qed.
Lemma content_bytes p e s b given : content s b -> list_from_string p e s given = list_from_bytes p e b given.
Proof.
  intros (mid & A & As & D). rewrite (C30_armored_text_is_decoded p e s mid given A).
  rewrite (proj2 (C104_accepted _ _) (conj As D)). reflexivity.
Qed.
Lemma armored_dec s : (exists mid, armored s mid) \/ (forall mid, ~ armored s mid).
Proof.
  destruct (splitlines s) as [|first rest] eqn:E.
  { right. intros mid A. apply armored_iff in A as (f & r & E' & _). rewrite E in E'. discriminate. }
  destruct (str_eqb_reflect first begin_line) as [->|N].
  2: { right. intros mid A. apply armored_iff in A as (f & r & E' & -> & _). rewrite E in E'. injection E' as -> _. contradiction. }
  destruct (str_eqb_reflect (last (begin_line :: rest) []) end_line) as [L|N].
  - left. exists (removelast rest). apply armored_iff. exists begin_line, rest. auto.
  - right. intros mid A. apply armored_iff in A as (f & r & E' & -> & L & _). rewrite E in E'. injection E' as ->. contradiction.
Qed.
(** Parsing the text of a private key file returns [l] exactly if the text has the BEGIN line,
    the END line and between them base64 text of a file that describes [l]. *)
Theorem C105_private_text p e s given l :
  sound_prims p -> Z.of_nat (length s) <= ssize_max ->
  snd (list_from_string p e s given) = Ok l <-> exists b, content s b /\ parsed p e b given l.
Proof.
  intros S Z. split.
  - intros H. destruct (armored_dec s) as [(mid & A)|N].
    + pose proof H as H0. rewrite (C30_armored_text_is_decoded p e s mid given A) in H0.
      destruct (b64decode (concat mid)) as [b|x] eqn:Eb; [|discriminate].
      apply C104_accepted in Eb as (As & D). exists b.
      assert (content s b) as C by (exists mid; auto). split; [exact C|].
      apply (C58_from_bytes_exact p e b given l S); [apply content_length in C; lia|exact H0].
    + destruct s as [|c s]; [rewrite C30_empty_text_refuted in H; discriminate|].
      rewrite C30_other_text_is_rejected in H; [discriminate|discriminate|exact N].
  - intros (b & C & P). rewrite (content_bytes p e s b given C).
    apply (C58_from_bytes_exact p e b given l S); [apply content_length in C; lia|exact P].
Qed.
(** Any other text raises a ValueError; the empty text raises IndexError. *)
Theorem C105_private_refused p e s given :
  sound_prims p -> Z.of_nat (length s) <= ssize_max ->
  (forall y, e_getpass e = Err y -> is_model_error y = false) ->
  (exists x, snd (list_from_string p e s given) = Err x /\ (is_value_error x = true \/ (s = [] /\ x = IndexError))) <->
  ~ exists b l, content s b /\ parsed p e b given l.
Proof.
  intros S Z G. split.
  - intros (x & H & _) (b & l & C & P).
    rewrite (proj2 (C105_private_text p e s given l S Z) (ex_intro _ b (conj C P))) in H. discriminate.
  - intros N. destruct (list_from_string p e s given) as [lg [l|x]] eqn:E; cbn [snd].
    + exfalso. apply N. assert (snd (list_from_string p e s given) = Ok l) as H by (rewrite E; reflexivity).
      apply (C105_private_text p e s given l S Z) in H as (b & C & P). eauto.
    + exists x. split; [reflexivity|]. destruct s as [|c s].
      * right. rewrite C30_empty_text_refuted in E. injection E as _ <-. auto.
      * left. eapply C30_only_value_error; [exact G| |exact E]. discriminate.
Qed.

(** ** Public key lines *)
Section Public.
Variable ec : curve -> bytes -> bool.
Theorem C105_line_raises s x :
  Z.of_nat (length s) <= ssize_max ->
  snd (key_from_string ec KPub s) = Err x <-> line_raises s x.
Proof.
  intros Z. rewrite C103_line. split.
  - intros [(N & ->)|(w & b64 & c & K & H)]; [apply lr_no_space; exact N|].
    destruct H as [H|(b & H & R)].
    + pose proof H as H0. apply C104_refused in H as [(N & ->)|(A & -> & _)]; [eapply lr_not_ascii; eassumption|].
      eapply lr_incomplete; [exact K|exact A|]. intros b D.
      rewrite (proj2 (C104_accepted _ _) (conj A D)) in H0. discriminate.
    + apply C104_accepted in H as (A & D). eapply lr_bytes; [exact K|exact A|exact D|].
      eapply C103_public; [|exact R]. apply key_line_length in K. apply decodes_length in D. lia.
  - intros [N|w b64 c K N|w b64 c K A N|w b64 c b y K A D R]; [auto|right..]; exists w, b64, c; (split; [exact K|]).
    + left. apply C104_refused. auto.
    + left. destruct (b64decode b64) as [b|y] eqn:E.
      * apply C104_accepted in E as (_ & D). destruct (N b D).
      * apply C104_refused in E as [(N' & _)|(_ & -> & _)]; [contradiction|reflexivity].
    + right. exists b. split; [apply C104_accepted; auto|]. apply C103_public; [|exact R].
      apply key_line_length in K. apply decodes_length in D. lia.
Qed.
(** A line is read as a key exactly if it has a space, and the word after it is the base64
    text of bytes that can be read. *)
Theorem C105_line_accepted s :
  Z.of_nat (length s) <= ssize_max ->
  (exists k, snd (key_from_string ec KPub s) = Ok k) <->
  exists w b64 c b, key_line s w b64 c /\ all_ascii b64 /\ decodes b64 b /\ forall x, ~ public_raises b x.
Proof.
  intros Z. split.
  - intros (k & H).
    assert (forall x, ~ line_raises s x) as N.
    { intros x R. apply C105_line_raises in R; [|exact Z]. rewrite H in R. discriminate. }
    destruct (in_dec N.eq_dec 32%N s) as [I|I]; [|destruct (N _ (lr_no_space _ I))].
    assert (exists w b64 c, key_line s w b64 c) as (w & b64 & c & K).
    { destruct (break_at 32 s) as [[t rr]|] eqn:E1; [|apply break_at_none in E1; contradiction].
      apply break_at_some in E1 as (-> & Wt). destruct (break_at 32 rr) as [[b c]|] eqn:E2.
      - apply break_at_some in E2 as (-> & Wb). exists t, b, c. apply key_line_comment; assumption.
      - apply break_at_none in E2. exists t, rr, []. apply key_line_plain; assumption. }
    destruct (b64decode b64) as [b|y] eqn:E.
    + apply C104_accepted in E as (A & D). exists w, b64, c, b. split; [exact K|]. split; [exact A|]. split; [exact D|].
      intros x R. exact (N _ (lr_bytes _ _ _ _ _ _ K A D R)).
    + exfalso. assert (snd (key_from_string ec KPub s) = Err y) as H'.
      { apply C103_line. right. exists w, b64, c. auto. }
      rewrite H in H'. discriminate.
  - intros (w & b64 & c & b & K & A & D & N).
    destruct (snd (key_from_string ec KPub s)) as [k|x] eqn:E; [eauto|]. exfalso.
    apply C103_line in E as [(I & _)|(w' & b' & c' & K' & H)].
    { inversion K; subst; apply I; apply in_or_app; right; left; reflexivity. }
    assert (b' = b64) as ->.
    { apply split_key_line in K as (r1 & K & _). apply split_key_line in K' as (r2 & K' & _). rewrite K in K'. injection K' as _ ->. reflexivity. }
    rewrite (proj2 (C104_accepted _ _) (conj A D)) in H. destruct H as [H|(b2 & H & R)]; [discriminate|].
    injection H as <-. apply (N x). eapply C103_public; [|exact R].
    apply key_line_length in K. apply decodes_length in D. lia.
Qed.
End Public.

(** ** Files of public keys *)
Lemma line_errors ec s l y : key_from_string ec KPub s = (l, Err y) -> (is_line_error y = false <-> aborts y).
Proof.
  intros E. split.
  - intros F. unfold is_line_error in F. destruct (C57_from_string_errors _ _ _ _ _ E) as [K|[K|[(o & ->)|(-> & _)]]].
    + rewrite K in F. discriminate.
    + rewrite K, orb_true_r in F. discriminate.
    + right. eauto.
    + left. reflexivity.
  - intros [->|(o & ->)]; reflexivity.
Qed.
Lemma parse_lines_aborts p i ls x :
  (forall t, In t ls -> Z.of_nat (length t) <= ssize_max) ->
  snd (parse_lines p i ls) = Err x <->
  aborts x /\ exists pre s post, ls = pre ++ s :: post /\ line_raises s x /\
    forall t y, In t pre -> line_raises t y -> ~ aborts y.
Proof.
  revert i. induction ls as [|s ls IH]; intros i Z.
  { cbn [parse_lines]. split; [discriminate|]. intros (_ & pre & s & post & E & _). destruct pre; discriminate. }
  specialize (IH (S i) (fun t I => Z t (or_intror I))).
  pose proof (C105_line_raises (p_ec_ok p) s) as R.
  cbn [parse_lines]. destruct (key_from_string (p_ec_ok p) KPub s) as [l [k|y]] eqn:E; cbn [wbind wcatch wret].
  - assert (forall y, ~ line_raises s y) as N.
    { intros y H. apply R in H; [discriminate|]. apply Z. left. reflexivity. }
    transitivity (snd (parse_lines p (S i) ls) = Err x).
    { destruct (parse_lines p (S i) ls) as [l2 [r|e2]]; cbn [wbind wret snd]; [split; discriminate|].
      split; intros H; injection H as ->; reflexivity. }
    rewrite IH. split.
    + intros (Ab & pre & s' & post & -> & Hs & Hp). split; [exact Ab|]. exists (s :: pre), s', post.
      split; [reflexivity|]. split; [exact Hs|]. intros t y [<-|I] Ht; [destruct (N _ Ht)|eauto].
    + intros (Ab & pre & s' & post & Eq & Hs & Hp). split; [exact Ab|].
      destruct pre as [|s0 pre]; injection Eq as <- ->; [destruct (N _ Hs)|].
      exists pre, s', post. split; [reflexivity|]. split; [exact Hs|]. intros t y I. apply Hp. right. exact I.
  - assert (forall z, line_raises s z <-> z = y) as N.
    { intros z. rewrite <- R by (apply Z; left; reflexivity). cbn [snd]. split; [intros H; injection H as ->; reflexivity|intros ->; reflexivity]. }
    pose proof (line_errors _ _ _ _ E) as LE. destruct (is_line_error y).
    + assert (~ aborts y) as NA by (intros H; apply LE in H; discriminate).
      unfold wseq, wwarn. cbn [wbind wret app].
      transitivity (snd (parse_lines p (S i) ls) = Err x).
      { destruct (parse_lines p (S i) ls) as [l2 [r|e2]]; cbn [wbind wret snd]; [split; discriminate|].
        split; intros H; injection H as ->; reflexivity. }
      rewrite IH. split.
      * intros (Ab & pre & s' & post & -> & Hs & Hp). split; [exact Ab|]. exists (s :: pre), s', post.
        split; [reflexivity|]. split; [exact Hs|]. intros t z [<-|I] Ht; [apply N in Ht as ->; exact NA|eauto].
      * intros (Ab & pre & s' & post & Eq & Hs & Hp). split; [exact Ab|].
        destruct pre as [|s0 pre]; injection Eq as <- ->; [apply N in Hs as ->; contradiction|].
        exists pre, s', post. split; [reflexivity|]. split; [exact Hs|]. intros t z I. apply Hp. right. exact I.
    + assert (aborts y) as NA by (apply LE; reflexivity). cbn [snd]. split.
      * intros H; injection H as <-. split; [exact NA|]. exists [], s, ls. split; [reflexivity|].
        split; [apply N; reflexivity|intros t z []].
      * intros (Ab & pre & s' & post & Eq & Hs & Hp).
        destruct pre as [|s0 pre]; injection Eq as <- ->; [apply N in Hs as ->; reflexivity|].
        exfalso. exact (Hp s y (or_introl eq_refl) (proj2 (N y) eq_refl) NA).
Qed.
Lemma in_concat_length (t : pystr) ls : In t ls -> (length t <= length (concat ls))%nat.
Proof.
  induction ls as [|a ls IH]; [intros []|]. cbn [concat]. rewrite app_length. intros [->|I]; [lia|]. specialize (IH I). lia.
Qed.
(** Reading a file of public keys raises [x] exactly if a line raises it that has no space or
    names an unknown type, and no line before it does so. *)
Theorem C105_file_aborts p e f pass x :
  Z.of_nat (length f) <= ssize_max -> (forall rest, f <> begin_line ++ rest) ->
  snd (main_parse p e f pass) = Err x <->
  aborts x /\ exists ls pre s post, lines f ls /\ ls = pre ++ s :: post /\ line_raises s x /\
    forall t y, In t pre -> line_raises t y -> ~ aborts y.
Proof.
  intros Z N. unfold main_parse.
  assert (starts_with pem_header f = false) as ->.
  { assert (forall q z, starts_with q z = true -> exists r, z = q ++ r) as A.
    { induction q as [|a q IH]; intros z Hz; [exists z; reflexivity|]. destruct z as [|y z]; [discriminate|].
      cbn [starts_with] in Hz. apply andb_true_iff in Hz as (Ea & Hz). apply N.eqb_eq in Ea as ->.
      apply IH in Hz as (r & ->). exists r. reflexivity. }
    destruct (starts_with pem_header f) eqn:Es; [|reflexivity]. exfalso.
    apply A in Es as (r & Er). apply (N r). exact Er. }
  transitivity (snd (parse_lines p 0 (splitlines f)) = Err x).
  { destruct (parse_lines p 0 (splitlines f)) as [l2 [r|e2]]; cbn [wbind wret snd]; [split; discriminate|].
    split; intros H; injection H as ->; reflexivity. }
  assert (lines f (splitlines f)) as L by (apply lines_iff; reflexivity).
  rewrite parse_lines_aborts.
  2: { intros t I. apply in_concat_length in I. apply lines_length in L. lia. }
  split.
  - intros (Ab & pre & s & post & H). split; [exact Ab|]. exists (splitlines f), pre, s, post. auto.
  - intros (Ab & ls & pre & s & post & L' & H). split; [exact Ab|]. apply lines_iff in L' as <-. eauto.
Qed.

Lemma line_results_keys ec i ls ks lg : line_results ec i ls ks lg ->
  exists good, Forall2 (fun t k => snd (key_from_string ec KPub t) = Ok k) good ks /\
    good = filter (fun t => match snd (key_from_string ec KPub t) with Ok _ => true | Err _ => false end) ls.
Proof.
  intros H; induction H as [|? ? ? ? ? ? ? E R (good & F & ->)|? ? ? ? ? ? ? E Ee R (good & F & ->)]; eexists; (split; [|reflexivity]);
    cbn [filter]; try rewrite E; cbn [snd]; [constructor|constructor; [rewrite E; reflexivity|exact F]|exact F].
Qed.
Lemma line_results_lines ec i ls ks lg : line_results ec i ls ks lg ->
  forall t, In t ls -> (exists k, snd (key_from_string ec KPub t) = Ok k) \/
    exists y, snd (key_from_string ec KPub t) = Err y /\ (is_value_error y = true \/ is_eof_error y = true).
Proof.
  intros H; induction H as [|? ? ? ? ? ? ? E R IH|? ? ? ? ? ? ? E Ee R IH]; intros t I; [destruct I| |]; (destruct I as [<-|I]; [|auto]); rewrite E; cbn [snd]; eauto.
Qed.
Lemma main_parse_lines p e f pass lg r : (forall rest, f <> begin_line ++ rest) ->
  main_parse p e f pass = (lg, Ok r) ->
  exists ls ks, r = ParsedKeys ks /\ lines f ls /\ line_results (p_ec_ok p) 0 ls ks lg.
Proof.
  intros N H. destruct r as [l|ks].
  - exfalso. unfold main_parse in H. destruct (starts_with pem_header f) eqn:Es.
    + assert (forall q z, starts_with q z = true -> exists r, z = q ++ r) as A.
      { induction q as [|a q IH]; intros z Hz; [exists z; reflexivity|]. destruct z as [|y z]; [discriminate|].
        cbn [starts_with] in Hz. apply andb_true_iff in Hz as (Ea & Hz). apply N.eqb_eq in Ea as ->.
        apply IH in Hz as (r & ->). exists r. reflexivity. }
      apply A in Es as (r & Er). apply (N r). exact Er.
    + destruct (parse_lines p 0 (splitlines f)) as [l2 [r|e2]]; discriminate.
  - apply (C55_lines_parsed_or_reported_partial p e f pass lg ks N) in H as (ls & L & R). eauto.
Qed.
(** It returns keys exactly if there is no such line; then the lines reported are those that
    could not be read, and there is a key for each of the others, in order. *)
Theorem C105_file_read p e f pass :
  Z.of_nat (length f) <= ssize_max -> (forall rest, f <> begin_line ++ rest) ->
  ((exists r, snd (main_parse p e f pass) = Ok r) <->
   forall ls t y, lines f ls -> In t ls -> line_raises t y -> ~ aborts y) /\
  forall lg r, main_parse p e f pass = (lg, Ok r) ->
    exists ls ks, lines f ls /\ r = ParsedKeys ks /\
      (forall j, In (Warn (WLine j)) lg <-> exists t y, nth_error ls j = Some t /\ line_raises t y) /\
      exists good, Forall2 (fun t k => snd (key_from_string (p_ec_ok p) KPub t) = Ok k) good ks /\
        exists keep : pystr -> bool, good = filter keep ls /\
          forall t, In t ls -> keep t = true <-> forall y, ~ line_raises t y.
Proof.
  intros Z N. split.
  - split.
    + intros (r & H) ls t y L I R Ab. destruct (main_parse p e f pass) as [lg r'] eqn:E. cbn [snd] in H. subst r'.
      apply main_parse_lines in E as (ls' & ks & _ & L' & LR); [|exact N].
      apply lines_iff in L. apply lines_iff in L'. rewrite L in L'. subst ls'.
      apply (C105_line_raises (p_ec_ok p)) in R.
      2: { apply lines_iff in L. apply in_concat_length in I. apply lines_length in L. lia. }
      destruct (line_results_lines _ _ _ _ _ LR t I) as [(k & K)|(y' & K & V)]; rewrite R in K; [discriminate|].
      injection K as <-. destruct Ab as [->|(o & ->)]; destruct V; discriminate.
    + intros H. destruct (snd (main_parse p e f pass)) as [r|x] eqn:E; [eauto|]. exfalso.
      apply (C105_file_aborts p e f pass x Z N) in E as (Ab & ls & pre & s & post & L & -> & R & _).
      exact (H _ s x L (in_elt _ _ _) R Ab).
  - intros lg r E. apply main_parse_lines in E as (ls & ks & -> & L & LR); [|exact N].
    assert (forall t, In t ls -> Z.of_nat (length t) <= ssize_max) as Zt.
    { intros t I. apply in_concat_length in I. apply lines_length in L. lia. }
    exists ls, ks. split; [exact L|]. split; [reflexivity|]. split.
    + intros j. rewrite (line_results_reported _ _ _ _ _ LR). split.
      * intros (n & s & l & y & -> & Hn & K). exists s, y. split; [exact Hn|].
        apply (C105_line_raises (p_ec_ok p)); [apply Zt; eapply nth_error_In; exact Hn|]. rewrite K. reflexivity.
      * intros (t & y & Hn & R). apply (C105_line_raises (p_ec_ok p)) in R; [|apply Zt; eapply nth_error_In; exact Hn].
        destruct (key_from_string (p_ec_ok p) KPub t) as [l q] eqn:K. cbn [snd] in R. subst q. exists j, t, l, y. auto.
    + destruct (line_results_keys _ _ _ _ _ LR) as (good & F & G). exists good. split; [exact F|].
      eexists. split; [exact G|]. intros t I. cbn beta. specialize (Zt t I).
      destruct (snd (key_from_string (p_ec_ok p) KPub t)) as [k|y] eqn:K.
      * split; [intros _ y R|reflexivity]. apply (C105_line_raises (p_ec_ok p)) in R; [congruence|exact Zt].
      * split; [discriminate|]. intros H. apply (C105_line_raises (p_ec_ok p)) in K; [|exact Zt]. destruct (H _ K).
Qed.

(** ** Examples *)
Example C105_example_private :
  content ex_text ex_file /\ parsed toy_prims ex_env ex_file (Some (str "pw")) ex_parsed /\
  snd (list_from_string toy_prims ex_env ex_text (Some (str "pw"))) = Ok ex_parsed /\
  ~ (exists b l, content (skipn 36 ex_text) b /\ parsed toy_prims ex_env b (Some (str "pw")) l).
Proof.
  assert (content ex_text ex_file) as C.
  { exists (removelast (tl (splitlines ex_text))). split; [apply lines_iff; vm_compute; reflexivity|].
    apply C104_accepted. vm_compute. reflexivity. }
  pose proof C58_example as (E & _ & P).
  split; [exact C|]. split; [exact P|]. split.
  - exact (eq_trans (f_equal snd (content_bytes toy_prims ex_env ex_text ex_file (Some (str "pw")) C)) (f_equal snd E)).
  - apply (C105_private_refused toy_prims ex_env (skipn 36 ex_text) (Some (str "pw")) toy_sound).
    + vm_compute. discriminate.
    + intros y H. discriminate H.
    + exists ValueError. split; [vm_compute; reflexivity|left; reflexivity].
Qed.
Lemma small_line (s : pystr) : (length s <= 100)%nat -> Z.of_nat (length s) <= ssize_max.
Proof. intros H. assert (100 <= ssize_max) by (vm_compute; discriminate). lia. Qed.
(** A key, a line that is reported, and a line without a space, which ends the run. *)
Example C105_example p e pass :
  (exists w b64 c b, key_line ex_line w b64 c /\ all_ascii b64 /\ decodes b64 b /\ forall x, ~ public_raises b x) /\
  line_raises (str "a b") BinasciiError /\ ~ aborts BinasciiError /\
  line_raises (str "nospace") IndexError /\
  snd (main_parse p e (ex_line ++ newline ++ str "a b" ++ newline ++ str "nospace") pass) = Err IndexError.
Proof.
  split.
  { apply (C105_line_accepted (p_ec_ok p)); [apply small_line; vm_compute; lia|]. eexists. vm_compute. reflexivity. }
  split.
  { apply (C105_line_raises (p_ec_ok p)); [apply small_line; vm_compute; lia|]. vm_compute. reflexivity. }
  split; [intros [K|(o & K)]; discriminate|]. split.
  - apply lr_no_space. vm_compute. intuition discriminate.
  - vm_compute. reflexivity.
Qed.
(** The file of C55_example is read: its second line is reported. *)
Example C105_example_file p e pass :
  let f := ex_line ++ newline ++ str "a b" ++ newline ++ ex_line_bad in
  Z.of_nat (length f) <= ssize_max /\ (forall rest, f <> begin_line ++ rest) /\
  (exists r, snd (main_parse p e f pass) = Ok r) /\
  lines f [ex_line; str "a b"; ex_line_bad] /\ exists y, line_raises (str "a b") y.
Proof.
  intros f. split; [vm_compute; discriminate|]. split; [intros rest K; discriminate K|]. split.
  - eexists. unfold f. rewrite C55_example. reflexivity.
  - split; [apply lines_iff; vm_compute; reflexivity|]. exists BinasciiError. apply (C105_example p e pass).
Qed.

Print Assumptions C105_private_text.
Print Assumptions C105_private_refused.
Print Assumptions C105_line_raises.
Print Assumptions C105_line_accepted.
Print Assumptions C105_file_aborts.
Print Assumptions C105_file_read.
