(** C82: parsing and packing while the warnings filter raises warnings as exceptions. *)
From Verif Require Import PyBase IntBytes Utf8 StructFmt Stream Text Classes Key Crypto PrivateKeyList
  Json Convert Generate Strict.
From Verif Require Import SpecWire SpecKey SpecText SpecCrypto SpecList SpecStrict.
From Verif Require Import ProofBase ProofStrict Props_Key Props_Crypto Props_List Props_Parse.
Open Scope Z_scope.

(** ** Keys *)
Theorem C82_keys raising ec k :
  (forall b clear, filtered raising (key_from_bytes ec k b clear) (q_key_from_bytes raising ec k b clear)) /\
  (forall s, filtered raising (key_from_string ec k s) (q_key_from_string raising ec k s)) /\
  (forall header params footer clear,
     filtered raising (new_key ec (parse_pub ec) k header params footer clear)
                      (q_new_key raising ec (q_parse_pub raising ec) k header params footer clear)) /\
  (forall c d, filtered raising (new_params ec (parse_pub ec) c d)
                                (q_new_params raising ec (q_parse_pub raising ec) c d)).
Proof.
  split; [intros; apply fl_from_bytes|]. split; [intros; apply fl_from_string|].
  split; [intros; apply fl_new_key, fl_parse_pub|intros; apply fl_new_params, fl_parse_pub].
Qed.
(** A key read from a stream: also, the position afterwards is the same. *)
Theorem C82_key_in_stream raising ec k clear s :
  filtered raising (snd (key_from_stream ec (parse_pub ec) k clear s))
                   (snd (q_key_from_stream raising ec (q_parse_pub raising ec) k clear s)) /\
  fst (key_from_stream ec (parse_pub ec) k clear s) =
  fst (q_key_from_stream raising ec (q_parse_pub raising ec) k clear s).
Proof. apply fl_from_stream, fl_parse_pub. Qed.

(** ** Certificates *)
Theorem C82_certificates raising ec o d :
  filtered raising (get_critical_option o d) (q_get_critical_option raising o d) /\
  filtered raising (get_extension_value o d) (q_get_extension_value raising o d) /\
  (forall v, filtered raising (set_critical_option o v d) (q_set_critical_option raising o v d)) /\
  (forall v, filtered raising (set_extension_value o v d) (q_set_extension_value raising o v d)) /\
  filtered raising (get_signature_key (parse_pub ec) d) (q_get_signature_key raising (q_parse_pub raising ec) d).
Proof.
  split; [apply fl_get_option|]. split; [apply fl_get_option|]. split; [intros; apply fl_set_option|].
  split; [intros; apply fl_set_option|apply fl_signature_key, fl_parse_pub].
Qed.

(** ** Conversion and generation *)
Theorem C82_conversion raising x c o : filtered raising (convert_from x c o) (q_convert_from raising x c o).
Proof. apply fl_convert. Qed.
Theorem C82_generation raising x gen key_type comment kwargs :
  filtered raising (generate_pair x gen key_type comment kwargs)
                   (q_generate_pair raising x gen key_type comment kwargs).
Proof. apply fl_generate. Qed.

(** ** Private key lists *)
(** Parsing turns the raised warning into a ValueError; packing does not. *)
Theorem C82_private_key_lists raising p e given :
  (forall b, filtered_list raising (list_from_bytes p e b given) (q_list_from_bytes raising p e b given)) /\
  (forall s, filtered_list raising (list_from_string p e s given) (q_list_from_string raising p e s given)) /\
  (forall l idx override retain,
     filtered raising (list_pack_bytes p e l given idx override retain)
                      (q_list_pack_bytes raising p e l given idx override retain)) /\
  (forall l idx override retain,
     filtered raising (list_pack_string p e l given idx override retain)
                      (q_list_pack_string raising p e l given idx override retain)).
Proof.
  split; [intros; apply fl_list_bytes|]. split; [intros; apply fl_list_string|].
  split; [intros; apply fl_pack|intros; apply fl_pack_string].
Qed.

(** ** The command *)
Theorem C82_command raising p e file given :
  match read_text file with
  | Ok text =>
      if starts_with pem_header text
      then filtered_list raising (main_command p e file given) (q_main_command raising p e file given)
      else filtered raising (main_command p e file given) (q_main_command raising p e file given)
  | Err x => q_main_command raising p e file given = ([], Raises x)
  end.
Proof.
  unfold main_command, q_main_command, main_output, q_main_output.
  destruct (read_text file) as [text|x]; [|reflexivity].
  unfold wlift, qlift. cbn [of_res wbind qbind]. unfold main_parse, q_main_parse.
  destruct (starts_with pem_header text).
  - pose proof (fll_bind_ret raising _ _ output_of (fll_bind_ret raising _ _ ParsedList (fl_list_string raising p e text given))) as H.
    revert H. destruct (wbind _ _), (qbind _ _). exact (fun H => H).
  - assert (H : filtered raising
      (do r <- (do l <- parse_lines p 0 (splitlines text); wret (ParsedKeys l)); wret (output_of r))
      (doq r <- (doq l <- q_parse_lines raising p 0 (splitlines text); qret (ParsedKeys l)); qret (output_of r))).
    { apply fl_bind; [|intros; apply fl_ret]. apply fl_bind; [apply fl_lines|intros; apply fl_ret]. }
    revert H. destruct (wbind _ _), (qbind _ _). exact (fun H => H).
Qed.

(** ** Every warning raised *)
Lemma error_mode {A} (x : W A) y lg a : filtered every_warning x y ->
  y = (lg, Returns a) <-> x = (lg, Ok a) /\ silent lg.
Proof.
  assert (N : forall l, none_raised every_warning l <-> silent l).
  { intros l. split; [intros H w I; discriminate (H w I)|intros H w I; destruct (H w I)]. }
  intros H. destruct H as [x y S R|l w l' r S R].
  - apply N in S. destruct R as [l b|l b]; cbn [fst] in S; (split; [|intros (E & _)]);
      intros; match goal with X : _ = _ |- _ => inversion X; subst end; auto.
  - split; [discriminate|]. intros (E & Q0). inversion E; subst. exfalso. apply (Q0 w), in_app_iff. right; now left.
Qed.
Lemma error_mode_list {A} (x : W A) y lg a : filtered_list every_warning x y ->
  y = (lg, Returns a) <-> x = (lg, Ok a) /\ silent lg.
Proof.
  intros H. destruct H as [x y S R|l w l' r S R].
  - apply (error_mode x y lg a). now apply Unaffected.
  - split; [discriminate|]. intros (E & Q0). inversion E; subst. exfalso. apply (Q0 w), in_app_iff. right; now left.
Qed.
(** Under [-W error] exactly the inputs are accepted that give no warning otherwise, with the same
    results. *)
Theorem C82_error_mode ec k p e given :
  (forall b clear lg a, q_key_from_bytes every_warning ec k b clear = (lg, Returns a) <->
     key_from_bytes ec k b clear = (lg, Ok a) /\ silent lg) /\
  (forall s lg a, q_key_from_string every_warning ec k s = (lg, Returns a) <->
     key_from_string ec k s = (lg, Ok a) /\ silent lg) /\
  (forall b lg l, q_list_from_bytes every_warning p e b given = (lg, Returns l) <->
     list_from_bytes p e b given = (lg, Ok l) /\ silent lg) /\
  (forall s lg l, q_list_from_string every_warning p e s given = (lg, Returns l) <->
     list_from_string p e s given = (lg, Ok l) /\ silent lg).
Proof.
  split; [intros; apply error_mode, fl_from_bytes|]. split; [intros; apply error_mode, fl_from_string|].
  split; intros; apply error_mode_list; [apply fl_list_bytes|apply fl_list_string].
Qed.
Lemma counting_dec pad : forall n,
  (forall i v, nth_error pad i = Some v -> Zb v = Z.of_nat i + n) \/
  ~ (forall i v, nth_error pad i = Some v -> Zb v = Z.of_nat i + n).
Proof.
  induction pad as [|x pad IH]; intros n; [left; intros [|i] v E; discriminate|].
  destruct (Z.eq_dec (Zb x) n) as [E|E]; [|right; intros H; apply E, (H 0%nat); reflexivity].
  destruct (IH (n + 1)) as [H|H].
  - left. intros [|i] v G; [injection G as <-; exact E|]. rewrite (H i v G). lia.
  - right. intros K. apply H. intros i v G. rewrite (K (S i) v G). lia.
Qed.
Lemma good_padding_dec bs plain pad : good_padding bs plain pad \/ ~ good_padding bs plain pad.
Proof.
  unfold good_padding. destruct (Nat.eq_dec (length plain mod bs) 0); [|tauto].
  destruct (le_dec (length pad) bs); [|tauto].
  pose proof (counting_dec pad 1) as D. fold (counting pad) in D. tauto.
Qed.
Lemma dget_dec (a b : option pyval) : a = b \/ a <> b.
Proof.
  destruct a as [a|], b as [b|]; try (right; congruence); try (left; reflexivity).
  destruct (val_eqb_reflect a b); [left|right]; congruence.
Qed.
(** So the files that it accepts are consistent: equal check numbers, the halves of every pair agree,
    and the padding is as written. *)
Theorem C82_accepted_files_are_consistent p e b given lg l :
  sound_prims p -> Z.of_nat (length b) <= ssize_max ->
  q_list_from_bytes every_warning p e b given = (lg, Returns l) ->
  exists h cn c privs plain pad bs,
    l_header l = Some h /\ dget (str "cipher") h = Some (VStr cn) /\ block_of cn bs /\
    l_decipher_bytes l = Some plain /\ l_padding l = Some pad /\
    plaintext_of c c privs pad plain /\ Forall2 (fun q x => private_blob (pr_private q) x) (l_pairs l) privs /\
    good_padding bs plain pad /\
    forall q, In q (l_pairs l) ->
      dget (str "key_type") (k_header (pr_public q)) = dget (str "key_type") (k_header (pr_private q)) /\
      forall x v v', dget x (k_params (pr_public q)) = Some v -> dget x (k_params (pr_private q)) = Some v' -> v = v'.
Proof.
  intros S L H. apply (error_mode_list _ _ lg l (fl_list_bytes every_warning p e b given)) in H as (H & N).
  destruct (C38_inconsistencies_reported p e b given lg l S L H) as
    (h & cn & c1 & c2 & privs & plain & pad & bs & Eh & Ec & Hb & Ed & Ep & Hp & F & R1 & R2 & R3 & R4).
  assert (c1 = c2) as ->.
  { destruct (Z.eq_dec c1 c2) as [E|E]; [exact E|]. apply R1 in E. destruct (N _ E). }
  exists h, cn, c2, privs, plain, pad, bs. do 7 (split; [assumption|]). split.
  { destruct (good_padding_dec bs plain pad) as [G|G]; [exact G|]. apply R4 in G. destruct (N _ G). }
  intros q I. apply In_nth_error in I as (i & I). split.
  - destruct (dget_dec (dget (str "key_type") (k_header (pr_public q))) (dget (str "key_type") (k_header (pr_private q)))) as [E|E]; [exact E|].
    destruct (N (WPairType i)). apply R2. exists q. auto.
  - intros x v v' G G'. destruct (dget_dec (Some v) (Some v')) as [E|E]; [congruence|].
    destruct (N (WPairValues i)). apply R3. exists q. split; [exact I|]. exists x, v, v'. split; [exact G|]. split; [exact G'|congruence].
Qed.

(** An RSA key followed by a byte, and a file with other padding: a warning without the filter. *)
Example C82_example :
  let b := map bZ [0; 0; 0; 7; 115; 115; 104; 45; 114; 115; 97; 0; 0; 0; 1; 17; 0; 0; 0; 2; 12; 161] in
  let f := set_nth (length ex_plain_file - 1) x00 ex_plain_file in
  let excess w := match w with WExcess => true | _ => false end in
  (exists k, key_from_bytes ex_ec KPub (b ++ [bZ 9]) None = ([Warn WExcess], Ok k)) /\
  q_key_from_bytes every_warning ex_ec KPub (b ++ [bZ 9]) None = ([], RaisesWarning WExcess) /\
  (exists k, q_key_from_bytes excess ex_ec KPub b None = ([], Returns k)) /\
  (exists l, list_from_bytes toy_prims ex_env f None = ([Warn WPadding], Ok l)) /\
  q_list_from_bytes every_warning toy_prims ex_env f None = ([], Raises ValueError) /\
  (exists l, q_list_from_bytes excess toy_prims ex_env f None = ([Warn WPadding], Returns l)) /\
  (exists l, q_list_from_bytes every_warning toy_prims ex_env ex_plain_file None = ([], Returns l)) /\
  sound_prims toy_prims /\ Z.of_nat (length ex_plain_file) <= ssize_max.
Proof.
  split; [eexists; vm_compute; reflexivity|]. split; [vm_compute; reflexivity|].
  split; [eexists; vm_compute; reflexivity|]. split; [eexists; vm_compute; reflexivity|].
  split; [vm_compute; reflexivity|]. split; [eexists; vm_compute; reflexivity|].
  split; [eexists; vm_compute; reflexivity|]. split; [apply toy_sound|vm_compute; discriminate].
Qed.

Print Assumptions C82_keys.
Print Assumptions C82_key_in_stream.
Print Assumptions C82_certificates.
Print Assumptions C82_conversion.
Print Assumptions C82_generation.
Print Assumptions C82_private_key_lists.
Print Assumptions C82_command.
Print Assumptions C82_error_mode.
Print Assumptions C82_accepted_files_are_consistent.
