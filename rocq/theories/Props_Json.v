(** C65: what the command prints. *)
From Verif Require Import PyBase IntBytes Utf8 StructFmt Stream Text Classes Key Crypto PrivateKeyList Json.
From Verif Require Import SpecWire SpecKey SpecText SpecJson.
From Verif Require Import ProofBase ProofUtf8 ProofKey ProofText ProofRead ProofJson Props_Text.
Open Scope Z_scope.

(** The command prints something exactly if the file is UTF-8 text and parsing that text
    succeeds. What it prints is the text of exactly one JSON value, without repeated member
    names; that value shows the parsed keys, field by field. It is made of printable ASCII
    characters and newlines. *)
Theorem C65_output_is_json p e file given lg x :
  main_command p e file given = (lg, Ok x) ->
  exists s r t, text_of_file file s /\ main_parse p e s given = (lg, Ok r) /\ shows r t /\ unique_names t /\
    (forall t', json_element t' x <-> t' = t) /\ Forall shown x.
Proof.
  unfold main_command. intros H. apply wbind_inv in H as (l1 & s & l2 & Hs & H & ->). apply wlift_inv in Hs as (-> & Hs).
  apply read_text_iff in Hs. pose proof (text_of_file_scalar _ _ Hs) as S.
  unfold main_output in H. apply wbind_inv in H as (l1 & r & l3 & Hr & H & ->). injection H as <- <-.
  rewrite app_nil_r. destruct (good_fine r (main_good _ _ _ _ _ _ S Hr)) as (Sh & Sc & Un).
  assert (json_element (parsed_tree r) (output_of r)) as J.
  { apply (je_intro (parsed_tree r) [] (encode 0 (parsed_tree r)) [10%N]); [constructor|apply encode_ok; exact Sc|].
    constructor; [cbn; auto|constructor]. }
  exists s, r, (parsed_tree r). split; [exact Hs|]. split; [exact Hr|]. split; [exact Sh|]. split; [exact Un|]. split.
  - intros t'. split; [intros K; eapply json_text_unique; eassumption|intros ->; exact J].
  - unfold output_of. apply Forall_app. split; [apply shown_encode; exact Sc|]. constructor; [right; reflexivity|constructor].
Qed.
Theorem C65_output_exactly_on_success p e file given :
  (forall s, text_of_file file s ->
    (forall lg r, main_parse p e s given = (lg, Ok r) -> exists x, main_command p e file given = (lg, Ok x)) /\
    (forall lg err, main_parse p e s given = (lg, Err err) <-> main_command p e file given = (lg, Err err))) /\
  ((forall s, ~ text_of_file file s) -> main_command p e file given = ([], Err (UnicodeDecodeError file))).
Proof.
  unfold main_command. split.
  - intros s H. apply read_text_iff in H. rewrite H, wbind_lift. unfold main_output.
    destruct (main_parse p e s given) as [l [r|err]]; cbn [wbind wret]; rewrite ?app_nil_r.
    + split; [|intros lg err; split; discriminate]. intros lg r' H'. injection H' as -> _. eauto.
    + split; [discriminate|]. intros lg err'. split; intros H'; injection H' as -> ->; reflexivity.
  - intros N. unfold read_text. destruct (utf8_decode file) as [s0|err] eqn:E; cbn [rbind].
    + exfalso. apply (N (universal_newlines s0)). apply read_text_iff. unfold read_text. rewrite E. reflexivity.
    + rewrite (utf8_decode_err _ _ E). reflexivity.
Qed.
(** Nothing is lost: runs that print the same text parsed the same keys. *)
Theorem C65_output_determines_keys p e file given lg p' e' file' given' lg' x s s' r r' :
  main_command p e file given = (lg, Ok x) -> main_command p' e' file' given' = (lg', Ok x) ->
  text_of_file file s -> text_of_file file' s' ->
  main_parse p e s given = (lg, Ok r) -> main_parse p' e' s' given' = (lg', Ok r') ->
  r = r'.
Proof.
  intros H H' T T' R R'.
  destruct (C65_output_is_json _ _ _ _ _ _ H) as (s1 & r1 & t & T1 & R1 & Sh & _ & J & _).
  destruct (C65_output_is_json _ _ _ _ _ _ H') as (s2 & r2 & t' & T2 & R2 & Sh' & _ & J' & _).
  assert (s1 = s) as -> by (eapply text_of_file_fun; eassumption). assert (s2 = s') as -> by (eapply text_of_file_fun; eassumption).
  assert (r1 = r) as -> by congruence. assert (r2 = r') as -> by congruence.
  assert (t' = t) as -> by (apply J, J'; reflexivity).
  exact (shows_inj _ _ _ (main_good _ _ _ _ _ _ (text_of_file_scalar _ _ T) R) (main_good _ _ _ _ _ _ (text_of_file_scalar _ _ T') R') Sh Sh').
Qed.
(** A key with a non-ASCII comment, followed by a newline byte and an apostrophe. *)
Definition ex_json_file : bytes := bstr "ssh-rsa AAAAB3NzaC1yc2EAAAABEQAAAAIMoQon me" ++ map bZ [0xC3; 0xA9; 13; 10].
Example C65_example :
  (exists s, text_of_file ex_json_file s) /\
  forall p e pass, main_command p e ex_json_file pass =
  ([Warn WExcess], Ok (unlines
    [str "[";
     str "    {";
     str "        ""header"": {";
     str "            ""key_type"": ""ssh-rsa""";
     str "        },";
     str "        ""params"": {";
     str "            ""data"": {";
     str "                ""e"": 17,";
     str "                ""n"": 3233";
     str "            }";
     str "        },";
     str "        ""footer"": {},";
     str "        ""clear"": {";
     str "            ""key_type"": ""ssh-rsa"",";
     str "            ""comment"": ""me\u00e9"",";
     str "            ""remainder"": ""b\""\\n'\""""";
     str "        }";
     str "    }";
     str "]"])).
Proof.
  split; [eexists; apply read_text_iff; vm_compute; reflexivity|intros p e pass; vm_compute; reflexivity].
Qed.

(** ** C66: line endings *)
Theorem C66_line_endings p e s0 s given :
  newlines_translated s0 s ->
  main_parse p e s0 given = main_parse p e s given /\
  list_from_string p e s0 given = list_from_string p e s given.
Proof.
  intros H. pose proof (translated_splitlines _ _ H) as E. unfold main_parse, list_from_string. rewrite E.
  rewrite (translated_starts pem_header s0 s H) by reflexivity. auto.
Qed.
Example C66_example :
  newlines_translated (str "a" ++ [13; 10] ++ str "b" ++ [13] ++ str "c" ++ [10])%N (str "a" ++ [10] ++ str "b" ++ [10] ++ str "c" ++ [10])%N.
Proof. apply newlines_iff. vm_compute. reflexivity. Qed.

Print Assumptions C65_output_is_json.
Print Assumptions C65_output_exactly_on_success.
Print Assumptions C65_output_determines_keys.
Print Assumptions C66_line_endings.
