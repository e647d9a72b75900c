(** The armored text of private key files: C30 - C32. *)
From Verif Require Import PyBase Text Classes Key Crypto PrivateKeyList.
From Verif Require Import SpecWire SpecKey SpecText SpecCrypto SpecList.
From Verif Require Import ProofBase ProofText ProofLog ProofList ProofRead Props_Text Props_List.
From Verif Require Import Props_Key Props_Crypto Props_List.
Open Scope Z_scope.

(** ** C30 *)
(** The text of a private key file: the BEGIN line, the lines of the body, the END line. *)
Definition armored (s : pystr) (mid : list pystr) : Prop := lines s (begin_line :: mid ++ [end_line]).

Lemma last_snoc_nil (l : list pystr) : l <> [] -> l = removelast l ++ [last l []].
Proof. apply app_removelast_last. Qed.
Lemma armored_iff s mid : armored s mid <->
  exists first rest, splitlines s = first :: rest /\ first = begin_line /\ last (first :: rest) [] = end_line /\ mid = removelast rest.
Proof.
  unfold armored. rewrite lines_iff. split.
  - intros E. exists begin_line, (mid ++ [end_line]). split; [exact E|]. split; [reflexivity|].
    rewrite removelast_last. split; [|reflexivity]. change (begin_line :: mid ++ [end_line]) with ((begin_line :: mid) ++ [end_line]). apply last_last.
  - intros (first & rest & -> & -> & L & ->). destruct rest as [|r rest].
    + cbn in L. discriminate.
    + f_equal. change (last (begin_line :: r :: rest) []) with (last (r :: rest) []) in L.
      rewrite <- L. apply last_snoc_nil. discriminate.
Qed.
Theorem C30_armored_text_is_decoded p e s mid given :
  armored s mid ->
  list_from_string p e s given =
    match b64decode (concat mid) with
    | Ok b => list_from_bytes p e b given
    | Err x => ([], Err x)
    end.
Proof.
  intros A. apply armored_iff in A as (first & rest & E & -> & L & ->).
  unfold list_from_string. rewrite E. fold pem_header. change begin_line with pem_header. rewrite str_eqb_refl. cbn [negb orb tl].
  change pem_header with begin_line. rewrite L. change end_line with pem_footer. rewrite str_eqb_refl. cbn [negb].
  destruct (b64decode _); unfold wlift, wbind; [|reflexivity]. destruct (list_from_bytes _ _ _ _). reflexivity.
Qed.
Theorem C30_other_text_is_rejected p e s given :
  s <> [] -> (forall mid, ~ armored s mid) -> list_from_string p e s given = ([], Err ValueError).
Proof.
  intros N A. unfold list_from_string. destruct (splitlines s) as [|first rest] eqn:E.
  { exfalso. destruct s as [|c s]; [congruence|]. unfold splitlines in E. cbn [splitlines_from] in E.
    destruct (is_linebreak c); [discriminate|].
    assert (forall t cur, cur <> [] -> splitlines_from cur t <> []) as K.
    { intros t. induction t as [|c' t IH]; intros cur Nc; cbn [splitlines_from].
      - destruct cur; [congruence|discriminate].
      - destruct (is_linebreak c'); [discriminate|]. apply IH. discriminate. }
    eapply K; [|exact E]. discriminate. }
  destruct (str_eqb_reflect first pem_header) as [->|Nf]; [|reflexivity].
  destruct (str_eqb_reflect (last (pem_header :: rest) []) pem_footer) as [Ef|Nl]; [|reflexivity].
  exfalso. apply (A (removelast rest)). apply armored_iff. exists pem_header, rest. auto.
Qed.
Theorem C30_only_value_error p e s given lg x :
  (forall y, e_getpass e = Err y -> is_model_error y = false) -> s <> [] ->
  list_from_string p e s given = (lg, Err x) -> is_value_error x = true.
Proof.
  intros G N H.
  destruct (splitlines s) as [|first rest] eqn:E.
  { unfold list_from_string in H. destruct (lines_total s) as (ls & Hl). pose proof (proj1 (lines_iff _ _) Hl) as E'. rewrite E in E'. subst ls.
    inversion Hl; subst; congruence. }
  destruct (str_eqb_reflect first begin_line) as [->|Nf].
  2: { unfold list_from_string in H. rewrite E in H. change pem_header with begin_line in H.
       destruct (str_eqb_reflect first begin_line); [contradiction|]. injection H as _ <-. reflexivity. }
  destruct (str_eqb_reflect (last (begin_line :: rest) []) end_line) as [El|Nl].
  - assert (armored s (removelast rest)) as A by (apply armored_iff; exists begin_line, rest; auto).
    rewrite (C30_armored_text_is_decoded p e s _ given A) in H.
    destruct (b64decode _) as [b|y] eqn:Eb.
    + eapply C27_only_value_error; [exact G|exact H].
    + injection H as _ <-. eapply C43_decode_errors. exact Eb.
  - unfold list_from_string in H. rewrite E in H. change pem_header with begin_line in H. change pem_footer with end_line in H.
    rewrite str_eqb_refl in H. destruct (str_eqb_reflect (last (begin_line :: rest) []) end_line); [contradiction|].
    injection H as _ <-. reflexivity.
Qed.
(** The exception: the empty string has no first line. *)
Theorem C30_empty_text_refuted p e given : list_from_string p e [] given = ([], Err IndexError).
Proof. reflexivity. Qed.

(** ** C32 *)
Lemma wrap_spec fuel s : (length s <= fuel)%nat -> wrapped 70 (wrap fuel s) /\ concat (wrap fuel s) = s.
Proof.
  revert s. induction fuel as [|fuel IH]; intros s L.
  - destruct s; [|cbn in L; lia]. split; [constructor|reflexivity].
  - destruct s as [|c s]; [split; [constructor|reflexivity]|]. cbn [wrap].
    set (t := c :: s) in *. assert (1 <= length t)%nat as L1 by (cbn; lia).
    destruct (IH (skipn wrap_col t)) as (W & C). { rewrite skipn_length. unfold wrap_col. lia. }
    split.
    + destruct (skipn wrap_col t) as [|d t'] eqn:E.
      * replace (wrap fuel []) with (@nil pystr) by (destruct fuel; reflexivity).
        apply wrapped_last. rewrite firstn_length. unfold wrap_col. lia.
      * apply wrapped_cons; [|destruct fuel|exact W].
        -- pose proof (f_equal (@length N) E) as K. rewrite skipn_length in K. cbn [length] in K.
           rewrite firstn_length. unfold wrap_col in *. lia.
        -- pose proof (f_equal (@length N) E) as K. rewrite skipn_length in K. cbn [length] in K. unfold wrap_col in *. lia.
        -- discriminate.
    + cbn [concat]. rewrite C. apply firstn_skipn.
Qed.
Lemma unlines_cons l ls : unlines (l :: ls) = l ++ newline ++ unlines ls.
Proof. unfold unlines. cbn [map concat]. rewrite <- app_assoc. reflexivity. Qed.
Lemma unlines_app a b : unlines (a ++ b) = unlines a ++ unlines b.
Proof. unfold unlines. rewrite map_app. apply concat_app. Qed.
(** pack_string is pack_bytes followed by armoring, with the same prompts. *)
Theorem C32_armor_format p e l given idx override retain :
  sound_prims p ->
  match list_pack_bytes p e l given idx override retain with
  | (lg, Ok b) => exists ls s, list_pack_string p e l given idx override retain = (lg, Ok s) /\
       s = unlines (begin_line :: ls ++ [end_line]) /\ wrapped 70 ls /\ base64 b (concat ls)
  | (lg, Err x) => list_pack_string p e l given idx override retain = (lg, Err x)
  end.
Proof.
  intros S. unfold list_pack_string. destruct (list_pack_bytes p e l given idx override retain) as [lg [b|x]] eqn:E; [|reflexivity].
  cbn [wbind wret]. rewrite app_nil_r. destruct (wrap_spec (length (b64encode b)) (b64encode b) (Nat.le_refl _)) as (W & C).
  assert (b <> []) as Nb.
  { assert (snd (list_pack_bytes p e l given idx override retain) = Ok b) as K by (rewrite E; reflexivity).
    apply (pack_layout p e l given idx override retain b S) in K. destruct K as (? & ? & ? & ? & ? & ? & ? & ? & ? & ? & ? & ? & ? & _ & _ & _ & _ & _ & _ & _ & _ & _ & _ & _ & _ & _ & _ & _ & Hf).
    destruct Hf as (? & ? & ? & ? & ? & ? & _ & _ & _ & _ & _ & _ & _ & ->). discriminate. }
  exists (wrap (length (b64encode b)) (b64encode b)). eexists. split; [reflexivity|]. split.
  - assert (wrap (length (b64encode b)) (b64encode b) <> []) as Nw.
    { intros K. rewrite K in C. cbn in C. symmetry in C. apply b64encode_nil in C. contradiction. }
    revert Nw. generalize (wrap (length (b64encode b)) (b64encode b)). intros ls Nl.
    rewrite unlines_cons, unlines_app, <- (str_join_unlines ls Nl). rewrite <- !app_assoc. reflexivity.
  - split; [exact W|]. rewrite C. apply b64encode_base64.
Qed.
Theorem C32_base64_chars b ls : base64 b (concat ls) -> Forall unbroken ls.
Proof.
  intros H. apply Forall_forall. intros l Hl c Hc. pose proof (base64_char_range _ _ H c (proj2 (in_concat ls c) (ex_intro _ l (conj Hl Hc)))) as R.
  unfold boundaries. cbn [In]. lia.
Qed.

(** ** C31 *)
Theorem C31_armor_roundtrip p e e' l given idx override retain lg b s given' :
  sound_prims p ->
  list_pack_bytes p e l given idx override retain = (lg, Ok b) ->
  list_pack_string p e l given idx override retain = (lg, Ok s) ->
  list_from_string p e' s given' = list_from_bytes p e' b given'.
Proof.
  intros S Hb Hs. pose proof (C32_armor_format p e l given idx override retain S) as F. rewrite Hb in F.
  destruct F as (ls & s' & E & -> & _ & B). rewrite Hs in E. injection E as ->.
  assert (armored (unlines (begin_line :: ls ++ [end_line])) ls) as A.
  { apply unlines_lines. constructor; [|apply Forall_app; split; [eapply C32_base64_chars; exact B|constructor; [|constructor]]].
    - intros c Hc. vm_compute in Hc. unfold boundaries. cbn [In]. lia.
    - intros c Hc. vm_compute in Hc. unfold boundaries. cbn [In]. lia. }
  rewrite (C30_armored_text_is_decoded _ _ _ _ _ A), (base64_decode _ _ B). reflexivity.
Qed.

(** ** Concrete text *)
Definition ex_text : pystr := Eval vm_compute in
  match snd (list_pack_string toy_prims ex_env ex_list (Some (str "pw")) None true false) with Ok s => s | Err _ => [] end.
(** The text of a file of 376 bytes: 8 lines of base64 between the first and last lines, the
    parsed list; and the text without its first line, which is rejected. *)
Example C30_example :
  (exists mid, armored ex_text mid /\ length mid = 8%nat /\ length (concat mid) = 504%nat) /\
  list_from_string toy_prims ex_env ex_text (Some (str "pw")) = list_from_bytes toy_prims ex_env ex_file (Some (str "pw")) /\
  list_from_string toy_prims ex_env (skipn 36 ex_text) (Some (str "pw")) = ([], Err ValueError).
Proof.
  split.
  { exists (removelast (tl (splitlines ex_text))). split; [|split; vm_compute; reflexivity].
    apply lines_iff. vm_compute. reflexivity. }
  split; vm_compute; reflexivity.
Qed.
Example C32_example :
  list_pack_string toy_prims ex_env ex_list (Some (str "pw")) None true false = ([], Ok ex_text) /\
  list_pack_bytes toy_prims ex_env ex_list (Some (str "pw")) None true false = ([], Ok ex_file).
Proof. split; vm_compute; reflexivity. Qed.

Example C31_example :
  list_pack_bytes toy_prims ex_env ex_list (Some (str "pw")) None true false = ([], Ok ex_file) /\
  list_pack_string toy_prims ex_env ex_list (Some (str "pw")) None true false = ([], Ok ex_text) /\
  list_from_string toy_prims ex_env ex_text None = list_from_bytes toy_prims ex_env ex_file None /\
  fst (list_from_string toy_prims ex_env ex_text None) = [Prompt] /\
  list_from_string toy_prims ex_env ex_text (Some (str "pw")) = ([], snd (list_from_bytes toy_prims ex_env ex_file (Some (str "pw")))).
Proof. repeat (split; [vm_compute; reflexivity|]). vm_compute; reflexivity. Qed.

Print Assumptions C30_armored_text_is_decoded.
Print Assumptions C30_other_text_is_rejected.
Print Assumptions C30_only_value_error.
Print Assumptions C30_empty_text_refuted.
Print Assumptions C32_armor_format.
Print Assumptions C32_base64_chars.
Print Assumptions C31_armor_roundtrip.
