(** What happens when the passphrase prompt raises an exception, for instance because the user
    interrupts it: C90. *)
From Verif Require Import PyBase Utf8 Stream Text Classes Key Crypto PrivateKeyList Json
  SpecWire SpecKey SpecText SpecCrypto SpecList SpecJson ProofBase ProofKey ProofText ProofLog ProofJson ProofList ProofRead
  Props_Key Props_Crypto Props_Text Props_List Props_Parse Props_Armor.
Open Scope Z_scope.

(** The run [w] asked for the passphrase once, did nothing after that, and raised [x]. *)
Definition stopped_at_prompt {A} (x : exn) (w : W A) : Prop :=
  exists l, w = (l ++ [Prompt], Err x) /\ ~ In Prompt l.

Definition may_stop {A} (y : exn) (w : W A) : Prop := In Prompt (fst w) -> stopped_at_prompt y w.
Definition smay_stop {A} (y : exn) (f : SW A) : Prop := forall s, may_stop y (snd (f s)).
Lemma silent {A} y (w : W A) : ~ In Prompt (fst w) -> may_stop y w.
Proof. intros N H. contradiction. Qed.
Lemma may_stop_bind {A B} y (w : W A) (f : A -> W B) : may_stop y w -> (forall a, may_stop y (f a)) -> may_stop y (wbind w f).
Proof.
  intros M F H. destruct w as [l [a|x]]; cbn [wbind fst] in *.
  - assert (~ In Prompt l) as N by (intros K; destruct (M K) as (l' & E & _); discriminate).
    specialize (F a). destruct (f a) as [l2 r]. cbn [fst] in H. apply in_app_or in H as [H|H]; [contradiction|].
    destruct (F H) as (l' & E & N'). injection E as -> ->. exists (l ++ l'). split; [rewrite app_assoc; reflexivity|].
    intros K. apply in_app_or in K as [K|K]; contradiction.
  - destruct (M H) as (l' & E & N). injection E as -> ->. exists l'. split; [reflexivity|exact N].
Qed.
Lemma smay_stop_bind {A B} y (f : SW A) (g : A -> SW B) : smay_stop y f -> (forall a, smay_stop y (g a)) -> smay_stop y (swbind f g).
Proof.
  intros F G s H. specialize (F s). unfold swbind in *. destruct (f s) as [s1 [l [a|x]]]; cbn [fst snd] in *.
  - assert (~ In Prompt l) as N by (intros K; destruct (F K) as (l' & E & _); discriminate).
    specialize (G a s1). destruct (g a s1) as [s2 [l2 r]]. cbn [fst snd] in *. apply in_app_or in H as [H|H]; [contradiction|].
    destruct (G H) as (l' & E & N'). injection E as -> ->. exists (l ++ l'). split; [rewrite app_assoc; reflexivity|].
    intros K. apply in_app_or in K as [K|K]; contradiction.
  - destruct (F H) as (l' & E & N). injection E as -> ->. exists l'. split; [reflexivity|exact N].
Qed.
Lemma ssilent {A} y (w : W A) : ~ In Prompt (fst w) -> smay_stop y (sww w).
Proof. intros N s. apply silent. exact N. Qed.
Lemma ssilent_p {A} y (f : P A) : smay_stop y (swp f).
Proof. intros s. apply silent. rewrite snd_swp. intros []. Qed.
Lemma prompt_stops y e : e_getpass e = Err y -> may_stop y (get_passphrase e None).
Proof. intros E _. exists []. cbn. rewrite E. split; [reflexivity|intros []]. Qed.
Lemma given_silent y e pw : may_stop y (get_passphrase e (Some pw)).
Proof. apply silent. intros []. Qed.
Lemma from_bytes_stops p e b given y : e_getpass e = Err y -> may_stop y (from_bytes_try p e b given).
Proof.
  intros Ey. unfold from_bytes_try.
  refine ((_ : smay_stop y _) (stream_of b)).
  apply smay_stop_bind; [apply ssilent_p|intros ?].
  do 2 (apply smay_stop_bind; [apply ssilent; try (destruct (val_eqb _ _)); intros []|intros ?]).
  apply smay_stop_bind; [apply ssilent; intros []|intros ?].
  apply smay_stop_bind; [apply ssilent; destruct (_ <? _); intros []|intros ?].
  apply smay_stop_bind; [intros s; apply silent, read_pubs_prompt|intros ?].
  apply smay_stop_bind; [apply ssilent_p|intros ?].
  do 6 (apply smay_stop_bind; [apply ssilent; intros []|intros ?]).
  apply smay_stop_bind; [apply ssilent, new_kdf_prompt|intros ?].
  do 2 (apply smay_stop_bind; [apply ssilent; intros []|intros ?]).
  apply smay_stop_bind; [|intros ?].
  { intros s. match goal with |- context [match ?k with KdfNone => _ | KdfBcrypt => _ end] => destruct k end; [apply silent; intros []|].
    destruct given; [apply given_silent|exact (prompt_stops y e Ey)]. }
  apply smay_stop_bind; [destruct (is_integrity _); [apply ssilent_p|apply ssilent; intros []]|intros ?].
  apply smay_stop_bind; [apply ssilent, new_kdf_prompt|intros ?].
  apply smay_stop_bind; [apply ssilent; intros []|intros ?].
  apply smay_stop_bind; [apply ssilent, parse_deciphered_prompt|intros [[prs dh] pad]].
  apply ssilent. intros [].
Qed.
(** Parsing: whatever the prompt raises (KeyboardInterrupt, SystemExit, EOFError, ...), the
    caller of from_bytes, from_string and of the command's parsing sees a ValueError. *)
Definition seen (y : exn) : exn := if is_value_error y then y else ValueError.
Theorem C90_interrupted_parsing p e b given y :
  e_getpass e = Err y -> is_model_error y = false -> In Prompt (fst (list_from_bytes p e b given)) ->
  stopped_at_prompt (seen y) (list_from_bytes p e b given).
Proof.
  intros Ey M. rewrite list_from_bytes_log. intros H. destruct (from_bytes_stops p e b given y Ey H) as (l & E & N).
  exists l. split; [|exact N]. unfold list_from_bytes. rewrite E. unfold reraise, seen. rewrite M. reflexivity.
Qed.
Theorem C90_interrupted_text p e s given y :
  e_getpass e = Err y -> is_model_error y = false -> In Prompt (fst (list_from_string p e s given)) ->
  stopped_at_prompt (seen y) (list_from_string p e s given).
Proof.
  intros Ey M. unfold list_from_string. destruct (splitlines s) as [|first ls]; [intros []|].
  destruct (_ || _); [intros []|]. apply may_stop_bind; [apply silent; intros []|]. intros b. exact (C90_interrupted_parsing p e b given y Ey M).
Qed.
(** The command prints nothing, and ends with that exception. *)
Lemma noprompt_bind {A B} (w : W A) (f : A -> W B) : ~ In Prompt (fst w) -> (forall a, ~ In Prompt (fst (f a))) -> ~ In Prompt (fst (wbind w f)).
Proof.
  intros N F. destruct w as [l [a|x]]; cbn [wbind fst] in *; [|exact N]. specialize (F a). destruct (f a) as [l2 r]. cbn [fst] in *.
  intros K. apply in_app_or in K as [K|K]; contradiction.
Qed.
Lemma noprompt_catch {A} (w : W A) h f : ~ In Prompt (fst w) -> (forall x, ~ In Prompt (fst (f x))) -> ~ In Prompt (fst (wcatch w h f)).
Proof.
  intros N F. destruct w as [l [a|x]]; cbn [wcatch fst] in *; [exact N|]. destruct (h x); [|exact N]. specialize (F x).
  destruct (f x) as [l2 r]. cbn [fst] in *. intros K. apply in_app_or in K as [K|K]; contradiction.
Qed.
Lemma from_string_prompt ec kd s : ~ In Prompt (fst (key_from_string ec kd s)).
Proof.
  unfold key_from_string. destruct (split_max _ _ _) as [|w [|b rest]]; try (intros []).
  apply noprompt_bind; [intros []|intros kb]. apply noprompt_bind; [exact (keylog_prompt _ (keylog_from_bytes _ _ _ _))|intros k].
  apply noprompt_bind; [intros []|intros kt]. unfold wseq. apply noprompt_bind; [exact (wwhen_prompt _ _ (warn_prompt _))|intros ? []].
Qed.
Lemma parse_lines_prompt p i ls : ~ In Prompt (fst (parse_lines p i ls)).
Proof.
  revert i. induction ls as [|s ls IH]; intros i; cbn [parse_lines]; [intros []|].
  apply noprompt_bind; [|intros o; apply noprompt_bind; [apply IH|intros ? []]].
  apply noprompt_catch; [apply noprompt_bind; [apply from_string_prompt|intros ? []]|].
  intros x [K|[]]. discriminate.
Qed.
Theorem C90_interrupted_command p e file given y :
  e_getpass e = Err y -> is_model_error y = false -> In Prompt (fst (main_command p e file given)) ->
  stopped_at_prompt (seen y) (main_command p e file given).
Proof.
  intros Ey M. unfold main_command, main_output, main_parse. apply may_stop_bind; [apply silent; intros []|intros s].
  apply may_stop_bind; [|intros r; apply silent; intros []].
  destruct (starts_with _ _); (apply may_stop_bind; [|intros ?; apply silent; intros []]).
  - exact (C90_interrupted_text p e s given y Ey M).
  - apply silent, parse_lines_prompt.
Qed.
(** Packing: the exception reaches the caller as it is. *)
Theorem C90_interrupted_packing p e l given idx ov retain y :
  e_getpass e = Err y -> In Prompt (fst (list_pack_bytes p e l given idx ov retain)) ->
  stopped_at_prompt y (list_pack_bytes p e l given idx ov retain) /\
  stopped_at_prompt y (list_pack_string p e l given idx ov retain).
Proof.
  intros Ey. assert (may_stop y (list_pack_bytes p e l given idx ov retain)) as M.
  { rewrite list_pack_eq. unfold pack_selected. apply may_stop_bind; [apply silent, keylog_prompt, Props_List.keylog_options|intros o].
    do 4 (apply may_stop_bind; [apply silent; intros []|intros ?]).
    apply may_stop_bind; [|intros pw].
    { destruct (val_eqb _ _); [apply silent; intros []|]. destruct given; [apply given_silent|apply prompt_stops, Ey]. }
    apply may_stop_bind; [apply silent; intros []|intros ci]. unfold wseq.
    apply may_stop_bind; [apply silent, new_kdf_prompt|intros ?].
    apply may_stop_bind; [apply silent; intros []|intros x]. apply silent. intros []. }
  intros H. split; [exact (M H)|]. unfold list_pack_string. apply may_stop_bind; [exact M|intros b; apply silent; intros []|].
  destruct (list_pack_bytes p e l given idx ov retain) as [lg [b|x]]; cbn [wbind fst wret] in *; [apply in_or_app; left|]; exact H.
Qed.
(** Ctrl-C and Ctrl-D at the prompt, for the encrypted file of the other examples. *)
Example C90_example :
  let interrupted := mkenv (Err OtherError) 1 [] in
  let ended := mkenv (Err (EOFError true [])) 1 [] in
  list_from_bytes toy_prims interrupted ex_file None = ([Prompt], Err ValueError) /\
  list_from_bytes toy_prims ended ex_file None = ([Prompt], Err ValueError) /\
  list_pack_bytes toy_prims interrupted ex_list None None true false = ([Prompt], Err OtherError) /\
  list_from_bytes toy_prims interrupted ex_file (Some (str "pw")) = ([], Ok ex_parsed).
Proof. cbv zeta. repeat split; vm_compute; reflexivity. Qed.

Print Assumptions C90_interrupted_parsing.
Print Assumptions C90_interrupted_text.
Print Assumptions C90_interrupted_command.
Print Assumptions C90_interrupted_packing.
