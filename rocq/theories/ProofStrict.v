(** Proofs about runs with a warnings filter (Strict.v). *)
From Verif Require Import PyBase IntBytes Utf8 StructFmt Stream Text Classes Key Crypto PrivateKeyList
  Json Convert Generate Strict SpecStrict.
Open Scope Z_scope.

Section Filter.
Variable raising : warning -> bool.
Notation fl := (filtered raising).
Notation quiet := (none_raised raising).

Lemma quiet_nil : quiet [].
Proof. intros w []. Qed.
Lemma quiet_app l l' : quiet l -> quiet l' -> quiet (l ++ l').
Proof. intros H H' w I. apply in_app_iff in I as [I|I]; auto. Qed.
Lemma quiet_app_l l l' : quiet (l ++ l') -> quiet l.
Proof. intros H w I. apply H, in_app_iff. auto. Qed.
Lemma not_quiet l w l' : raising w = true -> ~ quiet (l ++ Warn w :: l').
Proof. intros R H. specialize (H w). rewrite H in R; [discriminate|]. apply in_app_iff. right; now left. Qed.

Lemma fl_ret {A} (a : A) : fl (wret a) (qret a).
Proof. apply Unaffected; [apply quiet_nil|constructor]. Qed.
Lemma fl_err {A} e : fl (werr (A := A) e) (qerr e).
Proof. apply Unaffected; [apply quiet_nil|constructor]. Qed.
Lemma fl_lift {A} (r : res A) : fl (wlift r) (qlift r).
Proof. apply Unaffected; [apply quiet_nil|destruct r; constructor]. Qed.
Lemma fl_warn w : fl (wwarn w) (qwarn raising w).
Proof.
  unfold wwarn, qwarn. destruct (raising w) eqn:E.
  - apply (Stopped raising [] w [] (Ok tt)); [apply quiet_nil|assumption].
  - apply Unaffected; [|constructor]. intros v [H|[]]. now inversion H; subst.
Qed.
Lemma fl_when b x y : fl x y -> fl (wwhen b x) (qwhen b y).
Proof. intros H. destruct b; [exact H|apply fl_ret]. Qed.
Lemma fl_bind {A B} (x : W A) y (f : A -> W B) g :
  fl x y -> (forall a, fl (f a) (g a)) -> fl (wbind x f) (qbind y g).
Proof.
  intros H K. destruct H as [x y N S|l w l' r N R].
  - destruct S as [l a|l e]; cbn [wbind qbind]; cbn [fst] in N.
    + specialize (K a). destruct (f a) as [l1 r1] eqn:E, (g a) as [l2 r2] eqn:G.
      inversion K as [x y N1 S1|b w a' r N1 R1]; subst.
      * apply Unaffected; [apply quiet_app; assumption|]. inversion S1; subst; constructor.
      * rewrite app_assoc. apply Stopped; [apply quiet_app; assumption|assumption].
    + apply Unaffected; [assumption|constructor].
  - cbn [qbind]. destruct r as [a|e]; cbn [wbind].
    + destruct (f a) as [l1 r1]. rewrite <- app_assoc. cbn [app]. now apply Stopped.
    + now apply Stopped.
Qed.
Lemma fl_seq {A} (x : W unit) y (f : W A) g : fl x y -> fl f g -> fl (x ;; f) (y ;;; g).
Proof. intros. apply fl_bind; auto. Qed.
Lemma fl_catch {A} (x : W A) y h f g :
  fl x y -> (forall e, fl (f e) (g e)) -> fl (wcatch x h f) (qcatch y h g).
Proof.
  intros H K. destruct H as [x y N S|l w l' r N R].
  - destruct S as [l a|l e]; cbn [wcatch qcatch]; cbn [fst] in N.
    + apply Unaffected; [assumption|constructor].
    + destruct (h e); [|apply Unaffected; [assumption|constructor]].
      specialize (K e). destruct (f e) as [l1 r1] eqn:E, (g e) as [l2 r2] eqn:G.
      inversion K as [x y N1 S1|b w a' r N1 R1]; subst.
      * apply Unaffected; [apply quiet_app; assumption|]. inversion S1; subst; constructor.
      * rewrite app_assoc. apply Stopped; [apply quiet_app; assumption|assumption].
  - cbn [qcatch]. destruct r as [a|e]; cbn [wcatch]; [now apply Stopped|].
    destruct (h e); [|now apply Stopped].
    destruct (f e) as [l1 r1]. rewrite <- app_assoc. cbn [app]. now apply Stopped.
Qed.
Lemma fl_discard {A} (x : W A) y : fl x y -> fl (wdiscard x) (qdiscard y).
Proof. intros H. apply fl_bind; [exact H|intros; apply fl_ret]. Qed.

Ltac step :=
  first
    [ simple apply fl_ret | simple apply fl_err | simple apply fl_lift | simple apply fl_warn
    | simple apply fl_when | simple apply fl_bind; [|intros] | simple apply fl_seq | simple apply fl_catch; [|intros]
    | simple apply fl_discard ].

Lemma fl_check_field d k i : fl (check_field d k i) (q_check_field raising d k i).
Proof.
  unfold check_field, q_check_field. destruct (dget k d) as [v|]; [|step].
  destruct i as [fmt|p|p n|]; try (destruct (is_instance v p); step); [|step].
  destruct (struct_pack fmt [v]) as [r|e]; [step|]. destruct e; step.
Qed.
Lemma fl_check_dict d f : fl (check_dict d f) (q_check_dict raising d f).
Proof.
  induction f as [|[k i] f IH]; cbn [check_dict q_check_dict]; [step|].
  apply fl_seq; [apply fl_check_field|exact IH].
Qed.
Lemma fl_collect param l : forall acc, fl (collect_options param acc l) (q_collect_options raising param acc l).
Proof.
  induction l as [|i l IH]; intros acc; cbn [collect_options q_collect_options]; [step|].
  destruct (dget (str "option") i) as [[]|]; try step. destruct (dget (str "value") i); [|step].
  apply fl_seq; [repeat step|apply IH].
Qed.
Lemma fl_options param d : fl (get_option_values_dict param d) (q_get_option_values_dict raising param d).
Proof. unfold get_option_values_dict, q_get_option_values_dict. repeat step. apply fl_collect. Qed.
Lemma fl_get_option param o d : fl (get_option_from_param param o d) (q_get_option_from_param raising param o d).
Proof. unfold get_option_from_param, q_get_option_from_param. repeat step. apply fl_options. Qed.
Lemma fl_set_option param o v d :
  fl (set_option_for_param param o v d) (q_set_option_for_param raising param o v d).
Proof. unfold set_option_for_param, q_set_option_for_param. repeat step. apply fl_options. Qed.

Section Parsing.
Variable ec_ok : curve -> bytes -> bool.
Lemma fl_ecdsa c d : fl (check_ecdsa ec_ok c d) (q_check_ecdsa raising ec_ok c d).
Proof.
  unfold check_ecdsa, q_check_ecdsa. destruct (dget (str "identifier") d); [|step].
  apply fl_seq; [repeat step|]. destruct (get_bytes "q" d); repeat step.
Qed.
Lemma fl_ed_pub d : fl (check_ed_pub d) (q_check_ed_pub raising d).
Proof. unfold check_ed_pub, q_check_ed_pub. destruct (get_bytes "public" d); repeat step. Qed.
Lemma fl_ed_priv d : fl (check_ed_priv d) (q_check_ed_priv raising d).
Proof.
  unfold check_ed_priv, q_check_ed_priv.
  destruct (get_bytes "private_public" d); [|step]. destruct (get_bytes "public" d); repeat step.
Qed.
Section Pub.
Variables (pp : bytes -> W key) (qp : bytes -> Q key).
Hypothesis Hp : forall b, fl (pp b) (qp b).
Lemma fl_signature_key d : fl (get_signature_key pp d) (q_get_signature_key raising qp d).
Proof.
  unfold get_signature_key, q_get_signature_key. step; [step|]. destruct a; repeat step. apply Hp.
Qed.
Lemma fl_cert d : fl (check_cert pp d) (q_check_cert raising qp d).
Proof.
  unfold check_cert, q_check_cert.
  step; [destruct (dmem (str "type") d); repeat step|].
  step; [destruct (get_bytes "valid_principals" d); repeat step|].
  step; [destruct (get_bytes "critical_options" d); repeat step; apply fl_options|].
  step; [destruct (get_bytes "extensions" d); repeat step; apply fl_options|].
  destruct (get_bytes "signature_key" d); repeat step; apply fl_signature_key.
Qed.
Lemma fl_run_steps c d l : fl (run_steps ec_ok pp c d l) (q_run_steps raising ec_ok qp c d l).
Proof.
  induction l as [|s l IH]; cbn [run_steps q_run_steps]; [step|].
  apply fl_seq; [|exact IH]. destruct s; cbn [check_step q_check_step];
    auto using fl_check_dict, fl_ecdsa, fl_ed_pub, fl_ed_priv, fl_cert.
Qed.
Lemma fl_new_params c d : fl (new_params ec_ok pp c d) (q_new_params raising ec_ok qp c d).
Proof. apply fl_run_steps. Qed.
Lemma fl_new_key k h ps ft cl : fl (new_key ec_ok pp k h ps ft cl) (q_new_key raising ec_ok qp k h ps ft cl).
Proof.
  unfold new_key, q_new_key. apply fl_seq; [apply fl_check_dict|].
  step; [step|]. step; [step|]. apply fl_seq; [apply fl_new_params|].
  apply fl_seq; [apply fl_check_dict|step].
Qed.
Lemma fl_from_stream k cl s :
  fl (snd (key_from_stream ec_ok pp k cl s)) (snd (q_key_from_stream raising ec_ok qp k cl s)) /\
  fst (key_from_stream ec_ok pp k cl s) = fst (q_key_from_stream raising ec_ok qp k cl s).
Proof.
  unfold key_from_stream, q_key_from_stream. destruct (read_key_parts k s) as [s' [[[h ps] ft]|e]]; cbn [fst snd].
  - split; [apply fl_new_key|reflexivity].
  - split; [step|reflexivity].
Qed.
Lemma fl_bytes_with k b cl :
  fl (key_from_bytes_with ec_ok pp k b cl) (q_key_from_bytes_with raising ec_ok qp k b cl).
Proof.
  unfold key_from_bytes_with, q_key_from_bytes_with.
  pose proof (fl_from_stream k cl (stream_of b)) as H.
  destruct (key_from_stream ec_ok pp k cl (stream_of b)) as [s w],
    (q_key_from_stream raising ec_ok qp k cl (stream_of b)) as [s' w']. cbn [fst snd] in H.
  destruct H as [H ->]. step; [exact H|]. destruct (unread s'); repeat step.
Qed.
End Pub.
Lemma fl_parse_fuel n : forall b, fl (parse_pub_fuel ec_ok n b) (q_parse_pub_fuel raising ec_ok n b).
Proof.
  induction n as [|n IH]; intros b; cbn [parse_pub_fuel q_parse_pub_fuel]; [step|].
  apply fl_bytes_with, IH.
Qed.
Lemma fl_parse_pub b : fl (parse_pub ec_ok b) (q_parse_pub raising ec_ok b).
Proof. apply fl_parse_fuel. Qed.
Lemma fl_from_bytes k b cl : fl (key_from_bytes ec_ok k b cl) (q_key_from_bytes raising ec_ok k b cl).
Proof. apply fl_bytes_with, fl_parse_pub. Qed.
Lemma fl_from_string k s : fl (key_from_string ec_ok k s) (q_key_from_string raising ec_ok k s).
Proof.
  unfold key_from_string, q_key_from_string.
  destruct (split_max (cp " ") 2 s) as [|t [|b64 rest]]; [step|step|].
  step; [step|]. step; [apply fl_from_bytes|]. repeat step.
Qed.
End Parsing.

Lemma fl_kdf k d : fl (new_kdf k d) (q_new_kdf raising k d).
Proof. apply fl_check_dict. Qed.

(** Streams: the positions also agree while no warning is raised. *)
Definition sfl {A} (x : SW A) (y : SQ A) : Prop :=
  forall s, fl (snd (x s)) (snd (y s)) /\ (quiet (fst (snd (x s))) -> fst (x s) = fst (y s)).
Lemma sfl_w {A} (x : W A) y : fl x y -> sfl (sww x) (sqq y).
Proof. intros H s. split; [exact H|reflexivity]. Qed.
Lemma sfl_p {A} (x : P A) : sfl (swp x) (sqp x).
Proof.
  intros s. unfold swp, sqp. destruct (x s) as [s' r]. cbn [fst snd]. split; [|reflexivity].
  apply Unaffected; [apply quiet_nil|destruct r; constructor].
Qed.
Lemma sfl_bind {A B} (x : SW A) y (f : A -> SW B) g :
  sfl x y -> (forall a, sfl (f a) (g a)) -> sfl (swbind x f) (sqbind y g).
Proof.
  intros H K s. specialize (H s). unfold swbind, sqbind.
  destruct (x s) as [s1 w1], (y s) as [s2 q2]. cbn [fst snd] in H. destruct H as [H E].
  destruct H as [w1 q2 N S|l w l' r N R].
  - specialize (E N). subst s2. destruct S as [l a|l e]; cbn [fst snd] in N |- *.
    + specialize (K a s1). destruct (f a s1) as [t1 [l1 r1]], (g a s1) as [t2 [l2 r2]].
      cbn [fst snd] in K |- *. destruct K as [K E]. split.
      * inversion K as [x' y' N1 S1|b w a' r N1 R1]; subst.
        -- apply Unaffected; [apply quiet_app; assumption|]. inversion S1; subst; constructor.
        -- rewrite app_assoc. apply Stopped; [apply quiet_app; assumption|assumption].
      * intros Q0. apply E. intros w I. apply Q0, in_app_iff. auto.
    + split; [|reflexivity]. apply Unaffected; [assumption|constructor].
  - destruct r as [a|e]; cbn [fst snd].
    + destruct (f a s1) as [t1 [l1 r1]]. cbn [fst snd]. rewrite <- app_assoc. cbn [app].
      split; [now apply Stopped|]. intros Q0. exfalso. now apply (not_quiet l w (l' ++ l1) R).
    + split; [now apply Stopped|]. intros Q0. exfalso. now apply (not_quiet l w l' R).
Qed.
Ltac sstep := first [ apply sfl_p | apply sfl_w; repeat step | apply sfl_bind; [|intros] ].

Section List_.
Variable p : prims.
Lemma sfl_read_pubs fuel : forall n, sfl (read_pubs p fuel n) (q_read_pubs raising p fuel n).
Proof.
  induction fuel as [|fuel IH]; intros n; cbn [read_pubs q_read_pubs]; destruct (n <=? 0); [sstep|sstep|sstep|].
  sstep; [sstep|]. destruct a as [|b| | |]; [sstep| |sstep|sstep|sstep].
  sstep; [apply sfl_w, fl_from_bytes|]. sstep; [apply IH|]. sstep.
Qed.
Lemma sfl_read_privs pubs : forall i, sfl (read_privs p i pubs) (q_read_privs raising p i pubs).
Proof.
  induction pubs as [|pub pubs IH]; intros i; cbn [read_privs q_read_privs]; [sstep|].
  sstep.
  { intros s. destruct (fl_from_stream (p_ec_ok p) _ _ (fl_parse_pub (p_ec_ok p)) KPriv None s) as [H E].
    split; [exact H|intros _; exact E]. }
  do 4 (sstep; [sstep|]). sstep; [apply IH|]. sstep.
Qed.
Lemma fl_passphrase e given : fl (get_passphrase e given) (q_get_passphrase e given).
Proof.
  destruct given; cbn [get_passphrase q_get_passphrase]; [step|].
  apply Unaffected; [intros w [H|[]]; discriminate|]. destruct (e_getpass e); constructor.
Qed.
Lemma fl_deciphered c pubs plain :
  fl (parse_deciphered p c pubs plain) (q_parse_deciphered raising p c pubs plain).
Proof.
  unfold parse_deciphered, q_parse_deciphered.
  match goal with |- fl (snd (?f ?s)) (snd (?g _)) => assert (H : sfl f g) end.
  { do 4 (sstep; [sstep|]). sstep; [apply sfl_read_privs|]. do 2 (sstep; [sstep|]). sstep. }
  apply H.
Qed.
Lemma fl_try e b pass : fl (from_bytes_try p e b pass) (q_from_bytes_try raising p e b pass).
Proof.
  unfold from_bytes_try, q_from_bytes_try.
  match goal with |- fl (snd (?f ?s)) (snd (?g _)) => assert (H : sfl f g) end.
  { do 2 (sstep; [sstep|]).
    sstep; [apply sfl_w; destruct (val_eqb a0 (VBytes auth_magic)); step|].
    sstep; [sstep|]. sstep; [apply sfl_w; destruct (a2 <? 0); step|].
    sstep; [apply sfl_read_pubs|]. do 7 (sstep; [sstep|]).
    sstep; [apply sfl_w, fl_kdf|]. do 2 (sstep; [sstep|]).
    sstep; [apply sfl_w; match goal with |- fl (match ?k with _ => _ end) _ => destruct k end;
            [step|apply fl_passphrase]|].
    sstep; [match goal with |- sfl (if ?c then _ else _) _ => destruct c end; sstep|].
    sstep; [apply sfl_w, fl_kdf|]. sstep; [sstep|]. sstep; [apply sfl_w, fl_deciphered|].
    match goal with r : (list pair * _ * _)%type |- _ => destruct r as [[] ] end. sstep. }
  apply H.
Qed.

Lemma fl_list_bytes e b pass :
  filtered_list raising (list_from_bytes p e b pass) (q_list_from_bytes raising p e b pass).
Proof.
  unfold list_from_bytes, q_list_from_bytes.
  destruct (fl_try e b pass) as [x y N S|l w l' r N R].
  - destruct S as [l a|l x]; (apply UnaffectedList; [exact N|constructor]).
  - destruct r as [a|x]; now apply StoppedList.
Qed.
Lemma fl_list_string e s pass :
  filtered_list raising (list_from_string p e s pass) (q_list_from_string raising p e s pass).
Proof.
  unfold list_from_string, q_list_from_string.
  assert (E : forall x, filtered_list (A := pkl) raising (werr x) (qerr x))
    by (intros x; apply UnaffectedList; [apply quiet_nil|constructor]).
  destruct (splitlines s) as [|first ls]; [apply E|].
  match goal with |- filtered_list _ (if ?c then _ else _) _ => destruct c end; [apply E|].
  destruct (b64decode _) as [b|x]; [|apply E].
  unfold wlift, qlift. cbn [of_res wbind qbind].
  destruct (fl_list_bytes e b pass) as [x y N S|l w l' r N R].
  - destruct S as [l a|l x]; (apply UnaffectedList; [exact N|constructor]).
  - now apply StoppedList.
Qed.
Lemma fl_pack e l pass idx ov retain :
  fl (list_pack_bytes p e l pass idx ov retain) (q_list_pack_bytes raising p e l pass idx ov retain).
Proof.
  unfold list_pack_bytes, q_list_pack_bytes. destruct (list_cipher_kdf l) as [cv kv].
  step; [destruct (if retain then l_kdf_options l else None); repeat step; apply fl_kdf|].
  do 4 (step; [step|]).
  step; [destruct (val_eqb kv (VStr (str "none"))); [step|apply fl_passphrase]|].
  step; [step|]. step; [apply fl_kdf|]. repeat step.
Qed.
Lemma fl_pack_string e l pass idx ov retain :
  fl (list_pack_string p e l pass idx ov retain) (q_list_pack_string raising p e l pass idx ov retain).
Proof. unfold list_pack_string, q_list_pack_string. step; [apply fl_pack|step]. Qed.
Lemma fl_lines ls : forall i, fl (parse_lines p i ls) (q_parse_lines raising p i ls).
Proof.
  induction ls as [|s ls IH]; intros i; cbn [parse_lines q_parse_lines]; [step|].
  step; [repeat step; apply fl_from_string|]. step; [apply IH|step].
Qed.
Lemma fll_bind_ret {A B} (x : W A) y (f : A -> B) : filtered_list raising x y ->
  filtered_list raising (wbind x (fun a => wret (f a))) (qbind y (fun a => qret (f a))).
Proof.
  intros H. destruct H as [x y N S|l w l' r N R].
  - destruct S as [l a|l x]; cbn [wbind qbind wret qret]; [rewrite app_nil_r|];
      (apply UnaffectedList; [exact N|constructor]).
  - cbn [qbind]. destruct r as [a|x]; cbn [wbind wret]; [rewrite app_nil_r|]; now apply StoppedList.
Qed.
Lemma fll_bind_lift {A B} (r : res A) (f : A -> W B) g : (forall a, filtered_list raising (f a) (g a)) ->
  filtered_list raising (wbind (wlift r) f) (qbind (qlift r) g).
Proof.
  intros H. destruct r as [a|x]; unfold wlift, qlift; cbn [of_res wbind qbind].
  - specialize (H a). destruct (f a), (g a). exact H.
  - apply UnaffectedList; [apply quiet_nil|constructor].
Qed.
End List_.

Section Ext.
Variable x : ext.
Lemma fl_construct c d : fl (construct x c d) (q_construct raising x c d).
Proof.
  unfold construct, q_construct. destruct (is_abstract c); [step|].
  step; [|step]. apply fl_new_params, fl_parse_pub.
Qed.
Section From.
Variables (b : cls -> dict pyval -> W (cls * dict pyval)) (qb : cls -> dict pyval -> Q (cls * dict pyval)).
Hypothesis Hb : forall c d, fl (b c d) (qb c d).
Section Conv.
Variables (cv : cls -> W (cls * dict pyval)) (qcv : cls -> Q (cls * dict pyval)).
Hypothesis Hc : forall c, fl (cv c) (qcv c).
Lemma fl_first l : fl (first_subclass cv l) (q_first_subclass qcv l).
Proof.
  induction l as [|c l IH]; cbn [first_subclass q_first_subclass]; [step|].
  step; [repeat step; apply Hc|]. destruct a; [step|exact IH].
Qed.
Lemma fl_common c o : fl (common_convert_from x b cv c o) (q_common_convert_from x qb qcv c o).
Proof.
  unfold common_convert_from, q_common_convert_from. step; [step|].
  step; [destruct a; [step|]; step; [apply fl_first|step]|].
  match goal with |- fl (match ?f with _ => _ end) _ => destruct f end; [|step]. step; [step|apply Hb].
Qed.
Lemma fl_ecdsa_from c o : fl (ecdsa_convert_from x b cv c o) (q_ecdsa_convert_from x qb qcv c o).
Proof.
  unfold ecdsa_convert_from, q_ecdsa_convert_from. destruct (is_abstract c); [|apply fl_common].
  step; [apply fl_first|]. destruct a; [step|apply fl_common].
Qed.
End Conv.
Lemma fl_from_fuel n : forall c o, fl (convert_from_fuel x b n c o) (q_convert_from_fuel x qb n c o).
Proof.
  induction n as [|n IH]; intros c o; cbn [convert_from_fuel q_convert_from_fuel]; [step|].
  destruct (issubclass c ECDSAPub); [apply fl_ecdsa_from|apply fl_common]; intros; apply IH.
Qed.
End From.
Lemma fl_convert c o : fl (convert_from x c o) (q_convert_from raising x c o).
Proof. apply fl_from_fuel, fl_construct. Qed.
Variable gen : request -> res obj.
Lemma fl_class_generate c kw : fl (class_generate x gen c kw) (q_class_generate raising x gen c kw).
Proof.
  unfold class_generate, q_class_generate.
  destruct (lookup_attr _ _) as [r|]; [|step]. step; [step|apply fl_construct].
Qed.
Lemma fl_generate t co kw : fl (generate_pair x gen t co kw) (q_generate_pair raising x gen t co kw).
Proof.
  unfold generate_pair, q_generate_pair. step; [step|]. step; [apply fl_class_generate|].
  step; [apply fl_new_key, fl_parse_pub|]. step; [apply fl_new_key, fl_parse_pub|step].
Qed.
End Ext.
End Filter.
