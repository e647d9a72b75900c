(** Lemmas about key formats, packing and parsing keys. *)
From Verif Require Import PyBase IntBytes Utf8 StructFmt Stream Text Classes Key SpecWire SpecKey.
From Verif Require Import ProofBase ProofInt ProofUtf8 ProofWire ProofRecord.
Open Scope Z_scope.

(** ** The format tables agree with the specification *)
Definition ftype_of (i : finstr) : option ftype :=
  match i with
  | FPascal i => Some (ptype i 4)
  | FStruct f =>
      if str_eqb f (str ">Q") then Some (TInt true false 8)
      else if str_eqb f (str ">I") then Some (TInt true false 4)
      else if str_eqb f (str ">i") then Some (TInt true true 4)
      else if str_eqb f (str ">B") then Some (TInt true false 1)
      else if str_eqb f (str "15s") then Some (TBlob 15)
      else None
  | _ => None
  end.
Lemma ftype_of_sound i t : ftype_of i = Some t -> has_type i t.
Proof.
  destruct i as [f|i|i n|]; cbn [ftype_of]; try discriminate.
  - destruct (str_eqb_reflect f (str ">Q")) as [->|_].
    { intros K; injection K as <-. apply (ht_int ">" true "Q" false 8); simpl; tauto. }
    destruct (str_eqb_reflect f (str ">I")) as [->|_].
    { intros K; injection K as <-. apply (ht_int ">" true "I" false 4); simpl; tauto. }
    destruct (str_eqb_reflect f (str ">i")) as [->|_].
    { intros K; injection K as <-. apply (ht_int ">" true "i" true 4); simpl; tauto. }
    destruct (str_eqb_reflect f (str ">B")) as [->|_].
    { intros K; injection K as <-. apply (ht_int ">" true "B" false 1); simpl; tauto. }
    destruct (str_eqb_reflect f (str "15s")) as [->|_]; [|discriminate].
    intros K; injection K as <-. apply (ht_blob (str "15")).
    + discriminate.
    + repeat constructor; unfold digit; cbn; lia.
    + vm_compute; discriminate.
  - intros K; injection K as <-. apply has_type_pascal.
Qed.
Fixpoint ftypes_of (f : fmt_dict) : option (list (pystr * ftype)) :=
  match f with
  | [] => Some []
  | (k, i) :: f' =>
      match ftype_of i, ftypes_of f' with
      | Some t, Some ts => Some ((k, t) :: ts)
      | _, _ => None
      end
  end.
Lemma ftypes_of_sound f ts : ftypes_of f = Some ts -> format_types f ts.
Proof.
  revert ts; induction f as [|(k, i) f IH]; intros ts H; cbn [ftypes_of] in H.
  - injection H as <-. constructor.
  - destruct (ftype_of i) eqn:E; [|discriminate]. destruct (ftypes_of f); [|discriminate].
    injection H as <-. constructor; [split; [reflexivity|apply ftype_of_sound; assumption]|apply IH; reflexivity].
Qed.

Fixpoint nodupb (l : list pystr) : bool :=
  match l with [] => true | x :: l' => negb (str_mem x l') && nodupb l' end.
Lemma str_mem_In x l : str_mem x l = true <-> In x l.
Proof.
  induction l as [|y l IH]; cbn [str_mem In]; [split; [discriminate|contradiction]|].
  rewrite orb_true_iff, IH. destruct (str_eqb_reflect x y); intuition congruence.
Qed.
Lemma nodupb_sound l : nodupb l = true -> NoDup l.
Proof.
  induction l as [|x l IH]; cbn [nodupb]; intros H; constructor.
  - apply andb_true_iff in H as (H & _). rewrite <- str_mem_In. destruct (str_mem x l); [discriminate|congruence].
  - apply andb_true_iff in H as (_ & H). auto.
Qed.

Definition table_ok : bool :=
  forallb (fun s =>
    match get_public_class (VStr (fst s)) with
    | Err _ => false
    | Ok c =>
        match ftypes_of (format_of c), ftypes_of (format_of (first_public_class c)) with
        | Some ts, Some ts' =>
            cls_eqb c (first_public_class c)
            && nodupb (map fst ts)
            && match snd (snd s) with
               | None => match get_private_class (VStr (fst s)) with Err (KeyError _) => true | _ => false end
               | Some _ =>
                   match get_private_class (VStr (fst s)) with
                   | Ok cp => cls_eqb (first_public_class cp) c && nodupb (dkeys (format_of cp))
                   | Err _ => false
                   end
               end
        | _, _ => false
        end
    end) key_specs.
Lemma table_ok_true : table_ok = true.
Proof. vm_compute. reflexivity. Qed.

Lemma cls_eqb_spec a b : cls_eqb a b = true <-> a = b.
Proof. unfold cls_eqb. destruct (cls_eq_dec a b); split; congruence. Qed.

Ltac each_spec H :=
  unfold key_specs, plain_specs, cert_specs in H; cbn [map app fst snd] in H;
  repeat (destruct H as [H|H]; [|try contradiction]).

(** Everything about a key type in one lemma. *)
Lemma spec_public t pub priv :
  In (t, (pub, priv)) key_specs ->
  exists c, get_public_class (VStr t) = Ok c /\ format_types (format_of c) pub /\
    NoDup (map fst pub) /\ first_public_class c = c.
Proof.
  intros H. each_spec H; injection H as <- <- <-;
    (eexists; split; [vm_compute; reflexivity|]; split; [apply ftypes_of_sound; vm_compute; reflexivity|];
     split; [apply nodupb_sound; vm_compute; reflexivity | vm_compute; reflexivity]).
Qed.
Lemma spec_private t pub priv :
  In (t, (pub, Some priv)) key_specs ->
  exists c, get_private_class (VStr t) = Ok c /\ format_types (format_of c) priv /\
    NoDup (map fst priv) /\ get_public_class (VStr t) = Ok (first_public_class c).
Proof.
  intros H. each_spec H; try discriminate; injection H as <- <- <-;
    (eexists; split; [vm_compute; reflexivity|]; split; [apply ftypes_of_sound; vm_compute; reflexivity|];
     split; [apply nodupb_sound; vm_compute; reflexivity | vm_compute; reflexivity]).
Qed.
Lemma spec_cert_no_private t pub :
  In (t, (pub, None)) key_specs -> get_private_class (VStr t) = Err (KeyError no_private_class).
Proof. intros H. each_spec H; try discriminate; injection H as <- <-; vm_compute; reflexivity. Qed.

Lemma mapping_keys : forall t, In t (dkeys key_type_mapping) <-> In t (map fst key_specs).
Proof.
  intros t.
  assert (forallb (fun x => str_mem x (map fst key_specs)) (dkeys key_type_mapping) = true) as A by (vm_compute; reflexivity).
  assert (forallb (fun x => str_mem x (dkeys key_type_mapping)) (map fst key_specs) = true) as B by (vm_compute; reflexivity).
  rewrite forallb_forall in A, B.
  split; intros H; apply str_mem_In; auto.
Qed.
Lemma unknown_type t : ~ In t (map fst key_specs) ->
  get_public_class (VStr t) = Err (KeyError (VStr t)) /\ get_private_class (VStr t) = Err (KeyError (VStr t)).
Proof.
  intros H. rewrite <- mapping_keys in H.
  assert (dget t key_type_mapping = None) as E by (apply dget_None; exact H).
  unfold get_public_class, get_private_class, ditem. rewrite E. split; reflexivity.
Qed.
Lemma known_type k v c : params_class k v = Ok c ->
  exists t pub priv, v = VStr t /\ In (t, (pub, priv)) key_specs.
Proof.
  intros H. assert (exists t, v = VStr t) as (t & ->).
  { destruct k, v; try discriminate; eauto. }
  destruct (in_dec (list_eq_dec N.eq_dec) t (map fst key_specs)) as [I|N].
  - apply in_map_iff in I as ((t' & (pub & priv)) & <- & I). exists t', pub, priv. auto.
  - apply unknown_type in N as (N1 & N2). destruct k; cbn [params_class] in H; congruence.
Qed.

(** Key type specifications are functional. *)
Lemma key_specs_nodup : NoDup (map fst key_specs).
Proof. apply nodupb_sound. vm_compute. reflexivity. Qed.
Lemma key_specs_fun t s s' : In (t, s) key_specs -> In (t, s') key_specs -> s = s'.
Proof.
  intros H H'. pose proof key_specs_nodup as N. revert H H' N.
  generalize key_specs as l. induction l as [|(t0, s0) l IH]; cbn [map In fst]; [contradiction|].
  intros [H|H] [H'|H'] N; inversion N; subst.
  - congruence.
  - injection H as -> ->. exfalso. apply H2. apply in_map_iff. exists (t, s'). auto.
  - injection H' as -> ->. exfalso. apply H2. apply in_map_iff. exists (t, s). auto.
  - auto.
Qed.

(** ** Packing *)
Lemma pack_with_dict f vals : pack_with (write_dict f vals) = dict_bytes f vals.
Proof.
  unfold pack_with. pose proof (write_dict_spec f vals (stream_of [])) as H.
  destruct (dict_bytes f vals) as [b|e].
  - rewrite H, bio_write_fresh. reflexivity.
  - destruct H as (s' & ->). reflexivity.
Qed.
Lemma pack_three f g h u v w :
  pack_with (do! _ <- write_dict f u; do! _ <- write_dict g v; write_dict h w) =
  do? a <- dict_bytes f u; do? b <- dict_bytes g v; do? c <- dict_bytes h w; Ok (a ++ b ++ c).
Proof.
  unfold pack_with, pbind. pose proof (write_dict_spec f u (stream_of [])) as H.
  destruct (dict_bytes f u) as [a|e]; cbn [rbind]; [|destruct H as (s' & ->); reflexivity].
  rewrite H. pose proof (write_dict_spec g v (bio_write a (stream_of []))) as H1.
  destruct (dict_bytes g v) as [b|e]; cbn [rbind]; [|destruct H1 as (s' & ->); reflexivity].
  rewrite H1, bio_write_app. pose proof (write_dict_spec h w (bio_write (a ++ b) (stream_of []))) as H2.
  destruct (dict_bytes h w) as [c|e]; cbn [rbind]; [|destruct H2 as (s' & ->); reflexivity].
  rewrite H2, bio_write_app, bio_write_fresh. unfold getvalue. cbn [sbuf]. rewrite <- app_assoc. reflexivity.
Qed.
Lemma pack_public_eq k :
  pack_public_bytes k =
  do? a <- dict_bytes (header_fmt KPub) (k_header k);
  do? b <- dict_bytes (format_of (first_public_class (k_pcls k))) (k_params k); Ok (a ++ b).
Proof.
  unfold pack_public_bytes. rewrite pack_three.
  destruct (dict_bytes (header_fmt KPub) (k_header k)); cbn [rbind]; [|reflexivity].
  destruct (dict_bytes (format_of (first_public_class (k_pcls k))) (k_params k)); cbn [rbind]; [|reflexivity].
  cbn [footer_fmt dict_bytes rbind]. rewrite app_nil_r. reflexivity.
Qed.
Lemma pack_private_eq k :
  pack_private_bytes k =
  do? a <- dict_bytes (header_fmt KPriv) (k_header k);
  do? b <- dict_bytes (format_of (k_pcls k)) (k_params k);
  do? c <- dict_bytes (footer_fmt KPriv) (k_footer k); Ok (a ++ b ++ c).
Proof. unfold pack_private_bytes. apply pack_three. Qed.

Lemma header_types k : format_types (header_fmt k) [type_field].
Proof. apply ftypes_of_sound. destruct k; reflexivity. Qed.
Lemma footer_types k : format_types (footer_fmt k) (footer_fields k).
Proof. apply ftypes_of_sound. destruct k; reflexivity. Qed.

Lemma spec_class k t pub priv ts :
  In (t, (pub, priv)) key_specs -> fields_of k (pub, priv) = Some ts ->
  exists c, params_class k (VStr t) = Ok c /\ format_types (format_of c) ts /\ NoDup (map fst ts).
Proof.
  intros H E. destruct k; cbn [fields_of fst snd params_class] in *.
  - injection E as <-. destruct (spec_public _ _ _ H) as (c & A & B & C & _). eauto.
  - subst priv. destruct (spec_private _ _ _ H) as (c & A & B & C & _). eauto.
Qed.

Lemma record_app enc ts ts' vs vs' b b' :
  record_of enc ts vs b -> record_of enc ts' vs' b' -> record_of enc (ts ++ ts') (vs ++ vs') (b ++ b').
Proof.
  intros R R'. induction R as [|k t ts v vs b bs W R IH]; [exact R'|].
  cbn [app]. rewrite <- app_assoc. constructor; assumption.
Qed.
Lemma record_app_inv enc ts ts' vs b :
  record_of enc (ts ++ ts') vs b ->
  exists v1 v2 b1 b2, vs = v1 ++ v2 /\ b = b1 ++ b2 /\ record_of enc ts v1 b1 /\ record_of enc ts' v2 b2.
Proof.
  revert vs b; induction ts as [|(k, t) ts IH]; intros vs b R.
  - exists [], vs, [], b. repeat split; [constructor|exact R].
  - cbn [app] in R. inversion R; subst.
    match goal with H : record_of enc (ts ++ ts') _ _ |- _ =>
      destruct (IH _ _ H) as (v1 & v2 & b1 & b2 & -> & -> & R1 & R2) end.
    exists ((k, v) :: v1), v2, (b0 ++ b1), b2. rewrite <- app_assoc. repeat split; [constructor; assumption|assumption].
Qed.
Lemma record_one (enc : ftype -> pyval -> bytes -> Prop) k t v b : enc t v b -> record_of enc [(k, t)] [(k, v)] b.
Proof. intros H. rewrite <- (app_nil_r b). constructor; [exact H|constructor]. Qed.
Lemma record_one_inv enc k t vs b : record_of enc [(k, t)] vs b -> exists v, vs = [(k, v)] /\ enc t v b.
Proof.
  intros R. inversion R as [|? ? ? v ? ? ? W R0]; subst. inversion R0; subst. rewrite app_nil_r. eauto.
Qed.

(** ** Reading the parts of a key *)
Lemma read_key_parts_complete k t s ts h ps fo b rest pub priv :
  In (t, (pub, priv)) key_specs -> fields_of k (pub, priv) = Some ts ->
  h = [(str "key_type", VStr t)] ->
  record_of wire (key_fields k ts) (h ++ ps ++ fo) b ->
  length ps = length ts ->
  Z.of_nat (length b) <= ssize_max -> unread s = b ++ rest ->
  read_key_parts k s = (adv (length b) s, Ok (h, ps, fo)).
Proof.
  intros Hs Hf -> R Lp Lb U. destruct (spec_class _ _ _ _ _ Hs Hf) as (c & Hc & F & _).
  unfold key_fields in R. change (type_field :: ts ++ footer_fields k) with ([type_field] ++ ts ++ footer_fields k) in R.
  apply record_app_inv in R as (v1 & v2 & b1 & b2 & Ev & -> & R1 & R2).
  pose proof (record_one_inv _ _ _ _ _ R1) as (vt & -> & W1). cbn [app] in Ev. injection Ev as Ek Ev. subst v2.
  apply record_app_inv in R2 as (p1 & f1 & b3 & b4 & Ev & -> & R2 & R3).
  assert (ps = p1 /\ fo = f1) as (<- & <-).
  { apply record_length in R2. assert (length ps = length p1) as El by congruence.
    clear - Ev El. revert p1 Ev El; induction ps as [|x ps IH]; intros [|y p1] Ev El; try discriminate.
    - auto.
    - cbn in Ev. injection Ev as -> Ev. destruct (IH p1 Ev ltac:(simpl in El; lia)) as (-> & ->). auto. }
  rewrite !app_length in Lb.
  unfold read_key_parts. unfold pbind at 1.
  rewrite (read_dict_complete _ _ s [(str "key_type", vt)] b1 (b3 ++ b4 ++ rest) (header_types k));
    [|exact R1|lia|rewrite U, <- !app_assoc; reflexivity].
  subst vt. unfold pbind at 1, plift at 1. unfold ditem. cbn [dget]. rewrite str_eqb_refl.
  unfold pbind at 1, plift. rewrite Hc. unfold pbind at 1.
  rewrite (read_dict_complete _ _ (adv (length b1) s) ps b3 (b4 ++ rest) F R2);
    [|lia|rewrite unread_adv, U; rewrite <- !app_assoc; rewrite skipn_app_exact by reflexivity; reflexivity].
  unfold pbind. rewrite adv_adv.
  rewrite (read_dict_complete _ _ (adv (length b1 + length b3) s) fo b4 rest (footer_types k) R3);
    [|lia|].
  - rewrite adv_adv, !app_length. unfold pret. f_equal. f_equal. lia.
  - rewrite unread_adv, U. rewrite <- !app_assoc. rewrite (app_assoc b1 b3).
    rewrite skipn_app_exact by (rewrite app_length; reflexivity). reflexivity.
Qed.

Lemma read_key_parts_sound k s s' h ps fo :
  read_key_parts k s = (s', Ok (h, ps, fo)) ->
  exists t pub priv ts b,
    In (t, (pub, priv)) key_specs /\ fields_of k (pub, priv) = Some ts /\
    h = [(str "key_type", VStr t)] /\
    record_of wire (key_fields k ts) (h ++ ps ++ fo) b /\
    map fst ts = dkeys ps /\
    dkeys fo = map fst (footer_fields k) /\
    unread s = b ++ unread s' /\ s' = adv (length b) s.
Proof.
  unfold read_key_parts. unfold pbind at 1.
  destruct (read_dict (header_fmt k) s) as [s1 [hd|e]] eqn:E1; [|discriminate].
  destruct (read_dict_sound _ _ _ _ _ (header_types k) E1) as (b1 & R1 & U1 & S1).
  destruct (record_one_inv _ _ _ _ _ R1) as (vt & -> & W1).
  unfold pbind at 1, plift at 1. unfold ditem. cbn [dget]. rewrite str_eqb_refl.
  unfold pbind at 1, plift. destruct (params_class k vt) as [c|e] eqn:Ec; [|discriminate].
  destruct (known_type _ _ _ Ec) as (t & pub & priv & -> & Hs).
  assert (exists ts, fields_of k (pub, priv) = Some ts) as (ts & Hf).
  { destruct k; cbn [fields_of fst snd]; eauto. destruct priv as [priv|]; eauto.
    cbn [params_class] in Ec. rewrite (spec_cert_no_private _ _ Hs) in Ec. discriminate. }
  destruct (spec_class _ _ _ _ _ Hs Hf) as (c' & Hc & F & _).
  assert (c' = c) as -> by congruence.
  unfold pbind at 1. destruct (read_dict (format_of c) s1) as [s2 [pv|e]] eqn:E2; [|discriminate].
  destruct (read_dict_sound _ _ _ _ _ F E2) as (b2 & R2 & U2 & S2).
  unfold pbind. destruct (read_dict (footer_fmt k) s2) as [s3 [fv|e]] eqn:E3; [|discriminate].
  destruct (read_dict_sound _ _ _ _ _ (footer_types k) E3) as (b3 & R3 & U3 & S3).
  intros K; injection K as <- <- <- <-.
  exists t, pub, priv, ts, (b1 ++ b2 ++ b3).
  split; [assumption|]. split; [assumption|]. split; [reflexivity|]. split; [|split; [|split; [|split]]].
  - unfold key_fields. change (type_field :: ts ++ footer_fields k) with ([type_field] ++ ts ++ footer_fields k).
    apply record_app; [exact R1|]. apply record_app; assumption.
  - symmetry. eapply record_keys; eassumption.
  - eapply record_keys; eassumption.
  - rewrite U1, U2, U3. rewrite <- !app_assoc. reflexivity.
  - rewrite S3, S2, S1, !adv_adv, !app_length. f_equal; lia.
Qed.

(** ** What validation depends on *)
Lemma check_dict_ext d d' f :
  (forall k, In k (dkeys f) -> dget k d = dget k d') -> check_dict d f = check_dict d' f.
Proof.
  intros H. induction f as [|(k, i) f IH]; [reflexivity|]. cbn [check_dict].
  rewrite IH by (intros k' Hk; apply H; right; exact Hk).
  unfold check_field. rewrite (H k) by (left; reflexivity). reflexivity.
Qed.
Definition step_keys (s : step) : list pystr :=
  match s with
  | StFormat => []
  | StECDSA => [str "identifier"; str "q"]
  | StEdPub => [str "public"]
  | StEdPriv => [str "public"; str "private_public"]
  | StCert => [str "type"; str "valid_principals"; str "critical_options"; str "extensions"; str "signature_key"]
  end.

Section Ec.
Variable ec : curve -> bytes -> bool.

Lemma get_bytes_ext k d d' : dget (str k) d = dget (str k) d' -> get_bytes k d = get_bytes k d'.
Proof. unfold get_bytes. intros ->. reflexivity. Qed.

Lemma check_step_ext pp c d d' s :
  (forall k, In k (dkeys (format_of c) ++ step_keys s) -> dget k d = dget k d') ->
  check_step ec pp c d s = check_step ec pp c d' s.
Proof.
  intros H.
  assert (forall k, In k (step_keys s) -> dget k d = dget k d') as K
    by (intros; apply H, in_or_app; auto).
  destruct s; cbn [check_step step_keys] in *.
  - apply check_dict_ext. intros; apply H, in_or_app; auto.
  - unfold check_ecdsa. rewrite (get_bytes_ext "q" d d') by (apply K; simpl; auto).
    rewrite (K (str "identifier")) by (simpl; auto). reflexivity.
  - unfold check_ed_pub. rewrite (get_bytes_ext "public" d d') by (apply K; simpl; auto). reflexivity.
  - unfold check_ed_priv. rewrite (get_bytes_ext "public" d d') by (apply K; simpl; auto).
    rewrite (get_bytes_ext "private_public" d d') by (apply K; simpl; auto). reflexivity.
  - unfold check_cert, get_type, get_valid_principals, get_option_values_dict, get_signature_key, ditem, dmem.
    rewrite (get_bytes_ext "valid_principals" d d') by (apply K; simpl; auto).
    rewrite (get_bytes_ext "critical_options" d d') by (apply K; simpl; auto).
    rewrite (get_bytes_ext "extensions" d d') by (apply K; simpl; auto 6).
    rewrite (get_bytes_ext "signature_key" d d') by (apply K; simpl; auto 7).
    rewrite (K (str "type")), (K (str "valid_principals")), (K (str "critical_options")), (K (str "extensions")),
      (K (str "signature_key")) by (simpl; auto 7). reflexivity.
Qed.
Lemma run_steps_ext pp c d d' l :
  (forall k s, In s l -> In k (dkeys (format_of c) ++ step_keys s) -> dget k d = dget k d') ->
  run_steps ec pp c d l = run_steps ec pp c d' l.
Proof.
  intros H. induction l as [|s l IH]; [reflexivity|]. cbn [run_steps].
  rewrite (check_step_ext pp c d d' s) by (intros; eapply H; [left; reflexivity|assumption]).
  rewrite IH by (intros; eapply H; [right; eassumption|assumption]). reflexivity.
Qed.

(** The checks of a class only look at fields of its format. *)
Lemma steps_in_format k t pub priv ts c :
  In (t, (pub, priv)) key_specs -> fields_of k (pub, priv) = Some ts -> params_class k (VStr t) = Ok c ->
  forall s, In s (check_plan c) -> incl (step_keys s) (dkeys (format_of c)).
Proof.
  intros Hs Hf Hc.
  assert (forallb (fun s => forallb (fun x => str_mem x (dkeys (format_of c))) (step_keys s)) (check_plan c) = true) as A.
  { each_spec Hs; injection Hs as <- <- <-; destruct k; cbn [fields_of fst snd] in Hf; try discriminate;
      vm_compute in Hc; injection Hc as <-; vm_compute; reflexivity. }
  rewrite forallb_forall in A. intros s Hin x Hx. apply A in Hin. rewrite forallb_forall in Hin.
  apply str_mem_In. auto.
Qed.
Lemma new_params_ext k t pub priv ts c pp d d' :
  In (t, (pub, priv)) key_specs -> fields_of k (pub, priv) = Some ts -> params_class k (VStr t) = Ok c ->
  (forall x, In x (map fst ts) -> dget x d = dget x d') ->
  new_params ec pp c d = new_params ec pp c d'.
Proof.
  intros Hs Hf Hc H. unfold new_params. apply run_steps_ext. intros x s Hin Hx. apply H.
  destruct (spec_class _ _ _ _ _ Hs Hf) as (c' & Hc' & F & _). assert (c' = c) as -> by congruence.
  rewrite <- (format_keys _ _ F). apply in_app_or in Hx as [Hx|Hx]; [assumption|].
  eapply steps_in_format; eassumption.
Qed.

(** Non-certificate checks never raise. *)
Lemma wbind_ok {A B} l (a : A) (f : A -> W B) : wbind (l, Ok a) f = (l ++ fst (f a), snd (f a)).
Proof. unfold wbind. destruct (f a); reflexivity. Qed.
Lemma wbind_inv {A B} (x : W A) (f : A -> W B) l b :
  wbind x f = (l, Ok b) -> exists l1 a l2, x = (l1, Ok a) /\ f a = (l2, Ok b) /\ l = l1 ++ l2.
Proof.
  destruct x as [l1 [a|e]]; cbn [wbind]; [|discriminate].
  destruct (f a) as [l2 r] eqn:E. intros K; injection K as <- ->. eauto 8.
Qed.
Lemma wbind_ext {A B} (x : W A) (f g : A -> W B) : (forall a, f a = g a) -> wbind x f = wbind x g.
Proof. intros H. destruct x as [l [a|e]]; cbn [wbind]; [rewrite H|]; reflexivity. Qed.
Lemma wseq_ok l a {B} (y : W B) : wseq (l, Ok a) y = (l ++ fst y, snd y).
Proof. unfold wseq. apply wbind_ok. Qed.
Lemma snd_wseq_ok {B} (x : W unit) (y : W B) : snd x = Ok tt -> snd (wseq x y) = snd y.
Proof. destruct x as [l [[]|e]]; cbn [snd]; intros K; [rewrite wseq_ok; reflexivity|discriminate]. Qed.
Lemma snd_wwhen b w : snd (wwhen b (wwarn w)) = Ok tt.
Proof. destruct b; reflexivity. Qed.

Lemma run_steps_no_raise pp c d l ts :
  format_types (format_of c) ts -> ~ In StCert l -> snd (run_steps ec pp c d l) = Ok tt.
Proof.
  intros F. induction l as [|s l IH]; intros N; [reflexivity|]. cbn [run_steps].
  rewrite snd_wseq_ok; [apply IH; intros K; apply N; right; exact K|].
  destruct s; cbn [check_step].
  - apply (check_dict_spec d _ _ F).
  - unfold check_ecdsa. destruct (dget _ d); [|reflexivity].
    rewrite snd_wseq_ok by apply snd_wwhen. destruct (get_bytes "q" d); [apply snd_wwhen|reflexivity].
  - unfold check_ed_pub. destruct (get_bytes "public" d); [apply snd_wwhen|reflexivity].
  - unfold check_ed_priv. destruct (get_bytes "private_public" d); [|reflexivity].
    destruct (get_bytes "public" d); [|reflexivity].
    rewrite snd_wseq_ok by apply snd_wwhen. apply snd_wwhen.
  - exfalso. apply N. left; reflexivity.
Qed.
Lemma plain_no_cert t pub priv k c :
  In (t, (pub, Some priv)) key_specs -> params_class k (VStr t) = Ok c -> ~ In StCert (check_plan c).
Proof.
  intros Hs Hc.
  assert (existsb (fun s => match s with StCert => true | _ => false end) (check_plan c) = false) as A.
  { each_spec Hs; try discriminate; injection Hs as <- <- <-; destruct k;
      vm_compute in Hc; injection Hc as <-; vm_compute; reflexivity. }
  intros Hin. assert (existsb (fun s => match s with StCert => true | _ => false end) (check_plan c) = true)
    by (apply existsb_exists; exists StCert; auto). congruence.
Qed.
Lemma plain_fields k pub priv : exists ts, fields_of k (pub, Some priv) = Some ts.
Proof. destruct k; eexists; reflexivity. Qed.
Lemma new_params_plain_ok t pub priv k c pp d :
  In (t, (pub, Some priv)) key_specs -> params_class k (VStr t) = Ok c ->
  snd (new_params ec pp c d) = Ok tt.
Proof.
  intros Hs Hc. destruct (plain_fields k pub priv) as (ts & Hf).
  destruct (spec_class _ _ _ _ _ Hs Hf) as (c' & Hc' & F & _). assert (c' = c) as -> by congruence.
  unfold new_params. eapply run_steps_no_raise; [exact F|]. eapply plain_no_cert; eassumption.
Qed.

(** ** Recursion on the certificate authority's key *)
Lemma get_signature_key_ext pp pp' d :
  (forall b, get_bytes "signature_key" d = Some b -> pp b = pp' b) ->
  get_signature_key pp d = get_signature_key pp' d.
Proof.
  intros H. unfold get_signature_key, ditem. unfold get_bytes in H.
  destruct (dget (str "signature_key") d) as [[]|]; try reflexivity.
  cbn [wlift wbind]. rewrite (H b) by reflexivity. reflexivity.
Qed.
Lemma run_steps_pp pp pp' c d l :
  (forall b, get_bytes "signature_key" d = Some b -> pp b = pp' b) ->
  run_steps ec pp c d l = run_steps ec pp' c d l.
Proof.
  intros H. induction l as [|s l IH]; [reflexivity|]. cbn [run_steps]. rewrite IH.
  f_equal. destruct s; try reflexivity. cbn [check_step]. unfold check_cert.
  rewrite (get_signature_key_ext pp pp' d H). reflexivity.
Qed.
Lemma new_key_pp pp pp' k h ps f cl :
  (forall b, get_bytes "signature_key" ps = Some b -> pp b = pp' b) ->
  new_key ec pp k h ps f cl = new_key ec pp' k h ps f cl.
Proof.
  intros H. unfold new_key, new_params.
  apply wbind_ext; intros _. apply wbind_ext; intros v. apply wbind_ext; intros c.
  rewrite (run_steps_pp pp pp' c ps _ H). reflexivity.
Qed.

Lemma wire_octets_len k v b : wire (TBytes k) v b -> exists u, v = VBytes u /\ length b = (k + length u)%nat.
Proof.
  intros W. inversion W; subst. eexists; split; [reflexivity|]. eapply prefixed_length; eassumption.
Qed.
Lemma record_get enc ts vs b k t v :
  NoDup (map fst ts) -> record_of enc ts vs b -> In (k, t) ts -> dget k vs = Some v ->
  exists b1 b2 b3, b = b1 ++ b2 ++ b3 /\ enc t v b2.
Proof.
  intros N R; induction R as [|k0 t0 ts v0 vs b bs W R IH]; intros Hin Hg; [contradiction|].
  cbn [map fst] in N. inversion N; subst. cbn [dget] in Hg.
  destruct (str_eqb_reflect k k0) as [->|Nk].
  - injection Hg as <-. destruct Hin as [E|Hin]; [injection E as <-; exists [], b, bs; auto|].
    exfalso. apply H1. apply in_map_iff. exists (k0, t). auto.
  - destruct Hin as [E|Hin]; [congruence|].
    destruct (IH H2 Hin Hg) as (b1 & b2 & b3 & -> & W').
    exists (b ++ b1), b2, b3. rewrite <- app_assoc. auto.
Qed.

(** The nested key is strictly shorter. *)
Lemma signature_key_type t pub priv :
  In (t, (pub, priv)) key_specs ->
  forall x, In (str "signature_key", x) pub -> x = TBytes 4.
Proof.
  intros H. each_spec H; injection H as <- <- <-; intros x Hin; simpl in Hin;
    repeat (destruct Hin as [Hin|Hin]; [try discriminate; injection Hin as <-; reflexivity|]); contradiction.
Qed.
Lemma parts_signature_shorter s s' h ps fo b :
  read_key_parts KPub s = (s', Ok (h, ps, fo)) -> get_bytes "signature_key" ps = Some b ->
  (length b < length (unread s))%nat.
Proof.
  intros R G. destruct (read_key_parts_sound _ _ _ _ _ _ R) as
    (t & pub & priv & ts & b0 & Hs & Hf & -> & Rr & Hk & Hfo & U & _).
  cbn [fields_of fst] in Hf. injection Hf as <-.
  unfold key_fields in Rr. cbn [footer_fields] in *. rewrite app_nil_r in Rr.
  destruct fo; [|discriminate]. rewrite app_nil_r in Rr. cbn [app] in Rr. inversion Rr; subst.
  unfold get_bytes in G. destruct (dget (str "signature_key") ps) as [[]|] eqn:E; try discriminate.
  injection G as ->. pose proof (dget_In _ _ _ E) as Hin.
  assert (exists x, In (str "signature_key", x) pub) as (x & Hx).
  { assert (In (str "signature_key") (dkeys ps)) as Hd by (apply in_map_iff; eexists; split; [|exact Hin]; reflexivity).
    rewrite <- Hk in Hd. apply in_map_iff in Hd as ((k1, x) & E1 & E2). cbn in E1. subst k1. eauto. }
  pose proof (signature_key_type _ _ _ Hs _ Hx) as ->.
  destruct (spec_public _ _ _ Hs) as (_ & _ & _ & N & _).
  match goal with H : record_of wire pub ps ?bb |- _ =>
    destruct (record_get _ _ _ _ _ _ _ N H Hx E) as (? & ? & ? & -> & W) end.
  destruct (wire_octets_len _ _ _ W) as (u & Eu & L). injection Eu as <-.
  rewrite U, !app_length. lia.
Qed.

Lemma key_from_bytes_with_ext pp pp' b cl :
  (forall b', (length b' < length b)%nat -> pp b' = pp' b') ->
  key_from_bytes_with ec pp KPub b cl = key_from_bytes_with ec pp' KPub b cl.
Proof.
  intros H. unfold key_from_bytes_with, key_from_stream.
  destruct (read_key_parts KPub (stream_of b)) as [s' [[[h ps] fo]|e]] eqn:E; [|reflexivity].
  rewrite (new_key_pp pp pp'); [reflexivity|].
  intros b' G. apply H. apply (parts_signature_shorter _ _ _ _ _ _ E) in G. exact G.
Qed.
Lemma parse_pub_fuel_enough n m b :
  (length b < n)%nat -> (length b < m)%nat -> parse_pub_fuel ec n b = parse_pub_fuel ec m b.
Proof.
  revert m b; induction n as [|n IH]; intros m b Hn Hm; [lia|]. destruct m as [|m]; [lia|].
  cbn [parse_pub_fuel]. apply key_from_bytes_with_ext. intros b' L. apply IH; lia.
Qed.
Lemma parse_pub_unfold b : parse_pub ec b = key_from_bytes_with ec (parse_pub ec) KPub b None.
Proof.
  unfold parse_pub at 1. cbn [parse_pub_fuel]. apply key_from_bytes_with_ext.
  intros b' L. unfold parse_pub. apply parse_pub_fuel_enough; lia.
Qed.
End Ec.

(** ** Constructors and parsers *)
Section Ec2.
Variable ec : curve -> bytes -> bool.

Lemma new_key_inv pp kd h ps fo cl l k :
  new_key ec pp kd h ps fo cl = (l, Ok k) ->
  exists kt c l1, dget (str "key_type") h = Some kt /\ params_class kd kt = Ok c /\
    k = mkkey kd h c ps fo (match cl with Some d => d | None => [] end) /\
    new_params ec pp c ps = (l1, Ok tt) /\
    l = fst (check_dict h (header_fmt kd)) ++ l1 ++ fst (check_dict fo (footer_fmt kd)).
Proof.
  unfold new_key, wseq. intros H.
  apply wbind_inv in H as (l0 & [] & l' & E0 & H & ->).
  apply wbind_inv in H as (l1 & kt & l2 & E1 & H & ->).
  apply wbind_inv in H as (l3 & c & l4 & E2 & H & ->).
  apply wbind_inv in H as (l5 & [] & l6 & E3 & H & ->).
  apply wbind_inv in H as (l7 & [] & l8 & E4 & H & ->).
  unfold wlift, ditem in E1, E2. destruct (dget (str "key_type") h) as [v|]; [|discriminate].
  injection E1 as <- <-. injection E2 as <- E2. injection H as <- <-.
  exists v, c, l5. rewrite E0, E4, app_nil_r. auto.
Qed.
Lemma new_key_intro pp kd h ps fo cl kt c l1 :
  dget (str "key_type") h = Some kt -> params_class kd kt = Ok c ->
  new_params ec pp c ps = (l1, Ok tt) ->
  new_key ec pp kd h ps fo cl =
  (fst (check_dict h (header_fmt kd)) ++ l1 ++ fst (check_dict fo (footer_fmt kd)),
   Ok (mkkey kd h c ps fo (match cl with Some d => d | None => [] end))).
Proof.
  intros H1 H2 H3. unfold new_key.
  pose proof (proj1 (check_dict_spec h _ _ (header_types kd))) as E0.
  pose proof (proj1 (check_dict_spec fo _ _ (footer_types kd))) as E2.
  destruct (check_dict h (header_fmt kd)) as [l0 r0]. cbn [snd] in E0. subst r0.
  destruct (check_dict fo (footer_fmt kd)) as [l2 r2]. cbn [snd] in E2. subst r2.
  unfold ditem. rewrite H1. unfold wseq, wlift. cbn [wbind]. rewrite H2. cbn [wbind]. rewrite H3.
  cbn [wbind wret app fst snd]. rewrite app_nil_r. reflexivity.
Qed.

Lemma key_from_stream_record pp kd cl t pub priv ts s ps fo b rest :
  In (t, (pub, priv)) key_specs -> fields_of kd (pub, priv) = Some ts ->
  record_of wire (key_fields kd ts) ([(str "key_type", VStr t)] ++ ps ++ fo) b ->
  length ps = length ts -> Z.of_nat (length b) <= ssize_max -> unread s = b ++ rest ->
  key_from_stream ec pp kd cl s = (adv (length b) s, new_key ec pp kd [(str "key_type", VStr t)] ps fo cl).
Proof.
  intros Hs Hf R Lp Lb U. unfold key_from_stream.
  rewrite (read_key_parts_complete kd t s ts [(str "key_type", VStr t)] ps fo b rest pub priv); auto.
Qed.

Definition with_remainder (r : bytes) (k : key) : key :=
  mkkey (k_kind k) (k_header k) (k_pcls k) (k_params k) (k_footer k)
        (dset (str "remainder") (VBytes r) (k_clear k)).

Lemma key_from_bytes_record kd cl t pub priv ts ps fo b rest :
  In (t, (pub, priv)) key_specs -> fields_of kd (pub, priv) = Some ts ->
  record_of wire (key_fields kd ts) ([(str "key_type", VStr t)] ++ ps ++ fo) b ->
  length ps = length ts -> Z.of_nat (length b) <= ssize_max ->
  key_from_bytes ec kd (b ++ rest) cl =
  do k <- new_key ec (parse_pub ec) kd [(str "key_type", VStr t)] ps fo cl;
  match rest with [] => wret k | _ => wwarn WExcess ;; wret (with_remainder rest k) end.
Proof.
  intros Hs Hf R Lp Lb. unfold key_from_bytes, key_from_bytes_with.
  rewrite (key_from_stream_record (parse_pub ec) kd cl t pub priv ts (stream_of (b ++ rest)) ps fo b rest); auto.
  rewrite unread_adv. change (unread (stream_of (b ++ rest))) with (b ++ rest).
  rewrite skipn_app_exact by reflexivity. destruct rest; reflexivity.
Qed.

Lemma key_from_stream_sound pp kd cl s s' l k :
  key_from_stream ec pp kd cl s = (s', (l, Ok k)) ->
  exists t pub priv ts ps fo b c,
    In (t, (pub, priv)) key_specs /\ fields_of kd (pub, priv) = Some ts /\
    record_of wire (key_fields kd ts) ([(str "key_type", VStr t)] ++ ps ++ fo) b /\
    map fst ts = dkeys ps /\ dkeys fo = map fst (footer_fields kd) /\
    params_class kd (VStr t) = Ok c /\
    unread s = b ++ unread s' /\ s' = adv (length b) s /\
    new_key ec pp kd [(str "key_type", VStr t)] ps fo cl = (l, Ok k) /\
    k = mkkey kd [(str "key_type", VStr t)] c ps fo (match cl with Some d => d | None => [] end).
Proof.
  unfold key_from_stream. destruct (read_key_parts kd s) as [s1 [[[h ps] fo]|e]] eqn:E; [|discriminate].
  intros K; injection K as <- K.
  destruct (read_key_parts_sound _ _ _ _ _ _ E) as (t & pub & priv & ts & b & Hs & Hf & -> & R & Hk & Hfo & U & Es).
  pose proof (new_key_inv _ _ _ _ _ _ _ _ K) as (kt & c & l1 & G & Hc & Ek & _).
  cbn [dget] in G. rewrite str_eqb_refl in G. injection G as <-.
  exists t, pub, priv, ts, ps, fo, b, c. auto 12.
Qed.

Lemma key_from_bytes_sound kd cl b0 l k :
  key_from_bytes ec kd b0 cl = (l, Ok k) ->
  exists t pub priv ts ps fo b rest c l1 k1,
    In (t, (pub, priv)) key_specs /\ fields_of kd (pub, priv) = Some ts /\
    record_of wire (key_fields kd ts) ([(str "key_type", VStr t)] ++ ps ++ fo) b /\
    map fst ts = dkeys ps /\ dkeys fo = map fst (footer_fields kd) /\
    params_class kd (VStr t) = Ok c /\ b0 = b ++ rest /\
    new_key ec (parse_pub ec) kd [(str "key_type", VStr t)] ps fo cl = (l1, Ok k1) /\
    k1 = mkkey kd [(str "key_type", VStr t)] c ps fo (match cl with Some d => d | None => [] end) /\
    match rest with
    | [] => l = l1 /\ k = k1
    | _ => l = l1 ++ [Warn WExcess] /\ k = with_remainder rest k1
    end.
Proof.
  unfold key_from_bytes, key_from_bytes_with.
  destruct (key_from_stream ec (parse_pub ec) kd cl (stream_of b0)) as [s' [l1 [k1|e]]] eqn:E; [|discriminate].
  destruct (key_from_stream_sound _ _ _ _ _ _ _ E) as
    (t & pub & priv & ts & ps & fo & b & c & Hs & Hf & R & Hk & Hfo & Hc & U & Es & Nk & Ek).
  rewrite wbind_ok. intros K.
  exists t, pub, priv, ts, ps, fo, b, (unread s'), c, l1, k1.
  assert (b0 = b ++ unread s') as Eb by (rewrite <- U; reflexivity).
  do 9 (split; [assumption|]).
  destruct (unread s') as [|x r].
  - cbn [fst snd wret] in K. rewrite app_nil_r in K. injection K as <- <-. auto.
  - unfold wwarn in K. rewrite wseq_ok in K.
    cbn [fst snd wret app] in K. injection K as <- <-. auto.
Qed.
End Ec2.

(** ** Layout of packed keys *)
Lemma blobs_none ts vals : (forall k n, ~ In (k, TBlob n) ts) -> blobs_exact ts vals.
Proof. intros H k n b Hin. exfalso. eapply H; eassumption. Qed.
Lemma spec_no_blobs t pub priv : In (t, (pub, priv)) key_specs ->
  (forall k n, ~ In (k, TBlob n) pub) /\
  match priv with Some p => forall k n, ~ In (k, TBlob n) p | None => True end.
Proof.
  assert (forall l : list (pystr * ftype),
            forallb (fun kt => match snd kt with TBlob _ => false | _ => true end) l = true ->
            forall k n, ~ In (k, TBlob n) l) as A.
  { intros l Hl k n Hin. rewrite forallb_forall in Hl. apply Hl in Hin. discriminate. }
  intros H. each_spec H; injection H as <- <- <-;
    (split; [apply A; vm_compute; reflexivity|]); first [exact I | apply A; vm_compute; reflexivity].
Qed.
Lemma nodup_one {A} (x : A) : NoDup [x].
Proof. repeat constructor. intros []. Qed.
Lemma blobs_type h : blobs_exact [type_field] h.
Proof. apply blobs_none. intros k n [K|K]; [discriminate|contradiction]. Qed.
Lemma blobs_comment h : blobs_exact [comment_field] h.
Proof. apply blobs_none. intros k n [K|K]; [discriminate|contradiction]. Qed.
Lemma pack_header kd h t b :
  dget (str "key_type") h = Some (VStr t) -> dict_bytes (header_fmt kd) h = Ok b ->
  canonical (TText 4) (VStr t) b.
Proof.
  intros G D.
  destruct (dict_bytes_canonical _ _ _ _ (header_types kd) (blobs_type h) (nodup_one _) D)
    as (vs & (K1 & K2) & R).
  apply record_one_inv in R as (v & -> & C).
  specialize (K2 (str "key_type") ltac:(left; reflexivity)). cbn [dget] in K2. rewrite str_eqb_refl, G in K2.
  injection K2 as ->. exact C.
Qed.
Lemma public_class_of t pub priv k :
  In (t, (pub, priv)) key_specs -> is_key t k ->
  get_public_class (VStr t) = Ok (first_public_class (k_pcls k)).
Proof.
  intros Hs (_ & Hc). destruct (k_kind k) eqn:Ek.
  - destruct (spec_public _ _ _ Hs) as (c & A & _ & _ & D). cbn [params_class] in Hc.
    assert (c = k_pcls k) by congruence. subst c. congruence.
  - cbn [params_class] in Hc. destruct priv as [priv|].
    + destruct (spec_private _ _ _ Hs) as (c & A & _ & _ & D). congruence.
    + rewrite (spec_cert_no_private _ _ Hs) in Hc. discriminate.
Qed.
Lemma pack_public_layout t pub priv k b :
  In (t, (pub, priv)) key_specs -> is_key t k -> pack_public_bytes k = Ok b ->
  exists vs, restricts (map fst pub) (k_params k) vs /\
    record_of canonical (type_field :: pub) ((str "key_type", VStr t) :: vs) b.
Proof.
  intros Hs Hk E. rewrite pack_public_eq in E.
  apply rbind_ok in E as (b1 & E1 & E). apply rbind_ok in E as (b2 & E2 & E). injection E as <-.
  pose proof (public_class_of _ _ _ _ Hs Hk) as Hc.
  destruct (spec_public _ _ _ Hs) as (c & A & F & N & _).
  assert (c = first_public_class (k_pcls k)) as -> by congruence.
  rewrite <- (format_keys _ _ F) in N |- *.
  destruct (dict_bytes_canonical _ _ _ _ F (blobs_none _ _ (proj1 (spec_no_blobs _ _ _ Hs))) N E2) as (vs & Rs & R).
  exists vs. split; [assumption|]. constructor; [|assumption].
  eapply pack_header; [|exact E1]. apply Hk.
Qed.
Lemma pack_private_layout t pub priv k b :
  In (t, (pub, Some priv)) key_specs -> is_key t k -> k_kind k = KPriv -> pack_private_bytes k = Ok b ->
  exists vs co, restricts (map fst priv) (k_params k) vs /\ dget (str "comment") (k_footer k) = Some co /\
    record_of canonical (type_field :: priv ++ [comment_field])
      ((str "key_type", VStr t) :: vs ++ [(str "comment", co)]) b.
Proof.
  intros Hs (Hk1 & Hk2) Ek E. rewrite pack_private_eq in E.
  apply rbind_ok in E as (b1 & E1 & E). apply rbind_ok in E as (b2 & E2 & E).
  apply rbind_ok in E as (b3 & E3 & E). injection E as <-.
  rewrite Ek in Hk2. cbn [params_class] in Hk2.
  destruct (spec_private _ _ _ Hs) as (c & A & F & N & _).
  assert (c = k_pcls k) as -> by congruence.
  rewrite <- (format_keys _ _ F) in N |- *.
  destruct (dict_bytes_canonical _ _ _ _ F (blobs_none _ _ (proj2 (spec_no_blobs _ _ _ Hs))) N E2) as (vs & Rs & R).
  destruct (dict_bytes_canonical _ _ _ _ (footer_types KPriv) (blobs_comment (k_footer k)) (nodup_one _) E3)
    as (vf & (K1 & K2) & Rf).
  apply record_one_inv in Rf as (co & -> & C).
  specialize (K2 (str "comment") ltac:(left; reflexivity)). cbn [dget] in K2. rewrite str_eqb_refl in K2.
  exists vs, co. split; [assumption|]. split; [symmetry; exact K2|].
  constructor; [eapply pack_header; eassumption|].
  apply record_app; [assumption|]. apply record_one. exact C.
Qed.

(** Constructed and parsed keys have a type. *)
Lemma new_key_is_key ec pp kd h ps fo cl l k :
  new_key ec pp kd h ps fo cl = (l, Ok k) -> exists t pub priv, In (t, (pub, priv)) key_specs /\ is_key t k.
Proof.
  intros H. apply new_key_inv in H as (kt & c & l1 & G & Hc & -> & _).
  destruct (known_type _ _ _ Hc) as (t & pub & priv & -> & Hs).
  exists t, pub, priv. split; [assumption|]. split; assumption.
Qed.
Lemma restricts_ext ks vals vs : restricts ks vals vs -> forall x, In x ks -> dget x vals = dget x vs.
Proof. intros (_ & H) x Hx. symmetry. auto. Qed.
Lemma restricts_length ks vals vs : restricts ks vals vs -> length vs = length ks.
Proof. intros (<- & _). unfold dkeys. rewrite map_length. reflexivity. Qed.

(** ** When packing succeeds *)
Lemma dict_bytes_no_gap f ts vals b :
  format_types f ts -> dict_bytes f vals = Ok b -> no_gap ts vals.
Proof.
  intros F; revert b; induction F as [|(k, i) (k', t) f ts (Hk & Ht) F IH]; intros b D x n z Hin Hg; [contradiction|].
  cbn [fst snd] in *. subst k'. cbn [dict_bytes] in D.
  apply rbind_ok in D as (v & Ev & D). apply rbind_ok in D as (b1 & E1 & D).
  apply rbind_ok in D as (b2 & E2 & D).
  destruct Hin as [E|Hin]; [|eapply IH; eassumption]. injection E as -> ->.
  unfold ditem in Ev. rewrite Hg in Ev. injection Ev as <-. intros G. apply write_mpint_gap in G.
  inversion Ht; subst; cbn [instr_bytes] in E1; unfold write_pascal in E1; rewrite G in E1; discriminate.
Qed.
Lemma nodup_in_type (ts : list (pystr * ftype)) x t t' :
  NoDup (map fst ts) -> In (x, t) ts -> In (x, t') ts -> t = t'.
Proof.
  induction ts as [|(y, u) ts IH]; cbn [map fst]; intros N H H'; [contradiction|]. inversion N; subst.
  destruct H as [E|H], H' as [E'|H'].
  - congruence.
  - injection E as -> ->. exfalso. apply H2. apply in_map_iff. exists (x, t'). auto.
  - injection E' as -> ->. exfalso. apply H2. apply in_map_iff. exists (x, t). auto.
  - auto.
Qed.
Lemma canonical_dict_ok f ts vals vs b :
  format_types f ts -> NoDup (map fst ts) -> restricts (map fst ts) vals vs ->
  record_of canonical ts vs b -> no_gap ts vs -> Z.of_nat (length b) <= ssize_max ->
  dict_bytes f vals = Ok b.
Proof.
  intros F N Rs R G L. eapply canonical_dict_bytes; try eassumption.
  - eapply restricts_In; eassumption.
  - intros k v t Hv Ht. destruct t; cbn [writable]; auto. destruct v; auto.
    eapply G; [exact Ht|]. apply In_dget; [|exact Hv]. destruct Rs as (-> & _). exact N.
Qed.
Lemma no_gap_restricts ts vals vs : restricts (map fst ts) vals vs -> no_gap ts vals <-> no_gap ts vs.
Proof.
  intros (_ & R). split; intros H x k z Hin Hg; eapply H; try exact Hin.
  - rewrite <- R; [exact Hg|]. apply in_map_iff. exists (x, TMpint k). auto.
  - rewrite R; [exact Hg|]. apply in_map_iff. exists (x, TMpint k). auto.
Qed.
Lemma canonical_header kd h t b :
  dget (str "key_type") h = Some (VStr t) -> canonical (TText 4) (VStr t) b -> Z.of_nat (length b) <= ssize_max ->
  dict_bytes (header_fmt kd) h = Ok b.
Proof.
  intros G C L. apply (canonical_dict_ok _ _ h [(str "key_type", VStr t)] _ (header_types kd)); auto.
  - apply nodup_one.
  - split; [reflexivity|]. intros k [<-|[]]. cbn [dget]. rewrite str_eqb_refl. symmetry. exact G.
  - apply record_one. exact C.
  - intros x k z [E|[]]. discriminate.
Qed.
Lemma pack_public_intro t pub priv k vs b :
  In (t, (pub, priv)) key_specs -> is_key t k -> restricts (map fst pub) (k_params k) vs ->
  record_of canonical (type_field :: pub) ((str "key_type", VStr t) :: vs) b -> no_gap pub vs ->
  Z.of_nat (length b) <= ssize_max -> pack_public_bytes k = Ok b.
Proof.
  intros Hs Hk Rs R G L. rewrite pack_public_eq. inversion R; subst. rewrite app_length in L.
  rewrite (canonical_header KPub _ t b0); [|apply Hk|assumption|lia]. cbn [rbind].
  pose proof (public_class_of _ _ _ _ Hs Hk) as Hc.
  destruct (spec_public _ _ _ Hs) as (c & A & F & N & _).
  assert (c = first_public_class (k_pcls k)) as <- by congruence.
  rewrite (canonical_dict_ok _ _ (k_params k) vs bs F N Rs); auto; lia.
Qed.
Lemma pack_public_no_gap t pub priv k b :
  In (t, (pub, priv)) key_specs -> is_key t k -> pack_public_bytes k = Ok b -> no_gap pub (k_params k).
Proof.
  intros Hs Hk E. rewrite pack_public_eq in E.
  apply rbind_ok in E as (b1 & E1 & E). apply rbind_ok in E as (b2 & E2 & E).
  pose proof (public_class_of _ _ _ _ Hs Hk) as Hc.
  destruct (spec_public _ _ _ Hs) as (c & A & F & N & _).
  assert (c = first_public_class (k_pcls k)) as -> by congruence.
  eapply dict_bytes_no_gap; eassumption.
Qed.
Lemma pack_private_intro t pub priv k vs co b :
  In (t, (pub, Some priv)) key_specs -> is_key t k -> k_kind k = KPriv ->
  restricts (map fst priv) (k_params k) vs -> dget (str "comment") (k_footer k) = Some co ->
  record_of canonical (type_field :: priv ++ [comment_field])
      ((str "key_type", VStr t) :: vs ++ [(str "comment", co)]) b -> no_gap priv vs ->
  Z.of_nat (length b) <= ssize_max -> pack_private_bytes k = Ok b.
Proof.
  intros Hs (Hk1 & Hk2) Ek Rs Gc R G L. rewrite pack_private_eq. inversion R; subst. rewrite app_length in L.
  match goal with H : record_of canonical (priv ++ _) _ bs |- _ => apply record_app_inv in H as (v1 & v2 & b1 & b2 & Ev & -> & R1 & R2) end.
  apply record_one_inv in R2 as (co' & -> & C).
  apply app_inj_tail in Ev as (<- & Ev). injection Ev as <-. rewrite app_length in L.
  rewrite (canonical_header KPriv _ t b0); [|assumption|assumption|lia]. cbn [rbind].
  rewrite Ek in Hk2. cbn [params_class] in Hk2.
  destruct (spec_private _ _ _ Hs) as (c & A & F & N & _).
  assert (c = k_pcls k) as -> by congruence.
  rewrite (canonical_dict_ok _ _ (k_params k) vs b1 F N Rs); auto; [|lia]. cbn [rbind].
  rewrite (canonical_dict_ok _ _ (k_footer k) [(str "comment", co)] b2 (footer_types KPriv)); auto.
  - apply nodup_one.
  - split; [reflexivity|]. intros x [<-|[]]. cbn [dget]. rewrite str_eqb_refl. symmetry. exact Gc.
  - apply record_one. exact C.
  - intros x j z [E|[]]. discriminate.
  - lia.
Qed.
Lemma pack_private_no_gap t pub priv k b :
  In (t, (pub, Some priv)) key_specs -> is_key t k -> k_kind k = KPriv ->
  pack_private_bytes k = Ok b -> no_gap priv (k_params k).
Proof.
  intros Hs (Hk1 & Hk2) Ek E. rewrite pack_private_eq in E.
  apply rbind_ok in E as (b1 & E1 & E). apply rbind_ok in E as (b2 & E2 & E).
  rewrite Ek in Hk2. cbn [params_class] in Hk2.
  destruct (spec_private _ _ _ Hs) as (c & A & F & N & _).
  assert (c = k_pcls k) as -> by congruence.
  eapply dict_bytes_no_gap; eassumption.
Qed.

(** ** Warnings of plain keys never say that bytes were left over *)
Section Ec3.
Variable ec : curve -> bytes -> bool.
Definition no_excess {A} (x : W A) : Prop := ~ In (Warn WExcess) (fst x).
Lemma no_excess_seq {B} (x : W unit) (y : W B) : no_excess x -> no_excess y -> no_excess (wseq x y).
Proof.
  unfold no_excess, wseq. destruct x as [l [[]|e]]; cbn [wbind fst]; [|auto].
  destruct y as [l' r]. cbn [fst]. intros H H' K. apply in_app_or in K as [K|K]; auto.
Qed.
Lemma no_excess_when b w : w <> WExcess -> no_excess (wwhen b (wwarn w)).
Proof. intros N. destruct b; [|intros []]. intros [K|[]]. congruence. Qed.
Lemma no_excess_ret {A} (a : A) : no_excess (wret a).
Proof. intros []. Qed.
Lemma no_excess_check_dict d f : no_excess (check_dict d f).
Proof.
  induction f as [|(k, i) f IH]; [apply no_excess_ret|]. cbn [check_dict].
  apply no_excess_seq; [|exact IH]. unfold check_field.
  destruct (dget k d) as [v|]; [|intros [K|[]]; discriminate].
  destruct i; [destruct (struct_pack _ _) as [u|[]] | destruct (is_instance _ _) | destruct (is_instance _ _) |];
    intros K; cbn [fst wret wwarn werr In] in K; repeat (destruct K as [K|K]; [discriminate|]); contradiction.
Qed.
Lemma run_steps_no_excess pp c d l : ~ In StCert l -> no_excess (run_steps ec pp c d l).
Proof.
  induction l as [|s l IH]; intros N; [apply no_excess_ret|]. cbn [run_steps].
  apply no_excess_seq; [|apply IH; intros K; apply N; right; exact K].
  destruct s; cbn [check_step].
  - apply no_excess_check_dict.
  - unfold check_ecdsa. destruct (dget _ d); [|apply no_excess_ret].
    apply no_excess_seq; [apply no_excess_when; discriminate|].
    destruct (get_bytes "q" d); [apply no_excess_when; discriminate|apply no_excess_ret].
  - unfold check_ed_pub. destruct (get_bytes "public" d); [apply no_excess_when; discriminate|apply no_excess_ret].
  - unfold check_ed_priv. destruct (get_bytes "private_public" d); [|apply no_excess_ret].
    destruct (get_bytes "public" d); [|apply no_excess_ret].
    apply no_excess_seq; apply no_excess_when; discriminate.
  - exfalso. apply N. left; reflexivity.
Qed.
Lemma new_key_plain_no_excess pp kd t pub priv h ps fo cl :
  In (t, (pub, Some priv)) key_specs -> dget (str "key_type") h = Some (VStr t) ->
  exists l k, new_key ec pp kd h ps fo cl = (l, Ok k) /\ ~ In (Warn WExcess) l.
Proof.
  intros Hs G.
  assert (exists c, params_class kd (VStr t) = Ok c) as (c & Hc).
  { destruct (plain_fields kd pub priv) as (ts & Hf).
    destruct (spec_class _ _ _ _ _ Hs Hf) as (c & Hc & _). eauto. }
  pose proof (new_params_plain_ok ec _ _ _ kd c pp ps Hs Hc) as E.
  assert (no_excess (new_params ec pp c ps)) as X
    by (apply run_steps_no_excess; exact (plain_no_cert _ _ _ _ _ Hs Hc)).
  destruct (new_params ec pp c ps) as [l1 r] eqn:E1. cbn [snd] in E. subst r.
  assert (~ In (Warn WExcess) l1) as X1 by exact X. clear X.
  rewrite (new_key_intro ec pp kd h ps fo cl (VStr t) c l1 G Hc E1).
  do 2 eexists. split; [reflexivity|]. intros K.
  apply in_app_or in K as [K|K]; [exact (no_excess_check_dict _ _ K)|].
  apply in_app_or in K as [K|K]; [exact (X1 K)|exact (no_excess_check_dict _ _ K)].
Qed.
End Ec3.
