(** Properties of the checks made when keys are constructed: ECDSA parameters (C61) and
    missing or ill-typed fields of keys (C62). *)
From Verif Require Import PyBase IntBytes Utf8 StructFmt Stream Text Classes Key SpecWire SpecKey.
From Verif Require Import ProofBase ProofInt ProofUtf8 ProofWire ProofRecord ProofKey ProofErr ProofCert Props_Key.
Open Scope Z_scope.

(** The key types on an elliptic curve: curve name in the key (RFC 5656 section 6.1) and curve. *)
Definition ecdsa_types : list (pystr * (pystr * curve)) :=
  [(str "ecdsa-sha2-nistp256", (str "nistp256", P256));
   (str "ecdsa-sha2-nistp384", (str "nistp384", P384));
   (str "ecdsa-sha2-nistp521", (str "nistp521", P521));
   (str "sk-ecdsa-sha2-nistp256@openssh.com", (str "nistp256", P256))].
Definition ecdsa_cert_types : list (pystr * (pystr * curve)) :=
  [(str "ecdsa-sha2-nistp256-cert-v01@openssh.com", (str "nistp256", P256));
   (str "ecdsa-sha2-nistp384-cert-v01@openssh.com", (str "nistp384", P384));
   (str "ecdsa-sha2-nistp521-cert-v01@openssh.com", (str "nistp521", P521));
   (str "sk-ecdsa-sha2-nistp256-cert-v01@openssh.com", (str "nistp256", P256))].

Section Ec.
Variable ec : curve -> bytes -> bool.

(** The log of a sequence of checks is made of the logs of the checks. *)
Lemma run_steps_in pp c d l ll : run_steps ec pp c d l = (ll, Ok tt) ->
  forall ev, In ev ll <-> exists s, In s l /\ In ev (fst (check_step ec pp c d s)).
Proof.
  revert ll; induction l as [|s l IH]; intros ll H ev; cbn [run_steps] in H.
  - injection H as <-. cbn [In]. split; [intros []|intros (s & [] & _)].
  - unfold wseq in H. apply wbind_inv in H as (l1 & [] & l2 & E1 & E2 & ->).
    rewrite in_app_iff, (IH _ E2). split.
    + intros [K|(s' & A & B)]; [exists s; rewrite E1; cbn; auto|exists s'; cbn; auto].
    + intros (s' & [<-|A] & B); [left; rewrite E1 in B; exact B|right; eauto].
Qed.
Lemma format_log c d ts ev : format_types (format_of c) ts -> In ev (fst (check_dict d (format_of c))) ->
  exists x, In x (map fst ts) /\
    ((ev = Warn (WMissing x) /\ dget x d = None) \/
     (exists v t w, In (x, t) ts /\ dget x d = Some v /\ ~ conforms t v /\
        ev = Warn w /\ wrong_type_warning x t w)).
Proof.
  intros F. destruct (check_dict_warnings d _ _ F) as (ws & -> & R). cbn [fst]. clear F.
  induction R as [|k t ts v ws G C R IH|k t ts ws G R IH|k t ts v w ws G C M R IH]; cbn [map In].
  - intros [].
  - intros K. destruct (IH K) as (x & A & B). exists x. split; [right; exact A|].
    destruct B as [B|(v' & t' & w' & B1 & B2)]; [left; exact B|right; exists v', t', w'; split; [right; exact B1|exact B2]].
  - intros [<-|K].
    + exists k. split; [left; reflexivity|left; auto].
    + destruct (IH K) as (x & A & B). exists x. split; [right; exact A|].
      destruct B as [B|(v' & t' & w' & B1 & B2)]; [left; exact B|right; exists v', t', w'; split; [right; exact B1|exact B2]].
  - intros [<-|K].
    + exists k. split; [left; reflexivity|right]. exists v, t, w. split; [left; reflexivity|]. auto.
    + destruct (IH K) as (x & A & B). exists x. split; [right; exact A|].
      destruct B as [B|(v' & t' & w' & B1 & B2)]; [left; exact B|right; exists v', t', w'; split; [right; exact B1|exact B2]].
Qed.

Lemma new_params_steps pp c d : new_params ec pp c d = run_steps ec pp c d (check_plan c).
Proof. unfold new_params. generalize (check_plan c). reflexivity. Qed.
(** The parts of a field-format log that matter for one field. *)
Lemma format_log_complete c d ts x t : format_types (format_of c) ts -> In (x, t) ts ->
  (dget x d = None -> In (Warn (WMissing x)) (fst (check_dict d (format_of c)))) /\
  (forall v, dget x d = Some v -> ~ conforms t v -> exists w, In (Warn w) (fst (check_dict d (format_of c))) /\ wrong_type_warning x t w).
Proof.
  intros F. destruct (check_dict_warnings d _ _ F) as (ws & -> & R). cbn [fst]. clear F.
  induction R as [|k t' ts v ws G C R IH|k t' ts ws G R IH|k t' ts v w ws G C M R IH]; cbn [map In].
  - intros [].
  - intros [K|K]; [injection K as -> ->; split; [congruence|intros v' G'; congruence]|apply IH; exact K].
  - intros [K|K].
    + injection K as -> ->. split; [auto|intros v' G'; congruence].
    + destruct (IH K) as (A & B). split; [intros G'; right; auto|].
      intros v' G' C'. destruct (B v' G' C') as (w & B1 & B2). exists w. auto.
  - intros [K|K].
    + injection K as -> ->. split; [congruence|]. intros v' G' _. exists w. auto.
    + destruct (IH K) as (A & B). split; [intros G'; right; auto|].
      intros v' G' C'. destruct (B v' G' C') as (w' & B1 & B2). exists w'. auto.
Qed.

(** ** C61 *)
Lemma ecdsa_step_log pp c d v q : dget (str "identifier") d = Some v -> dget (str "q") d = Some (VBytes q) ->
  forall ev, In ev (fst (check_step ec pp c d StECDSA)) <->
    (ev = Warn WCurve /\ v <> VStr (class_curve_identifier c)) \/
    (ev = Warn WPoint /\ match curve_of c with Some k => ec k q | None => false end = false).
Proof.
  intros Gi Gq ev. cbn [check_step]. unfold check_ecdsa, get_bytes. rewrite Gi, Gq.
  destruct (val_eqb_reflect (VStr (class_curve_identifier c)) v) as [E|E];
    destruct (match curve_of c with Some k => ec k q | None => false end); cbn; intuition congruence.
Qed.
Definition curve_warning (e : event) : bool :=
  match e with Warn WCurve | Warn WPoint => true | _ => false end.
Lemma other_step_log pp c d ts s ev : format_types (format_of c) ts -> s <> StECDSA -> s <> StCert ->
  In ev (fst (check_step ec pp c d s)) -> curve_warning ev = false.
Proof.
  intros F N1 N2. destruct s; try congruence; cbn [check_step].
  - intros K. destruct (format_log c d ts ev F K) as (x & _ & [(-> & _)|(v & t & w & _ & _ & _ & -> & [])]); reflexivity.
  - unfold check_ed_pub. destruct (get_bytes "public" d); [|intros []].
    destruct (negb _); cbn; [intros [<-|[]]; reflexivity|intros []].
  - unfold check_ed_priv. destruct (get_bytes "private_public" d); [|intros []]. destruct (get_bytes "public" d); [|intros []].
    destruct (negb _), (negb _); cbn; intuition (subst; reflexivity).
Qed.
Lemma ecdsa_class kd t cid cv c : In (t, (cid, cv)) (ecdsa_types ++ ecdsa_cert_types) -> params_class kd (VStr t) = Ok c ->
  class_curve_identifier c = cid /\ curve_of c = Some cv /\ In StECDSA (check_plan c) /\
  (In (t, (cid, cv)) ecdsa_types -> ~ In StCert (check_plan c)).
Proof.
  intros H Hc.
  assert (class_curve_identifier c = cid /\ curve_of c = Some cv /\
    existsb (fun s => match s with StECDSA => true | _ => false end) (check_plan c) = true /\
    (existsb (fun s => match s with StCert => true | _ => false end) (check_plan c) = true -> ~ In (t, (cid, cv)) ecdsa_types)) as (A & B & C & D).
  { unfold ecdsa_types, ecdsa_cert_types in H. cbn [app In] in H.
    repeat (destruct H as [H|H];
      [injection H as <- <- <-; destruct kd; vm_compute in Hc; try discriminate; injection Hc as <-;
       (split; [vm_compute; reflexivity|]; split; [vm_compute; reflexivity|]; split; [vm_compute; reflexivity|]);
       (intros K; vm_compute in K; try discriminate; clear; unfold ecdsa_types; cbn [In]; intros K;
        repeat (destruct K as [K|K]; [vm_compute in K; congruence|]); exact K)|]).
    contradiction. }
  split; [exact A|]. split; [exact B|]. split.
  - apply existsb_exists in C as (s & I & K). destruct s; (discriminate || exact I).
  - intros I J. apply D; [|exact I]. apply existsb_exists. exists StCert. auto.
Qed.
(** Constructing the parameters of a key on curve [cv] (not a certificate) warns about the curve
    name exactly if it is another one, and about the point exactly if it does not decode. *)
Theorem C61_curve_and_point kd t cid cv c pp d v q :
  In (t, (cid, cv)) ecdsa_types -> params_class kd (VStr t) = Ok c ->
  dget (str "identifier") d = Some v -> dget (str "q") d = Some (VBytes q) ->
  exists l, new_params ec pp c d = (l, Ok tt) /\
    (In (Warn WCurve) l <-> v <> VStr cid) /\
    (In (Warn WPoint) l <-> ec cv q = false).
Proof.
  intros Ht Hc Gi Gq.
  destruct (ecdsa_class kd t cid cv c (in_or_app _ _ _ (or_introl Ht)) Hc) as (Ei & Ec & Hin & Hno). specialize (Hno Ht).
  destruct (spec_of_class kd _ _ Hc) as (ts & F & _).
  rewrite new_params_steps. pose proof (run_steps_no_raise ec pp c d (check_plan c) ts F Hno) as Hok.
  revert Hin Hno Hok. generalize (check_plan c). intros plan Hin Hno Hok.
  destruct (run_steps ec pp c d plan) as [l r] eqn:E. cbn [snd] in Hok. subst r.
  exists l. split; [reflexivity|].
  assert (forall ev, curve_warning ev = true -> In ev l <-> In ev (fst (check_step ec pp c d StECDSA))) as K.
  { intros ev He. rewrite (run_steps_in _ _ _ _ _ E). split; [|eauto].
    intros (s & I & J).
    assert (s = StECDSA \/ s <> StECDSA) as [->|N] by (destruct s; (left; reflexivity) || (right; discriminate)); [exact J|].
    rewrite (other_step_log pp c d ts s ev F N) in He; [discriminate| |exact J]. intros ->. exact (Hno I). }
  rewrite (K (Warn WCurve) eq_refl), (K (Warn WPoint) eq_refl), !(ecdsa_step_log pp c d v q Gi Gq), Ei, Ec.
  split; intuition congruence.
Qed.
(** The same warnings are given for certificates; what the signature key's own parameters add
    is not excluded here. *)
Theorem C61_certificates_are_checked t cid cv c pp d v q l :
  In (t, (cid, cv)) ecdsa_cert_types -> params_class KPub (VStr t) = Ok c ->
  dget (str "identifier") d = Some v -> dget (str "q") d = Some (VBytes q) ->
  new_params ec pp c d = (l, Ok tt) ->
  (v <> VStr cid -> In (Warn WCurve) l) /\ (ec cv q = false -> In (Warn WPoint) l).
Proof.
  intros Ht Hc Gi Gq E.
  destruct (ecdsa_class KPub t cid cv c (in_or_app _ _ _ (or_intror Ht)) Hc) as (Ei & Ec & Hin & _).
  rewrite new_params_steps in E. pose proof (run_steps_in pp c d (check_plan c) l E) as R.
  pose proof (ecdsa_step_log pp c d v q Gi Gq) as S. rewrite Ei, Ec in S.
  split; intros K; (apply R; exists StECDSA; split; [exact Hin|]); apply S; [left|right]; (split; [reflexivity|exact K]).
Qed.

(** ** C62 *)
Lemma plan_has_format kd t c : params_class kd (VStr t) = Ok c -> In StFormat (check_plan c).
Proof.
  intros Hc. destruct (known_type _ _ _ Hc) as (t' & pub & priv & Et & Hs). injection Et as <-.
  assert (existsb (fun s => match s with StFormat => true | _ => false end) (check_plan c) = true) as A.
  { each_spec Hs; injection Hs as <- <- <-; destruct kd; vm_compute in Hc; try discriminate; injection Hc as <-; vm_compute; reflexivity. }
  apply existsb_exists in A as (s & I & K). destruct s; (discriminate || exact I).
Qed.
(** A warning that a field is missing or has a value of the wrong type. *)
Definition field_warning (e : event) : bool :=
  match e with Warn (WMissing _) | Warn (WFormatted _ _) | Warn (WClass _ _) => true | _ => false end.
Lemma other_step_fields pp c d s ev : s <> StFormat -> s <> StCert ->
  In ev (fst (check_step ec pp c d s)) -> field_warning ev = false.
Proof.
  intros N1 N2. destruct s; try congruence; cbn [check_step].
  - unfold check_ecdsa. destruct (dget (str "identifier") d) as [i|]; [|intros []]. destruct (get_bytes "q" d);
      destruct (negb (val_eqb _ _)); cbn; try destruct (negb _); cbn; intuition (subst; reflexivity).
  - unfold check_ed_pub. destruct (get_bytes "public" d); [|intros []].
    destruct (negb _); cbn; [intros [<-|[]]; reflexivity|intros []].
  - unfold check_ed_priv. destruct (get_bytes "private_public" d); [|intros []]. destruct (get_bytes "public" d); [|intros []].
    destruct (negb _), (negb _); cbn; intuition (subst; reflexivity).
Qed.
(** Constructing a key: the warnings are those about the parameters, then those about the
    footer. Each missing or wrong parameter is reported; for keys that are not certificates, no
    other parameter is. *)
Theorem C62_construction_reports kd h ps fo cl l k t pub priv ts :
  new_key ec (parse_pub ec) kd h ps fo cl = (l, Ok k) -> is_key t k ->
  In (t, (pub, priv)) key_specs -> fields_of kd (pub, priv) = Some ts ->
  exists lp ws, l = lp ++ map Warn ws /\ warnings_for fo (footer_fields kd) ws /\
    (forall x ty, In (x, ty) ts ->
       (dget x ps = None -> In (Warn (WMissing x)) lp) /\
       (forall v, dget x ps = Some v -> ~ conforms ty v -> exists w, In (Warn w) lp /\ wrong_type_warning x ty w)) /\
    (In t (map fst plain_specs) ->
       forall ev, In ev lp -> field_warning ev = true ->
         exists x ty, In (x, ty) ts /\
           ((ev = Warn (WMissing x) /\ dget x ps = None) \/
            (exists v w, ev = Warn w /\ dget x ps = Some v /\ ~ conforms ty v /\ wrong_type_warning x ty w))).
Proof.
  intros H Hk Hs Hf.
  destruct (new_key_inv _ _ _ _ _ _ _ _ _ H) as (kt & c & lp & G & Hc & Ek & Hp & ->).
  assert (kt = VStr t) as -> by (destruct Hk as (K & _); rewrite Ek in K; cbn [k_header] in K; congruence).
  destruct (spec_class _ _ _ _ _ Hs Hf) as (c' & Hc' & F & _). assert (c' = c) as -> by congruence.
  assert (fst (check_dict h (header_fmt kd)) = []) as ->.
  { unfold header_fmt, fld. cbn [check_dict]. unfold check_field. rewrite G. reflexivity. }
  assert (exists ws, check_dict fo (footer_fmt kd) = (map Warn ws, Ok tt) /\ warnings_for fo (footer_fields kd) ws) as (ws & Ew & Rw).
  { apply check_dict_warnings. destruct kd; repeat constructor. }
  rewrite Ew. cbn [fst app]. exists lp, ws. split; [reflexivity|]. split; [exact Rw|].
  pose proof (plan_has_format _ _ _ Hc) as Hfmt. rewrite new_params_steps in Hp. split.
  - intros x ty I. destruct (format_log_complete c ps ts x ty F I) as (A & B).
    revert Hp Hfmt. generalize (check_plan c). intros plan Hp Hfmt. split.
    + intros N. apply (run_steps_in _ _ _ _ _ Hp). exists StFormat. split; [exact Hfmt|exact (A N)].
    + intros v Gv Cv. destruct (B v Gv Cv) as (w & B1 & B2). exists w. split; [|exact B2].
      apply (run_steps_in _ _ _ _ _ Hp). exists StFormat. split; [exact Hfmt|exact B1].
  - intros Hplain ev Hev Hw.
    assert (~ In StCert (check_plan c)) as Hno.
    { apply in_map_iff in Hplain as ((t' & (pub' & priv')) & <- & I). cbn [fst] in *.
      refine (plain_no_cert t' pub' priv' kd c _ Hc).
      unfold key_specs. apply in_or_app. left. apply in_map_iff. exists (t', (pub', priv')). auto. }
    revert Hp Hno. generalize (check_plan c). intros plan Hp Hno.
    apply (run_steps_in _ _ _ _ _ Hp) in Hev as (s & I & J).
    assert (s = StFormat \/ s <> StFormat) as [->|N] by (destruct s; (left; reflexivity) || (right; discriminate)).
    + destruct (format_log c ps ts ev F J) as (x & Hx & [(-> & Gx)|(v & ty & w & It & Gx & Cx & -> & M)]).
      * apply in_map_iff in Hx as ((x' & ty) & <- & It). exists x', ty. auto.
      * exists x, ty. split; [exact It|]. right. exists v, w. auto.
    + assert (s <> StCert) as N' by (intros ->; exact (Hno I)).
      rewrite (other_step_fields _ _ _ _ _ N N' J) in Hw. discriminate.
Qed.
End Ec.

(** Hypotheses met: an ECDSA key with another curve's name and a point that does not decode;
    a DSA-like key without a parameter, with one of the wrong type, and a wrong comment. *)
Definition ex_p256 (i : pystr) (n : nat) : dict pyval :=
  [(str "identifier", VStr i); (str "q", VBytes (repeat "004"%byte n))].
Example C61_example :
  params_class KPub (VStr (str "ecdsa-sha2-nistp256")) = Ok E256Pub /\
  new_params ex_ec (parse_pub ex_ec) E256Pub (ex_p256 (str "nistp256") 65) = ([], Ok tt) /\
  new_params ex_ec (parse_pub ex_ec) E256Pub (ex_p256 (str "nistp384") 65) = ([Warn WCurve], Ok tt) /\
  new_params ex_ec (parse_pub ex_ec) E256Pub (ex_p256 (str "nistp256") 64) = ([Warn WPoint], Ok tt).
Proof. repeat split; vm_compute; reflexivity. Qed.
Example C62_example : exists k,
  new_key ex_ec (parse_pub ex_ec) KPriv [(str "key_type", VStr (str "ssh-rsa"))]
    [(str "n", VInt 3233); (str "e", VStr (str "17")); (str "d", VInt 413);
     (str "p", VInt 61); (str "q", VInt 53)] [(str "comment", VInt 1)] None
  = ([Warn (WClass (str "e") (str "int")); Warn (WMissing (str "iqmp")); Warn (WClass (str "comment") (str "str"))], Ok k) /\
  is_key (str "ssh-rsa") k.
Proof. eexists. split; [vm_compute; reflexivity|split; vm_compute; reflexivity]. Qed.

Print Assumptions C61_curve_and_point.
Print Assumptions C61_certificates_are_checked.
Print Assumptions C62_construction_reports.
