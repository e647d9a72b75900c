(** Property C77: exactly which warnings constructing key parameters gives. *)
From Verif Require Import PyBase Stream Classes Key SpecWire SpecKey SpecCert SpecWarn.
From Verif Require Import ProofBase ProofWire ProofRecord ProofKey ProofCert.
Open Scope Z_scope.

Section Ec.
Variable ec : curve -> bytes -> bool.

Lemma content_steps ct d : exists ws, content_warnings ec ct d ws.
Proof.
  destruct ct as [|k name|].
  - eexists. constructor.
  - destruct (dget (str "identifier") d) as [v|] eqn:Ei; [|exists []; constructor; exact Ei].
    assert (exists w1, reported (v <> VStr name) WCurve w1) as (w1 & R1).
    { destruct (val_eqb_reflect v (VStr name)) as [E|E]; [exists []; right; tauto|exists [WCurve]; left; tauto]. }
    assert (exists w2, reported (exists q, dget (str "q") d = Some (VBytes q) /\ ec k q = false) WPoint w2) as (w2 & R2).
    { destruct (dget (str "q") d) as [[]|] eqn:Eq; try (exists []; right; split; [intros (q & K & _); congruence|reflexivity]).
      destruct (ec k b) eqn:Eb; [exists []; right; split; [intros (q & K & K'); congruence|reflexivity]|].
      exists [WPoint]; left. split; [eauto|reflexivity]. }
    exists (w1 ++ w2). econstructor; eassumption.
  - assert (exists ws, reported (exists p, dget (str "public") d = Some (VBytes p) /\ Z.of_nat (length p) <> 32) WEdPublicLength ws) as (ws & R).
    { destruct (dget (str "public") d) as [[]|] eqn:Eq; try (exists []; right; split; [intros (q & K & _); congruence|reflexivity]).
      destruct (Z.eq_dec (Z.of_nat (length b)) 32); [exists []; right; split; [intros (q & K & K'); congruence|reflexivity]|].
      eexists; left. split; [eauto|reflexivity]. }
    exists ws. constructor. exact R.
Qed.

(** The check of a contents, as a step of the model. *)
Definition content_step (ct : contents) : list step :=
  match ct with Numbers => [] | Point _ _ => [StECDSA] | Edwards => [StEdPub] end.
Definition curve_agrees (ct : contents) (c : cls) : Prop :=
  match ct with Point k name => curve_of c = Some k /\ class_curve_identifier c = name | _ => True end.
Lemma reported_when (b : bool) (P : Prop) w ws : (b = true <-> P) -> reported P w ws -> (wwhen b (wwarn w) : W unit) = (map Warn ws, Ok tt).
Proof. intros E [(H & ->)|(H & ->)]; destruct b; try reflexivity; exfalso; [apply E in H; discriminate|apply H, E; reflexivity]. Qed.
Lemma wseq_logs (x y : W unit) l1 l2 r : x = (l1, Ok tt) -> y = (l2, r) -> wseq x y = (l1 ++ l2, r).
Proof. intros -> ->. reflexivity. Qed.
Lemma seq_ret_r (x : W unit) : wseq x (wret tt) = x.
Proof. destruct x as [l [[]|e]]; unfold wseq, wbind, wret; rewrite ?app_nil_r; reflexivity. Qed.
Lemma content_step_log pp ct c d ws : curve_agrees ct c -> content_warnings ec ct d ws ->
  run_steps ec pp c d (content_step ct) = (map Warn ws, Ok tt).
Proof.
  intros A W. destruct W as [d|k name d E|k name d v w1 w2 E R1 R2|d ws R]; cbn [content_step run_steps check_step].
  - reflexivity.
  - unfold check_ecdsa. rewrite E. reflexivity.
  - destruct A as (Ak & An). rewrite seq_ret_r. unfold check_ecdsa. rewrite E, An, Ak, map_app. apply wseq_logs.
    + eapply reported_when; [|exact R1]. rewrite negb_true_iff. destruct (val_eqb_reflect (VStr name) v); split; congruence.
    + unfold get_bytes. destruct (dget (str "q") d) as [[]|] eqn:Eq;
        try (destruct R2 as [((q & K & _) & _)|(_ & ->)]; [congruence|reflexivity]).
      eapply reported_when; [|exact R2]. rewrite negb_true_iff. split; [eauto|]. intros (q & K & K'). congruence.
  - rewrite seq_ret_r. unfold check_ed_pub, get_bytes. destruct (dget (str "public") d) as [[]|] eqn:Eq;
      try (destruct R as [((q & K & _) & _)|(_ & ->)]; [congruence|reflexivity]).
    eapply reported_when; [|exact R]. rewrite negb_true_iff, Nat.eqb_neq. change ed_key_size with 32%nat.
    split; [intros H; exists b; split; [reflexivity|lia]|]. intros (q & K & K'). injection K as ->. lia.
Qed.
Lemma run_steps_app pp c d a b l1 : run_steps ec pp c d a = (l1, Ok tt) ->
  run_steps ec pp c d (a ++ b) = let '(l2, r) := run_steps ec pp c d b in (l1 ++ l2, r).
Proof.
  revert l1. induction a as [|s a IH]; intros l1 H; cbn [run_steps app] in *.
  - injection H as <-. destruct (run_steps ec pp c d b). reflexivity.
  - unfold wseq in *. apply wbind_inv in H as (la & [] & lb & E1 & E2 & ->). rewrite E1. cbn [wbind].
    rewrite (IH lb E2). destruct (run_steps ec pp c d b). rewrite app_assoc. reflexivity.
Qed.
Lemma round_log pp ct c d fw cw : check_dict d (format_of c) = (map Warn fw, Ok tt) -> curve_agrees ct c ->
  content_warnings ec ct d cw ->
  run_steps ec pp c d (StFormat :: content_step ct) = (map Warn (fw ++ cw), Ok tt).
Proof.
  intros F A Wc. cbn [run_steps check_step]. rewrite F, map_app. apply wseq_logs; [reflexivity|]. apply content_step_log; assumption.
Qed.
Lemma rounds_log pp ct c d fw cw n : check_dict d (format_of c) = (map Warn fw, Ok tt) -> curve_agrees ct c ->
  content_warnings ec ct d cw ->
  run_steps ec pp c d (concat (repeat (StFormat :: content_step ct) n)) = (map Warn (concat (repeat (fw ++ cw) n)), Ok tt).
Proof.
  intros F A Wc. induction n as [|n IH]; [reflexivity|]. cbn [repeat concat].
  rewrite (run_steps_app _ _ _ _ _ _ (round_log pp ct c d fw cw F A Wc)), IH, <- map_app. reflexivity.
Qed.

(** The events of the checks of a certificate. *)
Definition events {A} (P : event -> Prop) (x : W A) : Prop := forall ev, In ev (fst x) -> P ev.
Lemma events_bind {A B} P (x : W A) (f : A -> W B) : events P x -> (forall a, events P (f a)) -> events P (wbind x f).
Proof.
  intros H K. destruct x as [l [a|e]]; unfold wbind; [|exact H]. specialize (K a). destruct (f a) as [l' r].
  intros ev Hin. apply in_app_or in Hin as [Hin|Hin]; [exact (H ev Hin)|exact (K ev Hin)].
Qed.
Lemma events_lift {A} P (x : res A) : events P (wlift x). Proof. intros ev []. Qed.
Lemma events_ret {A} P (a : A) : events P (wret a). Proof. intros ev []. Qed.
Lemma events_err {A} P e : events P (werr e : W A). Proof. intros ev []. Qed.
Lemma events_warn (P : event -> Prop) w : P (Warn w) -> events P (wwarn w). Proof. intros H ev [<-|[]]. exact H. Qed.
Lemma events_when (P : event -> Prop) b w : P (Warn w) -> events P (wwhen b (wwarn w)).
Proof. destruct b; [apply events_warn|intros _; apply events_ret]. Qed.
Lemma events_catch {A} P (x : W A) h f : events P x -> (forall e, events P (f e)) -> events P (wcatch x h f).
Proof.
  intros H K. destruct x as [l [a|e]]; unfold wcatch; [exact H|]. destruct (h e); [|exact H]. specialize (K e).
  destruct (f e) as [l' r]. intros ev Hin. apply in_app_or in Hin as [Hin|Hin]; [exact (H ev Hin)|exact (K ev Hin)].
Qed.
Lemma events_seq {B} P (x : W unit) (y : W B) : events P x -> events P y -> events P (wseq x y).
Proof. intros H K. apply events_bind; auto. Qed.
Lemma check_cert_events d ev : In ev (fst (check_cert (parse_pub ec) d)) ->
  (exists w, ev = Warn w /\ is_cert_warning w = true) \/
  exists b, dget (str "signature_key") d = Some (VBytes b) /\ In ev (fst (key_from_bytes ec KPub b None)).
Proof.
  set (P := fun ev => (exists w, ev = Warn w /\ is_cert_warning w = true) \/
    exists b, dget (str "signature_key") d = Some (VBytes b) /\ In ev (fst (key_from_bytes ec KPub b None))).
  assert (forall w, is_cert_warning w = true -> P (Warn w)) as Pw by (intros w Hw; left; eauto).
  assert (forall param, events P (get_option_values_dict param d)) as Po.
  { intros param. unfold get_option_values_dict. do 3 (apply events_bind; [apply events_lift|intros ?]).
    generalize (@nil (pystr * pyval)). match goal with |- forall acc, events P (collect_options _ _ ?l) => induction l as [|x l IH] end;
      intros acc; cbn [collect_options]; [apply events_ret|].
    destruct (dget (str "option") x) as [[]|]; try apply events_err. destruct (dget (str "value") x); [|apply events_err].
    apply events_seq; [apply events_when, Pw; reflexivity|apply IH]. }
  assert (forall (A : Type) (x : W A) h w, is_cert_warning w = true -> events P x ->
            events P (wcatch (wdiscard x) h (fun _ => wwarn w))) as Pc.
  { intros A x h w Hw Hx. apply events_catch; [|intros _; apply events_warn, Pw, Hw]. apply events_bind; [exact Hx|intros _; apply events_ret]. }
  assert (events P (check_cert (parse_pub ec) d)) as H; [|apply H].
  unfold check_cert. apply events_seq; [|apply events_seq; [|apply events_seq; [|apply events_seq]]].
  - destruct (dmem (str "type") d); [|apply events_ret]. apply Pc; [reflexivity|apply events_lift].
  - destruct (get_bytes "valid_principals" d); [|apply events_ret]. apply Pc; [reflexivity|apply events_lift].
  - destruct (get_bytes "critical_options" d); [|apply events_ret]. apply Pc; [reflexivity|apply Po].
  - destruct (get_bytes "extensions" d); [|apply events_ret]. apply Pc; [reflexivity|apply Po].
  - destruct (get_bytes "signature_key" d) as [b|] eqn:G; [|apply events_ret]. apply Pc; [reflexivity|].
    apply get_bytes_iff in G. unfold get_signature_key, ditem. rewrite G. unfold wlift. cbn [wbind].
    assert (events P (wbind (parse_pub ec b) (fun k => wwhen (issubclass (k_pcls k) CertPub) (wwarn WCertCA) ;; wret k))) as Hb.
    { apply events_bind; [|intros k; apply events_seq; [apply events_when, Pw; reflexivity|apply events_ret]].
      intros ev' Hin. right. exists b. split; [exact G|]. unfold key_from_bytes. rewrite <- parse_pub_unfold. exact Hin. }
    destruct (wbind (parse_pub ec b) _) as [l r]. exact Hb.
Qed.
Lemma new_params_steps pp c d : new_params ec pp c d = run_steps ec pp c d (check_plan c).
Proof. reflexivity. Qed.
(** The checks of each class, against the table of the specification. *)
Definition steps_of (kd : kind) (t : pystr) (ct : contents) (n : nat) : list step :=
  match kd with
  | KPub => concat (repeat (StFormat :: content_step ct) n) ++ (if str_mem t (map fst cert_specs) then [StCert] else [])
  | KPriv => if str_eqb t (str "ssh-ed25519") then [StFormat; StEdPub; StFormat; StEdPriv]
             else concat (repeat (StFormat :: content_step ct) n)
  end.
Lemma plan_of kd t pub priv ts ct n c : In (t, (pub, priv)) key_specs -> fields_of kd (pub, priv) = Some ts ->
  In (t, (ct, n)) reports -> params_class kd (VStr t) = Ok c ->
  check_plan c = steps_of kd t ct n /\ curve_agrees ct c.
Proof.
  intros Hs Hf Hr Hc.
  assert (exists ct' n', find (fun x => str_eqb (fst x) t) reports = Some (t, (ct', n')) /\
            check_plan c = steps_of kd t ct' n' /\ curve_agrees ct' c) as (ct' & n' & Fd & R).
  { clear Hr. each_spec Hs; injection Hs as <- <- <-; destruct kd; cbn [fields_of fst snd] in Hf; try discriminate;
      vm_compute in Hc; injection Hc as <-; eexists _, _; (split; [vm_compute; reflexivity|]);
      (split; [vm_compute; reflexivity|]); try exact I; split; reflexivity. }
  assert ((ct', n') = (ct, n)) as E.
  { assert (NoDup (map fst reports)) as N by (apply nodupb_sound; vm_compute; reflexivity).
    apply find_some in Fd as (Hin & _). clear - Hin Hr N. induction reports as [|[t0 x0] l IH]; [contradiction|].
    cbn [map fst] in N. inversion N as [|? ? N1 N2]; subst.
    destruct Hin as [E|Hin], Hr as [E'|Hr].
    - congruence.
    - exfalso. apply N1. injection E as -> _. apply (in_map fst) in Hr. exact Hr.
    - exfalso. apply N1. injection E' as -> _. apply (in_map fst) in Hin. exact Hin.
    - auto. }
  injection E as -> ->. exact R.
Qed.

(** Public parameters, and private ones except Ed25519: the warnings about fields and then about
    contents, as often as the table says; then, for certificates, what their own contents give. *)
Theorem C77_warnings_exact kd t pub priv ts ct n c d l r :
  In (t, (pub, priv)) key_specs -> fields_of kd (pub, priv) = Some ts -> In (t, (ct, n)) reports ->
  params_class kd (VStr t) = Ok c -> ~ (kd = KPriv /\ t = str "ssh-ed25519") ->
  new_params ec (parse_pub ec) c d = (l, r) ->
  exists fw cw lc, warnings_for d ts fw /\ content_warnings ec ct d cw /\
    l = map Warn (concat (repeat (fw ++ cw) n)) ++ lc /\
    (~ is_certificate_type t -> lc = [] /\ r = Ok tt) /\
    (forall ev, In ev lc -> (exists w, ev = Warn w /\ is_cert_warning w = true) \/
       exists b, dget (str "signature_key") d = Some (VBytes b) /\ In ev (fst (key_from_bytes ec KPub b None))).
Proof.
  intros Hs Hf Hr Hc Ne H.
  destruct (plan_of _ _ _ _ _ _ _ _ Hs Hf Hr Hc) as (Hp & Ha).
  destruct (spec_class _ _ _ _ _ Hs Hf) as (c' & Hc' & F & _). assert (c' = c) as -> by congruence.
  destruct (check_dict_warnings d _ _ F) as (fw & Ef & Wf). destruct (content_steps ct d) as (cw & Wc).
  exists fw, cw. rewrite new_params_steps, Hp in H.
  pose proof (rounds_log (parse_pub ec) ct c d fw cw n Ef Ha Wc) as R.
  assert (steps_of kd t ct n = concat (repeat (StFormat :: content_step ct) n) ++
            (if str_mem t (map fst cert_specs) then [StCert] else [])) as E.
  { destruct kd; [reflexivity|]. cbn [steps_of]. destruct (str_eqb_reflect t (str "ssh-ed25519")) as [->|_]; [exfalso; auto|].
    cbn [fields_of snd] in Hf. clear - Hs Hf.
    assert (str_mem t (map fst cert_specs) = false) as ->; [|rewrite app_nil_r; reflexivity].
    each_spec Hs; injection Hs as <- _ <-; try discriminate; vm_compute; reflexivity. }
  rewrite E, (run_steps_app _ _ _ _ _ _ R) in H. clear E.
  destruct (str_mem t (map fst cert_specs)) eqn:M.
  - cbn [run_steps check_step] in H. rewrite seq_ret_r in H.
    destruct (check_cert (parse_pub ec) d) as [lc rc] eqn:Cc. injection H as <- <-. exists lc.
    split; [exact Wf|]. split; [exact Wc|]. split; [reflexivity|]. split.
    + intros Hn. exfalso. apply Hn. apply str_mem_In. exact M.
    + intros ev Hev. apply (check_cert_events d ev). rewrite Cc. exact Hev.
  - cbn [run_steps wret] in H. injection H as <- <-. exists []. split; [exact Wf|]. split; [exact Wc|]. split; [reflexivity|].
    split; [auto|intros ev []].
Qed.
(** Private Ed25519 parameters: fields, public key, fields again, seed. *)
Theorem C77_ed25519_private_warnings_exact c d :
  get_private_class (VStr (str "ssh-ed25519")) = Ok c ->
  exists fw cw sw, warnings_for d ed25519_private fw /\ content_warnings ec Edwards d cw /\ seed_warnings d sw /\
    new_params ec (parse_pub ec) c d = (map Warn (fw ++ cw ++ fw ++ sw), Ok tt).
Proof.
  intros Hc.
  assert (In (str "ssh-ed25519", (ed25519_public, Some ed25519_private)) key_specs) as Hs
    by (unfold key_specs, plain_specs; do 2 right; left; reflexivity).
  assert (In (str "ssh-ed25519", (Edwards, 1%nat)) reports) as Hr by (unfold reports; do 2 right; left; reflexivity).
  destruct (plan_of KPriv _ _ _ _ _ _ _ Hs eq_refl Hr Hc) as (Hp & Ha).
  destruct (spec_class KPriv _ _ _ _ Hs eq_refl) as (c' & Hc' & F & _). cbn [params_class] in Hc'. assert (c' = c) as -> by congruence.
  destruct (check_dict_warnings d _ _ F) as (fw & Ef & Wf). destruct (content_steps Edwards d) as (cw & Wc).
  assert (exists sw, seed_warnings d sw /\ check_ed_priv d = (map Warn sw, Ok tt)) as (sw & Ws & Es).
  { unfold seed_warnings, check_ed_priv, get_bytes.
    destruct (dget (str "private_public") d) as [[]|] eqn:Es; destruct (dget (str "public") d) as [[]|] eqn:Ep;
      try (exists []; split; [exists [], []; split; [reflexivity|]; split; right; split; try reflexivity; intros (? & ? & ? & ? & _); congruence|reflexivity]).
    match goal with |- context [skipn ed_key_size ?x] => rename x into s end.
    match goal with H : dget (str "public") d = Some (VBytes ?x) |- _ => rename x into p end.
    assert (forall x y, dget (str "public") d = Some (VBytes x) -> dget (str "private_public") d = Some (VBytes y) -> x = p /\ y = s) as U
      by (intros x y K K'; rewrite Ep in K; rewrite Es in K'; split; congruence).
    assert (exists w1, reported (exists x y, Some (VBytes p) = Some (VBytes x) /\ Some (VBytes s) = Some (VBytes y) /\ skipn 32 y <> x) WEdMismatch w1 /\
      (wwhen (negb (bytes_eqb (skipn ed_key_size s) p)) (wwarn WEdMismatch) : W unit) = (map Warn w1, Ok tt)) as (w1 & R1 & E1).
    { change ed_key_size with 32%nat. destruct (bytes_eqb_reflect (skipn 32 s) p) as [E|E].
      - exists []. split; [right; split; [intros (x & y & K & K' & K''); congruence|reflexivity]|reflexivity].
      - exists [WEdMismatch]. split; [left; split; [eauto 6|reflexivity]|reflexivity]. }
    assert (exists w2, reported (exists x y, Some (VBytes p) = Some (VBytes x) /\ Some (VBytes s) = Some (VBytes y) /\ Z.of_nat (length y) <> 64) WEdPrivateLength w2 /\
      (wwhen (negb (length (skipn ed_key_size s) =? ed_key_size)%nat) (wwarn WEdPrivateLength) : W unit) = (map Warn w2, Ok tt)) as (w2 & R2 & E2).
    { change ed_key_size with 32%nat. rewrite skipn_length. destruct (Nat.eqb_spec (length s - 32) 32) as [E|E].
      - exists []. split; [right; split; [intros (x & y & K & K' & K''); injection K' as <-; lia|reflexivity]|reflexivity].
      - exists [WEdPrivateLength]. split; [left; split; [exists p, s; repeat split; lia|reflexivity]|reflexivity]. }
    exists (w1 ++ w2). split; [exists w1, w2; auto|]. rewrite E1, E2, map_app. reflexivity. }
  exists fw, cw, sw. split; [exact Wf|]. split; [exact Wc|]. split; [exact Ws|].
  rewrite new_params_steps, Hp.
  change (steps_of KPriv (str "ssh-ed25519") Edwards 1) with ((StFormat :: content_step Edwards) ++ [StFormat; StEdPriv]).
  rewrite (run_steps_app _ _ _ _ _ _ (round_log (parse_pub ec) Edwards c d fw cw Ef Ha Wc)).
  cbn [run_steps check_step]. rewrite seq_ret_r, Ef, Es. unfold wseq. cbn [wbind]. rewrite !map_app, <- !app_assoc. reflexivity.
Qed.

(** A key: the warnings about its header, those about its parameters, those about its footer. *)
Theorem C77_key_warnings kd t pub priv ts h ps fo cl l k :
  In (t, (pub, priv)) key_specs -> fields_of kd (pub, priv) = Some ts -> dget (str "key_type") h = Some (VStr t) ->
  new_key ec (parse_pub ec) kd h ps fo cl = (l, Ok k) ->
  exists fw c lp, params_class kd (VStr t) = Ok c /\ new_params ec (parse_pub ec) c ps = (lp, Ok tt) /\
    warnings_for fo (footer_fields kd) fw /\ l = lp ++ map Warn fw.
Proof.
  intros Hs Hf Hk H. apply new_key_inv in H as (kt & c & lp & Hk' & Hc & -> & Hn & ->).
  assert (kt = VStr t) as -> by congruence.
  destruct (check_dict_warnings fo _ _ (footer_types kd)) as (fw & Ef & Wf). rewrite Ef.
  assert (fst (check_dict h (header_fmt kd)) = []) as ->.
  { apply (proj2 (check_dict_spec h _ _ (header_types kd))). intros x ft [E|[]]. injection E as <- <-. exists (VStr t). split; [exact Hk|constructor]. }
  exists fw, c, lp. auto.
Qed.
End Ec.

(** A certificate for a security key without any field: every missing field four times. *)
Example C77_example :
  length (fst (new_params (fun _ _ => true) (parse_pub (fun _ _ => true)) CertSKEd [])) = 56%nat /\
  new_params (fun _ _ => true) (parse_pub (fun _ _ => true)) EdPriv
    [(str "public", VBytes [x00]); (str "private_public", VBytes [])] =
    (map Warn [WEdPublicLength; WEdMismatch; WEdPrivateLength], Ok tt).
Proof. split; vm_compute; reflexivity. Qed.

(** Each certificate type, and the type of the key that it certifies. *)
Definition certified : list (string * string) :=
  [("ssh-rsa-cert-v01@openssh.com", "ssh-rsa"); ("ssh-dss-cert-v01@openssh.com", "ssh-dss");
   ("ssh-ed25519-cert-v01@openssh.com", "ssh-ed25519");
   ("ecdsa-sha2-nistp256-cert-v01@openssh.com", "ecdsa-sha2-nistp256");
   ("ecdsa-sha2-nistp384-cert-v01@openssh.com", "ecdsa-sha2-nistp384");
   ("ecdsa-sha2-nistp521-cert-v01@openssh.com", "ecdsa-sha2-nistp521");
   ("sk-ssh-ed25519-cert-v01@openssh.com", "sk-ssh-ed25519@openssh.com");
   ("sk-ecdsa-sha2-nistp256-cert-v01@openssh.com", "sk-ecdsa-sha2-nistp256@openssh.com")]%string.
(** A certificate's base class is the class of the certified key type, and a certificate is an
    instance of it; every registered certificate type is in the table. *)
Theorem C77_certificate_base_class :
  (forall t, In t (map fst cert_specs) <-> In t (map (fun x => str (fst x)) certified)) /\
  forall tc tp, In (tc, tp) certified ->
    exists c b, get_public_class (VStr (str tc)) = Ok c /\ get_public_class (VStr (str tp)) = Ok b /\
      cert_base c = Some b /\ issubclass c b = true.
Proof.
  split.
  - assert (forallb (fun x => str_mem x (map (fun x => str (fst x)) certified)) (map fst cert_specs) = true) as A by (vm_compute; reflexivity).
    assert (forallb (fun x => str_mem x (map fst cert_specs)) (map (fun x => str (fst x)) certified) = true) as B by (vm_compute; reflexivity).
    rewrite forallb_forall in A, B. intros t. split; intros H; [apply A in H|apply B in H]; apply str_mem_In; exact H.
  - intros tc tp H. unfold certified in H. cbn [In] in H.
    repeat (destruct H as [H|H]; [injection H as <- <-; do 2 eexists; repeat split; vm_compute; reflexivity|]). contradiction.
Qed.

Print Assumptions C77_warnings_exact.
Print Assumptions C77_ed25519_private_warnings_exact.
Print Assumptions C77_key_warnings.
Print Assumptions C77_certificate_base_class.
