(** Lemmas about class hierarchies. *)
From Verif Require Import PyBase Objects SpecObjects ProofBase.

Lemma smem_spec x l : smem x l = true <-> In x l.
Proof.
  unfold smem. rewrite existsb_exists. split.
  - intros (y & Hy & E). destruct (str_eqb_reflect x y); [subst; exact Hy|discriminate].
  - intros H. exists x. split; [exact H|apply str_eqb_refl].
Qed.
Lemma no_duplicates_spec l : no_duplicates l = true <-> NoDup l.
Proof.
  induction l as [|x l IH]; cbn [no_duplicates]; [split; [constructor|reflexivity]|].
  rewrite andb_true_iff, negb_true_iff, IH. split.
  - intros (N & D). constructor; [|exact D]. intros K. apply smem_spec in K. congruence.
  - intros H. inversion H; subst. split; [|assumption]. destruct (smem x l) eqn:E; [apply smem_spec in E; contradiction|reflexivity].
Qed.
Lemma subsequence_refl {A} (l : list A) : subsequence l l.
Proof. induction l; constructor; assumption. Qed.
Lemma subsequence_in {A} (s l : list A) x : subsequence s l -> In x s -> In x l.
Proof. induction 1; cbn; intuition. Qed.
Lemma subsequence_nodup {A} (s l : list A) : subsequence s l -> NoDup l -> NoDup s.
Proof.
  induction 1 as [|x s l H IH|x s l H IH]; intros N; [constructor| |]; inversion N; subst; [|auto].
  constructor; [|auto]. intros K. exact (H2 (subsequence_in _ _ _ H K)).
Qed.
Lemma subsequence_tail {A} (x : A) s l : subsequence (x :: s) l -> subsequence s l.
Proof.
  intros H. remember (x :: s) as t eqn:E. induction H as [|y t l H IH|y t l H IH]; [discriminate| |].
  - injection E as -> ->. apply sub_skip. exact H.
  - apply sub_skip. auto.
Qed.

(** ** C3 *)
Lemma candidate_some seqs h : candidate seqs = Some h ->
  (exists s, In (h :: s) seqs) /\ forall s, In s seqs -> ~ In h (tl s).
Proof.
  unfold candidate. intros H. apply find_some in H as (Hin & Hn). split.
  - apply in_flat_map in Hin as (s & Hs & K). destruct s as [|x s]; [contradiction|]. destruct K as [->|[]]. eauto.
  - intros s Hs K. apply negb_true_iff in Hn. assert (existsb (fun s => smem h (tl s)) seqs = true); [|congruence].
    apply existsb_exists. exists s. split; [exact Hs|apply smem_spec; exact K].
Qed.
Lemma merge_filter (P : list pystr -> Prop) seqs :
  P [] -> (forall s, In s (filter nonempty_seq seqs) -> P s) -> forall s, In s seqs -> P s.
Proof.
  intros P0 H s Hs. destruct s as [|x s]; [exact P0|]. apply H. apply filter_In. split; [exact Hs|reflexivity].
Qed.
Lemma sub_empty {A} (l : list A) : subsequence [] l.
Proof. induction l; constructor; assumption. Qed.
Lemma merge_ok fuel : forall seqs r, merge fuel seqs = Some r ->
  (forall s, In s seqs -> subsequence s r) /\ NoDup r /\ (forall x, In x r -> exists s, In s seqs /\ In x s).
Proof.
  induction fuel as [|n IH]; intros seqs r H; cbn [merge] in H.
  - destruct (filter nonempty_seq seqs) as [|s0 ss] eqn:E; [|destruct (candidate (s0 :: ss)); discriminate].
    injection H as <-. split; [|split; [constructor|intros x []]]. apply merge_filter; [apply sub_empty|]. rewrite E. intros s [].
  - destruct (filter nonempty_seq seqs) as [|s0 ss] eqn:E.
    + injection H as <-. split; [|split; [constructor|intros x []]]. apply merge_filter; [apply sub_empty|]. rewrite E. intros s [].
    + destruct (candidate (s0 :: ss)) as [h|] eqn:C; [|discriminate].
      destruct (merge n (map (drop_first h) (s0 :: ss))) as [r'|] eqn:M; [|discriminate]. injection H as <-.
      apply candidate_some in C as ((sh & Hsh) & Ct). destruct (IH _ _ M) as (S & N & I). rewrite <- E in *.
      assert (forall s, In s (filter nonempty_seq seqs) -> In s seqs) as F by (intros s K; apply filter_In in K; tauto).
      split; [|split].
      * apply merge_filter; [apply sub_empty|]. intros s Hs.
        pose proof (S _ (in_map (drop_first h) _ _ Hs)) as K. unfold drop_first in K. destruct s as [|x s]; [apply sub_empty|].
        destruct (str_eqb_reflect x h) as [->|Nx]; [constructor; exact K|apply sub_skip; exact K].
      * constructor; [|exact N]. intros K. destruct (I _ K) as (s & Hs & Hx). apply in_map_iff in Hs as (s' & <- & Hs').
        pose proof (Ct _ Hs') as T. unfold drop_first in Hx. destruct s' as [|x s']; [contradiction|].
        destruct (str_eqb_reflect x h) as [->|Nx]; [exact (T Hx)|]. destruct Hx as [->|Hx]; [congruence|exact (T Hx)].
      * intros x [<-|Hx]; [exists (h :: sh); split; [apply F; exact Hsh|left; reflexivity]|].
        destruct (I _ Hx) as (s & Hs & K). apply in_map_iff in Hs as (s' & <- & Hs'). exists s'. split; [apply F; exact Hs'|].
        unfold drop_first in K. destruct s' as [|y s']; [contradiction|]. destruct (str_eqb y h); [right; exact K|exact K].
Qed.

(** ** Lookup *)
Lemma own_attr_defines w k n a : own_attr w k n = Some a <-> defines w k n a.
Proof.
  unfold own_attr, defines. destruct (dget k w) as [o|]; [|split; [discriminate|intros (o & E & _); discriminate]].
  split; [eauto|intros (o' & E & H); injection E as <-; exact H].
Qed.
Lemma own_attr_none w k n : own_attr w k n = None <-> forall a, ~ defines w k n a.
Proof.
  split; [intros E a K; apply own_attr_defines in K; congruence|].
  intros H. destruct (own_attr w k n) as [a|] eqn:E; [apply own_attr_defines in E; destruct (H _ E)|reflexivity].
Qed.
Lemma first_attr_spec w l n a : first_attr w l n = Some a <->
  exists before k after, l = before ++ k :: after /\ own_attr w k n = Some a /\ Forall (fun k' => own_attr w k' n = None) before.
Proof.
  induction l as [|c l IH]; cbn [first_attr].
  - split; [discriminate|]. intros (b & k & s & E & _). destruct b; discriminate.
  - destruct (own_attr w c n) as [a'|] eqn:E.
    + split.
      * intros H. injection H as ->. exists [], c, l. auto.
      * intros (b & k & s & El & Ek & F). destruct b as [|x b]; [injection El as -> ->; congruence|].
        injection El as -> ->. inversion F; congruence.
    + rewrite IH. split.
      * intros (b & k & s & -> & Ek & F). exists (c :: b), k, s. auto.
      * intros (b & k & s & El & Ek & F). destruct b as [|x b]; [injection El as -> ->; congruence|].
        injection El as -> ->. inversion F; subst. eauto 6.
Qed.
Lemma find_attr_spec w c n a : find_attr w c n = Some a <-> first_definition w c n a.
Proof.
  unfold find_attr, first_definition. rewrite first_attr_spec. split; intros (b & k & s & E & Ek & F); exists b, k, s; (split; [exact E|]); (split; [apply own_attr_defines; exact Ek|]);
    (eapply Forall_impl; [|exact F]); intros x; apply own_attr_none.
Qed.
Lemma find_attr_none w c n : find_attr w c n = None <-> forall k, In k (mro_of w c) -> own_attr w k n = None.
Proof.
  unfold find_attr. induction (mro_of w c) as [|k l IH]; cbn [first_attr]; [split; [intros _ k []|reflexivity]|].
  destruct (own_attr w k n) as [a|] eqn:E.
  - split; [discriminate|intros H; rewrite (H k (or_introl eq_refl)) in E; discriminate].
  - rewrite IH. split; [intros H x [<-|Hx]; auto|intros H x Hx; apply H; right; exact Hx].
Qed.
Lemma first_attr_ext w w' l n : (forall k, In k l -> own_attr w k n = own_attr w' k n) -> first_attr w l n = first_attr w' l n.
Proof.
  induction l as [|k l IH]; intros H; [reflexivity|]. cbn [first_attr]. rewrite <- (H k (or_introl eq_refl)).
  rewrite IH; [reflexivity|intros x Hx; apply H; right; exact Hx].
Qed.
(** The first definition in a list is the first in a subsequence that contains its class. *)
Lemma first_subsequence w s l before k after n : subsequence s l -> NoDup l -> l = before ++ k :: after -> In k s ->
  Forall (fun k' => own_attr w k' n = None) before ->
  exists b a, s = b ++ k :: a /\ Forall (fun k' => own_attr w k' n = None) b.
Proof.
  intros H. revert before. induction H as [|x s l H IH|x s l H IH]; intros before N E K F.
  - contradiction.
  - destruct before as [|y before].
    + injection E as -> ->. exists [], s. auto.
    + injection E as -> ->. inversion N as [|? ? N1 N2]; subst. inversion F as [|? ? F1 F2]; subst. destruct K as [->|K].
      * exfalso. apply N1. apply in_or_app. right. left. reflexivity.
      * destruct (IH before N2 eq_refl K F2) as (b & a & -> & Fb). exists (y :: b), a. auto.
  - destruct before as [|y before].
    + injection E as -> ->. inversion N as [|? ? N1 N2]; subst. exfalso. apply N1. exact (subsequence_in _ _ _ H K).
    + injection E as -> ->. inversion N as [|? ? N1 N2]; subst. inversion F as [|? ? F1 F2]; subst. apply (IH before N2 eq_refl K F2).
Qed.

(** ** Worlds *)
Lemma dget_app {A} k (d d' : dict A) : dget k (d ++ d') = match dget k d with Some v => Some v | None => dget k d' end.
Proof. induction d as [|[k' v] d IH]; [reflexivity|]. cbn [app dget]. destruct (str_eqb k k'); [reflexivity|exact IH]. Qed.
Lemma bases_of_spec w bs os : bases_of w bs = Some os <-> Forall2 (fun b o => dget b w = Some o) bs os.
Proof.
  revert os. induction bs as [|b bs IH]; intros os.
  - split; [intros H; injection H as <-; constructor|intros H; inversion H; reflexivity].
  - change (bases_of w (b :: bs)) with (match dget b w, bases_of w bs with Some o, Some l => Some (o :: l) | _, _ => None end). split.
    + destruct (dget b w) as [o|] eqn:E; [|discriminate]. destruct (bases_of w bs) as [l|]; [|discriminate].
      intros H. injection H as <-. constructor; [exact E|]. apply IH. reflexivity.
    + intros H. inversion H as [|? o ? l Hb Hl]; subst. rewrite Hb. apply IH in Hl. rewrite Hl. reflexivity.
Qed.
(** The result of a class statement. *)
Lemma define_class_inv w c bs abc attrs w' : define_class w c bs abc attrs = Ok w' ->
  dget c w = None /\ NoDup bs /\
  exists os rest o, Forall2 (fun b o => dget b w = Some o) bs os /\
    (forall s, In s (map c_mro os ++ [bs]) -> subsequence s rest) /\ NoDup rest /\
    (forall x, In x rest -> exists s, In s (map c_mro os ++ [bs]) /\ In x s) /\
    w' = w ++ [(c, o)] /\ c_bases o = bs /\ c_attrs o = attrs /\ c_mro o = c :: rest /\
    c_abc o = abc || existsb c_abc os /\
    c_abstract o = if c_abc o then filter (fun n => is_abstract_attr (dget n attrs)) (dkeys attrs) ++
                      filter (fun n => is_abstract_attr (find_attr w' c n)) (flat_map c_abstract os) else [].
Proof.
  unfold define_class. destruct (dget c w) eqn:Ec; [discriminate|]. destruct (bases_of w bs) as [os|] eqn:Eb; [|discriminate].
  destruct (no_duplicates bs) eqn:Ed; [|discriminate].
  destruct (merge _ (map c_mro os ++ [bs])) as [rest|] eqn:Em; [|discriminate]. intros H. injection H as <-.
  split; [reflexivity|]. split; [apply no_duplicates_spec; exact Ed|].
  apply merge_ok in Em as (S & N & I). apply bases_of_spec in Eb.
  exists os, rest. eexists. split; [exact Eb|]. split; [exact S|]. split; [exact N|]. split; [exact I|].
  split; [reflexivity|]. cbn [c_bases c_attrs c_mro c_abc c_abstract]. do 4 (split; [reflexivity|]).
  destruct (abc || existsb c_abc os); [|reflexivity]. f_equal. apply filter_ext. intros n. f_equal.
  unfold find_attr, mro_of. rewrite !dget_app, Ec. cbn [dget]. rewrite str_eqb_refl. cbn [c_mro].
  apply first_attr_ext. intros k _. unfold own_attr. rewrite !dget_app. destruct (dget k w); [reflexivity|].
  cbn [dget]. destruct (str_eqb k c); reflexivity.
Qed.
(** What holds of every declared world. *)
Record good_world (w : world) : Prop := {
  gw_self : forall c o, dget c w = Some o -> exists rest, c_mro o = c :: rest;
  gw_nodup : forall c o, dget c w = Some o -> NoDup (c_mro o);
  gw_classes : forall c o k, dget c w = Some o -> In k (c_mro o) -> is_class w k;
  gw_bases : forall c o b, dget c w = Some o -> In b (c_bases o) -> exists ob, dget b w = Some ob /\ subsequence (c_mro ob) (c_mro o);
  gw_order : forall c o, dget c w = Some o -> subsequence (c_bases o) (c_mro o);
  gw_from : forall c o k, dget c w = Some o -> In k (c_mro o) -> k = c \/ exists b ob, In b (c_bases o) /\ dget b w = Some ob /\ In k (c_mro ob);
  gw_abc : forall c o b ob, dget c w = Some o -> In b (c_bases o) -> dget b w = Some ob -> c_abc ob = true -> c_abc o = true
}.
Lemma is_class_app w x c : is_class w c -> is_class (w ++ x) c.
Proof. intros (o & E). exists o. rewrite dget_app, E. reflexivity. Qed.
Lemma dget_snoc {A} k c (o o' : A) w : dget c w = None -> dget k (w ++ [(c, o)]) = Some o' ->
  dget k w = Some o' \/ (k = c /\ o' = o).
Proof.
  intros N. rewrite dget_app. destruct (dget k w); [auto|]. cbn [dget]. destruct (str_eqb_reflect k c) as [->|]; [|discriminate].
  intros H. injection H as <-. auto.
Qed.
Lemma forall2_in_l {A B} (P : A -> B -> Prop) l l' x : Forall2 P l l' -> In x l -> exists y, In y l' /\ P x y.
Proof. induction 1 as [|a b l l' H F IH]; intros K; [contradiction|]. destruct K as [->|K]; [exists b; cbn; auto|destruct (IH K) as (y & A1 & A2); exists y; cbn; auto]. Qed.
Lemma forall2_in_r {A B} (P : A -> B -> Prop) l l' y : Forall2 P l l' -> In y l' -> exists x, In x l /\ P x y.
Proof. induction 1 as [|a b l l' H F IH]; intros K; [contradiction|]. destruct K as [->|K]; [exists a; cbn; auto|destruct (IH K) as (x & A1 & A2); exists x; cbn; auto]. Qed.
Lemma declared_good w : declared w -> good_world w.
Proof.
  induction 1 as [|w c bs abc attrs w' D G H]; [split; intros; discriminate|].
  apply define_class_inv in H as (Nc & Nb & os & rest & o & F2 & S & N & I & -> & Eb & Ea & Em & Eabc & _).
  assert (forall k ok, dget k w = Some ok -> dget k (w ++ [(c, o)]) = Some ok) as Old by (intros k ok E; rewrite dget_app, E; reflexivity).
  assert (forall s, In s (map c_mro os) -> exists b ob, In b bs /\ dget b w = Some ob /\ s = c_mro ob) as Ms.
  { intros s Hs. apply in_map_iff in Hs as (ob & <- & Ho). destruct (forall2_in_r _ _ _ _ F2 Ho) as (b & Hb & E). eauto 6. }
  assert (forall x, In x rest -> exists b ob, In b bs /\ dget b w = Some ob /\ In x (c_mro ob)) as R.
  { intros x Hx. destruct (I _ Hx) as (s & Hs & K). apply in_app_or in Hs as [Hs|[<-|[]]].
    - destruct (Ms _ Hs) as (b & ob & Hb & E & ->). eauto 6.
    - destruct (forall2_in_l _ _ _ _ F2 K) as (ob & _ & E). destruct (gw_self _ G _ _ E) as (r & Er).
      exists x, ob. split; [exact K|]. split; [exact E|]. rewrite Er. left. reflexivity. }
  assert (~ In c rest) as Nr.
  { intros K. destruct (R _ K) as (b & ob & _ & E & Hc). destruct (gw_classes _ G _ _ _ E Hc) as (oc & Ec). congruence. }
  assert (forall k ok, dget k (w ++ [(c, o)]) = Some ok -> dget k w = Some ok \/ k = c /\ ok = o) as Cases by (intros k ok; apply dget_snoc; exact Nc).
  split.
  - intros k ok E. destruct (Cases _ _ E) as [E'|(-> & ->)]; [exact (gw_self _ G _ _ E')|eauto].
  - intros k ok E. destruct (Cases _ _ E) as [E'|(-> & ->)]; [exact (gw_nodup _ G _ _ E')|rewrite Em; constructor; assumption].
  - intros k ok x E Hx. destruct (Cases _ _ E) as [E'|(-> & ->)]; [apply is_class_app; exact (gw_classes _ G _ _ _ E' Hx)|].
    rewrite Em in Hx. destruct Hx as [<-|Hx]; [exists o; exact E|]. destruct (R _ Hx) as (b & ob & _ & Eo & K).
    apply is_class_app. exact (gw_classes _ G _ _ _ Eo K).
  - intros k ok b E Hb. destruct (Cases _ _ E) as [E'|(-> & ->)].
    + destruct (gw_bases _ G _ _ _ E' Hb) as (ob & Eo & K). eauto.
    + rewrite Eb in Hb. destruct (forall2_in_l _ _ _ _ F2 Hb) as (ob & Ho & Eo). exists ob. split; [apply Old; exact Eo|].
      rewrite Em. apply sub_skip. apply S. apply in_or_app. left. apply in_map. exact Ho.
  - intros k ok E. destruct (Cases _ _ E) as [E'|(-> & ->)]; [exact (gw_order _ G _ _ E')|].
    rewrite Eb, Em. apply sub_skip. apply S. apply in_or_app. right. left. reflexivity.
  - intros k ok x E Hx. destruct (Cases _ _ E) as [E'|(-> & ->)].
    + destruct (gw_from _ G _ _ _ E' Hx) as [->|(b & ob & Hb & Eo & K)]; [auto|]. right. eauto 7.
    + rewrite Em in Hx. destruct Hx as [<-|Hx]; [auto|]. right. destruct (R _ Hx) as (b & ob & Hb & Eo & K).
      exists b, ob. rewrite Eb. auto.
  - intros k ok b ob E Hb Eob A. destruct (Cases _ _ E) as [E'|(-> & ->)].
    + destruct (gw_bases _ G _ _ _ E' Hb) as (ob' & Eo' & _). rewrite (Old _ _ Eo') in Eob. injection Eob as <-.
      exact (gw_abc _ G _ _ _ _ E' Hb Eo' A).
    + rewrite Eb in Hb. destruct (forall2_in_l _ _ _ _ F2 Hb) as (ob' & Ho & Eo). rewrite (Old _ _ Eo) in Eob. injection Eob as <-.
      rewrite Eabc. apply orb_true_iff. right. apply existsb_exists. eauto.
Qed.
(** Old classes are not affected by a new one. *)
Lemma find_attr_old w c bs abc attrs w' k n : declared w -> define_class w c bs abc attrs = Ok w' -> is_class w k ->
  find_attr w' k n = find_attr w k n.
Proof.
  intros D H (ok & Ek). pose proof (declared_good _ D) as G.
  apply define_class_inv in H as (Nc & _ & os & rest & o & _ & _ & _ & _ & -> & _).
  unfold find_attr, mro_of. rewrite dget_app, Ek. apply first_attr_ext. intros x Hx.
  destruct (gw_classes _ G _ _ _ Ek Hx) as (ox & Ex). unfold own_attr. rewrite dget_app, Ex. reflexivity.
Qed.

(** ** C3 succeeds whenever a consistent order exists *)
Lemma subsequence_trans {A} (a b c : list A) : subsequence a b -> subsequence b c -> subsequence a c.
Proof.
  intros H K. revert a H. induction K as [|x s l K IH|x s l K IH]; intros a H.
  - exact H.
  - inversion H; subst; constructor; auto.
  - apply sub_skip. auto.
Qed.
Lemma drop_first_sub h s : subsequence (drop_first h s) s.
Proof. destruct s as [|x s]; [constructor|]. cbn. destruct (str_eqb x h); [apply sub_skip|]; apply subsequence_refl. Qed.
(** Elements of [r] in no sequence can be left out. *)
Lemma sub_strong (x : pystr) s r : subsequence s (x :: r) -> ~ In x s -> subsequence s r.
Proof. intros H N. inversion H; subst; [|assumption]. destruct N. left. reflexivity. Qed.
Lemma earliest (seqs : list (list pystr)) : forall r, NoDup r -> (forall s, In s seqs -> subsequence s r) ->
  (exists s, In s seqs /\ s <> []) ->
  exists h, (exists s, In (h :: s) seqs) /\ forall s, In s seqs -> ~ In h (tl s).
Proof.
  induction r as [|x r IH]; intros N S (s0 & H0 & Ne).
  - specialize (S _ H0). inversion S; subst. congruence.
  - destruct (existsb (fun s => smem x s) seqs) eqn:E.
    + apply existsb_exists in E as (s & Hs & Hx). apply smem_spec in Hx. inversion N as [|? ? N1 N2]; subst.
      exists x. split.
      * pose proof (S _ Hs) as K. inversion K; subst; [eauto|]. exfalso. apply N1. eapply subsequence_in; eassumption.
      * intros s' Hs' K. pose proof (S _ Hs') as K'. inversion K' as [|? t ? T|? t ? T]; subst.
        -- cbn in K. apply N1. eapply subsequence_in; eassumption.
        -- apply N1. apply (subsequence_in s' r x T). destruct s'; [contradiction|right; exact K].
    + assert (forall s, In s seqs -> ~ In x s) as Nx.
      { intros s Hs K. apply smem_spec in K. assert (existsb (fun s => smem x s) seqs = true); [|congruence]. apply existsb_exists. eauto. }
      apply IH; [inversion N; assumption| |eauto]. intros s Hs. eapply sub_strong; [apply S|apply Nx]; exact Hs.
Qed.
Lemma candidate_none seqs : candidate seqs = None -> ~ exists h, (exists s, In (h :: s) seqs) /\ forall s, In s seqs -> ~ In h (tl s).
Proof.
  unfold candidate. intros H (h & (s & Hs) & T).
  assert (In h (flat_map (fun s => match s with [] => [] | h :: _ => [h] end) seqs)) as K.
  { apply in_flat_map. exists (h :: s). split; [exact Hs|left; reflexivity]. }
  apply (find_none _ _ H) in K. apply negb_false_iff, existsb_exists in K as (s' & Hs' & Hm). apply smem_spec in Hm. exact (T _ Hs' Hm).
Qed.
Lemma total_drop h seqs : (exists s, In (h :: s) seqs) ->
  (length (concat (map (drop_first h) seqs)) < length (concat seqs))%nat.
Proof.
  assert (forall s, (length (drop_first h s) <= length s)%nat) as L.
  { intros [|x s]; cbn; [lia|]. destruct (str_eqb x h); cbn; lia. }
  assert (forall l, (length (concat (map (drop_first h) l)) <= length (concat l))%nat) as L2.
  { induction l as [|a l IH]; cbn [map concat]; [lia|]. rewrite !app_length. specialize (L a). lia. }
  intros (s & Hs). induction seqs as [|a seqs IH]; [contradiction|]. cbn [map concat]. rewrite !app_length. destruct Hs as [->|Hs].
  - cbn [drop_first]. rewrite str_eqb_refl. specialize (L2 seqs). cbn [length]. lia.
  - specialize (IH Hs). specialize (L a). lia.
Qed.
Lemma total_filter seqs : length (concat (filter nonempty_seq seqs)) = length (concat seqs).
Proof. induction seqs as [|[|x s] l IH]; cbn [filter nonempty_seq concat]; [reflexivity|exact IH|]. rewrite !app_length, IH. reflexivity. Qed.
Lemma merge_complete fuel : forall seqs r, NoDup r -> (forall s, In s seqs -> subsequence s r) ->
  (length (concat seqs) <= fuel)%nat -> exists r', merge fuel seqs = Some r'.
Proof.
  induction fuel as [|n IH]; intros seqs r N S L; cbn [merge]; pose proof (total_filter seqs) as T;
    (destruct (filter nonempty_seq seqs) as [|s0 ss] eqn:E; [eauto|]);
    assert (In s0 (s0 :: ss)) as H0 by (left; reflexivity);
    assert (nonempty_seq s0 = true) as Ne by (rewrite <- E in H0; apply filter_In in H0; tauto).
  - exfalso. destruct s0 as [|x s0]; [discriminate|]. cbn in T. lia.
  - assert (forall s, In s (s0 :: ss) -> subsequence s r) as S'.
    { intros s Hs. apply S. rewrite <- E in Hs. apply filter_In in Hs. tauto. }
    destruct (candidate (s0 :: ss)) as [h|] eqn:C.
    + apply candidate_some in C as (C1 & C2). pose proof (total_drop h _ C1) as D.
      destruct (IH (map (drop_first h) (s0 :: ss)) r N) as (r' & ->); [|lia|eauto].
      intros s Hs. apply in_map_iff in Hs as (s' & <- & Hs'). eapply subsequence_trans; [apply drop_first_sub|auto].
    + exfalso. apply (candidate_none _ C). apply (earliest _ r N S'). exists s0. split; [left; reflexivity|destruct s0; discriminate].
Qed.

(** ** Lists with the same elements *)
Lemma subsequence_all {A} (s l : list A) : subsequence s l -> NoDup l -> (forall x, In x l -> In x s) -> s = l.
Proof.
  induction 1 as [|x s l H IH|x s l H IH]; intros N I; [reflexivity| |]; inversion N as [|? ? N1 N2]; subst.
  - f_equal. apply IH; [exact N2|]. intros y Hy. destruct (I y (or_intror Hy)) as [<-|K]; [contradiction|exact K].
  - exfalso. apply N1. eapply subsequence_in; [exact H|]. apply I. left. reflexivity.
Qed.

(** ** A subclass *)
Lemma find_attr_new w c bs abc attrs w' n : define_class w c bs abc attrs = Ok w' ->
  find_attr w' c n = match dget n attrs with Some a => Some a | None => first_attr w' (tl (mro_of w' c)) n end.
Proof.
  intros H. apply define_class_inv in H as (Nc & _ & os & rest & o & _ & _ & _ & _ & -> & _ & Ea & Em & _).
  unfold find_attr, mro_of. assert (dget c (w ++ [(c, o)]) = Some o) as E by (rewrite dget_app, Nc; cbn; rewrite str_eqb_refl; reflexivity).
  rewrite E, Em. cbn [first_attr tl]. unfold own_attr at 1. rewrite E, Ea. reflexivity.
Qed.
Lemma find_attr_single w c b abc attrs w' n : declared w -> define_class w c [b] abc attrs = Ok w' ->
  find_attr w' c n = match dget n attrs with Some a => Some a | None => find_attr w b n end.
Proof.
  intros D H. pose proof (declared_good _ D) as G. rewrite (find_attr_new _ _ _ _ _ _ _ H). destruct (dget n attrs); [reflexivity|].
  pose proof (declared_good _ (declared_class _ _ _ _ _ _ D H)) as G'.
  pose proof H as H'. apply define_class_inv in H' as (Nc & _ & os & rest & o & F2 & S & N & I & -> & Eb & Ea & Em & _).
  inversion F2 as [|? ob ? ? Hb F3]; subst. inversion F3; subst.
  assert (c_mro ob = rest) as Er.
  { apply subsequence_all; [apply S; left; reflexivity|exact N|]. intros x Hx. destruct (I _ Hx) as (s & [<-|[<-|[]]] & K); [exact K|].
    destruct K as [<-|[]]. destruct (gw_self _ G _ _ Hb) as (r & ->). left. reflexivity. }
  assert (mro_of (w ++ [(c, o)]) c = c :: rest) as E by (unfold mro_of; rewrite dget_app, Nc; cbn; rewrite str_eqb_refl; exact Em).
  rewrite E. cbn [tl]. unfold find_attr, mro_of. rewrite Hb, <- Er. apply first_attr_ext. intros k Hk.
  destruct (gw_classes _ G _ _ _ Hb Hk) as (ok & Ek). unfold own_attr. rewrite dget_app, Ek. reflexivity.
Qed.

(** ** Abstractness *)
Lemma is_abstract_attr_spec o : is_abstract_attr o = true <-> exists a, o = Some a /\ abstract_method a.
Proof.
  split.
  - destruct o as [[kd [|] body| |]|]; try discriminate. intros _. eexists. split; [reflexivity|]. exists kd, body. reflexivity.
  - intros (a & -> & kd & body & ->). reflexivity.
Qed.
Lemma abstract_in_abc_app w x : (forall c o, dget c w = Some o -> dget c (w ++ x) = Some o) -> abstract_in_abc (w ++ x) -> abstract_in_abc w.
Proof. intros H A c o n a E. apply (A c o n a). apply H. exact E. Qed.
Lemma dget_dkeys {A} k (d : dict A) v : dget k d = Some v -> In k (dkeys d).
Proof. induction d as [|[k' v'] d IH]; [discriminate|]. cbn. destruct (str_eqb_reflect k k') as [->|]; auto. Qed.
Lemma abstract_set w : declared w -> abstract_in_abc w -> forall c o n, dget c w = Some o ->
  (In n (c_abstract o) <-> exists a, find_attr w c n = Some a /\ abstract_method a) /\ (In n (c_abstract o) -> c_abc o = true).
Proof.
  induction 1 as [|w c bs abc attrs w' D IH H]; [intros _ c o n E; discriminate|]. intros A k ok n E.
  pose proof (declared_good _ D) as G. pose proof (declared_good _ (declared_class _ _ _ _ _ _ D H)) as G'.
  pose proof (find_attr_new _ _ _ _ _ _ n H) as Fn. pose proof (fun k => find_attr_old _ _ _ _ _ _ k n D H) as Fo.
  apply define_class_inv in H as (Nc & _ & os & rest & o & F2 & S & N & I & -> & Eb & Ea & Em & Eabc & Eabs).
  assert (forall k ok, dget k w = Some ok -> dget k (w ++ [(c, o)]) = Some ok) as Old by (intros k' ok' E'; rewrite dget_app, E'; reflexivity).
  specialize (IH (abstract_in_abc_app _ _ Old A)).
  destruct (dget_snoc _ _ _ _ _ Nc E) as [E'|(-> & ->)].
  - rewrite (Fo k (ex_intro _ _ E')). exact (IH _ _ n E').
  - assert (In n (c_abstract o) -> c_abc o = true) as Q by (rewrite Eabs; destruct (c_abc o); [reflexivity|intros []]).
    split; [|exact Q]. split.
    + intros K. pose proof (Q K) as Q'. rewrite Eabs, Q' in K. apply in_app_or in K as [K|K]; apply filter_In in K as (K1 & K2); apply is_abstract_attr_spec in K2 as (a & E2 & Ha).
      * exists a. split; [rewrite Fn, E2; reflexivity|exact Ha].
      * exists a. auto.
    + intros (a & Ef & Ha). rewrite Fn in Ef. destruct (dget n attrs) as [a'|] eqn:En.
      * injection Ef as ->. assert (c_abc o = true) as Q' by (apply (A c o n a E); [rewrite Ea; exact En|exact Ha]).
        rewrite Eabs, Q'. apply in_or_app. left. apply filter_In. split; [exact (dget_dkeys _ _ _ En)|]. apply is_abstract_attr_spec. eauto.
      * assert (mro_of (w ++ [(c, o)]) c = c :: rest) as Emr by (unfold mro_of; rewrite E; exact Em).
        rewrite Emr in Ef, Fn. cbn [tl] in Ef, Fn. pose proof Ef as Ef'. apply first_attr_spec in Ef' as (before & j & after & Er & Ej & Fb).
        assert (In j rest) as Hj by (rewrite Er; apply in_or_app; right; left; reflexivity).
        assert (exists b ob, In b bs /\ In ob os /\ dget b w = Some ob /\ In j (c_mro ob)) as (b & ob & Hb & Ho & Eo & K).
        { destruct (I _ Hj) as (s & Hs & K). apply in_app_or in Hs as [Hs|[<-|[]]].
          - apply in_map_iff in Hs as (ob & <- & Ho). destruct (forall2_in_r _ _ _ _ F2 Ho) as (b & Hb & Eb'). eauto 7.
          - destruct (forall2_in_l _ _ _ _ F2 K) as (ob & Ho & Eb'). exists j, ob. split; [exact K|]. split; [exact Ho|]. split; [exact Eb'|].
            destruct (gw_self _ G _ _ Eb') as (r & ->). left. reflexivity. }
        assert (subsequence (c_mro ob) rest) as Sb by (apply S; apply in_or_app; left; apply in_map; exact Ho).
        destruct (first_subsequence _ _ _ _ _ _ n Sb N Er K Fb) as (b1 & a1 & Es & Fs).
        assert (find_attr (w ++ [(c, o)]) b n = Some a) as Fbn.
        { unfold find_attr, mro_of. rewrite (Old _ _ Eo). apply first_attr_spec. exists b1, j, a1. auto. }
        rewrite (Fo b (ex_intro _ _ Eo)) in Fbn. destruct (IH b ob n Eo) as (IH1 & IH2).
        assert (In n (c_abstract ob)) as Hn by (apply IH1; eauto).
        assert (c_abc o = true) as Q'. { rewrite Eabc. apply orb_true_iff. right. apply existsb_exists. exists ob. auto. }
        rewrite Eabs, Q'. apply in_or_app. right. apply filter_In. split; [apply in_flat_map; eauto|].
        apply is_abstract_attr_spec. exists a. split; [|exact Ha]. rewrite Fn. exact Ef.
Qed.
Lemma class_is_abstract_iff w c : declared w -> abstract_in_abc w ->
  (class_is_abstract w c = true <-> exists n a, first_definition w c n a /\ abstract_method a).
Proof.
  intros D A. unfold class_is_abstract. destruct (dget c w) as [o|] eqn:E.
  - split.
    + rewrite andb_true_iff, negb_true_iff. intros (_ & H). destruct (c_abstract o) as [|n l] eqn:El; [discriminate|].
      destruct (proj1 (proj1 (abstract_set w D A c o n E))) as (a & Ef & Ha); [rewrite El; left; reflexivity|].
      exists n, a. split; [apply find_attr_spec; exact Ef|exact Ha].
    + intros (n & a & Ef & Ha). apply find_attr_spec in Ef. destruct (abstract_set w D A c o n E) as (I1 & I2).
      assert (In n (c_abstract o)) as K by (apply I1; eauto). rewrite (I2 K). destruct (c_abstract o); [contradiction|reflexivity].
  - split; [discriminate|]. intros (n & a & (b & k & s & Em & _) & _). unfold mro_of in Em. rewrite E in Em. destruct b; discriminate.
Qed.

(** ** Reading attributes *)
Lemma eval_expr_ext get get' e : (forall n, get n = get' n) -> eval_expr get e = eval_expr get' e.
Proof. intros H. induction e as [v|a|e IH]; cbn [eval_expr]; [reflexivity|apply H|rewrite IH; reflexivity]. Qed.
Lemma get_attr_ext f : forall w c w' c' n, (forall m, find_attr w c m = find_attr w' c' m) -> get_attr f w c n = get_attr f w' c' n.
Proof.
  induction f as [|f IH]; intros w c w' c' n H; [reflexivity|]. cbn [get_attr]. rewrite <- H. destruct (find_attr w c n) as [[kd ab body|g|v]|]; try reflexivity.
  rewrite <- H. destruct (find_attr w c g) as [[[| |] ab body|g'|v]|]; try reflexivity; try (apply eval_expr_ext; intros m; apply IH; exact H).
  rewrite (IH w c w' c' g H). reflexivity.
Qed.
Lemma eval_expr_mono get get' e r : (forall n r, get n = r -> r <> Err OutOfFuel -> get' n = r) ->
  eval_expr get e = r -> r <> Err OutOfFuel -> eval_expr get' e = r.
Proof.
  intros H. revert r. induction e as [v|a|e IH]; cbn [eval_expr]; intros r; [auto|auto|].
  destruct (eval_expr get e) as [v|x] eqn:E; intros Hr N.
  - rewrite (IH _ eq_refl ltac:(discriminate)). exact Hr.
  - cbn in Hr. assert (x <> OutOfFuel) as Nx by (intros ->; congruence). rewrite (IH _ eq_refl ltac:(congruence)). exact Hr.
Qed.
Lemma get_attr_mono f : forall f' w c n r, get_attr f w c n = r -> r <> Err OutOfFuel -> (f <= f')%nat -> get_attr f' w c n = r.
Proof.
  induction f as [|f IH]; intros f' w c n r H N L; [cbn in H; congruence|]. destruct f' as [|f']; [lia|]. cbn [get_attr] in *.
  destruct (find_attr w c n) as [[kd ab body|g|v]|]; try exact H.
  assert (forall m r, get_attr f w c m = r -> r <> Err OutOfFuel -> get_attr f' w c m = r) as M by (intros m r' E' N'; apply (IH f' w c m r' E' N'); lia).
  destruct (find_attr w c g) as [[[| |] ab body|g'|v]|]; try exact H; try (eapply eval_expr_mono; eassumption).
  destruct (get_attr f w c g) as [v|x] eqn:E.
  - rewrite (M _ _ E ltac:(discriminate)). exact H.
  - cbn in H. rewrite (M _ _ E ltac:(congruence)). exact H.
Qed.

(** ** Assigning *)
Lemma set_attr_own w c name v w' k n : set_attr w c name v = Ok w' ->
  own_attr w' k n = if str_eqb k c && str_eqb n name then Some (AValue v) else own_attr w k n.
Proof.
  unfold set_attr. destruct (dget c w) as [o|] eqn:E; [|discriminate]. intros H. injection H as <-.
  unfold own_attr. rewrite dget_dset. destruct (str_eqb_reflect k c) as [->|Nk].
  - cbn [c_attrs]. rewrite dget_dset, E. destruct (str_eqb n name); reflexivity.
  - reflexivity.
Qed.
Lemma set_attr_mro w c name v w' k : set_attr w c name v = Ok w' -> mro_of w' k = mro_of w k.
Proof.
  unfold set_attr. destruct (dget c w) as [o|] eqn:E; [|discriminate]. intros H. injection H as <-.
  unfold mro_of. rewrite dget_dset. destruct (str_eqb_reflect k c) as [->|Nk]; [rewrite E|]; reflexivity.
Qed.

(** ** Ancestors *)
Lemma ancestor_mono w w' : (forall c o, dget c w = Some o -> dget c w' = Some o) -> forall k c, ancestor w k c -> ancestor w' k c.
Proof.
  intros H k c A. induction A as [c (o & E)|k b c (o & E & Hb) A IH]; [apply anc_self; exists o; auto|].
  apply (anc_base _ k b); [exists o; auto|exact IH].
Qed.
Lemma mro_ancestor w : declared w -> forall c o k, dget c w = Some o -> In k (c_mro o) -> ancestor w k c.
Proof.
  induction 1 as [|w c bs abc attrs w' D IH H]; [discriminate|]. intros k ok x E Hx.
  pose proof (declared_good _ (declared_class _ _ _ _ _ _ D H)) as G'.
  apply define_class_inv in H as (Nc & _ & os & rest & o & F2 & S & N & I & -> & Eb & _ & Em & _).
  assert (forall k ok, dget k w = Some ok -> dget k (w ++ [(c, o)]) = Some ok) as Old by (intros k' ok' E'; rewrite dget_app, E'; reflexivity).
  destruct (dget_snoc _ _ _ _ _ Nc E) as [E'|(-> & ->)]; [apply (ancestor_mono w _ Old); eauto|].
  destruct (gw_from _ G' _ _ _ E Hx) as [->|(b & ob & Hb & Eo & K)]; [apply anc_self; exists o; exact E|].
  apply (anc_base _ x b); [exists o; auto|]. destruct (dget_snoc _ _ _ _ _ Nc Eo) as [Eo'|(-> & ->)]; [apply (ancestor_mono w _ Old); eauto|].
  exfalso. rewrite Eb in Hb. destruct (forall2_in_l _ _ _ _ F2 Hb) as (oc & _ & Ec). congruence.
Qed.
Lemma ancestor_mro w : declared w -> forall k c, ancestor w k c -> In k (mro_of w c).
Proof.
  intros D k c A. pose proof (declared_good _ D) as G. induction A as [c (o & E)|k b c (o & E & Hb) A IH].
  - unfold mro_of. rewrite E. destruct (gw_self _ G _ _ E) as (r & ->). left. reflexivity.
  - destruct (gw_bases _ G _ _ _ E Hb) as (ob & Eb & Sb). unfold mro_of in *. rewrite Eb in IH. rewrite E. eapply subsequence_in; eassumption.
Qed.

(** ** Successful class statements *)
Lemma define_class_iff w c bs abc attrs : declared w -> dget c w = None -> (forall b, In b bs -> is_class w b) ->
  ((exists w', define_class w c bs abc attrs = Ok w') <->
   NoDup bs /\ exists r, NoDup r /\ subsequence bs r /\ forall b, In b bs -> subsequence (mro_of w b) r).
Proof.
  intros D Nc Hb. assert (exists os, Forall2 (fun b o => dget b w = Some o) bs os) as (os & F2).
  { induction bs as [|b bs IH]; [exists []; constructor|]. destruct IH as (os & F); [intros x Hx; apply Hb; right; exact Hx|].
    destruct (Hb b (or_introl eq_refl)) as (o & E). exists (o :: os). constructor; assumption. }
  split.
  - intros (w' & H). apply define_class_inv in H as (_ & Nb & os' & rest & o & F2' & S & N & _). split; [exact Nb|].
    exists rest. split; [exact N|]. split; [apply S; apply in_or_app; right; left; reflexivity|].
    intros b K. destruct (forall2_in_l _ _ _ _ F2' K) as (ob & Ho & E). unfold mro_of. rewrite E. apply S. apply in_or_app. left. apply in_map. exact Ho.
  - intros (Nb & r & N & Sb & Sm). unfold define_class. rewrite Nc. rewrite (proj2 (bases_of_spec _ _ _) F2).
    apply no_duplicates_spec in Nb. rewrite Nb.
    destruct (merge_complete (length (concat (map c_mro os ++ [bs]))) (map c_mro os ++ [bs]) r N) as (r' & ->); [|lia|eauto].
    intros s Hs. apply in_app_or in Hs as [Hs|[<-|[]]]; [|exact Sb]. apply in_map_iff in Hs as (ob & <- & Ho).
    destruct (forall2_in_r _ _ _ _ F2 Ho) as (b & K & E). specialize (Sm _ K). unfold mro_of in Sm. rewrite E in Sm. exact Sm.
Qed.
Lemma define_class_err w c bs abc attrs e : define_class w c bs abc attrs = Err e -> e = TypeError.
Proof.
  unfold define_class. destruct (dget c w); [congruence|]. destruct (bases_of w bs); [|congruence]. destruct (no_duplicates bs); [|congruence].
  destruct (merge _ _); [discriminate|congruence].
Qed.
Lemma define_all_declared l : forall w w', declared w -> define_all w l = Ok w' -> declared w'.
Proof.
  induction l as [|s l IH]; intros w w' D H; cbn [define_all] in H; [injection H as <-; exact D|].
  destruct (define_class w (s_name s) (s_bases s) (s_abc s) (s_attrs s)) as [w1|] eqn:E; [|discriminate].
  apply (IH w1 w'); [|exact H]. eapply declared_class; eassumption.
Qed.

(** ** What an assignment changes *)
Lemma set_attr_first w c name v w' : set_attr w c name v = Ok w' -> forall l n,
  first_attr w' l n = (if str_eqb n name then
    (fix go l := match l with [] => None | k :: l' => if str_eqb k c then Some (AValue v) else match own_attr w k n with Some a => Some a | None => go l' end end) l
    else first_attr w l n).
Proof.
  intros H l n. induction l as [|k l IH]; [destruct (str_eqb n name); reflexivity|]. cbn [first_attr]. rewrite (set_attr_own _ _ _ _ _ k n H).
  destruct (str_eqb n name) eqn:En; [|rewrite andb_false_r; destruct (own_attr w k n); [reflexivity|exact IH]].
  rewrite andb_true_r. destruct (str_eqb k c); [reflexivity|]. destruct (own_attr w k n); [reflexivity|exact IH].
Qed.
Lemma consults_dec w k c name : consults w k c name \/ ~ consults w k c name.
Proof.
  unfold consults. generalize (mro_of w k). intros l. induction l as [|x l IH].
  - right. intros (b & s & E & _). destruct b; discriminate.
  - destruct (str_eqb x c) eqn:E; [apply str_eqb_spec in E; subst x; left; exists [], l; auto|].
    destruct (own_attr w x name) as [a|] eqn:Eo.
    + right. intros (b & s & El & F). destruct b as [|y b]; [injection El as -> ->; rewrite str_eqb_refl in E; discriminate|].
      injection El as -> ->. inversion F as [|? ? F1 F2]; subst. apply (F1 a). apply own_attr_defines. exact Eo.
    + destruct IH as [(b & s & El & F)|IH].
      * left. exists (x :: b), s. split; [cbn; congruence|]. constructor; [apply own_attr_none; exact Eo|exact F].
      * right. intros (b & s & El & F). destruct b as [|y b]; [injection El as -> ->; rewrite str_eqb_refl in E; discriminate|].
        injection El as -> ->. inversion F; subst. apply IH. eauto.
Qed.
Lemma set_attr_find w c name v w' k n : set_attr w c name v = Ok w' ->
  (n = name -> consults w k c name -> find_attr w' k n = Some (AValue v)) /\
  (~ (n = name /\ consults w k c name) -> find_attr w' k n = find_attr w k n).
Proof.
  intros H. unfold find_attr. rewrite (set_attr_mro _ _ _ _ _ k H), (set_attr_first _ _ _ _ _ H). unfold consults.
  generalize (mro_of w k). intros l. destruct (str_eqb_reflect n name) as [->|Nn].
  - split.
    + intros _ (b & s & -> & F). induction b as [|x b IH]; cbn [app].
      * rewrite str_eqb_refl. reflexivity.
      * inversion F as [|? ? F1 F2]; subst. apply own_attr_none in F1. rewrite F1, (IH F2). destruct (str_eqb x c); reflexivity.
    + intros K. assert (~ exists before after, l = before ++ c :: after /\ Forall (fun k' => forall a, ~ defines w k' name a) before) as K' by tauto. clear K.
      induction l as [|x l IH]; [reflexivity|]. cbn [first_attr]. destruct (str_eqb_reflect x c) as [->|Nx]; [destruct K'; exists [], l; auto|].
      destruct (own_attr w x name) as [a|] eqn:E; [reflexivity|]. apply IH. intros (b & s & -> & F). apply K'. exists (x :: b), s.
      split; [reflexivity|]. constructor; [apply own_attr_none; exact E|exact F].
  - split; [congruence|reflexivity].
Qed.
