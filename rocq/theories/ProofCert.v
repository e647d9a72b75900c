(** Certificate fields: reading, setting and ordering of options. *)
From Coq Require Import Permutation Sorted.
From Verif Require Import PyBase IntBytes Utf8 StructFmt Stream Text Classes Key.
From Verif Require Import SpecWire SpecKey SpecCert.
From Verif Require Import ProofBase ProofInt ProofUtf8 ProofWire ProofRecord ProofKey ProofLog ProofErr ProofList.
From Verif Require Import Props_Stream ProofCrypto.
Open Scope Z_scope.

(** ** UTF-8 keeps the order of code points *)
Lemma Zb_to_N x : Zb x = Z.of_N (Byte.to_N x).
Proof. reflexivity. Qed.
Definition differs (a b : list N) : Prop :=
  exists c x y a' b', a = c ++ x :: a' /\ b = c ++ y :: b' /\ (x < y)%N.
Lemma differs_here x y a b : (x < y)%N -> differs (x :: a) (y :: b).
Proof. intros H. exists [], x, y, a, b. auto. Qed.
Lemma differs_next x a b : differs a b -> differs (x :: a) (x :: b).
Proof. intros (c & y & z & a' & b' & -> & -> & H). exists (x :: c), y, z, a', b'. auto. Qed.
Lemma utf8_char_order c d u v : utf8_char c u -> utf8_char d v -> (c < d)%N -> differs u v.
Proof.
  intros Hu Hv L.
  inversion Hu; subst; inversion Hv; subst; try (apply differs_here; lia); try (exfalso; lia);
    repeat match goal with |- differs (?a :: _) (?b :: _) =>
      let K := fresh in destruct (N.lt_trichotomy a b) as [K|[K|K]]; [apply differs_here; exact K | rewrite K; apply differs_next | exfalso; lia] end;
    exfalso; lia.
Qed.
Lemma utf8_char_functional c u v : utf8_char c u -> utf8_char c v -> u = v.
Proof.
  intros Hu Hv. inversion Hu; subst; inversion Hv; subst; try (exfalso; lia); try reflexivity; repeat (f_equal; try lia).
Qed.
Lemma map_split {A B} (f : A -> B) l c x r : map f l = c ++ x :: r ->
  exists c' x' r', l = c' ++ x' :: r' /\ map f c' = c /\ f x' = x /\ map f r' = r.
Proof.
  revert l; induction c as [|y c IH]; intros l H; destruct l as [|z l]; try discriminate; cbn in H.
  - injection H as H1 H2. exists [], z, l. auto.
  - injection H as H1 H2. destruct (IH _ H2) as (c' & x' & r' & -> & <- & <- & <-). exists (z :: c'), x', r'. subst. auto.
Qed.
Lemma to_N_map_inj a b : map Byte.to_N a = map Byte.to_N b -> a = b.
Proof.
  revert b; induction a as [|x a IH]; intros [|y b] H; try discriminate; [reflexivity|].
  cbn in H. injection H as H1 H2. f_equal; [|apply IH; exact H2]. apply Zb_inj. rewrite !Zb_to_N. congruence.
Qed.
Lemma bytes_before_app c a b : bytes_before a b -> bytes_before (c ++ a) (c ++ b).
Proof.
  intros [(y & b' & ->)|(d & x & y & a' & b' & -> & -> & L)].
  - left. exists y, b'. apply app_assoc.
  - right. exists (c ++ d), x, y, a', b'. rewrite <- !app_assoc. auto.
Qed.
Lemma utf8_nonempty c u : utf8_char c (map Byte.to_N u) -> u <> [].
Proof. intros H E. subst. inversion H. Qed.
(** Comparing code points (Python's str order) is comparing UTF-8 bytes. *)
Lemma utf8_order s t u v : str_ltb s t = true -> utf8 s u -> utf8 t v -> bytes_before u v.
Proof.
  revert t u v; induction s as [|c s IH]; intros [|d t] u v L Hu Hv; try discriminate.
  - inversion Hu; subst. inversion Hv as [|? ? w b Hw Hb]; subst. left.
    destruct w as [|y w]; [exfalso; eapply utf8_nonempty; [exact Hw|reflexivity]|]. exists y, (w ++ b). reflexivity.
  - inversion Hu as [|? ? w b Hw Hb]; subst. inversion Hv as [|? ? w' b' Hw' Hb']; subst. cbn [str_ltb] in L.
    apply orb_true_iff in L as [L|L].
    + apply N.ltb_lt in L. destruct (utf8_char_order _ _ _ _ Hw Hw' L) as (p & x & y & r & r' & E & E' & Lxy).
      apply map_split in E as (p1 & x1 & r1 & -> & <- & <- & <-). apply map_split in E' as (p2 & x2 & r2 & -> & Ep & <- & <-).
      apply to_N_map_inj in Ep. subst p2. right. exists p1, x1, x2, (r1 ++ b), (r2 ++ b'). rewrite <- !app_assoc.
      split; [reflexivity|]. split; [reflexivity|]. rewrite !Zb_to_N. lia.
    + apply andb_true_iff in L as (Ec & L). apply N.eqb_eq in Ec. subst d.
      pose proof (utf8_char_functional _ _ _ Hw Hw') as Ew. apply to_N_map_inj in Ew. subst w'.
      apply bytes_before_app. eapply IH; eassumption.
Qed.

(** ** sorted() *)
Lemma str_ltb_irrefl s : str_ltb s s = false.
Proof. induction s as [|x s IH]; [reflexivity|]. cbn [str_ltb]. rewrite IH, N.ltb_irrefl, andb_false_r. reflexivity. Qed.
Lemma str_ltb_trans a b c : str_ltb a b = true -> str_ltb b c = true -> str_ltb a c = true.
Proof.
  revert b c; induction a as [|x a IH]; intros [|y b] [|z c] H1 H2; try discriminate; [reflexivity|].
  cbn [str_ltb] in *. rewrite orb_true_iff, andb_true_iff, N.ltb_lt, N.eqb_eq in *.
  destruct H1 as [H1|(-> & H1)], H2 as [H2|(-> & H2)]; try (left; lia). right. split; [reflexivity|]. eapply IH; eassumption.
Qed.
Lemma str_ltb_total a b : str_ltb a b = false -> a = b \/ str_ltb b a = true.
Proof.
  revert b; induction a as [|x a IH]; intros [|y b] H; try discriminate; [left; reflexivity|right; reflexivity|].
  cbn [str_ltb] in *. apply orb_false_iff in H as (H1 & H2). apply N.ltb_ge in H1.
  destruct (N.eqb_spec x y) as [->|N].
  - cbn in H2. destruct (IH _ H2) as [->|K]; [left; reflexivity|]. right. rewrite N.eqb_refl, K. apply orb_true_r.
  - right. apply orb_true_iff. left. apply N.ltb_lt. lia.
Qed.
Lemma insert_perm x l : Permutation (insert_str x l) (x :: l).
Proof.
  induction l as [|y l IH]; [reflexivity|]. cbn [insert_str]. destruct (str_ltb y x); [|reflexivity].
  rewrite IH. apply perm_swap.
Qed.
Lemma sorted_perm l : Permutation (sorted_strs l) l.
Proof. unfold sorted_strs. induction l as [|x l IH]; [reflexivity|]. cbn [fold_right]. rewrite insert_perm, IH. reflexivity. Qed.
Definition before (a b : pystr) : Prop := str_ltb a b = true.
Lemma insert_sorted x l : ~ In x l -> StronglySorted before l -> StronglySorted before (insert_str x l).
Proof.
  intros N H. induction H as [|y l H IH F]; cbn [insert_str]; [repeat constructor|].
  destruct (str_ltb y x) eqn:E.
  - constructor; [apply IH; intros K; apply N; right; exact K|]. rewrite Forall_forall in *. intros z Hz.
    apply (Permutation_in _ (insert_perm x l)) in Hz as [<-|Hz]; [exact E|auto].
  - destruct (str_ltb_total _ _ E) as [->|K]; [exfalso; apply N; left; reflexivity|].
    constructor; [constructor; assumption|]. constructor; [exact K|]. eapply Forall_impl; [|exact F].
    intros z Hz. eapply str_ltb_trans; eassumption.
Qed.
Lemma sorted_sorted l : NoDup l -> StronglySorted before (sorted_strs l).
Proof.
  intros N. unfold sorted_strs. induction N as [|x l Nx N IH]; [constructor|]. cbn [fold_right]. apply insert_sorted; [|exact IH].
  intros K. apply Nx. apply (Permutation_in _ (sorted_perm l)). exact K.
Qed.
Lemma sorted_nth l i j n m : StronglySorted before l -> (i < j)%nat -> nth_error l i = Some n -> nth_error l j = Some m -> before n m.
Proof.
  intros H. revert i j; induction H as [|y l H IH F]; intros i j L Hi Hj; [destruct i; discriminate|].
  destruct j as [|j]; [lia|]. destruct i as [|i]; cbn in Hi, Hj.
  - injection Hi as <-. rewrite Forall_forall in F. apply F. eapply nth_error_In; exact Hj.
  - apply (IH i j); [lia|assumption..].
Qed.

(** ** Reading options *)
Definition option_record (o : pystr * bytes) : dict pyval := [(str "option", VStr (fst o)); (str "value", VBytes (snd o))].
Definition option_types2 : list (pystr * ftype) := [(str "option", TText 4); (str "value", TBytes 4)].
Lemma option_record_iff o x : option_of o x <-> record_of wire option_types2 (option_record o) x.
Proof.
  split.
  - intros (n & v & Wn & Pv & ->). constructor; [exact Wn|]. apply record_one. constructor. exact Pv.
  - intros R. inversion R as [|? ? ? v ? n ? Wn R0]; subst. apply record_one_inv in R0 as (w & E & Wv). injection E as <-.
    inversion Wv; subst. exists n, bs. auto.
Qed.
Lemma record_option d x : record_of wire option_types2 d x -> exists o, d = option_record o /\ option_of o x.
Proof.
  intros R. inversion R as [|? ? ? v ? n ? Wn R0]; subst. apply record_one_inv in R0 as (w & -> & Wv).
  inversion Wn; subst. inversion Wv; subst. eexists (_, _). split; [reflexivity|]. exists n, bs. auto.
Qed.
Definition encodable_option (o : pystr * bytes) : Prop := exists x, option_of o x.
Lemma read_records_are_options vs :
  Forall (fun d => exists s1 s2, read_dict options_fmt s1 = (s2, Ok d)) vs ->
  exists l, vs = map option_record l /\ Forall encodable_option l.
Proof.
  induction 1 as [|d vs (s1 & s2 & R) H (l & -> & E)]; [exists []; auto|].
  destruct (read_dict_sound _ _ _ _ _ option_types R) as (b & Rr & _). apply record_option in Rr as (o & -> & Ho).
  exists (o :: l). split; [reflexivity|]. constructor; [exists b; exact Ho|exact E].
Qed.
Definition dict_of_options (acc : dict pyval) (l : list (pystr * bytes)) : dict pyval :=
  fold_left (fun a o => dset (fst o) (VBytes (snd o)) a) l acc.
Lemma collect_eq param acc l : snd (collect_options param acc (map option_record l)) = Ok (dict_of_options acc l).
Proof.
  revert acc; induction l as [|o l IH]; intros acc; [reflexivity|]. cbn [map collect_options].
  change (dget (str "option") (option_record o)) with (Some (VStr (fst o))).
  change (dget (str "value") (option_record o)) with (Some (VBytes (snd o))).
  cbv iota beta. rewrite snd_wseq_ok by apply snd_wwhen. apply IH.
Qed.
Lemma options_read_iff param d opts :
  snd (get_option_values_dict param d) = Ok opts ->
  exists b l, dget param d = Some (VBytes b) /\ Forall encodable_option l /\ opts = dict_of_options [] l.
Proof.
  unfold get_option_values_dict. intros H. apply snd_wbind in H as (v & Hv & H). rewrite snd_wlift in Hv.
  apply snd_wbind in H as (s & Hs & H). rewrite snd_wlift in Hs. apply snd_wbind in H as (vs & Hvs & H). rewrite snd_wlift in Hvs.
  unfold ditem in Hv. destruct (dget param d) as [w|] eqn:G; [|discriminate]. injection Hv as ->.
  unfold stream_of_val in Hs. destruct v; try discriminate. 
  destruct (read_repeatedly options_fmt s) as [s' r] eqn:E. cbn [snd] in Hvs. subst r. apply read_repeatedly_records in E.
  apply read_records_are_options in E as (l & -> & F). rewrite collect_eq in H. apply Ok_inj in H as <-. eauto.
Qed.
Lemma options_list_eq param d b l :
  dget param d = Some (VBytes b) -> options_list l b -> Z.of_nat (length b) <= ssize_max ->
  get_option_values_dict param d = collect_options param [] (map option_record l).
Proof.
  intros G (xs & F & ->) L. unfold get_option_values_dict, ditem. rewrite G. unfold wlift at 1 2. cbn [wbind stream_of_val app].
  destruct (proj2 (C13_repeated_read_partial options_fmt option_types2 (stream_of (concat xs)) (map option_record l) option_types eq_refl L)) as (s' & E).
  - exists xs, []. split; [|split; [rewrite app_nil_r; reflexivity|constructor; reflexivity]].
    clear G L. induction F as [|o x l xs H F IH]; constructor; [apply option_record_iff; exact H|exact IH].
  - rewrite E. unfold wlift. cbn [snd wbind app]. destruct (collect_options param [] (map option_record l)). reflexivity.
Qed.
Lemma options_list_read param d b l :
  dget param d = Some (VBytes b) -> options_list l b -> Z.of_nat (length b) <= ssize_max ->
  snd (get_option_values_dict param d) = Ok (dict_of_options [] l).
Proof. intros G O L. rewrite (options_list_eq _ _ _ _ G O L). apply collect_eq. Qed.
Lemma find_dget key (opts : dict pyval) :
  match find (fun kv => str_eqb key (fst kv)) opts with Some (k, _) => dget k opts | None => None end = dget key opts.
Proof.
  destruct (find (fun kv => str_eqb key (fst kv)) opts) as [(k, v)|] eqn:E.
  - apply find_some in E as (_ & E). cbn [fst] in E. apply str_eqb_spec in E. subst. reflexivity.
  - symmetry. apply dget_None. intros H. apply in_map_iff in H as ((k, v) & <- & Hin). apply (find_none _ _ E) in Hin.
    cbn [fst] in Hin. rewrite str_eqb_refl in Hin. discriminate.
Qed.
Lemma get_option_eq param o d r :
  snd (get_option_from_param param o d) = Ok r <->
  option_guard o d = Ok tt /\ exists opts, snd (get_option_values_dict param d) = Ok opts /\ r = dget (option_key o) opts.
Proof.
  unfold get_option_from_param. split.
  - intros H. apply snd_wbind in H as ([] & Hg & H). rewrite snd_wlift in Hg. apply snd_wbind in H as (opts & Ho & H).
    rewrite find_dget in H. apply Ok_inj in H as <-. eauto.
  - intros (Hg & opts & Ho & ->). rewrite Hg. unfold wlift. cbn [wbind app].
    destruct (get_option_values_dict param d) as [lg r0]. cbn [snd] in Ho. subst r0. cbn [wbind]. rewrite find_dget. reflexivity.
Qed.
Lemma dget_dict_of_options l acc name :
  (exists v, option_value l name (Some v) /\ dget name (dict_of_options acc l) = Some (VBytes v)) \/
  (option_value l name None /\ dget name (dict_of_options acc l) = dget name acc).
Proof.
  revert acc; induction l as [|(n, v) l IH]; intros acc; [right; split; [intros []|reflexivity]|].
  cbn [dict_of_options fold_left fst snd]. destruct (IH (dset n (VBytes v) acc)) as [(w & (l1 & l2 & -> & N) & G)|(N & G)].
  - left. exists w. split; [exists ((n, v) :: l1), l2; auto|exact G].
  - change (fold_left (fun a o => dset (fst o) (VBytes (snd o)) a) l (dset n (VBytes v) acc)) with (dict_of_options (dset n (VBytes v) acc) l).
    rewrite G, dget_dset. destruct (str_eqb_reflect name n) as [->|Ne].
    + left. exists v. split; [exists [], l; auto|reflexivity].
    + right. split; [|reflexivity]. intros [K|K]; [apply Ne; symmetry; exact K|contradiction].
Qed.
Lemma option_value_fun l name r r' : option_value l name r -> option_value l name r' -> r = r'.
Proof.
  destruct r as [v|], r' as [w|]; cbn; [|intros (l1 & l2 & -> & _) H; exfalso; apply H; rewrite map_app; apply in_or_app; right; left; reflexivity|
    intros H (l1 & l2 & -> & _); exfalso; apply H; rewrite map_app; apply in_or_app; right; left; reflexivity|reflexivity].
  intros (l1 & l2 & E & N) (k1 & k2 & E' & N'). f_equal. subst l. revert k1 E'. induction l1 as [|o l1 IH]; intros [|o' k1] E'; cbn in E'.
  - injection E'. auto.
  - injection E' as Eo E'. exfalso. apply N. rewrite E', map_app. apply in_or_app. right. left. reflexivity.
  - injection E' as Eo E'. exfalso. apply N'. rewrite <- E', map_app. apply in_or_app. right. left. reflexivity.
  - injection E' as _ E'. eapply IH. exact E'.
Qed.
Lemma dict_of_options_nodup acc l : NoDup (dkeys acc) -> NoDup (dkeys (dict_of_options acc l)).
Proof. revert acc; induction l as [|o l IH]; intros acc N; [exact N|]. apply IH, NoDup_dset, N. Qed.

(** ** Writing options *)
Lemma pack_repeated f l : pack_with (write_repeatedly f l) = dicts_bytes f l.
Proof.
  unfold pack_with. pose proof (write_repeatedly_spec f l (stream_of [])) as H.
  destruct (dicts_bytes f l) as [b|e]; [rewrite H, bio_write_fresh; reflexivity|]. destruct H as (s' & ->). reflexivity.
Qed.
Lemma option_bytes o v x : dict_bytes options_fmt [(str "option", VStr o); (str "value", v)] = Ok x <->
  exists u, v = VBytes u /\ option_of (o, u) x.
Proof.
  unfold options_fmt, fld. cbn [dict_bytes].
  change (ditem (str "option") [(str "option", VStr o); (str "value", v)]) with (Ok (VStr o)).
  change (ditem (str "value") [(str "option", VStr o); (str "value", v)]) with (Ok v). cbn [rbind]. split.
  - intros H. apply rbind_ok in H as (n & Hn & H). apply rbind_ok in H as (y & Hy & H). apply Ok_inj in H as <-.
    apply rbind_ok in Hy as (z & Hz & Hy). apply Ok_inj in Hy as <-. apply text_iff in Hn.
    assert (exists u, v = VBytes u) as (u & ->).
    { cbn [instr_bytes fB] in Hz. unfold write_pascal in Hz. apply rbind_ok in Hz as (u & Hu & _). destruct v; try discriminate. eauto. }
    apply octets_iff in Hz. exists u. split; [reflexivity|]. exists n, z. rewrite app_nil_r. auto.
  - intros (u & -> & n & z & Hn & Hz & ->). apply text_iff in Hn. apply octets_iff in Hz. cbn [fst snd] in *. rewrite Hn. cbn [rbind]. rewrite Hz. cbn [rbind].
    rewrite app_nil_r. reflexivity.
Qed.
Lemma pack_options_aux (opts : dict pyval) ks b :
  (do? l <- rmap (fun o => do? v <- ditem o opts; Ok [(str "option", VStr o); (str "value", v)]) ks; dicts_bytes options_fmt l) = Ok b <->
  exists l, options_list l b /\ map fst l = ks /\ forall name v, In (name, v) l -> dget name opts = Some (VBytes v).
Proof.
  revert b; induction ks as [|k ks IH]; intros b.
  - cbn [rmap rbind dicts_bytes]. split.
    + intros H. apply Ok_inj in H as <-. exists []. split; [exists []; split; [constructor|reflexivity]|]. split; [reflexivity|intros ? ? []].
    + intros (l & (xs & F & ->) & E & _). destruct l; [|discriminate]. inversion F. reflexivity.
  - cbn [rmap]. unfold ditem at 1. split.
    + intros H. apply rbind_ok in H as (recs & Hr & H). destruct (dget k opts) as [v|] eqn:G; [|discriminate]. cbn [rbind] in Hr.
      apply rbind_ok in Hr as (recs' & Hr & E). apply Ok_inj in E as <-. cbn [dicts_bytes] in H.
      apply rbind_ok in H as (x & Hx & H). apply rbind_ok in H as (y & Hy & H). apply Ok_inj in H as <-.
      apply option_bytes in Hx as (u & -> & Hx).
      destruct (proj1 (IH y)) as (l & (xs & F & ->) & E & D); [rewrite Hr; exact Hy|].
      exists ((k, u) :: l). split; [exists (x :: xs); split; [constructor; assumption|reflexivity]|].
      split; [cbn; f_equal; exact E|]. intros name w [K|K]; [injection K as <- <-; exact G|auto].
    + intros (l & (xs & F & ->) & E & D). destruct l as [|(k', u) l]; [discriminate|]. cbn in E. injection E as -> E.
      inversion F as [|? x ? xs' Hx F']; subst. rewrite (D k u) by (left; reflexivity). cbn [rbind].
      assert (exists l0, options_list l0 (concat xs') /\ map fst l0 = map fst l /\ forall name v, In (name, v) l0 -> dget name opts = Some (VBytes v)) as K.
      { exists l. split; [exists xs'; auto|]. split; [reflexivity|]. intros name v H. apply D. right. exact H. }
      apply IH in K. apply rbind_ok in K as (recs & Hr & K). rewrite Hr. cbn [rbind dicts_bytes].
      rewrite (proj2 (option_bytes k (VBytes u) x)) by (exists u; auto). cbn [rbind]. rewrite K. reflexivity.
Qed.
Lemma pack_options_iff opts b :
  pack_options opts fB = Ok b <->
  exists l, options_list l b /\ map fst l = sorted_strs (dkeys opts) /\ forall name v, In (name, v) l -> dget name opts = Some (VBytes v).
Proof.
  rewrite <- pack_options_aux. unfold pack_options.
  destruct (rmap (fun o => do? v <- ditem o opts; Ok [(str "option", VStr o); (str "value", v)]) (sorted_strs (dkeys opts))) as [l|e]; cbn [rbind]; [|reflexivity].
  rewrite pack_repeated. reflexivity.
Qed.
Lemma repacked_options opts l b :
  options_list l b -> map fst l = sorted_strs (dkeys opts) -> (forall name v, In (name, v) l -> dget name opts = Some (VBytes v)) ->
  forall name, dget name (dict_of_options [] l) = dget name opts.
Proof.
  intros _ E D name. destruct (dget_dict_of_options l [] name) as [(v & (l1 & l2 & -> & _) & ->)|(N & ->)].
  - symmetry. apply D. apply in_or_app. right. left. reflexivity.
  - symmetry. apply dget_None. intros K. apply N. rewrite E. apply (Permutation_in _ (Permutation_sym (sorted_perm _))). exact K.
Qed.
Lemma set_option_iff param o v d d' :
  snd (set_option_for_param param o v d) = Ok d' <->
  option_guard o d = Ok tt /\ exists opts b, snd (get_option_values_dict param d) = Ok opts /\
    pack_options (dset (option_key o) v opts) fB = Ok b /\ d' = dset param (VBytes b) d.
Proof.
  unfold set_option_for_param. split.
  - intros H. apply snd_wbind in H as ([] & Hg & H). rewrite snd_wlift in Hg. apply snd_wbind in H as (opts & Ho & H).
    apply snd_wbind in H as (b & Hb & H). rewrite snd_wlift in Hb. apply Ok_inj in H as <-. split; [exact Hg|]. eauto.
  - intros (Hg & opts & b & Ho & Hb & ->). apply snd_wbind. exists tt. rewrite snd_wlift. split; [exact Hg|].
    apply snd_wbind. exists opts. split; [exact Ho|]. apply snd_wbind. exists b. rewrite snd_wlift. split; [exact Hb|reflexivity].
Qed.
Lemma guard_dset o param b d : param <> str "type" -> option_guard o (dset param b d) = option_guard o d.
Proof.
  intros N. destruct o; [|reflexivity]. cbn [option_guard]. unfold get_type, ditem.
  rewrite dget_dset_other by (intros K; apply N; symmetry; exact K). reflexivity.
Qed.
Lemma set_option_effect param o v d d' b' :
  param <> str "type" -> snd (set_option_for_param param o v d) = Ok d' ->
  dget param d' = Some (VBytes b') -> Z.of_nat (length b') <= ssize_max ->
  exists opts opts' l, snd (get_option_values_dict param d) = Ok opts /\ snd (get_option_values_dict param d') = Ok opts' /\
    option_guard o d = Ok tt /\ (forall a, option_guard a d' = option_guard a d) /\
    (exists v', v = VBytes v') /\ options_list l b' /\ lexically_ordered l /\ NoDup (map fst l) /\
    (forall name, dget name opts' = dget name (dset (option_key o) v opts)) /\
    (forall x, x <> param -> dget x d' = dget x d).
Proof.
  intros Np H Gb Lb. apply set_option_iff in H as (Hg & opts & b & Ho & Hb & ->).
  rewrite dget_dset_same in Gb. injection Gb as ->. apply pack_options_iff in Hb as (l & Ol & El & Dl).
  destruct (options_read_iff _ _ _ Ho) as (b0 & l0 & G0 & _ & E0).
  assert (NoDup (dkeys (dset (option_key o) v opts))) as Nd by (apply NoDup_dset; subst opts; apply dict_of_options_nodup; constructor).
  assert (NoDup (map fst l)) as Nl by (rewrite El; apply (Permutation_NoDup (Permutation_sym (sorted_perm _))); exact Nd).
  exists opts, (dict_of_options [] l), l. split; [exact Ho|].
  split; [apply (options_list_read _ _ b'); [apply dget_dset_same|exact Ol|exact Lb]|].
  split; [exact Hg|]. split; [intros a; apply guard_dset; exact Np|]. split.
  { assert (In (option_key o) (map fst l)) as K.
    { rewrite El. apply (Permutation_in _ (Permutation_sym (sorted_perm _))).
      destruct (in_dec (fun a b => reflect_dec _ _ (str_eqb_reflect a b)) (option_key o) (dkeys (dset (option_key o) v opts))) as [I|N]; [exact I|].
      apply dget_None in N. rewrite dget_dset_same in N. discriminate. }
    apply in_map_iff in K as ((n, w) & En & K). cbn in En. subst n. apply Dl in K. rewrite dget_dset_same in K. injection K as ->. eauto. }
  split; [exact Ol|]. split.
  { intros i j n m u w Lij Hi Hj Hu Hw. eapply utf8_order; [|exact Hu|exact Hw]. rewrite El in Hi, Hj.
    apply (sorted_nth _ i j n m (sorted_sorted _ Nd) Lij Hi Hj). }
  split; [exact Nl|]. split; [apply (repacked_options _ _ b'); assumption|].
  intros x Nx. apply dget_dset_other. exact Nx.
Qed.

(** ** Warnings about certificates *)
Definition quiet {A} (x : W A) : Prop := forall w, In (Warn w) (fst x) -> is_cert_warning w = false.
Lemma quiet_seq {B} (x : W unit) (y : W B) : quiet x -> quiet y -> quiet (wseq x y).
Proof.
  unfold quiet, wseq. destruct x as [l [[]|e]]; cbn [wbind fst]; [|auto].
  destruct y as [l' r]. cbn [fst]. intros H H' w K. apply in_app_or in K as [K|K]; auto.
Qed.
Lemma quiet_when b w : is_cert_warning w = false -> quiet (wwhen b (wwarn w)).
Proof. intros N w'. destruct b; [|intros []]. intros [K|[]]. congruence. Qed.
Lemma quiet_ret {A} (a : A) : quiet (wret a).
Proof. intros w []. Qed.
Lemma quiet_check_dict d f : quiet (check_dict d f).
Proof.
  induction f as [|(k, i) f IH]; [apply quiet_ret|]. cbn [check_dict].
  apply quiet_seq; [|exact IH]. unfold check_field.
  destruct (dget k d) as [v|]; [|intros w [K|[]]; injection K as <-; reflexivity].
  destruct i; [destruct (struct_pack _ _) as [u|[]] | destruct (is_instance _ _) | destruct (is_instance _ _) |];
    intros w K; cbn [fst wret wwarn werr In] in K; repeat (destruct K as [K|K]; [injection K as <-; reflexivity|]); contradiction.
Qed.
Section Ec.
Variable ec : curve -> bytes -> bool.
Lemma check_step_plain pp c d s ts : format_types (format_of c) ts -> s <> StCert ->
  quiet (check_step ec pp c d s) /\ snd (check_step ec pp c d s) = Ok tt.
Proof.
  intros F N. split.
  - destruct s; cbn [check_step].
    + apply quiet_check_dict.
    + unfold check_ecdsa. destruct (dget _ d); [|apply quiet_ret].
      apply quiet_seq; [apply quiet_when; reflexivity|].
      destruct (get_bytes "q" d); [apply quiet_when; reflexivity|apply quiet_ret].
    + unfold check_ed_pub. destruct (get_bytes "public" d); [apply quiet_when; reflexivity|apply quiet_ret].
    + unfold check_ed_priv. destruct (get_bytes "private_public" d); [|apply quiet_ret].
      destruct (get_bytes "public" d); [|apply quiet_ret].
      apply quiet_seq; apply quiet_when; reflexivity.
    + contradiction.
  - pose proof (run_steps_no_raise ec pp c d [s] ts F) as H. cbn [run_steps] in H.
    assert (~ In StCert [s]) as N' by (intros [K|[]]; congruence). apply H in N'.
    destruct (check_step ec pp c d s) as [l [[]|e]]; [reflexivity|discriminate].
Qed.
Lemma run_steps_quiet pp c d l ts : format_types (format_of c) ts -> ~ In StCert l -> quiet (run_steps ec pp c d l).
Proof.
  intros F. induction l as [|s l IH]; intros N; [apply quiet_ret|]. cbn [run_steps].
  apply quiet_seq; [|apply IH; intros K; apply N; right; exact K].
  apply (check_step_plain pp c d s ts F). intros ->. apply N. left. reflexivity.
Qed.
(** Parsing a plain key says nothing about certificates. *)
Lemma plain_parse_quiet kd cl b l k t pub priv :
  key_from_bytes ec kd b cl = (l, Ok k) -> In (t, (pub, Some priv)) key_specs -> is_key t k ->
  forall w, In (Warn w) l -> is_cert_warning w = false.
Proof.
  intros H Hs (Hk & Hc). destruct (key_from_bytes_sound _ _ _ _ _ _ H) as
    (t' & pub' & priv' & ts & ps & fo & b1 & rest & c & l1 & k1 & Hs' & Hf & _ & _ & _ & Hc' & _ & Nk & -> & E).
  assert (t' = t) as ->.
  { destruct rest; destruct E as (_ & ->); cbn [with_remainder k_header dget] in Hk; rewrite str_eqb_refl in Hk; congruence. }
  assert (quiet (l1, Ok k)) as Q.
  { apply new_key_inv in Nk as (kt & c' & l2 & G & Hc2 & _ & Np & ->). cbn [dget] in G. rewrite str_eqb_refl in G. injection G as <-.
    assert (c' = c) as -> by congruence.
    destruct (spec_of_class _ _ _ Hc') as (ts' & F & _).
    assert (quiet (new_params ec (parse_pub ec) c ps)) as Q.
    { pose proof (plain_no_cert _ _ _ _ _ Hs Hc') as N. unfold new_params. generalize (check_plan c) N.
      intros pl N'. exact (run_steps_quiet (parse_pub ec) c ps pl ts' F N'). }
    rewrite Np in Q.
    intros w K. cbn [fst] in K. apply in_app_or in K as [K|K]; [exact (quiet_check_dict _ _ w K)|].
    apply in_app_or in K as [K|K]; [exact (Q w K)|exact (quiet_check_dict _ _ w K)]. }
  intros w K. destruct rest; destruct E as (-> & _); [exact (Q w K)|].
  apply in_app_or in K as [K|[K|[]]]; [exact (Q w K)|injection K as <-; reflexivity].
Qed.

(** ** check_cert *)
Definition raises {A} (x : W A) : Prop := exists e, snd x = Err e.
Lemma raises_seq {B} (x : W unit) (y : W B) : raises (wseq x y) <-> raises x \/ raises y.
Proof.
  unfold raises, wseq. destruct x as [l [[]|e]]; cbn [wbind snd].
  - destruct y as [l' r]. cbn [snd]. split; [auto|]. intros [(e & K)|K]; [discriminate|exact K].
  - split; [eauto|]. intros [(e1 & K)|_]; eauto.
Qed.
Lemma raises_catch {A} (x : W A) h w : raises (wcatch (wdiscard x) h (fun _ => wwarn w)) <-> exists e, snd x = Err e /\ h e = false.
Proof.
  unfold raises, wdiscard. destruct x as [l [a|e]]; cbn [wbind wret snd wcatch].
  - split; intros (e & K); [discriminate|]. destruct K. discriminate.
  - destruct (h e) eqn:He; cbn [wwarn snd].
    + split; [intros (e1 & K); discriminate|]. intros (e1 & K & K'). injection K as <-. congruence.
    + split; [intros _; eauto|eauto].
Qed.
Lemma get_bytes_iff k d b : get_bytes k d = Some b <-> dget (str k) d = Some (VBytes b).
Proof. unfold get_bytes. destruct (dget (str k) d) as [[]|]; split; congruence. Qed.
Lemma check_type_ok d : ~ raises (if dmem (str "type") d then
     wcatch (wdiscard (wlift (get_type d))) is_value_error (fun _ => wwarn WCertType)
   else wret tt).
Proof.
  destruct (dmem (str "type") d) eqn:Em; [|intros (e & K); discriminate]. intros K. apply raises_catch in K as (e & H & Hh).
  rewrite snd_wlift in H. unfold get_type, ditem in H. unfold dmem in Em.
  destruct (dget (str "type") d) as [v|]; [|discriminate]. cbn [rbind] in H.
  destruct (find _ _); [discriminate|]. injection H as <-. discriminate.
Qed.
Lemma signature_key_snd pp d b : dget (str "signature_key") d = Some (VBytes b) ->
  forall r, snd (get_signature_key pp d) = r <-> snd (pp b) = r.
Proof.
  intros G r. unfold get_signature_key, ditem. rewrite G. cbn [wlift wbind]. destruct (pp b) as [l [k|e]]; cbn [wbind snd]; [|tauto].
  destruct (issubclass (k_pcls k) CertPub); cbn; tauto.
Qed.
Lemma check_cert_raises pp d :
  (forall b e, dget (str "signature_key") d = Some (VBytes b) -> snd (pp b) = Err e -> parse_error e) ->
  raises (check_cert pp d) <->
  (exists b, dget (str "valid_principals") d = Some (VBytes b) /\ exists o, get_valid_principals d = Err (UnicodeDecodeError o)) \/
  (exists param b, option_field param /\ dget param d = Some (VBytes b) /\ exists o, snd (get_option_values_dict param d) = Err (UnicodeDecodeError o)) \/
  (exists b, dget (str "signature_key") d = Some (VBytes b) /\ exists o, snd (pp b) = Err (KeyError o)).
Proof.
  intros Hpp. unfold check_cert. rewrite !raises_seq.
  assert (forall param w, param = "critical_options"%string \/ param = "extensions"%string ->
    raises (match get_bytes param d with
      | Some _ => wcatch (wdiscard (get_option_values_dict (str param) d)) is_eof_error (fun _ => wwarn w)
      | None => wret tt end) <->
    exists b, dget (str param) d = Some (VBytes b) /\ exists o, snd (get_option_values_dict (str param) d) = Err (UnicodeDecodeError o)) as O.
  { intros param w _. destruct (get_bytes param d) as [b|] eqn:G.
    - apply get_bytes_iff in G. rewrite raises_catch. split.
      + intros (e & H & Hh). destruct (option_values_errors _ _ _ _ G H) as [K|(o & ->)]; [congruence|eauto].
      + intros (b' & _ & o & H). eexists. split; [exact H|reflexivity].
    - split; [intros (e & K); discriminate|]. intros (b & K & _). apply get_bytes_iff in K. congruence. }
  rewrite (O "critical_options"%string) by auto. rewrite (O "extensions"%string) by auto.
  split.
  - intros [H|[H|[H|[H|H]]]].
    + exfalso. exact (check_type_ok d H).
    + left. destruct (get_bytes "valid_principals" d) as [b|] eqn:G; [|destruct H; discriminate].
      apply raises_catch in H as (e & H & Hh). rewrite snd_wlift in H.
      destruct (valid_principals_errors _ _ _ G H) as [K|(o & ->)]; [congruence|]. apply get_bytes_iff in G. eauto.
    + right. left. destruct H as (b & A & B). exists (str "critical_options"), b. split; [left; reflexivity|auto].
    + right. left. destruct H as (b & A & B). exists (str "extensions"), b. split; [right; left; reflexivity|auto].
    + right. right. destruct (get_bytes "signature_key" d) as [b|] eqn:G; [|destruct H; discriminate]. apply get_bytes_iff in G.
      apply raises_catch in H as (e & H & Hh). rewrite (signature_key_snd _ _ _ G) in H.
      exists b. split; [exact G|]. destruct (Hpp b e G H) as [K|[K|(o & ->)]]; [| |exists o; exact H];
        unfold is_authority_error in Hh; rewrite K in Hh; destruct (is_value_error e); discriminate.
  - intros [(b & G & o & H)|[(param & b & Hp & G & o & H)|(b & G & o & H)]].
    + right. left. rewrite (proj2 (get_bytes_iff _ _ _) G). apply raises_catch. eexists. rewrite snd_wlift. split; [exact H|reflexivity].
    + destruct Hp as [<-|[<-|[]]]; [right; right; left|right; right; right; left]; eauto.
    + do 4 right. rewrite (proj2 (get_bytes_iff _ _ _) G). apply raises_catch. exists (KeyError o). rewrite (signature_key_snd _ _ _ G). split; [exact H|reflexivity].
Qed.
Lemma run_steps_raises pp c d l ts : format_types (format_of c) ts -> In StCert l ->
  raises (run_steps ec pp c d l) <-> raises (check_cert pp d).
Proof.
  intros F. assert (forall l, raises (run_steps ec pp c d l) -> raises (check_cert pp d)) as A.
  { clear l. induction l as [|s l IH]; cbn [run_steps]; [intros (e & K); discriminate|]. intros H.
    apply raises_seq in H as [H|H]; [|auto].
    assert (s = StCert \/ s <> StCert) as [->|N] by (destruct s; (left; reflexivity) || (right; discriminate)).
    - exact H.
    - destruct (check_step_plain pp c d s ts F N) as (_ & E). destruct H as (e & H). congruence. }
  intros Hin. split; [apply A|]. intros H. induction l as [|s l IH]; [contradiction|]. cbn [run_steps]. apply raises_seq.
  destruct Hin as [->|Hin]; [left; exact H|right; auto].
Qed.
Lemma run_steps_log pp c d l ts ll : format_types (format_of c) ts ->
  run_steps ec pp c d l = (ll, Ok tt) -> forall w, is_cert_warning w = true ->
  In (Warn w) ll <-> In StCert l /\ In (Warn w) (fst (check_cert pp d)).
Proof.
  intros F. revert ll; induction l as [|s l IH]; intros ll; cbn [run_steps].
  - intros K. injection K as <-. cbn. tauto.
  - intros H w Hw. unfold wseq in H. apply wbind_inv in H as (l1 & [] & l2 & E1 & E2 & ->).
    specialize (IH _ E2 w Hw).
    assert (s = StCert \/ s <> StCert) as [->|N] by (destruct s; (left; reflexivity) || (right; discriminate)).
    + cbn [check_step] in E1. rewrite E1 in IH |- *. cbn [fst] in *. rewrite in_app_iff, IH. cbn [In]. tauto.
    + destruct (check_step_plain pp c d s ts F N) as (Q & _). rewrite E1 in Q.
      rewrite in_app_iff, IH. cbn [In]. split.
      * intros [K|(K & K')]; [specialize (Q w K); congruence|]. tauto.
      * intros ([K|K] & K'); [congruence|]. tauto.
Qed.
Lemma wseq_split {B} (x : W unit) (y : W B) r : snd (wseq x y) = Ok r ->
  snd x = Ok tt /\ snd y = Ok r /\ fst (wseq x y) = fst x ++ fst y.
Proof.
  unfold wseq. destruct x as [l [[]|e]]; cbn [wbind snd]; [|discriminate]. destruct y as [l' r']. cbn. auto.
Qed.
Lemma catch_log {A} (x : W A) h w : snd (wcatch (wdiscard x) h (fun _ => wwarn w)) = Ok tt ->
  (forall a, snd x = Ok a -> fst (wcatch (wdiscard x) h (fun _ => wwarn w)) = fst x) /\
  (forall e, snd x = Err e -> fst (wcatch (wdiscard x) h (fun _ => wwarn w)) = fst x ++ [Warn w]).
Proof.
  unfold wdiscard. destruct x as [l [a|e]]; cbn [wbind wret snd wcatch fst].
  - intros _. split; [intros; apply app_nil_r|intros e K; discriminate].
  - destruct (h e); [|discriminate]. intros _. split; [intros a K; discriminate|]. reflexivity.
Qed.
Lemma check_cert_split pp d : snd (check_cert pp d) = Ok tt ->
  let a := if dmem (str "type") d then wcatch (wdiscard (wlift (get_type d))) is_value_error (fun _ => wwarn WCertType) else wret tt in
  let p := match get_bytes "valid_principals" d with Some _ => wcatch (wdiscard (wlift (get_valid_principals d))) is_eof_error (fun _ => wwarn WCertPrincipals) | None => wret tt end in
  let c := match get_bytes "critical_options" d with Some _ => wcatch (wdiscard (get_option_values_dict (str "critical_options") d)) is_eof_error (fun _ => wwarn WCertCritical) | None => wret tt end in
  let e := match get_bytes "extensions" d with Some _ => wcatch (wdiscard (get_option_values_dict (str "extensions") d)) is_eof_error (fun _ => wwarn WCertExtensions) | None => wret tt end in
  let k := match get_bytes "signature_key" d with Some _ => wcatch (wdiscard (get_signature_key pp d)) is_authority_error (fun _ => wwarn WCertAuthority) | None => wret tt end in
  (snd a = Ok tt /\ snd p = Ok tt /\ snd c = Ok tt /\ snd e = Ok tt /\ snd k = Ok tt) /\
  fst (check_cert pp d) = fst a ++ fst p ++ fst c ++ fst e ++ fst k.
Proof.
  intros H a p c e k. unfold check_cert in *. fold a p c e k in H |- *. clearbody a p c e k.
  destruct (wseq_split _ _ _ H) as (A & H1 & ->). destruct (wseq_split _ _ _ H1) as (B & H2 & ->).
  destruct (wseq_split _ _ _ H2) as (C & H3 & ->). destruct (wseq_split _ _ _ H3) as (D & H4 & ->). auto 10.
Qed.
Lemma collect_duplicates param acc l1 o v l2 :
  NoDup (dkeys acc) -> In o (map fst l1) \/ In o (dkeys acc) ->
  In (Warn (WCertDuplicate o param)) (fst (collect_options param acc (map option_record (l1 ++ (o, v) :: l2)))).
Proof.
  intros N H. revert acc N H; induction l1 as [|(o1, w1) l1 IH]; intros acc N H.
  - cbn [app map]. destruct H as [[]|H]. cbn [collect_options].
    change (dget (str "option") (option_record (o, v))) with (Some (VStr o)). change (dget (str "value") (option_record (o, v))) with (Some (VBytes v)). cbv iota beta.
    assert (dmem o acc = true) as ->.
    { unfold dmem. destruct (dget o acc) eqn:E; [reflexivity|]. apply dget_None in E. contradiction. }
    unfold wwhen, wseq, wwarn. cbn [wbind app]. destruct (collect_options param (dset o (VBytes v) acc) (map option_record l2)). left. reflexivity.
  - cbn [app map collect_options].
    change (dget (str "option") (option_record (o1, w1))) with (Some (VStr o1)). change (dget (str "value") (option_record (o1, w1))) with (Some (VBytes w1)). cbv iota beta.
    unfold wseq. assert (snd (wwhen (dmem o1 acc) (wwarn (WCertDuplicate o1 param))) = Ok tt) as E by apply snd_wwhen.
    destruct (wwhen (dmem o1 acc) (wwarn (WCertDuplicate o1 param))) as [ll r]. cbn [snd] in E. subst r. cbn [wbind].
    assert (In o (map fst l1) \/ In o (dkeys (dset o1 (VBytes w1) acc))) as H'.
    { rewrite dkeys_dset. destruct H as [[<-|H]|H].
      - right. cbn [fst]. destruct (dmem o1 acc) eqn:E.
        + unfold dmem in E. destruct (dget o1 acc) eqn:G; [|discriminate].
          destruct (in_dec (fun a b => reflect_dec _ _ (str_eqb_reflect a b)) o1 (dkeys acc)) as [I|NI]; [exact I|]. apply dget_None in NI. congruence.
        + apply in_or_app. right. left. reflexivity.
      - left. exact H.
      - right. destruct (dmem o1 acc); [exact H|apply in_or_app; left; exact H]. }
    specialize (IH (dset o1 (VBytes w1) acc) (NoDup_dset _ _ _ N) H').
    destruct (collect_options param (dset o1 (VBytes w1) acc) (map option_record (l1 ++ (o, v) :: l2))) as [l3 r3]. cbn [fst] in *.
    apply in_or_app. right. exact IH.
Qed.
Lemma collect_no_duplicates param acc l :
  NoDup (map fst l) -> (forall o, In o (map fst l) -> ~ In o (dkeys acc)) ->
  fst (collect_options param acc (map option_record l)) = [].
Proof.
  revert acc; induction l as [|(o, v) l IH]; intros acc N D; [reflexivity|]. cbn [map collect_options].
  change (dget (str "option") (option_record (o, v))) with (Some (VStr o)). change (dget (str "value") (option_record (o, v))) with (Some (VBytes v)). cbv iota beta.
  cbn [map fst] in N. inversion N as [|? ? N1 N2]; subst.
  assert (dmem o acc = false) as Em.
  { unfold dmem. destruct (dget o acc) eqn:E; [|reflexivity]. exfalso. apply (D o (or_introl eq_refl)).
    destruct (in_dec (fun a b => reflect_dec _ _ (str_eqb_reflect a b)) o (dkeys acc)) as [I|NI]; [exact I|]. apply dget_None in NI. congruence. }
  rewrite Em. unfold wwhen, wseq, wret. cbn [wbind app].
  assert (fst (collect_options param (dset o (VBytes v) acc) (map option_record l)) = []) as E.
  { apply IH; [exact N2|]. intros o' Ho' K. rewrite dkeys_dset, Em in K. apply in_app_or in K as [K|[K|[]]].
    - apply (D o'); [right; exact Ho'|exact K].
    - subst o'. contradiction. }
  destruct (collect_options param (dset o (VBytes v) acc) (map option_record l)) as [l3 r3]. cbn [fst] in *. exact E.
Qed.
End Ec.
