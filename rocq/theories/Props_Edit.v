(** Properties of editing, copying and slicing private key lists: C67 to C69. *)
From Verif Require Import PyBase IntBytes Utf8 StructFmt Stream Text Classes Key Crypto PrivateKeyList UserList.
From Verif Require Import SpecWire SpecKey SpecText SpecCrypto SpecList SpecEdit.
From Verif Require Import ProofBase ProofInt ProofUtf8 ProofWire ProofRecord ProofKey ProofLog ProofErr ProofText ProofCrypto ProofList.
From Verif Require Import ProofCert ProofRead Props_Key Props_Cert Props_Crypto Props_List Props_Round Props_Build.
From Coq Require Import Sorted Permutation.
Open Scope Z_scope.

(** ** Lists *)
Lemma adjust_eq n k x : 0 <= n -> k <> 0 ->
  adjust n k x = if 0 <? k then Z.max 0 (Z.min n (from_end n x)) else Z.max (-1) (Z.min (n - 1) (from_end n x)).
Proof.
  intros Hn Hk. unfold adjust, from_end.
  destruct (Z.ltb_spec k 0), (Z.ltb_spec 0 k), (Z.ltb_spec x 0); try lia;
    try destruct (Z.ltb_spec (x + n) 0); try destruct (Z.leb_spec n x); lia.
Qed.
Lemma bounds_model n s : 0 <= n -> sl_step_of s <> 0 -> slice_bounds n s (sl_step_of s) (sl_from n s) (sl_until n s).
Proof.
  intros Hn Hk. unfold slice_bounds, sl_from, sl_until. split; [unfold sl_step_of; destruct (sl_step s); reflexivity|].
  split; intros Hs; split;
    match goal with |- match ?o with _ => _ end => destruct o end;
    rewrite ?adjust_eq by assumption;
    destruct (Z.ltb_spec (sl_step_of s) 0); try destruct (Z.ltb_spec 0 (sl_step_of s)); lia.
Qed.
Lemma bounds_fun n s k a b k' a' b' : k <> 0 -> slice_bounds n s k a b -> slice_bounds n s k' a' b' -> k = k' /\ a = a' /\ b = b'.
Proof.
  intros Hk (K & P & N) (K' & P' & N'). assert (k = k') as <- by (destruct (sl_step s); congruence). split; [reflexivity|].
  destruct (Z_lt_le_dec 0 k) as [H|H].
  - specialize (P H). specialize (P' H). destruct (sl_start s), (sl_stop s); lia.
  - assert (k < 0) as H' by lia. specialize (N H'). specialize (N' H'). destruct (sl_start s), (sl_stop s); lia.
Qed.
Lemma in_range a k m i : In i (map (fun j => a + Z.of_nat j * k) (seq 0 m)) <-> exists j, 0 <= j < Z.of_nat m /\ i = a + j * k.
Proof.
  rewrite in_map_iff. split.
  - intros (j & <- & H). apply in_seq in H. exists (Z.of_nat j). split; [lia|reflexivity].
  - intros (j & H & ->). exists (Z.to_nat j). split; [rewrite Z2Nat.id by lia; reflexivity|apply in_seq; lia].
Qed.
Lemma sorted_range (P : Z -> Z -> Prop) a k m c : (forall j j', (j < j')%nat -> P (a + Z.of_nat j * k) (a + Z.of_nat j' * k)) ->
  StronglySorted P (map (fun j => a + Z.of_nat j * k) (seq c m)).
Proof.
  intros H. revert c. induction m as [|m IH]; intros c; cbn [seq map]; [constructor|]. constructor; [apply IH|].
  apply Forall_forall. intros i Hi. apply in_map_iff in Hi as (j & <- & Hj). apply in_seq in Hj. apply H. lia.
Qed.
Lemma count_spec n s j : sl_step_of s <> 0 -> 0 <= j ->
  j < sl_count n s <->
  (0 < sl_step_of s -> sl_from n s + j * sl_step_of s < sl_until n s) /\ (sl_step_of s < 0 -> sl_until n s < sl_from n s + j * sl_step_of s).
Proof.
  intros Hk Hj. unfold sl_count. set (a := sl_from n s). set (b := sl_until n s). set (k := sl_step_of s) in *. clearbody a b k.
  destruct (Z.ltb_spec k 0) as [K|K].
  - destruct (Z.ltb_spec b a) as [B|B].
    + pose proof (Z.div_mod (a - b - 1) (- k) ltac:(lia)) as D. pose proof (Z.mod_pos_bound (a - b - 1) (- k) ltac:(lia)) as M.
      set (q := (a - b - 1) / - k) in *. split; intros H; [split; intros; nia|]. assert (b < a + j * k) by (apply H; lia).
      apply Znot_ge_lt. intros G. nia.
    + split; [lia|]. intros (_ & H). specialize (H K). nia.
  - destruct (Z.ltb_spec a b) as [B|B].
    + pose proof (Z.div_mod (b - a - 1) k ltac:(lia)) as D. pose proof (Z.mod_pos_bound (b - a - 1) k ltac:(lia)) as M.
      set (q := (b - a - 1) / k) in *. split; intros H; [split; intros; nia|]. assert (a + j * k < b) by (apply H; lia).
      apply Znot_ge_lt. intros G. nia.
    + split; [lia|]. intros (H & _). specialize (H ltac:(lia)). nia.
Qed.
Lemma sorted_unique (P : Z -> Z -> Prop) l m : (forall x y, P x y -> P y x -> False) ->
  StronglySorted P l -> StronglySorted P m -> (forall i, In i l <-> In i m) -> l = m.
Proof.
  intros As. assert (forall x, P x x -> False) as Ir by (intros x H; exact (As x x H H)).
  revert m. induction l as [|x l IH]; intros m Sl Sm H.
  - destruct m as [|y m]; [reflexivity|]. destruct (proj2 (H y) (or_introl eq_refl)).
  - destruct m as [|y m]; [destruct (proj1 (H x) (or_introl eq_refl))|].
    inversion Sl as [|? ? Sl' Fl]; subst. inversion Sm as [|? ? Sm' Fm]; subst.
    rewrite Forall_forall in Fl, Fm.
    assert (x = y) as <-.
    { destruct (proj1 (H x) (or_introl eq_refl)) as [E|E]; [congruence|]. destruct (proj2 (H y) (or_introl eq_refl)) as [E'|E']; [congruence|].
      exfalso. eapply As; [apply Fl; exact E'|apply Fm; exact E]. }
    f_equal. apply IH; [assumption|assumption|]. intros i. split; intros I.
    + destruct (proj1 (H i) (or_intror I)) as [<-|I']; [exfalso; eapply Ir; apply Fl; exact I|exact I'].
    + destruct (proj2 (H i) (or_intror I)) as [<-|I']; [exfalso; eapply Ir; apply Fm; exact I|exact I'].
Qed.
Lemma positions_iff n s ps : positions n s = Ok ps <-> selects n s ps.
Proof.
  unfold positions. destruct (Z.eqb_spec (sl_step_of s) 0) as [K|K].
  - split; [discriminate|]. intros (k & a & b & (Hk & _) & N & _). exfalso. apply N. unfold sl_step_of in K. destruct (sl_step s); congruence.
  - set (m := map _ _).
    assert (selects n s m) as Sm.
    { exists (sl_step_of s), (sl_from (Z.of_nat n) s), (sl_until (Z.of_nat n) s). split; [apply bounds_model; [lia|exact K]|]. split; [exact K|]. split.
      - intros i. unfold m. rewrite in_range. split.
        + intros (j & Hj & ->). exists j. split; [lia|]. split; [reflexivity|]. apply count_spec; [exact K|lia|lia].
        + intros (j & Hj & -> & H). exists j. split; [|reflexivity]. apply (count_spec _ _ _ K Hj) in H. lia.
      - apply sorted_range. intros j j' Hj. destruct (Z.ltb_spec 0 (sl_step_of s)); nia. }
    split; [intros H; apply Ok_inj in H as <-; exact Sm|]. intros (k & a & b & B & N & I & So).
    destruct Sm as (k' & a' & b' & B' & _ & I' & So').
    destruct (bounds_fun _ _ _ _ _ _ _ _ N B B') as (<- & <- & <-). f_equal.
    eapply sorted_unique; [|exact So'|exact So|intros i; rewrite I, I'; reflexivity].
    cbn beta. intros x y. destruct (0 <? k); lia.
Qed.
Lemma selected_in_range n s ps i : selects n s ps -> In i ps -> 0 <= i < Z.of_nat n.
Proof.
  intros (k & a & b & (_ & P & N) & K & I & _) H. apply I in H as (j & Hj & -> & Hp & Hn).
  destruct (Z_lt_le_dec 0 k) as [L|L].
  - specialize (P L). specialize (Hp L). destruct (sl_start s), (sl_stop s); nia.
  - assert (k < 0) as L' by lia. specialize (N L'). specialize (Hn L'). destruct (sl_start s), (sl_stop s); nia.
Qed.
Lemma index_pos_iff {A} (l : list A) i m : index_pos l i = Ok m <-> index_is (length l) i m.
Proof.
  unfold index_pos, index_is. cbn zeta. split.
  - destruct (Z.ltb_spec i 0);
      match goal with |- context [(0 <=? ?j) && (?j <? ?n)] => destruct (Z.leb_spec 0 j), (Z.ltb_spec j n) end;
      cbn [andb]; try discriminate; intros H'; apply Ok_inj in H' as <-; lia.
  - intros (Hm & [->| ->]).
    + replace (Z.of_nat m <? 0) with false by (symmetry; apply Z.ltb_ge; lia).
      replace (0 <=? Z.of_nat m) with true by (symmetry; apply Z.leb_le; lia).
      replace (Z.of_nat m <? Z.of_nat (length l)) with true by (symmetry; apply Z.ltb_lt; lia). cbn [andb]. f_equal. lia.
    + replace (Z.of_nat m - Z.of_nat (length l) <? 0) with true by (symmetry; apply Z.ltb_lt; lia).
      replace (Z.of_nat m - Z.of_nat (length l) + Z.of_nat (length l)) with (Z.of_nat m) by lia.
      replace (0 <=? Z.of_nat m) with true by (symmetry; apply Z.leb_le; lia).
      replace (Z.of_nat m <? Z.of_nat (length l)) with true by (symmetry; apply Z.ltb_lt; lia). cbn [andb]. f_equal. lia.
Qed.
Lemma split_at {A} (l : list A) m : (m < length l)%nat -> exists a x b, l = a ++ x :: b /\ length a = m.
Proof.
  intros H. destruct (nth_error l m) as [x|] eqn:E; [|apply nth_error_None in E; lia].
  apply nth_error_split in E as (a & b & -> & L). exists a, x, b. auto.
Qed.
Lemma remove_nth_app {A} (a : list A) x b : remove_nth (length a) (a ++ x :: b) = a ++ b.
Proof.
  unfold remove_nth. rewrite firstn_app, firstn_all, Nat.sub_diag. cbn [firstn]. rewrite app_nil_r.
  replace (S (length a)) with (length a + 1)%nat by lia. rewrite skipn_app, skipn_all2 by lia.
  replace (length a + 1 - length a)%nat with 1%nat by lia. reflexivity.
Qed.
Lemma replace_nth_app {A} (a : list A) x y b : replace_nth (length a) y (a ++ x :: b) = a ++ y :: b.
Proof. induction a as [|z a IH]; cbn [length app replace_nth]; [reflexivity|]. rewrite IH. reflexivity. Qed.
Lemma replace_nth_length {A} i (x : A) l : length (replace_nth i x l) = length l.
Proof. revert i. induction l as [|y l IH]; intros [|i]; cbn [replace_nth length]; auto. Qed.
Lemma replace_nth_same {A} i (x : A) l : (i < length l)%nat -> nth_error (replace_nth i x l) i = Some x.
Proof. revert i. induction l as [|y l IH]; intros [|i] H; cbn [replace_nth length nth_error] in *; try lia; auto. apply IH. lia. Qed.
Lemma replace_nth_other {A} i j (x : A) l : i <> j -> nth_error (replace_nth i x l) j = nth_error l j.
Proof. revert i j. induction l as [|y l IH]; intros [|i] [|j] H; cbn [replace_nth nth_error]; auto; lia. Qed.
Lemma replace_all_length {A} ps (xs l : list A) : length (replace_all ps xs l) = length l.
Proof. revert xs l. induction ps as [|i ps IH]; intros [|x xs] l; cbn [replace_all]; auto. rewrite IH. apply replace_nth_length. Qed.
Lemma replace_all_other {A} ps (xs l : list A) j : (forall i, In i ps -> 0 <= i) -> ~ In (Z.of_nat j) ps ->
  nth_error (replace_all ps xs l) j = nth_error l j.
Proof.
  revert xs l. induction ps as [|i ps IH]; intros [|x xs] l P N; cbn [replace_all]; auto.
  rewrite IH; [|intros; apply P; right; assumption|intros H; apply N; right; exact H].
  apply replace_nth_other. intros <-. apply N. left. rewrite Z2Nat.id; [reflexivity|apply P; left; reflexivity].
Qed.
Lemma replace_all_at {A} ps (xs l : list A) : NoDup ps -> (forall i, In i ps -> 0 <= i < Z.of_nat (length l)) ->
  forall j i x, nth_error ps j = Some i -> nth_error xs j = Some x -> nth_error (replace_all ps xs l) (Z.to_nat i) = Some x.
Proof.
  revert xs l. induction ps as [|i ps IH]; intros xs l Nd R j i' x Hi Hx; [destruct j; discriminate|].
  inversion Nd as [|? ? N Nd']; subst. destruct xs as [|y xs]; [destruct j; discriminate|]. cbn [replace_all].
  destruct j as [|j]; cbn [nth_error] in Hi, Hx.
  - injection Hi as ->. injection Hx as ->. pose proof (R i' (or_introl eq_refl)).
    rewrite replace_all_other; [apply replace_nth_same; lia|intros i I; apply R; right; exact I|rewrite Z2Nat.id by lia; exact N].
  - eapply IH; [exact Nd'| |exact Hi|exact Hx]. intros k I. rewrite replace_nth_length. apply R. right. exact I.
Qed.
Lemma sorted_NoDup (P : Z -> Z -> Prop) l : (forall x, ~ P x x) -> StronglySorted P l -> NoDup l.
Proof.
  intros Ir. induction 1 as [|x l S IH F]; constructor; [|exact IH]. intros I. rewrite Forall_forall in F. exact (Ir x (F x I)).
Qed.
Lemma selects_NoDup n s ps : selects n s ps -> NoDup ps.
Proof. intros (k & _ & _ & _ & _ & _ & S). eapply sorted_NoDup; [|exact S]. intros x. cbn beta. destruct (0 <? k); lia. Qed.
Lemma insert_iff {A} i (x : A) l r : insert_at i x l = r <->
  exists a b, l = a ++ b /\ r = a ++ x :: b /\
    (index_is (length l) i (length a) \/ (Z.of_nat (length l) <= i /\ b = []) \/ (i < - Z.of_nat (length l) /\ a = [])).
Proof.
  unfold insert_at. cbn zeta. set (j := Z.to_nat _).
  assert ((j <= length l)%nat) as Lj by (unfold j; destruct (Z.ltb_spec i 0); lia).
  assert (length (firstn j l) = j) as Lf by (rewrite firstn_length; lia).
  split.
  - intros <-. exists (firstn j l), (skipn j l). split; [symmetry; apply firstn_skipn|]. split; [reflexivity|]. rewrite Lf.
    unfold index_is, j in *. destruct (Z.ltb_spec i 0).
    + destruct (Z_lt_le_dec (i + Z.of_nat (length l)) 0); [right; right; split; [lia|]|left; lia].
      replace (Z.to_nat (Z.max 0 (i + Z.of_nat (length l)))) with 0%nat by lia. reflexivity.
    + destruct (Z_lt_le_dec i (Z.of_nat (length l))); [left; lia|right; left; split; [lia|]].
      apply skipn_all2. lia.
  - intros (a & b & -> & -> & H). assert (j = length a) as ->.
    { clear Lj Lf. unfold index_is, j in *. clear j. rewrite app_length in *. destruct (Z.ltb_spec i 0), H as [H|[(H & ->)|(H & ->)]]; cbn [length] in *; lia. }
    rewrite firstn_app, firstn_all, Nat.sub_diag, skipn_app, skipn_all, Nat.sub_diag. cbn [firstn skipn app]. rewrite app_nil_r. reflexivity.
Qed.
Lemma remove_first_iff {A} (eqb : A -> A -> bool) x l r : remove_first eqb x l = Ok r <->
  exists a y b, l = a ++ y :: b /\ r = a ++ b /\ eqb y x = true /\ (forall z, In z a -> eqb z x = false).
Proof.
  revert r. induction l as [|y l IH]; intros r; cbn [remove_first].
  - split; [discriminate|]. intros (a & z & b & H & _). destruct a; discriminate.
  - destruct (eqb y x) eqn:E.
    + split.
      * intros H. apply Ok_inj in H as <-. exists [], y, l. repeat split; auto. intros z [].
      * intros (a & z & b & H & -> & Ez & F). destruct a as [|w a]; injection H; intros; subst; [reflexivity|].
        rewrite (F w (or_introl eq_refl)) in E. discriminate.
    + split.
      * intros H. destruct (remove_first eqb x l) as [r'|] eqn:R; [|discriminate]. cbn [rbind] in H. apply Ok_inj in H as <-.
        destruct (proj1 (IH r') eq_refl) as (a & z & b & -> & -> & Ez & F). exists (y :: a), z, b. repeat split; auto.
        intros w [<-|I]; auto.
      * intros (a & z & b & H & -> & Ez & F). destruct a as [|w a]; injection H; intros; subst; [congruence|].
        assert (remove_first eqb x (a ++ z :: b) = Ok (a ++ b)) as ->; [|reflexivity].
        apply IH. exists a, z, b. repeat split; auto. intros u I. apply F. right. exact I.
Qed.
Lemma keep_iff ps i (l r : list pair) : keep_at (fun j => negb (existsb (Z.eqb j) ps)) i l = r <-> left_over ps i l r.
Proof.
  assert (forall j, existsb (Z.eqb j) ps = true <-> In j ps) as Ex.
  { intros j. rewrite existsb_exists. split; [intros (k & I & E); apply Z.eqb_eq in E as ->; exact I|intros I; exists j; split; [exact I|apply Z.eqb_refl]]. }
  revert i r. induction l as [|x l IH]; intros i r; cbn [keep_at].
  - split; [intros <-; constructor|intros H; inversion H; reflexivity].
  - destruct (existsb (Z.eqb i) ps) eqn:E; cbn [negb].
    + apply Ex in E. rewrite IH. split; [intros H; apply Lo_gone; assumption|intros H; inversion H; subst; [assumption|contradiction]].
    + assert (~ In i ps) as N by (rewrite <- Ex; congruence). split.
      * intros <-. apply Lo_kept; [exact N|]. apply IH. reflexivity.
      * intros H. inversion H; subst; [contradiction|]. f_equal. apply IH. assumption.
Qed.
Lemma repeated_edits n l : edits (IMul n) l (repeated n l).
Proof.
  destruct (Z_le_gt_dec n 0) as [H|H].
  - unfold repeated. replace (Z.to_nat n) with 0%nat by lia. cbn. apply Ed_imul_none. exact H.
  - replace n with (Z.of_nat (Z.to_nat n)) by lia. generalize (Z.to_nat n) as m. clear. induction m as [|m IH]; [apply Ed_imul_none; lia|].
    unfold repeated in *. rewrite Nat2Z.id in *. cbn [repeat concat]. rewrite Nat2Z.inj_succ. apply Ed_imul_more; [lia|exact IH].
Qed.
Lemma edits_imul n l r : edits (IMul n) l r -> r = repeated n l.
Proof.
  remember (IMul n) as e eqn:E. intros H. revert n E.
  induction H; intros n0 E; try discriminate E; injection E as <-.
  - unfold repeated. replace (Z.to_nat n) with 0%nat by lia. reflexivity.
  - rewrite (IHedits n eq_refl). unfold repeated. replace (Z.to_nat (n + 1)) with (S (Z.to_nat n)) by lia. reflexivity.
Qed.
Lemma set_range_iff {A} s (l r xs : list A) : sl_step_of s = 1 -> set_slice l s xs = Ok r <->
  exists a m b i j, l = a ++ m ++ b /\ r = a ++ xs ++ b /\ slice_bounds (Z.of_nat (length l)) s 1 i j /\
    i = Z.of_nat (length a) /\ Z.max i j = Z.of_nat (length (a ++ m)).
Proof.
  intros K. unfold set_slice. cbn zeta. rewrite K. cbn [Z.eqb Pos.eqb].
  set (n := Z.of_nat (length l)). pose proof (bounds_model n s ltac:(lia) ltac:(lia)) as B. rewrite K in B.
  assert (0 <= sl_from n s <= n /\ 0 <= sl_until n s <= n) as R.
  { destruct B as (_ & P & _). specialize (P ltac:(lia)). destruct (sl_start s), (sl_stop s); lia. }
  set (i := sl_from n s) in *. set (j := sl_until n s) in *. split.
  - intros H. apply Ok_inj in H as <-.
    exists (firstn (Z.to_nat i) l), (firstn (Nat.max (Z.to_nat i) (Z.to_nat j) - Z.to_nat i) (skipn (Z.to_nat i) l)), (skipn (Nat.max (Z.to_nat i) (Z.to_nat j)) l), i, j.
    assert (length (firstn (Z.to_nat i) l) = Z.to_nat i) as L1 by (rewrite firstn_length; lia).
    split.
    { rewrite <- (firstn_skipn (Z.to_nat i) l) at 1. f_equal.
      rewrite <- (firstn_skipn (Nat.max (Z.to_nat i) (Z.to_nat j) - Z.to_nat i) (skipn (Z.to_nat i) l)) at 1. f_equal.
      rewrite skipn_skipn. f_equal. lia. }
    split; [reflexivity|]. split; [exact B|]. split; [lia|]. rewrite app_length, L1, firstn_length, skipn_length. lia.
  - intros (a & m & b & i' & j' & El & -> & B' & Ei & Ej).
    destruct (bounds_fun _ _ _ _ _ _ _ _ (ltac:(lia) : 1 <> 0) B B') as (_ & <- & <-).
    assert (Z.to_nat i = length a) as Hi by lia. assert (Nat.max (Z.to_nat i) (Z.to_nat j) = length (a ++ m)) as Hj by lia.
    rewrite Hj, Hi, El. rewrite firstn_app, firstn_all, Nat.sub_diag. cbn [firstn]. rewrite app_nil_r. f_equal. f_equal. f_equal.
    rewrite (app_assoc a m b), skipn_app, skipn_all, Nat.sub_diag. reflexivity.
Qed.
Lemma set_stepped_iff s l r (xs : list pair) : sl_step_of s <> 1 -> set_slice l s xs = Ok r <->
  exists ps, selects (length l) s ps /\ length xs = length ps /\ length r = length l /\
    (forall j i x, nth_error ps j = Some i -> nth_error xs j = Some x -> nth_error r (Z.to_nat i) = Some x) /\
    (forall i, ~ In (Z.of_nat i) ps -> nth_error r i = nth_error l i).
Proof.
  intros K. unfold set_slice. cbn zeta. destruct (Z.eqb_spec (sl_step_of s) 1) as [K'|_]; [contradiction|]. split.
  - intros H. destruct (positions (length l) s) as [ps|] eqn:E; [|discriminate]. cbn [rbind] in H. apply positions_iff in E.
    destruct (Nat.eqb_spec (length ps) (length xs)) as [L|]; [|discriminate]. apply Ok_inj in H as <-.
    exists ps. split; [exact E|]. split; [lia|]. split; [apply replace_all_length|]. split.
    + apply replace_all_at; [eapply selects_NoDup; exact E|]. intros i I. eapply selected_in_range; eassumption.
    + intros i N. apply replace_all_other; [|exact N]. intros i' I. apply (selected_in_range _ _ _ _ E I).
  - intros (ps & E & L & Lr & A & O). rewrite (proj2 (positions_iff _ _ _) E). cbn [rbind].
    destruct (Nat.eqb_spec (length ps) (length xs)) as [_|]; [|lia]. f_equal.
    apply nth_error_eq. intros i. destruct (in_dec Z.eq_dec (Z.of_nat i) ps) as [I|N].
    + apply In_nth_error in I as (j & Hj).
      destruct (nth_error xs j) as [x|] eqn:Hx; [|apply nth_error_None in Hx; assert (j < length ps)%nat by (apply nth_error_Some; congruence); lia].
      pose proof (A _ _ _ Hj Hx) as Ax.
      pose proof (replace_all_at ps xs l (selects_NoDup _ _ _ E) (fun i I => selected_in_range _ _ _ _ E I) _ _ _ Hj Hx) as Ay.
      rewrite Nat2Z.id in Ax, Ay. congruence.
    + rewrite (O i N). apply replace_all_other; [|exact N]. intros i' I. apply (selected_in_range _ _ _ _ E I).
Qed.
Lemma reverse_iff {A} (l r : list A) : r = rev l <-> length r = length l /\
  (forall i j x, nth_error l i = Some x -> (i + j + 1 = length l)%nat -> nth_error r j = Some x).
Proof.
  assert (forall i j x, nth_error l i = Some x -> (i + j + 1 = length l)%nat -> nth_error (rev l) j = Some x) as R.
  { intros i j x H L. rewrite (nth_error_nth' (rev l) x) by (rewrite rev_length; lia). f_equal. rewrite rev_nth by lia.
    replace (length l - S j)%nat with i by lia. apply nth_error_nth. exact H. }
  split; [intros ->; split; [apply rev_length|exact R]|]. intros (L & H). apply nth_error_eq. intros j.
  destruct (Nat.lt_ge_cases j (length l)) as [Hj|Hj].
  - destruct (nth_error l (length l - S j)) as [x|] eqn:E; [|apply nth_error_None in E; lia].
    rewrite (H _ j _ E) by lia. symmetry. apply (R _ j _ E). lia.
  - rewrite (proj2 (nth_error_None r j)) by lia. symmetry. apply nth_error_None. rewrite rev_length. exact Hj.
Qed.

(** Sorting. *)
Definition in_order (ks : nat -> Z) (reverse : bool) (i j : nat) : Prop :=
  (if reverse then ks j < ks i else ks i < ks j) \/ (ks i = ks j /\ (i < j)%nat).
Lemma insert_pos_perm le i ps : Permutation (insert_pos le i ps) (i :: ps).
Proof.
  induction ps as [|j ps IH]; [reflexivity|]. cbn [insert_pos]. destruct (le i j); [reflexivity|]. rewrite IH. apply perm_swap.
Qed.
Lemma sorted_positions_perm ks rv n : Permutation (sorted_positions ks rv n) (seq 0 n).
Proof.
  unfold sorted_positions. induction (seq 0 n) as [|i l IH]; [reflexivity|]. cbn [fold_right]. rewrite insert_pos_perm, IH. reflexivity.
Qed.
Lemma insert_pos_sorted ks rv i ps : StronglySorted (in_order ks rv) ps -> (forall j, In j ps -> (i < j)%nat) ->
  StronglySorted (in_order ks rv) (insert_pos (not_after ks rv) i ps).
Proof.
  intros S. induction S as [|j ps S IH F]; intros L; cbn [insert_pos]; [repeat constructor|].
  assert (i < j)%nat as Lj by (apply L; left; reflexivity).
  assert (forall k, In k ps -> in_order ks rv j k) as O by (apply Forall_forall; exact F).
  destruct (not_after ks rv i j) eqn:E.
  - assert (in_order ks rv i j) as Oij by (unfold not_after, in_order in *; destruct rv; apply Z.leb_le in E; lia).
    constructor; [constructor; assumption|]. constructor; [exact Oij|]. apply Forall_forall. intros k K. specialize (O k K).
    unfold in_order in *. destruct rv; lia.
  - assert (in_order ks rv j i) as Oji by (unfold not_after, in_order in *; destruct rv; apply Z.leb_gt in E; lia).
    constructor; [apply IH; intros k K; apply L; right; exact K|]. apply Forall_forall. intros k K.
    apply (Permutation_in _ (insert_pos_perm _ _ _)) in K. destruct K as [<-|K]; [exact Oji|exact (O k K)].
Qed.
Lemma sorted_positions_sorted ks rv n : StronglySorted (in_order ks rv) (sorted_positions ks rv n).
Proof.
  unfold sorted_positions. generalize 0%nat as a. induction n as [|n IH]; intros a; [constructor|]. cbn [seq fold_right].
  apply insert_pos_sorted; [apply IH|]. intros j J.
  assert (Permutation (fold_right (insert_pos (not_after ks rv)) [] (seq (S a) n)) (seq (S a) n)) as P.
  { clear. induction (seq (S a) n) as [|i l IH]; [reflexivity|]. cbn [fold_right]. rewrite insert_pos_perm, IH. reflexivity. }
  apply (Permutation_in _ P) in J. apply in_seq in J. lia.
Qed.
Lemma positions_unique (R : nat -> nat -> Prop) : (forall i j, R i j -> ~ R j i) ->
  forall l l', StronglySorted R l -> StronglySorted R l' -> Permutation l l' -> l = l'.
Proof.
  intros A. induction l as [|i l IH]; intros l' S S' P; [symmetry; apply Permutation_nil; exact P|].
  destruct l' as [|j l']; [apply Permutation_sym, Permutation_nil in P; discriminate|].
  inversion S as [|? ? S1 F1]; subst. inversion S' as [|? ? S2 F2]; subst. rewrite Forall_forall in F1, F2.
  assert (i = j) as ->.
  { pose proof (Permutation_in i P (or_introl eq_refl)) as [->|Ii]; [reflexivity|].
    pose proof (Permutation_in j (Permutation_sym P) (or_introl eq_refl)) as [->|Ij]; [reflexivity|].
    destruct (A i j (F1 j Ij) (F2 i Ii)). }
  f_equal. apply IH; [exact S1|exact S2|]. eapply Permutation_cons_inv. exact P.
Qed.
Lemma picks_iff {A} (l : list A) ps r : (forall i, In i ps -> (i < length l)%nat) ->
  flat_map (fun i => match nth_error l i with Some x => [x] | None => [] end) ps = r <-> Forall2 (fun i x => nth_error l i = Some x) ps r.
Proof.
  revert r. induction ps as [|i ps IH]; intros r L; cbn [flat_map].
  - split; [intros <-; constructor|intros H; inversion H; reflexivity].
  - destruct (nth_error l i) as [x|] eqn:E.
    2:{ apply nth_error_None in E. specialize (L i (or_introl eq_refl)). lia. }
    cbn [app]. split.
    + intros <-. constructor; [exact E|]. apply IH; [|reflexivity]. intros j J. apply L. right. exact J.
    + intros H. inversion H as [|? y ? r' Hy Hr]; subst. assert (y = x) as -> by congruence. f_equal.
      apply IH; [|exact Hr]. intros j J. apply L. right. exact J.
Qed.
Lemma sort_by_iff ks rv l r : sort_items ks rv l = r <-> edits (SortBy ks rv) l r.
Proof.
  assert (forall ps, Permutation ps (seq 0 (length l)) -> forall i, In i ps -> (i < length l)%nat) as L.
  { intros ps P i I. apply (Permutation_in _ P) in I. apply in_seq in I. lia. }
  unfold sort_items. rewrite picks_iff by (apply L, sorted_positions_perm). split.
  - intros F. eapply Ed_sort_by; [apply sorted_positions_perm|apply sorted_positions_sorted|exact F].
  - intros H. inversion H as [| | | | | | | | | | | | | |ks' rv' l' ps r' P S F|]; subst.
    replace (sorted_positions ks rv (length l)) with ps; [exact F|].
    apply (positions_unique (in_order ks rv)); [|exact S|apply sorted_positions_sorted|].
    + unfold in_order. intros i j. destruct rv; lia.
    + rewrite P. symmetry. apply sorted_positions_perm.
Qed.
Lemma sort_iff l : neighbours_equal pair_eqb l = true <->
  forall i x y, nth_error l i = Some x -> nth_error l (S i) = Some y -> pair_eqb y x = true.
Proof.
  induction l as [|x l IH]; [split; [intros _ [|i] x y H; discriminate H|reflexivity]|].
  destruct l as [|y l]; [split; [intros _ [|[|i]] u v _ H; discriminate H|reflexivity]|].
  cbn [neighbours_equal] in *. rewrite andb_true_iff, IH. split.
  - intros (E & H) [|i] u v Hu Hv; cbn in Hu, Hv; [injection Hu as <-; injection Hv as <-; exact E|]. apply (H i); [exact Hu|exact Hv].
  - intros H. split; [apply (H 0%nat); reflexivity|]. intros i u v Hu Hv. apply (H (S i)); [exact Hu|exact Hv].
Qed.
(** ** C67 *)
(** What each editing method does to the keys of the list, and that it fails otherwise. *)
Theorem C67_edits_contents e l r : edit_data e l = Ok r <-> edits e l r.
Proof.
  destruct e as [x|xs|i x|i|x| | |n|i x|i|s xs|s|ks rv|]; cbn [edit_data edit_items].
  - split; [intros H; apply Ok_inj in H as <-; constructor|intros H; inversion H; reflexivity].
  - split; [intros H; apply Ok_inj in H as <-; constructor|intros H; inversion H; reflexivity].
  - split.
    + intros H. apply Ok_inj in H. apply insert_iff in H as (a & b & -> & -> & H). constructor. exact H.
    + intros H. inversion H; subst. f_equal. apply insert_iff. exists a, b. auto.
  - split.
    + intros H. destruct (index_pos l i) as [j|] eqn:E; [|discriminate]. cbn [rbind] in H. apply Ok_inj in H as <-.
      apply index_pos_iff in E. destruct (split_at l j (proj1 E)) as (a & y & b & -> & <-). rewrite remove_nth_app. constructor. exact E.
    + intros H. inversion H; subst. match goal with I : index_is _ _ _ |- _ => rewrite (proj2 (index_pos_iff _ _ _) I) end. cbn [rbind]. rewrite remove_nth_app. reflexivity.
  - rewrite remove_first_iff. split; [intros (a & y & b & -> & -> & E & F); constructor; assumption|].
    intros H. inversion H; subst. exists a, y, b. auto.
  - split; [intros H; apply Ok_inj in H as <-; constructor|intros H; inversion H; reflexivity].
  - split.
    + intros H. apply Ok_inj in H as H. symmetry in H. apply reverse_iff in H as (L & H). constructor; assumption.
    + intros H. inversion H; subst. f_equal. symmetry. apply reverse_iff. auto.
  - split; [intros H; apply Ok_inj in H as <-; apply repeated_edits|intros H; apply edits_imul in H as ->; reflexivity].
  - split.
    + intros H. destruct (index_pos l i) as [j|] eqn:E; [|discriminate]. cbn [rbind] in H. apply Ok_inj in H as <-.
      apply index_pos_iff in E. destruct (split_at l j (proj1 E)) as (a & y & b & -> & <-). rewrite replace_nth_app. constructor. exact E.
    + intros H. inversion H; subst. match goal with I : index_is _ _ _ |- _ => rewrite (proj2 (index_pos_iff _ _ _) I) end. cbn [rbind]. rewrite replace_nth_app. reflexivity.
  - split.
    + intros H. destruct (index_pos l i) as [j|] eqn:E; [|discriminate]. cbn [rbind] in H. apply Ok_inj in H as <-.
      apply index_pos_iff in E. destruct (split_at l j (proj1 E)) as (a & y & b & -> & <-). rewrite remove_nth_app. constructor. exact E.
    + intros H. inversion H; subst. match goal with I : index_is _ _ _ |- _ => rewrite (proj2 (index_pos_iff _ _ _) I) end. cbn [rbind]. rewrite remove_nth_app. reflexivity.
  - destruct (Z.eq_dec (sl_step_of s) 1) as [K|K].
    + rewrite (set_range_iff s l r xs K). split.
      * intros (a & m & b & i & j & -> & -> & B & Hi & Hj). apply Ed_set_range. exists i, j. auto.
      * intros H. inversion H; subst; [|exfalso; unfold sl_step_of in K; destruct (sl_step s); congruence].
        match goal with B : exists i j, _ |- _ => destruct B as (i & j & B & Hi & Hj) end. exists a, m, b, i, j. auto.
    + rewrite (set_stepped_iff s l r xs K). split.
      * intros (ps & Hp & L & Lr & Ha & Ho).
        eapply Ed_set_stepped; [| |exact Hp|exact L|exact Lr|exact Ha|exact Ho]; unfold sl_step_of in K; destruct (sl_step s); congruence.
      * intros H. inversion H; subst.
        { exfalso. match goal with B : exists i j, _ |- _ => destruct B as (i & j & (Ks & _) & _) end. unfold sl_step_of in K. destruct (sl_step s); congruence. }
        exists ps. auto.
  - unfold del_slice. split.
    + intros H. destruct (positions (length l) s) as [ps|] eqn:E; [|discriminate]. cbn [rbind] in H. apply Ok_inj in H.
      apply positions_iff in E. apply keep_iff in H. econstructor; eassumption.
    + intros H. inversion H; subst. match goal with P : selects _ _ _ |- _ => rewrite (proj2 (positions_iff _ _ _) P) end. cbn [rbind]. f_equal. apply keep_iff. assumption.
  - rewrite <- sort_by_iff. split; [intros H; apply Ok_inj in H; exact H|intros ->; reflexivity].
  - split.
    + destruct (neighbours_equal pair_eqb l) eqn:E; [|discriminate]. intros H. apply Ok_inj in H as <-. constructor. apply sort_iff. exact E.
    + intros H. inversion H; subst. match goal with K : forall i x y, _ |- _ => rewrite (proj2 (sort_iff _) K) end. reflexivity.
Qed.
(** Keys of any type with an order, e.g. comments: integers can stand for them, namely for each the
    number of keys before it. *)
Lemma filter_le {A} (f g : A -> bool) l : (forall x, f x = true -> g x = true) -> (length (filter f l) <= length (filter g l))%nat.
Proof.
  intros H. induction l as [|a l IH]; [reflexivity|]. cbn. destruct (f a) eqn:F; [rewrite (H a F); cbn; lia|]. destruct (g a); cbn; lia.
Qed.
Lemma filter_lt {A} (f g : A -> bool) l x : (forall x, f x = true -> g x = true) -> In x l -> f x = false -> g x = true ->
  (length (filter f l) < length (filter g l))%nat.
Proof.
  intros H. induction l as [|a l IH]; intros I F G; [contradiction|]. destruct I as [->|I].
  - cbn. rewrite F, G. cbn. pose proof (filter_le f g l H). lia.
  - cbn. specialize (IH I F G). destruct (f a) eqn:Fa; [rewrite (H a Fa); cbn; lia|]. destruct (g a); cbn; lia.
Qed.
Theorem C67_sort_any_keys {K} (before : K -> K -> bool) (key : nat -> K) (n : nat) :
  (forall a, before a a = false) -> (forall a b c, before a b = true -> before b c = true -> before a c = true) ->
  (forall a b c, before a c = true -> before a b = true \/ before b c = true) ->
  exists ks, (forall i j, (i < n)%nat -> (j < n)%nat -> (ks i < ks j <-> before (key i) (key j) = true)) /\
    forall reverse l r, length l = n ->
      (edit_data (SortBy ks reverse) l = Ok r <->
       exists ps, Permutation ps (seq 0 n) /\
         StronglySorted (fun i j => (if reverse : bool then before (key j) (key i) = true else before (key i) (key j) = true) \/
                                    (before (key i) (key j) = false /\ before (key j) (key i) = false /\ (i < j)%nat)) ps /\
         Forall2 (fun i x => nth_error l i = Some x) ps r).
Proof.
  intros Irr Tr Co. exists (fun i => Z.of_nat (length (filter (fun j => before (key j) (key i)) (seq 0 n)))).
  assert (forall i j, (i < n)%nat -> (j < n)%nat ->
    (Z.of_nat (length (filter (fun u => before (key u) (key i)) (seq 0 n))) < Z.of_nat (length (filter (fun u => before (key u) (key j)) (seq 0 n))) <->
     before (key i) (key j) = true)) as R.
  { intros i j Li Lj. split.
    - intros H. destruct (before (key i) (key j)) eqn:B; [reflexivity|]. exfalso.
      pose proof (filter_le (fun u => before (key u) (key j)) (fun u => before (key u) (key i)) (seq 0 n)) as M.
      cbn beta in M. assert (forall u, before (key u) (key j) = true -> before (key u) (key i) = true) as N.
      { intros u U. destruct (Co _ (key i) _ U); congruence. }
      specialize (M N). lia.
    - intros B. apply inj_lt. apply (filter_lt _ _ _ i); [|apply in_seq; lia|apply Irr|exact B]. intros u U. eapply Tr; eassumption. }
  split; [exact R|]. intros rv l r <-. unfold edit_data. cbn [edit_items].
  set (ks := fun i => _) in *. assert (forall i j, (i < length l)%nat -> (j < length l)%nat -> (ks i < ks j <-> before (key i) (key j) = true)) as R' by exact R.
  clearbody ks. clear R.
  assert (forall i j, (i < length l)%nat -> (j < length l)%nat -> (ks i = ks j <-> before (key i) (key j) = false /\ before (key j) (key i) = false)) as Q.
  { intros i j Li Lj. pose proof (R' i j Li Lj) as A. pose proof (R' j i Lj Li) as B. split.
    - intros E. split; [destruct (before (key i) (key j)); [|reflexivity]|destruct (before (key j) (key i)); [|reflexivity]]; exfalso; lia.
    - intros (E & F). rewrite E in A. rewrite F in B. assert (~ ks i < ks j) by (intros X; apply A in X; discriminate). assert (~ ks j < ks i) by (intros X; apply B in X; discriminate). lia. }
  assert (forall (P P' : nat -> nat -> Prop) ps, (forall i j, In i ps -> In j ps -> (P i j <-> P' i j)) -> StronglySorted P ps -> StronglySorted P' ps) as Mono.
  { intros P P' ps H S. induction S as [|i ps S IH F]; [constructor|]. constructor.
    - apply IH. intros u v U V. apply H; right; assumption.
    - apply Forall_forall. intros j J. apply H; [left; reflexivity|right; exact J|]. rewrite Forall_forall in F. apply F. exact J. }
  assert (forall ps, Permutation ps (seq 0 (length l)) -> forall i, In i ps -> (i < length l)%nat) as Lt.
  { intros ps P i I. apply (Permutation_in _ P) in I. apply in_seq in I. lia. }
  assert (forall ps, Permutation ps (seq 0 (length l)) -> forall i j, In i ps -> In j ps ->
    (((if rv then ks j < ks i else ks i < ks j) \/ (ks i = ks j /\ (i < j)%nat)) <->
     ((if rv then before (key j) (key i) = true else before (key i) (key j) = true) \/
      (before (key i) (key j) = false /\ before (key j) (key i) = false /\ (i < j)%nat)))) as Eq.
  { intros ps P i j I J. pose proof (R' i j (Lt ps P i I) (Lt ps P j J)). pose proof (R' j i (Lt ps P j J) (Lt ps P i I)).
    pose proof (Q i j (Lt ps P i I) (Lt ps P j J)). destruct rv; tauto. }
  split.
  - intros H. apply Ok_inj in H. apply sort_by_iff in H. inversion H as [| | | | | | | | | | | | | |ks' rv' l' ps r' P S F|]; subst.
    exists ps. split; [exact P|]. split; [|exact F]. eapply Mono; [|exact S]. exact (Eq ps P).
  - intros (ps & P & S & F). f_equal. apply sort_by_iff. eapply Ed_sort_by; [exact P| |exact F].
    eapply Mono; [|exact S]. intros i j I J. symmetry. exact (Eq ps P i j I J).
Qed.
(** Whatever is wrong with an index or a slice, the exception is an IndexError or ValueError; and
    it is a TypeError if pairs that are not equal are to be sorted without a key function. *)
Theorem C67_edit_errors e l x : edit_data e l = Err x -> (e <> Sort /\ (x = IndexError \/ x = ValueError)) \/ (e = Sort /\ x = TypeError).
Proof.
  intros H. assert ((e <> Sort -> x = IndexError \/ x = ValueError) /\ (e = Sort -> x = TypeError)) as (A & B); [|destruct e; auto; left; (split; [discriminate|apply A; discriminate])].
  split; [|intros ->; cbn [edit_data edit_items] in H; unfold edit_data in H; cbn [edit_items] in H; destruct (neighbours_equal pair_eqb l); congruence].
  intros NS. revert H.
  destruct e as [y|xs|i y|i|y| | |n|i y|i|s xs|s|ks rv|]; cbn [edit_data edit_items]; try discriminate; try congruence.
  - unfold index_pos. cbn zeta. destruct (_ && _); cbn [rbind]; [discriminate|]. intros H. injection H as <-. auto.
  - intros H. right. revert x H. induction l as [|z l IH]; cbn [remove_first]; intros x H; [congruence|].
    destruct (pair_eqb z y); [discriminate|]. destruct (remove_first pair_eqb y l) as [r|x']; [discriminate|].
    cbn [rbind] in H. injection H as <-. apply IH. reflexivity.
  - unfold index_pos. cbn zeta. destruct (_ && _); cbn [rbind]; [discriminate|]. intros H. injection H as <-. auto.
  - unfold index_pos. cbn zeta. destruct (_ && _); cbn [rbind]; [discriminate|]. intros H. injection H as <-. auto.
  - unfold set_slice, positions. cbn zeta. destruct (_ =? 1); [discriminate|]. destruct (_ =? 0); cbn [rbind]; [intros H; injection H as <-; auto|].
    destruct (_ =? _)%nat; [discriminate|]. intros H. injection H as <-. auto.
  - unfold del_slice, positions. destruct (_ =? 0); cbn [rbind]; [intros H; injection H as <-; auto|discriminate].
Qed.
(** Only these operations, in any number and order: editing methods, successful or not, and
    copy.copy. *)
Definition in_place (os : list op) : Prop := forall o, In o os -> (exists e, o = Edit e) \/ o = ShallowCopy.
Lemma after_in_place l o : (exists e, o = Edit e) \/ o = ShallowCopy -> after l o = with_pairs l (l_pairs (after l o)).
Proof.
  intros [(e & ->)| ->]; unfold after; cbn [apply_op].
  - destruct (edit_data e (l_pairs l)); cbn [rbind]; [reflexivity|destruct l; reflexivity].
  - destruct l; reflexivity.
Qed.
Lemma history_in_place os l : in_place os -> history l os = with_pairs l (l_pairs (history l os)).
Proof.
  revert l. induction os as [|o os IH]; intros l H; [destruct l; reflexivity|]. unfold history in *. cbn [fold_left].
  rewrite (IH (after l o)) by (intros o' I; apply H; right; exact I).
  rewrite (after_in_place l o) by (apply H; left; reflexivity). reflexivity.
Qed.
(** After any such history the list is packed as a list of the remaining keys under the cipher,
    KDF and options of the original: its file is the one [packed] describes for these. *)
Theorem C67_edits_keep_protection p e l os given idx ov retain b :
  sound_prims p -> in_place os ->
  snd (list_pack_bytes p e (history l os) given idx ov retain) = Ok b ->
  packed p e (with_pairs l (l_pairs (history l os))) given idx ov retain b /\
  forall cn kn, list_names l (VStr cn) (VStr kn) -> exists opts pubs body tag, file_of cn kn opts pubs body tag b.
Proof.
  intros S I H. apply (pack_layout _ _ _ _ _ _ _ _ S) in H. rewrite (history_in_place os l I) in H.
  split; [exact H|]. intros cn kn Hn.
  destruct H as (cn' & kn' & d & opts & sel & pubs & privs & bs & pad & plain & pass & body & tag &
    Hn' & _ & _ & _ & _ & _ & _ & _ & _ & _ & _ & _ & _ & _ & _ & Hf).
  assert (list_names l (VStr cn') (VStr kn')) as Hl by exact Hn'.
  apply list_names_iff in Hn, Hl. rewrite Hn in Hl. injection Hl as <- <-. exists opts, pubs, body, tag. exact Hf.
Qed.

(** Where the pairs of an edited list come from. *)
Definition added_by (o : op) : list pair :=
  match o with
  | Edit (Append x) | Edit (Insert _ x) | Edit (SetItem _ x) => [x]
  | Edit (Extend xs) | Edit (SetSlice _ xs) | Derive (Add xs) | Derive (RAdd xs) => xs
  | _ => []
  end.
Lemma replace_all_in {A} ps (xs l : list A) q : In q (replace_all ps xs l) -> In q l \/ In q xs.
Proof.
  revert xs l. induction ps as [|i ps IH]; intros [|x xs] l H; cbn [replace_all] in H; auto.
  apply IH in H as [H|H]; [|right; right; exact H].
  assert (In q l \/ q = x) as [?| ->]; [|left; assumption|right; left; reflexivity].
  clear - H. revert H. generalize (Z.to_nat i) as n. induction l as [|y l IH]; intros [|n] H; cbn [replace_nth] in H; auto.
  - destruct H as [->|H]; [auto|left; right; exact H].
  - destruct H as [->|H]; [left; left; reflexivity|]. apply IH in H as [H|H]; [left; right; exact H|auto].
Qed.
Lemma in_firstn {A} n (l : list A) q : In q (firstn n l) -> In q l.
Proof. intros H. rewrite <- (firstn_skipn n l). apply in_or_app. auto. Qed.
Lemma in_skipn {A} n (l : list A) q : In q (skipn n l) -> In q l.
Proof. intros H. rewrite <- (firstn_skipn n l). apply in_or_app. auto. Qed.
Lemma in_keep_at {A} f i (l : list A) q : In q (keep_at f i l) -> In q l.
Proof. revert i. induction l as [|x l IH]; intros i; cbn [keep_at]; [auto|]. destruct (f i); intros H; [destruct H as [->|H]; [left; reflexivity|]|]; right; eapply IH; exact H. Qed.
Lemma edit_data_in e l r q : edit_data e l = Ok r -> In q r -> In q l \/ In q (added_by (Edit e)).
Proof.
  destruct e as [x|xs|i x|i|x| | |n|i x|i|s xs|s|ks rv|]; cbn [edit_data edit_items added_by]; intros H Q.
  - apply Ok_inj in H as <-. apply in_app_or in Q. exact Q.
  - apply Ok_inj in H as <-. apply in_app_or in Q. exact Q.
  - apply Ok_inj in H as <-. unfold insert_at in Q. cbn zeta in Q. apply in_app_or in Q as [Q|[->|Q]];
      [left; eapply in_firstn; exact Q|right; left; reflexivity|left; eapply in_skipn; exact Q].
  - destruct (index_pos l i) as [j|]; [|discriminate]. cbn [rbind] in H. apply Ok_inj in H as <-. unfold remove_nth in Q.
    apply in_app_or in Q as [Q|Q]; left; [eapply in_firstn; exact Q|eapply in_skipn; exact Q].
  - apply remove_first_iff in H as (a & y & b & -> & -> & _). left. apply in_app_or in Q as [Q|Q]; apply in_or_app; [left|right; right]; exact Q.
  - apply Ok_inj in H as <-. destruct Q.
  - apply Ok_inj in H as <-. left. apply in_rev. exact Q.
  - apply Ok_inj in H as <-. left. unfold repeated in Q. apply in_concat in Q as (m & Im & Q). apply repeat_spec in Im as ->. exact Q.
  - destruct (index_pos l i) as [j|]; [|discriminate]. cbn [rbind] in H. apply Ok_inj in H as <-.
    apply (replace_all_in [Z.of_nat j] [x] l q). cbn [replace_all]. rewrite Nat2Z.id. exact Q.
  - destruct (index_pos l i) as [j|]; [|discriminate]. cbn [rbind] in H. apply Ok_inj in H as <-. unfold remove_nth in Q.
    apply in_app_or in Q as [Q|Q]; left; [eapply in_firstn; exact Q|eapply in_skipn; exact Q].
  - unfold set_slice in H. cbn zeta in H. destruct (_ =? 1).
    + apply Ok_inj in H as <-. apply in_app_or in Q as [Q|Q]; [left; eapply in_firstn; exact Q|].
      apply in_app_or in Q as [Q|Q]; [auto|left; eapply in_skipn; exact Q].
    + destruct (positions (length l) s) as [ps|]; [|discriminate]. cbn [rbind] in H. destruct (_ =? _)%nat; [|discriminate].
      apply Ok_inj in H as <-. apply replace_all_in in Q. exact Q.
  - unfold del_slice in H. destruct (positions (length l) s) as [ps|]; [|discriminate]. cbn [rbind] in H. apply Ok_inj in H as <-.
    left. eapply in_keep_at. exact Q.
  - apply Ok_inj in H as <-. left. unfold sort_items in Q. apply in_flat_map in Q as (i & _ & Q).
    destruct (nth_error l i) as [u|] eqn:N; [|destruct Q]. destruct Q as [->|[]]. eapply nth_error_In. exact N.
  - destruct (neighbours_equal pair_eqb l); [|discriminate]. apply Ok_inj in H as <-. auto.
Qed.
Lemma history_in os : forall l q, in_place os -> In q (l_pairs (history l os)) -> In q (l_pairs l) \/ exists o, In o os /\ In q (added_by o).
Proof.
  induction os as [|o os IH]; intros l q I Q; [left; exact Q|]. unfold history in *. cbn [fold_left] in Q.
  apply IH in Q as [Q|(o' & Io & Q)]; [|right; exists o'; split; [right; exact Io|exact Q]|intros o' Io; apply I; right; exact Io].
  destruct (I o (or_introl eq_refl)) as [(e & ->)| ->]; unfold after in Q; cbn [apply_op] in Q; [|left; exact Q].
  destruct (edit_data e (l_pairs l)) as [r|] eqn:E; cbn [rbind l_pairs] in Q; [|left; exact Q].
  destruct (edit_data_in _ _ _ _ E Q) as [Q'|Q']; [left; exact Q'|right]. exists (Edit e). split; [left; reflexivity|exact Q'].
Qed.
Lemma new_key_clear ec kd h ps fo cl l k d : new_key ec (parse_pub ec) kd h ps fo cl = (l, Ok k) ->
  new_key ec (parse_pub ec) kd h ps fo (Some d) = (l, Ok (mkkey (k_kind k) (k_header k) (k_pcls k) (k_params k) (k_footer k) d)).
Proof.
  unfold new_key, wseq, wbind, wret.
  destruct (check_dict h (header_fmt kd)) as [l0 [[]|]]; [|discriminate].
  destruct (wlift (ditem (str "key_type") h)) as [l1 [kt|]]; [|discriminate].
  destruct (wlift (params_class kd kt)) as [l2 [c|]]; [|discriminate].
  destruct (new_params ec (parse_pub ec) c ps) as [l3 [[]|]]; [|discriminate].
  destruct (check_dict fo (footer_fmt kd)) as [l4 [[]|]]; [|discriminate].
  intros H. injection H as <- <-. reflexivity.
Qed.
Lemma parsed_reparses ec x lg k : key_from_bytes ec KPub x None = (lg, Ok k) -> k_kind k = KPub /\ (exists t, is_key t k) /\ reparses ec k.
Proof.
  intros H. destruct (C17_parsed_keys_have_types _ _ _ _ _ _ H) as (K & t & pub & priv & Hs & Hk).
  split; [exact K|]. split; [exists t; exact Hk|]. right.
  unfold key_from_bytes, key_from_bytes_with, key_from_stream in H.
  destruct (read_key_parts KPub (stream_of x)) as [s' [[[h ps] fo]|]]; [|discriminate].
  apply wbind_inv in H as (l1 & k1 & l2 & N & H & ->).
  destruct (unread s') as [|y rest].
  - unfold wret in H. injection H as <- <-. exists h, ps, fo, None, l1. exact N.
  - assert (k = mkkey (k_kind k1) (k_header k1) (k_pcls k1) (k_params k1) (k_footer k1) (dset (str "remainder") (VBytes (y :: rest)) (k_clear k1))) as ->.
    { unfold wseq, wwarn, wret, wbind in H. injection H as _ <-. reflexivity. }
    exists h, ps, fo, (Some (dset (str "remainder") (VBytes (y :: rest)) (k_clear k1))), l1. apply new_key_clear with (1 := N).
Qed.
Lemma parsed_pairs p e b given lg l : sound_prims p -> Z.of_nat (length b) <= ssize_max ->
  list_from_bytes p e b given = (lg, Ok l) ->
  Forall is_pair (l_pairs l) /\ Forall (fun q => reparses (p_ec_ok p) (pr_public q)) (l_pairs l) /\
  exists cn kn, list_names l (VStr cn) (VStr kn).
Proof.
  intros S L H. assert (snd (list_from_bytes p e b given) = Ok l) as E by (rewrite H; reflexivity).
  apply (C58_from_bytes_exact p e b given l S L) in E.
  destruct E as (cn & kn & opts & pubs & body & tag & extra & d & pass & plain & c1 & c2 & privs & pad & pairs &
    _ & _ & _ & _ & _ & _ & _ & Fp & Fv & ->). cbn [l_pairs].
  split; [|split].
  - clear - Fp Fv. revert privs Fv. induction Fp as [|q x pairs pubs (lg & H) Fp IH]; intros privs Fv; [constructor|].
    inversion Fv as [|? y ? privs' B Fv']; subst. constructor; [|eapply IH; exact Fv'].
    apply parsed_reparses in H as (K & T & _). destruct B as (t & pub & priv & _ & Hk & Kv & _).
    split; [exact K|]. split; [exact T|]. split; [exact Kv|]. exists t. exact Hk.
  - clear - Fp. induction Fp as [|q x pairs pubs (lg & H) Fp IH]; constructor; [|exact IH]. apply parsed_reparses in H as (_ & _ & R). exact R.
  - exists cn, kn. left. eexists. split; [reflexivity|]. split; reflexivity.
Qed.
(** A session: a file is parsed, keys are added, removed, replaced and reordered, the list is
    packed and the result is parsed with the passphrase it was packed with. It holds the edited
    list, in order, under the cipher and KDF of the file that the session started from. *)
Theorem C67_edit_session p e0 e e' b0 given0 lg0 l os given given' ov retain b :
  sound_prims p -> Z.of_nat (length b0) <= ssize_max -> Z.of_nat (length b) <= ssize_max ->
  list_from_bytes p e0 b0 given0 = (lg0, Ok l) ->
  in_place os ->
  (forall o q, In o os -> In q (added_by o) -> is_pair q /\ reparses (p_ec_ok p) (pr_public q)) ->
  snd (list_pack_bytes p e (history l os) given None ov retain) = Ok b ->
  (forall kn pass, passphrase_used e kn given pass -> passphrase_used e' kn given' pass) ->
  exists lg l' cn kn, list_from_bytes p e' b given' = (lg, Ok l') /\
    Forall2 (fun q q' => same_private (pr_private q) (pr_private q') /\
                         same_public (if ov then pr_private q else pr_public q) (pr_public q'))
            (l_pairs (history l os)) (l_pairs l') /\
    list_names l (VStr cn) (VStr kn) /\ list_names l' (VStr cn) (VStr kn).
Proof.
  intros S L0 L Hl I Ha H Hpass. destruct (parsed_pairs _ _ _ _ _ _ S L0 Hl) as (Ip & Rp & cn & kn & Hn).
  assert (forall q, In q (l_pairs (history l os)) -> is_pair q /\ reparses (p_ec_ok p) (pr_public q)) as Hq.
  { intros q Q. apply (history_in os l q I) in Q as [Q|(o & Io & Q)]; [|exact (Ha o q Io Q)].
    rewrite Forall_forall in Ip, Rp. auto. }
  apply (pack_layout _ _ _ _ _ _ _ _ S) in H.
  assert (Forall is_pair (l_pairs (history l os))) as Ip' by (apply Forall_forall; intros q Q; apply Hq; exact Q).
  assert (ov = false -> Forall (fun q => reparses (p_ec_ok p) (pr_public q)) (l_pairs (history l os))) as Rp' by (intros _; apply Forall_forall; intros q Q; apply Hq; exact Q).
  destruct (packed_parsed p e e' (history l os) given given' None ov retain b _ S L H eq_refl Ip' Rp' Hpass) as
    (c & k & d & vs & opts & pubs & privs & bs & pad & plain & pass & body & tag & pairs' & l' & lg &
     Hn' & _ & _ & _ & _ & _ & _ & _ & _ & _ & _ & _ & _ & _ & _ & P1 & -> & E & _).
  assert (list_names l (VStr c) (VStr k)) as Hc by (rewrite (history_in_place os l I) in Hn'; exact Hn').
  exists lg. eexists. exists c, k. split; [exact E|]. split; [exact P1|]. split; [exact Hc|].
  left. eexists. split; [reflexivity|]. split; reflexivity.
Qed.

(** ** C68 *)
Lemma derived l d l' : apply_op (Derive d) l = Ok l' -> exists ps, l' = new_list ps.
Proof. cbn [apply_op]. destruct (derive_data d (l_pairs l)) as [ps|]; cbn [rbind]; [|discriminate]. intros H. apply Ok_inj in H as <-. exists ps. reflexivity. Qed.
Lemma new_list_names ps : list_names (new_list ps) (VStr (str "none")) (VStr (str "none")).
Proof. right. split; [discriminate|auto]. Qed.
(** A slice, a copy made with the method copy, a sum and a product are packed without
    encryption, whatever the original is and whatever passphrase is given: the file's body is
    the plaintext, with the private sections of the keys in it. *)
Theorem C68_derived_lists_are_written_in_the_clear p e l d l' given idx ov retain b :
  sound_prims p -> apply_op (Derive d) l = Ok l' ->
  snd (list_pack_bytes p e l' given idx ov retain) = Ok b ->
  exists sel pubs privs pad plain,
    chosen (l_pairs l') idx sel /\
    Forall2 (fun q x => pack_private_bytes (pr_private q) = Ok x) sel privs /\
    plaintext_of (e_randbits e) (e_randbits e) privs pad plain /\
    file_of (str "none") (str "none") [] pubs plain [] b.
Proof.
  intros S D H. apply derived in D as (ps & ->). apply (pack_layout _ _ _ _ _ _ _ _ S) in H.
  destruct H as (cn & kn & d0 & opts & sel & pubs & privs & bs & pad & plain & pass & body & tag &
    Hn & Hd & Ho & Hs & _ & _ & Fv & Pl & _ & _ & _ & _ & _ & He & Ht & Hf).
  apply list_names_iff in Hn. rewrite (proj2 (list_names_iff _ _ _) (new_list_names ps)) in Hn. injection Hn as <- <-.
  assert (opts = []) as ->.
  { destruct Ho as (ts & vs & [I|[I|[]]] & _ & R); injection I; intros; subst; [|discriminate]. inversion R. reflexivity. }
  assert (body ++ tag = plain /\ tag = []) as (Eb & ->).
  { destruct He as (m & kl & il & bs' & I & [(-> & E)|(N & K & _)]); [|discriminate K]. split; [exact E|].
    destruct Ht as (m' & kl' & il' & bs2 & I' & Lt).
    assert (forall x, In (str "none", x) cipher_table -> fst (fst (fst x)) = Plain) as U.
    { intros x Hx. cbn [cipher_table In] in Hx. repeat (destruct Hx as [Hx|Hx]; [injection Hx; intros; subst; try reflexivity; discriminate|]). destruct Hx. }
    pose proof (U _ I') as Em. cbn [fst] in Em. subst m'. cbn [authenticated] in Lt. apply length_zero_iff_nil. exact Lt. }
  rewrite app_nil_r in Eb. subst body. exists sel, pubs, privs, pad, plain. auto.
Qed.
(** What the derived lists hold. *)
Inductive derives_to : derive -> list pair -> list pair -> Prop :=
| Dv_slice s l ps r : selects (length l) s ps -> Forall2 (at_index l) ps r -> derives_to (GetSlice s) l r
| Dv_copy l : derives_to Copy l l
| Dv_add xs l : derives_to (Add xs) l (l ++ xs)
| Dv_radd xs l : derives_to (RAdd xs) l (xs ++ l)
| Dv_mul n l r : edits (IMul n) l r -> derives_to (Mul n) l r.
Lemma rmap_index_iff {A} (l : list A) ps r : rmap (py_index l) ps = Ok r <-> Forall2 (at_index l) ps r.
Proof.
  revert r. induction ps as [|i ps IH]; intros r; cbn [rmap].
  - split; [intros H; apply Ok_inj in H as <-; constructor|intros H; inversion H; reflexivity].
  - split.
    + intros H. destruct (py_index l i) as [x|] eqn:E; [|discriminate]. cbn [rbind] in H.
      destruct (rmap (py_index l) ps) as [r'|]; [|discriminate]. cbn [rbind] in H. apply Ok_inj in H as <-.
      constructor; [apply py_index_iff; exact E|apply IH; reflexivity].
    + intros H. inversion H as [|? x ? r' E F]; subst. apply py_index_iff in E as ->. cbn [rbind]. rewrite (proj2 (IH r') F). reflexivity.
Qed.
Theorem C68_derived_contents d l r : derive_data d l = Ok r <-> derives_to d l r.
Proof.
  destruct d as [s| |xs|xs|n]; cbn [derive_data derive_items].
  - unfold get_slice. split.
    + intros H. destruct (positions (length l) s) as [ps|] eqn:E; [|discriminate]. cbn [rbind] in H.
      apply positions_iff in E. apply rmap_index_iff in H. econstructor; eassumption.
    + intros H. inversion H; subst. match goal with P : selects _ _ _ |- _ => rewrite (proj2 (positions_iff _ _ _) P) end. cbn [rbind].
      apply rmap_index_iff. assumption.
  - split; [intros H; apply Ok_inj in H as <-; constructor|intros H; inversion H; reflexivity].
  - split; [intros H; apply Ok_inj in H as <-; constructor|intros H; inversion H; reflexivity].
  - split; [intros H; apply Ok_inj in H as <-; constructor|intros H; inversion H; reflexivity].
  - split.
    + intros H. constructor. apply (C67_edits_contents (IMul n)). exact H.
    + intros H. inversion H; subst. apply (C67_edits_contents (IMul n)). assumption.
Qed.
(** Only a slice with step 0 fails. *)
Lemma derive_fails d l x : derive_data d l = Err x -> exists s, d = GetSlice s /\ sl_step s = Some 0 /\ x = ValueError.
Proof.
  destruct d as [s| |xs|xs|n]; cbn [derive_data derive_items]; try discriminate. unfold get_slice. intros H. exists s. split; [reflexivity|].
  destruct (positions (length l) s) as [ps|] eqn:E; cbn [rbind] in H.
  - exfalso. apply positions_iff in E.
    assert (forall i, In i ps -> exists y, py_index l i = Ok y) as P.
    { intros i I. pose proof (selected_in_range _ _ _ _ E I) as R. destruct (nth_error l (Z.to_nat i)) as [y|] eqn:Y.
      - exists y. apply py_index_iff. left. split; [lia|exact Y].
      - apply nth_error_None in Y. lia. }
    clear E. revert x H. induction ps as [|i ps IH]; cbn [rmap]; intros x H; [discriminate|].
    destruct (P i (or_introl eq_refl)) as (y & Y). rewrite Y in H. cbn [rbind] in H.
    destruct (rmap (py_index l) ps) as [r|x'] eqn:R; [discriminate|]. eapply IH; [intros j J; apply P; right; exact J|reflexivity].
  - unfold positions in E. destruct (Z.eqb_spec (sl_step_of s) 0) as [K|]; [|discriminate]. unfold sl_step_of in K.
    destruct (sl_step s) as [k|]; [|discriminate]. split; [congruence|]. congruence.
Qed.
(** A history loses the protection if some slice, copy, sum or product in it succeeded. *)
Definition takes_part (o : op) : Prop := exists d, o = Derive d /\ (forall s, d = GetSlice s -> sl_step s <> Some 0).
Lemma derive_zero d l r : derive_data d l = Ok r -> takes_part (Derive d).
Proof.
  intros E. exists d. split; [reflexivity|]. intros s -> K. cbn [derive_data derive_items] in E. unfold get_slice, positions, sl_step_of in E. rewrite K in E. discriminate.
Qed.
Lemma history_keeps os : forall l, ~ (exists o, In o os /\ takes_part o) -> history l os = with_pairs l (l_pairs (history l os)).
Proof.
  induction os as [|o os IH]; intros l N; [destruct l; reflexivity|]. unfold history in *. cbn [fold_left].
  assert (after l o = with_pairs l (l_pairs (after l o))) as A.
  { destruct o as [e|d|]; [apply after_in_place; eauto| |apply after_in_place; auto].
    unfold after. cbn [apply_op]. destruct (derive_data d (l_pairs l)) as [r|x] eqn:E; cbn [rbind]; [|destruct l; reflexivity].
    exfalso. apply N. exists (Derive d). split; [left; reflexivity|]. eapply derive_zero. exact E. }
  rewrite (IH (after l o)) by (intros (o' & I & T); apply N; exists o'; split; [right; exact I|exact T]).
  rewrite A. reflexivity.
Qed.
Lemma header_stays_lost os : forall l, l_header l = None -> l_header (history l os) = None.
Proof.
  induction os as [|o os IH]; intros l H; [exact H|]. unfold history in *. cbn [fold_left]. apply IH.
  destruct o as [e|d|]; unfold after; cbn [apply_op]; [|destruct (derive_data d (l_pairs l)); [reflexivity|exact H]|exact H].
  destruct (edit_data e (l_pairs l)); exact H.
Qed.
Lemma header_lost os o : In o os -> takes_part o -> forall l, l_header (history l os) = None.
Proof.
  induction os as [|o' os IH]; intros I T l; [destruct I|]. destruct I as [->|I].
  - unfold history. cbn [fold_left]. apply (header_stays_lost os). destruct T as (d & -> & N). unfold after. cbn [apply_op].
    destruct (derive_data d (l_pairs l)) as [r|x] eqn:E; [reflexivity|]. apply derive_fails in E as (s & -> & K & _). destruct (N s eq_refl K).
  - unfold history. cbn [fold_left]. apply (IH I T).
Qed.
(** Exactly what cipher and KDF a list is packed with after any history. *)
Theorem C68_history_protection l os c k :
  ((exists o, In o os /\ takes_part o) ->
     list_names (history l os) c k <-> c = VStr (str "none") /\ k = VStr (str "none")) /\
  (~ (exists o, In o os /\ takes_part o) -> list_names (history l os) c k <-> list_names l c k).
Proof.
  split.
  - intros (o & I & T). pose proof (header_lost os o I T l) as H. split.
    + intros [(h & E & _)|(_ & E)]; [congruence|exact E].
    + intros E. right. split; [congruence|exact E].
  - intros N. rewrite (history_keeps os l N). reflexivity.
Qed.
(** The full property does not hold: [ex_list] is encrypted with a passphrase, but the file of
    its slice [0:1], packed with that passphrase, is read without one (the prompt would fail),
    and it has the private key. The same for copy, + and *. *)
Definition no_env : env := mkenv (Err (EOFError true [])) 0 [].
Theorem C68_derived_lists_are_protected_refuted :
  exists l lg, list_from_bytes toy_prims ex_env ex_file (Some (str "pw")) = (lg, Ok l) /\
    list_names l (VStr (str "aes256-gcm@openssh.com")) (VStr (str "bcrypt")) /\
    Forall (fun d => exists l' b l2 q,
        apply_op (Derive d) l = Ok l' /\
        snd (list_pack_bytes toy_prims ex_env l' (Some (str "pw")) None true true) = Ok b /\
        list_from_bytes toy_prims no_env b None = ([], Ok l2) /\
        nth_error (l_pairs l2) 0 = Some q /\ pr_private q = ex_ed)
      [GetSlice (mkslice (Some 0) (Some 1) None); Copy; Add ex_pairs; RAdd ex_pairs; Mul 2].
Proof.
  exists ex_parsed, []. split; [vm_compute; reflexivity|]. split; [left; eexists; split; [reflexivity|split; reflexivity]|].
  repeat (apply Forall_cons; [do 4 eexists; split; [vm_compute; reflexivity|]; split; [vm_compute; reflexivity|]; split; [vm_compute; reflexivity|]; split; [reflexivity|vm_compute; reflexivity]|]).
  apply Forall_nil.
Qed.
(** What does hold: copy.copy gives a list that is packed like the original, and include_indices
    takes a part of the list under the original's protection (C33). *)
Theorem C68_shallow_copy_is_protected_partial p e l l' given idx ov retain :
  apply_op ShallowCopy l = Ok l' ->
  list_pack_bytes p e l' given idx ov retain = list_pack_bytes p e l given idx ov retain /\
  forall c k, list_names l' c k <-> list_names l c k.
Proof. cbn [apply_op]. intros H. apply Ok_inj in H as <-. split; reflexivity. Qed.

(** ** C69 *)
(** Packing looks at the keys, the names of cipher and KDF and the KDF options only: bytes kept
    from parsing, stale or not, do not matter. *)
Theorem C69_packing_uses_current_values p e l l' given idx ov retain :
  l_pairs l = l_pairs l' -> l_kdf_options l = l_kdf_options l' ->
  (forall c k, list_names l c k <-> list_names l' c k) ->
  list_pack_bytes p e l given idx ov retain = list_pack_bytes p e l' given idx ov retain.
Proof.
  intros Ep Eo En. unfold list_pack_bytes, pack_plain.
  assert (list_cipher_kdf l = list_cipher_kdf l') as <-.
  { destruct (list_cipher_kdf l) as [c k] eqn:E. symmetry. apply list_names_iff. apply En. apply list_names_iff. exact E. }
  rewrite Eo, Ep.
  assert (forall ov idx, write_pubs l ov idx = write_pubs l' ov idx) as Wp.
  { intros o ix. induction ix as [|i ix IH]; cbn [write_pubs]; [reflexivity|]. rewrite Ep, IH. reflexivity. }
  assert (forall idx, write_privs l idx = write_privs l' idx) as Wv.
  { intros ix. induction ix as [|i ix IH]; cbn [write_privs]; [reflexivity|]. rewrite Ep, IH. reflexivity. }
  destruct (list_cipher_kdf l) as [c k]. rewrite !Wp, !Wv. reflexivity.
Qed.
(** Likewise for keys: equal header, parameters and footer (as mappings) give equal bytes. *)
Lemma dict_bytes_same f a b : (forall x, In x (map fst f) -> dget x a = dget x b) -> dict_bytes f a = dict_bytes f b.
Proof.
  induction f as [|[x i] f IH]; intros H; cbn [dict_bytes]; [reflexivity|]. unfold ditem.
  rewrite (H x (or_introl eq_refl)), IH by (intros y I; apply H; right; exact I). reflexivity.
Qed.
Theorem C69_key_bytes_use_current_values k k' :
  k_pcls k = k_pcls k' -> same_mapping (k_header k) (k_header k') -> same_mapping (k_params k) (k_params k') ->
  same_mapping (k_footer k) (k_footer k') ->
  pack_public_bytes k = pack_public_bytes k' /\ pack_private_bytes k = pack_private_bytes k'.
Proof.
  intros Ec Eh Ep Ef. rewrite !pack_public_eq, !pack_private_eq, Ec.
  rewrite (dict_bytes_same (header_fmt KPub) (k_header k) (k_header k')) by (intros x _; apply Eh).
  rewrite (dict_bytes_same (header_fmt KPriv) (k_header k) (k_header k')) by (intros x _; apply Eh).
  rewrite (dict_bytes_same (footer_fmt KPriv) (k_footer k) (k_footer k')) by (intros x _; apply Ef).
  rewrite (dict_bytes_same (format_of (first_public_class (k_pcls k'))) (k_params k) (k_params k')) by (intros x _; apply Ep).
  rewrite (dict_bytes_same (format_of (k_pcls k')) (k_params k) (k_params k')) by (intros x _; apply Ep).
  split; reflexivity.
Qed.

(** ** C70 *)
Lemma set_is_key t k w x v : w <> InHeader -> is_key t k -> is_key t (set_entry w x v k).
Proof. intros N (A & B). destruct w; try contradiction; split; assumption. Qed.
(** Assign any value to any entry of the parameters of a private key. If the key can be packed
    and the bytes are parsed, the entry has the new value and all else is as before. *)
Theorem C70_set_private_parameter ec t pub priv k x v b :
  In (t, (pub, Some priv)) key_specs -> is_key t k -> k_kind k = KPriv ->
  pack_private_bytes (set_entry InParams x v k) = Ok b -> Z.of_nat (length b) <= ssize_max ->
  exists s' lg k', key_from_stream ec (parse_pub ec) KPriv None (stream_of b) = (s', (lg, Ok k')) /\ remaining s' = [] /\
    k_kind k' = KPriv /\ is_key t k' /\ dkeys (k_params k') = map fst priv /\
    (In x (map fst priv) -> dget x (k_params k') = Some v) /\
    (forall y, In y (map fst priv) -> y <> x -> dget y (k_params k') = dget y (k_params k)) /\
    dget (str "comment") (k_footer k') = dget (str "comment") (k_footer k).
Proof.
  intros Hs Hk Ek H L. assert (is_key t (set_entry InParams x v k)) as Hk' by (apply set_is_key; [discriminate|exact Hk]).
  destruct (C22_private_bytes_roundtrip ec t pub priv _ b (stream_of b) [] None Hs Hk' Ek H) as (s' & k' & E & R & K & T & _ & (D & P) & (_ & F) & _).
  { rewrite app_nil_r. reflexivity. }
  { exact L. }
  exists s'. eexists. exists k'. split; [exact E|]. split; [exact R|]. split; [exact K|]. split; [exact T|]. split; [exact D|].
  cbn [set_entry k_params k_footer] in P, F. split; [|split].
  - intros I. rewrite (P x I). apply dget_dset_same.
  - intros y I N. rewrite (P y I). apply dget_dset_other. exact N.
  - apply F. left. reflexivity.
Qed.
(** The same for the public bytes, of a public key or of a private key. *)
Theorem C70_set_public_parameter ec t pub priv k x v b :
  In (t, (pub, Some priv)) key_specs -> is_key t k ->
  pack_public_bytes (set_entry InParams x v k) = Ok b -> Z.of_nat (length b) <= ssize_max ->
  exists lg k', key_from_bytes ec KPub b None = (lg, Ok k') /\
    k_kind k' = KPub /\ is_key t k' /\ dkeys (k_params k') = map fst pub /\
    (In x (map fst pub) -> dget x (k_params k') = Some v) /\
    (forall y, In y (map fst pub) -> y <> x -> dget y (k_params k') = dget y (k_params k)).
Proof.
  intros Hs Hk H L. assert (is_key t (set_entry InParams x v k)) as Hk' by (apply set_is_key; [discriminate|exact Hk]).
  destruct (C17_public_bytes_roundtrip ec t pub priv _ b Hs Hk' H L) as (l & k' & E & _ & K & T & _ & (D & P) & _).
  exists l, k'. split; [exact E|]. split; [exact K|]. split; [exact T|]. split; [exact D|].
  cbn [set_entry k_params] in P. split.
  - intros I. rewrite (P x I). apply dget_dset_same.
  - intros y I N. rewrite (P y I). apply dget_dset_other. exact N.
Qed.
(** And for a certificate, if the edited parameters are ones that a certificate can be built from. *)
Theorem C70_set_certificate_parameter ec t pub priv k x v b lg k1 :
  In (t, (pub, priv)) key_specs -> is_key t k -> k_kind k = KPub ->
  new_key ec (parse_pub ec) KPub (k_header k) (dset x v (k_params k)) (k_footer k) (Some (k_clear k)) = (lg, Ok k1) ->
  pack_public_bytes (set_entry InParams x v k) = Ok b -> Z.of_nat (length b) <= ssize_max ->
  exists k', key_from_bytes ec KPub b None = (lg, Ok k') /\
    k_kind k' = KPub /\ is_key t k' /\ dkeys (k_params k') = map fst pub /\
    (In x (map fst pub) -> dget x (k_params k') = Some v) /\
    (forall y, In y (map fst pub) -> y <> x -> dget y (k_params k') = dget y (k_params k)).
Proof.
  intros Hs Hk Ek Nk H L. assert (is_key t (set_entry InParams x v k)) as Hk' by (apply set_is_key; [discriminate|exact Hk]).
  assert (k1 = set_entry InParams x v k) as ->.
  { pose proof (new_key_inv _ _ _ _ _ _ _ _ _ Nk) as (kt & c & l1 & G & Hc & -> & _). destruct Hk as (Gt & Hc'). rewrite Ek in Hc'.
    assert (kt = VStr t) as -> by congruence. assert (c = k_pcls k) as -> by congruence.
    unfold set_entry. rewrite Ek. reflexivity. }
  destruct (C17_constructed_public_key_roundtrip ec t pub priv _ _ _ _ lg _ b Hs Nk Hk' H L) as (k' & E & K & T & _ & (D & P) & _).
  exists k'. split; [exact E|]. split; [exact K|]. split; [exact T|]. split; [exact D|].
  cbn [set_entry k_params] in P. split.
  - intros I. rewrite (P x I). apply dget_dset_same.
  - intros y I N. rewrite (P y I). apply dget_dset_other. exact N.
Qed.
(** An entry that is not a field of the type does not change the bytes. *)
Theorem C70_set_unknown_parameter t pub priv k x v :
  In (t, (pub, priv)) key_specs -> is_key t k ->
  (~ In x (map fst pub) -> pack_public_bytes (set_entry InParams x v k) = pack_public_bytes k) /\
  (k_kind k = KPriv -> forall fs, priv = Some fs -> ~ In x (map fst fs) ->
     pack_private_bytes (set_entry InParams x v k) = pack_private_bytes k).
Proof.
  intros Hs Hk. split.
  - intros N. apply (C19_no_private_parameter_in_public_bytes t pub priv _ _ Hs); [apply set_is_key; [discriminate|exact Hk]|exact Hk|].
    intros y I. cbn [set_entry k_params]. apply dget_dset_other. congruence.
  - intros Ek fs -> N. rewrite !pack_private_eq. cbn [set_entry k_header k_params k_footer k_pcls].
    rewrite (dict_bytes_same (format_of (k_pcls k)) (dset x v (k_params k)) (k_params k)); [reflexivity|].
    intros y I. apply dget_dset_other. intros ->. apply N.
    destruct (spec_private _ _ _ Hs) as (c & Gc & F & _). destruct Hk as (_ & Hc). rewrite Ek in Hc. cbn [params_class] in Hc.
    assert (k_pcls k = c) as E0 by congruence. rewrite E0 in I. clear - F I. revert I.
    induction F as [|a a' f ts (E & _) F IH]; [intros []|]. cbn [map In]. rewrite E. intros [H|H]; auto.
Qed.
(** A value that has no encoding in the type of the field is refused. *)
Lemma record_field ts vs b x ty : record_of canonical ts vs b -> NoDup (map fst ts) -> In (x, ty) ts ->
  exists v w, dget x vs = Some v /\ canonical ty v w.
Proof.
  intros R. induction R as [|y t ts v vs b bs C R IH]; intros Nd I; [destruct I|]. cbn [map fst] in Nd. inversion Nd as [|? ? N Nd']; subst.
  destruct I as [I|I].
  - injection I as -> ->. exists v, b. cbn [dget]. destruct (str_eqb_reflect x x); [auto|congruence].
  - destruct (IH Nd' I) as (v' & w & G & C'). exists v', w. split; [|exact C']. cbn [dget].
    destruct (str_eqb_reflect x y) as [->|]; [|exact G]. exfalso. apply N. exact (in_map fst _ _ I).
Qed.
Theorem C70_ill_typed_value_is_refused t pub priv k x ty v :
  In (t, (pub, Some priv)) key_specs -> is_key t k -> k_kind k = KPriv ->
  In (x, ty) priv -> (forall w, ~ canonical ty v w) ->
  forall b, pack_private_bytes (set_entry InParams x v k) <> Ok b.
Proof.
  intros Hs Hk Ek I N b H. assert (is_key t (set_entry InParams x v k)) as Hk' by (apply set_is_key; [discriminate|exact Hk]).
  destruct (pack_private_layout _ _ _ _ _ Hs Hk' Ek H) as (vs & co & (D & R) & _ & Rec).
  destruct (spec_private _ _ _ Hs) as (c & _ & _ & Nd & _).
  inversion Rec as [|? ? ? ? ? bt bs _ Rec']; subst.
  destruct (record_app_inv _ _ _ _ _ Rec') as (vs1 & vs2 & b1 & b2 & E & -> & R1 & R2).
  assert (dkeys vs1 = map fst priv) as D1.
  { clear - R1. induction R1 as [|y t ts v vs b bs C R1 IH]; [reflexivity|]. cbn. f_equal. exact IH. }
  assert (vs1 = vs) as ->.
  { apply (f_equal (firstn (length vs))) in E.
    assert (length vs = length vs1) as Lv by (apply (f_equal (@length pystr)) in D; apply (f_equal (@length pystr)) in D1; unfold dkeys in D, D1; rewrite !map_length in *; lia).
    rewrite firstn_app, firstn_all, Nat.sub_diag in E. cbn [firstn] in E. rewrite app_nil_r in E.
    rewrite Lv, firstn_app, firstn_all, Nat.sub_diag in E. cbn [firstn] in E. rewrite app_nil_r in E. congruence. }
  destruct (record_field _ _ _ _ _ R1 Nd I) as (v' & w & G & C).
  rewrite (R x (in_map fst _ _ I)) in G. cbn [set_entry k_params] in G. rewrite dget_dset_same in G. injection G as <-. exact (N w C).
Qed.
Theorem C70_ill_typed_public_value_is_refused t pub priv k x ty v :
  In (t, (pub, priv)) key_specs -> is_key t k -> In (x, ty) pub -> (forall w, ~ canonical ty v w) ->
  forall b, pack_public_bytes (set_entry InParams x v k) <> Ok b.
Proof.
  intros Hs Hk I N b H. assert (is_key t (set_entry InParams x v k)) as Hk' by (apply set_is_key; [discriminate|exact Hk]).
  destruct (pack_public_layout _ _ _ _ _ Hs Hk' H) as (vs & (D & R) & Rec).
  destruct (spec_public _ _ _ Hs) as (c & _ & _ & Nd & _).
  inversion Rec as [|? ? ? ? ? bt bs _ Rec']; subst.
  destruct (record_field _ _ _ _ _ Rec' Nd I) as (v' & w & G & C).
  rewrite (R x (in_map fst _ _ I)) in G. cbn [set_entry k_params] in G. rewrite dget_dset_same in G. injection G as <-. exact (N w C).
Qed.
(** Changing the comment: any text that has an encoding can be set, and comes back; the
    parameters and the public bytes stay. *)
Theorem C70_set_comment ec t pub priv k c u b :
  In (t, (pub, Some priv)) key_specs -> is_key t k -> k_kind k = KPriv ->
  pack_private_bytes k = Ok b -> utf8 c u -> Z.of_nat (length u) < 2 ^ 32 ->
  Z.of_nat (length b) + Z.of_nat (length u) + 4 <= ssize_max ->
  let k1 := set_entry InFooter (str "comment") (VStr c) k in
  pack_public_bytes k1 = pack_public_bytes k /\
  exists b1 s' lg k', pack_private_bytes k1 = Ok b1 /\
    key_from_stream ec (parse_pub ec) KPriv None (stream_of b1) = (s', (lg, Ok k')) /\ remaining s' = [] /\
    dget (str "comment") (k_footer k') = Some (VStr c) /\
    restricts (map fst priv) (k_params k) (k_params k').
Proof.
  intros Hs Hk Ek H U Lu L k1. split; [rewrite !pack_public_eq; reflexivity|].
  assert (is_key t k1) as Hk1 by (apply set_is_key; [discriminate|exact Hk]).
  assert (Z.of_nat (length b) <= ssize_max) as Lb by lia.
  destruct (proj1 (C22_private_layout t pub priv k b Hs Hk Ek Lb) H) as (vs & co & Rs & G & Gc & Rec).
  inversion Rec as [|? ? ? ? ? bt bs Ct Rec']; subst.
  destruct (record_app_inv _ _ _ _ _ Rec') as (vs1 & vs2 & b1 & b2 & E & -> & R1 & R2).
  assert (vs1 = vs /\ vs2 = [(str "comment", co)]) as (-> & ->).
  { inversion R2 as [|? ? ? v2 ? ? ? C2 R3]; subst. inversion R3; subst. apply app_inj_tail in E as (-> & E). split; [reflexivity|congruence]. }
  assert (exists w, prefixed 4 u w) as (w & Pw).
  { exists (be_bytes 4 (Z.of_nat (length u)) ++ u), (be_bytes 4 (Z.of_nat (length u))).
    rewrite be_bytes_length, unsigned_be, be_value_be_bytes. change (256 ^ Z.of_nat 4) with (2 ^ 32).
    split; [reflexivity|]. split; [apply Z.mod_small; lia|reflexivity]. }
  pose proof (prefixed_length _ _ _ Pw) as Lw.
  assert (record_of canonical (type_field :: priv ++ [comment_field]) ((str "key_type", VStr t) :: vs ++ [(str "comment", VStr c)]) (bt ++ b1 ++ w)) as Rec1.
  { constructor; [exact Ct|]. apply record_app; [exact R1|]. rewrite <- (app_nil_r w). constructor; [|constructor].
    split; [econstructor; eassumption|]. intros w' W'. inversion W' as [|? ? u' ? U' P'| | |]; subst.
    assert (u' = u) as -> by (eapply utf8_functional; eassumption). rewrite (prefixed_functional _ _ _ _ Pw P'). lia. }
  assert (pack_private_bytes k1 = Ok (bt ++ b1 ++ w)) as H1.
  { apply (C22_private_layout t pub priv k1 _ Hs Hk1 Ek); [rewrite !app_length in *; lia|].
    exists vs, (VStr c). split; [exact Rs|]. split; [exact G|]. split; [apply dget_dset_same|exact Rec1]. }
  exists (bt ++ b1 ++ w).
  destruct (C22_private_bytes_roundtrip ec t pub priv k1 _ (stream_of (bt ++ b1 ++ w)) [] None Hs Hk1 Ek H1) as (s' & k' & E' & R & K & T & _ & P & (_ & F) & _).
  { rewrite app_nil_r. reflexivity. }
  { unfold sized. cbn. rewrite !app_length in *. lia. }
  exists s'. eexists. exists k'. split; [exact H1|]. split; [exact E'|]. split; [exact R|]. split; [|exact P].
  rewrite (F (str "comment") (or_introl eq_refl)). apply dget_dset_same.
Qed.
(** The type is not such an entry: packing follows the class the key was made with, so after an
    assignment to header["key_type"] the bytes name one type and hold the fields of another.
    Packing does not complain; parsing fails. *)
Theorem C70_set_key_type_refuted :
  exists k1 b, k1 = set_entry InHeader (str "key_type") (VStr (str "ssh-rsa")) ex_ed /\
    pack_private_bytes k1 = Ok b /\
    (exists msg, snd (snd (key_from_stream (p_ec_ok toy_prims) (parse_pub (p_ec_ok toy_prims)) KPriv None (stream_of b))) = Err (EOFError true msg)) /\
    ~ is_key (str "ssh-rsa") k1.
Proof.
  do 2 eexists. split; [reflexivity|]. split; [vm_compute; reflexivity|]. split; [eexists; vm_compute; reflexivity|].
  intros (_ & H). vm_compute in H. discriminate H.
Qed.

(** ** Concrete cases *)
(** A session on the parsed encrypted file: the first pair is moved to the end, a wrong index
    is tried, the list is doubled, one of the four is deleted with a stepped slice, and sorting is
    tried without a key and done with one. *)
Definition ex_session : list op :=
  [Edit (Pop 0); Edit (Append (mkpair ex_ed_public ex_ed)); Edit (DelItem 7); ShallowCopy; Edit (IMul 2);
   Edit (DelSlice (mkslice None (Some (-3)) (Some (-2)))); Edit Sort; Edit (SortBy Z.of_nat true)].
Example C67_example :
  in_place ex_session /\
  (forall o q, In o ex_session -> In q (added_by o) -> is_pair q /\ reparses (p_ec_ok toy_prims) (pr_public q)) /\
  map (fun q => k_pcls (pr_private q)) (l_pairs (history ex_parsed ex_session)) = [RSAPriv; EdPriv; RSAPriv] /\
  exists b, snd (list_pack_bytes toy_prims ex_env (history ex_parsed ex_session) (Some (str "pw")) None true true) = Ok b.
Proof.
  split; [|split; [|split; [vm_compute; reflexivity|eexists; vm_compute; reflexivity]]].
  - intros o I. unfold ex_session in I. cbn [In] in I. repeat (destruct I as [<-|I]; [eauto|]). destruct I.
  - intros o q I Q. unfold ex_session in I. cbn [In] in I.
    assert (q = mkpair ex_ed_public ex_ed) as ->.
    { repeat (destruct I as [<-|I]; [cbn [added_by In] in Q; intuition congruence|]). destruct I. }
    destruct ex_pairs_ok as (A & B). inversion A; inversion B; subst. auto.
Qed.
(** Sorting by keys 2, 1, 2, 1: equal keys keep their order, also in reverse. *)
Example C67_sort_example :
  let ks := fun i => nth i [2; 1; 2; 1] 0 in
  sorted_positions ks false 4 = [1; 3; 0; 2]%nat /\ sorted_positions ks true 4 = [0; 2; 1; 3]%nat /\
  edit_data Sort (l_pairs ex_parsed) = Err TypeError /\ edit_data (SortBy ks false) (l_pairs ex_parsed) = Ok (rev (l_pairs ex_parsed)).
Proof. repeat split; vm_compute; reflexivity. Qed.
(** Keys that are str, e.g. comments. *)
Example C67_sort_any_keys_example :
  (forall a, str_ltb a a = false) /\ (forall a b c, str_ltb a b = true -> str_ltb b c = true -> str_ltb a c = true) /\
  (forall a b c, str_ltb a c = true -> str_ltb a b = true \/ str_ltb b c = true) /\ str_ltb (str "me") (str "you") = true.
Proof.
  split; [exact str_ltb_irrefl|]. split; [exact str_ltb_trans|]. split; [|reflexivity]. intros a b c H.
  destruct (str_ltb a b) eqn:E; [auto|]. right. destruct (str_ltb_total _ _ E) as [->|B]; [exact H|]. eapply str_ltb_trans; eassumption.
Qed.
(** What slices select. *)
Example C67_slices_example :
  selects 10 (mkslice (Some 2) (Some (-1)) (Some 3)) [2; 5; 8] /\ selects 4 (mkslice None None (Some (-1))) [3; 2; 1; 0] /\
  selects 3 (mkslice (Some (-100)) (Some 100) None) [0; 1; 2] /\ selects 3 (mkslice (Some 2) (Some 1) None) [] /\
  positions 3 (mkslice None None (Some 0)) = Err ValueError.
Proof. repeat split; try (apply positions_iff; reflexivity). Qed.
Example C68_example :
  takes_part (Derive (GetSlice (mkslice None (Some 1) None))) /\ ~ takes_part (Derive (GetSlice (mkslice None None (Some 0)))) /\
  (exists l', apply_op (Derive (GetSlice (mkslice None (Some 1) None))) ex_parsed = Ok l' /\ length (l_pairs l') = 1%nat) /\
  derives_to (GetSlice (mkslice None None (Some (-1)))) ex_pairs (rev ex_pairs).
Proof.
  split; [eexists; split; [reflexivity|]; intros s H; injection H as <-; discriminate|].
  split; [intros (d & H & N); injection H as <-; exact (N _ eq_refl eq_refl)|].
  split; [eexists; split; vm_compute; reflexivity|]. apply C68_derived_contents. vm_compute. reflexivity.
Qed.
(** A list with stale bytes and one without. *)
Example C69_example :
  let stale := mkpkl ex_pairs (Some [x00]) (l_header ex_list) (Some [x00]) None (Some [x00]) None (Some [x00]) in
  stale <> ex_list /\ l_pairs stale = l_pairs ex_list /\ (forall c k, list_names stale c k <-> list_names ex_list c k) /\
  snd (list_pack_bytes toy_prims ex_env stale (Some (str "pw")) None true false) = Ok ex_file.
Proof. split; [discriminate|]. split; [reflexivity|]. split; [reflexivity|vm_compute; reflexivity]. Qed.
(** Setting a parameter, an unknown entry, a value of another type, and the comment. *)
Example C70_example :
  In (str "ssh-rsa", (rsa_public, Some rsa_private)) key_specs /\ is_key (str "ssh-rsa") ex_rsa /\ k_kind ex_rsa = KPriv /\
  (exists b, pack_private_bytes (set_entry InParams (str "d") (VInt 17) ex_rsa) = Ok b) /\
  In (str "d") (map fst rsa_private) /\ ~ In (str "colour") (map fst rsa_private) /\
  (forall w, ~ canonical (TMpint 4) (VStr (str "17")) w) /\ In (str "d", TMpint 4) rsa_private /\
  pack_private_bytes (set_entry InParams (str "d") (VStr (str "17")) ex_rsa) = Err ValueError /\
  (exists b, pack_public_bytes (set_entry InParams (str "e") (VInt 17) ex_rsa) = Ok b) /\
  utf8 (str "new comment") (bstr "new comment").
Proof.
  split; [in_specs|]. split; [split; reflexivity|]. split; [reflexivity|]. split; [eexists; vm_compute; reflexivity|].
  split; [vm_compute; auto 10|]. split; [vm_compute; intuition discriminate|].
  split; [intros w (H & _); inversion H|]. split; [vm_compute; auto 10|]. split; [vm_compute; reflexivity|].
  split; [eexists; vm_compute; reflexivity|].
  apply utf8_encode_iff. vm_compute. reflexivity.
Qed.
(** A certificate whose key identifier is changed. *)
Example C70_certificate_example :
  is_key (str "ssh-ed25519-cert-v01@openssh.com") ex_cert /\
  (exists pub, In (str "ssh-ed25519-cert-v01@openssh.com", (pub, None)) key_specs /\ In (str "key_id") (map fst pub)) /\
  k_kind ex_cert = KPub /\ dget (str "key_id") (k_params ex_cert) <> Some (VStr (str "other")) /\
  (exists k1, new_key (p_ec_ok toy_prims) (parse_pub (p_ec_ok toy_prims)) KPub (k_header ex_cert)
     (dset (str "key_id") (VStr (str "other")) (k_params ex_cert)) (k_footer ex_cert) (Some (k_clear ex_cert)) = ([], Ok k1)) /\
  exists b, pack_public_bytes (set_entry InParams (str "key_id") (VStr (str "other")) ex_cert) = Ok b.
Proof.
  split; [split; vm_compute; reflexivity|]. split.
  { eexists. split; [in_specs|vm_compute; auto 10]. }
  split; [reflexivity|]. split; [vm_compute; discriminate|]. split; [eexists; vm_compute; reflexivity|eexists; vm_compute; reflexivity].
Qed.

Print Assumptions C67_edits_contents.
Print Assumptions C67_sort_any_keys.
Print Assumptions C67_edit_errors.
Print Assumptions C67_edits_keep_protection.
Print Assumptions C67_edit_session.
Print Assumptions C68_derived_lists_are_written_in_the_clear.
Print Assumptions C68_derived_contents.
Print Assumptions C68_history_protection.
Print Assumptions C68_derived_lists_are_protected_refuted.
Print Assumptions C68_shallow_copy_is_protected_partial.
Print Assumptions C69_packing_uses_current_values.
Print Assumptions C69_key_bytes_use_current_values.
Print Assumptions C70_set_private_parameter.
Print Assumptions C70_set_public_parameter.
Print Assumptions C70_set_certificate_parameter.
Print Assumptions C70_set_unknown_parameter.
Print Assumptions C70_ill_typed_value_is_refused.
Print Assumptions C70_ill_typed_public_value_is_refused.
Print Assumptions C70_set_comment.
Print Assumptions C70_set_key_type_refuted.
