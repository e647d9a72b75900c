(** Property C101: which of the warnings issued during a process are shown. *)
From Verif Require Import PyBase Repr Text Classes Key Crypto PrivateKeyList Shown.
From Verif Require Import SpecWire SpecRepr SpecKey SpecText SpecShown ProofBase ProofRepr Props_Text.
Open Scope N_scope.

Definition wkey (w : warning) : pystr * pystr * N := (fst (place w), message w, snd (place w)).
Definition walt (w : warning) : pystr * pystr * N := (fst (place w), message w, 0).
Lemma entry_eqb_spec a b : entry_eqb a b = true <-> a = b.
Proof.
  destruct a as [[m t] l], b as [[m' t'] l']. unfold entry_eqb. rewrite !andb_true_iff, !str_eqb_spec, N.eqb_eq.
  split; [intros ((-> & ->) & ->); reflexivity|intros E; injection E as -> -> ->; auto].
Qed.
Lemma entry_mem_spec k l : entry_mem k l = true <-> In k l.
Proof.
  unfold entry_mem. rewrite existsb_exists. split; [intros (x & I & E); apply entry_eqb_spec in E as ->; exact I|].
  intros I. exists k. split; [exact I|apply entry_eqb_spec; reflexivity].
Qed.
Lemma str_mem_in k l : str_mem k l = true <-> In k l.
Proof.
  induction l as [|x l IH]; cbn [str_mem In]; [split; [discriminate|tauto]|]. rewrite orb_true_iff, str_eqb_spec, IH.
  split; (intros [H|H]; [left; congruence|right; exact H]).
Qed.
Lemma place_nonzero w : snd (place w) <> 0.
Proof. destruct w; cbn; discriminate. Qed.
Lemma explicit_eq a r w : warn_explicit a r w =
  if entry_mem (wkey w) (r_modules r) then (false, r)
  else match a with
  | AIgnore => (false, r)
  | AAlways => (true, r)
  | ADefault => (true, mkreg (wkey w :: r_modules r) (r_once r))
  | AModule => (negb (entry_mem (walt w) (r_modules r)), mkreg (walt w :: wkey w :: r_modules r) (r_once r))
  | AOnce => (negb (str_mem (message w) (r_once r)), mkreg (wkey w :: r_modules r) (message w :: r_once r))
  end.
Proof. unfold warn_explicit, wkey, walt. destruct (place w) as [m l]. reflexivity. Qed.

(** The registries after the warnings [before]. *)
Definition inv (a : action) (r : registry) (before : list warning) : Prop :=
  (forall k, In k (r_modules r) <-> exists x, In x before /\ (k = wkey x \/ (a = AModule /\ k = walt x))) /\
  (forall t, In t (r_once r) <-> exists x, In x before /\ a = AOnce /\ t = message x).
Definition remembers (a : action) : Prop := a = ADefault \/ a = AModule \/ a = AOnce.

Lemma inv_empty a : inv a empty_registry [].
Proof. split; intros k; cbn; split; try tauto; intros (x & [] & _). Qed.

Lemma explicit_step a r before w b r' : remembers a -> inv a r before -> warn_explicit a r w = (b, r') ->
  inv a r' (before ++ [w]) /\ (b = true <-> forall x, In x before -> ~ same a x w).
Proof.
  intros R (I1 & I2) E. rewrite explicit_eq in E.
  destruct (entry_mem (wkey w) (r_modules r)) eqn:K.
  - apply entry_mem_spec in K. injection E as <- <-. pose proof K as K'. apply I1 in K' as (x & Ix & Ex).
    assert (place x = place w /\ message x = message w) as (P & M).
    { destruct Ex as [Ex|(_ & Ex)].
      - unfold wkey in Ex. injection Ex as E1 E2 E3. split; [|congruence]. destruct (place x), (place w). cbn [fst snd] in *. congruence.
      - exfalso. unfold wkey, walt in Ex. injection Ex as _ _ E3. exact (place_nonzero w E3). }
    split.
    + split.
      * intros k. rewrite I1. split.
        -- intros (y & Iy & Ey). exists y. split; [apply in_or_app; auto|exact Ey].
        -- intros (y & Iy & Ey). apply in_app_or in Iy as [Iy|[<-|[]]]; [exists y; auto|]. exists x. split; [exact Ix|].
           unfold wkey, walt in *. rewrite P, M. exact Ey.
      * intros t. rewrite I2. split.
        -- intros (y & Iy & Ey). exists y. split; [apply in_or_app; auto|exact Ey].
        -- intros (y & Iy & Ey). apply in_app_or in Iy as [Iy|[<-|[]]]; [exists y; auto|]. exists x. split; [exact Ix|]. rewrite M. exact Ey.
    + split; [discriminate|]. intros F. exfalso. apply (F x Ix). split; [exact M|]. destruct R as [-> | [-> | ->]]; [exact P|rewrite P; reflexivity|exact Logic.I].
  - assert (~ In (wkey w) (r_modules r)) as NK by (rewrite <- entry_mem_spec; congruence).
    destruct R as [-> | [-> | ->]]; injection E as <- <-.
    + split.
      * split; cbn [r_modules r_once].
        -- intros k. cbn [In]. rewrite I1. split.
           ++ intros [<- | (y & Iy & Ey)]; [exists w|exists y]; (split; [apply in_or_app; cbn; auto|auto]).
           ++ intros (y & Iy & Ey). apply in_app_or in Iy as [Iy|[<-|[]]]; [right; exists y; auto|]. destruct Ey as [-> |(D & _)]; [auto|discriminate].
        -- intros t. rewrite I2. split; intros (y & _ & D & _); discriminate.
      * split; [|reflexivity]. intros _ x Ix (M & P). apply NK, I1. exists x. split; [exact Ix|]. left. unfold wkey. rewrite M, P. reflexivity.
    + split.
      * split; cbn [r_modules r_once].
        -- intros k. cbn [In]. rewrite I1. split.
           ++ intros [<- | [<- | (y & Iy & Ey)]]; [exists w|exists w|exists y]; (split; [apply in_or_app; cbn; auto|auto]).
           ++ intros (y & Iy & Ey). apply in_app_or in Iy as [Iy|[<-|[]]]; [right; right; exists y; auto|]. destruct Ey as [-> |(_ & ->)]; auto.
        -- intros t. rewrite I2. split; intros (y & _ & D & _); discriminate.
      * rewrite negb_true_iff, <- not_true_iff_false, entry_mem_spec, I1. split.
        -- intros F x Ix (M & P). apply F. exists x. split; [exact Ix|]. right. split; [reflexivity|]. unfold walt. rewrite M, P. reflexivity.
        -- intros F (x & Ix & [Ex|(_ & Ex)]); unfold walt, wkey in Ex; injection Ex as E1 E2.
           ++ intros. exact (place_nonzero x (eq_sym H)).
           ++ apply (F x Ix). split; congruence.
    + split.
      * split; cbn [r_modules r_once].
        -- intros k. cbn [In]. rewrite I1. split.
           ++ intros [<- | (y & Iy & Ey)]; [exists w|exists y]; (split; [apply in_or_app; cbn; auto|auto]).
           ++ intros (y & Iy & Ey). apply in_app_or in Iy as [Iy|[<-|[]]]; [right; exists y; auto|]. destruct Ey as [-> |(D & _)]; [auto|discriminate].
        -- intros t. cbn [In]. rewrite I2. split.
           ++ intros [<- | (y & Iy & Ey)]; [exists w|exists y]; (split; [apply in_or_app; cbn; auto|auto]).
           ++ intros (y & Iy & Ey). apply in_app_or in Iy as [Iy|[<-|[]]]; [right; exists y; auto|]. left. symmetry. apply Ey.
      * rewrite negb_true_iff, <- not_true_iff_false, str_mem_in, I2. split.
        -- intros F x Ix (M & _). apply F. exists x. auto.
        -- intros F (x & Ix & _ & M). apply (F x Ix). split; [congruence|exact Logic.I].
Qed.
Lemma show_step a log : forall r before ws, remembers a -> inv a r before -> warned log ws ->
  exists l r', show a r log = (l, r') /\ inv a r' (before ++ ws) /\ first_ones (same a) before ws l.
Proof.
  induction log as [|e log IH]; intros r before ws R I H; inversion H as [|l0 r0 H0|w l0 r0 H0]; subst.
  - exists [], r. rewrite app_nil_r. repeat split; try apply I. constructor.
  - cbn [show]. apply IH; assumption.
  - cbn [show]. destruct (warn_explicit a r w) as [b r1] eqn:E. destruct (explicit_step _ _ _ _ _ _ R I E) as (I1 & S).
    destruct (IH r1 (before ++ [w]) r0 R I1 H0) as (l & r2 & -> & I2 & F). exists ((if b then [w] else []) ++ l), r2.
    split; [reflexivity|]. split; [rewrite <- app_assoc in I2; exact I2|]. destruct b; cbn [app].
    + constructor; [apply S; reflexivity|exact F].
    + assert (exists x, In x before /\ same a x w) as (x & Ix & Sx).
      { destruct (Exists_dec (fun x => same a x w) before) as [X|X].
        - intros x. unfold same. destruct (str_eqb (message x) (message w)) eqn:M; [apply str_eqb_spec in M|right; intros (K & _); apply str_eqb_spec in K; congruence].
          destruct a; try (left; split; [exact M|exact Logic.I]).
          + destruct (place x) as [m n], (place w) as [m' n']. destruct (list_eq_dec N.eq_dec m m') as [-> |D]; [|right; intros (_ & K); congruence].
            destruct (N.eq_dec n n') as [-> |D]; [left; auto|right; intros (_ & K); congruence].
          + destruct (list_eq_dec N.eq_dec (fst (place x)) (fst (place w))) as [D|D]; [left; auto|right; intros (_ & K); congruence].
        - apply Exists_exists in X. exact X.
        - exfalso. assert (false = true); [|discriminate]. apply S. intros x Ix Sx. apply X, Exists_exists. exists x. auto. }
      eapply fo_old; eassumption.
Qed.
Lemma warned_app l1 r1 l2 r2 : warned l1 r1 -> warned l2 r2 -> warned (l1 ++ l2) (r1 ++ r2).
Proof. induction 1; cbn; [auto| |]; intros; constructor; auto. Qed.
Lemma warned_app_inv l1 : forall l2 r, warned (l1 ++ l2) r -> exists r1 r2, r = r1 ++ r2 /\ warned l1 r1 /\ warned l2 r2.
Proof.
  induction l1 as [|e l1 IH]; intros l2 r H; [exists [], r; repeat split; [constructor|exact H]|].
  inversion H as [|l0 r0 H0|w l0 r0 H0]; subst; apply IH in H0 as (r1 & r2 & -> & A & B).
  - exists r1, r2. repeat split; [constructor; exact A|exact B].
  - exists (w :: r1), r2. repeat split; [constructor; exact A|exact B].
Qed.
Lemma calls_step a logs : forall r before ws log later lw, remembers a -> inv a r before ->
  warned (concat logs) ws -> warned log lw ->
  exists l, nth_error (show_calls a r (logs ++ log :: later)) (length logs) = Some l /\ first_ones (same a) (before ++ ws) lw l.
Proof.
  induction logs as [|l0 logs IH]; intros r before ws log later lw R I H HL; cbn [concat app show_calls length nth_error] in *.
  - inversion H; subst. destruct (show_step a log r before lw R I HL) as (l & r' & -> & _ & F). exists l. rewrite app_nil_r. auto.
  - apply warned_app_inv in H as (w1 & w2 & -> & A & B). destruct (show_step a l0 r before w1 R I A) as (l & r' & -> & I' & _).
    cbn [nth_error]. rewrite app_assoc. apply IH; assumption.
Qed.

(** Under the actions that remember, a call shows exactly those of its warnings that no call of the
    process has issued before, itself included. *)
Theorem C101_shown : forall a logs log later earlier ws,
  a = ADefault \/ a = AModule \/ a = AOnce -> warned (concat logs) earlier -> warned log ws ->
  exists shown, nth_error (show_calls a empty_registry (logs ++ log :: later)) (length logs) = Some shown /\
    first_ones (same a) earlier ws shown.
Proof. intros a logs log later earlier ws R H HL. exact (calls_step a logs empty_registry [] earlier log later ws R (inv_empty a) H HL). Qed.

Lemma show_ignore l : show AIgnore empty_registry l = ([], empty_registry).
Proof. induction l as [|[w|] l IH]; [reflexivity| |exact IH]. cbn [show]. rewrite explicit_eq. cbn [entry_mem empty_registry r_modules existsb]. rewrite IH. reflexivity. Qed.
Lemma show_always l ws : warned l ws -> show AAlways empty_registry l = (ws, empty_registry).
Proof. induction 1 as [|l r H IH|w l r H IH]; [reflexivity|exact IH|]. cbn [show]. rewrite explicit_eq. cbn [entry_mem empty_registry r_modules existsb]. rewrite IH. reflexivity. Qed.
(** Under "always" every warning is shown each time, under "ignore" none. *)
Theorem C101_always : forall logs wss, Forall2 warned logs wss ->
  show_calls AAlways empty_registry logs = wss /\ show_calls AIgnore empty_registry logs = map (fun _ => []) logs.
Proof.
  induction 1 as [|l ws logs wss W F (IH1 & IH2)]; [auto|]. cbn [show_calls map]. rewrite (show_always _ _ W), show_ignore, IH1, IH2. auto.
Qed.

Lemma first_none R l : forall before r, (forall w, In w l -> exists x, In x before /\ R x w) -> first_ones R before l r -> r = [].
Proof.
  induction l as [|w l IH]; intros before r H F; inversion F as [|? ? ? r' N F'|? ? ? ? x Ix Rx F']; subst; [reflexivity| |].
  - destruct (H w (or_introl eq_refl)) as (x & Ix & Rx). destruct (N x Ix Rx).
  - apply (IH _ _) in F'; [exact F'|]. intros y Iy. destruct (H y (or_intror Iy)) as (z & Iz & Rz). exists z. split; [apply in_or_app; auto|exact Rz].
Qed.
(** A call that issues nothing new shows nothing, for instance one that is made a second time. *)
Theorem C101_again : forall a logs log later earlier ws shown,
  a = ADefault \/ a = AModule \/ a = AOnce -> warned (concat logs) earlier -> warned log ws ->
  (forall w, In w ws -> In w earlier) ->
  nth_error (show_calls a empty_registry (logs ++ log :: later)) (length logs) = Some shown -> shown = [].
Proof.
  intros a logs log later earlier ws shown R H HL S E. destruct (C101_shown a logs log later earlier ws R H HL) as (l & E' & F).
  rewrite E in E'. injection E' as <-. apply (first_none _ _ _ _) in F; [exact F|]. intros w Iw. exists w. split; [apply S; exact Iw|].
  split; [reflexivity|]. destruct a; auto.
Qed.

Lemma first_in (R : warning -> warning -> Prop) (Refl : forall w, R w w) (Tr : forall x y z, R x y -> R y z -> R x z) l : forall before r, first_ones R before l r ->
  forall w, In w l -> (exists x, In x r /\ R x w) \/ (exists x, In x before /\ R x w).
Proof.
  induction l as [|w l IH]; intros before r F v Iv; [destruct Iv|]. inversion F as [|? ? ? r' N F'|? ? ? ? x Ix Rx F']; subst.
  - destruct Iv as [<- |Iv].
    + left. exists w. split; [left; reflexivity|apply Refl].
    + apply (IH _ _ F') in Iv as [(x & Ix & Rx)|(x & Ix & Rx)]; [left; exists x; split; [right; exact Ix|exact Rx]|].
      apply in_app_or in Ix as [Ix|[<- |[]]]; [right; exists x; auto|left; exists w; split; [left; reflexivity|exact Rx]].
  - destruct Iv as [<- |Iv]; [right; exists x; auto|]. apply (IH _ _ F') in Iv as [Iv|(y & Iy & Ry)]; [auto|].
    right. apply in_app_or in Iy as [Iy|[<- |[]]]; [exists y; auto|]. exists x. split; [exact Ix|]. exact (Tr _ _ _ Rx Ry).
Qed.
Lemma same_refl a w : same a w w.
Proof. split; [reflexivity|]. destruct a; auto. Qed.
Lemma same_trans a x y z : same a x y -> same a y z -> same a x z.
Proof. intros (A & B) (C & D). split; [congruence|]. destruct a; congruence. Qed.
Lemma calls_told a logs : forall r before ws, remembers a -> inv a r before -> warned (concat logs) ws ->
  forall w, In w ws -> (exists l x, In l (show_calls a r logs) /\ In x l /\ same a x w) \/ (exists x, In x before /\ same a x w).
Proof.
  induction logs as [|l0 logs IH]; intros r before ws R I H w Iw; cbn [concat show_calls] in *; [inversion H; subst; destruct Iw|].
  apply warned_app_inv in H as (w1 & w2 & -> & A & B). destruct (show_step a l0 r before w1 R I A) as (l & r' & -> & I' & F).
  pose proof (first_in _ (same_refl a) (same_trans a) _ _ _ F) as T.
  assert (forall v, In v w1 -> (exists l1 x, In l1 (l :: show_calls a r' logs) /\ In x l1 /\ same a x v) \/ (exists x, In x before /\ same a x v)) as T1.
  { intros v Iv. apply T in Iv as [(x & Ix & Sx)|Iv]; [left; exists l, x; cbn; auto|auto]. }
  apply in_app_or in Iw as [Iw|Iw]; [apply T1; exact Iw|].
  apply (IH r' (before ++ w1) w2 R I' B) in Iw as [(l1 & x & Il & Ix & Sx)|(x & Ix & Sx)]; [left; exists l1, x; cbn; auto|].
  apply in_app_or in Ix as [Ix|Ix]; [right; exists x; auto|].
  apply T1 in Ix as [(l1 & y & Il & Iy & Sy)|(y & Iy & Sy)]; [left; exists l1, y|right; exists y]; repeat (split; [assumption|]); eapply same_trans; eassumption.
Qed.
(** Nothing is lost altogether: for each warning issued in a process, one with its text has been shown. *)
Theorem C101_told : forall a logs ws w,
  a = ADefault \/ a = AModule \/ a = AOnce -> warned (concat logs) ws -> In w ws ->
  exists shown x, In shown (show_calls a empty_registry logs) /\ In x shown /\ message x = message w.
Proof.
  intros a logs ws w R H Iw. apply (calls_told a logs empty_registry [] ws R (inv_empty a) H) in Iw as [(l & x & Il & Ix & (M & _))|(x & [] & _)].
  exists l, x. auto.
Qed.

Lemma nat_repr_inj i j : nat_repr i = nat_repr j -> i = j.
Proof.
  unfold nat_repr. intros E. destruct (int_repr_text (Z.of_nat i)) as (d & _ & _ & _ & [(_ & A & B)|(A & _)]); [|lia].
  destruct (int_repr_text (Z.of_nat j)) as (d' & _ & _ & _ & [(_ & A' & B')|(A' & _)]); [|lia]. apply Nat2Z.inj. congruence.
Qed.
(** The warnings whose text and place say everything. *)
Definition unambiguous (w : warning) : Prop :=
  match w with WFormatted _ _ | WClass _ _ | WCertDuplicate _ _ => False | _ => True end.
Lemma same_unambiguous x w : unambiguous w -> same ADefault x w -> x = w.
Proof.
  intros U (M & P). destruct w; cbn in U; try contradiction; destruct x; try (exfalso; apply (f_equal snd) in P; cbn in P; discriminate P); try reflexivity; cbn [message] in M.
  - apply app_inv_tail in M. congruence.
  - apply app_inv_head, nat_repr_inj in M. congruence.
  - apply app_inv_head, nat_repr_inj in M. congruence.
  - apply app_inv_head, nat_repr_inj in M. congruence.
Qed.
Lemma first_subset R l : forall before r, first_ones R before l r -> forall w, In w r -> In w l.
Proof.
  induction l as [|w l IH]; intros before r F v Iv; inversion F as [|? ? ? r' N F'|? ? ? ? x Ix Rx F']; subst; [destruct Iv| |right; eapply IH; eassumption].
  destruct Iv as [<- |Iv]; [left; reflexivity|right; eapply IH; eassumption].
Qed.
Lemma warned_in l ws : warned l ws -> forall w, In w ws <-> In (Warn w) l.
Proof.
  induction 1 as [|l r H IH|v l r H IH]; intros w; cbn [In]; [tauto| |]; rewrite IH; [split; [auto|intros [K|K]; [discriminate|exact K]]|].
  split; (intros [K|K]; [left; congruence|right; exact K]).
Qed.
Lemma warned_total l : exists ws, warned l ws.
Proof. induction l as [|[w|] l (ws & IH)]; [exists []|exists (w :: ws)|exists ws]; constructor; exact IH. Qed.
Lemma fresh log : exists l, show_calls ADefault empty_registry [log] = [l] /\ exists ws, warned log ws /\ first_ones (same ADefault) [] ws l.
Proof.
  destruct (warned_total log) as (ws & H). destruct (show_step ADefault log empty_registry [] ws (or_introl eq_refl) (inv_empty _) H) as (l & r & E & _ & F).
  exists l. cbn [show_calls]. rewrite E. eauto.
Qed.
(** In a process that has made no other call, by Python's default action, everything the call issues is
    shown; of warnings with the same text and place, the first. *)
Theorem C101_first_call : forall log w, unambiguous w ->
  exists shown, show_calls ADefault empty_registry [log] = [shown] /\ (In w shown <-> In (Warn w) log).
Proof.
  intros log w U. destruct (fresh log) as (l & E & ws & H & F). exists l. split; [exact E|]. rewrite <- (warned_in _ _ H). split.
  - apply (first_subset _ _ _ _ F).
  - intros I. apply (first_in _ (same_refl _) (same_trans _) _ _ _ F) in I as [(x & Ix & S)|(x & [] & _)].
    apply (same_unambiguous _ _ U) in S as ->. exact Ix.
Qed.
(** The command, whose process parses one file: each line that it skips is named. *)
Theorem C101_lines : forall p e s pass lg ks ls,
  (forall rest, s <> begin_line ++ rest) -> lines s ls -> main_parse p e s pass = (lg, Ok (ParsedKeys ks)) ->
  exists shown, show_calls ADefault empty_registry [lg] = [shown] /\
    forall j, In (WLine j) shown <->
      exists line l x, nth_error ls j = Some line /\ key_from_string (p_ec_ok p) KPub line = (l, Err x).
Proof.
  intros p e s pass lg ks ls N L H. destruct (fresh lg) as (l & E & _). exists l. split; [exact E|]. intros j.
  rewrite <- (C55_reported_lines_partial p e s pass lg ks ls N L H j).
  destruct (C101_first_call lg (WLine j) Logic.I) as (l' & E' & K). rewrite E in E'. injection E' as <-. exact K.
Qed.
(** ** Changing the filters *)
Lemma show_modules a m o o' log : a <> AOnce -> exists l m', show a (mkreg m o) log = (l, mkreg m' o) /\ show a (mkreg m o') log = (l, mkreg m' o').
Proof.
  intros N. revert m. induction log as [|[w|] log IH]; intros m; cbn [show]; [eauto| |apply IH]. rewrite !explicit_eq. cbn [r_modules r_once].
  destruct (entry_mem (wkey w) m).
  - destruct (IH m) as (l & m' & -> & ->). eauto.
  - destruct a; try congruence.
    + destruct (IH (wkey w :: m)) as (l & m' & -> & ->). eauto.
    + destruct (IH (walt w :: wkey w :: m)) as (l & m' & -> & ->). eauto.
    + destruct (IH m) as (l & m' & -> & ->). eauto.
    + destruct (IH m) as (l & m' & -> & ->). eauto.
Qed.
Lemma session_app a r before l : exists a' r', session a r (before ++ l) = session a r before ++ session a' r' l.
Proof.
  revert a r. induction before as [|[log|b] before IH]; intros a r; cbn [app session]; [exists a, r; reflexivity| |apply IH].
  destruct (show a r log) as [s r1]. destruct (IH a r1) as (a' & r' & ->). exists a', r'. reflexivity.
Qed.
Lemma session_once m o o' a logs : a <> AOnce -> session a (mkreg m o) (map Call logs) = show_calls a (mkreg m o') logs.
Proof.
  intros N. revert m. induction logs as [|log logs IH]; intros m; [reflexivity|]. cbn [map session show_calls].
  destruct (show_modules a m o o' log N) as (l & m' & -> & ->). rewrite IH. reflexivity.
Qed.
(** Whatever a process has done, once it sets its filter (to any action but once) it shows what a new
    process with this filter shows; so a program that sets the filter before each call misses no kind of
    defect of any of them. *)
Theorem C101_new_filter : forall a0 before a logs, a <> AOnce ->
  session a0 empty_registry (before ++ SetFilter a :: map Call logs) =
  session a0 empty_registry before ++ show_calls a empty_registry logs.
Proof.
  intros a0 before a logs N. destruct (session_app a0 empty_registry before (SetFilter a :: map Call logs)) as (a' & r' & ->).
  f_equal. cbn [session]. apply session_once. exact N.
Qed.
(** Not so for once: its texts are remembered for good. *)
Theorem C101_new_once_filter_refuted :
  session AOnce empty_registry [Call [Warn WExcess]; SetFilter AOnce; Call [Warn WExcess]] = [[WExcess]; []] /\
  show_calls AOnce empty_registry [[Warn WExcess]] = [[WExcess]].
Proof. split; vm_compute; reflexivity. Qed.

(** Not every defective key is reported as defective: of two lines that each say another type than
    their bytes do, the second is parsed without a word, whether in a second call or in one file. *)
Definition other_bad : pystr := str "ssh-dss AAAAB3NzaC1yc2EAAAABAwAAAAIMow== other".
Theorem C101_every_defect_shown_refuted : forall p e pass,
  exists l1 k1 l2 k2 lg ks,
    key_from_string (p_ec_ok p) KPub ex_line_bad = (l1, Ok k1) /\ key_from_string (p_ec_ok p) KPub other_bad = (l2, Ok k2) /\
    k_params k1 <> k_params k2 /\ l2 = [Warn WClearType] /\ show_calls ADefault empty_registry [l1; l2] = [[WClearType]; []] /\
    main_parse p e (ex_line_bad ++ newline ++ other_bad) pass = (lg, Ok (ParsedKeys ks)) /\
    lg = [Warn WClearType; Warn WClearType] /\ show_calls ADefault empty_registry [lg] = [[WClearType]].
Proof. intros p e pass. do 6 eexists. do 2 (split; [vm_compute; reflexivity|]). split; [vm_compute; discriminate|]. do 4 (split; [vm_compute; reflexivity|]). vm_compute. reflexivity. Qed.

Example C101_example :
  let logs := [[Prompt; Warn (WLine 1); Warn WExcess]; [Warn WExcess; Warn (WLine 1); Warn (WLine 10)]; [Warn (WLine 10)]] in
  show_calls ADefault empty_registry logs = [[WLine 1; WExcess]; [WLine 10]; []] /\
  show_calls AAlways empty_registry logs = [[WLine 1; WExcess]; [WExcess; WLine 1; WLine 10]; [WLine 10]] /\
  message (WLine 10) = str "Could not parse line 10" /\
  message (WPairValues 0) = str "Inconsistency between private and public values for key 0".
Proof. do 3 (split; [vm_compute; reflexivity|]). vm_compute. reflexivity. Qed.
(** Two texts may be equal although what is said differs: options and places in certificates. *)
Example C101_ambiguous :
  message (WCertDuplicate (str "a in b") (str "c")) = message (WCertDuplicate (str "a") (str "b in c")).
Proof. reflexivity. Qed.

Print Assumptions C101_shown.
Print Assumptions C101_always.
Print Assumptions C101_again.
Print Assumptions C101_told.
Print Assumptions C101_first_call.
Print Assumptions C101_lines.
Print Assumptions C101_new_filter.
Print Assumptions C101_new_once_filter_refuted.
Print Assumptions C101_every_defect_shown_refuted.
