(** Proofs about the command line (C88). *)
From Verif Require Import PyBase Text Classes Key Crypto PrivateKeyList Json Cli SpecCli ProofBase.
Open Scope N_scope.

Section Parsing.
Variable isdecimal : N -> bool.
Hypothesis dot : isdecimal 46 = false.
Hypothesis newline : isdecimal 10 = false.

Lemma partition_eq_spec s a o : partition_eq s = (a, o) <->
  ~ In 61 a /\ s = match o with None => a | Some x => a ++ 61 :: x end.
Proof.
  revert a o. induction s as [|c s IH]; intros a o; cbn [partition_eq].
  - split; [intros H; injection H as <- <-; auto|]. intros (N & E). destruct o; [destruct a; discriminate|subst; reflexivity].
  - destruct (N.eqb_spec c 61) as [->|Nc].
    + split; [intros H; injection H as <- <-; auto|]. intros (N & E). destruct a as [|y a].
      * destruct o; [injection E as ->; reflexivity|discriminate].
      * destruct N. left. destruct o; injection E as -> _; reflexivity.
    + destruct (partition_eq s) as [a' o'] eqn:E. split.
      * intros H. injection H as <- <-. destruct (proj1 (IH a' o') eq_refl) as (N & ->). split; [intros [K|K]; [congruence|tauto]|].
        destruct o'; reflexivity.
      * intros (N & Es). destruct a as [|y a]; [destruct o; [injection Es as -> _; congruence|discriminate]|].
        assert (c = y /\ s = match o with None => a | Some x => a ++ 61 :: x end) as (-> & Es') by (destruct o; injection Es; auto).
        assert (Some (a', o') = Some (a, o)) as K; [|injection K as -> ->; reflexivity]. f_equal.
        apply (IH a o). split; [intros K; apply N; right; exact K|exact Es'].
Qed.
Lemma starts_with_spec p s : starts_with p s = true <-> is_prefix p s.
Proof.
  revert s. induction p as [|x p IH]; intros s; cbn [starts_with]; [split; [intros _; exists s; reflexivity|destruct s; reflexivity]|].
  destruct s as [|y s]; [split; [discriminate|intros (t & E); discriminate]|].
  rewrite andb_true_iff, N.eqb_eq, IH. split.
  - intros (-> & t & ->). exists t. reflexivity.
  - intros (t & E). injection E as -> ->. split; [reflexivity|exists t; reflexivity].
Qed.
Definition no_digit_first (r : pystr) : Prop := match r with c :: _ => isdecimal c = false | [] => True end.
Lemma skip_digits_app ds r : Forall (fun c => isdecimal c = true) ds -> no_digit_first r -> skip_digits isdecimal (ds ++ r) = (length ds, r).
Proof.
  intros H Nr. induction H as [|c ds Hc H IH]; cbn [app skip_digits length].
  - destruct r as [|c r]; [reflexivity|]. cbn in *. rewrite Nr. reflexivity.
  - rewrite Hc, IH. reflexivity.
Qed.
Lemma skip_digits_inv s n r : skip_digits isdecimal s = (n, r) ->
  exists ds, s = ds ++ r /\ Forall (fun c => isdecimal c = true) ds /\ length ds = n.
Proof.
  revert n r. induction s as [|c s IH]; intros n r; cbn [skip_digits].
  - intros H. injection H as <- <-. exists []. auto.
  - destruct (isdecimal c) eqn:E.
    + destruct (skip_digits isdecimal s) as [m r'] eqn:Es. intros H. injection H as <- <-. destruct (IH _ _ eq_refl) as (ds & -> & F & <-).
      exists (c :: ds). auto.
    + intros H. injection H as <- <-. exists []. auto.
Qed.
Lemma at_end_spec r : at_end r = true <-> r = [] \/ r = [10].
Proof.
  split.
  - destruct r as [|c [|c2 r]]; [auto| |]; cbn.
    + intros H. right. destruct c as [|p]; [discriminate|]. do 4 (destruct p as [p|p|]; try discriminate). reflexivity.
    + destruct c as [|p]; [discriminate|]. do 4 (destruct p as [p|p|]; try discriminate).
  - intros [->| ->]; reflexivity.
Qed.
Lemma negative_number_spec s : negative_number isdecimal s = true <-> negative isdecimal s.
Proof.
  assert (forall nl, nl = [] \/ nl = [10] -> no_digit_first nl) as Nn by (intros nl [->| ->]; cbn; [exact I|exact newline]).
  assert (forall s', negative_number isdecimal (45 :: s') = (let '(n, r) := skip_digits isdecimal s' in
      ((0 <? n)%nat && at_end r) ||
      (match r with 46 :: r' => let '(m, r2) := skip_digits isdecimal r' in (0 <? m)%nat && at_end r2 | _ => false end))) as Eq by reflexivity.
  split.
  - intros H. destruct s as [|c s]; [discriminate|]. destruct (N.eq_dec c 45) as [->|Nc].
    2: { exfalso. revert H. unfold negative_number. destruct c as [|p]; [discriminate|]. do 6 (destruct p as [p|p|]; try discriminate). congruence. }
    rewrite Eq in H. destruct (skip_digits isdecimal s) as [n r] eqn:E. destruct (skip_digits_inv _ _ _ E) as (a & -> & Fa & La).
    apply orb_true_iff in H as [H|H].
    + apply andb_true_iff in H as (Hn & He). apply at_end_spec in He. apply Nat.ltb_lt in Hn. exists a, [], r. rewrite app_nil_r.
      split; [exact He|]. split; [exact Fa|]. left. split; [|auto]. intros ->. cbn in La. lia.
    + destruct r as [|c r]; [discriminate|]. destruct (N.eq_dec c 46) as [->|Nc].
      2: { exfalso. revert H. destruct c as [|p]; [discriminate|]. do 6 (destruct p as [p|p|]; try discriminate). congruence. }
      destruct (skip_digits isdecimal r) as [m r2] eqn:E2. destruct (skip_digits_inv _ _ _ E2) as (b & -> & Fb & Lb).
      apply andb_true_iff in H as (Hn & He). apply at_end_spec in He. apply Nat.ltb_lt in Hn. exists a, b, r2. split; [exact He|].
      split; [apply Forall_app; auto|]. right. split; [|auto]. intros ->. cbn in Lb. lia.
  - intros (a & b & nl & Hnl & F & [(Na & -> & ->)|(Nb & ->)]); rewrite Eq.
    + rewrite app_nil_r in F. rewrite (skip_digits_app a nl F (Nn _ Hnl)). apply orb_true_iff. left. apply andb_true_iff.
      split; [apply Nat.ltb_lt; destruct a; [congruence|cbn; lia]|apply at_end_spec; exact Hnl].
    + apply Forall_app in F as (Fa & Fb). rewrite (skip_digits_app a (46 :: b ++ nl) Fa); [|exact dot].
      rewrite (skip_digits_app b nl Fb (Nn _ Hnl)). apply orb_true_iff. right. apply andb_true_iff.
      split; [apply Nat.ltb_lt; destruct b; [congruence|cbn; lia]|apply at_end_spec; exact Hnl].
Qed.

(** ** What a string means *)
Lemma prefix_of_both a : is_prefix dashes a -> is_prefix a (str "--help") -> is_prefix a (str "--passphrase") -> a = dashes.
Proof.
  intros (t & ->) (u & Eu) (v & Ev). destruct t as [|c t]; [apply app_nil_r|]. cbn in Eu, Ev.
  injection Eu as <- _. discriminate.
Qed.
Lemma no_eq_prefix a : is_prefix a (str "--help") \/ is_prefix a (str "--passphrase") -> ~ In 61 a.
Proof.
  intros H K. assert (forall o, is_prefix a o -> existsb (N.eqb 61) o = true) as Q.
  { intros o (t & ->). apply existsb_exists. exists 61. split; [apply in_or_app; auto|reflexivity]. }
  destruct H as [H|H]; apply Q in H; discriminate.
Qed.
Lemma option_tuples_short d r : d <> 45 -> option_tuples (45 :: d :: r) = if d =? 104 then [(ActHelp, str "-h", Some (false, r))] else [].
Proof.
  intros Ndd. unfold option_tuples. replace (match d with 45 => _ | _ => _ end) with (flat_map (fun oa => if str_eqb (fst oa) (firstn 2 (45 :: d :: r)) then [(snd oa, fst oa, Some (false, skipn 2 (45 :: d :: r)))]
                    else if starts_with (45 :: d :: r) (fst oa) then [(snd oa, fst oa, None)] else []) option_actions).
  2: { destruct d as [|p]; [reflexivity|]. do 6 (destruct p as [p|p|]; try reflexivity). congruence. }
  cbn [flat_map option_actions fst snd firstn skipn app].
  destruct (str_eqb_reflect (str "-h") [45; d]) as [E|E].
  - injection E as <-. reflexivity.
  - destruct (N.eqb_spec d 104) as [->|N104]; [destruct E; reflexivity|].
    assert (forall o, starts_with (45 :: d :: r) (45 :: o) = true -> exists t, o = d :: t) as Q.
    { intros o' K. apply starts_with_spec in K as (t & K). injection K as ->. eauto. }
    destruct (starts_with (45 :: d :: r) (str "-h")) eqn:F1; [apply Q in F1 as (t & K); vm_compute in K; congruence|].
    destruct (str_eqb_reflect (str "--help") [45; d]) as [K|_]; [discriminate|].
    destruct (starts_with (45 :: d :: r) (str "--help")) eqn:F2; [apply Q in F2 as (t & K); vm_compute in K; congruence|].
    destruct (str_eqb_reflect (str "--passphrase") [45; d]) as [K|_]; [discriminate|].
    destruct (starts_with (45 :: d :: r) (str "--passphrase")) eqn:F3; [apply Q in F3 as (t & K); vm_compute in K; congruence|]. reflexivity.
Qed.
(** The cases of a string that starts with '-'. *)
Lemma parse_optional_spec s : s <> dashes ->
  match parse_optional isdecimal s with
  | Argument => plain isdecimal s
  | Option_ ActPassphrase _ x => passphrase_option s (match x with Some (_, y) => Some y | None => None end) /\ option_like s
  | Option_ ActHelp _ _ | Ambiguous => option_like s /\ forall o, ~ passphrase_option s o
  | Unknown => ~ plain isdecimal s /\ forall o, ~ passphrase_option s o
  end.
Proof.
  intros Nd. destruct s as [|c s]; [left; intros (t & E); discriminate|]. cbn [parse_optional].
  destruct (N.eqb_spec c 45) as [->|Nc]; cbn [negb]; [|left; intros (t & E); apply Nc; change (c :: s = 45 :: t) in E; injection E; auto].
  assert (forall o, passphrase_option (45 :: s) o -> exists t, s = 45 :: 112 :: t) as Pp.
  { intros o (a & (t & Ea) & L & E). destruct a as [|a0 [|a1 [|a2 a]]]; cbn in L; try lia. injection Ea as <- <- <- _.
    destruct o; injection E as ->; eexists; reflexivity. }
  destruct (option_action (45 :: s) option_actions) as [act|] eqn:Ea.
  { cbn [option_action option_actions] in Ea. destruct (str_eqb_reflect (45 :: s) (str "-h")) as [Es|_].
    { injection Ea as <-. split; [left; rewrite Es; exists []; reflexivity|]. intros o K. destruct (Pp _ K) as (t & ->). discriminate. }
    destruct (str_eqb_reflect (45 :: s) (str "--help")) as [Es|_].
    { injection Ea as <-. split; [|intros o K; destruct (Pp _ K) as (t & ->); discriminate]. right. exists (str "--help").
      split; [exists (str "help"); reflexivity|]. split; [left; exists []; reflexivity|auto]. }
    destruct (str_eqb_reflect (45 :: s) (str "--passphrase")) as [Es|_]; [|discriminate]. injection Ea as <-. split.
    - exists (str "--passphrase"). split; [exists []; reflexivity|]. split; [cbn; lia|exact Es].
    - right. exists (str "--passphrase"). split; [exists (str "passphrase"); reflexivity|]. split; [right; exists []; reflexivity|auto]. }
  destruct s as [|d r]; [right; left; reflexivity|]. cbn [length Nat.eqb].
  destruct (partition_eq (45 :: d :: r)) as [a o] eqn:Ep.
  pose proof (proj1 (partition_eq_spec _ _ _) Ep) as (Na & Es).
  assert (forall b, ~ In 61 b -> (45 :: d :: r = b \/ exists x, 45 :: d :: r = b ++ 61 :: x) -> b = a) as U.
  { intros b Nb [E|(x & E)].
    - assert (partition_eq (45 :: d :: r) = (b, None)) as K by (apply partition_eq_spec; auto). congruence.
    - assert (partition_eq (45 :: d :: r) = (b, Some x)) as K by (apply partition_eq_spec; auto). congruence. }
  assert (45 :: d :: r = a \/ exists x, 45 :: d :: r = a ++ 61 :: x) as Ex by (destruct o; eauto).
  assert (forall o, passphrase_option (45 :: d :: r) o -> is_prefix a (str "--passphrase")) as Pa.
  { intros o' (b & Hb & _ & E). rewrite <- (U b); [exact Hb|apply no_eq_prefix; auto|destruct o'; eauto]. }
  assert (forall x, o = Some x -> forall act, option_action a option_actions = Some act ->
    match act with ActHelp => option_like (45 :: d :: r) /\ (forall o, ~ passphrase_option (45 :: d :: r) o)
                 | ActPassphrase => passphrase_option (45 :: d :: r) (Some x) /\ option_like (45 :: d :: r) end) as Ex1.
  { intros x -> act Ha. cbn [option_action option_actions] in Ha. destruct (str_eqb_reflect a (str "-h")) as [->|_].
    { injection Ha as <-. split; [left; rewrite Es; eexists; reflexivity|]. intros o K. destruct (Pp _ K) as (t & Et). rewrite Et in Es. discriminate. }
    destruct (str_eqb_reflect a (str "--help")) as [->|_].
    { injection Ha as <-. split; [right; exists (str "--help"); split; [exists (str "help"); reflexivity|]; split; [left; exists []; reflexivity|exact Ex]|].
      intros o K. destruct (Pp _ K) as (t & Et). rewrite Et in Es. discriminate. }
    destruct (str_eqb_reflect a (str "--passphrase")) as [->|_]; [|discriminate]. injection Ha as <-. split.
    - exists (str "--passphrase"). split; [exists []; reflexivity|]. split; [cbn; lia|exact Es].
    - right. exists (str "--passphrase"). split; [exists (str "passphrase"); reflexivity|]. split; [right; exists []; reflexivity|exact Ex]. }
  assert (~ option_like (45 :: d :: r) ->
    match (if negative_number isdecimal (45 :: d :: r) then Argument else if existsb (N.eqb 32) (45 :: d :: r) then Argument else Unknown) with
    | Argument => plain isdecimal (45 :: d :: r)
    | Unknown => ~ plain isdecimal (45 :: d :: r)
    | _ => False end) as Last.
  { intros No. destruct (negative_number isdecimal (45 :: d :: r)) eqn:En; [right; right; split; [exact No|left; apply negative_number_spec; exact En]|].
    destruct (existsb (N.eqb 32) (45 :: d :: r)) eqn:Esp.
    - right. right. split; [exact No|]. right. apply existsb_exists in Esp as (y & Hy & E). apply N.eqb_eq in E. subst y. exact Hy.
    - intros [K|[K|(_ & [K|K])]].
      + apply K. exists (d :: r). reflexivity.
      + discriminate.
      + apply negative_number_spec in K. congruence.
      + assert (existsb (N.eqb 32) (45 :: d :: r) = true); [|congruence]. apply existsb_exists. exists 32. auto. }
  assert (match option_tuples (45 :: d :: r) with
          | [(act, n, x)] => match act with
              | ActHelp => option_like (45 :: d :: r) /\ (forall o, ~ passphrase_option (45 :: d :: r) o)
              | ActPassphrase => passphrase_option (45 :: d :: r) (match x with Some (_, y) => Some y | None => None end) /\ option_like (45 :: d :: r) end
          | _ :: _ :: _ => option_like (45 :: d :: r) /\ (forall o, ~ passphrase_option (45 :: d :: r) o)
          | [] => ~ option_like (45 :: d :: r) /\ (forall o, ~ passphrase_option (45 :: d :: r) o) end) as Ot.
  { destruct (N.eq_dec d 45) as [->|Ndd].
    - unfold option_tuples. rewrite Ep. cbn [flat_map option_actions fst snd].
      assert (exists a', a = 45 :: 45 :: a') as (a' & Ea').
      { destruct a as [|x0 [|x1 a]]; destruct o; cbn in Es; try discriminate; injection Es; intros; subst; eauto. }
      assert (starts_with a (str "-h") = false) as E1 by (rewrite Ea'; reflexivity). rewrite E1. cbn [app].
      assert (is_prefix dashes a) as Da by (exists a'; exact Ea').
      destruct (starts_with a (str "--help")) eqn:E2, (starts_with a (str "--passphrase")) eqn:E3; cbn [app].
      + apply starts_with_spec in E2, E3. split; [right; exists a; auto|]. intros o' K. pose proof (prefix_of_both _ Da E2 E3) as ->.
        destruct (Pp _ K) as (t & Et). rewrite Et in Es. destruct o; discriminate.
      + apply starts_with_spec in E2. split; [right; exists a; auto|]. intros o' K. apply Pa in K. apply starts_with_spec in K. congruence.
      + apply starts_with_spec in E3. split; [|right; exists a; auto]. exists a. split; [exact E3|]. split; [|destruct o; exact Es].
        destruct a' as [|y a']; [subst a; discriminate|]. rewrite Ea'. cbn. lia.
      + split; [|intros o' K; apply Pa in K; apply starts_with_spec in K; congruence]. intros [(t & K)|(b & Hb & Hp & K)]; [discriminate|].
        assert (b = a) as -> by (apply U; [apply no_eq_prefix; exact Hp|exact K]).
        destruct Hp as [Hp|Hp]; apply starts_with_spec in Hp; congruence.
    - rewrite (option_tuples_short d r Ndd).
      assert (forall o, ~ passphrase_option (45 :: d :: r) o) as Npo by (intros o' K; destruct (Pp _ K) as (t & Et); injection Et as -> _; congruence).
      destruct (N.eqb_spec d 104) as [->|N104]; (split; [|exact Npo]).
      + left. exists r. reflexivity.
      + intros [(t & K)|(b & (t & Hb) & _ & K)]; [vm_compute in K; congruence|].
        assert (exists t', 45 :: d :: r = 45 :: 45 :: t') as (t' & E) by (subst b; destruct K as [K|(x & K)]; rewrite K; eexists; reflexivity).
        injection E as -> _. congruence. }
  destruct o as [x|].
  - destruct (option_action a option_actions) as [act|] eqn:Eact.
    + specialize (Ex1 x eq_refl act eq_refl). destruct act; exact Ex1.
    + destruct (option_tuples (45 :: d :: r)) as [|[[act n] x'] [|? ?]]; [|destruct act; exact Ot|exact Ot].
      destruct Ot as (O1 & O2). specialize (Last O1). destruct (negative_number isdecimal (45 :: d :: r)); [exact Last|].
      destruct (existsb (N.eqb 32) (45 :: d :: r)); [exact Last|]. auto.
  - destruct (option_tuples (45 :: d :: r)) as [|[[act n] x'] [|? ?]]; [|destruct act; exact Ot|exact Ot].
    destruct Ot as (O1 & O2). specialize (Last O1). destruct (negative_number isdecimal (45 :: d :: r)); [exact Last|].
    destruct (existsb (N.eqb 32) (45 :: d :: r)); [exact Last|]. auto.
Qed.

Lemma passphrase_option_like s o : passphrase_option s o -> option_like s /\ s <> dashes.
Proof.
  intros (a & Ha & L & E). assert (is_prefix dashes a) as Da.
  { destruct Ha as (t & Ea). destruct a as [|a0 [|a1 [|a2 a]]]; cbn in L; try lia. injection Ea as <- <- <- _. eexists. reflexivity. }
  split.
  - right. exists a. split; [exact Da|]. split; [auto|]. destruct o; eauto.
  - intros ->. destruct Da as (t & ->). destruct t; [cbn in L; lia|]. destruct o; discriminate.
Qed.
Lemma option_like_dash s : option_like s -> is_prefix (str "-") s /\ s <> str "-".
Proof.
  intros [(t & ->)|(a & (t & ->) & _ & E)].
  - split; [exists (str "h" ++ t); reflexivity|discriminate].
  - destruct E as [->|(x & ->)]; (split; [eexists (str "-" ++ _); reflexivity|discriminate]).
Qed.
Lemma plain_not_option s : plain isdecimal s -> ~ option_like s.
Proof. intros H O. destruct (option_like_dash _ O) as (D & N). destruct H as [H|[H|(H & _)]]; auto. Qed.
Lemma dashes_like : option_like dashes.
Proof. right. exists dashes. split; [exists []; reflexivity|]. split; [left; exists (str "help"); reflexivity|auto]. Qed.
Lemma passphrase_option_fun s o o' : passphrase_option s o -> passphrase_option s o' -> o = o'.
Proof.
  intros (a & Ha & _ & E) (b & Hb & _ & E').
  assert (partition_eq s = (a, o)) as K by (apply partition_eq_spec; split; [apply no_eq_prefix; auto|exact E]).
  assert (partition_eq s = (b, o')) as K' by (apply partition_eq_spec; split; [apply no_eq_prefix; auto|exact E']). congruence.
Qed.
Lemma parse_plain s : plain isdecimal s -> s <> dashes /\ parse_optional isdecimal s = Argument.
Proof.
  intros H. assert (s <> dashes) as N by (intros ->; exact (plain_not_option _ H dashes_like)). split; [exact N|].
  pose proof (parse_optional_spec s N) as P. pose proof (plain_not_option _ H) as O.
  destruct (parse_optional isdecimal s) as [|[]| |]; tauto.
Qed.
Lemma parse_passphrase s o : passphrase_option s o ->
  s <> dashes /\ exists n x, parse_optional isdecimal s = Option_ ActPassphrase n x /\ match x with Some (_, y) => Some y | None => None end = o.
Proof.
  intros H. destruct (passphrase_option_like _ _ H) as (O & N). split; [exact N|].
  pose proof (parse_optional_spec s N) as P. destruct (parse_optional isdecimal s) as [|[] n x| |].
  - destruct (plain_not_option _ P O).
  - destruct P as (_ & P). destruct (P _ H).
  - exists n, x. split; [reflexivity|]. apply (passphrase_option_fun s); tauto.
  - destruct P as (_ & P). destruct (P _ H).
  - destruct P as (_ & P). destruct (P _ H).
Qed.

(** ** Consuming *)
Lemma str_dashes s : str_eqb s (str "--") = true <-> s = dashes.
Proof. destruct (str_eqb_reflect s (str "--")); split; auto; discriminate. Qed.
Lemma classify_cons s argv l : classify isdecimal (s :: argv) = Some l ->
  (s = dashes /\ l = (s, PDashes) :: map (fun x => (x, PArgument)) argv) \/
  (s <> dashes /\ exists l', classify isdecimal argv = Some l' /\
     ((parse_optional isdecimal s = Argument /\ l = (s, PArgument) :: l') \/
      (parse_optional isdecimal s <> Argument /\ parse_optional isdecimal s <> Ambiguous /\ l = (s, POption (parse_optional isdecimal s)) :: l'))).
Proof.
  cbn [classify]. destruct (str_eqb s (str "--")) eqn:E.
  - apply str_dashes in E. intros H. injection H as <-. auto.
  - intros H. right. split; [intros K; apply str_dashes in K; congruence|].
    destruct (parse_optional isdecimal s) as [|a n x| |] eqn:Ep, (classify isdecimal argv) as [l'|]; try discriminate; injection H as <-;
      exists l'; (split; [reflexivity|]); auto; right; (split; [discriminate|]; split; [discriminate|reflexivity]).
Qed.
Lemma short_help_exit e x : exists n, short_help e x = Exit n.
Proof.
  revert e. induction x as [|c x IH]; intros e; cbn [short_help]; [eauto|]. destruct (e || (c =? 45)); [eauto|].
  destruct (c =? 104); [|eauto]. destruct x as [|y x]; [eauto|]. destruct y as [|q]; [apply IH|].
  do 6 (destruct q as [q|q|]; try apply IH; eauto).
Qed.
Lemma extras_refused n : forall l fn p x xs f q, (length l <= n)%nat -> consume l fn p (x :: xs) <> Arguments f q.
Proof.
  induction n as [|n IH]; intros l fn p x xs f q L; (destruct l as [|[s k] l]; [cbn [consume]; destruct fn; discriminate|]); cbn [length] in L; [lia|].
  assert (forall fn p y ys, consume l fn p (y :: ys) <> Arguments f q) as IH1 by (intros; apply IH; lia).
  assert (forall z l2, l = z :: l2 -> forall fn p y ys, consume l2 fn p (y :: ys) <> Arguments f q) as IH2.
  { intros z l2 -> fn' p' y ys. apply IH. cbn [length] in L. lia. }
  cbn [consume app]. destruct k as [|m|].
  - destruct fn as [g|]; [apply IH1|]. destruct l as [|[y [|m|]] l2]; try apply IH1. eapply IH2. reflexivity.
  - destruct m as [|[] o e| |]; try apply IH1.
    + destruct e as [[e y]|]; [|discriminate]. destruct (str_eqb o (str "-h")); [|discriminate]. destruct (short_help_exit e y) as (k & ->). discriminate.
    + destruct e as [[e y]|]; [apply IH1|]. destruct l as [|[y [|m|]] l2]; try discriminate. eapply IH2. reflexivity.
  - destruct fn as [g|]; [apply IH1|]. destruct l as [|[y [|m|]] l2]; try apply IH1. eapply IH2. reflexivity.
Qed.
Lemma no_extras l fn p x xs f q : consume l fn p (x :: xs) <> Arguments f q.
Proof. apply (extras_refused (length l)). lia. Qed.
Lemma consume_arguments r f0 p f q : consume (map (fun x => (x, PArgument)) r) (Some f0) p [] = Arguments f q -> r = [] /\ f = f0 /\ p = q.
Proof.
  destruct r as [|x r]; cbn [map consume]; [intros H; injection H as -> ->; auto|]. intros H. destruct (no_extras _ _ _ _ _ _ _ H).
Qed.
(** After the file name: only settings. *)
Lemma consume_named n : forall argv l f0 p f q, (length argv <= n)%nat -> classify isdecimal argv = Some l ->
  consume l (Some f0) p [] = Arguments f q -> f = f0 /\ settings isdecimal argv p q.
Proof.
  induction n as [|n IH]; intros argv l f0 p f q L C H; (destruct argv as [|s argv];
    [injection C as <-; injection H as -> ->; split; [reflexivity|constructor]|]); cbn [length] in L; [lia|].
  destruct (classify_cons _ _ _ C) as [(-> & ->)|(N & l' & C' & [(P & ->)|(P1 & P2 & ->)])].
  - cbn [consume] in H. destruct (no_extras _ _ _ _ _ _ _ H).
  - cbn [consume] in H. destruct (no_extras _ _ _ _ _ _ _ H).
  - pose proof (parse_optional_spec s N) as Ps. cbn [consume] in H. destruct (parse_optional isdecimal s) as [|[] o e| |]; try congruence.
    + destruct e as [[e y]|]; [|discriminate]. destruct (str_eqb o (str "-h")); [|discriminate]. destruct (short_help_exit e y) as (k & K). congruence.
    + destruct e as [[e y]|].
      * destruct (IH argv l' f0 (Some y) f q ltac:(lia) C' H) as (-> & S). split; [reflexivity|]. apply attached with y; tauto.
      * destruct argv as [|x argv]; [injection C' as <-; discriminate|].
        destruct (classify_cons _ _ _ C') as [(-> & ->)|(Nx & l2 & C2 & [(Px & ->)|(Q1 & Q2 & ->)])]; try discriminate.
        pose proof (parse_optional_spec x Nx) as Pxs. rewrite Px in Pxs. cbn [length] in L.
        destruct (IH argv l2 f0 (Some x) f q ltac:(lia) C2 H) as (-> & S). split; [reflexivity|]. apply separate; tauto.
    + destruct (no_extras _ _ _ _ _ _ _ H).
Qed.
(** The command lines accepted when the passphrase has been set to [p0]. *)
Definition accepted_from (p0 : option pystr) (f : pystr) (p : option pystr) (argv : list pystr) : Prop :=
  (exists a b q, argv = a ++ f :: b /\ settings isdecimal a p0 q /\ plain isdecimal f /\ settings isdecimal b q p) \/
  (exists a, argv = a ++ [f; dashes] /\ settings isdecimal a p0 p /\ plain isdecimal f) \/
  (exists a, argv = a ++ [dashes; f] /\ settings isdecimal a p0 p).
Lemma accepted_from_step a p0 p1 f p argv : (forall l q, settings isdecimal l p1 q -> settings isdecimal (a ++ l) p0 q) ->
  accepted_from p1 f p argv -> accepted_from p0 f p (a ++ argv).
Proof.
  intros St [(l & b & q & -> & S1 & P & S2)|[(l & -> & S1 & P)|(l & -> & S1)]].
  - left. exists (a ++ l), b, q. rewrite app_assoc. auto.
  - right. left. exists (a ++ l). rewrite app_assoc. auto.
  - right. right. exists (a ++ l). rewrite app_assoc. auto.
Qed.
Lemma consume_sound n : forall argv l p0 f p, (length argv <= n)%nat -> classify isdecimal argv = Some l ->
  consume l None p0 [] = Arguments f p -> accepted_from p0 f p argv.
Proof.
  induction n as [|n IH]; intros argv l p0 f p L C H; (destruct argv as [|s argv]; [injection C as <-; discriminate|]); cbn [length] in L; [lia|].
  destruct (classify_cons _ _ _ C) as [(-> & ->)|(N & l' & C' & [(P & ->)|(P1 & P2 & ->)])].
  - destruct argv as [|x argv]; cbn [map consume] in H; [discriminate|]. apply consume_arguments in H as (-> & -> & ->).
    right. right. exists []. split; [reflexivity|constructor].
  - pose proof (parse_optional_spec s N) as Ps. rewrite P in Ps.
    assert (consume l' (Some s) p0 [] = Arguments f p -> accepted_from p0 f p (s :: argv)) as Plain.
    { intros K. destruct (consume_named n argv l' s p0 f p ltac:(lia) C' K) as (-> & S). left. exists [], argv, p0.
      split; [reflexivity|]. split; [constructor|auto]. }
    cbn [consume] in H. destruct l' as [|[y [|m|]] l2]; try (apply Plain; exact H).
    destruct argv as [|y' argv]; [discriminate|]. destruct (classify_cons _ _ _ C') as [(-> & E)|(_ & l3 & _ & [(_ & K)|(_ & _ & K)])]; [|discriminate|discriminate].
    injection E as -> ->. apply consume_arguments in H as (-> & -> & ->). right. left. exists []. split; [reflexivity|]. split; [constructor|exact Ps].
  - pose proof (parse_optional_spec s N) as Ps. cbn [consume] in H. destruct (parse_optional isdecimal s) as [|[] o e| |]; try congruence.
    + destruct e as [[e y]|]; [|discriminate]. destruct (str_eqb o (str "-h")); [|discriminate]. destruct (short_help_exit e y) as (k & K). congruence.
    + destruct e as [[e y]|].
      * apply (accepted_from_step [s] p0 (Some y)); [|apply (IH argv l'); [lia|exact C'|exact H]].
        intros t q S. apply attached with y; tauto.
      * destruct argv as [|x argv]; [injection C' as <-; discriminate|].
        destruct (classify_cons _ _ _ C') as [(-> & ->)|(Nx & l2 & C2 & [(Px & ->)|(Q1 & Q2 & ->)])]; try discriminate.
        pose proof (parse_optional_spec x Nx) as Pxs. rewrite Px in Pxs. cbn [length] in L.
        apply (accepted_from_step [s; x] p0 (Some x)); [|apply (IH argv l2); [lia|exact C2|exact H]].
        intros t q S. apply separate; tauto.
    + destruct (no_extras _ _ _ _ _ _ _ H).
Qed.
Lemma consume_settings a p0 q : settings isdecimal a p0 q -> forall rest l, classify isdecimal rest = Some l ->
  exists l', classify isdecimal (a ++ rest) = Some l' /\ forall fn, consume l' fn p0 [] = consume l fn q [].
Proof.
  induction 1 as [p|s x a p q H S IH|s x a p q H Px S IH]; intros rest l C; cbn [app].
  - exists l. auto.
  - destruct (IH rest l C) as (l' & C' & K). destruct (parse_passphrase _ _ H) as (N & n & e & E & Ee).
    exists ((s, POption (Option_ ActPassphrase n e)) :: l'). cbn [classify]. destruct (str_eqb s (str "--")) eqn:Es; [apply str_dashes in Es; contradiction|].
    rewrite E, C'. split; [reflexivity|]. intros fn. cbn [consume]. destruct e as [[b y]|]; [|discriminate]. injection Ee as ->. apply K.
  - destruct (IH rest l C) as (l' & C' & K). destruct (parse_passphrase _ _ H) as (N & n & e & E & Ee). destruct (parse_plain _ Px) as (Nx & Ex).
    exists ((s, POption (Option_ ActPassphrase n e)) :: (x, PArgument) :: l'). cbn [classify].
    destruct (str_eqb s (str "--")) eqn:Es; [apply str_dashes in Es; contradiction|].
    destruct (str_eqb x (str "--")) eqn:Exd; [apply str_dashes in Exd; contradiction|].
    rewrite E, Ex, C'. split; [reflexivity|]. intros fn. cbn [consume]. destruct e as [[b y]|]; [discriminate|]. apply K.
Qed.
(** Settings do not start with '--'. *)
Lemma settings_first_dashes b p q : settings isdecimal (dashes :: b) p q -> False.
Proof. intros H. inversion H as [|s x l p' q' K|s x l p' q' K]; subst; apply passphrase_option_like in K as (_ & K); congruence. Qed.

(** The program takes the file name and the passphrase from exactly these command lines. *)
Theorem parse_args_accepted argv f p : parse_args isdecimal argv = Arguments f p <-> accepted isdecimal f p argv.
Proof.
  unfold parse_args. split.
  - destruct (classify isdecimal argv) as [l|] eqn:C; [|discriminate]. intros H.
    destruct (consume_sound (length argv) argv l None f p (le_n _) C H) as [(a & b & q & -> & S1 & P & S2)|[(a & -> & S1 & P)|(a & -> & S1)]].
    + apply accepted_plain with q; auto.
    + apply accepted_before; auto.
    + apply accepted_after; auto.
  - intros H. inversion H as [a b q S1 P S2 E|a S1 P E|a S1 E].
    + destruct (consume_settings b q p S2 [] [] eq_refl) as (lb & Cb & Kb). rewrite app_nil_r in Cb.
      destruct (parse_plain _ P) as (N & Ef).
      assert (classify isdecimal (f :: b) = Some ((f, PArgument) :: lb)) as Cf.
      { cbn [classify]. destruct (str_eqb f (str "--")) eqn:Es; [apply str_dashes in Es; contradiction|]. rewrite Ef, Cb. reflexivity. }
      destruct (consume_settings a None q S1 (f :: b) _ Cf) as (la & Ca & Ka). rewrite Ca, Ka. cbn [consume].
      assert (consume lb (Some f) q [] = Arguments f p) as Eb by (rewrite Kb; reflexivity).
      destruct lb as [|[y [|m|]] lb']; try exact Eb.
      destruct b as [|y' b]; [discriminate|]. destruct (classify_cons _ _ _ Cb) as [(-> & _)|(_ & l3 & _ & [(_ & K)|(_ & _ & K)])]; try discriminate.
      destruct (settings_first_dashes _ _ _ S2).
    + destruct (parse_plain _ P) as (N & Ef).
      assert (classify isdecimal [f; dashes] = Some [(f, PArgument); (dashes, PDashes)]) as Cf.
      { cbn [classify]. destruct (str_eqb f (str "--")) eqn:Es; [apply str_dashes in Es; contradiction|]. rewrite Ef. reflexivity. }
      destruct (consume_settings a None p S1 _ _ Cf) as (la & Ca & Ka). rewrite Ca, Ka. reflexivity.
    + destruct (consume_settings a None p S1 [dashes; f] _ eq_refl) as (la & Ca & Ka). rewrite Ca, Ka. reflexivity.
Qed.
(** ** When the help is printed *)
Definition short_asks (x : pystr) : Prop :=
  exists n r, x = repeat 104 n ++ r /\ match r with [] => n <> O | c :: _ => ~ In c (str "h-=") end.
Lemma short_help_zero x : short_help false x = Exit 0 \/ short_help false x = Exit 2.
Proof.
  induction x as [|c x IH]; cbn [short_help]; [auto|]. cbn [orb]. destruct (c =? 45); [auto|].
  destruct (c =? 104); [|auto]. destruct x as [|y x]; [auto|]. destruct y as [|q]; [apply IH|].
  do 6 (destruct q as [q|q|]; try apply IH; auto).
Qed.
Lemma short_help_status e x : short_help e x = Exit 0 \/ short_help e x = Exit 2.
Proof. destruct e; [|apply short_help_zero]. destruct x; auto. Qed.
Lemma short_help_step c x : c <> 61 -> short_help false (104 :: c :: x) = short_help false (c :: x).
Proof. intros N. destruct c as [|q]; [reflexivity|]. do 6 (destruct q as [q|q|]; try reflexivity). congruence. Qed.
Lemma short_help_iff x : (forall r, x <> 61 :: r) -> (short_help false x = Exit 0 <-> short_asks x).
Proof.
  induction x as [|c x IH]; intros N.
  - split; [discriminate|]. intros (n & r & E & H). destruct n, r; try discriminate. congruence.
  - destruct (N.eq_dec c 104) as [->|N1].
    + destruct x as [|d x]; [split; [intros _; exists 1%nat, []; split; [reflexivity|discriminate]|reflexivity]|].
      destruct (N.eq_dec d 61) as [->|N2].
      * split; [discriminate|]. intros (n & r & E & H). destruct n as [|[|n]]; cbn [repeat app] in E.
        -- subst r. destruct H. vm_compute. auto.
        -- injection E as <-. destruct H. vm_compute. auto.
        -- discriminate.
      * rewrite short_help_step by exact N2. rewrite IH by (intros r E; injection E as -> _; congruence). split.
        -- intros (n & r & E & H). exists (S n), r. split; [cbn [repeat app]; rewrite E; reflexivity|]. destruct r; [discriminate|exact H].
        -- intros (n & r & E & H). destruct n as [|n]; cbn [repeat app] in E; [subst r; destruct H; vm_compute; auto|].
           injection E as E. exists n, r. split; [exact E|]. destruct r as [|y r]; [|exact H]. intros ->. discriminate.
    + cbn [short_help orb]. destruct (N.eqb_spec c 45) as [->|N2].
      { split; [discriminate|]. intros (n & r & E & H). destruct n as [|n]; [|cbn [repeat app] in E; injection E; intros; subst; discriminate].
        cbn in E. subst r. destruct H. vm_compute. auto. }
      destruct (N.eqb_spec c 104) as [K|_]; [contradiction|]. split; [intros _|reflexivity].
      exists O, (c :: x). split; [reflexivity|]. intros K. vm_compute in K. destruct K as [K|[K|[K|[]]]]; subst c; try congruence. eapply N. reflexivity.
Qed.
Lemma asks_short x : x = [] \/ short_asks x <-> exists n r, x = repeat 104 n ++ r /\ match r with [] => True | c :: _ => ~ In c (str "h-=") end.
Proof.
  split.
  - intros [->|(n & r & E & H)]; [exists O, []; auto|]. exists n, r. split; [exact E|]. destruct r; auto.
  - intros (n & r & E & H). destruct r as [|c r].
    + destruct n; [left; exact E|]. right. exists (S n), []. split; [exact E|discriminate].
    + right. exists n, (c :: r). auto.
Qed.
Lemma asks_help_short r : asks_help (45 :: 104 :: r) <-> r = [] \/ short_asks r.
Proof.
  rewrite asks_short. split.
  - intros [(n & t & E & H)|((t & E) & _)]; [injection E as E; eauto|discriminate].
  - intros (n & t & E & H). left. exists n, t. rewrite E. auto.
Qed.
(** What the string of a help option makes the program do. *)
Definition help_exit (o : pystr) (e : option (bool * pystr)) : parsed_args :=
  match e with None => Exit 0 | Some (equals, x) => if str_eqb o (str "-h") then short_help equals x else Exit 2 end.
Lemma parse_short r : exists e, parse_optional isdecimal (45 :: 104 :: r) = Option_ ActHelp (str "-h") e /\
  (help_exit (str "-h") e = Exit 0 <-> r = [] \/ short_asks r).
Proof.
  destruct r as [|c r]; [exists None; split; [reflexivity|split; auto]|].
  cbn [parse_optional N.eqb Pos.eqb negb]. destruct (option_action (45 :: 104 :: c :: r) option_actions) as [a|] eqn:Ea.
  { cbn [option_action option_actions] in Ea. destruct (str_eqb_reflect (45 :: 104 :: c :: r) (str "-h")) as [Es|_]; [discriminate|].
    destruct (str_eqb_reflect (45 :: 104 :: c :: r) (str "--help")) as [Es|_]; [discriminate|].
    destruct (str_eqb_reflect (45 :: 104 :: c :: r) (str "--passphrase")); discriminate. }
  cbn [length Nat.eqb]. destruct (partition_eq (45 :: 104 :: c :: r)) as [a x] eqn:Ep.
  pose proof (proj1 (partition_eq_spec _ _ _) Ep) as (Na & Es).
  destruct (N.eq_dec c 61) as [->|Nc].
  - assert (partition_eq (45 :: 104 :: 61 :: r) = (str "-h", Some r)) as K by reflexivity. rewrite K in Ep. injection Ep as <- <-.
    exists (Some (true, r)). split; [reflexivity|]. split.
    + cbn [help_exit]. rewrite str_eqb_refl. destruct r; discriminate.
    + intros [K'|(n & t & E & H)]; [discriminate|]. destruct n as [|n]; [|discriminate]. cbn in E. subst t. destruct H. vm_compute. auto.
  - rewrite (option_tuples_short 104 (c :: r)) by discriminate. cbn [N.eqb Pos.eqb].
    assert (option_action a option_actions = None) as Ea'.
    { cbn [option_action option_actions]. destruct (str_eqb_reflect a (str "-h")) as [->|_].
      { destruct x; [cbn in Es; injection Es as ->; congruence|discriminate]. }
      destruct (str_eqb_reflect a (str "--help")) as [->|_]; [destruct x; discriminate|].
      destruct (str_eqb_reflect a (str "--passphrase")) as [->|_]; [destruct x; discriminate|]. reflexivity. }
    exists (Some (false, c :: r)). split; [destruct x; rewrite ?Ea'; reflexivity|].
    cbn [help_exit]. rewrite str_eqb_refl, short_help_iff by (intros t E; injection E as -> _; congruence). split; [auto|].
    intros [K|K]; [discriminate|exact K].
Qed.
Lemma parse_long s : is_prefix (str "--") s -> s <> dashes ->
  match parse_optional isdecimal s with
  | Option_ ActHelp o e => help_exit o e = Exit 0 <-> asks_help s
  | Ambiguous => is_prefix (str "--=") s
  | _ => ~ asks_help s
  end.
Proof.
  intros (r & ->) Nd. change (str "--" ++ r) with (45 :: 45 :: r) in *.
  assert (asks_help (45 :: 45 :: r) <-> (is_prefix (45 :: 45 :: r) (str "--help") /\ r <> [])) as A.
  { split.
    - intros [(n & t & E & _)|(E & L)]; [discriminate|]. split; [exact E|]. intros ->. cbn in L. lia.
    - intros (E & N). right. split; [exact E|]. destruct r; [congruence|]. cbn. lia. }
  assert (forall m, match m with
    | Option_ ActHelp o e => help_exit o e = Exit 0 <-> is_prefix (45 :: 45 :: r) (str "--help") /\ r <> []
    | Ambiguous => is_prefix (str "--=") (45 :: 45 :: r)
    | _ => ~ (is_prefix (45 :: 45 :: r) (str "--help") /\ r <> []) end ->
    match m with
    | Option_ ActHelp o e => help_exit o e = Exit 0 <-> asks_help (45 :: 45 :: r)
    | Ambiguous => is_prefix (str "--=") (45 :: 45 :: r)
    | _ => ~ asks_help (45 :: 45 :: r) end) as Cv by (intros [|[] o e| |]; tauto).
  apply Cv. cbn [parse_optional N.eqb Pos.eqb negb].
  assert (r <> []) as Nr by (intros ->; apply Nd; reflexivity).
  destruct (option_action (45 :: 45 :: r) option_actions) as [act|] eqn:Ea.
  { cbn [option_action option_actions] in Ea. destruct (str_eqb_reflect (45 :: 45 :: r) (str "-h")) as [Es|_]; [discriminate|].
    destruct (str_eqb_reflect (45 :: 45 :: r) (str "--help")) as [Es|_].
    { injection Ea as <-. rewrite Es. split; [|reflexivity]. intros _. split; [exists []; reflexivity|exact Nr]. }
    destruct (str_eqb_reflect (45 :: 45 :: r) (str "--passphrase")) as [Es|_]; [|discriminate].
    injection Ea as <-. rewrite Es. intros ((t & E) & _). discriminate. }
  cbn [length Nat.eqb].
  destruct (partition_eq (45 :: 45 :: r)) as [a x] eqn:Ep. pose proof (proj1 (partition_eq_spec _ _ _) Ep) as (Na & Es).
  assert (is_prefix (45 :: 45 :: r) (str "--help") -> x = None /\ a = 45 :: 45 :: r) as Px.
  { intros Hp. assert (partition_eq (45 :: 45 :: r) = (45 :: 45 :: r, None)) as K by (apply partition_eq_spec; split; [apply no_eq_prefix; auto|reflexivity]).
    rewrite K in Ep. injection Ep as <- <-. auto. }
  assert (exists a', a = 45 :: 45 :: a') as (a' & Ea').
  { destruct a as [|x0 [|x1 a]]; destruct x; cbn in Es; try discriminate; injection Es; intros; subst; eauto. }
  assert (match match option_tuples (45 :: 45 :: r) with
          | [(act, n, x)] => Option_ act n x
          | _ :: _ :: _ => Ambiguous
          | [] => if negative_number isdecimal (45 :: 45 :: r) then Argument
                  else if existsb (N.eqb 32) (45 :: 45 :: r) then Argument else Unknown end with
          | Option_ ActHelp o e => help_exit o e = Exit 0 <-> is_prefix (45 :: 45 :: r) (str "--help") /\ r <> []
          | Ambiguous => is_prefix (str "--=") (45 :: 45 :: r)
          | _ => ~ (is_prefix (45 :: 45 :: r) (str "--help") /\ r <> []) end) as Ot.
  { unfold option_tuples. rewrite Ep. cbn [flat_map option_actions fst snd].
    assert (starts_with a (str "-h") = false) as E1 by (rewrite Ea'; reflexivity). rewrite E1. cbn [app].
    destruct (starts_with a (str "--help")) eqn:E2, (starts_with a (str "--passphrase")) eqn:E3; cbn [app].
    - apply starts_with_spec in E2, E3. assert (a = dashes) as -> by (apply prefix_of_both; auto; exists a'; exact Ea').
      destruct x as [x|]; [|cbn in Es; injection Es as ->; congruence]. exists x. exact Es.
    - apply starts_with_spec in E2. destruct x as [x|].
      + cbn [help_exit]. split; [|intros (K & _); destruct (Px K); discriminate]. destruct (str_eqb_reflect (str "--help") (str "-h")); discriminate.
      + cbn [help_exit]. split; [intros _|reflexivity]. rewrite Es. split; [exact E2|exact Nr].
    - intros (K & _). destruct (Px K) as (_ & ->). apply starts_with_spec in K. congruence.
    - assert (~ (is_prefix (45 :: 45 :: r) (str "--help") /\ r <> [])) as K0.
      { intros (K & _). destruct (Px K) as (_ & ->). apply starts_with_spec in K. congruence. }
      destruct (negative_number isdecimal (45 :: 45 :: r)); [exact K0|]. destruct (existsb (N.eqb 32) (45 :: 45 :: r)); exact K0. }
  destruct x as [x|]; [|exact Ot]. destruct (option_action a option_actions) as [act|] eqn:Eact; [|exact Ot].
  assert (~ (is_prefix (45 :: 45 :: r) (str "--help") /\ r <> [])) as K0 by (intros (K & _); destruct (Px K); discriminate).
  destruct act; [|exact K0]. split; [|intros K; contradiction]. cbn [help_exit]. rewrite Ea'.
  destruct (str_eqb_reflect (45 :: 45 :: a') (str "-h")); discriminate.
Qed.
(** Every string. *)
Lemma help_spec s : s <> dashes ->
  match parse_optional isdecimal s with
  | Option_ ActHelp o e => help_exit o e = Exit 0 <-> asks_help s
  | Ambiguous => is_prefix (str "--=") s
  | _ => ~ asks_help s
  end.
Proof.
  intros Nd. assert (forall c r, (c <> 45 \/ (forall d t, r = d :: t -> d <> 45 /\ d <> 104)) -> ~ asks_help (c :: r)) as No.
  { intros c r H [(n & t & E & _)|((t & E) & L)].
    - injection E as -> ->. destruct H as [H|H]; [congruence|]. destruct (H _ _ eq_refl). congruence.
    - destruct r as [|d r]; [cbn in L; lia|]. vm_compute in E. destruct H as [H|H]; [congruence|]. destruct (H _ _ eq_refl). congruence. }
  destruct s as [|c s]; [intros [(n & t & E & _)|(_ & L)]; [discriminate|cbn in L; lia]|].
  destruct (N.eq_dec c 45) as [->|Nc].
  2: { cbn [parse_optional]. destruct (N.eqb_spec c 45); [contradiction|]. apply No. auto. }
  destruct s as [|d r]; [apply No; right; discriminate|].
  destruct (N.eq_dec d 45) as [->|N45]; [apply parse_long; [exists r; reflexivity|exact Nd]|].
  destruct (N.eq_dec d 104) as [->|N104].
  { destruct (parse_short r) as (e & -> & H). rewrite H. symmetry. apply asks_help_short. }
  assert (~ asks_help (45 :: d :: r)) as K0 by (apply No; right; intros d' t E; injection E as <- _; auto).
  assert (parse_optional isdecimal (45 :: d :: r) = Argument \/ parse_optional isdecimal (45 :: d :: r) = Unknown) as [->| ->]; [|exact K0|exact K0].
  cbn [parse_optional N.eqb Pos.eqb negb].
  assert (forall a, is_prefix (45 :: d :: []) a -> option_action a option_actions = None) as Oa.
  { intros a (t & ->). cbn [option_action option_actions]. destruct (str_eqb_reflect ([45; d] ++ t) (str "-h")) as [E|_]; [vm_compute in E; congruence|].
    destruct (str_eqb_reflect ([45; d] ++ t) (str "--help")) as [E|_]; [vm_compute in E; congruence|].
    destruct (str_eqb_reflect ([45; d] ++ t) (str "--passphrase")) as [E|_]; [vm_compute in E; congruence|]. reflexivity. }
  rewrite (Oa (45 :: d :: r)) by (exists r; reflexivity). cbn [length Nat.eqb].
  rewrite (option_tuples_short d r N45). destruct (N.eqb_spec d 104) as [|_]; [contradiction|].
  destruct (partition_eq (45 :: d :: r)) as [a x] eqn:Ep. pose proof (proj1 (partition_eq_spec _ _ _) Ep) as (Na & Es).
  assert (match x with Some _ => option_action a option_actions = None | None => True end) as Ea.
  { destruct x as [x|]; [|exact I]. destruct a as [|a0 [|a1 a]]; cbn in Es; try discriminate.
    - injection Es; intros; subst. reflexivity.
    - injection Es; intros; subst. apply Oa. exists a. reflexivity. }
  destruct x as [x|]; rewrite ?Ea; destruct (negative_number isdecimal (45 :: d :: r)); auto; destruct (existsb (N.eqb 32) (45 :: d :: r)); auto.
Qed.
Lemma consume_help s o e l fn p ex : consume ((s, POption (Option_ ActHelp o e)) :: l) fn p ex = help_exit o e.
Proof. cbn [consume help_exit]. destruct e as [[b x]|]; reflexivity. Qed.
Lemma classify_options argv l : classify isdecimal argv = Some l -> forall s m, In (s, POption m) l -> In s argv /\ s <> dashes /\ m = parse_optional isdecimal s.
Proof.
  revert l. induction argv as [|s argv IH]; intros l C t m H; [injection C as <-; destruct H|].
  destruct (classify_cons _ _ _ C) as [(-> & ->)|(N & l' & C' & [(P & ->)|(P1 & P2 & ->)])]; (destruct H as [H|H]; [try discriminate|]).
  - apply in_map_iff in H as (y & K & _). discriminate.
  - destruct (IH _ C' _ _ H). cbn. tauto.
  - injection H as <- <-. cbn. auto.
  - destruct (IH _ C' _ _ H). cbn. tauto.
Qed.
Lemma classify_some argv : Forall (fun x => ~ is_prefix (str "--=") x) argv -> exists l, classify isdecimal argv = Some l.
Proof.
  induction 1 as [|s argv H F (l & IH)]; [exists []; reflexivity|]. cbn [classify]. destruct (str_eqb s (str "--")) eqn:E; [eauto|].
  assert (s <> dashes) as N by (intros K; apply str_dashes in K; congruence). pose proof (help_spec s N) as Hs. rewrite IH.
  destruct (parse_optional isdecimal s); eauto. contradiction.
Qed.
Definition exits_for_help (l : list (pystr * part)) : Prop := exists s o e, In (s, POption (Option_ ActHelp o e)) l /\ help_exit o e = Exit 0.
Lemma exits_for_help_cons x l : exits_for_help l -> exits_for_help (x :: l).
Proof. intros (s & o & e & H & Q). exists s, o, e. split; [right; exact H|exact Q]. Qed.
Lemma consume_exit n : forall l fn p ex k, (length l <= n)%nat -> consume l fn p ex = Exit k -> k = 2%nat \/ (k = 0%nat /\ exits_for_help l).
Proof.
  induction n as [|n IH]; intros l fn p ex k L H;
    (destruct l as [|[s pt] l]; [cbn [consume] in H; destruct fn, ex; try discriminate H; injection H as <-; auto|]); cbn [length] in L; [lia|].
  assert (forall fn p ex, consume l fn p ex = Exit k -> k = 2%nat \/ (k = 0%nat /\ exits_for_help ((s, pt) :: l))) as IH1.
  { intros fn' p' ex' K. destruct (IH l fn' p' ex' k ltac:(lia) K) as [|(Hk & Hh)]; [auto|]. right. split; [exact Hk|apply exits_for_help_cons; exact Hh]. }
  assert (forall z l2, l = z :: l2 -> forall fn p ex, consume l2 fn p ex = Exit k -> k = 2%nat \/ (k = 0%nat /\ exits_for_help ((s, pt) :: l))) as IH2.
  { intros z l2 -> fn' p' ex' K. cbn [length] in L. destruct (IH l2 fn' p' ex' k ltac:(lia) K) as [|(Hk & Hh)]; [auto|]. right.
    split; [exact Hk|]. do 2 apply exits_for_help_cons. exact Hh. }
  destruct pt as [|m|].
  - cbn [consume] in H. destruct fn as [g|]; [exact (IH1 _ _ _ H)|]. destruct l as [|[y [|m|]] l2]; try exact (IH1 _ _ _ H). exact (IH2 _ _ eq_refl _ _ _ H).
  - destruct m as [|[] o e| |]; try (cbn [consume] in H; exact (IH1 _ _ _ H)).
    + rewrite consume_help in H.
      assert (help_exit o e = Exit 0 \/ help_exit o e = Exit 2) as [K|K].
      { destruct e as [[b x]|]; cbn [help_exit]; [|auto]. destruct (str_eqb o (str "-h")); [apply short_help_status|auto]. }
      * rewrite K in H. injection H as <-. right. split; [reflexivity|]. exists s, o, e. split; [left; reflexivity|exact K].
      * rewrite K in H. injection H as <-. auto.
    + cbn [consume] in H. destruct e as [[e y]|]; [exact (IH1 _ _ _ H)|]. destruct l as [|[y [|m|]] l2]; try (injection H as <-; auto; fail). exact (IH2 _ _ eq_refl _ _ _ H).
  - cbn [consume] in H. destruct fn as [g|]; [exact (IH1 _ _ _ H)|]. destruct l as [|[y [|m|]] l2]; try exact (IH1 _ _ _ H). exact (IH2 _ _ eq_refl _ _ _ H).
Qed.
Theorem parse_args_exit argv k : parse_args isdecimal argv = Exit k -> k = 2%nat \/ (k = 0%nat /\ exists s, In s argv /\ asks_help s).
Proof.
  unfold parse_args. destruct (classify isdecimal argv) as [l|] eqn:C; [|intros H; injection H as <-; auto]. intros H.
  destruct (consume_exit (length l) _ _ _ _ _ (le_n _) H) as [|(Hk & s & o & e & Hi & Q)]; [auto|]. right. split; [exact Hk|].
  destruct (classify_options _ _ C _ _ Hi) as (Hs & N & E). exists s. split; [exact Hs|].
  pose proof (help_spec s N) as K. rewrite <- E in K. apply K. exact Q.
Qed.
Theorem parse_args_help a s b q : settings isdecimal a None q -> asks_help s -> Forall (fun x => ~ is_prefix (str "--=") x) b ->
  parse_args isdecimal (a ++ s :: b) = Exit 0.
Proof.
  intros S A F. destruct (classify_some b F) as (l & C).
  assert (s <> dashes) as N.
  { intros ->. destruct A as [(n & r & E & _)|(_ & L)]; [discriminate|cbn in L; lia]. }
  pose proof (help_spec s N) as K.
  assert (exists o e, parse_optional isdecimal s = Option_ ActHelp o e /\ help_exit o e = Exit 0) as (o & e & Eo & Eh).
  { destruct (parse_optional isdecimal s) as [|[] o e| |]; try contradiction; [exists o, e; split; [reflexivity|apply K; exact A]|].
    destruct K as (t & ->). destruct A as [(n & r & E & _)|((r & E) & _)]; discriminate. }
  assert (classify isdecimal (s :: b) = Some ((s, POption (Option_ ActHelp o e)) :: l)) as Cs.
  { cbn [classify]. destruct (str_eqb s (str "--")) eqn:Es; [apply str_dashes in Es; contradiction|]. rewrite Eo, C. reflexivity. }
  destruct (consume_settings a None q S _ _ Cs) as (la & Ca & Ka). unfold parse_args. rewrite Ca, Ka, consume_help. exact Eh.
Qed.
End Parsing.
