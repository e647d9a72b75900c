(** Lemmas about base64, lines and words. *)
From Verif Require Import PyBase IntBytes Utf8 StructFmt Stream Text SpecText ProofBase.
Open Scope N_scope.

(** ** base64 *)
Lemma b64_value_char n : n < 64 -> b64_value (b64_char n) = Some n.
Proof.
  intros H. unfold b64_char.
  destruct (N.ltb_spec n 26); [|destruct (N.ltb_spec n 52); [|destruct (N.ltb_spec n 62); [|destruct (N.eqb_spec n 62)]]];
    unfold b64_value.
  - replace ((65 <=? 65 + n) && (65 + n <=? 90))%bool with true by lia. f_equal; lia.
  - replace ((65 <=? 97 + (n - 26)) && (97 + (n - 26) <=? 90))%bool with false by lia.
    replace ((97 <=? 97 + (n - 26)) && (97 + (n - 26) <=? 122))%bool with true by lia. f_equal; lia.
  - replace ((65 <=? 48 + (n - 52)) && (48 + (n - 52) <=? 90))%bool with false by lia.
    replace ((97 <=? 48 + (n - 52)) && (48 + (n - 52) <=? 122))%bool with false by lia.
    replace ((48 <=? 48 + (n - 52)) && (48 + (n - 52) <=? 57))%bool with true by lia. f_equal; lia.
  - subst. reflexivity.
  - assert (n = 63) as -> by lia. reflexivity.
Qed.
Lemma alphabet_length : length alphabet = 64%nat. Proof. reflexivity. Qed.
Lemma sextet_char c v : sextet c v <-> v < 64 /\ c = b64_char v.
Proof.
  unfold sextet.
  assert (forall n, (n < 64)%nat -> nth_error alphabet n = Some (b64_char (N.of_nat n))) as A.
  { intros n Hn.
    assert (forallb (fun n => match nth_error alphabet n with
                              | Some c => c =? b64_char (N.of_nat n) | None => false end) (seq 0 64) = true) as B
      by (vm_compute; reflexivity).
    rewrite forallb_forall in B. specialize (B n ltac:(apply in_seq; lia)).
    destruct (nth_error alphabet n); [|discriminate]. apply N.eqb_eq in B. congruence. }
  split.
  - intros H. assert (N.to_nat v < 64)%nat as L.
    { rewrite <- alphabet_length. apply nth_error_Some. congruence. }
    rewrite A in H by assumption. rewrite N2Nat.id in H. split; [lia|congruence].
  - intros (L & ->). rewrite A by lia. rewrite N2Nat.id. reflexivity.
Qed.
Lemma b64_char_lt n : n < 64 -> b64_char n < 128 /\ b64_char n <> b64_pad.
Proof.
  intros H. unfold b64_char, b64_pad.
  destruct (N.ltb_spec n 26); [|destruct (N.ltb_spec n 52); [|destruct (N.ltb_spec n 62); [|destruct (N.eqb_spec n 62)]]]; lia.
Qed.
Lemma octet_lt x : octet x < 256.
Proof. pose proof (Zb_range x). unfold Zb in *. lia. Qed.

(** Quotients and remainders by powers of two, as linear facts. *)
Ltac dm a b := pose proof (N.div_mod' a b); pose proof (N.mod_lt a b ltac:(lia)).

Fixpoint bytes_ind3 (P : bytes -> Prop) (H0 : P []) (H1 : forall x, P [x]) (H2 : forall x y, P [x; y])
    (H3 : forall x y z b, P b -> P (x :: y :: z :: b)) (b : bytes) : P b :=
  match b with
  | [] => H0
  | [x] => H1 x
  | [x; y] => H2 x y
  | x :: y :: z :: b' => H3 x y z b' (bytes_ind3 P H0 H1 H2 H3 b')
  end.

Lemma b64encode_base64 b : base64 b (b64encode b).
Proof.
  induction b as [|x|x y|x y z b IH] using bytes_ind3; cbn [b64encode]; unfold bn.
  - constructor.
  - pose proof (octet_lt x). dm (octet x) 4.
    apply (base64_8 x _ _ (octet x / 4) (octet x mod 4 * 16)); try (apply sextet_char; split; [|reflexivity]);
      change (2 ^ 4) with 16; change (2 ^ 6) with 64; lia.
  - pose proof (octet_lt x). pose proof (octet_lt y). dm (octet x) 4. dm (octet y) 16.
    apply (base64_16 x y _ _ _ (octet x / 4) (octet x mod 4 * 16 + octet y / 16) (octet y mod 16 * 4));
      try (apply sextet_char; split; [|reflexivity]);
      change (2 ^ 8) with 256; change (2 ^ 2) with 4; change (2 ^ 12) with 4096; change (2 ^ 6) with 64; lia.
  - pose proof (octet_lt x). pose proof (octet_lt y). pose proof (octet_lt z).
    dm (octet x) 4. dm (octet y) 16. dm (octet z) 64.
    apply (base64_24 x y z _ _ _ _ (octet x / 4) (octet x mod 4 * 16 + octet y / 16)
             (octet y mod 16 * 4 + octet z / 64) (octet z mod 64));
      try (apply sextet_char; split; [|reflexivity]); try exact IH;
      change (2 ^ 8) with 256; change (2 ^ 12) with 4096; change (2 ^ 6) with 64;
      change (2 ^ 16) with 65536; change (2 ^ 18) with 262144; lia.
Qed.

Lemma noise_value c : noise c -> b64_value c = None /\ (c =? b64_pad) = false /\ (c <? 128) = true.
Proof.
  intros (L & Nin & Np). split; [|split; [unfold b64_pad, pad_char in *; lia|lia]].
  destruct (b64_value c) as [v|] eqn:E; [|reflexivity]. exfalso. apply Nin.
  assert (v < 64 /\ c = b64_char v) as (Lv & ->).
  { unfold b64_value in E.
    destruct ((65 <=? c) && (c <=? 90))%bool eqn:E1.
    { injection E as <-. unfold b64_char. replace (c - 65 <? 26) with true by lia. lia. }
    destruct ((97 <=? c) && (c <=? 122))%bool eqn:E2.
    { injection E as <-. unfold b64_char. replace (c - 97 + 26 <? 26) with false by lia.
      replace (c - 97 + 26 <? 52) with true by lia. lia. }
    destruct ((48 <=? c) && (c <=? 57))%bool eqn:E3.
    { injection E as <-. unfold b64_char. replace (c - 48 + 52 <? 26) with false by lia.
      replace (c - 48 + 52 <? 52) with false by lia. replace (c - 48 + 52 <? 62) with true by lia. lia. }
    destruct (N.eqb_spec c 43). { injection E as <-. subst. split; [lia|reflexivity]. }
    destruct (N.eqb_spec c 47). { injection E as <-. subst. split; [lia|reflexivity]. }
    discriminate. }
  assert (sextet (b64_char v) v) as S by (apply sextet_char; auto).
  eapply nth_error_In. exact S.
Qed.
Lemma noisy_a2b s s' : noisy s s' -> forall q left pads, a2b_base64 s' q left pads = a2b_base64 s q left pads.
Proof.
  induction 1 as [|c s s' H IH|c s s' Hc H IH]; intros q left pads.
  - reflexivity.
  - cbn [a2b_base64]. rewrite !IH. destruct (c =? b64_pad); [reflexivity|].
    destruct (b64_value c); rewrite ?IH; reflexivity.
  - destruct (noise_value c Hc) as (E1 & E2 & _). cbn [a2b_base64]. rewrite E1, E2. apply IH.
Qed.
Lemma noisy_ascii s s' : noisy s s' -> forallb (fun c => c <? 128) s' = forallb (fun c => c <? 128) s.
Proof.
  induction 1 as [|c s s' H IH|c s s' Hc H IH]; cbn [forallb]; [reflexivity|rewrite IH; reflexivity|].
  destruct (noise_value c Hc) as (_ & _ & ->). exact IH.
Qed.
Lemma noisy_decode s s' : noisy s s' -> b64decode s' = b64decode s.
Proof.
  intros H. unfold b64decode. rewrite (noisy_ascii _ _ H). rewrite (noisy_a2b _ _ H). reflexivity.
Qed.

Lemma nb_octet x : nb (octet x) = x.
Proof. unfold nb. rewrite <- (bZ_Zb x) at 2. reflexivity. Qed.
Lemma a2b_char v s q left pads : v < 64 ->
  a2b_base64 (b64_char v :: s) q left pads =
  (if q =? 0 then a2b_base64 s 1 v 0
   else if q =? 1 then do? r <- a2b_base64 s 2 (v mod 16) 0; Ok (nb (left * 4 + v / 16) :: r)
   else if q =? 2 then do? r <- a2b_base64 s 3 (v mod 4) 0; Ok (nb (left * 16 + v / 4) :: r)
   else do? r <- a2b_base64 s 0 0 0; Ok (nb (left * 64 + v) :: r)).
Proof.
  intros H. destruct (b64_char_lt v H) as (_ & N). cbn [a2b_base64].
  destruct (N.eqb_spec (b64_char v) b64_pad); [congruence|]. rewrite (b64_value_char v H). reflexivity.
Qed.
Lemma base64_decode_a2b b s : base64 b s -> a2b_base64 s 0 0 0 = Ok b.
Proof.
  induction 1 as [|x c1 c2 v1 v2 S1 S2 E|x y c1 c2 c3 v1 v2 v3 S1 S2 S3 E|x y z c1 c2 c3 c4 v1 v2 v3 v4 b s S1 S2 S3 S4 E H IH].
  - reflexivity.
  - apply sextet_char in S1 as (L1 & ->). apply sextet_char in S2 as (L2 & ->).
    change (2 ^ 4) with 16 in E; change (2 ^ 6) with 64 in E.
    rewrite a2b_char by assumption. cbn [N.eqb]. rewrite a2b_char by assumption. cbn [N.eqb Pos.eqb].
    cbn [a2b_base64 pad_char b64_pad N.eqb Pos.eqb N.leb N.compare Pos.compare Pos.compare_cont rbind].
    dm v2 16. replace (v1 * 4 + v2 / 16) with (octet x) by lia. rewrite nb_octet. reflexivity.
  - apply sextet_char in S1 as (L1 & ->). apply sextet_char in S2 as (L2 & ->). apply sextet_char in S3 as (L3 & ->).
    change (2 ^ 8) with 256 in E; change (2 ^ 2) with 4 in E; change (2 ^ 12) with 4096 in E; change (2 ^ 6) with 64 in E.
    rewrite a2b_char by assumption. cbn [N.eqb]. rewrite a2b_char by assumption. cbn [N.eqb Pos.eqb].
    rewrite a2b_char by assumption. cbn [N.eqb Pos.eqb].
    cbn [a2b_base64 pad_char b64_pad N.eqb Pos.eqb N.leb N.compare Pos.compare Pos.compare_cont rbind].
    pose proof (octet_lt x); pose proof (octet_lt y). dm v2 16. dm v3 4.
    assert (octet x = v1 * 4 + v2 / 16) as Ex by lia.
    replace (v1 * 4 + v2 / 16) with (octet x) by lia.
    replace (v2 mod 16 * 16 + v3 / 4) with (octet y) by lia. rewrite !nb_octet. reflexivity.
  - apply sextet_char in S1 as (L1 & ->). apply sextet_char in S2 as (L2 & ->).
    apply sextet_char in S3 as (L3 & ->). apply sextet_char in S4 as (L4 & ->).
    change (2 ^ 8) with 256 in E; change (2 ^ 12) with 4096 in E; change (2 ^ 6) with 64 in E;
      change (2 ^ 16) with 65536 in E; change (2 ^ 18) with 262144 in E.
    rewrite a2b_char by assumption. cbn [N.eqb]. rewrite a2b_char by assumption. cbn [N.eqb Pos.eqb].
    rewrite a2b_char by assumption. cbn [N.eqb Pos.eqb]. rewrite a2b_char by assumption. cbn [N.eqb Pos.eqb].
    rewrite IH. cbn [rbind].
    pose proof (octet_lt x); pose proof (octet_lt y); pose proof (octet_lt z). dm v2 16. dm v3 4.
    assert (octet x = v1 * 4 + v2 / 16) as Ex by lia.
    assert (octet y = v2 mod 16 * 16 + v3 / 4) as Ey by lia.
    replace (v1 * 4 + v2 / 16) with (octet x) by lia.
    replace (v2 mod 16 * 16 + v3 / 4) with (octet y) by lia.
    replace (v3 mod 4 * 64 + v4) with (octet z) by lia. rewrite !nb_octet. reflexivity.
Qed.
(** Every character of base64 text is in the alphabet or '='. *)
Lemma base64_chars b s : base64 b s -> forall c, In c s -> (exists v, v < 64 /\ c = b64_char v) \/ c = pad_char.
Proof.
  induction 1 as [|x c1 c2 v1 v2 S1 S2 E|x y c1 c2 c3 v1 v2 v3 S1 S2 S3 E|x y z c1 c2 c3 c4 v1 v2 v3 v4 b s S1 S2 S3 S4 E H IH];
    intros c Hc; cbn [In] in Hc;
    repeat match goal with H : sextet _ _ |- _ => apply sextet_char in H end;
    repeat (destruct Hc as [<-|Hc]; [eauto; fail|]); try contradiction; auto.
Qed.
Lemma b64_char_range v : v < 64 ->
  let c := b64_char v in c = 43 \/ 47 <= c <= 57 \/ 65 <= c <= 90 \/ 97 <= c <= 122.
Proof.
  intros H. cbn zeta. unfold b64_char.
  destruct (N.ltb_spec v 26); [|destruct (N.ltb_spec v 52); [|destruct (N.ltb_spec v 62); [|destruct (N.eqb_spec v 62)]]]; lia.
Qed.
Lemma base64_char_range b s : base64 b s -> forall c, In c s ->
  c = 43 \/ 47 <= c <= 57 \/ c = 61 \/ 65 <= c <= 90 \/ 97 <= c <= 122.
Proof.
  intros H c Hc. destruct (base64_chars _ _ H c Hc) as [(v & L & ->)|E].
  - pose proof (b64_char_range v L). cbn zeta in *. lia.
  - unfold pad_char in E. lia.
Qed.
Lemma base64_decode b s : base64 b s -> b64decode s = Ok b.
Proof.
  intros H. unfold b64decode.
  replace (forallb (fun c => c <? 128) s) with true; [apply base64_decode_a2b; assumption|].
  symmetry. apply forallb_forall. intros c Hc. pose proof (base64_char_range _ _ H c Hc). lia.
Qed.
Lemma base64_functional b s s' : base64 b s -> base64 b s' -> s = s'.
Proof.
  intros H; revert s'.
  induction H as [|x c1 c2 v1 v2 S1 S2 E|x y c1 c2 c3 v1 v2 v3 S1 S2 S3 E|x y z c1 c2 c3 c4 v1 v2 v3 v4 b s S1 S2 S3 S4 E H IH];
    intros s' H'; inversion H'; subst;
    repeat match goal with H : sextet _ _ |- _ => apply sextet_char in H as (? & ->) end;
    change (2 ^ 8) with 256 in *; change (2 ^ 12) with 4096 in *; change (2 ^ 6) with 64 in *;
    change (2 ^ 4) with 16 in *; change (2 ^ 2) with 4 in *;
    change (2 ^ 16) with 65536 in *; change (2 ^ 18) with 262144 in *.
  - reflexivity.
  - repeat f_equal; lia.
  - repeat f_equal; lia.
  - assert (v1 = v0) by lia. assert (v2 = v5) by lia. assert (v3 = v6) by lia. assert (v4 = v7) by lia.
    subst. repeat f_equal. auto.
Qed.
Lemma base64_iff b s : base64 b s <-> b64encode b = s.
Proof.
  split; [|intros <-; apply b64encode_base64].
  intros H. eapply base64_functional; [apply b64encode_base64|exact H].
Qed.
Lemma b64encode_nil b : b64encode b = [] <-> b = [].
Proof. split; [|intros ->; reflexivity]. destruct b as [|x [|y [|z r]]]; cbn; congruence. Qed.

(** ** Words *)
Lemma break_at_some c s a b : break_at c s = Some (a, b) <-> s = a ++ c :: b /\ ~ In c a.
Proof.
  revert a b; induction s as [|x s IH]; intros a b; cbn [break_at].
  - split; [discriminate|]. intros (E & _). destruct a; discriminate.
  - destruct (N.eqb_spec x c) as [->|Nx].
    + split.
      * intros E; injection E as <- <-. split; [reflexivity|intros []].
      * intros (E & Na). destruct a as [|y a]; [injection E as <-; reflexivity|].
        injection E as <- _. exfalso. apply Na. left. reflexivity.
    + destruct (break_at c s) as [(a', b')|] eqn:E.
      * split.
        -- intros K; injection K as <- <-. destruct (proj1 (IH a' b') eq_refl) as (-> & Na).
           split; [reflexivity|]. intros [K|K]; [congruence|auto].
        -- intros (K & Na). destruct a as [|y a]; [injection K as <- _; congruence|].
           injection K as <- K. assert (Some (a', b') = Some (a, b)) as K0.
           { apply IH. split; [assumption|]. intros Hin; apply Na; right; assumption. }
           injection K0 as -> ->. reflexivity.
      * split; [discriminate|]. intros (K & Na). destruct a as [|y a]; [injection K as <- _; congruence|].
        injection K as <- K. assert (None = Some (a, b)) as K0; [|discriminate].
        apply IH. split; [assumption|]. intros Hin; apply Na; right; assumption.
Qed.
Lemma break_at_none c s : break_at c s = None <-> ~ In c s.
Proof.
  induction s as [|x s IH]; cbn [break_at In].
  - tauto.
  - destruct (N.eqb_spec x c) as [->|Nx]; [split; [discriminate|tauto]|].
    destruct (break_at c s) as [(a, b)|]; [split; [discriminate|]|].
    + intros K. exfalso. assert (Some (a, b) = None) as K0 by (apply IH; tauto). discriminate.
    + split; [|reflexivity]. intros _ [K|K]; [auto|]. apply IH in K; auto.
Qed.

(** ** Lines *)
Lemma is_linebreak_iff c : is_linebreak c = true <-> In c boundaries.
Proof. unfold is_linebreak, boundaries. cbn [In]. lia. Qed.
Lemma is_linebreak_false c : is_linebreak c = false <-> ~ In c boundaries.
Proof. rewrite <- is_linebreak_iff. destruct (is_linebreak c); split; congruence. Qed.

Lemma splitlines_from_app cur l s :
  unbroken l -> splitlines_from cur (l ++ s) = splitlines_from (rev l ++ cur) s.
Proof.
  revert cur; induction l as [|c l IH]; intros cur U; [reflexivity|].
  cbn [app splitlines_from]. rewrite (proj2 (is_linebreak_false c)) by (apply U; left; reflexivity).
  rewrite IH by (intros x Hx; apply U; right; exact Hx). cbn [rev]. rewrite <- app_assoc. reflexivity.
Qed.
Lemma lines_splitlines s ls : lines s ls -> splitlines s = ls.
Proof.
  unfold splitlines. induction 1 as [|l Nl U|l c s ls U Hc Ncr H IH|l s ls U H IH].
  - reflexivity.
  - rewrite <- (app_nil_r l) at 1. rewrite splitlines_from_app by assumption. rewrite app_nil_r.
    cbn [splitlines_from]. destruct (rev l) eqn:E.
    + apply (f_equal (@rev _)) in E. rewrite rev_involutive in E. contradiction.
    + rewrite <- E, rev_involutive. reflexivity.
  - rewrite splitlines_from_app by assumption. rewrite app_nil_r. cbn [splitlines_from].
    rewrite (proj2 (is_linebreak_iff c) Hc), rev_involutive.
    destruct s as [|c' s']; [rewrite IH; reflexivity|].
    destruct ((c =? 13) && (c' =? 10))%bool eqn:E; [|rewrite IH; reflexivity].
    exfalso. apply Ncr. split; [lia|]. exists s'. f_equal. lia.
  - rewrite splitlines_from_app by assumption. rewrite app_nil_r. cbn [splitlines_from].
    change (is_linebreak 13) with true. cbn [N.eqb Pos.eqb andb]. rewrite rev_involutive, IH. reflexivity.
Qed.
Lemma lines_total s : exists ls, lines s ls.
Proof.
  remember (length s) as n eqn:E. revert s E. induction n as [n IHn] using (well_founded_induction lt_wf). intros s ->.
  assert (exists l r, s = l ++ r /\ unbroken l /\ match r with [] => True | c :: _ => In c boundaries end) as (l & r & -> & U & Hr).
  { clear. induction s as [|c s (l & r & -> & U & Hr)].
    - exists [], []. repeat split. intros c [].
    - destruct (is_linebreak c) eqn:E.
      + exists [], (c :: l ++ r). repeat split; [intros x []|apply is_linebreak_iff; assumption].
      + exists (c :: l), r. repeat split; [|assumption]. intros x [<-|Hx]; [apply is_linebreak_false; assumption|auto]. }
  destruct r as [|c r].
  - rewrite app_nil_r. destruct l; [exists []; constructor|]. eexists. apply lines_last; [discriminate|assumption].
  - destruct (N.eqb_spec c 13) as [->|Nc]; [destruct r as [|c' r]; [|destruct (N.eqb_spec c' 10) as [->|Nc']]|].
    + exists [l]. apply lines_break; auto; [|constructor]. intros (_ & s' & K). discriminate.
    + destruct (IHn (length r)) with (s := r) as (ls & Hls); [rewrite app_length; cbn [length]; lia|reflexivity|].
      exists (l :: ls). apply lines_crlf; assumption.
    + destruct (IHn (length (c' :: r))) with (s := c' :: r) as (ls & Hls); [rewrite app_length; cbn [length]; lia|reflexivity|].
      exists (l :: ls). apply lines_break; auto. intros (_ & s' & K). congruence.
    + destruct (IHn (length r)) with (s := r) as (ls & Hls); [rewrite app_length; cbn [length]; lia|reflexivity|].
      exists (l :: ls). apply lines_break; auto. tauto.
Qed.
Lemma lines_iff s ls : lines s ls <-> splitlines s = ls.
Proof.
  split; [apply lines_splitlines|]. intros <-.
  destruct (lines_total s) as (ls & H). pose proof (lines_splitlines _ _ H) as ->. exact H.
Qed.

(** ** Wrapping *)
Lemma unlines_lines ls :
  Forall unbroken ls -> lines (unlines ls) ls.
Proof.
  unfold unlines. induction 1 as [|l ls U H IH]; cbn [map concat].
  - constructor.
  - unfold newline. rewrite <- app_assoc. cbn [app]. apply lines_break; auto.
    + simpl; auto.
    + intros (K & _). discriminate.
Qed.
Lemma str_join_unlines ls : ls <> [] -> str_join newline ls ++ newline = unlines ls.
Proof.
  unfold unlines. induction ls as [|l ls IH]; intros N; [congruence|].
  destruct ls as [|l' ls]; [cbn; rewrite app_nil_r; reflexivity|].
  cbn [str_join map concat]. cbn [map concat] in IH. rewrite <- IH by discriminate.
  rewrite <- !app_assoc. reflexivity.
Qed.
