(** C104: which base64 texts are accepted, and as what. *)
From Verif Require Import PyBase IntBytes Utf8 StructFmt Stream Text.
From Verif Require Import SpecWire SpecText SpecBase64 ProofBase ProofInt ProofUtf8 ProofWire ProofText.
From Coq Require Import Lia.
Open Scope Z_scope.

(** ** The characters *)
Lemma value_sextet c v : b64_value c = Some v <-> sextet c v.
Proof.
  rewrite sextet_char. split.
  - intros E. unfold b64_value in E.
    destruct ((65 <=? c) && (c <=? 90))%N%bool eqn:E1.
    { injection E as <-. unfold b64_char. replace (c - 65 <? 26)%N with true by lia. lia. }
    destruct ((97 <=? c) && (c <=? 122))%N%bool eqn:E2.
    { injection E as <-. unfold b64_char. replace (c - 97 + 26 <? 26)%N with false by lia.
      replace (c - 97 + 26 <? 52)%N with true by lia. lia. }
    destruct ((48 <=? c) && (c <=? 57))%N%bool eqn:E3.
    { injection E as <-. unfold b64_char. replace (c - 48 + 52 <? 26)%N with false by lia.
      replace (c - 48 + 52 <? 52)%N with false by lia. replace (c - 48 + 52 <? 62)%N with true by lia. lia. }
    destruct (N.eqb_spec c 43). { injection E as <-. subst. split; [lia|reflexivity]. }
    destruct (N.eqb_spec c 47). { injection E as <-. subst. split; [lia|reflexivity]. }
    discriminate.
  - intros (L & ->). apply b64_value_char. exact L.
Qed.
Lemma value_none c : b64_value c = None <-> ~ In c alphabet.
Proof.
  split.
  - intros E I. apply In_nth_error in I as (n & I).
    assert (sextet c (N.of_nat n)) as S by (unfold sextet; rewrite Nat2N.id; exact I).
    apply value_sextet in S. congruence.
  - intros N. destruct (b64_value c) as [v|] eqn:E; [|reflexivity]. exfalso. apply N.
    apply value_sextet in E. eapply nth_error_In. exact E.
Qed.
Lemma pad_not_alphabet : ~ In pad_char alphabet.
Proof. apply value_none. reflexivity. Qed.
Lemma sextets_fun s vs vs' : sextets s vs -> sextets s vs' -> vs = vs'.
Proof.
  intros H; revert vs'; induction H as [|c v s vs S H IH|c s vs N H IH]; intros vs' H'; inversion H'; subst.
  - reflexivity.
  - apply value_sextet in S. f_equal; [|auto].
    match goal with Q : sextet c _ |- _ => apply value_sextet in Q end. congruence.
  - apply value_sextet in S. match goal with Q : ~ In c alphabet |- _ => apply value_none in Q end. congruence.
  - apply value_none in N. match goal with Q : sextet c _ |- _ => apply value_sextet in Q end. congruence.
  - auto.
Qed.
Lemma sextets_snoc_data s vs c v : sextets s vs -> sextet c v -> sextets (s ++ [c]) (vs ++ [v]).
Proof.
  intros H S. induction H; cbn [app].
  - apply sextets_data; [exact S|constructor].
  - apply sextets_data; assumption.
  - apply sextets_other; assumption.
Qed.
Lemma sextets_snoc_other s vs c : sextets s vs -> ~ In c alphabet -> sextets (s ++ [c]) vs.
Proof.
  intros H S. induction H; cbn [app].
  - apply sextets_other; [exact S|constructor].
  - apply sextets_data; assumption.
  - apply sextets_other; assumption.
Qed.
Lemma number_snoc vs v : number (vs ++ [v]) = 64 * number vs + Z.of_N v.
Proof. unfold number. rewrite fold_left_app. reflexivity. Qed.

(** ** Prefixes *)
Lemma prefix_snoc (pre : pystr) c p r : pre ++ [c] = p ++ r -> r = [] \/ exists r', pre = p ++ r'.
Proof.
  destruct r as [|x r] using rev_ind; [auto|]. intros E. right. rewrite app_assoc in E.
  apply app_inj_tail in E as (-> & _). eauto.
Qed.
Definition no_closed (pre : pystr) : Prop := forall p0 r0, pre = p0 ++ r0 -> ~ closed p0.
Lemma no_closed_snoc pre c : no_closed pre -> ~ closed (pre ++ [c]) -> no_closed (pre ++ [c]).
Proof.
  intros H N p r E C. destruct (prefix_snoc _ _ _ _ E) as [->|(r' & E')].
  - rewrite app_nil_r in E. subst p. exact (N C).
  - exact (H _ _ E' C).
Qed.
Lemma closed_snoc pre c vs : sextets pre vs ->
  closed (pre ++ [c]) <->
  c = pad_char /\ (Z.of_nat (length vs) mod 4 = 3 \/ (Z.of_nat (length vs) mod 4 = 2 /\ padded pre)).
Proof.
  intros S. split.
  - intros (p' & vs' & E & S' & C). apply app_inj_tail in E as (<- & ->).
    rewrite (sextets_fun _ _ _ S S'). auto.
  - intros (-> & C). exists pre, vs. auto.
Qed.
Lemma padded_snoc pre c : padded (pre ++ [c]) <-> c = pad_char \/ (~ In c alphabet /\ padded pre).
Proof.
  split.
  - intros (p1 & p2 & E & N). destruct p2 as [|x p2] using rev_ind.
    + apply app_inj_tail in E as (_ & ->). auto.
    + right. rewrite app_comm_cons, app_assoc in E. apply app_inj_tail in E as (-> & ->). split.
      * apply N. apply in_or_app. right. left. reflexivity.
      * exists p1, p2. split; [reflexivity|]. intros y I. apply N. apply in_or_app. auto.
  - intros [->|(N & p1 & p2 & -> & P)].
    + exists pre, []. split; [reflexivity|]. intros y [].
    + exists p1, (p2 ++ [c]). rewrite <- app_assoc. split; [reflexivity|].
      intros y I. apply in_app_or in I as [I|[<-|[]]]; auto.
Qed.

(** ** The decoder *)
(** How many bits are left over after each position in a group of four. *)
Definition width (q : N) : Z := match q with 0%N => 1 | 1%N => 64 | 2%N => 16 | _ => 4 end.
Definition produced (q : N) : Z := match q with 0%N => 0 | 1%N => 0 | 2%N => 1 | _ => 2 end.
Definition state (pre : pystr) (vs : list N) (b0 : bytes) (q left pads : N) : Prop :=
  sextets pre vs /\ (q < 4)%N /\
  (exists m, Z.of_nat (length vs) = 4 * m + Z.of_N q /\ 0 <= m /\ Z.of_nat (length b0) = 3 * m + produced q) /\
  number vs = unsigned b0 * width q + Z.of_N left /\ Z.of_N left < width q /\
  (q = 2%N -> (pads = 0%N /\ ~ padded pre) \/ (pads = 1%N /\ padded pre)) /\
  (q <> 2%N -> pads = 0%N) /\ no_closed pre.
Lemma state_octets pre vs b0 q left pads : state pre vs b0 q left pads -> whole_octets vs b0.
Proof.
  intros (_ & Q & (m & L & M & Lb) & Nu & W & _). unfold whole_octets. cbn zeta.
  rewrite L, Lb, Nu.
  assert (q = 0 \/ q = 1 \/ q = 2 \/ q = 3)%N as C by lia.
  destruct C as [->|[->|[->| ->]]]; cbn [width produced Z.of_N] in *; (split; [Z.to_euclidean_division_equations; lia|]).
  - replace ((6 * (4 * m + 0)) mod 8) with 0 by (Z.to_euclidean_division_equations; lia).
    change (2 ^ 0) with 1. rewrite Z.div_1_r. lia.
  - replace ((6 * (4 * m + 1)) mod 8) with 6 by (Z.to_euclidean_division_equations; lia).
    change (2 ^ 6) with 64. Z.to_euclidean_division_equations; lia.
  - replace ((6 * (4 * m + 2)) mod 8) with 4 by (Z.to_euclidean_division_equations; lia).
    change (2 ^ 4) with 16. Z.to_euclidean_division_equations; lia.
  - replace ((6 * (4 * m + 3)) mod 8) with 2 by (Z.to_euclidean_division_equations; lia).
    change (2 ^ 2) with 4. Z.to_euclidean_division_equations; lia.
Qed.
Lemma unsigned_snoc b n : (n < 256)%N -> unsigned (b ++ [nb n]) = 256 * unsigned b + Z.of_N n.
Proof.
  intros L. rewrite !unsigned_be, be_value_app, be_value_one. cbn [length].
  unfold Zb. rewrite to_N_nb by exact L. change (256 ^ Z.of_nat 1) with 256. lia.
Qed.
Lemma padded_data pre c v : sextet c v -> ~ padded (pre ++ [c]).
Proof.
  intros S P. assert (In c alphabet) as I by (eapply nth_error_In; exact S).
  apply padded_snoc in P as [->|(N & _)]; [exact (pad_not_alphabet I)|contradiction].
Qed.
Lemma closed_data pre c v : sextet c v -> ~ closed (pre ++ [c]).
Proof.
  intros S (p' & vs' & E & _). apply app_inj_tail in E as (_ & ->).
  apply pad_not_alphabet. eapply nth_error_In. exact S.
Qed.
Lemma state_data pre vs b0 q left pads c v :
  state pre vs b0 q left pads -> sextet c v ->
  state (pre ++ [c]) (vs ++ [v])
    (b0 ++ (if (q =? 0)%N then [] else if (q =? 1)%N then [nb (left * 4 + v / 16)]
            else if (q =? 2)%N then [nb (left * 16 + v / 4)] else [nb (left * 64 + v)]))
    (if (q =? 0)%N then 1 else if (q =? 1)%N then 2 else if (q =? 2)%N then 3 else 0)%N
    (if (q =? 0)%N then v else if (q =? 1)%N then v mod 16 else if (q =? 2)%N then v mod 4 else 0)%N 0.
Proof.
  intros (S & Q & (m & L & M & Lb) & Nu & W & P2 & P0 & NC) Sv.
  assert (v < 64)%N as Lv by (apply sextet_char in Sv; tauto).
  pose proof (padded_data pre c v Sv) as NP. pose proof (closed_data pre c v Sv) as NCl.
  assert (q = 0 \/ q = 1 \/ q = 2 \/ q = 3)%N as C by lia.
  unfold state. rewrite number_snoc, Nu, app_length. cbn [length].
  split; [apply sextets_snoc_data; assumption|].
  destruct C as [->|[->|[->| ->]]]; cbn [N.eqb Pos.eqb width produced] in *.
  - split; [lia|]. split; [exists m; rewrite app_nil_r; lia|]. rewrite app_nil_r.
    split; [lia|]. split; [lia|]. split; [discriminate|]. split; [reflexivity|apply no_closed_snoc; assumption].
  - dm v 16%N. split; [lia|]. split; [exists m; rewrite app_length; cbn [length]; lia|].
    rewrite unsigned_snoc by lia. split; [lia|]. split; [lia|]. split; [auto|]. split; [reflexivity|apply no_closed_snoc; assumption].
  - dm v 4%N. split; [lia|]. split; [exists m; rewrite app_length; cbn [length]; lia|].
    rewrite unsigned_snoc by lia. split; [lia|]. split; [lia|]. split; [discriminate|]. split; [reflexivity|apply no_closed_snoc; assumption].
  - split; [lia|]. split; [exists (m + 1); rewrite app_length; cbn [length]; lia|].
    rewrite unsigned_snoc by lia. split; [lia|]. split; [lia|]. split; [discriminate|]. split; [reflexivity|apply no_closed_snoc; assumption].
Qed.
Lemma state_other pre vs b0 q left pads c :
  state pre vs b0 q left pads -> ~ In c alphabet -> c <> pad_char -> state (pre ++ [c]) vs b0 q left pads.
Proof.
  intros (S & Q & Ln & Nu & W & P2 & P0 & NC) N Np.
  split; [apply sextets_snoc_other; assumption|]. split; [exact Q|]. split; [exact Ln|]. split; [exact Nu|].
  split; [exact W|]. split; [|split; [exact P0|]].
  - intros E. rewrite padded_snoc. destruct (P2 E) as [(A & B)|(A & B)]; [left|right]; (split; [exact A|]); tauto.
  - apply no_closed_snoc; [exact NC|]. rewrite (closed_snoc _ _ _ S). tauto.
Qed.
Definition incomplete (s : pystr) : Prop :=
  exists vs, sextets s vs /\ Z.of_nat (length vs) mod 4 <> 0 /\ forall p r, s = p ++ r -> ~ closed p.
Lemma decoder s : forall pre vs b0 q left pads, state pre vs b0 q left pads ->
  match a2b_base64 s q left pads with
  | Ok b => decodes (pre ++ s) (b0 ++ b)
  | Err e => e = BinasciiError /\ incomplete (pre ++ s)
  end.
Proof.
  induction s as [|c s IH]; intros pre vs b0 q left pads St; cbn [a2b_base64].
  - rewrite !app_nil_r. pose proof (state_octets _ _ _ _ _ _ St) as O.
    destruct St as (S & Q & (m & L & M & Lb) & _ & _ & _ & _ & NC).
    destruct (N.eqb_spec q 0) as [->|Nq].
    + rewrite app_nil_r. exists pre, vs. split; [exact S|]. split; [exact O|]. right.
      split; [reflexivity|]. split; [|exact NC]. Z.to_euclidean_division_equations; lia.
    + split; [reflexivity|]. exists vs. split; [exact S|]. split; [|exact NC]. Z.to_euclidean_division_equations; lia.
  - replace (pre ++ c :: s) with ((pre ++ [c]) ++ s) by (rewrite <- app_assoc; reflexivity).
    destruct (N.eqb_spec c b64_pad) as [->|Nc].
    + pose proof (state_octets _ _ _ _ _ _ St) as O.
      destruct St as (S & Q & (m & L & M & Lb) & Nu & W & P2 & P0 & NC).
      assert (sextets (pre ++ [b64_pad]) vs) as S' by (apply sextets_snoc_other; [exact S|exact pad_not_alphabet]).
      pose proof (closed_snoc pre b64_pad vs S) as CS.
      assert (forall q0, Z.of_nat (length vs) = 4 * m + q0 -> 0 <= q0 < 4 -> Z.of_nat (length vs) mod 4 = q0) as Md
        by (intros q0 E B; Z.to_euclidean_division_equations; lia).
      assert (closed (pre ++ [b64_pad]) -> decodes ((pre ++ [b64_pad]) ++ s) (b0 ++ [])) as Done.
      { intros C. rewrite app_nil_r. exists (pre ++ [b64_pad]), vs. split; [exact S'|]. split; [exact O|]. left.
        split; [exact C|]. split; [eauto|]. intros p0 r0 E C0.
        destruct (prefix_snoc _ _ _ _ E) as [->|(r' & E')]; [reflexivity|]. exfalso. exact (NC _ _ E' C0). }
      specialize (Md (Z.of_N q) L ltac:(lia)).
      destruct (N.leb_spec 2 q) as [Q2|Q2].
      * destruct (N.leb_spec 4 (q + (pads + 1))) as [Q4|Q4].
        -- apply Done. apply CS. split; [reflexivity|].
           destruct (N.eq_dec q 2) as [->|N2]; [|left; lia].
           right. split; [lia|]. destruct (P2 eq_refl) as [(-> & _)|(_ & P)]; [lia|exact P].
        -- assert (q = 2%N) as -> by (destruct (N.eq_dec q 2); [assumption|lia]).
           destruct (P2 eq_refl) as [(-> & NP)|(-> & _)]; [|lia].
           apply (IH (pre ++ [b64_pad]) vs). split; [exact S'|]. split; [lia|]. split; [exists m; auto|].
           split; [exact Nu|]. split; [exact W|]. split; [|split; [congruence|]].
           ++ intros _. right. split; [reflexivity|]. apply padded_snoc. left. reflexivity.
           ++ apply no_closed_snoc; [exact NC|]. rewrite CS. intros (_ & [K|(_ & K)]); [lia|contradiction].
      * apply (IH (pre ++ [b64_pad]) vs). split; [exact S'|]. split; [lia|]. split; [exists m; auto|].
        split; [exact Nu|]. split; [exact W|]. split; [lia|]. split; [exact P0|].
        apply no_closed_snoc; [exact NC|]. rewrite CS. intros (_ & [K|(K & _)]); lia.
    + destruct (b64_value c) as [v|] eqn:Ev.
      * apply value_sextet in Ev. pose proof (state_data _ _ _ _ _ _ _ _ St Ev) as St'.
        pose proof (IH _ _ _ _ _ _ St') as H.
        destruct (q =? 0)%N; [rewrite app_nil_r in H; exact H|].
        destruct (q =? 1)%N; [|destruct (q =? 2)%N];
          (match goal with |- context [rbind ?x _] => destruct x as [r|e] end; cbn [rbind];
           [rewrite <- (app_assoc b0) in H; exact H|exact H]).
      * apply value_none in Ev. apply (IH (pre ++ [c]) vs). apply state_other; assumption.
Qed.
Lemma incomplete_not s b : incomplete s -> ~ decodes s b.
Proof.
  intros (vs & S & N0 & NC) (p & vs' & S' & _ & [(C & (r & E) & _)|(-> & Z0 & _)]); [exact (NC _ _ E C)|].
  rewrite (sextets_fun _ _ _ S S') in N0. contradiction.
Qed.
Lemma decodes_fun s b b' : decodes s b -> decodes s b' -> b = b'.
Proof.
  intros (p & vs & S & (L & U) & C) (p' & vs' & S' & (L' & U') & C').
  assert (p = p') as <-.
  { destruct C as [(C & (r & E) & Mn)|(-> & _ & N)], C' as [(C' & (r' & E') & Mn')|(E' & _ & N')]; subst.
    - apply app_eq_app in E' as (l & [(E1 & E2)|(E1 & E2)]).
      + subst p. rewrite (Mn p' l eq_refl C'), app_nil_r. reflexivity.
      + subst p'. rewrite (Mn' p l eq_refl C), app_nil_r. reflexivity.
    - exfalso. exact (N' _ _ eq_refl C).
    - exfalso. exact (N _ _ eq_refl C').
    - reflexivity. }
  rewrite <- (sextets_fun _ _ _ S S') in *. apply be_value_inj; [lia|]. rewrite <- !unsigned_be. congruence.
Qed.
Lemma state_start : state [] [] [] 0 0 0.
Proof.
  split; [constructor|]. split; [lia|]. split; [exists 0; cbn; lia|]. split; [reflexivity|]. split; [reflexivity|].
  split; [discriminate|]. split; [reflexivity|]. intros p0 r0 E (p' & vs' & -> & _).
  destruct p'; discriminate.
Qed.
Lemma ascii_iff s : forallb (fun c => (c <? 128)%N) s = true <-> all_ascii s.
Proof.
  rewrite forallb_forall. split; intros H c I; specialize (H c I); [apply N.ltb_lt in H|apply N.ltb_lt]; exact H.
Qed.

(** ASCII text is decoded up to the padding that completes its last group, and to the whole
    octets of its 6-bit numbers. *)
Theorem C104_accepted s b : b64decode s = Ok b <-> all_ascii s /\ decodes s b.
Proof.
  unfold b64decode. rewrite <- ascii_iff. pose proof (decoder s [] [] [] 0 0 0 state_start) as D. cbn [app] in D.
  destruct (forallb _ s); [|split; [discriminate|intros (K & _); discriminate]].
  destruct (a2b_base64 s 0 0 0) as [b1|e].
  - split; [intros K; injection K as <-; auto|]. intros (_ & H). rewrite (decodes_fun _ _ _ H D). reflexivity.
  - split; [discriminate|]. intros (_ & H). exfalso. exact (incomplete_not _ _ (proj2 D) H).
Qed.
(** Everything else raises: ValueError for text that is not ASCII, otherwise binascii.Error. *)
Theorem C104_refused s e :
  b64decode s = Err e <->
  (~ all_ascii s /\ e = ValueError) \/
  (all_ascii s /\ e = BinasciiError /\ exists vs, sextets s vs /\ Z.of_nat (length vs) mod 4 <> 0 /\
   forall p r, s = p ++ r -> ~ closed p).
Proof.
  unfold b64decode. rewrite <- ascii_iff. pose proof (decoder s [] [] [] 0 0 0 state_start) as D. cbn [app] in D.
  destruct (forallb _ s).
  2: { split; [intros K; injection K as <-; left; split; [discriminate|reflexivity]|].
       intros [(_ & ->)|(K & _)]; [reflexivity|discriminate]. }
  destruct (a2b_base64 s 0 0 0) as [b1|e1].
  - split; [discriminate|]. intros [(K & _)|(_ & _ & I)]; [congruence|]. exfalso. exact (incomplete_not _ _ I D).
  - destruct D as (-> & D). split.
    + intros K; injection K as <-. right. split; [reflexivity|]. split; [reflexivity|exact D].
    + intros [(K & _)|(_ & -> & _)]; [congruence|reflexivity].
Qed.

(** So text can go unread: whatever follows complete padding is dropped without a warning. *)
Theorem C104_rest_ignored p s b :
  closed p -> b64decode p = Ok b -> all_ascii s -> b64decode (p ++ s) = Ok b.
Proof.
  intros C H A. apply C104_accepted in H as (Ap & p0 & vs & S & O & D). apply C104_accepted. split.
  - intros c I. apply in_app_or in I as [I|I]; auto.
  - exists p0, vs. split; [exact S|]. split; [exact O|]. left.
    destruct D as [(C0 & (r & ->) & Mn)|(-> & _ & N)].
    + split; [exact C0|]. split; [|exact Mn]. exists (r ++ s). rewrite app_assoc. reflexivity.
    + exfalso. exact (N p [] ltac:(rewrite app_nil_r; reflexivity) C).
Qed.
(** Missing padding is the only thing that is refused in ASCII text of the right length or not:
    with enough of it every ASCII text with a number of data characters other than one more
    than a multiple of four is accepted. *)
Theorem C104_padding_suffices s vs :
  all_ascii s -> sextets s vs -> Z.of_nat (length vs) mod 4 <> 1 -> exists b, b64decode (s ++ [pad_char; pad_char]) = Ok b.
Proof.
  intros A S N1. destruct (b64decode (s ++ [pad_char; pad_char])) as [b|e] eqn:E; [eauto|]. exfalso.
  assert (all_ascii (s ++ [pad_char; pad_char])) as A2.
  { intros c I. apply in_app_or in I as [I|[<-|[<-|[]]]]; [auto|reflexivity|reflexivity]. }
  assert (sextets (s ++ [pad_char]) vs) as S1 by (apply sextets_snoc_other; [exact S|exact pad_not_alphabet]).
  apply C104_refused in E as [(K & _)|(_ & _ & vs' & S' & N0 & NC)]; [contradiction|].
  change (s ++ [pad_char; pad_char]) with (s ++ [pad_char] ++ [pad_char]) in *. rewrite app_assoc in *.
  rewrite (sextets_fun _ _ _ S' (sextets_snoc_other _ _ _ S1 pad_not_alphabet)) in N0.
  apply (NC _ _ (eq_sym (app_nil_r _))). apply (closed_snoc _ _ _ S1). split; [reflexivity|].
  pose proof (Z.mod_pos_bound (Z.of_nat (length vs)) 4 ltac:(lia)).
  destruct (Z.eq_dec (Z.of_nat (length vs) mod 4) 3) as [K|K]; [left; exact K|right].
  split; [lia|]. apply padded_snoc. left. reflexivity.
Qed.
(** "QUI" lacks its padding; "QUI=" is two octets, and so is "Q U=I=zzz": the '=' after two
    characters is passed over, and what follows the complete group is not read. One character
    more than a multiple of four is refused. The last two bits of "QUJ=" are dropped. *)
Example C104_example :
  b64decode (str "QUI") = Err BinasciiError /\
  b64decode (str "QUI=") = Ok (map bZ [65; 66]) /\
  decodes (str "Q U=I=zzz") (map bZ [65; 66]) /\
  b64decode (str "QUJ=") = Ok (map bZ [65; 66]) /\
  b64decode (str "QUJDR===") = Err BinasciiError /\
  closed (str "QUI=") /\ b64decode [200%N] = Err ValueError.
Proof.
  split; [reflexivity|]. split; [reflexivity|]. split.
  - apply (C104_accepted (str "Q U=I=zzz")). reflexivity.
  - split; [reflexivity|]. split; [reflexivity|]. split; [|reflexivity].
    exists (str "QUI"), [16%N; 20%N; 8%N]. split; [reflexivity|]. split; [|left; reflexivity].
    repeat (apply sextets_data; [reflexivity|]). constructor.
Qed.

Print Assumptions C104_accepted.
Print Assumptions C104_refused.
Print Assumptions C104_rest_ignored.
Print Assumptions C104_padding_suffices.
