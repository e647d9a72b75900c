(** The UTF-8 codec computes exactly the relation [utf8]. *)
From Verif Require Import PyBase Stream Utf8 ProofBase SpecWire.
Open Scope N_scope.
Ltac Zify.zify_post_hook ::= Z.div_mod_to_equations.

Lemma bn_range b : bn b < 256.
Proof. unfold bn. pose proof (Byte.to_N_bounded b). lia. Qed.
Lemma bn_nb n : n < 256 -> bn (nb n) = n.
Proof.
  intros H. pose proof (Zb_bZ (Z.of_N n)) as E. unfold Zb in E. unfold bn, nb.
  rewrite Z.mod_small in E by lia. lia.
Qed.
Lemma nb_bn b : nb (bn b) = b.
Proof. unfold nb, bn. apply bZ_Zb. Qed.
Lemma bn_inj a b : bn a = bn b -> a = b.
Proof. intros H; rewrite <- (nb_bn a), <- (nb_bn b), H; reflexivity. Qed.

Lemma to_N_nb n : n < 256 -> Byte.to_N (nb n) = n.
Proof. apply bn_nb. Qed.

Lemma utf8_encode_cp_some c u : utf8_encode_cp c = Some u -> utf8_char c (map Byte.to_N u).
Proof.
  unfold utf8_encode_cp. intros H.
  destruct (N.ltb_spec c 0x80).
  { injection H as <-. cbn [map]. rewrite to_N_nb by lia. constructor; lia. }
  destruct (N.ltb_spec c 0x800).
  { injection H as <-. cbn [map]. rewrite !to_N_nb by lia.
    apply utf8_2; lia. }
  destruct (N.ltb_spec c 0x10000).
  { destruct (N.leb_spec 0xD800 c), (N.leb_spec c 0xDFFF); cbn [andb] in H; try discriminate;
      injection H as <-; cbn [map]; rewrite !to_N_nb by lia; apply utf8_3; lia. }
  destruct (N.ltb_spec c 0x110000); [|discriminate].
  injection H as <-. cbn [map]. rewrite !to_N_nb by lia. apply utf8_4; lia.
Qed.

Lemma map_to_N_inj u v : map Byte.to_N u = map Byte.to_N v -> u = v.
Proof.
  revert v; induction u as [|x u IH]; intros [|y v]; simpl; try congruence.
  intros H; injection H; intros H1 H2. f_equal; [apply bn_inj; exact H2|auto].
Qed.

Lemma utf8_char_encode c u : utf8_char c (map Byte.to_N u) -> utf8_encode_cp c = Some u.
Proof.
  intros H. remember (map Byte.to_N u) as l eqn:E. unfold utf8_encode_cp.
  assert (forall v, map Byte.to_N v = map Byte.to_N u -> Some v = Some u) as K
    by (intros v Hv; f_equal; apply map_to_N_inj; assumption).
  destruct H.
  - destruct (N.ltb_spec c 0x80); [|lia]. apply K. rewrite <- E. cbn [map]. rewrite to_N_nb by lia. reflexivity.
  - destruct (N.ltb_spec c 0x80); [lia|]. destruct (N.ltb_spec c 0x800); [|lia].
    apply K. rewrite <- E. cbn [map]. rewrite !to_N_nb by lia.
    assert (c / 64 = x) as -> by lia. assert (c mod 64 = y) as -> by lia. reflexivity.
  - destruct (N.ltb_spec c 0x80); [lia|]. destruct (N.ltb_spec c 0x800); [lia|].
    destruct (N.ltb_spec c 0x10000); [|lia].
    destruct (N.leb_spec 0xD800 c), (N.leb_spec c 0xDFFF); cbn [andb]; try lia;
      apply K; rewrite <- E; cbn [map]; rewrite !to_N_nb by lia;
      assert (c / 4096 = x) as -> by lia; assert (c / 64 mod 64 = y) as -> by lia;
      assert (c mod 64 = z) as -> by lia; reflexivity.
  - destruct (N.ltb_spec c 0x80); [lia|]. destruct (N.ltb_spec c 0x800); [lia|].
    destruct (N.ltb_spec c 0x10000); [lia|]. destruct (N.ltb_spec c 0x110000); [|lia].
    apply K; rewrite <- E; cbn [map]; rewrite !to_N_nb by lia.
    assert (c / 262144 = w) as -> by lia. assert (c / 4096 mod 64 = x) as -> by lia.
    assert (c / 64 mod 64 = y) as -> by lia. assert (c mod 64 = z) as -> by lia. reflexivity.
Qed.

Lemma utf8_encode_iff s b : utf8_encode s = Ok b <-> utf8 s b.
Proof.
  revert b; induction s as [|c s IH]; intros b; simpl.
  - split; intros H; [injection H as <-; constructor | inversion H; reflexivity].
  - split.
    + destruct (utf8_encode_cp c) as [u|] eqn:E; [|discriminate].
      intros H. apply rbind_ok in H as (r & H1 & H2). injection H2 as <-.
      constructor; [apply utf8_encode_cp_some; auto | apply IH; auto].
    + intros H. inversion H; subst.
      rewrite (utf8_char_encode c u) by assumption.
      apply rbind_ok. exists b0. split; [apply IH; assumption | reflexivity].
Qed.

Lemma utf8_encode_err s e : utf8_encode s = Err e -> e = UnicodeEncodeError.
Proof.
  induction s as [|c s IH]; simpl; [discriminate|].
  destruct (utf8_encode_cp c); [|congruence].
  destruct (utf8_encode s); simpl; [discriminate|]. intros H; injection H as <-; auto.
Qed.

Lemma utf8_char_scalar c l : utf8_char c l -> scalar c.
Proof. unfold scalar. intros H; destruct H; lia. Qed.
Lemma scalar_utf8 c : scalar c -> exists u, utf8_encode_cp c = Some u.
Proof.
  unfold scalar, utf8_encode_cp. intros [H1 H2].
  destruct (N.ltb_spec c 0x80); [eauto|].
  destruct (N.ltb_spec c 0x800); [eauto|].
  destruct (N.ltb_spec c 0x10000).
  - destruct (N.leb_spec 0xD800 c), (N.leb_spec c 0xDFFF); cbn [andb]; eauto; lia.
  - destruct (N.ltb_spec c 0x110000); [eauto|lia].
Qed.
Lemma utf8_encode_scalar s : (exists b, utf8_encode s = Ok b) <-> Forall scalar s.
Proof.
  induction s as [|c s IH]; simpl.
  - split; eauto.
  - split.
    + intros (b & H). destruct (utf8_encode_cp c) as [u|] eqn:E; [|discriminate].
      apply rbind_ok in H as (r & H1 & H2). constructor.
      * eapply utf8_char_scalar, utf8_encode_cp_some; eauto.
      * apply IH; eauto.
    + intros H. inversion H; subst. destruct (scalar_utf8 c H2) as (u & ->).
      apply IH in H3 as (b & ->). simpl. eauto.
Qed.

Lemma is_cont_spec b : is_cont b = true <-> 0x80 <= bn b < 0xC0.
Proof. unfold is_cont. lia. Qed.

(** Lists of length at most n, for the strong induction used by the decoder. *)
Lemma utf8_scan_sound n b s :
  (length b <= n)%nat -> utf8_scan b = Ok s -> utf8 s b.
Proof.
  revert b s; induction n as [|n IH]; intros b s L H.
  - destruct b; [|simpl in L; lia]. injection H as <-. constructor.
  - destruct b as [|b0 t0]; [injection H as <-; constructor|].
    cbn [utf8_scan] in H. cbn [length] in L.
    pose proof (bn_range b0).
    destruct (N.ltb_spec (bn b0) 0x80).
    { apply rbind_ok in H as (r & H1' & H2'). injection H2' as <-.
      change (b0 :: t0) with ([b0] ++ t0). constructor; [|apply IH; [lia|auto]].
      cbn [map]. constructor. assumption. }
    destruct (N.ltb_spec (bn b0) 0xC2); [discriminate|].
    destruct (N.ltb_spec (bn b0) 0xE0).
    { destruct t0 as [|b1 t1]; [discriminate|].
      destruct (is_cont b1) eqn:C1; [|discriminate]. apply is_cont_spec in C1.
      apply rbind_ok in H as (r & H1' & H2'). injection H2' as <-. cbn [length] in L.
      change (b0 :: b1 :: t1) with ([b0; b1] ++ t1). constructor; [|apply IH; [lia|auto]].
      cbn [map]. fold (bn b0). fold (bn b1).
      replace (bn b0) with (0xC0 + (bn b0 - 0xC0)) at 2 by lia.
      replace (bn b1) with (0x80 + (bn b1 - 0x80)) at 2 by lia.
      apply utf8_2; lia. }
    destruct (N.ltb_spec (bn b0) 0xF0).
    { destruct t0 as [|b1 [|b2 t2]]; try discriminate.
      match type of H with (if ?g then _ else _) = _ => destruct g eqn:G; [|discriminate] end.
      apply andb_true_iff in G as (G & G4). apply andb_true_iff in G as (G & G3).
      apply andb_true_iff in G as (G1 & G2).
      apply is_cont_spec in G1. apply is_cont_spec in G2.
      apply rbind_ok in H as (r & H1' & H2'). injection H2' as <-. cbn [length] in L.
      change (b0 :: b1 :: b2 :: t2) with ([b0; b1; b2] ++ t2). constructor; [|apply IH; [lia|auto]].
      cbn [map]. fold (bn b0). fold (bn b1). fold (bn b2).
      replace (bn b0) with (0xE0 + (bn b0 - 0xE0)) at 2 by lia.
      replace (bn b1) with (0x80 + (bn b1 - 0x80)) at 2 by lia.
      replace (bn b2) with (0x80 + (bn b2 - 0x80)) at 2 by lia.
      destruct (N.eqb_spec (bn b0) 0xE0), (N.eqb_spec (bn b0) 0xED);
        apply utf8_3; lia. }
    destruct (N.ltb_spec (bn b0) 0xF5); [|discriminate].
    destruct t0 as [|b1 [|b2 [|b3 t3]]]; try discriminate.
    match type of H with (if ?g then _ else _) = _ => destruct g eqn:G; [|discriminate] end.
    apply andb_true_iff in G as (G & G5).
    apply andb_true_iff in G as (G & G4). apply andb_true_iff in G as (G & G3).
    apply andb_true_iff in G as (G1 & G2).
    apply is_cont_spec in G1. apply is_cont_spec in G2. apply is_cont_spec in G3.
    apply rbind_ok in H as (r & H1' & H2'). injection H2' as <-. cbn [length] in L.
    change (b0 :: b1 :: b2 :: b3 :: t3) with ([b0; b1; b2; b3] ++ t3).
    constructor; [|apply IH; [lia|auto]].
    cbn [map]. fold (bn b0). fold (bn b1). fold (bn b2). fold (bn b3).
    replace (bn b0) with (0xF0 + (bn b0 - 0xF0)) at 2 by lia.
    replace (bn b1) with (0x80 + (bn b1 - 0x80)) at 2 by lia.
    replace (bn b2) with (0x80 + (bn b2 - 0x80)) at 2 by lia.
    replace (bn b3) with (0x80 + (bn b3 - 0x80)) at 2 by lia.
    destruct (N.eqb_spec (bn b0) 0xF0), (N.eqb_spec (bn b0) 0xF4);
      apply utf8_4; lia.
Qed.

Lemma utf8_scan_complete s b : utf8 s b -> utf8_scan b = Ok s.
Proof.
  induction 1 as [|c s u b H _ IH]; [reflexivity|].
  remember (map Byte.to_N u) as l eqn:E. destruct H.
  - destruct u as [|b0 [|]]; try discriminate. injection E as E0. fold (bn b0) in E0.
    cbn [app utf8_scan]. rewrite <- E0. destruct (N.ltb_spec c 0x80); [|lia].
    rewrite IH. reflexivity.
  - destruct u as [|b0 [|b1 [|]]]; try discriminate. injection E as E0 E1.
    fold (bn b0) in E0. fold (bn b1) in E1.
    cbn [app utf8_scan]. rewrite <- E0.
    destruct (N.ltb_spec (0xC0 + x) 0x80); [lia|].
    destruct (N.ltb_spec (0xC0 + x) 0xC2); [lia|].
    destruct (N.ltb_spec (0xC0 + x) 0xE0); [|lia].
    assert (is_cont b1 = true) as -> by (apply is_cont_spec; lia).
    rewrite IH. cbn [rbind]. do 2 f_equal. lia.
  - destruct u as [|b0 [|b1 [|b2 [|]]]]; try discriminate. injection E as E0 E1 E2.
    fold (bn b0) in E0. fold (bn b1) in E1. fold (bn b2) in E2.
    cbn [app utf8_scan]. rewrite <- E0.
    destruct (N.ltb_spec (0xE0 + x) 0x80); [lia|].
    destruct (N.ltb_spec (0xE0 + x) 0xC2); [lia|].
    destruct (N.ltb_spec (0xE0 + x) 0xE0); [lia|].
    destruct (N.ltb_spec (0xE0 + x) 0xF0); [|lia].
    assert (is_cont b1 = true) as -> by (apply is_cont_spec; lia).
    assert (is_cont b2 = true) as -> by (apply is_cont_spec; lia).
    rewrite IH. cbn [andb rbind]. rewrite <- E1.
    destruct (N.eqb_spec (0xE0 + x) 0xE0).
    + destruct (N.leb_spec 0xA0 (0x80 + y)); [|lia]. cbn [andb].
      destruct (N.eqb_spec (0xE0 + x) 0xED); [lia|]. do 2 f_equal. lia.
    + destruct (N.eqb_spec (0xE0 + x) 0xED).
      * destruct (N.ltb_spec (0x80 + y) 0xA0); [|lia]. cbn [andb]. do 2 f_equal. lia.
      * cbn [andb]. do 2 f_equal. lia.
  - destruct u as [|b0 [|b1 [|b2 [|b3 [|]]]]]; try discriminate. injection E as E0 E1 E2 E3.
    fold (bn b0) in E0. fold (bn b1) in E1. fold (bn b2) in E2. fold (bn b3) in E3.
    cbn [app utf8_scan]. rewrite <- E0.
    destruct (N.ltb_spec (0xF0 + w) 0x80); [lia|].
    destruct (N.ltb_spec (0xF0 + w) 0xC2); [lia|].
    destruct (N.ltb_spec (0xF0 + w) 0xE0); [lia|].
    destruct (N.ltb_spec (0xF0 + w) 0xF0); [lia|].
    destruct (N.ltb_spec (0xF0 + w) 0xF5); [|lia].
    assert (is_cont b1 = true) as -> by (apply is_cont_spec; lia).
    assert (is_cont b2 = true) as -> by (apply is_cont_spec; lia).
    assert (is_cont b3 = true) as -> by (apply is_cont_spec; lia).
    rewrite IH. cbn [andb rbind]. rewrite <- E1.
    destruct (N.eqb_spec (0xF0 + w) 0xF0).
    + destruct (N.leb_spec 0x90 (0x80 + x)); [|lia]. cbn [andb].
      destruct (N.eqb_spec (0xF0 + w) 0xF4); [lia|]. do 2 f_equal. lia.
    + destruct (N.eqb_spec (0xF0 + w) 0xF4).
      * destruct (N.ltb_spec (0x80 + x) 0x90); [|lia]. cbn [andb]. do 2 f_equal. lia.
      * cbn [andb]. do 2 f_equal. lia.
Qed.

Lemma utf8_decode_iff b s : utf8_decode b = Ok s <-> utf8 s b.
Proof.
  unfold utf8_decode. split.
  - intros H. apply (utf8_scan_sound (length b)); [lia|]. destruct (utf8_scan b); congruence.
  - intros H. rewrite (utf8_scan_complete _ _ H). reflexivity.
Qed.

Lemma utf8_decode_err b e : utf8_decode b = Err e -> e = UnicodeDecodeError b.
Proof. unfold utf8_decode. destruct (utf8_scan b); congruence. Qed.

Lemma utf8_functional s b b' : utf8 s b -> utf8 s b' -> b = b'.
Proof.
  intros H1 H2. apply utf8_encode_iff in H1. apply utf8_encode_iff in H2. congruence.
Qed.
Lemma utf8_injective s s' b : utf8 s b -> utf8 s' b -> s = s'.
Proof.
  intros H1 H2. apply utf8_decode_iff in H1. apply utf8_decode_iff in H2. congruence.
Qed.
