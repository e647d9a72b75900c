(** Proofs about the command's output. *)
From Coq Require Import Decimal DecimalFacts DecimalN DecimalZ DecimalPos.
From Verif Require Export ProofRepr.
From Verif Require Import PyBase IntBytes Stream Classes Key Crypto PrivateKeyList SpecWire SpecKey Json SpecJson.
From Verif Require Import Utf8 Text SpecText SpecCrypto SpecList ProofBase ProofUtf8 ProofWire ProofRecord ProofKey ProofText ProofList ProofRead Props_Text.
Open Scope N_scope.

(** ** The grammar is unambiguous *)
Lemma hex_value_fun c v v' : hex_value c v -> hex_value c v' -> v = v'.
Proof. unfold hex_value. lia. Qed.
Lemma hex4_fun h v v' : hex4 h v -> hex4 h v' -> v = v'.
Proof.
  intros H H'. inversion H; subst. inversion H'; subst.
  repeat match goal with A : hex_value ?c ?v, B : hex_value ?c ?v' |- _ => assert (v = v') by (eapply hex_value_fun; eassumption); subst; clear A end.
  reflexivity.
Qed.
Lemma hex4_app h v h' v' r r' : hex4 h v -> hex4 h' v' -> h ++ r = h' ++ r' -> v = v' /\ h = h' /\ r = r'.
Proof.
  intros H H' E. assert (h = h') as <-.
  { inversion H; subst. inversion H'; subst. cbn [app] in E. injection E. intros. subst. reflexivity. }
  split; [eapply hex4_fun; eassumption|]. split; [reflexivity|]. eapply app_inv_head; eassumption.
Qed.
Lemma short_fun c c' x : In (c, x) short_escapes -> In (c', x) short_escapes -> c = c' /\ x <> 117.
Proof.
  unfold short_escapes. cbn [In]. intros H H'.
  repeat (destruct H as [H|H]; [injection H as <- <-; repeat (destruct H' as [H'|H']; [injection H' as <-; try discriminate; (split; [congruence|discriminate])|]); contradiction|]).
  contradiction.
Qed.
Lemma json_char_app c x c' x' r r' : json_char c x -> json_char c' x' -> x ++ r = x' ++ r' -> c = c' /\ x = x' /\ r = r'.
Proof.
  intros H H' E.
  inversion H as [? L1 Q1 B1|? ? S1|? h1 X1 N1 M1|h1 hi1 l1 lo1 X1 Y1 X1' Y1']; subst;
  inversion H' as [? L2 Q2 B2|? ? S2|? h2 X2 N2 M2|h2 hi2 l2 lo2 X2 Y2 X2' Y2']; subst;
    cbn [app] in E; try (rewrite <- !app_assoc in E); cbn [app] in E; try (injection E; intros; subst; congruence).
  - injection E as -> ->. auto.
  - injection E as -> ->. destruct (short_fun _ _ _ S1 S2) as (-> & _). auto.
  - injection E as -> E. exfalso. destruct (short_fun _ _ _ S1 S1) as (_ & K). congruence.
  - injection E as -> E. exfalso. destruct (short_fun _ _ _ S1 S1) as (_ & K). congruence.
  - injection E as <- E. exfalso. destruct (short_fun _ _ _ S2 S2) as (_ & K). congruence.
  - injection E as E. destruct (hex4_app _ _ _ _ _ _ X1 X2 E) as (-> & -> & ->). auto.
  - injection E as E. destruct (hex4_app _ _ _ _ _ _ X1 X2 E) as (-> & _). contradiction.
  - injection E as <- E. exfalso. destruct (short_fun _ _ _ S2 S2) as (_ & K). congruence.
  - injection E as E. destruct (hex4_app _ _ _ _ _ _ X1 X2 E) as (<- & _). contradiction.
  - injection E as E. destruct (hex4_app _ _ _ _ _ _ X1 X2 E) as (<- & -> & E1). injection E1 as E1.
    destruct (hex4_app _ _ _ _ _ _ X1' X2' E1) as (<- & -> & ->). auto.
Qed.
Lemma json_char_head c x : json_char c x -> exists y x', x = y :: x' /\ y <> 34.
Proof. intros H. inversion H; subst; cbn [app]; do 2 eexists; (split; [reflexivity|]); congruence || discriminate. Qed.
Lemma json_chars_app s x s' x' r r' : json_chars s x -> json_chars s' x' -> x ++ 34 :: r = x' ++ 34 :: r' -> s = s' /\ x = x' /\ r = r'.
Proof.
  intros H; revert s' x'. induction H as [|c s x y Hc H IH]; intros s' x' H' E; inversion H' as [|c' s2 x2 y2 Hc' H2]; subst.
  - cbn [app] in E. injection E as ->. auto.
  - destruct (json_char_head _ _ Hc') as (z & z' & -> & N). cbn [app] in E. congruence.
  - destruct (json_char_head _ _ Hc) as (z & z' & -> & N). cbn [app] in E. congruence.
  - rewrite <- !app_assoc in E. destruct (json_char_app _ _ _ _ _ _ Hc Hc' E) as (-> & -> & E').
    destruct (IH _ _ H2 E') as (-> & -> & ->). auto.
Qed.
Lemma json_string_app s x s' x' r r' : json_string s x -> json_string s' x' -> x ++ r = x' ++ r' -> s = s' /\ x = x' /\ r = r'.
Proof.
  intros (y & H & ->) (y' & H' & ->) E. cbn [app] in E. injection E as E. rewrite <- !app_assoc in E. cbn [app] in E.
  destruct (json_chars_app _ _ _ _ _ _ H H' E) as (-> & -> & ->). auto.
Qed.
Definition no_digit (r : pystr) : Prop := match r with [] => True | c :: _ => ~ digit c end.
Lemma digits_app ds ds' r r' : Forall digit ds -> Forall digit ds' -> no_digit r -> no_digit r' -> ds ++ r = ds' ++ r' -> ds = ds' /\ r = r'.
Proof.
  intros D; revert ds'. induction D as [|c ds Hc D IH]; intros ds' D' N N' E; destruct D' as [|c' ds' Hc' D'].
  - auto.
  - cbn [app] in E. subst r. destruct (N Hc').
  - cbn [app] in E. subst r'. destruct (N' Hc).
  - cbn [app] in E. injection E as -> E. destruct (IH _ D' N N' E) as (-> & ->). auto.
Qed.
Lemma json_number_app z x z' x' r r' : json_number z x -> json_number z' x' -> no_digit r -> no_digit r' -> x ++ r = x' ++ r' ->
  z = z' /\ x = x' /\ r = r'.
Proof.
  intros (ds & N0 & D & _ & H) (ds' & N0' & D' & _ & H') N N' E.
  assert (forall l, Forall digit l -> l <> [] -> exists c l', l = c :: l' /\ c <> 45) as Hd.
  { intros l Hl Nl. destruct Hl as [|c l Hc Hl]; [congruence|]. exists c, l. split; [reflexivity|]. unfold digit in Hc. lia. }
  destruct H as [(-> & ->)|(-> & ->)], H' as [(-> & ->)|(-> & ->)]; cbn [app] in E.
  - destruct (digits_app _ _ _ _ D D' N N' E) as (-> & ->). auto.
  - destruct (Hd _ D N0) as (c & l & -> & K). cbn [app] in E. congruence.
  - destruct (Hd _ D' N0') as (c & l & -> & K). cbn [app] in E. congruence.
  - injection E as E. destruct (digits_app _ _ _ _ D D' N N' E) as (-> & ->). auto.
Qed.
(** The first character of a value. *)
Definition starts_value (c : N) : Prop := digit c \/ In c [110; 45; 34; 91; 123].
Lemma starts_value_neq c : starts_value c -> ~ blank c /\ c <> 93 /\ c <> 125 /\ c <> 44 /\ c <> 58.
Proof.
  unfold starts_value, digit, blank. cbn [In]. intros H.
  split; [|repeat split]; intros K; lia.
Qed.
Lemma json_value_head t x : json_value t x -> exists c x', x = c :: x' /\ starts_value c.
Proof.
  unfold starts_value. intros H. destruct H as [|z x (ds & N & D & _ & H)|s x (y & _ & ->)| | | |].
  - do 2 eexists. split; [reflexivity|]. cbn [In]. auto 10.
  - destruct H as [(_ & ->)|(_ & ->)].
    + destruct D as [|c l Hc D]; [congruence|]. exists c, l. auto.
    + exists 45, ds. cbn [In]. auto 10.
  - do 2 eexists. split; [reflexivity|]. cbn [In]. auto 10.
  - do 2 eexists. split; [reflexivity|]. cbn [In]. auto 10.
  - do 2 eexists. split; [reflexivity|]. cbn [In]. auto 10.
  - do 2 eexists. split; [reflexivity|]. cbn [In]. auto 10.
  - do 2 eexists. split; [reflexivity|]. cbn [In]. auto 10.
Qed.
Lemma blanks_app w w' c c' x x' : blanks w -> blanks w' -> ~ blank c -> ~ blank c' -> w ++ c :: x = w' ++ c' :: x' -> w = w' /\ c = c' /\ x = x'.
Proof.
  intros B; revert w'. induction B as [|b w Hb B IH]; intros w' B' N N' E; destruct B' as [|b' w' Hb' B']; cbn [app] in E.
  - injection E as -> ->. auto.
  - injection E as -> _. contradiction.
  - injection E as <- _. contradiction.
  - injection E as -> E. destruct (IH _ B' N N' E) as (-> & -> & ->). auto.
Qed.
(** What may follow an element. *)
Definition ends_element (r : pystr) : Prop := match r with [] => True | c :: _ => In c [44; 93; 125] end.
Lemma ee_comma r : ends_element (44 :: r).
Proof. cbn. auto. Qed.
Lemma ee_bracket r : ends_element (93 :: r).
Proof. cbn. auto. Qed.
Lemma ee_brace r : ends_element (125 :: r).
Proof. cbn. auto. Qed.
Lemma ends_no_digit w r : blanks w -> ends_element r -> no_digit (w ++ r).
Proof.
  intros B E. destruct B as [|b w Hb B]; cbn [app no_digit].
  - destruct r as [|c r]; [exact I|]. cbn [ends_element In no_digit] in *. unfold digit. lia.
  - unfold blank in Hb. cbn [In] in Hb. unfold digit. lia.
Qed.
Lemma blanks_end w w' r r' : blanks w -> blanks w' -> ends_element r -> ends_element r' -> w ++ r = w' ++ r' -> w = w' /\ r = r'.
Proof.
  intros B; revert w'. induction B as [|b w Hb B IH]; intros w' B' N N' E; destruct B' as [|b' w' Hb' B']; cbn [app] in E.
  - auto.
  - subst r. cbn [ends_element] in N. unfold blank in Hb'. cbn [In] in *. lia.
  - subst r'. cbn [ends_element] in N'. unfold blank in Hb. cbn [In] in *. lia.
  - injection E as -> E. destruct (IH _ B' N N' E) as (-> & ->). auto.
Qed.
Scheme jv_ind := Minimality for json_value Sort Prop
  with je_ind := Minimality for json_element Sort Prop
  with jes_ind := Minimality for json_elements Sort Prop
  with jms_ind := Minimality for json_members Sort Prop.
Combined Scheme json_mutind from jv_ind, je_ind, jes_ind, jms_ind.
(** An element list or member list starts with blanks and then something that is no bracket. *)
Lemma json_element_head t x : json_element t x -> exists w c x', x = w ++ c :: x' /\ blanks w /\ starts_value c.
Proof.
  intros H. destruct H as [t w x w' B V B']. destruct (json_value_head _ _ V) as (c & x' & -> & S).
  exists w, c, (x' ++ w'). cbn [app]. auto.
Qed.
Lemma json_elements_head l x : json_elements l x -> exists w c x', x = w ++ c :: x' /\ blanks w /\ starts_value c.
Proof.
  intros H. destruct H as [t x E|t l x y E _]; destruct (json_element_head _ _ E) as (w & c & x' & -> & B & S); exists w, c; eexists; (split; [|split; assumption]).
  - reflexivity.
  - rewrite <- app_assoc. reflexivity.
Qed.
Lemma json_members_head l x : json_members l x -> exists w x', x = w ++ 34 :: x' /\ blanks w.
Proof.
  intros H. destruct H as [n t w s w' x B (y & _ & ->) _ _|n t l w s w' x y' B (y & _ & ->) _ _ _]; exists w; eexists; (split; [|exact B]).
  - cbn [app]. reflexivity.
  - rewrite <- app_assoc. cbn [app]. reflexivity.
Qed.
Lemma json_unambiguous :
  (forall t x, json_value t x -> forall t' x' r r', json_value t' x' -> no_digit r -> no_digit r' -> x ++ r = x' ++ r' -> t = t' /\ x = x' /\ r = r') /\
  (forall t x, json_element t x -> forall t' x' r r', json_element t' x' -> ends_element r -> ends_element r' -> x ++ r = x' ++ r' -> t = t' /\ x = x' /\ r = r') /\
  (forall l x, json_elements l x -> forall l' x' r r', json_elements l' x' -> x ++ 93 :: r = x' ++ 93 :: r' -> l = l' /\ x = x' /\ r = r') /\
  (forall l x, json_members l x -> forall l' x' r r', json_members l' x' -> x ++ 125 :: r = x' ++ 125 :: r' -> l = l' /\ x = x' /\ r = r').
Proof.
  apply json_mutind.
  - intros t' x' r r' H' N N' E. change (str "null") with [110; 117; 108; 108] in *.
    inversion H' as [|z x1 K|s x1 K|w K|l x1 K|w K|l x1 K]; subst.
    + change (str "null") with [110; 117; 108; 108] in *. cbn [app] in E. injection E as ->. auto.
    + destruct K as (ds & N0 & D & _ & [(_ & ->)|(_ & ->)]).
      * destruct D as [|c l Hc D]; [congruence|]. cbn [app] in E. injection E as <- _. unfold digit in Hc. lia.
      * discriminate E.
    + destruct K as (y & _ & ->). discriminate E.
    + discriminate E.
    + discriminate E.
    + discriminate E.
    + discriminate E.
  - intros z x K t' x' r r' H' N N' E. assert (exists c x1, x = c :: x1 /\ (digit c \/ c = 45)) as (c & x1 & -> & Hc).
    { destruct K as (ds & N0 & D & _ & [(_ & ->)|(_ & ->)]).
      - destruct D as [|c l Hc D]; [congruence|]. eauto.
      - eauto. }
    inversion H' as [|z' x2 K'|s x2 K'|w K'|l x2 K'|w K'|l x2 K']; subst; unfold digit in Hc.
    + injection E as -> _. lia.
    + destruct (json_number_app _ _ _ _ _ _ K K' N N' E) as (-> & -> & ->). auto.
    + destruct K' as (y & _ & ->). injection E as -> _. lia.
    + injection E as -> _. lia.
    + injection E as -> _. lia.
    + injection E as -> _. lia.
    + injection E as -> _. lia.
  - intros s x K t' x' r r' H' N N' E. pose proof K as K0. destruct K0 as (y & _ & Ex).
    inversion H' as [|z' x2 K'|s' x2 K'|w K'|l x2 K'|w K'|l x2 K']; subst t' x'.
    + subst x. discriminate E.
    + subst x. destruct K' as (ds & N0 & D & _ & [(_ & ->)|(_ & ->)]); [|discriminate E].
      destruct D as [|c l Hc D]; [congruence|]. cbn [app] in E. injection E as <- _. unfold digit in Hc. lia.
    + destruct (json_string_app _ _ _ _ _ _ K K' E) as (-> & -> & ->). auto.
    + subst x. discriminate E.
    + subst x. discriminate E.
    + subst x. discriminate E.
    + subst x. discriminate E.
  - intros w B t' x' r r' H' N N' E. change (str "[") with [91] in *. change (str "]") with [93] in *.
    inversion H' as [|z' x2 K'|s' x2 K'|w' K'|l x2 K'|w' K'|l x2 K']; subst t' x'.
    + discriminate E.
    + destruct K' as (ds & N0 & D & _ & [(_ & ->)|(_ & ->)]); [|discriminate E].
      destruct D as [|c l Hc D]; [congruence|]. cbn [app] in E. injection E as <- _. unfold digit in Hc. lia.
    + destruct K' as (y & _ & ->). discriminate E.
    + change (str "[") with [91] in *. change (str "]") with [93] in *. cbn [app] in E. injection E as E. rewrite <- !app_assoc in E. cbn [app] in E.
      apply blanks_app in E as (-> & _ & ->); try assumption; try (unfold blank; cbn [In]; lia). auto.
    + change (str "[") with [91] in *. change (str "]") with [93] in *. cbn [app] in E. injection E as E. rewrite <- !app_assoc in E. cbn [app] in E.
      destruct (json_elements_head _ _ K') as (w' & c & x' & -> & B' & S). destruct (starts_value_neq _ S) as (Nb & Nc & _).
      rewrite <- app_assoc in E. cbn [app] in E. apply blanks_app in E as (_ & K & _); try assumption; try congruence; try (unfold blank; cbn [In]; lia).
    + discriminate E.
    + discriminate E.
  - intros l x K IH t' x' r r' H' N N' E. change (str "[") with [91] in *. change (str "]") with [93] in *.
    inversion H' as [|z' x2 K'|s' x2 K'|w' K'|l' x2 K'|w' K'|l' x2 K']; subst t' x'.
    + discriminate E.
    + destruct K' as (ds & N0 & D & _ & [(_ & ->)|(_ & ->)]); [|discriminate E].
      destruct D as [|c l' Hc D]; [congruence|]. cbn [app] in E. injection E as <- _. unfold digit in Hc. lia.
    + destruct K' as (y & _ & ->). discriminate E.
    + change (str "[") with [91] in *. change (str "]") with [93] in *. cbn [app] in E. injection E as E. rewrite <- !app_assoc in E. cbn [app] in E.
      destruct (json_elements_head _ _ K) as (w & c & x' & -> & B' & S). destruct (starts_value_neq _ S) as (Nb & Nc & _).
      rewrite <- app_assoc in E. cbn [app] in E. apply blanks_app in E as (_ & K1 & _); try assumption; try congruence; try (unfold blank; cbn [In]; lia).
    + change (str "[") with [91] in *. change (str "]") with [93] in *. cbn [app] in E. injection E as E. rewrite <- !app_assoc in E. cbn [app] in E.
      destruct (IH _ _ _ _ K' E) as (-> & -> & ->). auto.
    + discriminate E.
    + discriminate E.
  - intros w B t' x' r r' H' N N' E. change (str "{") with [123] in *. change (str "}") with [125] in *.
    inversion H' as [|z' x2 K'|s' x2 K'|w' K'|l x2 K'|w' K'|l x2 K']; subst t' x'.
    + discriminate E.
    + destruct K' as (ds & N0 & D & _ & [(_ & ->)|(_ & ->)]); [|discriminate E].
      destruct D as [|c l Hc D]; [congruence|]. cbn [app] in E. injection E as <- _. unfold digit in Hc. lia.
    + destruct K' as (y & _ & ->). discriminate E.
    + discriminate E.
    + discriminate E.
    + change (str "{") with [123] in *. change (str "}") with [125] in *. cbn [app] in E. injection E as E. rewrite <- !app_assoc in E. cbn [app] in E.
      apply blanks_app in E as (-> & _ & ->); try assumption; try (unfold blank; cbn [In]; lia). auto.
    + change (str "{") with [123] in *. change (str "}") with [125] in *. cbn [app] in E. injection E as E. rewrite <- !app_assoc in E. cbn [app] in E.
      destruct (json_members_head _ _ K') as (w' & x' & -> & B').
      rewrite <- app_assoc in E. cbn [app] in E. apply blanks_app in E as (_ & K & _); try assumption; try congruence; try (unfold blank; cbn [In]; lia).
  - intros l x K IH t' x' r r' H' N N' E. change (str "{") with [123] in *. change (str "}") with [125] in *.
    inversion H' as [|z' x2 K'|s' x2 K'|w' K'|l' x2 K'|w' K'|l' x2 K']; subst t' x'.
    + discriminate E.
    + destruct K' as (ds & N0 & D & _ & [(_ & ->)|(_ & ->)]); [|discriminate E].
      destruct D as [|c l' Hc D]; [congruence|]. cbn [app] in E. injection E as <- _. unfold digit in Hc. lia.
    + destruct K' as (y & _ & ->). discriminate E.
    + discriminate E.
    + discriminate E.
    + change (str "{") with [123] in *. change (str "}") with [125] in *. cbn [app] in E. injection E as E. rewrite <- !app_assoc in E. cbn [app] in E.
      destruct (json_members_head _ _ K) as (w & x' & -> & B').
      rewrite <- app_assoc in E. cbn [app] in E. apply blanks_app in E as (_ & K1 & _); try assumption; try congruence; try (unfold blank; cbn [In]; lia).
    + change (str "{") with [123] in *. change (str "}") with [125] in *. cbn [app] in E. injection E as E. rewrite <- !app_assoc in E. cbn [app] in E.
      destruct (IH _ _ _ _ K' E) as (-> & -> & ->). auto.
  - intros t w x w' B V IH B' t' x' r r' H' N N' E. destruct H' as [t' w1 x1 w1' B1 V1 B1'].
    destruct (json_value_head _ _ V) as (c & y & -> & S). destruct (json_value_head _ _ V1) as (c1 & y1 & -> & S1).
    rewrite <- !app_assoc in E. cbn [app] in E.
    destruct (blanks_app _ _ _ _ _ _ B B1 (proj1 (starts_value_neq _ S)) (proj1 (starts_value_neq _ S1)) E) as (-> & -> & E1).
    assert ((c1 :: y) ++ (w' ++ r) = (c1 :: y1) ++ (w1' ++ r')) as E2 by (cbn [app]; f_equal; exact E1).
    destruct (IH _ _ _ _ V1 (ends_no_digit _ _ B' N) (ends_no_digit _ _ B1' N') E2) as (-> & E3 & E4).
    injection E3 as ->. destruct (blanks_end _ _ _ _ B' B1' N N' E4) as (-> & ->). auto.
  - intros t x K IH l' x' r r' H' E. inversion H' as [t1 x1 K1|t1 l1 x1 y1 K1 L1]; subst l' x'.
    + destruct (IH _ _ _ _ K1 (ee_bracket _) (ee_bracket _) E) as (-> & -> & E'). injection E' as ->. auto.
    + change (str ",") with [44] in E. rewrite <- !app_assoc in E. cbn [app] in E.
      destruct (IH _ _ _ _ K1 (ee_bracket _) (ee_comma _) E) as (_ & _ & E'). discriminate E'.
  - intros t l x y K IH L IHL l' x' r r' H' E. change (str ",") with [44] in *. rewrite <- !app_assoc in E. cbn [app] in E.
    inversion H' as [t1 x1 K1|t1 l1 x1 y1 K1 L1]; subst l' x'.
    + destruct (IH _ _ _ _ K1 (ee_comma _) (ee_bracket _) E) as (_ & _ & E'). discriminate E'.
    + change (str ",") with [44] in *. rewrite <- !app_assoc in E. cbn [app] in E.
      destruct (IH _ _ _ _ K1 (ee_comma _) (ee_comma _) E) as (-> & -> & E'). injection E' as E'.
      destruct (IHL _ _ _ _ L1 E') as (-> & -> & ->). auto.
  - intros n t w s w' x B Hs B' K IH l' x' r r' H' E. change (str ":") with [58] in *. pose proof Hs as (ys & _ & Es).
    inversion H' as [n1 t1 w1 s1 w1' x1 B1 Hs1 B1' K1|n1 t1 l1 w1 s1 w1' x1 y1 B1 Hs1 B1' K1 L1]; subst l' x'; pose proof Hs1 as (ys1 & _ & Es1);
      change (str ":") with [58] in *; try change (str ",") with [44] in *; rewrite <- !app_assoc in E; cbn [app] in E.
    + assert (s ++ w' ++ 58 :: x ++ 125 :: r = s1 ++ w1' ++ 58 :: x1 ++ 125 :: r' /\ w = w1) as (E1 & ->).
      { rewrite Es, Es1 in E |- *. cbn [app] in E |- *. apply blanks_app in E as (-> & _ & E); try assumption; try (unfold blank; cbn [In]; lia). split; [f_equal; exact E|reflexivity]. }
      destruct (json_string_app _ _ _ _ _ _ Hs Hs1 E1) as (-> & -> & E2).
      apply blanks_app in E2 as (-> & _ & E2); try assumption; try (unfold blank; cbn [In]; lia).
      destruct (IH _ _ _ _ K1 (ee_brace _) (ee_brace _) E2) as (-> & -> & E3). injection E3 as ->. auto.
    + assert (s ++ w' ++ 58 :: x ++ 125 :: r = s1 ++ w1' ++ 58 :: x1 ++ 44 :: y1 ++ 125 :: r' /\ w = w1) as (E1 & ->).
      { rewrite Es, Es1 in E |- *. cbn [app] in E |- *. apply blanks_app in E as (-> & _ & E); try assumption; try (unfold blank; cbn [In]; lia). split; [f_equal; exact E|reflexivity]. }
      destruct (json_string_app _ _ _ _ _ _ Hs Hs1 E1) as (-> & -> & E2).
      apply blanks_app in E2 as (-> & _ & E2); try assumption; try (unfold blank; cbn [In]; lia).
      destruct (IH _ _ _ _ K1 (ee_brace _) (ee_comma _) E2) as (_ & _ & E3). discriminate E3.
  - intros n t l w s w' x y B Hs B' K IH L IHL l' x' r r' H' E. change (str ":") with [58] in *. change (str ",") with [44] in *. pose proof Hs as (ys & _ & Es).
    inversion H' as [n1 t1 w1 s1 w1' x1 B1 Hs1 B1' K1|n1 t1 l1 w1 s1 w1' x1 y1 B1 Hs1 B1' K1 L1]; subst l' x'; pose proof Hs1 as (ys1 & _ & Es1);
      change (str ":") with [58] in *; try change (str ",") with [44] in *; rewrite <- !app_assoc in E; cbn [app] in E.
    + assert (s ++ w' ++ 58 :: x ++ 44 :: y ++ 125 :: r = s1 ++ w1' ++ 58 :: x1 ++ 125 :: r' /\ w = w1) as (E1 & ->).
      { rewrite Es, Es1 in E |- *. cbn [app] in E |- *. apply blanks_app in E as (-> & _ & E); try assumption; try (unfold blank; cbn [In]; lia). split; [f_equal; exact E|reflexivity]. }
      destruct (json_string_app _ _ _ _ _ _ Hs Hs1 E1) as (-> & -> & E2).
      apply blanks_app in E2 as (-> & _ & E2); try assumption; try (unfold blank; cbn [In]; lia).
      destruct (IH _ _ _ _ K1 (ee_comma _) (ee_brace _) E2) as (_ & _ & E3). discriminate E3.
    + assert (s ++ w' ++ 58 :: x ++ 44 :: y ++ 125 :: r = s1 ++ w1' ++ 58 :: x1 ++ 44 :: y1 ++ 125 :: r' /\ w = w1) as (E1 & ->).
      { rewrite Es, Es1 in E |- *. cbn [app] in E |- *. apply blanks_app in E as (-> & _ & E); try assumption; try (unfold blank; cbn [In]; lia). split; [f_equal; exact E|reflexivity]. }
      destruct (json_string_app _ _ _ _ _ _ Hs Hs1 E1) as (-> & -> & E2).
      apply blanks_app in E2 as (-> & _ & E2); try assumption; try (unfold blank; cbn [In]; lia).
      destruct (IH _ _ _ _ K1 (ee_comma _) (ee_comma _) E2) as (-> & -> & E3). injection E3 as E3.
      destruct (IHL _ _ _ _ L1 E3) as (-> & -> & ->). auto.
Qed.

Lemma json_text_unique t t' x : json_element t x -> json_element t' x -> t = t'.
Proof.
  intros H H'. destruct json_unambiguous as (_ & U & _). assert (x ++ [] = x ++ []) as E by reflexivity.
  exact (proj1 (U _ _ H _ _ [] [] H' I I E)).
Qed.

(** ** The encoder *)
Lemma hex_digit_value n : n < 16 -> hex_value (hex_digit n) n.
Proof. intros H. unfold hex_digit, hex_value. destruct (N.ltb_spec n 10); lia. Qed.
Lemma u_escape_hex n : n < 0x10000 -> exists h, u_escape n = 92 :: 117 :: h /\ hex4 h n.
Proof.
  intros H. eexists. split; [reflexivity|].
  pose proof (N.div_mod n 16 ltac:(lia)) as A. pose proof (N.div_mod (n / 16) 16 ltac:(lia)) as B. pose proof (N.div_mod (n / 256) 16 ltac:(lia)) as C.
  rewrite N.div_div in B by lia. rewrite N.div_div in C by lia. change (16 * 16) with 256 in B. change (256 * 16) with 4096 in C.
  pose proof (N.mod_lt n 16 ltac:(lia)). pose proof (N.mod_lt (n / 16) 16 ltac:(lia)). pose proof (N.mod_lt (n / 256) 16 ltac:(lia)).
  assert (n / 4096 < 16) by (apply N.div_lt_upper_bound; lia).
  replace n with (n / 4096 * 4096 + n / 256 mod 16 * 256 + n / 16 mod 16 * 16 + n mod 16) at 5 by lia.
  constructor; apply hex_digit_value; assumption.
Qed.
Lemma escape_char_ok c : scalar c -> json_char c (escape_char c).
Proof.
  intros (Hc & Ns). unfold escape_char.
  repeat match goal with |- context [if ?a =? ?b then _ else _] => destruct (N.eqb_spec a b); [subst; apply jc_short; cbn; tauto|] end.
  destruct ((32 <=? c) && (c <=? 126)) eqn:E.
  - apply andb_true_iff in E as (E1 & E2). apply N.leb_le in E1, E2. constructor; assumption.
  - destruct (N.ltb_spec c 0x10000).
    + destruct (u_escape_hex c) as (h & -> & Hh); [assumption|]. constructor; [exact Hh| |]; unfold high_surrogate, low_surrogate; lia.
    + set (m := c - 0x10000) in *. assert (m / 1024 < 1024) by (apply N.div_lt_upper_bound; lia).
      pose proof (N.mod_lt m 1024 ltac:(lia)). pose proof (N.div_mod m 1024 ltac:(lia)).
      destruct (u_escape_hex (0xD800 + m / 1024)) as (h & -> & Hh); [lia|].
      destruct (u_escape_hex (0xDC00 + m mod 1024)) as (h' & -> & Hh'); [lia|].
      replace c with (0x10000 + (0xD800 + m / 1024 - 0xD800) * 1024 + (0xDC00 + m mod 1024 - 0xDC00)) by lia.
      constructor; [exact Hh| |exact Hh'|]; unfold high_surrogate, low_surrogate; lia.
Qed.
Lemma encode_str_ok s : Forall scalar s -> json_string s (encode_str s).
Proof.
  intros H. exists (flat_map escape_char s). split; [|reflexivity].
  induction H as [|c s Hc H IH]; cbn [flat_map]; constructor; [apply escape_char_ok; exact Hc|exact IH].
Qed.
Lemma int_repr_ok z : json_number z (int_repr z).
Proof.
  destruct (int_repr_text z) as (ds & A & B & C & D). exists ds. repeat (split; [assumption|]). tauto.
Qed.
Section Json_ind.
Variable P : json -> Prop.
Hypothesis Hnull : P JNull.
Hypothesis Hint : forall z, P (JInt z).
Hypothesis Hstr : forall s, P (JStr s).
Hypothesis Harr : forall l, Forall P l -> P (JArr l).
Hypothesis Hobj : forall l, Forall (fun m => P (snd m)) l -> P (JObj l).
Fixpoint json_nested_ind (t : json) : P t :=
  match t return P t with
  | JNull => Hnull
  | JInt z => Hint z
  | JStr s => Hstr s
  | JArr l => Harr l ((fix go l := match l return Forall P l with [] => Forall_nil _ | t :: l' => Forall_cons _ (json_nested_ind t) (go l') end) l)
  | JObj l => Hobj l ((fix go l := match l return Forall (fun m => P (snd m)) l with [] => Forall_nil _ | m :: l' => Forall_cons _ (json_nested_ind (snd m)) (go l') end) l)
  end.
End Json_ind.
(** All strings in a value are made of Unicode scalar values. *)
Fixpoint scalar_json (t : json) : Prop :=
  match t with
  | JNull | JInt _ => True
  | JStr s => Forall scalar s
  | JArr l => (fix go l := match l with [] => True | t :: l' => scalar_json t /\ go l' end) l
  | JObj l => (fix go l := match l with [] => True | m :: l' => (Forall scalar (fst m) /\ scalar_json (snd m)) /\ go l' end) l
  end.
Lemma scalar_arr l : scalar_json (JArr l) <-> Forall scalar_json l.
Proof.
  cbn [scalar_json]. induction l as [|t l IH]; [split; constructor|]. rewrite Forall_cons_iff, IH. reflexivity.
Qed.
Lemma scalar_obj l : scalar_json (JObj l) <-> Forall (fun m => Forall scalar (fst m) /\ scalar_json (snd m)) l.
Proof.
  cbn [scalar_json]. induction l as [|t l IH]; [split; constructor|]. rewrite Forall_cons_iff, IH. reflexivity.
Qed.
Lemma blanks_newline n : blanks (newline_indent n).
Proof.
  unfold newline_indent. constructor; [cbn; auto|]. apply Forall_forall. intros c H. apply repeat_spec in H as ->. cbn. auto.
Qed.
Lemma elements_joined (f : json -> pystr) w w' l : blanks w -> blanks w' -> l <> [] -> Forall (fun t => json_value t (f t)) l ->
  json_elements l (w ++ joined (str "," ++ w) (map f l) ++ w').
Proof.
  intros B B' N F. induction F as [|t l Ht F IH]; [congruence|]. destruct l as [|t2 l].
  - cbn [map joined]. constructor. constructor; assumption.
  - assert (json_elements (t :: t2 :: l) ((w ++ f t ++ []) ++ str "," ++ (w ++ joined (str "," ++ w) (map f (t2 :: l)) ++ w'))) as G.
    { apply jes_more; [|apply IH; discriminate]. constructor; [exact B|exact Ht|constructor]. }
    rewrite app_nil_r in G. change (joined (str "," ++ w) (map f (t :: t2 :: l))) with (f t ++ (str "," ++ w) ++ joined (str "," ++ w) (map f (t2 :: l))).
    rewrite <- !app_assoc in *. exact G.
Qed.
Lemma members_joined (f : json -> pystr) w w' l : blanks w -> blanks w' -> l <> [] ->
  Forall (fun m => Forall scalar (fst m) /\ json_value (snd m) (f (snd m))) l ->
  json_members l (w ++ joined (str "," ++ w) (map (fun kv => encode_str (fst kv) ++ str ": " ++ f (snd kv)) l) ++ w').
Proof.
  intros B B' N F. change (str ": ") with (str ":" ++ [32]).
  assert (blanks [32]) as B1 by (repeat constructor).
  induction F as [|(k, t) l (Hk & Ht) F IH]; [congruence|]. cbn [fst snd] in Hk, Ht. destruct l as [|t2 l].
  - cbn [map joined fst snd]. assert (json_members [(k, t)] (w ++ encode_str k ++ [] ++ str ":" ++ ([32] ++ f t ++ w'))) as G.
    { apply jms_one; [exact B|apply encode_str_ok; exact Hk|constructor|constructor; assumption]. }
    cbn [app] in G. rewrite <- !app_assoc. exact G.
  - match type of IH with ?a -> json_members _ ?x => assert (json_members ((k, t) :: t2 :: l) ((w ++ encode_str k ++ [] ++ str ":" ++ ([32] ++ f t ++ [])) ++ str "," ++ x)) as G end.
    { apply jms_more; [exact B|apply encode_str_ok; exact Hk|constructor|constructor; [exact B1|assumption|constructor]|]. apply IH. discriminate. }
    rewrite app_nil_r in G. cbn [app] in G. cbn [map joined fst snd] in G |- *. rewrite <- !app_assoc in *. exact G.
Qed.
Lemma arr_parts l a b c : json_elements l (a ++ b ++ c) -> json_value (JArr l) (str "[" ++ a ++ b ++ c ++ str "]").
Proof. intros H. rewrite !app_assoc. rewrite <- !(app_assoc (str "[")). apply jv_arr. rewrite <- app_assoc. exact H. Qed.
Lemma obj_parts l a b c : json_members l (a ++ b ++ c) -> json_value (JObj l) (str "{" ++ a ++ b ++ c ++ str "}").
Proof. intros H. rewrite !app_assoc. rewrite <- !(app_assoc (str "{")). apply jv_obj. rewrite <- app_assoc. exact H. Qed.
Lemma encode_ok t n : scalar_json t -> json_value t (encode n t).
Proof.
  revert n. induction t as [|z|s|l IH|l IH] using json_nested_ind; intros n S.
  - constructor.
  - constructor. apply int_repr_ok.
  - constructor. apply encode_str_ok. exact S.
  - apply scalar_arr in S. destruct l as [|t0 l].
    + apply (jv_arr0 []). constructor.
    + change (encode n (JArr (t0 :: l))) with (str "[" ++ newline_indent (Datatypes.S n) ++
        joined (str "," ++ newline_indent (Datatypes.S n)) (map (encode (Datatypes.S n)) (t0 :: l)) ++ newline_indent n ++ str "]").
      apply arr_parts.
      apply elements_joined; try apply blanks_newline; [discriminate|]. rewrite Forall_forall in IH, S |- *. intros t Ht. apply IH; auto.
  - apply scalar_obj in S. destruct l as [|t0 l].
    + apply (jv_obj0 []). constructor.
    + change (encode n (JObj (t0 :: l))) with (str "{" ++ newline_indent (Datatypes.S n) ++
        joined (str "," ++ newline_indent (Datatypes.S n)) (map (fun kv => encode_str (fst kv) ++ str ": " ++ encode (Datatypes.S n) (snd kv)) (t0 :: l)) ++ newline_indent n ++ str "}").
      apply obj_parts.
      apply members_joined; try apply blanks_newline; [discriminate|]. rewrite Forall_forall in IH, S |- *. intros t Ht. destruct (S _ Ht). split; [assumption|]. apply IH; auto.
Qed.


Ltac fa := repeat first [apply Forall_nil | apply Forall_cons].
Lemma shown_escape c : scalar c -> Forall shown (escape_char c).
Proof.
  intros (Hc & _). unfold escape_char.
  assert (forall n, n < 0x10000 -> Forall shown (u_escape n)) as U.
  { intros n Hn. assert (forall m, m < 16 -> shown (hex_digit m)) as Hd by (intros m Hm; unfold shown, hex_digit; destruct (N.ltb_spec m 10); lia).
    unfold u_escape. fa; try (unfold shown; lia); apply Hd; try (apply N.mod_lt; lia). apply N.div_lt_upper_bound; lia. }
  repeat match goal with |- context [if ?a =? ?b then _ else _] => destruct (N.eqb_spec a b); [fa; unfold shown; lia|] end.
  destruct ((32 <=? c) && (c <=? 126)) eqn:E.
  - apply andb_true_iff in E as (E1 & E2). apply N.leb_le in E1, E2. fa; unfold shown; lia.
  - destruct (N.ltb_spec c 0x10000); [apply U; assumption|]. apply Forall_app. split; apply U.
    + assert ((c - 0x10000) / 1024 < 1024) by (apply N.div_lt_upper_bound; lia). lia.
    + pose proof (N.mod_lt (c - 0x10000) 1024 ltac:(lia)). lia.
Qed.
Lemma shown_str s : Forall scalar s -> Forall shown (encode_str s).
Proof.
  intros H. unfold encode_str. repeat (apply Forall_app; split); try (fa; unfold shown; lia).
  induction H as [|c s Hc H IH]; cbn [flat_map]; [constructor|]. apply Forall_app. split; [apply shown_escape; exact Hc|exact IH].
Qed.
Lemma shown_newline n : Forall shown (newline_indent n).
Proof.
  unfold newline_indent. constructor; [right; reflexivity|]. apply Forall_forall. intros c H. apply repeat_spec in H as ->. left; lia.
Qed.
Lemma shown_joined sep l : Forall shown sep -> Forall (Forall shown) l -> Forall shown (joined sep l).
Proof.
  intros S F. induction F as [|x l Hx F IH]; [constructor|]. destruct l as [|y l]; [exact Hx|].
  change (joined sep (x :: y :: l)) with (x ++ sep ++ joined sep (y :: l)). repeat (apply Forall_app; split); assumption.
Qed.
Lemma shown_encode t n : scalar_json t -> Forall shown (encode n t).
Proof.
  revert n. induction t as [|z|s|l IH|l IH] using json_nested_ind; intros n S.
  - fa; unfold shown; cbn; lia.
  - cbn [encode]. unfold int_repr. assert (forall u, Forall shown (uint_digits u)) as D.
    { intros u. eapply Forall_impl; [|apply uint_digits_digit]. unfold digit, shown. intros; lia. }
    destruct (Z.to_int z); [apply D|]. constructor; [unfold shown; lia|apply D].
  - apply shown_str. exact S.
  - apply scalar_arr in S. destruct l as [|t0 l]; [fa; unfold shown; cbn; lia|].
    change (encode n (JArr (t0 :: l))) with (str "[" ++ newline_indent (Datatypes.S n) ++
        joined (str "," ++ newline_indent (Datatypes.S n)) (map (encode (Datatypes.S n)) (t0 :: l)) ++ newline_indent n ++ str "]").
    repeat (apply Forall_app; split); try apply shown_newline; try (fa; unfold shown; cbn; lia).
    apply shown_joined; [apply Forall_app; split; [fa; unfold shown; cbn; lia|apply shown_newline]|].
    rewrite Forall_map. rewrite Forall_forall in *. intros t Ht. apply IH; auto.
  - apply scalar_obj in S. destruct l as [|t0 l]; [fa; unfold shown; cbn; lia|].
    change (encode n (JObj (t0 :: l))) with (str "{" ++ newline_indent (Datatypes.S n) ++
        joined (str "," ++ newline_indent (Datatypes.S n)) (map (fun kv => encode_str (fst kv) ++ str ": " ++ encode (Datatypes.S n) (snd kv)) (t0 :: l)) ++ newline_indent n ++ str "}").
    repeat (apply Forall_app; split); try apply shown_newline; try (fa; unfold shown; cbn; lia).
    apply shown_joined; [apply Forall_app; split; [fa; unfold shown; cbn; lia|apply shown_newline]|].
    rewrite Forall_map. rewrite Forall_forall in *. intros t Ht. destruct (S _ Ht) as (S1 & S2).
    apply Forall_app; split; [apply shown_str; exact S1|]. apply Forall_app; split; [fa; unfold shown; cbn; lia|apply IH; auto].
Qed.

(** ** Bytes literals *)
Lemma lower_hex_value c v : lower_hex c v -> hex_value c v.
Proof. unfold lower_hex, hex_value. tauto. Qed.
Lemma literal_byte_app q x y x' y' r r' : q = 39 \/ q = 34 -> literal_byte q x y -> literal_byte q x' y' -> y ++ r = y' ++ r' -> x = x' /\ r = r'.
Proof.
  intros Q H H' E.
  assert (forall a b, Byte.to_N a = Byte.to_N b -> a = b) as Inj.
  { intros a b K. rewrite <- (nb_octet a), <- (nb_octet b), K. reflexivity. }
  destruct H as [x L1 L2 L3|x C|x e S|x a b va vb Hr Hn Ha Hb Ev]; destruct H' as [x' L1' L2' L3'|x' C'|x' e' S'|x' a' b' va' vb' Hr' Hn' Ha' Hb' Ev'];
    cbn [app] in E; injection E; intros; subst; try congruence; try (split; [apply Inj; congruence|congruence]).
  - cbn [In] in S'. exfalso. destruct S' as [S'|[S'|[S'|[]]]]; injection S' as S1 S2; destruct C as [C|C]; destruct Q; lia.
  - exfalso. destruct C as [C|C]; destruct Q; lia.
  - cbn [In] in S. exfalso. destruct S as [S'|[S'|[S'|[]]]]; injection S' as S1 S2; destruct C' as [C|C]; destruct Q; lia.
  - split; [|reflexivity]. apply Inj. cbn [In] in S, S'.
    destruct S as [S|[S|[S|[]]]]; injection S as S1 S2; destruct S' as [S'|[S'|[S'|[]]]]; injection S' as S1' S2'; congruence.
  - cbn [In] in S. exfalso. destruct S as [S'|[S'|[S'|[]]]]; injection S' as S1 S2; lia.
  - exfalso. destruct C' as [C|C]; destruct Q; lia.
  - cbn [In] in S'. exfalso. destruct S' as [S1'|[S1'|[S1'|[]]]]; injection S1' as S1 S2; lia.
  - split; [|reflexivity]. apply Inj. rewrite Ev, Ev'. apply lower_hex_value in Ha, Hb, Ha', Hb'. assert (va = va') as -> by (eapply hex_value_fun; eassumption).
    assert (vb = vb') as -> by (eapply hex_value_fun; eassumption). reflexivity.
Qed.
Lemma literal_byte_head q x y : q = 39 \/ q = 34 -> literal_byte q x y -> exists c y', y = c :: y' /\ c <> q.
Proof. intros Q H. destruct H; do 2 eexists; (split; [reflexivity|]); try congruence; destruct Q; subst; discriminate. Qed.
Lemma bytes_literal_fun b b' s : bytes_literal b s -> bytes_literal b' s -> b = b'.
Proof.
  intros (q & xs & Q & F & ->) (q' & xs' & Q' & F' & E). cbn [app] in E. injection E as <- E.
  apply quoted_cases in Q. clear Q'. revert b' xs' F' E. induction F as [|x y b xs Hx F IH]; intros b' xs' F' E; destruct F' as [|x' y' b' xs' Hx' F']; cbn [concat app] in E.
  - reflexivity.
  - destruct (literal_byte_head _ _ _ Q Hx') as (c & z & -> & Nc). cbn [app] in E. congruence.
  - destruct (literal_byte_head _ _ _ Q Hx) as (c & z & -> & Nc). cbn [app] in E. congruence.
  - rewrite <- !app_assoc in E. destruct (literal_byte_app _ _ _ _ _ _ _ Q Hx Hx' E) as (-> & E'). f_equal. eapply IH; eassumption.
Qed.
Lemma bytes_repr_scalar b : Forall scalar (bytes_repr b).
Proof.
  assert (forall q x, q = 39 \/ q = 34 -> Forall (fun c => c < 128) (repr_byte q x)) as R.
  { intros q x Q. assert (Byte.to_N x < 256) as L by (pose proof (Byte.to_N_bounded x); lia).
    assert (forall m, m < 16 -> hex_digit m < 128) as Hd by (intros m Hm; unfold hex_digit; destruct (N.ltb_spec m 10); lia).
    unfold repr_byte. destruct ((_ =? q) || _) eqn:E1.
    - fa; [lia|]. apply orb_true_iff in E1 as [E1|E1]; apply N.eqb_eq in E1; destruct Q; lia.
    - destruct (_ =? 9); [repeat constructor|]. destruct (_ =? 10); [repeat constructor|]. destruct (_ =? 13); [repeat constructor|].
      destruct ((_ <? 32) || _) eqn:E2.
      + fa; try lia; apply Hd; [apply N.div_lt_upper_bound; lia|apply N.mod_lt; lia].
      + apply orb_false_iff in E2 as (_ & E2). apply N.leb_gt in E2. fa. lia. }
  assert (Forall (fun c => c < 128) (bytes_repr b)) as H.
  { unfold bytes_repr. assert (quote_of b < 128) as Lq by (destruct (quote_of_cases b); lia).
    repeat (apply Forall_app; split); try (fa; lia).
    pose proof (quote_of_cases b) as Q. generalize dependent (quote_of b). intros q _ Q. clear - R Q. induction b as [|x b IH]; [constructor|]. cbn [flat_map]. apply Forall_app. split; [apply R, Q|exact IH]. }
  eapply Forall_impl; [|exact H]. unfold scalar. intros; lia.
Qed.

(** ** What is parsed *)
Definition of_type (t : ftype) (v : pyval) : Prop :=
  match t, v with
  | TBytes _, VBytes _ | TBlob _, VBytes _ | TMpint _, VInt _ | TInt _ _ _, VInt _ => True
  | TText _, VStr s => Forall scalar s
  | _, _ => False
  end.
Definition typed (ts : list (pystr * ftype)) (d : dict pyval) : Prop :=
  Forall2 (fun kt kv => fst kt = fst kv /\ of_type (snd kt) (snd kv)) ts d.
Lemma utf8_scalar s b : utf8 s b -> Forall scalar s.
Proof. intros H. induction H as [|c s u b Hc H IH]; constructor; [eapply utf8_char_scalar; exact Hc|exact IH]. Qed.
Lemma wire_of_type t v b : wire t v b -> of_type t v.
Proof. intros H. destruct H; cbn [of_type]; try exact I. eapply utf8_scalar; eassumption. Qed.
Lemma record_typed ts d b : record_of wire ts d b -> typed ts d.
Proof. intros H. induction H as [|k t ts v vs b bs W H IH]; constructor; [|exact IH]. split; [reflexivity|]. eapply wire_of_type; exact W. Qed.
Lemma read_typed f ts s s' d : format_types f ts -> read_dict f s = (s', Ok d) -> typed ts d.
Proof. intros F R. destruct (read_dict_sound _ _ _ _ _ F R) as (b & Rb & _). eapply record_typed; exact Rb. Qed.
Lemma typed_keys ts d : typed ts d -> dkeys d = map fst ts.
Proof. intros H. induction H as [|x y ts d (E & _) H IH]; [reflexivity|]. unfold dkeys in *. cbn [map]. rewrite E, IH. reflexivity. Qed.
(** Names that are distinct and ASCII. *)
Definition plain_names (ts : list (pystr * ftype)) : Prop := NoDup (map fst ts) /\ Forall (Forall scalar) (map fst ts).
Definition ascii_names (l : list pystr) : bool := forallb (forallb (fun c => c <? 128)) l.
Lemma ascii_names_ok l : ascii_names l = true -> Forall (Forall scalar) l.
Proof.
  intros H. unfold ascii_names in H. rewrite forallb_forall in H. apply Forall_forall. intros s Hs.
  specialize (H s Hs). rewrite forallb_forall in H. apply Forall_forall. intros c Hc. specialize (H c Hc). apply N.ltb_lt in H. unfold scalar. lia.
Qed.
Lemma spec_names_ok : ascii_names (map fst key_specs) && forallb (fun s => ascii_names (map fst (fst (snd s))) &&
    match snd (snd s) with Some ts => ascii_names (map fst ts) | None => true end) key_specs = true.
Proof. vm_compute. reflexivity. Qed.
Lemma spec_names t pub priv : In (t, (pub, priv)) key_specs -> Forall scalar t /\ forall kd ts, fields_of kd (pub, priv) = Some ts -> plain_names ts.
Proof.
  intros H. pose proof spec_names_ok as E. apply andb_true_iff in E as (E1 & E2).
  apply ascii_names_ok in E1. rewrite Forall_forall in E1. split; [apply E1; apply (in_map fst) in H; exact H|].
  intros kd ts Hf. destruct (spec_class _ _ _ _ _ H Hf) as (_ & _ & _ & N). split; [exact N|].
  rewrite forallb_forall in E2. specialize (E2 _ H). cbn [fst snd] in E2. apply andb_true_iff in E2 as (E2 & E3).
  apply ascii_names_ok. destruct kd; cbn [fields_of fst snd] in Hf; [injection Hf as <-; exact E2|subst priv; exact E3].
Qed.
(** The shapes of the mapping of values that were given in clear. *)
Definition clear_types : list (list (pystr * ftype)) :=
  [[]; [octets "remainder"]; [text "key_type"; text "comment"]; [text "key_type"; text "comment"; octets "remainder"]].
Definition good_key (kd : kind) (k : key) : Prop :=
  exists t pub priv ts cts, In (t, (pub, priv)) key_specs /\ fields_of kd (pub, priv) = Some ts /\
    params_class kd (VStr t) = Ok (k_pcls k) /\ k_kind k = kd /\ k_header k = [(str "key_type", VStr t)] /\
    typed ts (k_params k) /\ typed (footer_fields kd) (k_footer k) /\ In cts clear_types /\ typed cts (k_clear k).
Definition base_clear (cl : option (dict pyval)) : Prop :=
  cl = None \/ exists a b, Forall scalar a /\ Forall scalar b /\ cl = Some [(str "key_type", VStr a); (str "comment", VStr b)].
Lemma record_split ts ts' vs vs' b : record_of wire (ts ++ ts') (vs ++ vs') b -> map fst ts = dkeys vs -> typed ts vs /\ typed ts' vs'.
Proof.
  intros R E. apply record_typed in R. revert vs E R. induction ts as [|t ts IH]; intros vs E R; destruct vs as [|v vs]; try discriminate.
  - split; [constructor|exact R].
  - cbn [app] in R. inversion R as [|? ? ? ? Hh Ht]; subst. unfold dkeys in E. cbn [map] in E. injection E as _ E.
    destruct (IH vs E Ht) as (A & B). split; [constructor; assumption|exact B].
Qed.
Lemma base_clear_typed cl : base_clear cl -> exists cts, In cts clear_types /\ typed cts (match cl with Some d => d | None => [] end) /\
  forall r, exists cts', In cts' clear_types /\ typed cts' (dset (str "remainder") (VBytes r) (match cl with Some d => d | None => [] end)).
Proof.
  intros [->|(a & b & Ha & Hb & ->)].
  - exists []. split; [cbn; auto|]. split; [constructor|]. intros r. exists [octets "remainder"]. split; [cbn; auto|].
    constructor; [split; [reflexivity|exact I]|constructor].
  - exists [text "key_type"; text "comment"]. split; [cbn; auto|]. split.
    + constructor; [split; [reflexivity|exact Ha]|]. constructor; [split; [reflexivity|exact Hb]|]. constructor.
    + intros r. exists [text "key_type"; text "comment"; octets "remainder"]. split; [cbn; auto|].
      change (typed [text "key_type"; text "comment"; octets "remainder"] [(str "key_type", VStr a); (str "comment", VStr b); (str "remainder", VBytes r)]).
      constructor; [split; [reflexivity|exact Ha]|]. constructor; [split; [reflexivity|exact Hb]|].
      constructor; [split; [reflexivity|exact I]|constructor].
Qed.
Lemma key_from_stream_good ec pp kd cl s s' l k : base_clear cl -> key_from_stream ec pp kd cl s = (s', (l, Ok k)) -> good_key kd k.
Proof.
  intros B H. destruct (key_from_stream_sound _ _ _ _ _ _ _ _ H) as (t & pub & priv & ts & ps & fo & b & c & Hs & Hf & R & Hk & Hfo & Hc & _ & _ & _ & ->).
  destruct (base_clear_typed _ B) as (cts & Hi & Tc & _).
  unfold key_fields in R. change (type_field :: ts ++ footer_fields kd) with ([type_field] ++ ts ++ footer_fields kd) in R.
  apply record_split in R as (_ & R); [|reflexivity].
  assert (typed ts ps /\ typed (footer_fields kd) fo) as (Tp & Tf).
  { clear - R Hk. revert ps Hk R. induction ts as [|t ts IH]; intros vs E R; destruct vs as [|v vs]; try discriminate.
    - split; [constructor|exact R].
    - cbn [app] in R. inversion R as [|? ? ? ? Hh Ht]; subst. unfold dkeys in E. cbn [map] in E. injection E as _ E.
      destruct (IH vs E Ht) as (A & B). split; [constructor; assumption|exact B]. }
  exists t, pub, priv, ts, cts. cbn [k_pcls k_kind k_header k_params k_footer k_clear]. auto 10.
Qed.
Lemma key_from_bytes_good ec kd cl b l k : base_clear cl -> key_from_bytes ec kd b cl = (l, Ok k) -> good_key kd k.
Proof.
  intros B H. unfold key_from_bytes, key_from_bytes_with in H.
  destruct (key_from_stream ec (parse_pub ec) kd cl (stream_of b)) as [s' w] eqn:E.
  apply wbind_inv in H as (l1 & k1 & l2 & -> & H & ->). pose proof (key_from_stream_good _ _ _ _ _ _ _ _ B E) as G.
  destruct (unread s') as [|r0 r].
  - injection H as <- <-. exact G.
  - unfold wseq in H. apply wbind_inv in H as (l3 & [] & l4 & _ & H & ->). injection H as <- <-.
    destruct (key_from_stream_sound _ _ _ _ _ _ _ _ E) as (t0 & pub0 & priv0 & ts0 & ps & fo & b0 & c & _ & _ & _ & _ & _ & _ & _ & _ & _ & Ek).
    destruct G as (t & pub & priv & ts & cts & Hs & Hf & Hc & Hkd & Hh & Tp & Tf & Hi & Tc).
    destruct (base_clear_typed _ B) as (_ & _ & _ & Hr). destruct (Hr (r0 :: r)) as (cts' & Hi' & Tc').
    exists t, pub, priv, ts, cts'. cbn [k_pcls k_kind k_header k_params k_footer k_clear].
    assert (k_clear k1 = match cl with Some d => d | None => [] end) as -> by (rewrite Ek; reflexivity). auto 10.
Qed.
Lemma key_line_scalar s t b c : key_line s t b c -> Forall scalar s -> Forall scalar t /\ Forall scalar c.
Proof.
  intros H S. destruct H; repeat match goal with H : Forall scalar (_ ++ _) |- _ => apply Forall_app in H as (? & ?) | H : Forall scalar (_ :: _) |- _ => inversion H; subst; clear H end; auto.
Qed.
Lemma key_from_string_good ec kd s l k : Forall scalar s -> key_from_string ec kd s = (l, Ok k) -> good_key kd k.
Proof.
  intros S H. unfold key_from_string in H.
  match type of H with match ?x with _ => _ end = _ => change x with (split_max 32 2 s) in H end. destruct (split_max 32 2 s) as [|t [|b rest]] eqn:E; try discriminate.
  assert (key_line s t b (match rest with c :: _ => c | [] => [] end)) as K by (apply split_key_line; eauto).
  destruct (key_line_scalar _ _ _ _ K S) as (St & Sc).
  apply wbind_inv in H as (l1 & kb & l2 & _ & H & ->). apply wbind_inv in H as (l3 & k1 & l4 & Hk & H & ->).
  apply wbind_inv in H as (l5 & kt & l6 & _ & H & ->). unfold wseq in H. apply wbind_inv in H as (l7 & [] & l8 & _ & H & ->). injection H as <- <-.
  eapply key_from_bytes_good; [|exact Hk]. right. eauto 10.
Qed.
Lemma lines_scalar s ls : lines s ls -> Forall scalar s -> Forall (Forall scalar) ls.
Proof.
  intros H S. induction H; [constructor|constructor; [exact S|constructor]|..];
    apply Forall_app in S as (S1 & S2); constructor; try exact S1; apply IHlines; inversion S2; subst; auto.
  match goal with H : Forall scalar (10 :: _) |- _ => inversion H; subst; assumption end.
Qed.
Lemma parse_lines_good p i ls lg ks : Forall (Forall scalar) ls -> parse_lines p i ls = (lg, Ok ks) -> Forall (good_key KPub) ks.
Proof.
  intros F. revert i lg ks. induction F as [|s ls Hs F IH]; intros i lg ks H; cbn [parse_lines] in H.
  - injection H as <- <-. constructor.
  - apply wbind_inv in H as (l1 & o & l2 & Ho & H & ->). apply wbind_inv in H as (l3 & r & l4 & Hr & H & ->). injection H as <- <-.
    apply IH in Hr. destruct o as [k|]; [|exact Hr]. constructor; [|exact Hr].
    destruct (key_from_string (p_ec_ok p) KPub s) as [l [k1|e1]] eqn:E; cbn [wbind wcatch wret] in Ho.
    + injection Ho as _ <-. eapply key_from_string_good; eassumption.
    + destruct (is_line_error e1); [|discriminate]. unfold wseq, wwarn in Ho. cbn [wbind wret app] in Ho. discriminate.
Qed.
Definition kdf_types (k : kdf) : list (pystr * ftype) := match k with KdfNone => [] | KdfBcrypt => [octets "salt"; uint32 "rounds"] end.
Definition good_pair (q : pair) : Prop := good_key KPub (pr_public q) /\ good_key KPriv (pr_private q).
Definition good_list (l : pkl) : Prop :=
  exists pairs b h cb kv k o plain dh pad,
    l = mkpkl pairs (Some b) (Some h) (Some cb) (Some o) (Some plain) (Some dh) (Some pad) /\
    typed header_types h /\ dget (str "kdf") h = Some kv /\ get_kdf kv = Ok k /\ typed (kdf_types k) o /\ typed check_types dh /\
    Forall good_pair pairs.
Section Lists.
Variable p : prims.
Lemma read_pubs_good fuel n s s' lg ks : read_pubs p fuel n s = (s', (lg, Ok ks)) -> Forall (good_key KPub) ks.
Proof.
  revert n s lg ks. induction fuel as [|fuel IH]; intros n s lg ks H; cbn [read_pubs] in H.
  - destruct (n <=? 0)%Z; [|discriminate]. injection H as <- <- <-. constructor.
  - destruct (n <=? 0)%Z.
    + injection H as <- <- <-. constructor.
    + apply swbind_inv in H as (s1 & l1 & v & l2 & _ & H & ->). destruct v; try discriminate.
      apply swbind_inv in H as (s2 & l3 & k & l4 & Hk & H & ->). unfold sww in Hk. injection Hk as <- Hk.
      apply swbind_inv in H as (s3 & l5 & r & l6 & Hr & H & ->). unfold sww, wret in H. injection H as <- <- <-.
      apply IH in Hr. constructor; [|exact Hr]. eapply key_from_bytes_good; [|exact Hk]. left. reflexivity.
Qed.
Lemma read_privs_good i pubs s s' lg qs : Forall (good_key KPub) pubs -> read_privs p i pubs s = (s', (lg, Ok qs)) -> Forall good_pair qs.
Proof.
  intros F. revert i s s' lg qs. induction F as [|k pubs Hk F IH]; intros i s s' lg qs H; cbn [read_privs] in H.
  - injection H as <- <- <-. constructor.
  - apply swbind_inv in H as (s1 & l1 & priv & l2 & Hp & H & ->).
    apply swbind_inv in H as (s2 & l3 & ? & l4 & _ & H & ->).
    apply swbind_inv in H as (s3 & l5 & ? & l6 & _ & H & ->).
    apply swbind_inv in H as (s4 & l7 & ? & l8 & _ & H & ->).
    apply swbind_inv in H as (s5 & l9 & ? & l10 & _ & H & ->).
    apply swbind_inv in H as (s6 & l11 & r & l12 & Hr & H & ->). unfold sww, wret in H. injection H as <- <- <-.
    apply IH in Hr. constructor; [|exact Hr]. split; [exact Hk|]. cbn [pr_private].
    eapply key_from_stream_good; [|exact Hp]. left. reflexivity.
Qed.
Lemma deciphered_good c pubs plain lg pairs dh pad : Forall (good_key KPub) pubs ->
  parse_deciphered p c pubs plain = (lg, Ok (pairs, dh, pad)) -> Forall good_pair pairs /\ typed check_types dh.
Proof.
  intros F H. unfold parse_deciphered in H. match type of H with snd ?x = _ => destruct x as [sx wx] eqn:E end. cbn [snd] in H. subst wx.
  apply swbind_inv in E as (s1 & l1 & h & l2 & Hh & E & ->). unfold swp in Hh. destruct (read_dict decipher_header_fmt (stream_of plain)) as [s1' r] eqn:R. injection Hh as -> _ ->.
  apply swbind_inv in E as (s2 & l3 & ? & l4 & _ & E & ->).
  apply swbind_inv in E as (s3 & l5 & ? & l6 & _ & E & ->).
  apply swbind_inv in E as (s4 & l7 & ? & l8 & _ & E & ->).
  apply swbind_inv in E as (s5 & l9 & qs & l10 & Hq & E & ->).
  apply swbind_inv in E as (s6 & l11 & ? & l12 & _ & E & ->).
  apply swbind_inv in E as (s7 & l13 & ? & l14 & _ & E & ->). unfold sww, wret in E. injection E as <- <- <- <- <-.
  split; [eapply read_privs_good; eassumption|]. eapply read_typed; [apply check_types_ok|exact R].
Qed.
Lemma list_from_bytes_good e b given lg l : list_from_bytes p e b given = (lg, Ok l) -> good_list l.
Proof.
  unfold list_from_bytes. destruct (from_bytes_try p e b given) as [lt [r|x]] eqn:H; [|discriminate].
  intros K. injection K as <- <-. unfold from_bytes_try in H. match type of H with snd ?x = _ => destruct x as [sx wx] eqn:E end. cbn [snd] in H. subst wx.
  apply swbind_inv in E as (s1 & l1 & h & l2 & Hh & E & ->). unfold swp in Hh. destruct (read_dict list_header_fmt (stream_of b)) as [s1' q] eqn:R. injection Hh as -> _ ->.
  apply swbind_inv in E as (s2 & l3 & ? & l4 & _ & E & ->).
  apply swbind_inv in E as (s3 & l5 & ? & l6 & _ & E & ->).
  apply swbind_inv in E as (s4 & l7 & ? & l8 & _ & E & ->).
  apply swbind_inv in E as (s5 & l9 & ? & l10 & _ & E & ->).
  apply swbind_inv in E as (s6 & l11 & pubs & l12 & Hp & E & ->). apply read_pubs_good in Hp.
  apply swbind_inv in E as (s7 & l13 & ? & l14 & _ & E & ->).
  apply swbind_inv in E as (s8 & l15 & cb & l16 & _ & E & ->).
  apply swbind_inv in E as (s9 & l17 & kv & l18 & Hkv & E & ->).
  apply swbind_inv in E as (s10 & l19 & k & l20 & Hk & E & ->).
  apply swbind_inv in E as (s11 & l21 & ov & l22 & _ & E & ->).
  apply swbind_inv in E as (s12 & l23 & os & l24 & _ & E & ->).
  apply swbind_inv in E as (s13 & l25 & o & l26 & Ho & E & ->).
  apply swbind_inv in E as (s14 & l27 & ? & l28 & _ & E & ->).
  apply swbind_inv in E as (s15 & l29 & ? & l30 & _ & E & ->).
  apply swbind_inv in E as (s16 & l31 & c & l32 & _ & E & ->).
  apply swbind_inv in E as (s17 & l33 & ? & l34 & _ & E & ->).
  apply swbind_inv in E as (s18 & l35 & tag & l36 & _ & E & ->).
  apply swbind_inv in E as (s19 & l37 & ? & l38 & _ & E & ->).
  apply swbind_inv in E as (s20 & l39 & plain & l40 & _ & E & ->).
  apply swbind_inv in E as (s21 & l41 & [[pairs dh] pad] & l42 & Hd & E & ->).
  unfold sww, wret in E. injection E as <- <- <-. unfold sww in Hd. injection Hd as _ Hd. apply deciphered_good in Hd as (Gp & Td); [|exact Hp].
  unfold sww, wlift in Hkv, Hk, Ho. injection Hkv as _ _ Hkv. injection Hk as _ _ Hk. injection Ho as _ _ Ho.
  exists pairs, b, h, (cb ++ tag), kv, k, o, plain, dh, pad. split; [reflexivity|]. split; [eapply read_typed; [apply header_types_ok|exact R]|].
  split; [unfold ditem in Hkv; destruct (dget (str "kdf") h); [congruence|discriminate]|]. split; [exact Hk|].
  split; [|split; assumption]. destruct (read_dict (kdf_format k) os) as [s0 r0] eqn:Ro. cbn [snd] in Ho. subst r0.
  eapply read_typed; [apply kdf_dict_types|exact Ro].
Qed.
End Lists.
Definition good (r : PrivateKeyList.parsed) : Prop :=
  match r with ParsedList l => good_list l | ParsedKeys ks => Forall (good_key KPub) ks end.
Lemma main_good p e s given lg r : Forall scalar s -> main_parse p e s given = (lg, Ok r) -> good r.
Proof.
  intros S H. unfold main_parse in H. destruct (starts_with pem_header s); apply wbind_inv in H as (l1 & x & l2 & Hx & H & ->); injection H as <- <-; cbn [good].
  - unfold list_from_string in Hx. destruct (splitlines s) as [|f ls]; [discriminate|]. destruct (_ || _); [discriminate|].
    apply wbind_inv in Hx as (l3 & kb & l4 & _ & Hx & ->). eapply list_from_bytes_good; exact Hx.
  - eapply parse_lines_good; [|exact Hx]. eapply lines_scalar; [|exact S]. apply lines_iff. reflexivity.
Qed.

(** ** The tree *)
Lemma value_shown t v : of_type t v -> shows_value v (val_tree v) /\ scalar_json (val_tree v) /\ unique_names (val_tree v).
Proof.
  destruct t, v; cbn [of_type val_tree scalar_json]; intros H; try contradiction;
    (split; [constructor; apply bytes_repr_ok|split; [first [exact I|exact H|apply bytes_repr_scalar]|constructor]]) ||
    (split; [constructor|split; [first [exact I|exact H|apply bytes_repr_scalar]|constructor]]).
Qed.
Lemma dict_shown ts d : plain_names ts -> typed ts d -> shows_dict d (dict_tree d) /\ scalar_json (dict_tree d) /\ unique_names (dict_tree d).
Proof.
  intros (N & A) T. pose proof (typed_keys _ _ T) as K.
  assert (Forall (fun kv => exists t, of_type t (snd kv)) d) as V.
  { clear - T. induction T as [|x y ts d (_ & H) T IH]; constructor; eauto. }
  assert (Forall (fun kv => Forall scalar (fst kv)) d) as S.
  { rewrite <- K in A. unfold dkeys in A. rewrite Forall_map in A. exact A. }
  rewrite <- K in N. clear - V S N. split; [|split].
  - exists (map (fun kv => (fst kv, val_tree (snd kv))) d). split; [reflexivity|].
    clear - V. induction V as [|x d (t & H) V IH]; cbn [map]; constructor; [|exact IH]. split; [reflexivity|]. eapply value_shown; exact H.
  - apply scalar_obj. rewrite Forall_map. rewrite Forall_forall in *. intros x Hx. destruct (V _ Hx) as (t & H). cbn [fst snd]. split; [apply S, Hx|]. eapply value_shown; exact H.
  - apply un_obj.
    + rewrite map_map. cbn [fst]. exact N.
    + rewrite Forall_map. rewrite Forall_forall in *. intros x Hx. destruct (V _ Hx) as (t & H). cbn [snd]. eapply value_shown; exact H.
Qed.
Lemma str_scalar s : ascii_names [s] = true -> Forall scalar s.
Proof. intros H. apply ascii_names_ok in H. inversion H; assumption. Qed.
(** An object whose member names are literals. *)
Definition fine (t : json) : Prop := scalar_json t /\ unique_names t.
Lemma fine_obj l : ascii_names (map fst l) = true -> nodupb (map fst l) = true -> Forall (fun m => fine (snd m)) l -> fine (JObj l).
Proof.
  intros A N F. apply ascii_names_ok in A. rewrite Forall_map in A. split.
  - apply scalar_obj. rewrite Forall_forall in *. intros x Hx. split; [apply A, Hx|apply F, Hx].
  - apply un_obj; [apply nodupb_sound; exact N|]. eapply Forall_impl; [|exact F]. intros x (_ & H). exact H.
Qed.
Lemma fine_arr l : Forall fine l -> fine (JArr l).
Proof.
  intros F. split; [apply scalar_arr|apply un_arr]; (eapply Forall_impl; [|exact F]; intros x (A & B); assumption).
Qed.
Lemma dict_fine ts d : plain_names ts -> typed ts d -> shows_dict d (dict_tree d) /\ fine (dict_tree d).
Proof. intros N T. destruct (dict_shown _ _ N T) as (A & B & C). split; [exact A|]. split; assumption. Qed.
Lemma bytes_fine b : shows_bytes b (JStr (bytes_repr b)) /\ fine (JStr (bytes_repr b)).
Proof. split; [constructor; apply bytes_repr_ok|]. split; [apply bytes_repr_scalar|constructor]. Qed.
Lemma plain_names_ok ts : ascii_names (map fst ts) = true -> nodupb (map fst ts) = true -> plain_names ts.
Proof. intros A N. split; [apply nodupb_sound; exact N|apply ascii_names_ok; exact A]. Qed.
Lemma key_fine kd k : good_key kd k -> shows_key k (key_tree k) /\ fine (key_tree k).
Proof.
  intros (t & pub & priv & ts & cts & Hs & Hf & _ & _ & Hh & Tp & Tf & Hi & Tc).
  destruct (spec_names _ _ _ Hs) as (St & Sn).
  assert (typed [type_field] (k_header k)) as Th.
  { rewrite Hh. constructor; [split; [reflexivity|exact St]|constructor]. }
  destruct (dict_fine [type_field] _ ltac:(apply plain_names_ok; vm_compute; reflexivity) Th) as (H1 & F1).
  destruct (dict_fine _ _ (Sn _ _ Hf) Tp) as (H2 & F2).
  assert (plain_names (footer_fields kd)) as Nf by (destruct kd; apply plain_names_ok; vm_compute; reflexivity).
  destruct (dict_fine _ _ Nf Tf) as (H3 & F3).
  assert (plain_names cts) as Nc by (cbn [clear_types In] in Hi; destruct Hi as [<-|[<-|[<-|[<-|[]]]]]; apply plain_names_ok; vm_compute; reflexivity).
  destruct (dict_fine _ _ Nc Tc) as (H4 & F4). split.
  - do 4 eexists. split; [reflexivity|]. auto.
  - unfold key_tree. apply fine_obj; [reflexivity|reflexivity|]. fa; cbn [snd]; try assumption.
    apply fine_obj; [reflexivity|reflexivity|]. fa. exact F2.
Qed.
Lemma good_fine r : good r -> shows r (parsed_tree r) /\ fine (parsed_tree r).
Proof.
  destruct r as [l|ks]; cbn [good shows parsed_tree].
  - intros (pairs & b & h & cb & kv & k & o & plain & dh & pad & -> & Th & Hkv & Hk & To & Td & Gp).
    destruct (dict_fine header_types _ ltac:(apply plain_names_ok; vm_compute; reflexivity) Th) as (H1 & F1).
    assert (plain_names (kdf_types k)) as Nk by (destruct k; apply plain_names_ok; vm_compute; reflexivity).
    destruct (dict_fine _ _ Nk To) as (H2 & F2).
    destruct (dict_fine check_types _ ltac:(apply plain_names_ok; vm_compute; reflexivity) Td) as (H3 & F3).
    assert (Forall2 shows_pair pairs (map pair_tree pairs) /\ Forall fine (map pair_tree pairs)) as (H4 & F4).
    { clear - Gp. induction Gp as [|q qs (G1 & G2) Gp IH]; [split; constructor|]. cbn [map]. destruct IH as (A & B).
      destruct (key_fine _ _ G1) as (A1 & B1). destruct (key_fine _ _ G2) as (A2 & B2).
      split; constructor; try assumption; [do 2 eexists; split; [reflexivity|]; auto|apply fine_arr; fa; assumption]. }
    unfold list_tree. cbn [l_pairs l_byte_string l_header l_cipher_bytes l_kdf_options l_decipher_bytes l_decipher_header l_padding opt_tree]. split.
    + do 9 eexists. split; [reflexivity|]. cbn [l_pairs l_byte_string l_header l_cipher_bytes l_kdf_options l_decipher_bytes l_decipher_header l_padding shows_opt].
      split; [exact H4|]. split; [apply bytes_fine|]. split; [exact H1|]. split; [apply bytes_fine|].
      split; [split; [reflexivity|exact H2]|]. split; [apply bytes_fine|]. split; [exact H3|apply bytes_fine].
    + apply fine_obj; [reflexivity|reflexivity|]. fa; cbn [snd]; try apply bytes_fine; try assumption.
      * apply fine_arr. exact F4.
      * apply fine_obj; [reflexivity|reflexivity|]. fa. exact F2.
  - intros G. assert (Forall2 shows_key ks (map key_tree ks) /\ Forall fine (map key_tree ks)) as (A & B).
    { induction G as [|k ks Gk G IH]; [split; constructor|]. cbn [map]. destruct IH as (A & B). destruct (key_fine _ _ Gk). split; constructor; assumption. }
    split; [eauto|apply fine_arr; exact B].
Qed.

(** ** The tree determines the result *)
Lemma shows_value_inj t v v' x : of_type t v -> of_type t v' -> shows_value v x -> shows_value v' x -> v = v'.
Proof.
  intros T T' H H'. destruct H as [z|s|b s L]; inversion H' as [z' E|s' E|b' s' L' E]; subst; destruct t; cbn [of_type] in T, T'; try contradiction; try reflexivity;
    f_equal; eapply bytes_literal_fun; eassumption.
Qed.
Lemma shows_dict_inj ts d d' x : typed ts d -> typed ts d' -> shows_dict d x -> shows_dict d' x -> d = d'.
Proof.
  intros T T' (l & -> & F) (l' & E & F'). injection E as <-. revert l d' T' F F'.
  induction T as [|kt kv ts d (Ek & Tv) T IH]; intros l d' T' F F'; inversion T' as [|? kv' ? d2 (Ek' & Tv') T2]; subst; [reflexivity|].
  inversion F as [|? m ? l2 (K1 & K2) F2]; subst. inversion F' as [|? ? ? ? (K1' & K2') F2']; subst. f_equal.
  - destruct kv as [n v], kv' as [n' v']. cbn [fst snd] in *. f_equal; [congruence|]. eapply shows_value_inj; eassumption.
  - eapply IH; eassumption.
Qed.
Lemma shows_dict_keys d d' x : shows_dict d x -> shows_dict d' x -> dkeys d = dkeys d'.
Proof.
  intros (l & -> & F) (l' & E & F'). injection E as <-. transitivity (map fst l); [|symmetry].
  - clear - F. unfold dkeys. induction F as [|? ? ? ? (K & _) F IH]; [reflexivity|]. cbn [map]. congruence.
  - clear - F'. unfold dkeys. induction F' as [|? ? ? ? (K & _) F IH]; [reflexivity|]. cbn [map]. congruence.
Qed.
Lemma clear_types_inj ts ts' : In ts clear_types -> In ts' clear_types -> map fst ts = map fst ts' -> ts = ts'.
Proof.
  intros H H' E. cbn [clear_types In] in H, H'.
  destruct H as [<-|[<-|[<-|[<-|[]]]]]; destruct H' as [<-|[<-|[<-|[<-|[]]]]]; try reflexivity; discriminate E.
Qed.
Lemma shows_key_inj kd k k' x : good_key kd k -> good_key kd k' -> shows_key k x -> shows_key k' x -> k = k'.
Proof.
  intros (t & pub & priv & ts & cts & Hs & Hf & Hc & Hkd & Hh & Tp & Tf & Hi & Tc).
  intros (t' & pub' & priv' & ts' & cts' & Hs' & Hf' & Hc' & Hkd' & Hh' & Tp' & Tf' & Hi' & Tc').
  intros (h & ps & f & c & -> & S1 & S2 & S3 & S4) (h' & ps' & f' & c' & E & S1' & S2' & S3' & S4'). injection E as <- <- <- <-.
  assert (typed [type_field] (k_header k)) as Th.
  { rewrite Hh. constructor; [split; [reflexivity|apply (spec_names _ _ _ Hs)]|constructor]. }
  assert (typed [type_field] (k_header k')) as Th'.
  { rewrite Hh'. constructor; [split; [reflexivity|apply (spec_names _ _ _ Hs')]|constructor]. }
  pose proof (shows_dict_inj _ _ _ _ Th Th' S1 S1') as E1. assert (t' = t) as -> by congruence.
  pose proof (key_specs_fun _ _ _ Hs Hs') as E2. injection E2 as <- <-. assert (ts' = ts) as -> by congruence.
  pose proof (shows_dict_inj _ _ _ _ Tp Tp' S2 S2') as E2. pose proof (shows_dict_inj _ _ _ _ Tf Tf' S3 S3') as E3.
  assert (cts' = cts) as ->.
  { apply clear_types_inj; [assumption|assumption|]. rewrite <- (typed_keys _ _ Tc), <- (typed_keys _ _ Tc'). symmetry. eapply shows_dict_keys; eassumption. }
  pose proof (shows_dict_inj _ _ _ _ Tc Tc' S4 S4') as E4. destruct k as [a1 a2 a3 a4 a5 a6], k' as [b1 b2 b3 b4 b5 b6]. cbn [k_kind k_header k_pcls k_params k_footer k_clear] in *. congruence.
Qed.
Lemma shows_keys_inj kd ks ks' x : Forall (good_key kd) ks -> Forall (good_key kd) ks' -> Forall2 shows_key ks x -> Forall2 shows_key ks' x -> ks = ks'.
Proof.
  intros G. revert ks' x. induction G as [|k ks Gk G IH]; intros ks' x G' F F'; inversion F; subst; inversion F'; subst; [reflexivity|].
  inversion G'; subst. f_equal; [eapply shows_key_inj; eassumption|eapply IH; eassumption].
Qed.
Lemma shows_pairs_inj ks ks' x : Forall good_pair ks -> Forall good_pair ks' -> Forall2 shows_pair ks x -> Forall2 shows_pair ks' x -> ks = ks'.
Proof.
  intros G. revert ks' x. induction G as [|k ks (Ga & Gb) G IH]; intros ks' x G' F F'; inversion F as [|? ? ? ? (a & b & E1 & A & B) F2]; subst; inversion F' as [|? ? ? ? (a' & b' & E1' & A' & B') F2']; subst; [reflexivity|].
  inversion G' as [|? ? (Ga' & Gb') G2]; subst. injection E1' as <- <-. f_equal; [|eapply IH; eassumption].
  pose proof (shows_key_inj _ _ _ _ Ga Ga' A A'). pose proof (shows_key_inj _ _ _ _ Gb Gb' B B'). match goal with H : pr_public ?a = pr_public ?b |- _ => destruct a as [u1 u2], b as [v1 v2] end. cbn [pr_public pr_private] in *. congruence.
Qed.
Lemma shows_bytes_inj b b' x : shows_bytes b x -> shows_bytes b' x -> b = b'.
Proof. intros H H'. assert (VBytes b = VBytes b') as E by (eapply (shows_value_inj (TBytes 4)); [exact I|exact I|exact H|exact H']). congruence. Qed.
Lemma shows_inj r r' x : good r -> good r' -> shows r x -> shows r' x -> r = r'.
Proof.
  destruct r as [l|ks], r' as [l'|ks']; cbn [good shows].
  - intros (qs & b & h & cb & kv & k & o & plain & dh & pad & -> & Th & Hkv & Hk & To & Td & Gp).
    intros (qs' & b' & h' & cb' & kv' & k' & o' & plain' & dh' & pad' & -> & Th' & Hkv' & Hk' & To' & Td' & Gp').
    intros (ds & bs & jh & jcb & jo & jo' & jdb & jdh & jpd & -> & S1 & S2 & S3 & S4 & S5 & S6 & S7 & S8).
    intros (ds1 & bs1 & jh1 & jcb1 & jo1 & jo1' & jdb1 & jdh1 & jpd1 & E & R1 & R2 & R3 & R4 & R5 & R6 & R7 & R8).
    injection E as <- <- <- <- <- <- <- <-.
    cbn [l_pairs l_byte_string l_header l_cipher_bytes l_kdf_options l_decipher_bytes l_decipher_header l_padding shows_opt] in *.
    destruct S5 as (-> & S5), R5 as (E5 & R5). injection E5 as <-.
    pose proof (shows_dict_inj _ _ _ _ Th Th' S3 R3) as <-. assert (k' = k) as -> by congruence.
    pose proof (shows_dict_inj _ _ _ _ To To' S5 R5) as <-. pose proof (shows_dict_inj _ _ _ _ Td Td' S7 R7) as <-.
    pose proof (shows_bytes_inj _ _ _ S2 R2) as <-. pose proof (shows_bytes_inj _ _ _ S4 R4) as <-.
    pose proof (shows_bytes_inj _ _ _ S6 R6) as <-. pose proof (shows_bytes_inj _ _ _ S8 R8) as <-.
    pose proof (shows_pairs_inj _ _ _ Gp Gp' S1 R1) as <-. reflexivity.
  - intros _ _ (ds & bs & jh & jcb & jo & jo' & jdb & jdh & jpd & -> & _) (ts & E & _). discriminate E.
  - intros _ _ (ts & -> & _) (ds & bs & jh & jcb & jo & jo' & jdb & jdh & jpd & E & _). discriminate E.
  - intros G G' (ts & -> & F) (ts' & E & F'). injection E as <-. f_equal. eapply shows_keys_inj; eassumption.
Qed.

(** ** Reading the file *)
Lemma newlines_exists n s0 : (length s0 <= n)%nat -> newlines_translated s0 (universal_newlines s0).
Proof.
  revert s0. induction n as [|n IH]; intros s0 L; destruct s0 as [|c s0]; try (cbn in L; lia); try constructor.
  cbn [length] in L. cbn [universal_newlines]. destruct (N.eqb_spec c 13) as [->|Nc]; [|constructor; [exact Nc|apply IH; lia]].
  destruct s0 as [|c' s0].
  - apply nt_cr; [discriminate|constructor].
  - cbn [length] in L. destruct (N.eqb_spec c' 10) as [->|Nc'].
    + constructor. apply IH. lia.
    + apply nt_cr; [congruence|]. apply IH. cbn [length]. lia.
Qed.
Lemma newlines_fun s0 s s' : newlines_translated s0 s -> newlines_translated s0 s' -> s = s'.
Proof.
  intros H; revert s'. induction H as [|s0 s H IH|s0 s N H IH|c s0 s N H IH]; intros s' H'; inversion H'; subst; try congruence; f_equal; auto.
Qed.
Lemma newlines_iff s0 s : newlines_translated s0 s <-> universal_newlines s0 = s.
Proof.
  split; [intros H; eapply newlines_fun; [|exact H]; apply (newlines_exists (length s0)); lia|].
  intros <-. apply (newlines_exists (length s0)). lia.
Qed.
Lemma read_text_iff b s : read_text b = Ok s <-> text_of_file b s.
Proof.
  unfold read_text, text_of_file. split.
  - intros H. destruct (utf8_decode b) as [s0|] eqn:E; [|discriminate]. cbn [rbind] in H. injection H as H.
    exists s0. split; [apply utf8_decode_iff; exact E|apply newlines_iff; exact H].
  - intros (s0 & U & N). apply utf8_decode_iff in U. apply newlines_iff in N. rewrite U. cbn [rbind]. congruence.
Qed.
Lemma text_of_file_fun b s s' : text_of_file b s -> text_of_file b s' -> s = s'.
Proof. intros H H'. apply read_text_iff in H, H'. congruence. Qed.
Lemma text_of_file_scalar b s : text_of_file b s -> Forall scalar s.
Proof.
  intros (s0 & U & H). apply utf8_scalar in U. induction H; [constructor|..]; inversion U; subst.
  - constructor; [unfold scalar; lia|]. match goal with K : Forall scalar (10 :: _) |- _ => inversion K; subst end. auto.
  - constructor; [unfold scalar; lia|auto].
  - constructor; auto.
Qed.
Lemma translated_splitlines_from s0 s : newlines_translated s0 s -> forall cur, splitlines_from cur s0 = splitlines_from cur s.
Proof.
  intros H. induction H as [|s0 s H IH|s0 s N H IH|c s0 s N H IH]; intros cur; [reflexivity|..].
  - assert (splitlines_from cur (10 :: s) = rev cur :: splitlines_from [] s) as -> by (destruct s; reflexivity).
    change (splitlines_from cur (13 :: 10 :: s0)) with (rev cur :: splitlines_from [] s0). rewrite IH. reflexivity.
  - assert (splitlines_from cur (10 :: s) = rev cur :: splitlines_from [] s) as -> by (destruct s; reflexivity).
    rewrite <- IH. destruct s0 as [|c s0]; [reflexivity|].
    cbn [splitlines_from]. change (is_linebreak 13) with true. cbn [andb N.eqb Pos.eqb]. destruct (N.eqb_spec c 10) as [->|]; [destruct (N s0); reflexivity|reflexivity].
  - assert (forall x, splitlines_from cur (c :: x) = if is_linebreak c then rev cur :: splitlines_from [] x else splitlines_from (c :: cur) x) as E.
    { intros x. cbn [splitlines_from]. destruct (is_linebreak c); [|reflexivity]. destruct x as [|y x]; [reflexivity|].
      rewrite (proj2 (N.eqb_neq c 13) N). reflexivity. }
    rewrite !E, !IH. reflexivity.
Qed.
Lemma translated_splitlines s0 s : newlines_translated s0 s -> splitlines s0 = splitlines s.
Proof. intros H. apply translated_splitlines_from. exact H. Qed.
Lemma translated_starts q s0 s : newlines_translated s0 s -> forallb (fun c => negb (c =? 13) && negb (c =? 10)) q = true ->
  starts_with q s0 = starts_with q s.
Proof.
  intros H. revert q. induction H as [|s0 s H IH|s0 s N H IH|c s0 s N H IH]; intros q A; destruct q as [|x q]; try reflexivity;
    cbn [forallb] in A; apply andb_true_iff in A as (A & B); apply andb_true_iff in A as (A1 & A2); apply negb_true_iff in A1, A2; cbn [starts_with].
  - rewrite A1, A2. reflexivity.
  - rewrite A1, A2. reflexivity.
  - rewrite (IH q B). reflexivity.
Qed.
