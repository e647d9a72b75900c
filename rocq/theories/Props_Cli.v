(** The command line: C88. *)
From Verif Require Import PyBase Text Classes Key Crypto PrivateKeyList Json Cli SpecCli ProofBase ProofCli.
Open Scope N_scope.

Section Claims.
Variable isdecimal : N -> bool.
(** Neither '.' nor the newline is a decimal digit. *)
Definition digits_fine : Prop := isdecimal 46 = false /\ isdecimal 10 = false.

(** The command lines that give a file name and a passphrase or none are those of the grammar in
    SpecCli.v, with that file name and passphrase; all others end the program. *)
Theorem C88_accepted argv f p : digits_fine ->
  (parse_args isdecimal argv = Arguments f p <-> accepted isdecimal f p argv).
Proof. intros (D & N). apply parse_args_accepted; assumption. Qed.
(** Other command lines end the program with status 2, or with status 0 if one asks for the help. *)
Theorem C88_others_exit argv : digits_fine -> (forall f p, ~ accepted isdecimal f p argv) ->
  parse_args isdecimal argv = Exit 2 \/
  (parse_args isdecimal argv = Exit 0 /\ exists s, In s argv /\ asks_help s).
Proof.
  intros D H. destruct (parse_args isdecimal argv) as [f p|k] eqn:E; [apply C88_accepted in E; [|exact D]; destruct (H _ _ E)|].
  destruct (parse_args_exit isdecimal argv k E) as [->|(-> & K)]; auto.
Qed.
(** An argument that asks for the help, after any --passphrase options and before anything else,
    prints it; unless a later argument is the ambiguous abbreviation '--=...'. *)
Theorem C88_help a s b q : digits_fine -> settings isdecimal a None q -> asks_help s ->
  Forall (fun x => ~ is_prefix (str "--=") x) b -> parse_args isdecimal (a ++ s :: b) = Exit 0.
Proof. intros (D & N). apply parse_args_help; assumption. Qed.
(** --passphrase=X passes on any X; and after '--' the file may have any name. *)
Theorem C88_attached_any x f : digits_fine ->
  parse_args isdecimal [str "--passphrase=" ++ x; dashes; f] = Arguments f (Some x) /\
  (plain isdecimal f -> parse_args isdecimal [str "--passphrase=" ++ x; f] = Arguments f (Some x) /\
                        parse_args isdecimal [f; str "--passphrase=" ++ x] = Arguments f (Some x)).
Proof.
  intros D. assert (forall p, settings isdecimal [str "--passphrase=" ++ x] p (Some x)) as S.
  { intros p. apply attached with x; [|constructor]. exists (str "--passphrase"). split; [exists []; reflexivity|].
    split; [cbn; lia|reflexivity]. }
  split; [|intros P; split]; apply C88_accepted; try exact D.
  - apply (accepted_after _ _ _ [_]). apply S.
  - apply (accepted_plain _ _ _ [_] [] (Some x)); [apply S|exact P|constructor].
  - apply (accepted_plain _ _ _ [] [_] None); [constructor|exact P|apply S].
Qed.
(** --passphrase X passes on X exactly if X does not look like an option; otherwise the program
    ends, whatever follows. *)
Theorem C88_separate_exactly_plain x f : digits_fine -> plain isdecimal f ->
  (parse_args isdecimal [str "--passphrase"; x; f] = Arguments f (Some x) <-> plain isdecimal x) /\
  (~ plain isdecimal x -> forall rest, exists k, parse_args isdecimal (str "--passphrase" :: x :: rest) = Exit k).
Proof.
  intros D P. assert (passphrase_option (str "--passphrase") None) as O.
  { exists (str "--passphrase"). split; [exists []; reflexivity|]. split; [cbn; lia|reflexivity]. }
  destruct (passphrase_option_like isdecimal _ _ O) as (L & Nd).
  assert (forall rest g q, accepted isdecimal g q (str "--passphrase" :: x :: rest) -> plain isdecimal x) as Inv.
  { assert (forall a b q q', settings isdecimal a q q' -> str "--passphrase" :: x :: b = a -> plain isdecimal x) as St.
    { intros a b q q' S E. inversion S as [p' E1|s y l p1 q1 K S1 E1|s y l p1 q1 K Py S1 E1]; subst a.
      - discriminate.
      - injection E1 as -> _. pose proof (passphrase_option_fun _ _ _ O K). discriminate.
      - injection E1 as _ <- _. exact Py. }
    assert (forall a c b q q', settings isdecimal a q q' -> str "--passphrase" :: x :: b = a ++ c ->
              plain isdecimal x \/ a = []) as St'.
    { intros a c b q q' S E. destruct a as [|a0 [|a1 a]]; [auto| |].
      - inversion S as [|s y l p1 q1 K S1 E1|]; subst. cbn [app] in E. injection E as <- _. pose proof (passphrase_option_fun _ _ _ O K). discriminate.
      - left. cbn [app] in E. injection E as <- <- _. exact (St _ a _ _ S eq_refl). }
    intros rest g q H. inversion H as [a b q' S1 Pg S2 E|a S1 Pg E|a S1 E]; symmetry in E;
      destruct (St' _ _ _ _ _ S1 E) as [K| ->]; try exact K; cbn [app] in E.
    - injection E as <- E. destruct (plain_not_option _ _ Pg L).
    - injection E as <- E. destruct (plain_not_option _ _ Pg L).
    - discriminate. }
  split; [split|].
  - intros H. apply C88_accepted in H; [|exact D]. exact (Inv _ _ _ H).
  - intros Px. apply C88_accepted; [exact D|]. apply (accepted_plain _ _ _ [_; _] [] (Some x)); [|exact P|constructor].
    apply separate; [exact O|exact Px|constructor].
  - intros N rest. destruct (parse_args isdecimal (str "--passphrase" :: x :: rest)) as [g q|k] eqn:E; [|eauto].
    apply C88_accepted in E; [|exact D]. destruct N. exact (Inv _ _ _ E).
Qed.
(** No passphrase is passed on exactly if none is given: the command line is the file name, perhaps
    with '--' before or after it. *)
Theorem C88_no_passphrase argv f : digits_fine ->
  (parse_args isdecimal argv = Arguments f None <->
   argv = [dashes; f] \/ (plain isdecimal f /\ (argv = [f] \/ argv = [f; dashes]))).
Proof.
  intros D. rewrite (C88_accepted _ _ _ D).
  assert (forall l p q, settings isdecimal l p q -> q = None -> l = [] /\ p = None) as St.
  { induction 1 as [p|s x l p q H S IH|s x l p q H Px S IH]; intros Eq; [auto| |]; destruct (IH Eq); discriminate. }
  split.
  - intros H. inversion H as [a b q S1 P S2 E|a S1 P E|a S1 E].
    + destruct (St _ _ _ S2 eq_refl) as (-> & ->). destruct (St _ _ _ S1 eq_refl) as (-> & _). auto.
    + destruct (St _ _ _ S1 eq_refl) as (-> & _). auto.
    + destruct (St _ _ _ S1 eq_refl) as (-> & _). auto.
  - intros [->|(P & [->| ->])].
    + apply (accepted_after _ _ _ []). constructor.
    + apply (accepted_plain _ _ _ [] [] None); [constructor|exact P|constructor].
    + apply (accepted_before _ _ _ []); [constructor|exact P].
Qed.
(** If --passphrase is given several times, the last one counts. *)
Theorem C88_last_passphrase argv s x f p : digits_fine -> ~ In dashes argv -> passphrase_option s (Some x) ->
  parse_args isdecimal (argv ++ [s]) = Arguments f p -> p = Some x.
Proof.
  intros D Nd O H. apply C88_accepted in H; [|exact D].
  assert (forall l p q, settings isdecimal l p q -> forall l', l = l' ++ [s] -> q = Some x) as St.
  { induction 1 as [p1|s1 y l p1 q1 K S IH|s1 y l p1 q1 K Py S IH]; intros l' E; [destruct l'; discriminate| |].
    - destruct l' as [|z l']; cbn [app] in E.
      + injection E as -> ->. pose proof (passphrase_option_fun _ _ _ O K) as Q. injection Q as <-. inversion S. reflexivity.
      + injection E as _ E. exact (IH _ E).
    - destruct (passphrase_option_like isdecimal _ _ O) as (Os & _). destruct l' as [|z [|z2 l']]; cbn [app] in E; [discriminate| |].
      + injection E as _ E _. subst y. destruct (plain_not_option _ _ Py Os).
      + injection E as _ _ E. exact (IH _ E). }
  destruct (passphrase_option_like isdecimal _ _ O) as (Os & Ns).
  inversion H as [a b q S1 P S2 E|a S1 P E|a S1 E].
  - destruct (exists_last (l := f :: b)) as (b' & z & Eb); [discriminate|].
    assert (z = s) as ->. { rewrite Eb, app_assoc in E. apply app_inj_tail in E as (_ & E). exact E. }
    destruct b' as [|y b']; cbn [app] in Eb; injection Eb as -> Eb; [destruct (plain_not_option _ _ P Os)|]. exact (St _ _ _ S2 b' Eb).
  - change [f; dashes] with ([f] ++ [dashes]) in E. rewrite app_assoc in E. apply app_inj_tail in E as (_ & E). congruence.
  - change [dashes; f] with ([dashes] ++ [f]) in E. rewrite app_assoc in E. apply app_inj_tail in E as (E & _).
    destruct Nd. rewrite <- E. apply in_or_app. right. left. reflexivity.
Qed.
(** The program: it opens a file exactly if the command line is accepted, and only the file named;
    it prints what the command prints for that file with that passphrase. *)
Theorem C88_program p e open_file argv f r : digits_fine ->
  (program isdecimal p e open_file argv = Runs f r <->
   exists q, accepted isdecimal f q argv /\
     match open_file f with Ok file => r = main_command p e file q | Err x => r = ([], Err x) end).
Proof.
  intros D. unfold program. split.
  - destruct (parse_args isdecimal argv) as [g q|k] eqn:E; [|discriminate]. intros H. injection H as <- <-. exists q.
    split; [apply C88_accepted; assumption|]. destruct (open_file g) as [file|x]; [|reflexivity]. cbn [wlift wbind].
    destruct (main_command p e file q); reflexivity.
  - intros (q & H & R). apply C88_accepted in H; [|exact D]. rewrite H. f_equal. destruct (open_file f) as [file|x]; subst r; [|reflexivity].
    cbn [wlift wbind]. destruct (main_command p e file q); reflexivity.
Qed.
End Claims.

(** With the ASCII digits. *)
Definition ascii_digit (c : N) : bool := (48 <=? c) && (c <=? 57).
Example C88_example :
  digits_fine ascii_digit /\
  parse_args ascii_digit [str "--pass"; str "-5"; str "key"] = Arguments (str "key") (Some (str "-5")) /\
  parse_args ascii_digit [str "key"; str "--passphrase"; str "-x y"] = Arguments (str "key") (Some (str "-x y")) /\
  parse_args ascii_digit [str "key"; str "--passphrase"; str "-abc"] = Exit 2 /\
  parse_args ascii_digit [str "key"; str "--passphrase"; str "-hello world"] = Exit 2 /\
  parse_args ascii_digit [str "-hello world"; str "key"] = Exit 0 /\
  parse_args ascii_digit [str "-h=x"; str "key"] = Exit 2 /\
  parse_args ascii_digit [str "--p=a"; str "-hh"; str "key"; str "-?"] = Exit 0 /\ asks_help (str "-hh") /\ asks_help (str "--he") /\
  parse_args ascii_digit [str "--p=a"; str "--passphrase=-abc"; str "--"; str "--help"] = Arguments (str "--help") (Some (str "-abc")) /\
  plain ascii_digit (str "-5") /\ ~ plain ascii_digit (str "-abc") /\ ~ plain ascii_digit (str "-hello world") /\ plain ascii_digit (str "key") /\
  (forall f p, ~ accepted ascii_digit f p [str "key"; str "-h"]) /\
  accepted ascii_digit (str "key") (Some (str "b")) [str "--passphrase=a"; str "key"; str "--pa"; str "b"].
Proof.
  assert (digits_fine ascii_digit) as D by (split; reflexivity).
  assert (plain ascii_digit (str "key")) as P by (left; intros (t & E); discriminate).
  split; [exact D|]. do 7 (split; [vm_compute; reflexivity|]).
  split. { left. exists 1%nat, []. split; [reflexivity|exact I]. }
  split. { right. split; [exists (str "lp"); reflexivity|cbn; lia]. }
  split; [vm_compute; reflexivity|].
  split. { right. right. split.
    - intros [(t & E)|(a & (t & ->) & _ & [E|(x & E)])]; discriminate.
    - left. exists (str "5"), [], []. split; [auto|]. split; [repeat constructor|]. left. split; [discriminate|auto]. }
  split. { intros K. apply (C88_separate_exactly_plain ascii_digit _ (str "key") D P) in K. vm_compute in K. discriminate. }
  split. { intros K. apply (C88_separate_exactly_plain ascii_digit _ (str "key") D P) in K. vm_compute in K. discriminate. }
  split; [exact P|]. split. { intros f p K. apply (C88_accepted _ _ _ _ D) in K. vm_compute in K. discriminate. }
  apply (C88_accepted _ _ _ _ D). vm_compute. reflexivity.
Qed.
Print Assumptions C88_accepted.
Print Assumptions C88_others_exit.
Print Assumptions C88_help.
Print Assumptions C88_attached_any.
Print Assumptions C88_separate_exactly_plain.
Print Assumptions C88_no_passphrase.
Print Assumptions C88_last_passphrase.
Print Assumptions C88_program.
Print Assumptions C88_example.
