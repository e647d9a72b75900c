(** Specification of the command line: C88. *)
From Verif Require Import PyBase.
Open Scope N_scope.

Definition is_prefix (a s : pystr) : Prop := exists t, s = a ++ t.
Definition dashes : pystr := str "--".

(** [s] names --passphrase, in full or cut off after at least one letter; with [o] = Some x, the
    argument x is attached with '='. *)
Definition passphrase_option (s : pystr) (o : option pystr) : Prop :=
  exists a, is_prefix a (str "--passphrase") /\ (3 <= length a)%nat /\
    s = match o with None => a | Some x => a ++ 61 :: x end.
(** [s] begins like an option of the program: -h..., or a word that starts with '--' and, up to any
    '=', is the beginning of --help or --passphrase. *)
Definition option_like (s : pystr) : Prop :=
  is_prefix (str "-h") s \/
  exists a, is_prefix dashes a /\ (is_prefix a (str "--help") \/ is_prefix a (str "--passphrase")) /\
    (s = a \/ exists x, s = a ++ 61 :: x).
(** [s] asks for the help: '-' and one or more h, at the end or before a character other than '-' and
    '='; or --help, in full or cut off after at least one letter. *)
Definition asks_help (s : pystr) : Prop :=
  (exists n r, s = 45 :: 104 :: repeat 104 n ++ r /\ match r with [] => True | c :: _ => ~ In c (str "h-=") end) \/
  (is_prefix s (str "--help") /\ (3 <= length s)%nat).
(** '-' and a decimal number, perhaps with a newline at the end. *)
Definition negative (isdecimal : N -> bool) (s : pystr) : Prop :=
  exists a b nl, (nl = [] \/ nl = [10]) /\ Forall (fun c => isdecimal c = true) (a ++ b) /\
    ((a <> [] /\ b = [] /\ s = 45 :: a ++ nl) \/ (b <> [] /\ s = 45 :: a ++ 46 :: b ++ nl)).
(** The strings that are taken as arguments and not as options. *)
Definition plain (isdecimal : N -> bool) (s : pystr) : Prop :=
  ~ is_prefix (str "-") s \/ s = str "-" \/ (~ option_like s /\ (negative isdecimal s \/ In 32 s)).

Section Grammar.
Variable isdecimal : N -> bool.
(** A sequence of --passphrase options; the last one counts. *)
Inductive settings : list pystr -> option pystr -> option pystr -> Prop :=
| no_settings p : settings [] p p
| attached s x l p q : passphrase_option s (Some x) -> settings l (Some x) q -> settings (s :: l) p q
| separate s x l p q : passphrase_option s None -> plain isdecimal x -> settings l (Some x) q -> settings (s :: x :: l) p q.
(** The command lines that name the file [f] and give the passphrase [p] or none. *)
Inductive accepted (f : pystr) (p : option pystr) : list pystr -> Prop :=
| accepted_plain a b q : settings a None q -> plain isdecimal f -> settings b q p -> accepted f p (a ++ f :: b)
| accepted_before a : settings a None p -> plain isdecimal f -> accepted f p (a ++ [f; dashes])
| accepted_after a : settings a None p -> accepted f p (a ++ [dashes; f]).
End Grammar.
