(** Which texts Python's base64.b64decode accepts, and as what bytes: the vocabulary of C104.
    Independent of the model's decoder. *)
From Verif Require Import PyBase SpecWire SpecText.
Open Scope Z_scope.

(** The characters of the alphabet in a text, as 6-bit numbers; all others are passed over. *)
Inductive sextets : pystr -> list N -> Prop :=
| sextets_nil : sextets [] []
| sextets_data c v s vs : sextet c v -> sextets s vs -> sextets (c :: s) (v :: vs)
| sextets_other c s vs : ~ In c alphabet -> sextets s vs -> sextets (c :: s) vs.
(** Of these bits, all whole octets. *)
Definition number (vs : list N) : Z := fold_left (fun a v => 64 * a + Z.of_N v) vs 0.
Definition whole_octets (vs : list N) (b : bytes) : Prop :=
  let bits := 6 * Z.of_nat (length vs) in
  Z.of_nat (length b) = bits / 8 /\ unsigned b = number vs / 2 ^ (bits mod 8).

(** Nothing but characters outside the alphabet after the last '='. *)
Definition padded (p : pystr) : Prop :=
  exists p1 p2, p = p1 ++ pad_char :: p2 /\ forall c, In c p2 -> ~ In c alphabet.
(** A text ends with the padding that completes its last group of four characters: '=' after
    three, or a second '=' after two. *)
Definition closed (p : pystr) : Prop :=
  exists p' vs, p = p' ++ [pad_char] /\ sextets p' vs /\
    (Z.of_nat (length vs) mod 4 = 3 \/ (Z.of_nat (length vs) mod 4 = 2 /\ padded p')).
(** The text is decoded up to the first such place, whatever follows it. Without one the
    groups must be complete. *)
Definition decodes (s : pystr) (b : bytes) : Prop :=
  exists p vs, sextets p vs /\ whole_octets vs b /\
    ((closed p /\ (exists rest, s = p ++ rest) /\ (forall p0 r0, p = p0 ++ r0 -> closed p0 -> r0 = [])) \/
     (p = s /\ Z.of_nat (length vs) mod 4 = 0 /\ forall p0 r0, s = p0 ++ r0 -> ~ closed p0)).
Definition all_ascii (s : pystr) : Prop := forall c, In c s -> (c < 128)%N.
