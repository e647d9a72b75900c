(** Which texts are read as private key files and public keys: the vocabulary of C105.
    Independent of the model's parsers. *)
From Verif Require Import PyBase Key SpecWire SpecKey SpecText SpecBase64 SpecUnread.
Open Scope Z_scope.

(** [b] is the content of the private key file [s]. *)
Definition content (s : pystr) (b : bytes) : Prop :=
  exists mid, lines s (begin_line :: mid ++ [end_line]) /\ all_ascii (concat mid) /\ decodes (concat mid) b.

(** What parsing the line [s] as a public key raises. *)
Inductive line_raises (s : pystr) : exn -> Prop :=
| lr_no_space : ~ In 32%N s -> line_raises s IndexError
| lr_not_ascii w b64 c : key_line s w b64 c -> ~ all_ascii b64 -> line_raises s ValueError
| lr_incomplete w b64 c : key_line s w b64 c -> all_ascii b64 -> (forall b, ~ decodes b64 b) -> line_raises s BinasciiError
| lr_bytes w b64 c b x : key_line s w b64 c -> all_ascii b64 -> decodes b64 b -> public_raises b x -> line_raises s x.


(** The exceptions that are not reported as a warning about the line. *)
Definition aborts (x : exn) : Prop := x = IndexError \/ exists o, x = KeyError o.
