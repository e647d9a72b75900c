(** Specification of sizes (C100): how many bytes are needed to hold what a parser returns. *)
From Verif Require Import PyBase Stream Classes Key Crypto PrivateKeyList SpecWire.
Open Scope Z_scope.

(** [fits v n]: [n] bytes are enough for the value [v]: for bytes their number, for a str the number
    of its UTF-8 bytes, for a number those of its magnitude. *)
Inductive fits : pyval -> nat -> Prop :=
| fits_bytes b n : (length b <= n)%nat -> fits (VBytes b) n
| fits_str s u n : utf8 s u -> (length u <= n)%nat -> fits (VStr s) n
| fits_int z n : Z.abs z < 256 ^ Z.of_nat n -> fits (VInt z) n.
(** All values of a mapping together. *)
Inductive dict_fits : dict pyval -> nat -> Prop :=
| dict_fits_nil n : dict_fits [] n
| dict_fits_cons k v d a b n : fits v a -> dict_fits d b -> (a + b <= n)%nat -> dict_fits ((k, v) :: d) n.
(** A key with its header, parameters, comment and the rest in [clear]. *)
Definition key_fits (k : key) (n : nat) : Prop :=
  exists h p f c, dict_fits (k_header k) h /\ dict_fits (k_params k) p /\ dict_fits (k_footer k) f /\ dict_fits (k_clear k) c /\
    (h + p + f + c <= n)%nat.
(** Both halves of all pairs together. *)
Inductive pairs_fit : list pair -> nat -> Prop :=
| pairs_fit_nil n : pairs_fit [] n
| pairs_fit_cons q l a b c n : key_fits (pr_public q) a -> key_fits (pr_private q) b -> pairs_fit l c -> (a + b + c <= n)%nat ->
    pairs_fit (q :: l) n.
Definition opt_fits {A} (fit : A -> nat -> Prop) (o : option A) (n : nat) : Prop :=
  match o with Some x => fit x n | None => True end.
Definition bytes_fit (b : bytes) (n : nat) : Prop := (length b <= n)%nat.
(** A list with all its attributes. *)
Definition list_fits (l : pkl) (n : nat) : Prop :=
  exists a b c d e f g h,
    opt_fits bytes_fit (l_byte_string l) a /\ opt_fits dict_fits (l_header l) b /\ opt_fits bytes_fit (l_cipher_bytes l) c /\
    opt_fits dict_fits (l_kdf_options l) d /\ opt_fits bytes_fit (l_decipher_bytes l) e /\
    opt_fits dict_fits (l_decipher_header l) f /\ opt_fits bytes_fit (l_padding l) g /\ pairs_fit (l_pairs l) h /\
    (a + b + c + d + e + f + g + h <= n)%nat.
