(** Specification of the command under a limit on the digits of integers: C85. *)
From Verif Require Import PyBase Stream Classes Key Crypto PrivateKeyList.
Open Scope Z_scope.

(** [z] is one of the integers of a key, or of what a private key file contains. *)
Definition dict_integer (d : dict pyval) (z : Z) : Prop := exists n, In (n, VInt z) d.
Definition key_integer (k : key) (z : Z) : Prop :=
  dict_integer (k_header k) z \/ dict_integer (k_params k) z \/ dict_integer (k_footer k) z \/ dict_integer (k_clear k) z.
Definition opt_integer (o : option (dict pyval)) (z : Z) : Prop := exists d, o = Some d /\ dict_integer d z.
Definition list_integer (l : pkl) (z : Z) : Prop :=
  (exists q, In q (l_pairs l) /\ (key_integer (pr_public q) z \/ key_integer (pr_private q) z)) \/
  opt_integer (l_header l) z \/ opt_integer (l_kdf_options l) z \/ opt_integer (l_decipher_header l) z.
Definition parsed_integer (r : parsed) (z : Z) : Prop :=
  match r with
  | ParsedList l => list_integer l z
  | ParsedKeys ks => exists k, In k ks /\ key_integer k z
  end.
(** [z] has at most [limit] decimal digits; a limit of 0 stands for none. *)
Definition within (limit : nat) (z : Z) : Prop := limit = 0%nat \/ Z.abs z < 10 ^ Z.of_nat limit.
