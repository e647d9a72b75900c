(** Specification of key generation, by key type name: which key the library must ask the
    cryptography package for, and when the answer is what was asked for. *)
From Verif Require Import PyBase Classes Key Convert Generate SpecConvert.
Open Scope Z_scope.

(** The keyword argument [k], or what ssh-keygen uses. *)
Inductive argument (kwargs : dict pyval) (k : string) (default : Z) : pyval -> Prop :=
| arg_given v : dget (str k) kwargs = Some v -> argument kwargs k default v
| arg_default : dget (str k) kwargs = None -> argument kwargs k default (VInt default).
(** What generating a key of family [f] asks for. *)
Inductive asks (kwargs : dict pyval) : family -> request -> Prop :=
| asks_rsa e s : argument kwargs "e" 65537 e -> argument kwargs "key_size" 4096 s ->
    asks kwargs FamRSA (AskRSA e s)
| asks_dss : asks kwargs FamDSS (AskDSA (VInt 1024))
| asks_ec c : asks kwargs (FamEC c) (AskEC c)
| asks_ed : asks kwargs FamEd AskEd25519.

(** [bits n s]: n is an s-bit number. *)
Definition bits (n s : Z) : Prop := 0 < s /\ 2 ^ (s - 1) <= n < 2 ^ s.
(** The answer is the private key that was asked for. *)
Definition answers (x : ext) (r : request) (o : obj) : Prop :=
  match r, o with
  | AskRSA e s, ORSAPriv n e' _ _ _ _ _ _ => e = VInt e' /\ exists s', s = VInt s' /\ bits n s'
  | AskDSA s, ODSAPriv p _ _ _ _ => exists s', s = VInt s' /\ bits p s'
  | AskEC c, OECPriv name pt _ => name = sec_curve c /\ x_ec_point x c pt = Some pt
  | AskEd25519, OEdPriv seed => Z.of_nat (length seed) = 32
  | _, _ => False
  end.
