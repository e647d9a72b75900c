(** Specification of str() of integers and bytes. *)
From Verif Require Import PyBase SpecWire.
Open Scope N_scope.

(** Decimal digits without leading zeros, after a minus sign if the number is negative. *)
Definition int_text (z : Z) (x : pystr) : Prop :=
  exists ds, ds <> [] /\ Forall digit ds /\ (forall r, ds = 48 :: r -> r = []) /\
    (((0 <= z)%Z /\ z = decimal ds /\ x = ds) \/ ((z < 0)%Z /\ z = (- decimal ds)%Z /\ x = 45 :: ds)).
(** ** Python bytes literals (Python reference 2.4.1), as repr() makes them *)
Definition lower_hex (c v : N) : Prop := (48 <= c <= 57 /\ v = c - 48) \/ (97 <= c <= 102 /\ v = c - 87).
Inductive literal_byte (q : N) : byte -> pystr -> Prop :=
| lb_plain x : 32 <= Byte.to_N x < 127 -> Byte.to_N x <> q -> Byte.to_N x <> 92 -> literal_byte q x [Byte.to_N x]
| lb_quoted x : Byte.to_N x = q \/ Byte.to_N x = 92 -> literal_byte q x [92; Byte.to_N x]
| lb_short x e : In (Byte.to_N x, e) [(9, 116); (10, 110); (13, 114)] -> literal_byte q x [92; e]
| lb_hex x a b va vb : Byte.to_N x < 32 \/ 126 < Byte.to_N x -> ~ In (Byte.to_N x) [9; 10; 13] ->
    lower_hex a va -> lower_hex b vb -> Byte.to_N x = va * 16 + vb -> literal_byte q x [92; 120; a; b].
(** Single quotes, unless there are single quotes and no double quotes inside. *)
Definition quoted_by (b : bytes) (q : N) : Prop :=
  let inside c := In c (map Byte.to_N b) in
  (q = 34 /\ inside 39 /\ ~ inside 34) \/ (q = 39 /\ ~ (inside 39 /\ ~ inside 34)).
Definition bytes_literal (b : bytes) (s : pystr) : Prop :=
  exists q xs, quoted_by b q /\ Forall2 (literal_byte q) b xs /\ s = [98; q] ++ concat xs ++ [q].

(** The text of a value: a str as it is, integers and bytes by str(). *)
Inductive value_text : pyval -> pystr -> Prop :=
| vt_str s : value_text (VStr s) s
| vt_int z s : int_text z s -> value_text (VInt z) s
| vt_bytes b s : bytes_literal b s -> value_text (VBytes b) s.
