(** str() of bytes and int: library code, used where the command prints values (__main__.py:36-45)
    and where a comment is appended to a public key line (key.py:321-324). *)
From Coq Require Import Decimal DecimalZ.
From Verif Require Import PyBase.
Open Scope N_scope.

(** str(b) for bytes (bytes_repr in CPython's bytesobject.c): single quotes, unless b has a
    single quote and no double quote. *)
Definition hex_digit (n : N) : N := if n <? 10 then 48 + n else 87 + n.
Definition quote_of (b : bytes) : N :=
  if existsb (fun x => Byte.to_N x =? 39) b && negb (existsb (fun x => Byte.to_N x =? 34) b) then 34 else 39.
Definition repr_byte (q : N) (x : byte) : pystr :=
  let c := Byte.to_N x in
  if (c =? q) || (c =? 92) then [92; c]
  else if c =? 9 then [92; 116]
  else if c =? 10 then [92; 110]
  else if c =? 13 then [92; 114]
  else if (c <? 32) || (127 <=? c) then [92; 120; hex_digit (c / 16); hex_digit (c mod 16)]
  else [c].
Definition bytes_repr (b : bytes) : pystr :=
  let q := quote_of b in [98; q] ++ flat_map (repr_byte q) b ++ [q].

(** int.__repr__. Simplification: no limit on the number of digits (Python 3.11 added one; see JsonLimit.v). *)
Fixpoint uint_digits (u : Decimal.uint) : pystr :=
  match u with
  | Decimal.Nil => []
  | Decimal.D0 u => 48 :: uint_digits u | Decimal.D1 u => 49 :: uint_digits u
  | Decimal.D2 u => 50 :: uint_digits u | Decimal.D3 u => 51 :: uint_digits u
  | Decimal.D4 u => 52 :: uint_digits u | Decimal.D5 u => 53 :: uint_digits u
  | Decimal.D6 u => 54 :: uint_digits u | Decimal.D7 u => 55 :: uint_digits u
  | Decimal.D8 u => 56 :: uint_digits u | Decimal.D9 u => 57 :: uint_digits u
  end.
Definition int_repr (z : Z) : pystr :=
  match Z.to_int z with
  | Decimal.Pos u => uint_digits u
  | Decimal.Neg u => 45 :: uint_digits u
  end.
