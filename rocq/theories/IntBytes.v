(** Python int.to_bytes / int.from_bytes / int.bit_length, as used in
    pascal_style_byte_stream.py:145-149, 270-273, 329-340. *)
From Verif Require Import PyBase.
Open Scope Z_scope.

(** Big-endian, [k] bytes, of [z] modulo 256^k (floor division gives two's
    complement for negative [z]). *)
Fixpoint be_bytes (k : nat) (z : Z) : bytes :=
  match k with
  | O => []
  | S k' => be_bytes k' (z / 256) ++ [bZ z]
  end.

Definition be_value (b : bytes) : Z := fold_left (fun a x => a * 256 + Zb x) b 0.

(** int.from_bytes(b, byteorder='big', signed=s). *)
Definition int_from_bytes (b : bytes) (signed : bool) : Z :=
  if signed && (match b with [] => false | x :: _ => 128 <=? Zb x end)
  then be_value b - 256 ^ Z.of_nat (length b)
  else be_value b.

(** z.to_bytes(length=len, byteorder='big', signed=s).
    Negative length: ValueError; out of range: OverflowError. (For length 0 and
    signed, CPython 3.11 accepts -1 as well as 0 and returns b''; the callers never ask for that.) *)
Definition int_to_bytes (z len : Z) (signed : bool) : res bytes :=
  if len <? 0 then Err ValueError
  else if ssize_max <? len then Err OverflowError
  else if signed then
    (if len =? 0 then (if (z =? 0) || (z =? -1) then Ok [] else Err OverflowError)
     else if (- 2 ^ (8 * len - 1) <=? z) && (z <? 2 ^ (8 * len - 1))
          then Ok (be_bytes (Z.to_nat len) z) else Err OverflowError)
  else if (0 <=? z) && (z <? 256 ^ len) then Ok (be_bytes (Z.to_nat len) z)
       else Err OverflowError.

(** z.bit_length(): number of bits of |z|. *)
Definition bit_length (z : Z) : Z := if z =? 0 then 0 else Z.log2 (Z.abs z) + 1.
