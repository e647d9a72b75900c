(** str.encode() / bytes.decode() with the default codec UTF-8 and error mode
    'strict', as used in pascal_style_byte_stream.py:143,322 and
    kdf_options/bcrypt_options.py:64. The accepted sequences are those of
    CPython's decoder: no overlong forms, no surrogates, at most U+10FFFF. *)
From Verif Require Import PyBase.
Open Scope N_scope.

Definition nb (n : N) : byte := bZ (Z.of_N n).
Definition bn (b : byte) : N := Byte.to_N b.

Definition utf8_encode_cp (c : N) : option bytes :=
  if c <? 0x80 then Some [nb c]
  else if c <? 0x800 then Some [nb (0xC0 + c / 64); nb (0x80 + c mod 64)]
  else if c <? 0x10000 then
    (if (0xD800 <=? c) && (c <=? 0xDFFF) then None
     else Some [nb (0xE0 + c / 4096); nb (0x80 + c / 64 mod 64); nb (0x80 + c mod 64)])
  else if c <? 0x110000 then
    Some [nb (0xF0 + c / 262144); nb (0x80 + c / 4096 mod 64);
          nb (0x80 + c / 64 mod 64); nb (0x80 + c mod 64)]
  else None.

Fixpoint utf8_encode (s : pystr) : res bytes :=
  match s with
  | [] => Ok []
  | c :: s' =>
      match utf8_encode_cp c with
      | None => Err UnicodeEncodeError
      | Some b => do? r <- utf8_encode s'; Ok (b ++ r)
      end
  end.

Definition is_cont (b : byte) : bool := (0x80 <=? bn b) && (bn b <? 0xC0).

(** Lead bytes and the permitted range of the second byte follow the table in
    the Unicode standard (well-formed UTF-8 byte sequences). The error has what is left to decode. *)
Fixpoint utf8_scan (b : bytes) : res pystr :=
  match b with
  | [] => Ok []
  | b0 :: t0 =>
      let n0 := bn b0 in
      if n0 <? 0x80 then do? r <- utf8_scan t0; Ok (n0 :: r)
      else if n0 <? 0xC2 then Err (UnicodeDecodeError b)
      else if n0 <? 0xE0 then
        match t0 with
        | b1 :: t1 =>
            if is_cont b1 then
              do? r <- utf8_scan t1; Ok ((n0 - 0xC0) * 64 + (bn b1 - 0x80) :: r)
            else Err (UnicodeDecodeError b)
        | [] => Err (UnicodeDecodeError b)
        end
      else if n0 <? 0xF0 then
        match t0 with
        | b1 :: b2 :: t2 =>
            if is_cont b1 && is_cont b2
               && (if n0 =? 0xE0 then 0xA0 <=? bn b1 else true)
               && (if n0 =? 0xED then bn b1 <? 0xA0 else true)
            then do? r <- utf8_scan t2;
                 Ok ((n0 - 0xE0) * 4096 + (bn b1 - 0x80) * 64 + (bn b2 - 0x80) :: r)
            else Err (UnicodeDecodeError b)
        | _ => Err (UnicodeDecodeError b)
        end
      else if n0 <? 0xF5 then
        match t0 with
        | b1 :: b2 :: b3 :: t3 =>
            if is_cont b1 && is_cont b2 && is_cont b3
               && (if n0 =? 0xF0 then 0x90 <=? bn b1 else true)
               && (if n0 =? 0xF4 then bn b1 <? 0x90 else true)
            then do? r <- utf8_scan t3;
                 Ok ((n0 - 0xF0) * 262144 + (bn b1 - 0x80) * 4096
                     + (bn b2 - 0x80) * 64 + (bn b3 - 0x80) :: r)
            else Err (UnicodeDecodeError b)
        | _ => Err (UnicodeDecodeError b)
        end
      else Err (UnicodeDecodeError b)
  end.
(** bytes.decode(): the exception has the whole of [b]. *)
Definition utf8_decode (b : bytes) : res pystr :=
  match utf8_scan b with Ok s => Ok s | Err _ => Err (UnicodeDecodeError b) end.
