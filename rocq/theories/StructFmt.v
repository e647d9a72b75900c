(** The struct module: struct.calcsize / struct.pack / struct.unpack, as used in
    pascal_style_byte_stream.py:132-134, 307, 438.
    Modelled: the byte-order prefixes, repeat counts, white space, native sizes and alignment,
    and all codes except those for floating point, e f d, and '?' in native mode (where the C code of
    CPython reads a byte as a _Bool, which is undefined unless it is 0 or 1); these give [Unmodelled]. The
    repository itself only uses '15s' '>i' '>I' '>Q' '>B'. The host is a 64-bit one with 64-bit long
    (LP64), little-endian.
    All failures of struct are struct.error, except that a format string that is not ASCII
    is a UnicodeEncodeError, and that unpacking a Pascal string of size 0 ('0p') is a SystemError
    (an error of CPython), here [OtherError]. *)
From Verif Require Import PyBase IntBytes.
Open Scope Z_scope.

Inductive scode := SPad | SChar | SStr | SInt (signed : bool) (size : nat) | SBool | SPascal | SPointer.
Inductive sorder := BigStd | LittleStd | Native.

Definition cp (s : string) : N := match str s with c :: _ => c | [] => 0%N end.

Definition is_space (c : N) : bool := ((9 <=? c) && (c <=? 13) || (c =? 32))%N.
Definition is_digit (c : N) : bool := ((48 <=? c) && (c <=? 57))%N.

Definition order_of (c : N) : option sorder :=
  if (c =? cp ">")%N || (c =? cp "!")%N then Some BigStd
  else if (c =? cp "<")%N || (c =? cp "=")%N then Some LittleStd
  else if (c =? cp "@")%N then Some Native else None.

Definition code_of (o : sorder) (c : N) : res scode :=
  let native := match o with Native => true | _ => false end in
  if (c =? cp "x")%N then Ok SPad
  else if (c =? cp "c")%N then Ok SChar
  else if (c =? cp "s")%N then Ok SStr
  else if (c =? cp "p")%N then Ok SPascal
  else if (c =? cp "?")%N then (if native then Err Unmodelled else Ok SBool)
  else if (c =? cp "b")%N then Ok (SInt true 1)
  else if (c =? cp "B")%N then Ok (SInt false 1)
  else if (c =? cp "h")%N then Ok (SInt true 2)
  else if (c =? cp "H")%N then Ok (SInt false 2)
  else if (c =? cp "i")%N then Ok (SInt true 4)
  else if (c =? cp "I")%N then Ok (SInt false 4)
  else if (c =? cp "l")%N then Ok (SInt true (if native then 8 else 4))
  else if (c =? cp "L")%N then Ok (SInt false (if native then 8 else 4))
  else if (c =? cp "q")%N then Ok (SInt true 8)
  else if (c =? cp "Q")%N then Ok (SInt false 8)
  else if existsb (N.eqb c) (str "efd") then Err Unmodelled
  else if native && (c =? cp "n")%N then Ok (SInt true 8)
  else if native && (c =? cp "N")%N then Ok (SInt false 8)
  else if native && (c =? cp "P")%N then Ok SPointer
  else Err StructError.

(** The item loop of the format parser. [num] is the repeat count read so far. *)
Fixpoint parse_items (o : sorder) (num : option N) (s : pystr) : res (list (N * scode)) :=
  match s with
  | [] => match num with None => Ok [] | Some _ => Err StructError end
  | c :: s' =>
      match num with
      | None =>
          if is_space c then parse_items o None s'
          else if is_digit c then parse_items o (Some (c - 48)%N) s'
          else do? k <- code_of o c; do? r <- parse_items o None s'; Ok ((1%N, k) :: r)
      | Some n =>
          if is_digit c then parse_items o (Some (n * 10 + (c - 48))%N) s'
          else do? k <- code_of o c; do? r <- parse_items o None s'; Ok ((n, k) :: r)
      end
  end.

Definition code_size (k : scode) : Z :=
  match k with SPad | SChar | SStr | SBool | SPascal => 1 | SInt _ n => Z.of_nat n | SPointer => 8 end.
(** In native mode, an item is preceded by as many padding bytes as bring it to a multiple of its
    alignment, also if its count is 0. *)
Definition code_align (k : scode) : Z :=
  match k with SInt _ n => Z.of_nat n | SPointer => 8 | _ => 1 end.
Fixpoint align_items (offset : Z) (l : list (N * scode)) : list (N * scode) :=
  match l with
  | [] => []
  | (n, k) :: l' =>
      let pad := (- offset) mod code_align k in
      let rest := (n, k) :: align_items (offset + pad + Z.of_N n * code_size k) l' in
      if pad =? 0 then rest else (Z.to_N pad, SPad) :: rest
  end.
Definition arrange (o : sorder) (l : list (N * scode)) : list (N * scode) :=
  match o with Native => align_items 0 l | _ => l end.

Definition parse_format (s : pystr) : res (sorder * list (N * scode)) :=
  if negb (forallb (fun c => (c <? 128)%N) s) then Err UnicodeEncodeError
  else match s with
  | c :: s' =>
      match order_of c with
      | Some o => do? l <- parse_items o None s'; Ok (o, arrange o l)
      | None => do? l <- parse_items Native None s; Ok (Native, arrange Native l)
      end
  | [] => Ok (Native, [])
  end.

Definition items_size (l : list (N * scode)) : Z :=
  fold_right (fun it a => Z.of_N (fst it) * code_size (snd it) + a) 0 l.

(** struct.calcsize(fmt) *)
Definition struct_calcsize (fmt : pystr) : res Z :=
  do? (_, l) <- parse_format fmt;
  if ssize_max <? items_size l then Err StructError else Ok (items_size l).

(** One slot per value (or run of padding). *)
Inductive slot := SlPad (n : nat) | SlStr (n : nat) | SlChar | SlInt (signed : bool) (size : nat)
| SlBool | SlPascal (n : nat) | SlPointer.
Definition slots_of_item (it : N * scode) : list slot :=
  let n := N.to_nat (fst it) in
  match snd it with
  | SPad => [SlPad n]
  | SStr => [SlStr n]
  | SChar => repeat SlChar n
  | SInt b k => repeat (SlInt b k) n
  | SBool => repeat SlBool n
  | SPascal => [SlPascal n]
  | SPointer => repeat SlPointer n
  end.
Definition slots_of (l : list (N * scode)) : list slot := flat_map slots_of_item l.
Definition slot_takes_value (s : slot) : bool := match s with SlPad _ => false | _ => true end.
Definition slot_size (s : slot) : nat :=
  match s with SlPad n | SlStr n | SlPascal n => n | SlChar | SlBool => 1 | SlInt _ k => k | SlPointer => 8 end%nat.

Definition order_bytes (o : sorder) (b : bytes) : bytes :=
  match o with BigStd => b | _ => rev b end.

Definition int_in_range (signed : bool) (size : nat) (z : Z) : bool :=
  if signed then (- 2 ^ (8 * Z.of_nat size - 1) <=? z) && (z <? 2 ^ (8 * Z.of_nat size - 1))
  else (0 <=? z) && (z <? 256 ^ Z.of_nat size).

(** Truth value of an object: objects of other sorts can be either. *)
Definition truth (v : pyval) : bool :=
  match v with
  | VInt z => negb (z =? 0)
  | VBytes b => negb (length b =? 0)%nat
  | VStr s => negb (length s =? 0)%nat
  | VTuple l => negb (length l =? 0)%nat
  | VOther n => N.odd n
  end.
(** 'p' in n bytes: one byte for the length, at most 255, and then as much of the string as there is
    room for. A pointer can be given as a signed or as an unsigned number. *)
Definition pack_pascal (n : nat) (b : bytes) : bytes :=
  match n with
  | O => []
  | S m => bZ (Z.of_nat (Nat.min 255 (Nat.min (length b) m))) :: firstn m b ++ repeat x00 (m - length b)
  end.
Definition pack_slot (o : sorder) (s : slot) (v : pyval) : res bytes :=
  match s, v with
  | SlStr n, VBytes b => Ok (firstn n b ++ repeat x00 (n - length b))
  | SlChar, VBytes [b] => Ok [b]
  | SlInt sg k, VInt z =>
      if int_in_range sg k z then Ok (order_bytes o (be_bytes k z)) else Err StructError
  | SlBool, v => Ok [if truth v then x01 else x00]
  | SlPascal n, VBytes b => Ok (pack_pascal n b)
  | SlPointer, VInt z =>
      if int_in_range true 8 z || int_in_range false 8 z then Ok (order_bytes o (be_bytes 8 z)) else Err StructError
  | _, _ => Err StructError
  end.

Fixpoint pack_slots (o : sorder) (l : list slot) (vs : list pyval) : res bytes :=
  match l with
  | [] => match vs with [] => Ok [] | _ => Err StructError end
  | SlPad n :: l' => do? r <- pack_slots o l' vs; Ok (repeat x00 n ++ r)
  | s :: l' =>
      match vs with
      | [] => Err StructError
      | v :: vs' => do? b <- pack_slot o s v; do? r <- pack_slots o l' vs'; Ok (b ++ r)
      end
  end.

(** struct.pack(fmt, v1, ..., vn) *)
Definition struct_pack (fmt : pystr) (vs : list pyval) : res bytes :=
  do? (o, l) <- parse_format fmt;
  if ssize_max <? items_size l then Err StructError
  else pack_slots o (slots_of l) vs.

Definition unpack_slot (o : sorder) (s : slot) (b : bytes) : pyval :=
  match s with
  | SlInt sg _ => VInt (int_from_bytes (order_bytes o b) sg)
  | SlBool => VInt (match b with [x00] => 0 | _ => 1 end)
  | SlPascal _ => match b with [] => VBytes [] | c :: b' => VBytes (firstn (Z.to_nat (Zb c)) b') end
  | SlPointer => VInt (int_from_bytes (order_bytes o b) false)
  | _ => VBytes b
  end.

Fixpoint unpack_slots (o : sorder) (l : list slot) (b : bytes) : list pyval :=
  match l with
  | [] => []
  | s :: l' =>
      let rest := unpack_slots o l' (skipn (slot_size s) b) in
      if slot_takes_value s then unpack_slot o s (firstn (slot_size s) b) :: rest else rest
  end.

Definition unpack_fails (s : slot) : bool := match s with SlPascal O => true | _ => false end.
(** struct.unpack(fmt, b): requires len(b) = calcsize(fmt). *)
Definition struct_unpack (fmt : pystr) (b : bytes) : res (list pyval) :=
  do? (o, l) <- parse_format fmt;
  if ssize_max <? items_size l then Err StructError
  else if Z.of_nat (length b) =? items_size l then
    (if existsb unpack_fails (slots_of l) then Err OtherError else Ok (unpack_slots o (slots_of l) b))
  else Err StructError.
