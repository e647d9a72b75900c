(** Specification of struct format strings (documentation of Python's struct module, "Format
    Strings" and "Native sizes and alignment" on a 64-bit host), independent of the model's parser.
    The codes e f d, and ? in native mode, are left out. *)
From Verif Require Import PyBase Stream SpecWire.
Open Scope Z_scope.

(** A part of the layout: padding, a char (exactly one byte), a value of a fixed-size type, a truth
    value, a Pascal string in a fixed number of bytes, the first of which has the length, or a pointer. *)
Inductive part := Gap (n : nat) | Char | Value (t : ftype) | Bool_ | Pascal (n : nat) | Pointer (big : bool).
Definition part_size (q : part) : nat :=
  match q with
  | Gap n | Pascal n => n
  | Char | Bool_ => 1
  | Pointer _ => 8
  | Value (TInt _ _ n) | Value (TBlob n) => n
  | Value _ => 0
  end%nat.
Fixpoint total (ps : list part) : nat :=
  match ps with [] => 0 | q :: ps' => part_size q + total ps' end%nat.

(** The prefix, whether it selects standard sizes, and whether numbers are big-endian. *)
Definition orders : list (string * (bool * bool)) :=
  [("", (false, false)); ("@", (false, false)); ("=", (true, false)); ("<", (true, false));
   (">", (true, true)); ("!", (true, true))]%string.
(** The codes for integers in native mode; for the other modes see [int_codes]. *)
Definition native_codes : list (string * (bool * nat)) :=
  [("b", (true, 1)); ("B", (false, 1)); ("h", (true, 2)); ("H", (false, 2));
   ("i", (true, 4)); ("I", (false, 4)); ("l", (true, 8)); ("L", (false, 8));
   ("q", (true, 8)); ("Q", (false, 8)); ("n", (true, 8)); ("N", (false, 8))]%string%nat.
(** What a code with a repeat count stands for, and its alignment in native mode: for s and p the
    count is the length of one string, for x the number of padding bytes, and for the others a number
    of values. *)
Inductive code (std big : bool) : pystr -> nat -> nat -> list part -> Prop :=
| code_x n : code std big (str "x") n 1 [Gap n]
| code_s n : code std big (str "s") n 1 [Value (TBlob n)]
| code_c n : code std big (str "c") n 1 (repeat Char n)
| code_bool n : std = true -> code std big (str "?") n 1 (repeat Bool_ n)
| code_p n : code std big (str "p") n 1 [Pascal n]
| code_int c sgn size n : In (c, (sgn, size)) (if std then int_codes else native_codes) ->
    code std big (str c) n size (repeat (Value (TInt big sgn size)) n)
| code_pointer n : std = false -> code std big (str "P") n 8 (repeat (Pointer big) n).
(** The number of bytes from [offset] to the next multiple of [a]; in standard modes nothing is
    aligned. *)
Definition gap_size (std : bool) (offset a gap : nat) : Prop :=
  if std then gap = 0%nat else (gap < a)%nat /\ exists k, (offset + gap = k * a)%nat.
Definition gap_before (n : nat) : list part := match n with O => [] | _ => [Gap n] end.
Definition white (c : N) : Prop := (9 <= c <= 13)%N \/ c = 32%N.
(** Without digits the count is 1. *)
Definition repeat_count (ds : pystr) : nat :=
  match ds with [] => 1%nat | _ => Z.to_nat (decimal ds) end.
(** [items std big off s ps]: from offset [off] on, [s] describes the layout [ps]. *)
Inductive items (std big : bool) : nat -> pystr -> list part -> Prop :=
| items_nil off : items std big off [] []
| items_white off c s ps : white c -> items std big off s ps -> items std big off (c :: s) ps
| items_code off ds c a gap s ps qs : Forall digit ds -> code std big c (repeat_count ds) a ps ->
    gap_size std off a gap -> items std big (off + gap + total ps) s qs ->
    items std big off (ds ++ c ++ s) (gap_before gap ++ ps ++ qs).
(** [fmt] is a format string for the layout [ps]. *)
Definition format (fmt : pystr) (ps : list part) : Prop :=
  exists o std big s, In (o, (std, big)) orders /\ fmt = str o ++ s /\ items std big 0 s ps.

(** A number of bytes that can be read at all. *)
Definition readable (ps : list part) : Prop := Z.of_nat (total ps) <= ssize_max.
(** How many values there are. *)
Definition takes_value (q : part) : bool := match q with Gap _ => false | _ => true end.
Definition arity (ps : list part) : nat := length (filter takes_value ps).

(** Truth values: zero and what is empty is false. An object that is neither number, string, bytes
    nor tuple can be either; the model's objects with odd numbers are the true ones. *)
Definition is_true (v : pyval) : Prop :=
  match v with
  | VInt z => z <> 0
  | VBytes b => b <> []
  | VStr s => s <> []
  | VTuple l => l <> []
  | VOther n => N.Odd n
  end.

(** [holds ps vs b]: the bytes [b] hold the values [vs] in the layout [ps]; padding may be anything.
    Any byte but 0 is true. The string of a Pascal string is as long as its first byte says, or as there
    is room; nothing holds a Pascal string in 0 bytes. *)
Inductive holds : list part -> list pyval -> bytes -> Prop :=
| holds_nil : holds [] [] []
| holds_gap n g ps vs b : length g = n -> holds ps vs b -> holds (Gap n :: ps) vs (g ++ b)
| holds_char x ps vs b : holds ps vs b -> holds (Char :: ps) (VBytes [x] :: vs) (x :: b)
| holds_value t v x ps vs b : wire t v x -> holds ps vs b -> holds (Value t :: ps) (v :: vs) (x ++ b)
| holds_bool x z ps vs b : (x = x00 /\ z = 0 \/ x <> x00 /\ z = 1) -> holds ps vs b ->
    holds (Bool_ :: ps) (VInt z :: vs) (x :: b)
| holds_pascal n x w g ps vs b : length (x :: w ++ g) = n -> (Zb x = Z.of_nat (length w) \/ Z.of_nat (length w) <= Zb x /\ g = []) ->
    holds ps vs b -> holds (Pascal n :: ps) (VBytes w :: vs) (x :: w ++ g ++ b)
| holds_pointer big z x ps vs b : wire (TInt big false 8) (VInt z) x -> holds ps vs b ->
    holds (Pointer big :: ps) (VInt z :: vs) (x ++ b).
(** [packs ps vs b]: the bytes [b] are what is written for the values [vs]: padding is zero, and
    values must have the right type and be in range; a string is filled up or cut off ([stored]). A
    pointer can be given as signed or as unsigned number. *)
Inductive packs : list part -> list pyval -> bytes -> Prop :=
| packs_nil : packs [] [] []
| packs_gap n ps vs b : packs ps vs b -> packs (Gap n :: ps) vs (repeat x00 n ++ b)
| packs_char x ps vs b : packs ps vs b -> packs (Char :: ps) (VBytes [x] :: vs) (x :: b)
| packs_value t v x ps vs b : conforms t v -> wire t (stored t v) x -> packs ps vs b ->
    packs (Value t :: ps) (v :: vs) (x ++ b)
| packs_bool v x ps vs b : (is_true v /\ x = x01 \/ ~ is_true v /\ x = x00) -> packs ps vs b ->
    packs (Bool_ :: ps) (v :: vs) (x :: b)
| packs_no_pascal w ps vs b : packs ps vs b -> packs (Pascal 0 :: ps) (VBytes w :: vs) b
| packs_pascal m w x g ps vs b : wire (TBlob m) (stored (TBlob m) (VBytes w)) g ->
    Zb x = Z.min 255 (Z.of_nat (Nat.min (length w) m)) -> packs ps vs b ->
    packs (Pascal (S m) :: ps) (VBytes w :: vs) (x :: g ++ b)
| packs_pointer big z x ps vs b : - 2 ^ 63 <= z < 2 ^ 64 -> wire (TInt big false 8) (VInt (z mod 2 ^ 64)) x ->
    packs ps vs b -> packs (Pointer big :: ps) (VInt z :: vs) (x ++ b).
(** What is read back of a value that was written. *)
Inductive reads_back : part -> pyval -> pyval -> Prop :=
| reads_char v : reads_back Char v v
| reads_value t v : reads_back (Value t) v (stored t v)
| reads_bool v z : (is_true v /\ z = 1 \/ ~ is_true v /\ z = 0) -> reads_back Bool_ v (VInt z)
| reads_pascal m w : reads_back (Pascal (S m)) (VBytes w) (VBytes (firstn (Nat.min 255 m) w))
| reads_pointer big z : reads_back (Pointer big) (VInt z) (VInt (z mod 2 ^ 64)).

(** The value a read returns: a single value itself, else the tuple of all. *)
Definition returned (vs : list pyval) : pyval := match vs with [v] => v | _ => VTuple vs end.

(** The codes that the model leaves out. *)
Definition supported (fmt : pystr) : Prop :=
  (forall c, In c fmt -> ~ In c (str "efd")) /\
  ((forall c, In c fmt -> ~ In c (str "?")) \/ exists o s, In o [">"; "!"; "<"; "="]%string /\ fmt = str o ++ s).
Definition ascii (fmt : pystr) : bool := forallb (fun c => (c <? 128)%N) fmt.
