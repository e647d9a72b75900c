(** Specification of the wire format, independent of the model: RFC 4251 section 5
    and the Unicode standard, as relations between values and bytes. Only the types
    of Python values (PyBase) and of format instructions (Stream) are used. *)
From Verif Require Import PyBase Stream.
Open Scope Z_scope.

(** ** Streams *)
(** The unread part of a stream. *)
Definition remaining (s : stream) : bytes := skipn (spos s) (sbuf s).
(** No Python bytes object is longer than sys.maxsize. *)
Definition sized (s : stream) : Prop := Z.of_nat (length (sbuf s)) <= ssize_max.

(** ** Integers *)
(** Unsigned big-endian value: the byte at distance i from the end weighs 256^i. *)
Fixpoint unsigned (b : bytes) : Z :=
  match b with
  | [] => 0
  | x :: r => Zb x * 256 ^ Z.of_nat (length r) + unsigned r
  end.
(** Two's complement big-endian value. *)
Definition signed (b : bytes) : Z :=
  match b with
  | [] => 0
  | x :: _ => if 128 <=? Zb x then unsigned b - 256 ^ Z.of_nat (length b) else unsigned b
  end.

(** ** UTF-8 (Unicode 3.9, D92; RFC 3629): scalar value and its code units. *)
Inductive utf8_char : N -> list N -> Prop :=
| utf8_1 c : (c < 0x80)%N -> utf8_char c [c]
| utf8_2 c x y : (c = 64 * x + y)%N -> (y < 64)%N -> (0x80 <= c < 0x800)%N ->
    utf8_char c [0xC0 + x; 0x80 + y]%N
| utf8_3 c x y z : (c = 4096 * x + 64 * y + z)%N -> (y < 64)%N -> (z < 64)%N ->
    (0x800 <= c < 0x10000)%N -> ~ (0xD800 <= c <= 0xDFFF)%N ->
    utf8_char c [0xE0 + x; 0x80 + y; 0x80 + z]%N
| utf8_4 c w x y z : (c = 262144 * w + 4096 * x + 64 * y + z)%N ->
    (x < 64)%N -> (y < 64)%N -> (z < 64)%N -> (0x10000 <= c <= 0x10FFFF)%N ->
    utf8_char c [0xF0 + w; 0x80 + x; 0x80 + y; 0x80 + z]%N.
(** [utf8 s b]: [b] is the (only) well-formed UTF-8 encoding of the text [s]. *)
Inductive utf8 : pystr -> bytes -> Prop :=
| utf8_nil : utf8 [] []
| utf8_cons c s u b : utf8_char c (map Byte.to_N u) -> utf8 s b -> utf8 (c :: s) (u ++ b).
(** The characters that have an encoding: Unicode scalar values. *)
Definition scalar (c : N) : Prop := (c <= 0x10FFFF)%N /\ ~ (0xD800 <= c <= 0xDFFF)%N.

(** ** Field types *)
Inductive ftype :=
| TBytes (k : nat)                             (* string with a k-byte length *)
| TText (k : nat)                              (* the same, holding UTF-8 text *)
| TMpint (k : nat)                             (* the same, holding an mpint *)
| TInt (big : bool) (sgn : bool) (size : nat)  (* fixed-size integer *)
| TBlob (n : nat).                             (* n raw bytes *)

(** A string: its length in [k] bytes, big-endian, then the contents. *)
Definition prefixed (k : nat) (payload b : bytes) : Prop :=
  exists l, length l = k /\ unsigned l = Z.of_nat (length payload) /\ b = l ++ payload.

(** [wire t v b]: [b] is an encoding of the value [v] at type [t]. *)
Inductive wire : ftype -> pyval -> bytes -> Prop :=
| wire_bytes k v b : prefixed k v b -> wire (TBytes k) (VBytes v) b
| wire_text k s u b : utf8 s u -> prefixed k u b -> wire (TText k) (VStr s) b
| wire_mpint k u b : prefixed k u b -> wire (TMpint k) (VInt (signed u)) b
| wire_int (big sgn : bool) size z b :
    length b = size ->
    z = (if sgn then signed else unsigned) (if big then b else rev b) ->
    wire (TInt big sgn size) (VInt z) b
| wire_blob n b : length b = n -> wire (TBlob n) (VBytes b) b.

(** The canonical encoding is the shortest one. (Only mpints have several: RFC 4251
    forbids unnecessary leading bytes.) *)
Definition canonical (t : ftype) (v : pyval) (b : bytes) : Prop :=
  wire t v b /\ forall b', wire t v b' -> (length b <= length b')%nat.

(** A record: the fields' encodings one after the other. *)
Inductive record_of (enc : ftype -> pyval -> bytes -> Prop) :
  list (pystr * ftype) -> dict pyval -> bytes -> Prop :=
| rec_nil : record_of enc [] [] []
| rec_cons k t ts v vs b bs :
    enc t v b -> record_of enc ts vs bs ->
    record_of enc ((k, t) :: ts) ((k, v) :: vs) (b ++ bs).

(** ** Meaning of format instructions (struct module documentation and the
    docstrings of PascalStyleFormatInstruction) *)
Definition int_codes : list (string * (bool * nat)) :=
  [("b", (true, 1)); ("B", (false, 1)); ("h", (true, 2)); ("H", (false, 2));
   ("i", (true, 4)); ("I", (false, 4)); ("l", (true, 4)); ("L", (false, 4));
   ("q", (true, 8)); ("Q", (false, 8))]%string%nat.
Definition order_codes : list (string * bool) :=
  [(">", true); ("!", true); ("<", false); ("=", false)]%string.
Definition digit (c : N) : Prop := (48 <= c <= 57)%N.
Definition decimal (ds : pystr) : Z :=
  fold_left (fun a c => 10 * a + (Z.of_N c - 48)) ds 0.

Inductive has_type : finstr -> ftype -> Prop :=
| ht_bytes : has_type (FPascal BYTES) (TBytes 4)
| ht_text : has_type (FPascal STRING) (TText 4)
| ht_mpint : has_type (FPascal MPINT) (TMpint 4)
| ht_bytes_n n : 0 < n <= ssize_max -> has_type (FPascalSize BYTES n) (TBytes (Z.to_nat n))
| ht_text_n n : 0 < n <= ssize_max -> has_type (FPascalSize STRING n) (TText (Z.to_nat n))
| ht_mpint_n n : 0 < n <= ssize_max -> has_type (FPascalSize MPINT n) (TMpint (Z.to_nat n))
| ht_int o big c sgn size :
    In (o, big) order_codes -> In (c, (sgn, size)) int_codes ->
    has_type (FStruct (str o ++ str c)) (TInt big sgn size)
| ht_blob ds :
    ds <> [] -> Forall digit ds -> decimal ds <= ssize_max ->
    has_type (FStruct (ds ++ str "s")) (TBlob (Z.to_nat (decimal ds))).

Definition format_types (f : fmt_dict) (ts : list (pystr * ftype)) : Prop :=
  Forall2 (fun a b => fst a = fst b /\ has_type (snd a) (snd b)) f ts.

(** ** Records as mappings *)
(** [vs] has exactly the keys [ks], in that order, with the values [vals] has for them. *)
Definition restricts (ks : list pystr) (vals vs : dict pyval) : Prop :=
  dkeys vs = ks /\ forall k, In k ks -> dget k vs = dget k vals.
(** Values for 'Ns' fields have exactly N bytes (struct.pack pads or cuts others). *)
Definition blobs_exact (ts : list (pystr * ftype)) (vals : dict pyval) : Prop :=
  forall k n b, In (k, TBlob n) ts -> dget k vals = Some (VBytes b) -> length b = n.

(** What is read back for a value: the value itself, except that in an 'Ns' field a shorter
    byte string is filled up with zero bytes at the end and a longer one is cut off. *)
Definition stored (t : ftype) (v : pyval) : pyval :=
  match t, v with
  | TBlob n, VBytes b => VBytes (firstn n (b ++ repeat x00 n))
  | _, _ => v
  end.

(** ** Where a sequence of records can stop early without being noticed *)
Definition nonempty_type (t : ftype) : bool :=
  match t with TBlob O | TInt _ _ O => false | _ => true end.
Definition prefix_size (t : ftype) : option nat :=
  match t with TBytes k | TText k | TMpint k => Some k | _ => None end.
Definition some_nonempty (ts : list (pystr * ftype)) : bool :=
  existsb (fun kt => nonempty_type (snd kt)) ts.
(** [stops ts p]: [p] is the beginning of a record of type [ts], cut off exactly before
    a field or exactly after a (non-zero) length prefix. *)
Inductive stops : list (pystr * ftype) -> bytes -> Prop :=
| stop_before k t ts : nonempty_type t = true -> stops ((k, t) :: ts) []
| stop_prefix k t ts l : prefix_size t = Some (length l) -> 0 < unsigned l <= ssize_max ->
    stops ((k, t) :: ts) l
| stop_later k t ts v b p : wire t v b -> stops ts p -> stops ((k, t) :: ts) (b ++ p).

(** ** Values of the right Python type *)
Definition conforms (t : ftype) (v : pyval) : Prop :=
  match t, v with
  | TBytes _, VBytes _ | TText _, VStr _ | TMpint _, VInt _ | TBlob _, VBytes _ => True
  | TInt _ true n, VInt z => - 2 ^ (8 * Z.of_nat n - 1) <= z < 2 ^ (8 * Z.of_nat n - 1)
  | TInt _ false n, VInt z => 0 <= z < 2 ^ (8 * Z.of_nat n)
  | _, _ => False
  end.

(** The warning about a value of the wrong type names the field and the type it should have. *)
Inductive wrong_type_warning (k : pystr) : ftype -> warning -> Prop :=
| wt_bytes n : wrong_type_warning k (TBytes n) (WClass k (str "bytes"))
| wt_text n : wrong_type_warning k (TText n) (WClass k (str "str"))
| wt_mpint n : wrong_type_warning k (TMpint n) (WClass k (str "int"))
| wt_struct t fmt : has_type (FStruct fmt) t -> wrong_type_warning k t (WFormatted k fmt).
(** The warnings a validation must give: one for each missing field and one for each
    field of the wrong type, in field order. *)
Inductive warnings_for (vals : dict pyval) : list (pystr * ftype) -> list warning -> Prop :=
| wf_nil : warnings_for vals [] []
| wf_good k t ts v ws : dget k vals = Some v -> conforms t v ->
    warnings_for vals ts ws -> warnings_for vals ((k, t) :: ts) ws
| wf_missing k t ts ws : dget k vals = None ->
    warnings_for vals ts ws -> warnings_for vals ((k, t) :: ts) (WMissing k :: ws)
| wf_bad k t ts v w ws : dget k vals = Some v -> ~ conforms t v ->
    wrong_type_warning k t w ->
    warnings_for vals ts ws -> warnings_for vals ((k, t) :: ts) (w :: ws).

(** The negative integers that write_from_format_instruction refuses (property C05). *)
Definition mpint_gap (z : Z) : Prop := exists k, 1 <= k /\ - 2 ^ (8 * k) < z < - 2 ^ (8 * k - 1).
(** No mpint field holds one of them. *)
Definition no_gap (ts : list (pystr * ftype)) (vs : dict pyval) : Prop :=
  forall x k z, In (x, TMpint k) ts -> dget x vs = Some (VInt z) -> ~ mpint_gap z.
