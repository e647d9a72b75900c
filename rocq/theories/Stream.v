(** PascalStyleByteStream (pascal_style_byte_stream.py:16-484). *)
From Verif Require Import PyBase IntBytes Utf8 StructFmt.
Open Scope Z_scope.

(** io.BytesIO: the buffer and the position (which may lie past the end). *)
Record stream := mkstream { sbuf : bytes; spos : nat }.

(** io.BytesIO(b) / PascalStyleByteStream(b). *)
Definition stream_of (b : bytes) : stream := mkstream b 0.
Definition unread (s : stream) : bytes := skipn (spos s) (sbuf s).

(** BytesIO.read(n): n < 0 reads everything; n outside the range of Py_ssize_t overflows. *)
Definition bio_read (n : Z) (s : stream) : stream * res bytes :=
  if (ssize_max <? n) || (n <? - ssize_max - 1) then (s, Err OverflowError)
  else
    let avail := unread s in
    let k := if n <? 0 then length avail
             else Z.to_nat (Z.min n (Z.of_nat (length avail))) in
    (mkstream (sbuf s) (spos s + k), Ok (firstn k avail)).

(** BytesIO.write(b): overwrites at the position, zero-filling a gap, extending at the end;
    writing nothing does nothing. *)
Definition bio_write (b : bytes) (s : stream) : stream :=
  match b with
  | [] => s
  | _ => let buf := sbuf s ++ repeat x00 (spos s - length (sbuf s)) in
         mkstream (firstn (spos s) buf ++ b ++ skipn (spos s + length b) buf)
                  (spos s + length b)
  end.
Definition getvalue (s : stream) : bytes := sbuf s.

(** Reader monad over a stream; the stream is kept also when an exception is raised. *)
Definition P (A : Type) := stream -> stream * res A.
Definition pret {A} (a : A) : P A := fun s => (s, Ok a).
Definition perr {A} (e : exn) : P A := fun s => (s, Err e).
Definition plift {A} (r : res A) : P A := fun s => (s, r).
Definition pbind {A B} (x : P A) (f : A -> P B) : P B :=
  fun s => match x s with (s', Ok a) => f a s' | (s', Err e) => (s', Err e) end.
Notation "'do!' x <- e ; f" := (pbind e (fun x => f))
  (at level 200, x pattern, e at level 100, f at level 200).

(** PascalStyleFormatInstruction, lines 16-34. *)
Inductive pinstr := BYTES | STRING | MPINT.

(** A value of FormatInstructionsDict, lines 37-64: a struct format string, an
    instruction, an instruction with a length size, or (not typed) anything else. *)
Inductive finstr :=
| FStruct (fmt : pystr)
| FPascal (i : pinstr)
| FPascalSize (i : pinstr) (size : Z)
| FBad.

(** OPENSSH_DEFAULT_STRING_LENGTH_SIZE, lines 80-94. *)
Definition default_size : Z := 4.

(** read_fixed_bytes, lines 228-248. *)
Definition read_fixed_bytes (num_bytes : Z) : P bytes :=
  do! read_bytes <- bio_read num_bytes;
  if Z.of_nat (length read_bytes) <? num_bytes then
    (if (length read_bytes =? 0)%nat
     then perr (EOFError true (str "Underlying bytestream is empty"))
     else perr (EOFError false (str "Fewer than 'num_bytes' bytes remaining in the underlying bytestream")))
  else pret read_bytes.

(** read_pascal_bytes, lines 250-274. *)
Definition read_pascal_bytes (size : Z) : P bytes :=
  if size <=? 0 then perr ValueError
  else
    do! l <- read_fixed_bytes size;
    read_fixed_bytes (int_from_bytes l false).

(** read_from_format_instruction, lines 96-154; [sz] is string_length_size. The
    dispatch of read_from_format_instructions_dict (lines 178-187) on the
    three shapes of instruction is merged in: a FPascalSize is the instruction
    with an explicit size. *)
Definition read_instr (f : finstr) : P pyval :=
  match f with
  | FStruct fmt =>
      do! calcsize <- plift (struct_calcsize fmt);
      do! read_bytes <- read_fixed_bytes calcsize;
      do! read_unpack <- plift (struct_unpack fmt read_bytes);
      match read_unpack with
      | [v] => pret v
      | l => pret (VTuple l)
      end
  | FPascal i | FPascalSize i _ =>
      let size := match f with FPascalSize _ n => n | _ => default_size end in
      do! read_bytes <- read_pascal_bytes size;
      match i with
      | BYTES => pret (VBytes read_bytes)
      | STRING => do! s <- plift (utf8_decode read_bytes); pret (VStr s)
      | MPINT => pret (VInt (int_from_bytes read_bytes true))
      end
  | FBad => perr ValueError
  end.

Definition fmt_dict := dict finstr.

(** read_from_format_instructions_dict, lines 156-189. *)
Fixpoint read_dict (f : fmt_dict) : P (dict pyval) :=
  match f with
  | [] => pret []
  | (k, i) :: f' =>
      do! v <- read_instr i;
      do! r <- read_dict f';
      pret ((k, v) :: r)
  end.

(** read_repeatedly_from_format_instructions_dict, lines 191-226. The [while True]
    loop runs on fuel. *)
Fixpoint read_loop (fuel : nat) (f : fmt_dict) (acc : list (dict pyval)) : P (list (dict pyval)) :=
  fun s =>
  match fuel with
  | O => (s, Err OutOfFuel)
  | S n =>
      match read_dict f s with
      | (s', Ok d) => read_loop n f (acc ++ [d]) s'
      | (s', Err (EOFError true _)) => (s', Ok acc)
      | (s', Err e) => (s', Err e)
      end
  end.
Definition read_repeatedly (f : fmt_dict) : P (list (dict pyval)) :=
  fun s =>
  match f with
  | [] => (s, Err ValueError)
  | _ => read_loop (S (length (unread s))) f [] s
  end.

(** write_from_format_instruction, lines 276-346: the bytes to be written. *)
Definition write_payload (i : pinstr) (v : pyval) : res bytes :=
  match i with
  | BYTES => match v with VBytes b => Ok b | _ => Err ValueError end
  | STRING => match v with VStr s => utf8_encode s | _ => Err ValueError end
  | MPINT =>
      match v with
      | VInt z => int_to_bytes z ((bit_length z + (if 0 <? z then 8 else 7)) / 8) true
      | _ => Err ValueError
      end
  end.
Definition write_pascal (i : pinstr) (size : Z) (v : pyval) : res bytes :=
  do? b <- write_payload i v;
  do? l <- int_to_bytes (Z.of_nat (length b)) size false;
  Ok (l ++ b).
Definition instr_bytes (f : finstr) (v : pyval) : res bytes :=
  match f with
  | FStruct fmt => struct_pack fmt [v]
  | FPascal i => write_pascal i default_size v
  | FPascalSize i n => write_pascal i n v
  | FBad => Err ValueError
  end.
Definition write_instr (f : finstr) (v : pyval) : P unit :=
  fun s => match instr_bytes f v with
           | Ok b => (bio_write b s, Ok tt)
           | Err e => (s, Err e)
           end.

(** write_from_format_instructions_dict, lines 348-382. [vals] is the mapping;
    [values_dict[k]] is evaluated just before the write of [k]. *)
Fixpoint write_dict (f : fmt_dict) (vals : dict pyval) : P unit :=
  match f with
  | [] => pret tt
  | (k, i) :: f' =>
      do! v <- plift (ditem k vals);
      do! _ <- write_instr i v;
      write_dict f' vals
  end.

(** write_repeatedly_from_format_instructions_dict, lines 384-408. *)
Fixpoint write_repeatedly (f : fmt_dict) (l : list (dict pyval)) : P unit :=
  match l with
  | [] => pret tt
  | d :: l' => do! _ <- write_dict f d; write_repeatedly f l'
  end.

(** isinstance(value, instruction.value), lines 444, 449 (enum values 21, 26, 31). *)
Definition is_instance (v : pyval) (i : pinstr) : bool :=
  match i, v with
  | BYTES, VBytes _ | STRING, VStr _ | MPINT, VInt _ => true
  | _, _ => false
  end.
Definition class_name (i : pinstr) : pystr :=
  match i with BYTES => str "bytes" | STRING => str "str" | MPINT => str "int" end.

(** check_dict_matches_format_instructions_dict, lines 410-459. *)
Definition check_field (target : dict pyval) (k : pystr) (i : finstr) : W unit :=
  match dget k target with
  | None => wwarn (WMissing k)
  | Some v =>
      match i with
      | FStruct fmt =>
          match struct_pack fmt [v] with
          | Ok _ => wret tt
          | Err StructError => wwarn (WFormatted k fmt)
          | Err e => werr e
          end
      | FPascal p | FPascalSize p _ =>
          if is_instance v p then wret tt else wwarn (WClass k (class_name p))
      | FBad => werr ValueError
      end
  end.
Fixpoint check_dict (target : dict pyval) (f : fmt_dict) : W unit :=
  match f with
  | [] => wret tt
  | (k, i) :: f' => check_field target k i ;; check_dict target f'
  end.
