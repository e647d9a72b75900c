(** Random access: the methods of io.BytesIO that PascalStyleByteStream inherits
    (pascal_style_byte_stream.py:67), and histories of operations on one stream. *)
From Verif Require Import PyBase Stream.
Open Scope Z_scope.

(** Arguments of the type Py_ssize_t and int of C. *)
Definition is_ssize (n : Z) : bool := (- ssize_max - 1 <=? n) && (n <=? ssize_max).
Definition is_cint (n : Z) : bool := (- 2 ^ 31 <=? n) && (n <? 2 ^ 31).

(** BytesIO.seek(offset, whence). A position before the beginning is the beginning, except that with
    whence 0 it is refused. *)
Definition bio_seek (offset whence : Z) : P Z := fun s =>
  let go (from : Z) : stream * res Z :=
    if ssize_max - from <? offset then (s, Err OverflowError)
    else let p := Z.max 0 (from + offset) in (mkstream (sbuf s) (Z.to_nat p), Ok p) in
  if negb (is_ssize offset && is_cint whence) then (s, Err OverflowError)
  else if (whence =? 0) && (offset <? 0) then (s, Err ValueError)
  else if whence =? 0 then go 0
  else if whence =? 1 then go (Z.of_nat (spos s))
  else if whence =? 2 then go (Z.of_nat (length (sbuf s)))
  else (s, Err ValueError).
(** BytesIO.tell() *)
Definition bio_tell : P Z := fun s => (s, Ok (Z.of_nat (spos s))).
(** BytesIO.truncate(size=None): the position stays where it is. *)
Definition bio_truncate (size : option Z) : P Z := fun s =>
  match size with
  | None => (mkstream (firstn (spos s) (sbuf s)) (spos s), Ok (Z.of_nat (spos s)))
  | Some n =>
      if negb (is_ssize n) then (s, Err OverflowError)
      else if n <? 0 then (s, Err ValueError)
      else (mkstream (firstn (Z.to_nat (Z.min n (Z.of_nat (length (sbuf s))))) (sbuf s)) (spos s), Ok n)
  end.

(** What a caller can do with a stream. *)
Inductive op :=
| OSeek (offset whence : Z) | OTell | OTruncate (size : option Z) | OGetvalue
| OReadFixed (n : Z) | OReadPascal (n : Z) | ORead (f : finstr)
| OReadRecord (f : fmt_dict) | OReadRecords (f : fmt_dict)
| OWrite (f : finstr) (v : pyval) | OWriteRecord (f : fmt_dict) (vals : dict pyval)
| OWriteRecords (f : fmt_dict) (l : list (dict pyval)).
Inductive answer :=
| ADone | ANumber (z : Z) | AValue (v : pyval) | ARecord (d : dict pyval) | ARecords (l : list (dict pyval)).
Definition answers {A} (x : P A) (f : A -> answer) : P answer := do! a <- x; pret (f a).
Definition run_op (o : op) : P answer :=
  match o with
  | OSeek offset whence => answers (bio_seek offset whence) ANumber
  | OTell => answers bio_tell ANumber
  | OTruncate size => answers (bio_truncate size) ANumber
  | OGetvalue => fun s => (s, Ok (AValue (VBytes (getvalue s))))
  | OReadFixed n => answers (read_fixed_bytes n) (fun b => AValue (VBytes b))
  | OReadPascal n => answers (read_pascal_bytes n) (fun b => AValue (VBytes b))
  | ORead f => answers (read_instr f) AValue
  | OReadRecord f => answers (read_dict f) ARecord
  | OReadRecords f => answers (read_repeatedly f) ARecords
  | OWrite f v => answers (write_instr f v) (fun _ => ADone)
  | OWriteRecord f vals => answers (write_dict f vals) (fun _ => ADone)
  | OWriteRecords f l => answers (write_repeatedly f l) (fun _ => ADone)
  end.
(** A history: a caller that goes on after exceptions. *)
Fixpoint run_ops (l : list op) (s : stream) : stream * list (res answer) :=
  match l with
  | [] => (s, [])
  | o :: l' => let (s1, r) := run_op o s in let (s2, rs) := run_ops l' s1 in (s2, r :: rs)
  end.
