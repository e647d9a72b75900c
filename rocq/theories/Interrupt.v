(** Writing to a stream when an exception can come from outside at any time: KeyboardInterrupt, the
    timeout of a signal handler, MemoryError. Such an exception comes between two operations on the
    stream (BytesIO.write is one operation). [n] is the number of operations before it comes. *)
From Verif Require Import PyBase IntBytes Utf8 StructFmt Stream.

Inductive outcome := Returned | Raised (e : exn) | Interrupted.
(** A run on a stream: the stream it leaves, the number of operations that are left, the outcome. If
    the exception comes after the last operation the stream is that of a run that returned. *)
Definition run := (stream * nat * outcome)%type.

(** write_from_format_instruction, pascal_style_byte_stream.py:276-346: one BytesIO.write, line 346,
    after everything that can fail. *)
Definition write_instr_until (f : finstr) (v : pyval) (s : stream) (n : nat) : run :=
  match n with
  | O => (s, O, Interrupted)
  | S n' => match instr_bytes f v with
            | Ok b => (bio_write b s, n', Returned)
            | Err e => (s, n, Raised e)
            end
  end.
(** write_from_format_instructions_dict, lines 348-382. *)
Fixpoint write_dict_until (f : fmt_dict) (vals : dict pyval) (s : stream) (n : nat) : run :=
  match f with
  | [] => (s, n, Returned)
  | (k, i) :: f' =>
      match ditem k vals with
      | Err e => (s, n, Raised e)
      | Ok v => match write_instr_until i v s n with
                | (s', n', Returned) => write_dict_until f' vals s' n'
                | r => r
                end
      end
  end.
(** write_repeatedly_from_format_instructions_dict, lines 384-408. *)
Fixpoint write_repeatedly_until (f : fmt_dict) (l : list (dict pyval)) (s : stream) (n : nat) : run :=
  match l with
  | [] => (s, n, Returned)
  | d :: l' => match write_dict_until f d s n with
               | (s', n', Returned) => write_repeatedly_until f l' s' n'
               | r => r
               end
  end.
