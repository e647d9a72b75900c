(** Vocabulary for C94: programs that call methods of one stream, and what it means that the calls
    of several programs take place one after the other. *)
From Verif Require Import PyBase Stream Shared.

(** Calls of a stream's methods, what they return, and what they do when no other thread runs. *)
Inductive call :=
| ReadField (f : finstr) | ReadRecord (f : fmt_dict)
| WriteField (f : finstr) (v : pyval) | WriteRecord (f : fmt_dict) (d : dict pyval)
| WriteRecords (f : fmt_dict) (l : list (dict pyval)).
Inductive answer := Nothing | Value (v : pyval) | Record_ (d : dict pyval).
Definition answers {A} (g : A -> answer) (x : stream * res A) : stream * res answer :=
  match x with (s, Ok a) => (s, Ok (g a)) | (s, Err e) => (s, Err e) end.
Definition sequential (c : call) (s : stream) : stream * res answer :=
  match c with
  | ReadField f => answers Value (read_instr f s)
  | ReadRecord f => answers Record_ (read_dict f s)
  | WriteField f v => answers (fun _ => Nothing) (write_instr f v s)
  | WriteRecord f d => answers (fun _ => Nothing) (write_dict f d s)
  | WriteRecords f l => answers (fun _ => Nothing) (write_repeatedly f l s)
  end.
(** The same calls operation by operation. *)
Definition answering {A} (g : A -> answer) (x : prog A) : prog answer :=
  pgo x (fun a => Done (Ok (g a))).
Definition call_prog (c : call) : prog answer :=
  match c with
  | ReadField f => answering Value (g_read f)
  | ReadRecord f => answering Record_ (g_read_dict f)
  | WriteField f v => answering (fun _ => Nothing) (g_write f v)
  | WriteRecord f d => answering (fun _ => Nothing) (g_write_dict f d)
  | WriteRecords f l => answering (fun _ => Nothing) (g_write_repeatedly f l)
  end.

(** A program of a thread: it stops, or calls a method and goes on according to the answer or the
    exception. *)
Inductive client := Stop | Call (c : call) (k : res answer -> client).
Fixpoint thread (c : client) : prog unit :=
  match c with
  | Stop => Done (Ok tt)
  | Call c k => pthen (call_prog c) (fun r => thread (k r))
  end.
Definition is_done {A} (x : prog A) : Prop := match x with Done _ => True | Access _ _ => False end.
Fixpoint only (P : call -> Prop) (c : client) : Prop :=
  match c with
  | Stop => True
  | Call c k => P c /\ forall r, only P (k r)
  end.
(** Calls that write one field, or read one field of fixed size; also as a record of one field. *)
Definition one_field (c : call) : Prop :=
  match c with
  | WriteField _ _ | WriteRecord [_] _ | ReadField (FStruct _) | ReadRecord [(_, FStruct _)] => True
  | _ => False
  end.

(** [c] makes these calls, gets these results, and has come to [c']. *)
Inductive path : client -> list (call * res answer) -> client -> Prop :=
| path_here c : path c [] c
| path_call c k r l c' : path (k r) l c' -> path (Call c k) ((c, r) :: l) c'.
(** The calls one after the other. *)
Inductive in_turn : stream -> list (call * res answer) -> stream -> Prop :=
| turn_end s : in_turn s [] s
| turn_call s c r s1 l s2 : sequential c s = (s1, r) -> in_turn s1 l s2 -> in_turn s ((c, r) :: l) s2.
(** Those of thread [i]. *)
Definition those {A} (i : nat) (l : list (nat * A)) : list A :=
  map snd (filter (fun x => Nat.eqb (fst x) i) l).

(** The fields that writing the records [l] writes, one after the other; an exception instead of the
    bytes if the field is missing or its value does not fit. *)
Definition fields (f : fmt_dict) (l : list (dict pyval)) : list (res bytes) :=
  flat_map (fun d => map (fun x => do? v <- ditem (fst x) d; instr_bytes (snd x) v) f) l.
