(** Several threads that use one stream. The interpreter runs one thread at a time and can switch
    between any two operations on the stream; BytesIO.read and BytesIO.write are one operation each.
    read_repeatedly_from_format_instructions_dict is not run in this way. *)
From Verif Require Import PyBase IntBytes Utf8 StructFmt Stream.
Open Scope Z_scope.

(** What a method does between its operations on the stream: it has ended, with a result, or it goes
    on with an operation, and then according to what that operation gives. *)
Inductive access := Reading (n : Z) | Writing (b : bytes).
Definition do_access (a : access) (s : stream) : stream * res bytes :=
  match a with
  | Reading n => bio_read n s
  | Writing b => (bio_write b s, Ok [])
  end.
Inductive prog (A : Type) : Type :=
| Done (r : res A)
| Access (a : access) (k : res bytes -> prog A).
Arguments Done {A} r.
Arguments Access {A} a k.
Fixpoint pthen {A B} (x : prog A) (f : res A -> prog B) : prog B :=
  match x with
  | Done r => f r
  | Access a k => Access a (fun r => pthen (k r) f)
  end.
Definition pgo {A B} (x : prog A) (f : A -> prog B) : prog B :=
  pthen x (fun r => match r with Ok a => f a | Err e => Done (Err e) end).
Notation "'dog' x <- e ; f" := (pgo e (fun x => f))
  (at level 200, x pattern, e at level 100, f at level 200).

(** read_fixed_bytes, pascal_style_byte_stream.py:228-248. *)
Definition fixed_result (n : Z) (r : res bytes) : res bytes :=
  do? b <- r;
  if Z.of_nat (length b) <? n then
    (if (length b =? 0)%nat
     then Err (EOFError true (str "Underlying bytestream is empty"))
     else Err (EOFError false (str "Fewer than 'num_bytes' bytes remaining in the underlying bytestream")))
  else Ok b.
Definition g_fixed (n : Z) : prog bytes := Access (Reading n) (fun r => Done (fixed_result n r)).
(** read_pascal_bytes, lines 250-274. *)
Definition g_pascal (size : Z) : prog bytes :=
  if size <=? 0 then Done (Err ValueError)
  else dog l <- g_fixed size; g_fixed (int_from_bytes l false).
(** read_from_format_instruction, lines 96-154. *)
Definition unpack_result (fmt : pystr) (b : bytes) : res pyval :=
  do? l <- struct_unpack fmt b; match l with [v] => Ok v | l => Ok (VTuple l) end.
Definition g_read (f : finstr) : prog pyval :=
  match f with
  | FStruct fmt =>
      dog n <- Done (struct_calcsize fmt);
      dog b <- g_fixed n;
      Done (unpack_result fmt b)
  | FPascal i | FPascalSize i _ =>
      let size := match f with FPascalSize _ n => n | _ => default_size end in
      dog b <- g_pascal size;
      Done match i with
           | BYTES => Ok (VBytes b)
           | STRING => do? s <- utf8_decode b; Ok (VStr s)
           | MPINT => Ok (VInt (int_from_bytes b true))
           end
  | FBad => Done (Err ValueError)
  end.
(** read_from_format_instructions_dict, lines 156-189. *)
Fixpoint g_read_dict (f : fmt_dict) : prog (dict pyval) :=
  match f with
  | [] => Done (Ok [])
  | (k, i) :: f' =>
      dog v <- g_read i;
      dog r <- g_read_dict f';
      Done (Ok ((k, v) :: r))
  end.
(** write_from_format_instruction, lines 276-346: one write, line 346. *)
Definition g_write (f : finstr) (v : pyval) : prog unit :=
  match instr_bytes f v with
  | Ok b => Access (Writing b) (fun r => Done (Ok tt))
  | Err e => Done (Err e)
  end.
(** write_from_format_instructions_dict, lines 348-382. *)
Fixpoint g_write_dict (f : fmt_dict) (vals : dict pyval) : prog unit :=
  match f with
  | [] => Done (Ok tt)
  | (k, i) :: f' =>
      dog v <- Done (ditem k vals);
      dog _ <- g_write i v;
      g_write_dict f' vals
  end.
(** write_repeatedly_from_format_instructions_dict, lines 384-408. *)
Fixpoint g_write_repeatedly (f : fmt_dict) (l : list (dict pyval)) : prog unit :=
  match l with
  | [] => Done (Ok tt)
  | d :: l' => dog _ <- g_write_dict f d; g_write_repeatedly f l'
  end.

(** The threads of a process, and the stream they share; [run_threads sched] lets the threads that
    [sched] names do one operation each, in this order. Threads that have ended do nothing. *)
Fixpoint set_thread {A} (i : nat) (x : A) (l : list A) : list A :=
  match l, i with
  | [], _ => []
  | _ :: l', O => x :: l'
  | y :: l', S i' => y :: set_thread i' x l'
  end.
Definition step_thread {A} (i : nat) (st : stream * list (prog A)) : stream * list (prog A) :=
  let '(s, ts) := st in
  match nth_error ts i with
  | Some (Access a k) => let '(s', r) := do_access a s in (s', set_thread i (k r) ts)
  | _ => (s, ts)
  end.
Fixpoint run_threads {A} (sched : list nat) (st : stream * list (prog A)) : stream * list (prog A) :=
  match sched with
  | [] => st
  | i :: sched' => run_threads sched' (step_thread i st)
  end.
