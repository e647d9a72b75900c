(** Specification of reads: a number is read at once, a string in two reads (its length, its bytes). *)
From Verif Require Import PyBase Stream.

Fixpoint reads_of (f : fmt_dict) : nat :=
  match f with [] => 0 | (_, FStruct _) :: f' => 1 + reads_of f' | (_, _) :: f' => 2 + reads_of f' end.
