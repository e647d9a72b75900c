(** Vocabulary for C96: bytes at places of a file. *)
From Verif Require Import PyBase Stream Seek.

(** From position [p] on, the file has the bytes [b]. *)
Definition bytes_at (file : bytes) (p : nat) (b : bytes) : Prop :=
  forall i, (i < length b)%nat -> nth_error file (p + i) = nth_error b i.
(** [new] is [old] with [b] put at position [p]: what was there is replaced, and if the file ended
    before [p], zero bytes fill the gap. Writing nothing does nothing. *)
Definition put (old : bytes) (p : nat) (b : bytes) (new : bytes) : Prop :=
  match b with
  | [] => new = old
  | _ =>
      length new = Nat.max (length old) (p + length b) /\
      forall i, (i < length new)%nat ->
        nth_error new i =
          if (p <=? i) && (i <? p + length b) then nth_error b (i - p)
          else if i <? length old then nth_error old i
          else Some x00
  end%nat.

(** Reading a value, or a record, at position [p] of the file gives [v] and ends at position [q]. *)
Definition value_at (file : bytes) (p q : nat) (f : finstr) (v : pyval) : Prop :=
  read_instr f (mkstream file p) = (mkstream file q, Ok v).
Definition record_at (file : bytes) (p q : nat) (f : fmt_dict) (d : dict pyval) : Prop :=
  read_dict f (mkstream file p) = (mkstream file q, Ok d).

(** Operations that can change the contents. *)
Definition writes (o : op) : bool :=
  match o with OWrite _ _ | OWriteRecord _ _ | OWriteRecords _ _ => true | _ => false end.
Definition truncates (o : op) : bool := match o with OTruncate _ => true | _ => false end.
(** No operation of the history touches the bytes from [p] to [q]: writing starts at the position
    before the operation and ends at that after it; a file can be cut off only behind [q]. *)
Fixpoint spares (p q : nat) (l : list op) (s : stream) : Prop :=
  match l with
  | [] => True
  | o :: l' =>
      let s' := fst (run_op o s) in
      (writes o = true -> spos s' <= p \/ q <= spos s)%nat /\
      (truncates o = true -> q <= length (sbuf s') \/ sbuf s' = sbuf s)%nat /\
      spares p q l' s'
  end.

(** Values to be written at given positions: seek there, write. *)
Definition place := (nat * (finstr * pyval))%type.
Definition write_places (l : list place) : list op :=
  flat_map (fun x => [OSeek (Z.of_nat (fst x)) 0%Z; OWrite (fst (snd x)) (snd (snd x))]) l.
(** A value is written as these bytes. *)
Definition written_as (f : finstr) (v : pyval) (b : bytes) : Prop :=
  write_instr f v (stream_of []) = (mkstream b (length b), Ok tt).
Definition apart (x y : nat * bytes) : Prop :=
  (fst x + length (snd x) <= fst y \/ fst y + length (snd y) <= fst x)%nat.
