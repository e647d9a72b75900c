(** Comparing and searching: the operators ==, !=, <, <=, >, >= and the methods index and count and the
    operator in, for key pairs, tuples of keys and key lists. *)
From Verif Require Import PyBase Key PrivateKeyList UserList.
Open Scope Z_scope.

(** A tuple whose elements are keys: a PublicPrivateKeyPair (private_key_list.py:26-46, a subclass of
    tuple) or a plain tuple. *)
Inductive tup := APair (q : pair) | ATuple (l : list key).
Definition tup_keys (t : tup) : list key :=
  match t with APair q => [pr_public q; pr_private q] | ATuple l => l end.
(** tuple.__eq__; Python compares the elements with ==. *)
Fixpoint keys_eqb (a b : list key) : bool :=
  match a, b with
  | [], [] => true
  | x :: a', y :: b' => key_eqb x y && keys_eqb a' b'
  | _, _ => false
  end.
(** ==: PublicPrivateKeyPair.__eq__, lines 41-46, is asked first even if the pair is on the right,
    because its class is a subclass of tuple. *)
Definition tup_eq (t u : tup) : bool :=
  match t, u with
  | APair a, APair b => pair_eqb a b
  | ATuple a, ATuple b => keys_eqb a b
  | _, _ => false
  end.
(** !=: PublicPrivateKeyPair does not define __ne__ and inherits tuple.__ne__, which does not look at
    the class. *)
Definition tup_ne (t u : tup) : bool := negb (keys_eqb (tup_keys t) (tup_keys u)).

Inductive order := Less | LessEq | Greater | GreaterEq.
Definition order_of (o : order) (a b : nat) : bool :=
  match o with
  | Less => (a <? b)%nat | LessEq => (a <=? b)%nat | Greater => (b <? a)%nat | GreaterEq => (b <=? a)%nat
  end.
(** Tuples are ordered by their first elements that are not equal; keys have no order (key.py defines
    none): TypeError. If there are none, by length. *)
Fixpoint keys_order (o : order) (a b : list key) : res bool :=
  match a, b with
  | x :: a', y :: b' => if key_eqb x y then keys_order o a' b' else Err TypeError
  | _, _ => Ok (order_of o (length a) (length b))
  end.
(** tuple.__lt__ and so on, which PublicPrivateKeyPair inherits and which do not look at the class. *)
Definition tup_order (o : order) (t u : tup) : res bool := keys_order o (tup_keys t) (tup_keys u).
(** list.__lt__ and so on, on self.data (collections.UserList.__lt__, ...). *)
Fixpoint pairs_order (o : order) (l m : list pair) : res bool :=
  match l, m with
  | x :: l', y :: m' =>
      if pair_eqb x y then pairs_order o l' m' else keys_order o (tup_keys (APair x)) (tup_keys (APair y))
  | _, _ => Ok (order_of o (length l) (length m))
  end.
Fixpoint pairs_eqb (l m : list pair) : bool :=
  match l, m with
  | [], [] => true
  | x :: l', y :: m' => pair_eqb x y && pairs_eqb l' m'
  | _, _ => false
  end.
(** What a list can be compared with: a PrivateKeyList, a plain list of pairs, or anything else that is
    neither a list nor a UserList. *)
Inductive operand := AList (l : pkl) | APlain (l : list pair) | AnythingElse.
Definition operand_pairs (x : operand) : option (list pair) :=
  match x with AList l => Some (l_pairs l) | APlain l => Some l | AnythingElse => None end.
(** UserList.__eq__: self.data == other.data, or == other. object.__ne__ negates it. *)
Definition list_eq (l : pkl) (x : operand) : bool :=
  match operand_pairs x with Some m => pairs_eqb (l_pairs l) m | None => false end.
Definition list_ne (l : pkl) (x : operand) : bool := negb (list_eq l x).
Definition list_order (o : order) (l : pkl) (x : operand) : res bool :=
  match operand_pairs x with Some m => pairs_order o (l_pairs l) m | None => Err TypeError end.

(** list.count, in and list.index(x, start, stop); negative limits count from the end. *)
Definition list_count (l : pkl) (q : pair) : Z := Z.of_nat (length (filter (fun y => pair_eqb y q) (l_pairs l))).
Definition list_contains (l : pkl) (q : pair) : bool := existsb (fun y => pair_eqb y q) (l_pairs l).
Definition index_limit (n i : Z) : Z := if i <? 0 then Z.max 0 (i + n) else i.
Fixpoint index_from (i : Z) (start stop : Z) (l : list pair) (q : pair) : res Z :=
  match l with
  | [] => Err ValueError
  | y :: l' =>
      if (start <=? i) && (i <? stop) && pair_eqb y q then Ok i
      else index_from (i + 1) start stop l' q
  end.
Definition list_index (l : pkl) (q : pair) (start stop : option Z) : res Z :=
  let n := Z.of_nat (length (l_pairs l)) in
  index_from 0 (match start with Some i => index_limit n i | None => 0 end)
             (match stop with Some i => index_limit n i | None => n end) (l_pairs l) q.
