(** Editing and copying a PrivateKeyList: private_key_list.py:94-103 makes it a
    collections.UserList, and 184-202 is the constructor that UserList's own methods call.
    The methods are those of CPython's Lib/collections/__init__.py (3.8 to 3.11; before 3.8 a
    slice was a plain list). Elements are pairs: PrivateKeyList does not check what is put in
    with these methods, but anything else cannot be packed. Keys are values here; Heap.v has
    which lists share which key objects. *)
From Verif Require Import PyBase Stream Classes Key Crypto PrivateKeyList.
Open Scope Z_scope.

(** ** Slices of a list of length [n] (CPython's PySlice_AdjustIndices) *)
Record slice := mkslice { sl_start : option Z; sl_stop : option Z; sl_step : option Z }.
Definition sl_step_of (s : slice) : Z := match sl_step s with Some k => k | None => 1 end.
Definition adjust (n step x : Z) : Z :=
  if x <? 0 then (if x + n <? 0 then (if step <? 0 then -1 else 0) else x + n)
  else if n <=? x then (if step <? 0 then n - 1 else n)
  else x.
Definition sl_from (n : Z) (s : slice) : Z :=
  match sl_start s with
  | Some x => adjust n (sl_step_of s) x
  | None => if sl_step_of s <? 0 then n - 1 else 0
  end.
Definition sl_until (n : Z) (s : slice) : Z :=
  match sl_stop s with
  | Some x => adjust n (sl_step_of s) x
  | None => if sl_step_of s <? 0 then -1 else n
  end.
Definition sl_count (n : Z) (s : slice) : Z :=
  let a := sl_from n s in let b := sl_until n s in let k := sl_step_of s in
  if k <? 0 then (if b <? a then (a - b - 1) / (- k) + 1 else 0)
  else (if a <? b then (b - a - 1) / k + 1 else 0).
(** The positions a slice selects, in order; a step of 0 is a ValueError. *)
Definition positions (n : nat) (s : slice) : res (list Z) :=
  if sl_step_of s =? 0 then Err ValueError
  else Ok (map (fun j => sl_from (Z.of_nat n) s + Z.of_nat j * sl_step_of s)
               (seq 0 (Z.to_nat (sl_count (Z.of_nat n) s)))).
(** self.data[slice] *)
Definition get_slice {A} (l : list A) (s : slice) : res (list A) :=
  do? ps <- positions (length l) s; rmap (py_index l) ps.
(** The elements whose position satisfies [f]; [i] is the position of the first. *)
Fixpoint keep_at {A} (f : Z -> bool) (i : Z) (l : list A) : list A :=
  match l with
  | [] => []
  | x :: l' => if f i then x :: keep_at f (i + 1) l' else keep_at f (i + 1) l'
  end.
(** del self.data[slice] *)
Definition del_slice {A} (l : list A) (s : slice) : res (list A) :=
  do? ps <- positions (length l) s;
  Ok (keep_at (fun i => negb (existsb (Z.eqb i) ps)) 0 l).
(** self.data[i] = x at a position that exists. *)
Fixpoint replace_nth {A} (i : nat) (x : A) (l : list A) : list A :=
  match i, l with
  | _, [] => []
  | O, _ :: l' => x :: l'
  | S i', y :: l' => y :: replace_nth i' x l'
  end.
Fixpoint replace_all {A} (ps : list Z) (xs : list A) (l : list A) : list A :=
  match ps, xs with
  | i :: ps', x :: xs' => replace_all ps' xs' (replace_nth (Z.to_nat i) x l)
  | _, _ => l
  end.
(** self.data[slice] = xs: with step 1 the range is replaced; otherwise element by element, and
    as many as there are. *)
Definition set_slice {A} (l : list A) (s : slice) (xs : list A) : res (list A) :=
  let n := Z.of_nat (length l) in
  if sl_step_of s =? 1 then
    let a := Z.to_nat (sl_from n s) in
    Ok (firstn a l ++ xs ++ skipn (Nat.max a (Z.to_nat (sl_until n s))) l)
  else
    do? ps <- positions (length l) s;
    if (length ps =? length xs)%nat then Ok (replace_all ps xs l) else Err ValueError.

(** ** Single elements *)
(** The position an index stands for. *)
Definition index_pos {A} (l : list A) (i : Z) : res nat :=
  let n := Z.of_nat (length l) in
  let j := if i <? 0 then i + n else i in
  if (0 <=? j) && (j <? n) then Ok (Z.to_nat j) else Err IndexError.
Definition remove_nth {A} (i : nat) (l : list A) : list A := firstn i l ++ skipn (S i) l.
(** list.insert: the index is clamped. *)
Definition insert_at {A} (i : Z) (x : A) (l : list A) : list A :=
  let n := Z.of_nat (length l) in
  let j := Z.to_nat (if i <? 0 then Z.max 0 (i + n) else Z.min i n) in
  firstn j l ++ x :: skipn j l.
(** list.remove: the first equal element. *)
Fixpoint remove_first {A} (eqb : A -> A -> bool) (x : A) (l : list A) : res (list A) :=
  match l with
  | [] => Err ValueError
  | y :: l' => if eqb y x then Ok l' else do? r <- remove_first eqb x l'; Ok (y :: r)
  end.
(** list.sort. A key function is called once for each element, in order: [ks i] is what it
    returned for the element at position [i], here an integer (if it raises, the list keeps its
    order). The sort is stable, also in reverse. The code is not CPython's merge sort: insertion
    of the positions from the last to the first. *)
Definition not_after (ks : nat -> Z) (reverse : bool) (i j : nat) : bool := if reverse then ks j <=? ks i else ks i <=? ks j.
Fixpoint insert_pos (le : nat -> nat -> bool) (i : nat) (ps : list nat) : list nat :=
  match ps with
  | [] => [i]
  | j :: ps' => if le i j then i :: ps else j :: insert_pos le i ps'
  end.
Definition sorted_positions (ks : nat -> Z) (reverse : bool) (n : nat) : list nat :=
  fold_right (insert_pos (not_after ks reverse)) [] (seq 0 n).
Definition sort_items {A} (ks : nat -> Z) (reverse : bool) (l : list A) : list A :=
  flat_map (fun i => match nth_error l i with Some x => [x] | None => [] end) (sorted_positions ks reverse (length l)).
(** Without a key function the pairs are compared: tuples (private_key_list.py:26) compare their
    first unequal components with <, and keys have no < (key.py:329-336 defines == only): TypeError,
    raised by the first comparison of neighbours that are not equal. *)
Fixpoint neighbours_equal {A} (eqb : A -> A -> bool) (l : list A) : bool :=
  match l with
  | x :: ((y :: _) as l') => eqb y x && neighbours_equal eqb l'
  | _ => true
  end.
(** l * n *)
Definition repeated {A} (n : Z) (l : list A) : list A := concat (repeat l (Z.to_nat n)).

(** ** Methods that change the list they are called on *)
(** The elements are pairs of keys, or (Heap.v) references to them; [eqb] is their ==. *)
Inductive edit_of (A : Type) :=
| Append (x : A) | Extend (xs : list A) (* also += *) | Insert (i : Z) (x : A)
| Pop (i : Z) | Remove (x : A) | Clear | Reverse | IMul (n : Z) (* *= *)
| SetItem (i : Z) (x : A) | DelItem (i : Z)
| SetSlice (s : slice) (xs : list A) | DelSlice (s : slice)
| SortBy (ks : nat -> Z) (reverse : bool) (* sort(key=f, reverse=reverse) *) | Sort (* sort() *).
Arguments Append {A} x. Arguments Extend {A} xs. Arguments Insert {A} i x. Arguments Pop {A} i.
Arguments Remove {A} x. Arguments Clear {A}. Arguments Reverse {A}. Arguments IMul {A} n.
Arguments SetItem {A} i x. Arguments DelItem {A} i. Arguments SetSlice {A} s xs. Arguments DelSlice {A} s.
Arguments SortBy {A} ks reverse. Arguments Sort {A}.
Definition edit := edit_of pair.
Definition edit_items {A} (eqb : A -> A -> bool) (e : edit_of A) (l : list A) : res (list A) :=
  match e with
  | Append x => Ok (l ++ [x])
  | Extend xs => Ok (l ++ xs)
  | Insert i x => Ok (insert_at i x l)
  | Pop i | DelItem i => do? j <- index_pos l i; Ok (remove_nth j l)
  | Remove x => remove_first eqb x l
  | Clear => Ok []
  | Reverse => Ok (rev l)
  | IMul n => Ok (repeated n l)
  | SetItem i x => do? j <- index_pos l i; Ok (replace_nth j x l)
  | SetSlice s xs => set_slice l s xs
  | DelSlice s => del_slice l s
  | SortBy ks reverse => Ok (sort_items ks reverse l)
  | Sort => if neighbours_equal eqb l then Ok l else Err TypeError
  end.
Definition edit_data (e : edit) (l : list pair) : res (list pair) := edit_items pair_eqb e l.

(** ** Methods that return self.__class__(data) *)
Inductive derive_of (A : Type) :=
| GetSlice (s : slice) | Copy (* the method copy *) | Add (xs : list A) | RAdd (xs : list A) | Mul (n : Z).
Arguments GetSlice {A} s. Arguments Copy {A}. Arguments Add {A} xs. Arguments RAdd {A} xs. Arguments Mul {A} n.
Definition derive := derive_of pair.
Definition derive_items {A} (d : derive_of A) (l : list A) : res (list A) :=
  match d with
  | GetSlice s => get_slice l s
  | Copy => Ok l
  | Add xs => Ok (l ++ xs)
  | RAdd xs => Ok (xs ++ l)
  | Mul n => Ok (repeated n l)
  end.
Definition derive_data (d : derive) (l : list pair) : res (list pair) := derive_items d l.
(** PrivateKeyList(data), lines 184-202: everything else is None. *)
Definition new_list (l : list pair) : pkl := mkpkl l None None None None None None None.

(** ** Histories *)
(** [ShallowCopy] is copy.copy, UserList.__copy__: it copies the instance's attributes. *)
Inductive op := Edit (e : edit) | Derive (d : derive) | ShallowCopy.
Definition apply_op (o : op) (l : pkl) : res pkl :=
  match o with
  | Edit e =>
      do? data <- edit_data e (l_pairs l);
      Ok (mkpkl data (l_byte_string l) (l_header l) (l_cipher_bytes l) (l_kdf_options l)
                (l_decipher_bytes l) (l_decipher_header l) (l_padding l))
  | Derive d => do? data <- derive_data d (l_pairs l); Ok (new_list data)
  | ShallowCopy => Ok l
  end.
(** A program that goes on with the result, or, after an exception, with the list it had: none
    of these methods changes the list before it raises. *)
Definition after (l : pkl) (o : op) : pkl := match apply_op o l with Ok l' => l' | Err _ => l end.
Definition history (l : pkl) (os : list op) : pkl := fold_left after os l.

(** ** Assigning to an entry of a key *)
(** key.header[x] = v and so on. key.py:132-147 keeps header, footer and clear as dicts and
    params as a PascalStyleDict (a UserDict, pascal_style_byte_stream.py:462-484), and only the
    constructors check what is in them. *)
Inductive part := InHeader | InParams | InFooter | InClear.
Definition set_entry (w : part) (x : pystr) (v : pyval) (k : key) : key :=
  match w with
  | InHeader => mkkey (k_kind k) (dset x v (k_header k)) (k_pcls k) (k_params k) (k_footer k) (k_clear k)
  | InParams => mkkey (k_kind k) (k_header k) (k_pcls k) (dset x v (k_params k)) (k_footer k) (k_clear k)
  | InFooter => mkkey (k_kind k) (k_header k) (k_pcls k) (k_params k) (dset x v (k_footer k)) (k_clear k)
  | InClear => mkkey (k_kind k) (k_header k) (k_pcls k) (k_params k) (k_footer k) (dset x v (k_clear k))
  end.
