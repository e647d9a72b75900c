(** Specification of editing a Python list, independent of the model's code: "Sequence Types"
    in the Python library reference. *)
From Verif Require Import PyBase Key PrivateKeyList UserList SpecList.
From Coq Require Import Sorted Permutation.
Open Scope Z_scope.

(** ** Slices *)
(** A bound of a slice: a negative one counts from the end; then it is clamped to the list. *)
Definition from_end (n x : Z) : Z := if x <? 0 then n + x else x.
Definition slice_bounds (n : Z) (s : slice) (k a b : Z) : Prop :=
  match sl_step s with None => k = 1 | Some x => k = x end /\
  (0 < k ->
   match sl_start s with None => a = 0 | Some x => a = Z.max 0 (Z.min n (from_end n x)) end /\
   match sl_stop s with None => b = n | Some x => b = Z.max 0 (Z.min n (from_end n x)) end) /\
  (k < 0 ->
   match sl_start s with None => a = n - 1 | Some x => a = Z.max (-1) (Z.min (n - 1) (from_end n x)) end /\
   match sl_stop s with None => b = -1 | Some x => b = Z.max (-1) (Z.min (n - 1) (from_end n x)) end).
(** [ps] are the positions selected: from a in steps of k, up to but not including b. *)
Definition selects (n : nat) (s : slice) (ps : list Z) : Prop :=
  exists k a b, slice_bounds (Z.of_nat n) s k a b /\ k <> 0 /\
    (forall i, In i ps <-> exists j, 0 <= j /\ i = a + j * k /\ (0 < k -> i < b) /\ (k < 0 -> b < i)) /\
    StronglySorted (fun i i' => if 0 <? k then i < i' else i' < i) ps.

(** ** Edits *)
(** The position [m] that the index [i] stands for in a list of length [n]. *)
Definition index_is (n : nat) (i : Z) (m : nat) : Prop :=
  (m < n)%nat /\ (i = Z.of_nat m \/ i = Z.of_nat m - Z.of_nat n).
(** The elements whose positions are not in [ps], in order; [i] is the first position. *)
Inductive left_over : list Z -> Z -> list pair -> list pair -> Prop :=
| Lo_nil ps i : left_over ps i [] []
| Lo_gone ps i x l r : In i ps -> left_over ps (i + 1) l r -> left_over ps i (x :: l) r
| Lo_kept ps i x l r : ~ In i ps -> left_over ps (i + 1) l r -> left_over ps i (x :: l) (x :: r).
Inductive edits : edit -> list pair -> list pair -> Prop :=
| Ed_append x l : edits (Append x) l (l ++ [x])
| Ed_extend xs l : edits (Extend xs) l (l ++ xs)
| Ed_insert i x a b :
    (* before the element that has the index, else at the end that is nearer *)
    index_is (length (a ++ b)) i (length a) \/ (Z.of_nat (length (a ++ b)) <= i /\ b = []) \/
    (i < - Z.of_nat (length (a ++ b)) /\ a = []) ->
    edits (Insert i x) (a ++ b) (a ++ x :: b)
| Ed_pop i a x b : index_is (length (a ++ x :: b)) i (length a) -> edits (Pop i) (a ++ x :: b) (a ++ b)
| Ed_del i a x b : index_is (length (a ++ x :: b)) i (length a) -> edits (DelItem i) (a ++ x :: b) (a ++ b)
| Ed_set i a x y b : index_is (length (a ++ x :: b)) i (length a) -> edits (SetItem i y) (a ++ x :: b) (a ++ y :: b)
| Ed_remove x a y b : pair_eqb y x = true -> (forall z, In z a -> pair_eqb z x = false) ->
    edits (Remove x) (a ++ y :: b) (a ++ b)
| Ed_clear l : edits Clear l []
| Ed_reverse l r : length r = length l ->
    (forall i j x, nth_error l i = Some x -> (i + j + 1 = length l)%nat -> nth_error r j = Some x) ->
    edits Reverse l r
| Ed_imul_none n l : n <= 0 -> edits (IMul n) l []
| Ed_imul_more n l r : 0 <= n -> edits (IMul n) l r -> edits (IMul (n + 1)) l (l ++ r)
| Ed_set_range s xs a m b : (* a range of consecutive elements, possibly empty *)
    (exists i j, slice_bounds (Z.of_nat (length (a ++ m ++ b))) s 1 i j /\
       i = Z.of_nat (length a) /\ Z.max i j = Z.of_nat (length (a ++ m))) ->
    edits (SetSlice s xs) (a ++ m ++ b) (a ++ xs ++ b)
| Ed_set_stepped s xs l ps r : sl_step s <> None -> sl_step s <> Some 1 -> selects (length l) s ps ->
    length xs = length ps -> length r = length l ->
    (forall j i x, nth_error ps j = Some i -> nth_error xs j = Some x -> nth_error r (Z.to_nat i) = Some x) ->
    (forall i, ~ In (Z.of_nat i) ps -> nth_error r i = nth_error l i) ->
    edits (SetSlice s xs) l r
| Ed_del_slice s l ps r : selects (length l) s ps -> left_over ps 0 l r -> edits (DelSlice s) l r
| Ed_sort_by ks reverse l ps r :
    (* the positions in the order of the keys, and of each other where the keys are equal *)
    Permutation ps (seq 0 (length l)) ->
    StronglySorted (fun i j => (if reverse : bool then ks j < ks i else ks i < ks j) \/ (ks i = ks j /\ (i < j)%nat)) ps ->
    Forall2 (fun i x => nth_error l i = Some x) ps r -> edits (SortBy ks reverse) l r
| Ed_sort l : (* possible only if there is nothing to compare *)
    (forall i x y, nth_error l i = Some x -> nth_error l (S i) = Some y -> pair_eqb y x = true) -> edits Sort l l.
