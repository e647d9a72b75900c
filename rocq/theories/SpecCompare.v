(** Vocabulary for C95: when two keys, pairs and lists say the same, independent of how they are compared. *)
From Verif Require Import PyBase Key PrivateKeyList Compare SpecKey.
Open Scope Z_scope.

(** Both public or both private, with the same header, parameters, footer and clear values; the order
    of the entries does not matter. *)
Definition same_key (a b : key) : Prop :=
  k_kind a = k_kind b /\ same_mapping (k_header a) (k_header b) /\ same_mapping (k_params a) (k_params b) /\
  same_mapping (k_footer a) (k_footer b) /\ same_mapping (k_clear a) (k_clear b).
Definition same_pair (a b : pair) : Prop :=
  same_key (pr_public a) (pr_public b) /\ same_key (pr_private a) (pr_private b).
Definition well_formed_pair (q : pair) : Prop := well_formed (pr_public q) /\ well_formed (pr_private q).
(** Both keys are of registered types: see [is_key]. *)
Definition typed_pair (q : pair) : Prop :=
  (exists t, is_key t (pr_public q)) /\ (exists t, is_key t (pr_private q)).
(** The positions at which a list has a pair that says the same as [q]. *)
Definition occurs_at (l : list pair) (q : pair) (i : nat) : Prop :=
  exists y, nth_error l i = Some y /\ same_pair y q.
(** One of two lists begins with the other: they agree as far as the shorter one goes. *)
Definition agree (l m : list pair) : Prop :=
  forall i x y, nth_error l i = Some x -> nth_error m i = Some y -> same_pair x y.
(** What has pairs to compare a list with: another list of keys, or a plain list of pairs. *)
Inductive has_pairs : operand -> list pair -> Prop :=
| hp_list l : has_pairs (AList l) (l_pairs l)
| hp_plain l : has_pairs (APlain l) l.
(** The keys of a pair or of a plain tuple. *)
Inductive has_keys : tup -> list key -> Prop :=
| hk_pair a b : has_keys (APair (mkpair a b)) [a; b]
| hk_tuple l : has_keys (ATuple l) l.
Definition agree_keys (l m : list key) : Prop :=
  forall i x y, nth_error l i = Some x -> nth_error m i = Some y -> same_key x y.
Definition stands (o : order) (a b : nat) : Prop :=
  match o with Less => a < b | LessEq => a <= b | Greater => a > b | GreaterEq => a >= b end%nat.
(** The limits of a search: no limit, a position, or a position counted from the end (not before 0). *)
Definition first_allowed (n : nat) (start : option Z) (i : nat) : Prop :=
  match start with None => True | Some s => if s <? 0 then Z.of_nat n + s <= Z.of_nat i else s <= Z.of_nat i end.
Definition last_allowed (n : nat) (stop : option Z) (i : nat) : Prop :=
  match stop with None => True | Some s => if s <? 0 then Z.of_nat i < Z.of_nat n + s else Z.of_nat i < s end.
