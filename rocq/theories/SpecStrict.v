(** Specification for the warnings filter: what turning warnings into exceptions may change. *)
From Verif Require Import PyBase Strict.

(** The filter raises none of these warnings. *)
Definition none_raised (raising : warning -> bool) (l : list event) : Prop :=
  forall w, In (Warn w) l -> raising w = false.

(** [same_run x y]: the same warnings and passphrase prompts in the same order, and the same end. *)
Inductive same_run {A} : W A -> Q A -> Prop :=
| SameReturn l a : same_run (l, Ok a) (l, Returns a)
| SameRaise l e : same_run (l, Err e) (l, Raises e).

(** [x] is an operation without the filter, [y] the same operation with it. If [x] gives no warning
    that the filter raises, nothing changes. Otherwise the operation goes as without the filter up to
    the first such warning, [w], and then raises it. *)
Inductive filtered {A} (raising : warning -> bool) : W A -> Q A -> Prop :=
| Unaffected x y : none_raised raising (fst x) -> same_run x y -> filtered raising x y
| Stopped before w after r :
    none_raised raising before -> raising w = true ->
    filtered raising (before ++ Warn w :: after, r) (before, RaisesWarning w).

(** The same, with a ValueError instead of the warning. *)
Inductive filtered_list {A} (raising : warning -> bool) : W A -> Q A -> Prop :=
| UnaffectedList x y : none_raised raising (fst x) -> same_run x y -> filtered_list raising x y
| StoppedList before w after r :
    none_raised raising before -> raising w = true ->
    filtered_list raising (before ++ Warn w :: after, r) (before, Raises ValueError).

(** [-W error]: every warning is raised. *)
Definition every_warning (w : warning) : bool := true.
Definition silent (l : list event) : Prop := forall w, ~ In (Warn w) l.
