(** Vocabulary for C97: what a mapping holds. *)
From Verif Require Import PyBase Classes Key UserList Mapping SpecKey.

(** The value that the last pair for [x] gives. *)
Fixpoint last_given (x : pystr) (l : list (pystr * pyval)) : option pyval :=
  match l with
  | [] => None
  | (k, v) :: l' =>
      match last_given x l' with
      | Some w => Some w
      | None => if str_eqb x k then Some v else None
      end
  end.
(** [d'] is [d] without the entry for [k]; the others keep their order. *)
Definition without (k : pystr) (d d' : dict pyval) : Prop :=
  exists a v b, d = a ++ (k, v) :: b /\ d' = a ++ b /\ dget k d' = None.
(** [d'] is [d] with value [v] for [k]: in the place of the old one, or at the end. *)
Definition with_entry (k : pystr) (v : pyval) (d d' : dict pyval) : Prop :=
  (forall x, dget x d' = if str_eqb x k then Some v else dget x d) /\
  ((In k (dkeys d) /\ dkeys d' = dkeys d) \/ (~ In k (dkeys d) /\ d' = d ++ [(k, v)])).
(** A program that leaves the header alone. *)
Definition keeps_header (l : list (part * medit)) : Prop := forall e, ~ In (InHeader, e) l.
(** Fields of a key that are not there. *)
Definition missing (x : pystr) (d : dict pyval) : Prop := dget x d = None.

(** The mapping of a key that a part names, and which of them are parameters and which dicts. *)
Definition mapping_of (w : part) (k : key) : dict pyval :=
  match w with InHeader => k_header k | InParams => k_params k | InFooter => k_footer k | InClear => k_clear k end.
Definition kind_of_mapping (w : part) : msort :=
  match w with InParams => Params | InHeader | InFooter | InClear => PlainDict end.
(** The statements of a program that are about one part, in their order. *)
Fixpoint about (w : part) (l : list (part * medit)) : list medit :=
  match l with
  | [] => []
  | (InHeader, e) :: l' => match w with InHeader => e :: about w l' | _ => about w l' end
  | (InParams, e) :: l' => match w with InParams => e :: about w l' | _ => about w l' end
  | (InFooter, e) :: l' => match w with InFooter => e :: about w l' | _ => about w l' end
  | (InClear, e) :: l' => match w with InClear => e :: about w l' | _ => about w l' end
  end.
(** [d'] is what a list of statements makes of [d]: those that raise change nothing. *)
Inductive becomes (s : msort) : list medit -> dict pyval -> dict pyval -> Prop :=
| becomes_none d : becomes s [] d d
| becomes_done e l d a d1 d2 : medit_run s e d = Ok (a, d1) -> becomes s l d1 d2 -> becomes s (e :: l) d d2
| becomes_raised e l d x d2 : medit_run s e d = Err x -> becomes s l d d2 -> becomes s (e :: l) d d2.
