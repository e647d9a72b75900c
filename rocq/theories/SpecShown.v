(** Specification of which warnings a process shows. *)
From Verif Require Import PyBase Shown.

(** The warnings among events. *)
Inductive warned : list event -> list warning -> Prop :=
| wd_nil : warned [] []
| wd_prompt l r : warned l r -> warned (Prompt :: l) r
| wd_warn w l r : warned l r -> warned (Warn w :: l) (w :: r).
(** What makes two warnings one and the same, by the filter's action. *)
Definition same (a : action) (w w' : warning) : Prop :=
  message w = message w' /\
  match a with
  | ADefault => place w = place w'
  | AModule => fst (place w) = fst (place w')
  | _ => True
  end.
(** [first_ones R before l r]: [r] are those of [l] that nothing earlier, be it in [before] or in [l], is the same as. *)
Inductive first_ones (R : warning -> warning -> Prop) : list warning -> list warning -> list warning -> Prop :=
| fo_nil before : first_ones R before [] []
| fo_new before w l r : (forall x, In x before -> ~ R x w) -> first_ones R (before ++ [w]) l r ->
    first_ones R before (w :: l) (w :: r)
| fo_old before w l r x : In x before -> R x w -> first_ones R (before ++ [w]) l r ->
    first_ones R before (w :: l) r.
