(** Specification of the layout of the command's output: JSON with four spaces per level (C65). *)
From Verif Require Import PyBase Json SpecJson.
Open Scope N_scope.

Definition spaces (depth : nat) : pystr := repeat 32 (4 * depth).
(** [x] put before the first line; [x] put after the last line. *)
Definition before_first (x : pystr) (ls : list pystr) : list pystr :=
  match ls with [] => [x] | l :: r => (x ++ l) :: r end.
Fixpoint after_last (ls : list pystr) (x : pystr) : list pystr :=
  match ls with [] => [x] | [l] => [l ++ x] | l :: r => l :: after_last r x end.
(** The lines of a value whose first line begins at some depth: arrays and objects that are not empty
    have each element or member on lines of its own, one level deeper, with commas at the ends of
    lines; a member is its name, a colon and a space, and the value. *)
Inductive layout : nat -> json -> list pystr -> Prop :=
| lay_null d : layout d JNull [str "null"]
| lay_int d z x : json_number z x -> layout d (JInt z) [x]
| lay_str d s x : json_string s x -> layout d (JStr s) [x]
| lay_arr0 d : layout d (JArr []) [str "[]"]
| lay_arr d l ls : lay_items (S d) l ls -> layout d (JArr l) (str "[" :: ls ++ [spaces d ++ str "]"])
| lay_obj0 d : layout d (JObj []) [str "{}"]
| lay_obj d l ls : lay_members (S d) l ls -> layout d (JObj l) (str "{" :: ls ++ [spaces d ++ str "}"])
with lay_items : nat -> list json -> list pystr -> Prop :=
| lit_one d t ls : layout d t ls -> lay_items d [t] (before_first (spaces d) ls)
| lit_more d t ls l rest : layout d t ls -> lay_items d l rest ->
    lay_items d (t :: l) (after_last (before_first (spaces d) ls) (str ",") ++ rest)
with lay_members : nat -> list (pystr * json) -> list pystr -> Prop :=
| lme_one d n x t ls : json_string n x -> layout d t ls ->
    lay_members d [(n, t)] (before_first (spaces d ++ x ++ str ": ") ls)
| lme_more d n x t ls l rest : json_string n x -> layout d t ls -> lay_members d l rest ->
    lay_members d ((n, t) :: l) (after_last (before_first (spaces d ++ x ++ str ": ") ls) (str ",") ++ rest).
