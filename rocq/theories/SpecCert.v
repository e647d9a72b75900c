(** Specification of certificate fields (OpenSSH's PROTOCOL.certkeys), independent of the
    model's code. *)
From Verif Require Import PyBase Stream Classes Key SpecWire.
Open Scope Z_scope.

(** A list of strings, packed one after the other (valid principals). *)
Definition strings_of (l : list pystr) (b : bytes) : Prop :=
  exists xs, Forall2 (fun s x => wire (TText 4) (VStr s) x) l xs /\ b = concat xs.
(** A list of options: pairs of string name, string data. *)
Definition option_of (o : pystr * bytes) (x : bytes) : Prop :=
  exists n v, wire (TText 4) (VStr (fst o)) n /\ prefixed 4 (snd o) v /\ x = n ++ v.
Definition options_list (l : list (pystr * bytes)) (b : bytes) : Prop :=
  exists xs, Forall2 option_of l xs /\ b = concat xs.
(** The parameter [param] of the certificate holds the options [l]. *)
Definition has_options (d : dict pyval) (param : pystr) (l : list (pystr * bytes)) : Prop :=
  exists b, dget param d = Some (VBytes b) /\ options_list l b.
(** The value of an option; the last one counts if there are several. *)
Definition option_value (l : list (pystr * bytes)) (name : pystr) (r : option bytes) : Prop :=
  match r with
  | Some v => exists l1 l2, l = l1 ++ (name, v) :: l2 /\ ~ In name (map fst l2)
  | None => ~ In name (map fst l)
  end.
(** Lexicographic order of byte strings (strict). *)
Definition bytes_before (a b : bytes) : Prop :=
  (exists y b', b = a ++ y :: b') \/
  (exists c x y a' b', a = c ++ x :: a' /\ b = c ++ y :: b' /\ Zb x < Zb y).
(** "options must be lexically ordered by name", each name once. *)
Definition lexically_ordered (l : list (pystr * bytes)) : Prop :=
  forall i j n m u v, (i < j)%nat ->
    nth_error (map fst l) i = Some n -> nth_error (map fst l) j = Some m ->
    utf8 n u -> utf8 m v -> bytes_before u v.
(** "SSH_CERT_TYPE_USER 1, SSH_CERT_TYPE_HOST 2". *)
Definition is_user_cert (d : dict pyval) : Prop := dget (str "type") d = Some (VInt 1).
Definition is_host_cert (d : dict pyval) : Prop := dget (str "type") d = Some (VInt 2).
(** The two options fields. *)
Definition option_field (param : pystr) : Prop := In param [str "critical_options"; str "extensions"].

(** A sequence of calls that set options; each succeeds. *)
Inductive sets (set : option_arg -> pyval -> dict pyval -> W (dict pyval)) :
    dict pyval -> list (option_arg * pyval) -> dict pyval -> Prop :=
| sets_nil d : sets set d [] d
| sets_cons d o v d1 l d2 :
    snd (set o v d) = Ok d1 -> sets set d1 l d2 -> sets set d ((o, v) :: l) d2.
(** The field of a certificate that a getter and a setter are about. *)
Inductive accessors : pystr -> (option_arg -> dict pyval -> W (option pyval)) ->
    (option_arg -> pyval -> dict pyval -> W (dict pyval)) -> Prop :=
| about_critical : accessors (str "critical_options") get_critical_option set_critical_option
| about_extensions : accessors (str "extensions") get_extension_value set_extension_value.
(** What the calls leave at a name. *)
Definition last_set (l : list (option_arg * pyval)) (name : pystr) (r : option pyval) : Prop :=
  match r with
  | Some v => exists l1 o l2, l = l1 ++ (o, v) :: l2 /\ option_key o = name /\
                (forall o' v', In (o', v') l2 -> option_key o' <> name)
  | None => forall o' v', In (o', v') l -> option_key o' <> name
  end.

(** The warnings about the contents of a certificate. *)
Definition is_cert_warning (w : warning) : bool :=
  match w with
  | WCertType | WCertPrincipals | WCertCritical | WCertExtensions | WCertDuplicate _ _
  | WCertAuthority | WCertCA => true
  | _ => false
  end.
