(** Specification of nesting: a certificate whose authority key is a certificate, and so on. *)
From Verif Require Import PyBase Stream Classes Key SpecWire SpecKey.

(** [nested n b]: [b] begins with a certificate whose authority key begins with a certificate,
    ..., [n] certificates inside each other (whatever the innermost authority key is). *)
Inductive nested : nat -> bytes -> Prop :=
| nested_none b : nested 0 b
| nested_cert n t base ps b rest inner :
    In (t, base) cert_specs ->
    record_of wire (type_field :: cert_fields base) ((str "key_type", VStr t) :: ps) b ->
    dget (str "signature_key") ps = Some (VBytes inner) ->
    nested n inner -> nested (S n) (b ++ rest).
