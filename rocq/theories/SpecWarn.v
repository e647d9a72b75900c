(** Specification of the warnings that constructing key parameters gives: which checks belong
    to which key type, and how often their findings are reported. *)
From Verif Require Import PyBase Stream Classes Key SpecWire SpecKey.
Open Scope Z_scope.

(** What the values of a key type are, beyond the types of its fields: just numbers, a point of
    a named curve, or an Edwards curve key. *)
Inductive contents := Numbers | Point (k : curve) (name : pystr) | Edwards.
(** For each key type, its contents and how many times findings are reported. *)
Definition reports : list (pystr * (contents * nat)) :=
  [(str "ssh-rsa", (Numbers, 1%nat));
   (str "ssh-dss", (Numbers, 1%nat));
   (str "ssh-ed25519", (Edwards, 1%nat));
   (str "ecdsa-sha2-nistp256", (Point P256 (str "nistp256"), 1%nat));
   (str "ecdsa-sha2-nistp384", (Point P384 (str "nistp384"), 1%nat));
   (str "ecdsa-sha2-nistp521", (Point P521 (str "nistp521"), 1%nat));
   (str "sk-ecdsa-sha2-nistp256@openssh.com", (Point P256 (str "nistp256"), 2%nat));
   (str "sk-ssh-ed25519@openssh.com", (Edwards, 2%nat));
   (str "ssh-rsa-cert-v01@openssh.com", (Numbers, 2%nat));
   (str "ssh-dss-cert-v01@openssh.com", (Numbers, 2%nat));
   (str "ssh-ed25519-cert-v01@openssh.com", (Edwards, 2%nat));
   (str "ecdsa-sha2-nistp256-cert-v01@openssh.com", (Point P256 (str "nistp256"), 2%nat));
   (str "ecdsa-sha2-nistp384-cert-v01@openssh.com", (Point P384 (str "nistp384"), 2%nat));
   (str "ecdsa-sha2-nistp521-cert-v01@openssh.com", (Point P521 (str "nistp521"), 2%nat));
   (str "sk-ecdsa-sha2-nistp256-cert-v01@openssh.com", (Point P256 (str "nistp256"), 4%nat));
   (str "sk-ssh-ed25519-cert-v01@openssh.com", (Edwards, 4%nat))].

(** [w] is reported exactly if [P]. *)
Definition reported (P : Prop) (w : warning) (ws : list warning) : Prop :=
  (P /\ ws = [w]) \/ (~ P /\ ws = []).
Section Points.
(** Is this the encoding of a point of the curve? *)
Variable on_curve : curve -> bytes -> bool.
(** The warnings about the contents of parameters. A point is only looked at if the name of the
    curve is present. *)
Inductive content_warnings : contents -> dict pyval -> list warning -> Prop :=
| cw_numbers d : content_warnings Numbers d []
| cw_unnamed k name d : dget (str "identifier") d = None -> content_warnings (Point k name) d []
| cw_point k name d v w1 w2 :
    dget (str "identifier") d = Some v -> reported (v <> VStr name) WCurve w1 ->
    reported (exists q, dget (str "q") d = Some (VBytes q) /\ on_curve k q = false) WPoint w2 ->
    content_warnings (Point k name) d (w1 ++ w2)
| cw_edwards d ws :
    reported (exists p, dget (str "public") d = Some (VBytes p) /\ Z.of_nat (length p) <> 32) WEdPublicLength ws ->
    content_warnings Edwards d ws.
End Points.
(** The warnings about a private Ed25519 key: the second half is the public key, and there are
    64 bytes. *)
Definition seed_warnings (d : dict pyval) (ws : list warning) : Prop :=
  exists w1 w2, ws = w1 ++ w2 /\
    reported (exists p s, dget (str "public") d = Some (VBytes p) /\ dget (str "private_public") d = Some (VBytes s) /\
                skipn 32 s <> p) WEdMismatch w1 /\
    reported (exists p s, dget (str "public") d = Some (VBytes p) /\ dget (str "private_public") d = Some (VBytes s) /\
                Z.of_nat (length s) <> 64) WEdPrivateLength w2.
Definition is_certificate_type (t : pystr) : Prop := In t (map fst cert_specs).
