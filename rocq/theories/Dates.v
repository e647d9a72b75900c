(** Certificate validity times (openssh_key/key_params/cert.py:322-344). The datetime class
    and the local time zone are outside the repository: they are parameters. *)
From Verif Require Import PyBase IntBytes StructFmt Stream Classes Key.
Open Scope Z_scope.

(** [from_timestamp z] is datetime.datetime.fromtimestamp(z): it raises OverflowError or
    ValueError for times it cannot represent. [whole_timestamp t] is int(t.timestamp()).
    Simplification: timestamps are integers (the library stores nothing else). *)
Record clock := mkclock {
  moment : Type;
  from_timestamp : Z -> res moment;
  whole_timestamp : moment -> Z
}.
Section Clock.
Variable clk : clock.
(** datetime.datetime.fromtimestamp on any stored value; anything but a number is a TypeError. *)
Definition fromtimestamp (v : pyval) : res (moment clk) :=
  match v with VInt z => from_timestamp clk z | _ => Err TypeError end.
(** get_valid_after, cert.py:322-326. *)
Definition get_valid_after (d : dict pyval) : res (moment clk) :=
  do? v <- ditem (str "valid_after") d; fromtimestamp v.
(** set_valid_after, cert.py:328-332. *)
Definition set_valid_after (t : moment clk) (d : dict pyval) : dict pyval :=
  dset (str "valid_after") (VInt (whole_timestamp clk t)) d.
(** get_valid_before, cert.py:334-338. *)
Definition get_valid_before (d : dict pyval) : res (moment clk) :=
  do? v <- ditem (str "valid_before") d; fromtimestamp v.
(** set_valid_before, cert.py:340-344. *)
Definition set_valid_before (t : moment clk) (d : dict pyval) : dict pyval :=
  dset (str "valid_before") (VInt (whole_timestamp clk t)) d.
End Clock.
