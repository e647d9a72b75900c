(** Which of the warnings that calls issue the interpreter shows. warnings.warn(text) (CPython,
    functions warn and warn_explicit of Lib/warnings.py) looks up a registry that lasts as long as the
    process. Simplifications: every warning of the library is a UserWarning (the default category) and the first filter
    that matches it has the same action for all of them (Python's own default and each -W action
    without further fields do); the filters do not change between calls except in [session];
    the action "error", which raises the warning, is in Strict.v. *)
From Verif Require Import PyBase Repr.
Open Scope N_scope.

Definition nat_repr (i : nat) : pystr := int_repr (Z.of_nat i).

(** The texts given to warnings.warn. *)
Definition message (w : warning) : pystr :=
  match w with
  | WMissing k => k ++ str " missing"                                  (* pascal_style_byte_stream.py:435 *)
  | WFormatted k fmt => k ++ str " should be formatted as " ++ fmt     (* pascal_style_byte_stream.py:440-442 *)
  | WClass k cls => k ++ str " should be of class " ++ cls             (* pascal_style_byte_stream.py:445-447 *)
  | WExcess => str "Excess bytes in key"                               (* key.py:212 *)
  | WClearType => str "Inconsistency between clear and encoded key types"  (* key.py:251-253 *)
  | WCheckInts => str "Cipher header check numbers do not match"       (* private_key_list.py:298 *)
  | WPairType i => str "Inconsistency between private and public key types for key " ++ nat_repr i  (* 310-313 *)
  | WPairValues i => str "Inconsistency between private and public values for key " ++ nat_repr i   (* 323-326 *)
  | WPadding => str "Incorrect padding at end of ciphertext"           (* private_key_list.py:338 *)
  | WCurve => str "The curve identifier encoded in the public key does not correspond to the key type"  (* ecdsa.py:178-181 *)
  | WPoint => str "The point does not lie on the elliptic curve indicated by the identifier"            (* ecdsa.py:191-194 *)
  | WEdPublicLength => str "Public key not of length 32"               (* ed25519.py:74 *)
  | WEdMismatch => str "Public key does not match"                     (* ed25519.py:224 *)
  | WEdPrivateLength => str "Private key not of length 32"             (* ed25519.py:226-228 *)
  | WCertType => str "Not a valid certificate principal type"          (* cert.py:578 *)
  | WCertPrincipals => str "Invalid format for certificate principals list"  (* cert.py:585 *)
  | WCertCritical => str "Invalid format for critical options list"    (* cert.py:592 *)
  | WCertExtensions => str "Invalid format for extensions list"        (* cert.py:599 *)
  | WCertDuplicate opt param => str "Duplicate option " ++ opt ++ str " in " ++ param  (* cert.py:358-361 *)
  | WCertAuthority => str "Certificate authority is not a valid key"   (* cert.py:605 *)
  | WCertCA => str "The certificate authority must not be a certificate"  (* cert.py:547-549 *)
  | WLine i => str "Could not parse line " ++ nat_repr i               (* __main__.py:34 *)
  end.
(** The statement that issues it: module and line. Each module keeps a registry of its own. *)
Definition place (w : warning) : pystr * N :=
  match w with
  | WMissing _ => (str "openssh_key.pascal_style_byte_stream", 435)
  | WFormatted _ _ => (str "openssh_key.pascal_style_byte_stream", 440)
  | WClass _ _ => (str "openssh_key.pascal_style_byte_stream", 445)
  | WExcess => (str "openssh_key.key", 212)
  | WClearType => (str "openssh_key.key", 251)
  | WCheckInts => (str "openssh_key.private_key_list", 298)
  | WPairType _ => (str "openssh_key.private_key_list", 310)
  | WPairValues _ => (str "openssh_key.private_key_list", 323)
  | WPadding => (str "openssh_key.private_key_list", 338)
  | WCurve => (str "openssh_key.key_params.ecdsa", 178)
  | WPoint => (str "openssh_key.key_params.ecdsa", 191)
  | WEdPublicLength => (str "openssh_key.key_params.ed25519", 74)
  | WEdMismatch => (str "openssh_key.key_params.ed25519", 224)
  | WEdPrivateLength => (str "openssh_key.key_params.ed25519", 226)
  | WCertType => (str "openssh_key.key_params.cert", 578)
  | WCertPrincipals => (str "openssh_key.key_params.cert", 585)
  | WCertCritical => (str "openssh_key.key_params.cert", 592)
  | WCertExtensions => (str "openssh_key.key_params.cert", 599)
  | WCertDuplicate _ _ => (str "openssh_key.key_params.cert", 358)
  | WCertAuthority => (str "openssh_key.key_params.cert", 605)
  | WCertCA => (str "openssh_key.key_params.cert", 547)
  | WLine _ => (str "__main__", 34)
  end.

(** The action of the filter, as in warn_explicit. *)
Inductive action := ADefault | AModule | AOnce | AAlways | AIgnore.

(** The registries: module's key (module, text, line or 0), and for "once" the text. *)
Record registry := mkreg { r_modules : list (pystr * pystr * N); r_once : list pystr }.
Definition empty_registry : registry := mkreg [] [].
Definition entry_eqb (a b : pystr * pystr * N) : bool :=
  let '(m, t, l) := a in let '(m', t', l') := b in str_eqb m m' && str_eqb t t' && (l =? l').
Definition entry_mem (k : pystr * pystr * N) (l : list (pystr * pystr * N)) : bool := existsb (entry_eqb k) l.

(** warn_explicit of Lib/warnings.py: is it shown, and the registries afterwards. *)
Definition warn_explicit (a : action) (r : registry) (w : warning) : bool * registry :=
  let '(m, line) := place w in
  let t := message w in
  let key := (m, t, line) in
  if entry_mem key (r_modules r) then (false, r)              (* if registry.get(key): return *)
  else match a with
  | AIgnore => (false, r)
  | AAlways => (true, r)
  | ADefault => (true, mkreg (key :: r_modules r) (r_once r))
  | AModule =>
      let altkey := (m, t, 0) in
      (negb (entry_mem altkey (r_modules r)), mkreg (altkey :: key :: r_modules r) (r_once r))
  | AOnce => (negb (str_mem t (r_once r)), mkreg (key :: r_modules r) (t :: r_once r))
  end.
(** The warnings of the events of one call. *)
Fixpoint show (a : action) (r : registry) (log : list event) : list warning * registry :=
  match log with
  | [] => ([], r)
  | Prompt :: log' => show a r log'
  | Warn w :: log' =>
      let '(b, r1) := warn_explicit a r w in
      let '(l, r2) := show a r1 log' in ((if b then [w] else []) ++ l, r2)
  end.
(** The calls of a process, one after another: what each of them shows. *)
Fixpoint show_calls (a : action) (r : registry) (logs : list (list event)) : list (list warning) :=
  match logs with
  | [] => []
  | log :: logs' => let '(l, r1) := show a r log in l :: show_calls a r1 logs'
  end.

(** A process that also changes its filters, as warnings.catch_warnings, simplefilter and resetwarnings
    do: _filters_mutated (warnings.py) makes every module's registry void before its next use; the texts
    remembered by "once" are kept. *)
Inductive step := Call (log : list event) | SetFilter (a : action).
Fixpoint session (a : action) (r : registry) (steps : list step) : list (list warning) :=
  match steps with
  | [] => []
  | Call log :: l => let '(s, r1) := show a r log in s :: session a r1 l
  | SetFilter a' :: l => session a' (mkreg [] (r_once r)) l
  end.
