(** Python values, exceptions, events and dictionaries used by the model.
    Nothing here models a particular function of /repo; it fixes how the Python
    runtime objects the code manipulates are represented. *)
From Coq Require Export Strings.Byte String Ascii.
From Coq Require Export List NArith ZArith Bool Lia.
From Coq Require Export ZifyBool ZifyNat ZifyN.
Export ListNotations.
Open Scope list_scope.

Arguments N.add : simpl never.
Arguments N.mul : simpl never.
Arguments Z.add : simpl never.
Arguments Z.mul : simpl never.
Arguments Z.sub : simpl never.
Arguments Z.opp : simpl never.
Arguments Z.of_nat : simpl never.
Arguments Z.to_nat : simpl never.
Arguments N.of_nat : simpl never.
Arguments N.to_nat : simpl never.

(** Python [bytes]. *)
Definition bytes := list byte.

(** Python [str]: a list of code points. *)
Definition pystr := list N.

(** An ASCII literal as a Python [str] / as [bytes]. *)
Definition str (s : string) : pystr := List.map N_of_ascii (list_ascii_of_string s).
Definition bstr (s : string) : bytes := list_byte_of_string s.

Definition byte_eqb (a b : byte) : bool := Byte.eqb a b.
Fixpoint bytes_eqb (a b : bytes) : bool :=
  match a, b with
  | [], [] => true
  | x :: a', y :: b' => byte_eqb x y && bytes_eqb a' b'
  | _, _ => false
  end.
Fixpoint str_eqb (a b : pystr) : bool :=
  match a, b with
  | [], [] => true
  | x :: a', y :: b' => N.eqb x y && str_eqb a' b'
  | _, _ => false
  end.

(** Numeric value of a byte, and the byte with a given value (mod 256). *)
Definition Zb (b : byte) : Z := Z.of_N (Byte.to_N b).
Definition bZ (z : Z) : byte :=
  match Byte.of_N (Z.to_N (z mod 256)) with Some b => b | None => x00 end.

(** sys.maxsize (PY_SSIZE_T_MAX) on a 64-bit CPython. *)
Definition ssize_max : Z := 9223372036854775807%Z.

(** Python values that occur in parameter mappings. [VOther] stands for a value
    of any other class (its index distinguishes different such objects). *)
Inductive pyval :=
| VInt (z : Z)
| VBytes (b : bytes)
| VStr (s : pystr)
| VTuple (l : list pyval)
| VOther (n : N).

(** Python exceptions, by class, with the data from the input that they carry. [EOFError] has
    its two arguments, since the code inspects [e.args[0]] (pascal_style_byte_stream.py:224);
    [UnicodeDecodeError] has the bytes that were decoded (its attribute object); [KeyError] has
    its argument, the key that was looked up or a message. The messages of the others are
    constants, or name only format instructions, classes and sizes.
    [OutOfFuel] and [Unmodelled] are not Python exceptions: the first marks an
    exhausted recursion bound of the model, the second an input outside the
    modelled fragment of a library function (a struct format code). *)
Inductive exn :=
| EOFError (empty : bool) (msg : pystr)
| ValueError
| UnicodeDecodeError (object : bytes)
| UnicodeEncodeError
| BinasciiError
| KeyError (key : pyval)
| IndexError
| TypeError
| OverflowError
| StructError
| NotImplementedError
| AttributeError
| InvalidTag
| InvalidSignature
| OtherError
| OutOfFuel
| Unmodelled.

(** [except ValueError]: UnicodeDecodeError, UnicodeEncodeError and
    binascii.Error are subclasses of ValueError. *)
Definition is_value_error (e : exn) : bool :=
  match e with
  | ValueError | UnicodeDecodeError _ | UnicodeEncodeError | BinasciiError => true
  | _ => false
  end.
Definition is_eof_error (e : exn) : bool :=
  match e with EOFError _ _ => true | _ => false end.
(** Not a Python exception at all: an artefact of the model. *)
Definition is_model_error (e : exn) : bool :=
  match e with OutOfFuel | Unmodelled => true | _ => false end.

Inductive res (A : Type) := Ok (a : A) | Err (e : exn).
Arguments Ok {A} a.
Arguments Err {A} e.

Definition rbind {A B} (x : res A) (f : A -> res B) : res B :=
  match x with Ok a => f a | Err e => Err e end.
Notation "'do?' x <- e ; f" := (rbind e (fun x => f))
  (at level 200, x pattern, e at level 100, f at level 200).

(** Python [==] on these values. *)
Fixpoint val_eqb (a b : pyval) : bool :=
  match a, b with
  | VInt x, VInt y => Z.eqb x y
  | VBytes x, VBytes y => bytes_eqb x y
  | VStr x, VStr y => str_eqb x y
  | VTuple x, VTuple y =>
      (fix go (x y : list pyval) : bool :=
         match x, y with
         | [], [] => true
         | u :: x', v :: y' => val_eqb u v && go x' y'
         | _, _ => false
         end) x y
  | VOther x, VOther y => N.eqb x y
  | _, _ => false
  end.

(** Dictionaries with [str] keys, in insertion order. Python dictionaries have no
    duplicate keys; every dictionary built by the model has none either. *)
Definition dict (A : Type) := list (pystr * A).

Fixpoint dget {A} (k : pystr) (d : dict A) : option A :=
  match d with
  | [] => None
  | (k', v) :: d' => if str_eqb k k' then Some v else dget k d'
  end.
(** [d[k] = v]: overwrite in place, or append. *)
Fixpoint dset {A} (k : pystr) (v : A) (d : dict A) : dict A :=
  match d with
  | [] => [(k, v)]
  | (k', v') :: d' =>
      if str_eqb k k' then (k', v) :: d' else (k', v') :: dset k v d'
  end.
Definition dmem {A} (k : pystr) (d : dict A) : bool :=
  match dget k d with Some _ => true | None => false end.
Definition dkeys {A} (d : dict A) : list pystr := List.map fst d.
(** [{**a, **b}]. *)
Definition dmerge {A} (a b : dict A) : dict A :=
  fold_left (fun d kv => dset (fst kv) (snd kv) d) b a.
(** [d[k]] as an expression. *)
Definition ditem {A} (k : pystr) (d : dict A) : res A :=
  match dget k d with Some v => Ok v | None => Err (KeyError (VStr k)) end.

Fixpoint str_mem (k : pystr) (l : list pystr) : bool :=
  match l with [] => false | x :: l' => str_eqb k x || str_mem k l' end.

(** Events: the user-visible side effects other than the result, in order. *)
Inductive warning :=
| WMissing (k : pystr)                    (* '<k> missing' *)
| WFormatted (k fmt : pystr)              (* '<k> should be formatted as <fmt>' *)
| WClass (k cls : pystr)                  (* '<k> should be of class <cls>' *)
| WExcess                                 (* 'Excess bytes in key' *)
| WClearType                              (* 'Inconsistency between clear and encoded key types' *)
| WCheckInts                              (* 'Cipher header check numbers do not match' *)
| WPairType (i : nat)                     (* '... key types for key {i}' *)
| WPairValues (i : nat)                   (* '... values for key {i}' *)
| WPadding                                (* 'Incorrect padding at end of ciphertext' *)
| WCurve                                  (* 'The curve identifier encoded ...' *)
| WPoint                                  (* 'The point does not lie on ...' *)
| WEdPublicLength                         (* 'Public key not of length 32' *)
| WEdMismatch                             (* 'Public key does not match' *)
| WEdPrivateLength                        (* 'Private key not of length 32' *)
| WCertType                               (* 'Not a valid certificate principal type' *)
| WCertPrincipals                         (* 'Invalid format for certificate principals list' *)
| WCertCritical                           (* 'Invalid format for critical options list' *)
| WCertExtensions                         (* 'Invalid format for extensions list' *)
| WCertDuplicate (opt param : pystr)      (* 'Duplicate option <opt> in <param>' *)
| WCertAuthority                          (* 'Certificate authority is not a valid key' *)
| WCertCA                                 (* 'The certificate authority must not be a certificate' *)
| WLine (i : nat).                        (* 'Could not parse line {i}' *)

Inductive event := Warn (w : warning) | Prompt.

(** Writer monad: log of events, then the outcome. *)
Definition W (A : Type) : Type := (list event * res A)%type.
Definition wret {A} (a : A) : W A := ([], Ok a).
Definition werr {A} (e : exn) : W A := ([], Err e).
Definition wlift {A} (r : res A) : W A := ([], r).
Definition wwarn (w : warning) : W unit := ([Warn w], Ok tt).
Definition wbind {A B} (x : W A) (f : A -> W B) : W B :=
  match x with
  | (l, Ok a) => let '(l', r) := f a in (l ++ l', r)
  | (l, Err e) => (l, Err e)
  end.
Notation "'do' x <- e ; f" := (wbind e (fun x => f))
  (at level 200, x pattern, e at level 100, f at level 200).
Definition wseq {A} (x : W unit) (y : W A) : W A := wbind x (fun _ => y).
Notation "x ;; y" := (wseq x y) (at level 199, right associativity).
Definition wwhen (b : bool) (x : W unit) : W unit := if b then x else wret tt.
(** [try: x except <h>: f e]. Events of [x] are kept. *)
Definition wcatch {A} (x : W A) (h : exn -> bool) (f : exn -> W A) : W A :=
  match x with
  | (l, Err e) => if h e then let '(l', r) := f e in (l ++ l', r) else x
  | _ => x
  end.
