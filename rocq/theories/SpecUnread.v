(** What it means that bytes cannot be read, and with which exception: the vocabulary of C103.
    Independent of the model's functions. *)
From Verif Require Import PyBase Stream Classes Key.
From Verif Require Import SpecWire SpecKey.
Open Scope Z_scope.

(** Too few bytes are left. The two texts, and the flag for "none at all", are those of
    read_fixed_bytes. *)
Definition ended (rest : bytes) : exn :=
  match rest with
  | [] => EOFError true (str "Underlying bytestream is empty")
  | _ => EOFError false (str "Fewer than 'num_bytes' bytes remaining in the underlying bytestream")
  end.
(** [unreadable t b e]: [b] does not begin with a value of type [t], and the exception is [e]. *)
Inductive unreadable : ftype -> bytes -> exn -> Prop :=
| un_int big sgn size b : (length b < size)%nat -> unreadable (TInt big sgn size) b (ended b)
| un_blob n b : (length b < n)%nat -> unreadable (TBlob n) b (ended b)
(* The length is cut off. *)
| un_length t k b : prefix_size t = Some k -> (length b < k)%nat -> unreadable t b (ended b)
(* The length is more than what follows, or more than any bytes object can have. *)
| un_short t k l rest : prefix_size t = Some k -> length l = k ->
    Z.of_nat (length rest) < unsigned l <= ssize_max -> unreadable t (l ++ rest) (ended rest)
| un_huge t k l rest : prefix_size t = Some k -> length l = k -> ssize_max < unsigned l ->
    unreadable t (l ++ rest) OverflowError
(* Text that is not UTF-8. *)
| un_text k l u rest : length l = k -> unsigned l = Z.of_nat (length u) -> (~ exists s, utf8 s u) ->
    unreadable (TText k) (l ++ u ++ rest) (UnicodeDecodeError u).

(** The first field that cannot be read, and the exception for it. *)
Definition first_unreadable (ts : list (pystr * ftype)) (b : bytes) (e : exn) : Prop :=
  exists before x t after vs u rest,
    ts = before ++ (x, t) :: after /\ record_of wire before vs u /\ b = u ++ rest /\ unreadable t rest e.

(** Why the bytes are not those of a key. *)
Definition key_unreadable (kd : kind) (b : bytes) (e : exn) : Prop :=
  (* The type cannot be read. *)
  unreadable (TText 4) b e \/
  exists t u rest, wire (TText 4) (VStr t) u /\ b = u ++ rest /\
    ((* It is not a known type. *)
     (~ In t (map fst key_specs) /\ e = KeyError (VStr t)) \/
     (* It is a type of certificate, and the key is to be private. *)
     (kd = KPriv /\ In t (map fst cert_specs) /\
      e = KeyError (VStr (str "No subclass of PrivateKeyParams corresponds to the given key type name"))) \/
     (* A parameter or the comment cannot be read. *)
     exists pub priv ts, In (t, (pub, priv)) key_specs /\ fields_of kd (pub, priv) = Some ts /\
       first_unreadable (ts ++ footer_fields kd) rest e).

(** A certificate's principals and options are lists inside byte strings. Texts in them that
    are not UTF-8 are reported by UnicodeDecodeError; ends of such lists in the wrong place
    are not. *)
Definition unreadable_list (ts : list (pystr * ftype)) (b : bytes) (u : bytes) : Prop :=
  exists ds bs rest, Forall2 (record_of wire ts) ds bs /\ b = List.concat bs ++ rest /\
    first_unreadable ts rest (UnicodeDecodeError u).
Definition cert_lists : list (pystr * list (pystr * ftype)) :=
  [(str "valid_principals", [text "principal"]);
   (str "critical_options", [text "option"; octets "value"]);
   (str "extensions", [text "option"; octets "value"])].
(** The first of the lists with such a text. *)
Fixpoint first_bad_list (ls : list (pystr * list (pystr * ftype))) (ps : dict pyval) (u : bytes) : Prop :=
  match ls with
  | [] => False
  | (n, ts) :: ls' =>
      (exists b, dget n ps = Some (VBytes b) /\ unreadable_list ts b u) \/
      ((forall b u', dget n ps = Some (VBytes b) -> ~ unreadable_list ts b u') /\ first_bad_list ls' ps u)
  end.
(** [b] begins with a certificate that has the fields [ps]. *)
Definition begins_with_cert (b : bytes) (ps : dict pyval) : Prop :=
  exists t base u rest, In (t, base) cert_specs /\ b = u ++ rest /\
    record_of wire (type_field :: cert_fields base) ((str "key_type", VStr t) :: ps) u.
(** What parsing a public key raises. Of a certificate's authority only an unknown type is
    reported (the authority may be a certificate again). *)
Inductive public_raises : bytes -> exn -> Prop :=
| pr_unreadable b e : key_unreadable KPub b e -> public_raises b e
| pr_text b ps u : begins_with_cert b ps -> first_bad_list cert_lists ps u ->
    public_raises b (UnicodeDecodeError u)
| pr_authority b ps ca x : begins_with_cert b ps -> (forall u, ~ first_bad_list cert_lists ps u) ->
    dget (str "signature_key") ps = Some (VBytes ca) -> public_raises ca (KeyError x) ->
    public_raises b (KeyError x).
