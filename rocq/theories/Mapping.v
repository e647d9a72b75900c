(** The entries of a key as mappings: key.params is a PascalStyleDict, i.e. a collections.UserDict
    (pascal_style_byte_stream.py:462-465), and key.header, key.footer and key.clear are dicts
    (key.py:132-147). These are the operations that the two sorts of mapping inherit, from dict and from
    UserDict and MutableMapping of CPython 3.11; no class of the library overrides one. Keys are str. *)
From Verif Require Import PyBase IntBytes Utf8 StructFmt Stream Text Classes Key UserList.
Open Scope Z_scope.

(** del d[k] *)
Fixpoint ddel {A} (k : pystr) (d : dict A) : dict A :=
  match d with
  | [] => []
  | (k', v) :: d' => if str_eqb k k' then d' else (k', v) :: ddel k d'
  end.

Inductive msort := PlainDict | Params.
(** Operations in place. [MUpdate] takes a mapping or an iterable of pairs, [MIor] (|=) a mapping, both
    given by their items. *)
Inductive medit :=
| MSet (k : pystr) (v : pyval) | MDel (k : pystr) | MPop (k : pystr) (default : option pyval)
| MPopitem | MClear | MUpdate (l : list (pystr * pyval)) | MIor (l : list (pystr * pyval))
| MSetdefault (k : pystr) (v : pyval).
(** What they return: None (for |= and the assignments, nothing), a value, an item. *)
Inductive manswer := MNone | MValue (v : pyval) | MItem (k : pystr) (v : pyval).

(** popitem of dict takes the last item, popitem of MutableMapping the first (next(iter(self))).
    Of an empty one they raise KeyError with a message and without argument. *)
Definition popitem (s : msort) (d : dict pyval) : res (manswer * dict pyval) :=
  match s, d, rev d with
  | PlainDict, _, (k, v) :: r => Ok (MItem k v, rev r)
  | PlainDict, _, [] => Err (KeyError (VStr (str "popitem(): dictionary is empty")))
  | Params, (k, v) :: d', _ => Ok (MItem k v, d')
  | Params, [], _ => Err (KeyError (VTuple []))
  end.
(** The edit of a mapping; an edit that raises leaves it as it was. *)
Definition medit_run (s : msort) (e : medit) (d : dict pyval) : res (manswer * dict pyval) :=
  match e with
  | MSet k v => Ok (MNone, dset k v d)
  | MDel k => if dmem k d then Ok (MNone, ddel k d) else Err (KeyError (VStr k))
  | MPop k default =>
      match dget k d, default with
      | Some v, _ => Ok (MValue v, ddel k d)
      | None, Some v => Ok (MValue v, d)
      | None, None => Err (KeyError (VStr k))
      end
  | MPopitem => popitem s d
  | MClear => Ok (MNone, [])
  | MUpdate l | MIor l => Ok (MNone, dmerge d l)
  | MSetdefault k v =>
      match dget k d with Some w => Ok (MValue w, d) | None => Ok (MValue v, dset k v d) end
  end.
Definition medit_after (s : msort) (d : dict pyval) (e : medit) : dict pyval :=
  match medit_run s e d with Ok (_, d') => d' | Err _ => d end.

(** A program that edits the four mappings of a key and goes on after exceptions. *)
Definition sort_of (w : part) : msort := match w with InParams => Params | _ => PlainDict end.
Definition edit_part (k : key) (we : part * medit) : key :=
  let after := medit_after (sort_of (fst we)) in
  match fst we with
  | InHeader => mkkey (k_kind k) (after (k_header k) (snd we)) (k_pcls k) (k_params k) (k_footer k) (k_clear k)
  | InParams => mkkey (k_kind k) (k_header k) (k_pcls k) (after (k_params k) (snd we)) (k_footer k) (k_clear k)
  | InFooter => mkkey (k_kind k) (k_header k) (k_pcls k) (k_params k) (after (k_footer k) (snd we)) (k_clear k)
  | InClear => mkkey (k_kind k) (k_header k) (k_pcls k) (k_params k) (k_footer k) (after (k_clear k) (snd we))
  end.
Definition edit_key (k : key) (l : list (part * medit)) : key := fold_left edit_part l k.

(** Reading. *)
Definition mget (k : pystr) (default : pyval) (d : dict pyval) : pyval :=
  match dget k d with Some v => v | None => default end.

(** ** New mappings from parameters *)
Section Derived.
Variable ec_ok : curve -> bytes -> bool.
Variable parse : bytes -> W key.

(** What may stand beside parameters in [|] and [==]: parameters, a dict, or something else. *)
Inductive moperand := MParams (c : cls) (d : dict pyval) | MDict (d : dict pyval) | MElse.
(** params | other: UserDict.__or__ makes an object of the same class (the left one's, also if the right
    one's is a subclass, since none has a __ror__ of its own), through the constructor. *)
Definition params_or (c : cls) (d : dict pyval) (o : moperand) : W (cls * dict pyval) :=
  match o with
  | MParams _ d' | MDict d' => new_params ec_ok parse c (dmerge d d') ;; wret (c, dmerge d d')
  | MElse => werr TypeError
  end.
(** other | params, with a dict or something else on the left: UserDict.__ror__. *)
Definition params_ror (o : moperand) (c : cls) (d : dict pyval) : W (cls * dict pyval) :=
  match o with
  | MParams c' d' => params_or c' d' (MParams c d)
  | MDict d' => new_params ec_ok parse c (dmerge d' d) ;; wret (c, dmerge d' d)
  | MElse => werr TypeError
  end.
(** params.copy() and copy.copy(params): the constructor is not called. *)
Definition params_copy (c : cls) (d : dict pyval) : W (cls * dict pyval) := wret (c, d).
(** cls.fromkeys(keys, value): UserDict.fromkeys calls cls() without the argument that
    PascalStyleDict.__init__ (pascal_style_byte_stream.py:463) needs. *)
Definition params_fromkeys (c : cls) (keys : list pystr) (v : pyval) : W (cls * dict pyval) := werr TypeError.
(** params == other: Mapping.__eq__ *)
Definition params_eq (d : dict pyval) (o : moperand) : bool :=
  match o with MParams _ d' | MDict d' => dict_eqb d d' | MElse => false end.
End Derived.
