(** Objects and references: which dictionaries, keys and lists are shared between the objects
    that the library makes. The other files describe objects by their contents; here an object
    has an address, objects refer to others by address, and changing an object in place is
    seen through every reference to it. *)
From Verif Require Import PyBase IntBytes Utf8 StructFmt Stream Text Classes Key Crypto PrivateKeyList UserList Convert Generate.
Open Scope nat_scope.

Definition loc := nat.
(** A Key: key.py:132-147. The attributes header, footer and clear are dicts; params is a
    PascalStyleDict of class [ko_pcls], whose contents are a dict of its own (UserDict.data). *)
Record key_object := mkko {
  ko_kind : kind; ko_header : loc; ko_pcls : cls; ko_params : loc; ko_footer : loc; ko_clear : loc }.
(** A PublicPrivateKeyPair is a tuple (private_key_list.py:26): it cannot be changed, and is
    represented by the references in it. *)
Definition pair_refs := (loc * loc)%type.
(** A PrivateKeyList: the list in its attribute data (collections.UserList) and the attributes
    of private_key_list.py:195-202; bytes cannot be changed. *)
Record list_object := mklo {
  lo_data : loc; lo_byte_string : option bytes; lo_header : option loc; lo_cipher_bytes : option bytes;
  lo_kdf_options : option loc; lo_decipher_bytes : option bytes; lo_decipher_header : option loc;
  lo_padding : option bytes }.
Inductive object :=
| HDict (d : dict pyval) | HKey (k : key_object) | HSeq (l : list pair_refs) | HList (l : list_object).
(** Addresses are positions; nothing is ever freed. *)
Definition heap := list object.

(** ** What a program sees at an address *)
Definition dict_at (h : heap) (r : loc) : option (dict pyval) :=
  match nth_error h r with Some (HDict d) => Some d | _ => None end.
Definition key_at (h : heap) (r : loc) : option key :=
  match nth_error h r with
  | Some (HKey k) =>
      match dict_at h (ko_header k), dict_at h (ko_params k), dict_at h (ko_footer k), dict_at h (ko_clear k) with
      | Some a, Some b, Some c, Some d => Some (mkkey (ko_kind k) a (ko_pcls k) b c d)
      | _, _, _, _ => None
      end
  | _ => None
  end.
Definition pair_at (h : heap) (q : pair_refs) : option pair :=
  match key_at h (fst q), key_at h (snd q) with
  | Some a, Some b => Some (mkpair a b)
  | _, _ => None
  end.
Fixpoint pairs_at (h : heap) (l : list pair_refs) : option (list pair) :=
  match l with
  | [] => Some []
  | q :: l' => match pair_at h q, pairs_at h l' with Some a, Some b => Some (a :: b) | _, _ => None end
  end.
(** An attribute that is None or a dict. *)
Definition attribute_at (h : heap) (o : option loc) : option (option (dict pyval)) :=
  match o with
  | None => Some None
  | Some r => match dict_at h r with Some d => Some (Some d) | None => None end
  end.
(** The references in the list at [r]. *)
Definition refs_at (h : heap) (r : loc) : option (list pair_refs) :=
  match nth_error h r with
  | Some (HList l) => match nth_error h (lo_data l) with Some (HSeq q) => Some q | _ => None end
  | _ => None
  end.
Definition list_at (h : heap) (r : loc) : option pkl :=
  match nth_error h r, refs_at h r with
  | Some (HList l), Some q =>
      match pairs_at h q, attribute_at h (lo_header l), attribute_at h (lo_kdf_options l), attribute_at h (lo_decipher_header l) with
      | Some ps, Some hd, Some ko, Some dh =>
          Some (mkpkl ps (lo_byte_string l) hd (lo_cipher_bytes l) ko (lo_decipher_bytes l) dh (lo_padding l))
      | _, _, _, _ => None
      end
  | _, _ => None
  end.
(** key.header, key.params, key.footer, key.clear as references. *)
Definition part_ref (h : heap) (r : loc) (w : part) : option loc :=
  match nth_error h r with
  | Some (HKey k) =>
      Some match w with InHeader => ko_header k | InParams => ko_params k | InFooter => ko_footer k | InClear => ko_clear k end
  | _ => None
  end.
(** list.header, list.kdf_options as references. *)
Definition header_ref (h : heap) (r : loc) : option loc :=
  match nth_error h r with Some (HList l) => lo_header l | _ => None end.
Definition options_ref (h : heap) (r : loc) : option loc :=
  match nth_error h r with Some (HList l) => lo_kdf_options l | _ => None end.

(** ** Making objects *)
(** Key.__init__, key.py:132-147: dict(header), cls(params) (UserDict.__init__ copies its
    argument), dict(footer) and dict(clear) are new dictionaries. [k] is the key by contents. *)
Definition alloc_key (k : key) (h : heap) : heap * loc :=
  let n := length h in
  (h ++ [HDict (k_header k); HDict (k_params k); HDict (k_footer k); HDict (k_clear k);
         HKey (mkko (k_kind k) n (k_pcls k) (n + 1) (n + 2) (n + 3))], n + 4).
Definition alloc_pair (q : pair) (h : heap) : heap * pair_refs :=
  let '(h, a) := alloc_key (pr_public q) h in
  let '(h, b) := alloc_key (pr_private q) h in (h, (a, b)).
Fixpoint alloc_pairs (l : list pair) (h : heap) : heap * list pair_refs :=
  match l with
  | [] => (h, [])
  | q :: l' => let '(h, a) := alloc_pair q h in let '(h, r) := alloc_pairs l' h in (h, a :: r)
  end.
Definition alloc_dict (d : dict pyval) (h : heap) : heap * loc := (h ++ [HDict d], length h).
Definition alloc_option (o : option (dict pyval)) (h : heap) : heap * option loc :=
  match o with Some d => let '(h, r) := alloc_dict d h in (h, Some r) | None => (h, None) end.
(** PrivateKeyList(initlist, ...), private_key_list.py:184-202: UserList.__init__ copies the
    list; the other attributes are the arguments themselves. *)
Definition alloc_list (refs : list pair_refs) (v : pkl) (header options dheader : option loc) (h : heap) : heap * loc :=
  let n := length h in
  (h ++ [HSeq refs;
         HList (mklo n (l_byte_string v) header (l_cipher_bytes v) options (l_decipher_bytes v) dheader (l_padding v))],
   n + 1).

(** An object whose references are all moved by [n]. *)
Definition moved (n : nat) (o : object) : object :=
  match o with
  | HDict d => HDict d
  | HKey k => HKey (mkko (ko_kind k) (n + ko_header k) (ko_pcls k) (n + ko_params k) (n + ko_footer k) (n + ko_clear k))
  | HSeq l => HSeq (map (fun q => (n + fst q, n + snd q)) l)
  | HList l =>
      HList (mklo (n + lo_data l) (lo_byte_string l) (option_map (Nat.add n) (lo_header l)) (lo_cipher_bytes l)
                  (option_map (Nat.add n) (lo_kdf_options l)) (lo_decipher_bytes l)
                  (option_map (Nat.add n) (lo_decipher_header l)) (lo_padding l))
  end.

(** ** Programs *)
Inductive command :=
| NewDict (d : dict pyval)                                    (* a dictionary of the caller's *)
| Mutate (r : loc) (d : dict pyval)                           (* any change in place of a dictionary *)
| NewKey (k : kind) (header params footer : loc) (clear : option loc)
| ParseKey (k : kind) (b : bytes) (clear : option loc)        (* from_bytes *)
| ParseLine (k : kind) (s : pystr)                            (* from_string *)
| NewPair (key_type comment : pystr) (kwargs : dict pyval)    (* PublicPrivateKeyPair.generate *)
| NewList (l : list pair_refs) (cipher kdf : pystr) (options : option loc)   (* from_list *)
| ParseList (e : env) (b : bytes) (passphrase : option pystr)
| EditList (l : loc) (e : edit_of pair_refs)
| DeriveList (l : loc) (d : derive_of pair_refs)
| CopyList (l : loc)                                          (* copy.copy *)
| DeepCopy (r : loc).                                         (* copy.deepcopy *)
(** The pairs that an edit or a derivation is given. *)
Definition edit_refs (e : edit_of pair_refs) : list pair_refs :=
  match e with
  | Append x | Insert _ x | Remove x | SetItem _ x => [x]
  | Extend xs | SetSlice _ xs => xs
  | _ => []
  end.
Definition derive_refs (d : derive_of pair_refs) : list pair_refs :=
  match d with Add xs | RAdd xs => xs | _ => [] end.

Section Run.
Variable p : prims.
Variable x : ext.
Variable gen : request -> res obj.

(** What a command answers: a reference, or for a pair its two references. *)
Inductive answer := Ref (r : loc) | Pair (q : pair_refs).
(** == of two pairs, private_key_list.py:41-46. *)
Definition same_pair (h : heap) (a b : pair_refs) : bool :=
  match pair_at h a, pair_at h b with Some a, Some b => pair_eqb a b | _, _ => false end.
(** In-place update at an address that exists. *)
Definition store (r : loc) (o : object) (h : heap) : heap := replace_nth r o h.

(** One command; Err with the heap unchanged when it raises. Commands on references to objects
    of another sort than the command needs are not modelled (Unmodelled). Warnings are left
    out here. *)
Definition step (c : command) (h : heap) : heap * res answer :=
  let fail (e : exn) := (h, Err e) in
  let made (r : res key) : heap * res answer :=
    match r with Ok k => let '(h, r) := alloc_key k h in (h, Ok (Ref r)) | Err e => fail e end in
  match c with
  | NewDict d => let '(h, r) := alloc_dict d h in (h, Ok (Ref r))
  | Mutate r d =>
      match dict_at h r with Some _ => (store r (HDict d) h, Ok (Ref r)) | None => fail Unmodelled end
  (* key.py:125-147 *)
  | NewKey k header params footer clear =>
      match dict_at h header, dict_at h params, dict_at h footer, attribute_at h clear with
      | Some a, Some b, Some c, Some d => made (snd (new_key (p_ec_ok p) (parse_pub (p_ec_ok p)) k a b c d))
      | _, _, _, _ => fail Unmodelled
      end
  (* key.py:183-215 *)
  | ParseKey k b clear =>
      match attribute_at h clear with
      | Some d => made (snd (key_from_bytes (p_ec_ok p) k b d))
      | None => fail Unmodelled
      end
  (* key.py:217-254 *)
  | ParseLine k s => made (snd (key_from_string (p_ec_ok p) k s))
  (* private_key_list.py:47-85 *)
  | NewPair t comment kwargs =>
      match snd (generate_pair x gen t comment kwargs) with
      | Ok q => let '(h, r) := alloc_pair q h in (h, Ok (Pair r))
      | Err e => fail e
      end
  (* private_key_list.py:448-468: the keys of the pairs and the given options are kept, not copied *)
  | NewList l cipher kdf options =>
      match attribute_at h options with
      | Some d =>
          match from_list (map (fun q => PairItem (key_at h (fst q)) (key_at h (snd q))) l) cipher kdf d with
          | Ok v =>
              let '(h, hd) := alloc_option (l_header v) h in
              let '(h, ko) := match options with
                              | Some r => (h, Some r)
                              | None => alloc_option (l_kdf_options v) h
                              end in
              let '(h, r) := alloc_list l v hd ko None h in (h, Ok (Ref r))
          | Err e => fail e
          end
      | None => fail Unmodelled
      end
  (* private_key_list.py:234-355: everything is new *)
  | ParseList e b passphrase =>
      match snd (list_from_bytes p e b passphrase) with
      | Ok v =>
          let '(h, refs) := alloc_pairs (l_pairs v) h in
          let '(h, hd) := alloc_option (l_header v) h in
          let '(h, ko) := alloc_option (l_kdf_options v) h in
          let '(h, dh) := alloc_option (l_decipher_header v) h in
          let '(h, r) := alloc_list refs v hd ko dh h in (h, Ok (Ref r))
      | Err e => fail e
      end
  (* collections.UserList: self.data is changed in place *)
  | EditList l e =>
      match nth_error h l, refs_at h l, pairs_at h (edit_refs e) with
      | Some (HList lo), Some refs, Some _ =>
          match edit_items (same_pair h) e refs with
          | Ok refs => (store (lo_data lo) (HSeq refs) h, Ok (Ref l))
          | Err e => fail e
          end
      | _, _, _ => fail Unmodelled
      end
  (* collections.UserList: self.__class__(data), the references in data are copied *)
  | DeriveList l d =>
      match refs_at h l, pairs_at h (derive_refs d) with
      | Some refs, Some _ =>
          match derive_items d refs with
          | Ok refs => let '(h, r) := alloc_list refs (new_list []) None None None h in (h, Ok (Ref r))
          | Err e => fail e
          end
      | _, _ => fail Unmodelled
      end
  (* UserList.__copy__: the attributes are copied, and data[:] *)
  | CopyList l =>
      match nth_error h l, refs_at h l with
      | Some (HList lo), Some refs =>
          let n := length h in
          (h ++ [HSeq refs;
                 HList (mklo n (lo_byte_string lo) (lo_header lo) (lo_cipher_bytes lo) (lo_kdf_options lo)
                             (lo_decipher_bytes lo) (lo_decipher_header lo) (lo_padding lo))], Ok (Ref (n + 1)))
      | _, _ => fail Unmodelled
      end
  (* copy.deepcopy of a dict, a key (key.py:30) or a list (private_key_list.py:160): no class of the
     library defines __deepcopy__, __copy__ or __reduce__, so the copy has the same attributes, each
     copied in the same way, and an object met twice is copied once (the memo); no constructor
     or check of the library is called. Simplification: everything is copied; what cannot be
     reached from [r] is never referred to. Immutable contents are kept. *)
  | DeepCopy r =>
      if r <? length h then (h ++ map (moved (length h)) h, Ok (Ref (length h + r))) else fail Unmodelled
  end.
(** A program goes on after an exception with the objects it had. *)
Fixpoint run (cs : list command) (h : heap) : heap :=
  match cs with
  | [] => h
  | c :: cs' => run cs' (fst (step c h))
  end.
End Run.
