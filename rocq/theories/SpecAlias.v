(** Specification of programs that make keys share their dictionaries. *)
From Verif Require Import PyBase Classes Key Crypto PrivateKeyList UserList Convert Generate Heap SpecHeap Alias.
Open Scope nat_scope.

(** The objects of a program that starts with none. *)
Definition areachable (p : prims) (x : ext) (gen : request -> res obj) (h : heap) : Prop :=
  exists cs, h = arun p x gen cs [].
(** The key [k] with the dictionary [d] in every part for which [through] holds. *)
Definition with_parts (through : part -> bool) (d : dict pyval) (k : key) : key :=
  let f w := if through w then d else part_of w k in
  mkkey (k_kind k) (f InHeader) (k_pcls k) (f InParams) (f InFooter) (f InClear).
(** The part [w] of the key at [b] is the dictionary at [s]. *)
Definition is_part (h : heap) (b : loc) (s : loc) (w : part) : bool :=
  match part_ref h b w with Some r => r =? s | None => false end.
(** list.decipher_bytes_header as a reference. *)
Definition decipher_ref (h : heap) (r : loc) : option loc :=
  match nth_error h r with Some (HList l) => lo_decipher_header l | _ => None end.
(** What can be reached from an object by going through attributes and elements. *)
Inductive reaches (h : heap) (r : loc) : loc -> Prop :=
| Here : reaches h r r
| By_part a w s : reaches h r a -> part_ref h a w = Some s -> reaches h r s
| By_pair l q a b s : reaches h r l -> refs_at h l = Some q -> In (a, b) q -> s = a \/ s = b -> reaches h r s
| By_attribute l s : reaches h r l -> header_ref h l = Some s \/ options_ref h l = Some s \/ decipher_ref h l = Some s -> reaches h r s.
(** The object that a command changes in place. *)
Definition changes (c : acommand) (r : loc) : Prop :=
  match c with
  | Plain (Mutate s _) => r = s
  | Plain (EditList l _) => r = l
  | Assign a _ _ | AssignParams a _ => r = a
  | AssignHeader l _ | AssignOptions l _ => r = l
  | _ => False
  end.
(** The command assigns to an attribute of the key at [r]. *)
Definition assigns_to (r : loc) (c : acommand) : Prop :=
  match c with Assign a _ _ | AssignParams a _ => a = r | _ => False end.
(** The command assigns to the attribute [w] of the key at [r]. *)
Definition assigns_part (r : loc) (w : part) (c : acommand) : Prop :=
  match c with Assign a w' _ => a = r /\ w' = w | AssignParams a _ => a = r /\ w = InParams | _ => False end.
(** The command assigns to the attribute header of the list at [r]. *)
Definition assigns_header (r : loc) (c : acommand) : Prop :=
  match c with AssignHeader l _ => l = r | _ => False end.
(** A list with another header, or other options. *)
Definition with_header (d : option (dict pyval)) (v : pkl) : pkl :=
  mkpkl (l_pairs v) (l_byte_string v) d (l_cipher_bytes v) (l_kdf_options v) (l_decipher_bytes v) (l_decipher_header v) (l_padding v).
Definition with_options (d : option (dict pyval)) (v : pkl) : pkl :=
  mkpkl (l_pairs v) (l_byte_string v) (l_header v) (l_cipher_bytes v) d (l_decipher_bytes v) (l_decipher_header v) (l_padding v).
(** What is seen at [r] in [h] and at [r'] in [h']. *)
Definition same_at (h : heap) (r : loc) (h' : heap) (r' : loc) : Prop :=
  dict_at h' r' = dict_at h r /\ key_at h' r' = key_at h r /\ list_at h' r' = list_at h r.
