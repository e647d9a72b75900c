(** Specification of what other threads may do while a list is packed. *)
From Verif Require Import PyBase Classes Key Crypto PrivateKeyList UserList Convert Generate Heap SpecHeap SpecList.
Open Scope nat_scope.

(** The key at [k] has the same dictionaries, with the same contents. *)
Definition same_key (h h' : heap) (k : loc) : Prop :=
  (forall w, part_ref h' k w = part_ref h k w) /\ key_at h' k = key_at h k.
(** From [h] to [h'] nothing has been changed about the list at [r], its header, its options and its
    keys, except that pairs may have been added at its end. *)
Definition only_added (r : loc) (h h' : heap) : Prop :=
  header_ref h' r = header_ref h r /\ options_ref h' r = options_ref h r /\
  (forall s, header_ref h r = Some s \/ options_ref h r = Some s -> dict_at h' s = dict_at h s) /\
  (forall refs, refs_at h r = Some refs ->
     (exists more, refs_at h' r = Some (refs ++ more)) /\
     forall a b, In (a, b) refs -> same_key h h' a /\ same_key h h' b).
(** Indices into the list of [n] pairs, none of them counted from the end. *)
Definition in_range (n : nat) (idx : option (list Z)) : Prop :=
  forall l i, idx = Some l -> In i l -> (0 <= i < Z.of_nat n)%Z.

(** The commands of other threads that do not disturb the packing of the list at [r] when they are run
    on [h]: they may make objects, change lists other than [r], add pairs at the end of [r], and
    change dictionaries other than the header and options of [r] and those of the keys in [r]. *)
Definition not_disturbing (r : loc) (h : heap) (c : command) : Prop :=
  match c with
  | Mutate s _ =>
      header_ref h r <> Some s /\ options_ref h r <> Some s /\
      (forall refs a b w, refs_at h r = Some refs -> In (a, b) refs -> part_ref h a w <> Some s /\ part_ref h b w <> Some s)
  | EditList l (Append _) | EditList l (Extend _) => True
  | EditList l _ => l <> r
  | _ => True
  end.
(** What the other threads do, in the order in which they do it. *)
Fixpoint none_disturbing (p : prims) (x : ext) (gen : request -> res obj) (r : loc) (h : heap) (cs : list command) : Prop :=
  match cs with
  | [] => True
  | c :: cs' => not_disturbing r h c /\ none_disturbing p x gen r (fst (step p x gen c h)) cs'
  end.
(** [done t] of the commands have been run when pack_bytes makes its access number [t]. *)
Definition schedule (done : nat -> nat) : Prop := forall t, done t <= done (S t).

(** ** What was seen until access number [last] *)
Section Seen.
Variable hist : nat -> heap.
Variable last : nat.
Definition dict_had (s : loc) (name : pystr) (v : pyval) : Prop :=
  exists t d, t <= last /\ dict_at (hist t) s = Some d /\ dget name d = Some v.
(** The key at [k] had, as the dictionary [w], one that had the value. *)
Definition key_had (k : loc) (w : part) (name : pystr) (v : pyval) : Prop :=
  exists t s, t <= last /\ part_ref (hist t) k w = Some s /\ dict_had s name v.
(** A key that has only values which the key at [k] had. *)
Definition made_from (k : loc) (y : key) : Prop :=
  (exists t ko, t <= last /\ nth_error (hist t) k = Some (HKey ko) /\ ko_pcls ko = k_pcls y) /\
  forall w name v, In (name, v) (part_of w y) -> key_had k w name v.
(** The list at [r] had the pair [q] at index [i]. *)
Definition item_had (r : loc) (i : Z) (q : pair_refs) : Prop :=
  exists t refs, t <= last /\ refs_at (hist t) r = Some refs /\ at_index refs i q.
Definition length_had (r : loc) (n : nat) : Prop :=
  exists t refs, t <= last /\ refs_at (hist t) r = Some refs /\ length refs = n.
Definition header_had (r : loc) (name : pystr) (v : pyval) : Prop :=
  exists t s, t <= last /\ header_ref (hist t) r = Some s /\ dict_had s name v.
End Seen.
