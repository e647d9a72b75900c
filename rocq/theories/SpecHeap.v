(** Specification of sharing between objects. *)
From Verif Require Import PyBase Classes Key Crypto PrivateKeyList UserList Convert Generate Heap.
Open Scope nat_scope.

(** The key [k] with one of its four dictionaries replaced by [d]. *)
Definition with_part (w : part) (d : dict pyval) (k : key) : key :=
  match w with
  | InHeader => mkkey (k_kind k) d (k_pcls k) (k_params k) (k_footer k) (k_clear k)
  | InParams => mkkey (k_kind k) (k_header k) (k_pcls k) d (k_footer k) (k_clear k)
  | InFooter => mkkey (k_kind k) (k_header k) (k_pcls k) (k_params k) d (k_clear k)
  | InClear => mkkey (k_kind k) (k_header k) (k_pcls k) (k_params k) (k_footer k) d
  end.
Definition part_of (w : part) (k : key) : dict pyval :=
  match w with InHeader => k_header k | InParams => k_params k | InFooter => k_footer k | InClear => k_clear k end.
(** The objects of a program that starts with none. *)
Definition reachable (p : prims) (x : ext) (gen : request -> res obj) (h : heap) : Prop :=
  exists cs, h = run p x gen cs [].
(** A program that changes in place only dictionaries and lists among the first [n] objects,
    i.e. those that were there when there were [n] objects; it may make any others. *)
Definition changes_only_first (n : nat) (c : command) : Prop :=
  match c with Mutate r _ => r < n | EditList r _ => r < n | _ => True end.
(** The edit of a list of references, as an edit of the pairs they refer to. *)
Inductive edit_shows (h : heap) : edit_of pair_refs -> edit -> Prop :=
| Sh_append x y : pair_at h x = Some y -> edit_shows h (Append x) (Append y)
| Sh_extend xs ys : Forall2 (fun x y => pair_at h x = Some y) xs ys -> edit_shows h (Extend xs) (Extend ys)
| Sh_insert i x y : pair_at h x = Some y -> edit_shows h (Insert i x) (Insert i y)
| Sh_pop i : edit_shows h (Pop i) (Pop i)
| Sh_remove x y : pair_at h x = Some y -> edit_shows h (Remove x) (Remove y)
| Sh_clear : edit_shows h Clear Clear
| Sh_reverse : edit_shows h Reverse Reverse
| Sh_imul n : edit_shows h (IMul n) (IMul n)
| Sh_set i x y : pair_at h x = Some y -> edit_shows h (SetItem i x) (SetItem i y)
| Sh_del i : edit_shows h (DelItem i) (DelItem i)
| Sh_set_slice s xs ys : Forall2 (fun x y => pair_at h x = Some y) xs ys -> edit_shows h (SetSlice s xs) (SetSlice s ys)
| Sh_del_slice s : edit_shows h (DelSlice s) (DelSlice s)
| Sh_sort_by ks reverse : edit_shows h (SortBy ks reverse) (SortBy ks reverse)
| Sh_sort : edit_shows h Sort Sort.
Inductive derive_shows (h : heap) : derive_of pair_refs -> derive -> Prop :=
| Sh_slice s : derive_shows h (GetSlice s) (GetSlice s)
| Sh_copy : derive_shows h Copy Copy
| Sh_add xs ys : Forall2 (fun x y => pair_at h x = Some y) xs ys -> derive_shows h (Add xs) (Add ys)
| Sh_radd xs ys : Forall2 (fun x y => pair_at h x = Some y) xs ys -> derive_shows h (RAdd xs) (RAdd ys)
| Sh_mul n : derive_shows h (Mul n) (Mul n).
(** The commands that make a key, and the key by contents: what the constructor, from_bytes and
    from_string return for the contents of their arguments. *)
Inductive makes_key (p : prims) (h : heap) : command -> key -> Prop :=
| Mk_new t rh rp rf rc a b c d k :
    dict_at h rh = Some a -> dict_at h rp = Some b -> dict_at h rf = Some c -> attribute_at h rc = Some d ->
    snd (new_key (p_ec_ok p) (parse_pub (p_ec_ok p)) t a b c d) = Ok k ->
    makes_key p h (NewKey t rh rp rf rc) k
| Mk_parse t b rc d k : attribute_at h rc = Some d -> snd (key_from_bytes (p_ec_ok p) t b d) = Ok k -> makes_key p h (ParseKey t b rc) k
| Mk_line t s k : snd (key_from_string (p_ec_ok p) t s) = Ok k -> makes_key p h (ParseLine t s) k.
(** Everything that is seen at the addresses of [h] is seen in [h'] too. *)
Definition all_the_same (h h' : heap) : Prop :=
  forall r, r < length h -> dict_at h' r = dict_at h r /\ key_at h' r = key_at h r /\ list_at h' r = list_at h r.
