(** pack_bytes of a list while other threads change objects. The interpreter runs one thread at a
    time and can switch between any two accesses to an object: [hist t] is what the objects are when
    pack_bytes makes its access number [t]. Nothing is assumed of how [hist t] and [hist (S t)] are
    related. Streams and dictionaries that pack_bytes makes for itself are not seen by other threads. *)
From Verif Require Import PyBase IntBytes Utf8 StructFmt Stream Text Classes Key Crypto PrivateKeyList UserList Convert Generate Heap.
Open Scope nat_scope.

(** A computation that starts at access number [t]: the number it has come to, and its result. *)
Definition T (A : Type) : Type := nat -> nat * W A.
Definition tw {A} (x : W A) : T A := fun t => (t, x).
Definition tret {A} (a : A) : T A := tw (wret a).
Definition tlift {A} (r : res A) : T A := tw (wlift r).
Definition tbind {A B} (x : T A) (f : A -> T B) : T B := fun t =>
  match x t with
  | (t', (l, Ok a)) => let '(t'', (l', r)) := f a t' in (t'', (l ++ l', r))
  | (t', (l, Err e)) => (t', (l, Err e))
  end.
Notation "'dot' x <- e ; f" := (tbind e (fun x => f))
  (at level 200, x pattern, e at level 100, f at level 200).

Section Pack.
Variable p : prims.
Variable hist : nat -> heap.

(** One access. Objects of another sort than the library makes are not modelled (Unmodelled). *)
Definition look {A} (f : heap -> option A) : T A := fun t =>
  (S t, match f (hist t) with Some a => wret a | None => werr Unmodelled end).
Definition list_object_at (h : heap) (r : loc) : option list_object :=
  match nth_error h r with Some (HList l) => Some l | _ => None end.
Definition class_at (h : heap) (r : loc) : option cls :=
  match nth_error h r with Some (HKey k) => Some (ko_pcls k) | _ => None end.
(** self.header and self.kdf_options. *)
Definition header_of (r : loc) (h : heap) : option (option loc) := option_map lo_header (list_object_at h r).
Definition kdf_options_of (r : loc) (h : heap) : option (option loc) := option_map lo_kdf_options (list_object_at h r).

(** write_from_format_instructions_dict, pascal_style_byte_stream.py:348-382, with a dictionary that
    others can change: values_dict[k] for one name after the other. What is written. *)
Fixpoint t_dict (f : fmt_dict) (s : loc) : T bytes :=
  match f with
  | [] => tret []
  | (k, i) :: f' =>
      dot d <- look (fun h => dict_at h s);
      dot v <- tlift (ditem k d);
      dot b <- tlift (instr_bytes i v);
      dot r <- t_dict f' s;
      tret (b ++ r)
  end.
(** pack_public_bytes, key.py:256-291: self.header, type(self.params), self.params, self.footer. *)
Definition t_public (k : loc) : T bytes :=
  dot s <- look (fun h => part_ref h k InHeader);
  dot a <- t_dict (header_fmt KPub) s;
  dot c <- look (fun h => class_at h k);
  dot s <- look (fun h => part_ref h k InParams);
  dot b <- t_dict (format_of (first_public_class c)) s;
  dot s <- look (fun h => part_ref h k InFooter);
  dot c <- t_dict (footer_fmt KPub) s;
  tret (a ++ b ++ c).
(** pack_private_bytes, key.py:441-466. *)
Definition t_private (k : loc) : T bytes :=
  dot s <- look (fun h => part_ref h k InHeader);
  dot a <- t_dict (header_fmt KPriv) s;
  dot c <- look (fun h => class_at h k);
  dot s <- look (fun h => part_ref h k InParams);
  dot b <- t_dict (format_of c) s;
  dot s <- look (fun h => part_ref h k InFooter);
  dot c <- t_dict (footer_fmt KPriv) s;
  tret (a ++ b ++ c).

(** private_key_list.py:504-510: self.header is read for each of the tests and each of the values;
    None has no items (TypeError). *)
Definition t_header (r : loc) : T (dict pyval) :=
  dot o <- look (header_of r);
  match o with
  | Some s => look (fun h => dict_at h s)
  | None => tw (werr TypeError)
  end.
Definition t_names (r : loc) : T (pyval * pyval) :=
  let none := tret (VStr (str "none"), VStr (str "none")) in
  dot o <- look (header_of r);
  match o with
  | None => none
  | Some _ =>
      dot d <- t_header r;
      if dmem (str "cipher") d then
        dot d <- t_header r;
        if dmem (str "kdf") d then
          dot d <- t_header r;
          dot c <- tlift (ditem (str "cipher") d);
          dot d <- t_header r;
          dot k <- tlift (ditem (str "kdf") d);
          tret (c, k)
        else none
      else none
  end.
(** Lines 512-516: the list's own dictionary of options, or new ones that no one else has. That the
    attribute is None when it is read for the second time is not modelled. *)
Inductive options := Own (d : dict pyval) | Shared (s : loc).
Definition t_options (e : env) (r : loc) (kv : pyval) (retain : bool) : T options :=
  let new := tw (do k <- wlift (get_kdf kv);
                 new_kdf k (kdf_generate k (e_salt e)) ;;
                 wret (Own (kdf_generate k (e_salt e)))) in
  if retain then
    dot o <- look (kdf_options_of r);
    match o with
    | Some _ => dot s <- look (fun h => match kdf_options_of r h with Some o => o | None => None end); tret (Shared s)
    | None => new
    end
  else new.
(** Lines 525-529. *)
Definition t_options_bytes (f : fmt_dict) (o : options) : T bytes :=
  match o with
  | Own d => tlift (pack_with (write_dict f d))
  | Shared s => t_dict f s
  end.
(** Line 582: the constructor copies the options; the copy is taken to be one access. *)
Definition t_copy (o : options) : T (dict pyval) :=
  match o with
  | Own d => tret d
  | Shared s => look (fun h => dict_at h s)
  end.

(** Lines 543-551 and 565-568. self[i] is one access to the list, which gives the two keys. *)
Fixpoint t_pubs (r : loc) (override : bool) (idx : list Z) : T bytes :=
  match idx with
  | [] => tret []
  | i :: idx' =>
      dot refs <- look (fun h => refs_at h r);
      dot q <- tlift (py_index refs i);
      dot b <- t_public (if override then snd q else fst q);
      dot b <- tlift (instr_bytes fB (VBytes b));
      dot bs <- t_pubs r override idx';
      tret (b ++ bs)
  end.
Fixpoint t_privs (r : loc) (idx : list Z) : T bytes :=
  match idx with
  | [] => tret []
  | i :: idx' =>
      dot refs <- look (fun h => refs_at h r);
      dot q <- tlift (py_index refs i);
      dot b <- t_private (snd q);
      dot bs <- t_privs r idx';
      tret (b ++ bs)
  end.
(** Lines 518-519. *)
Definition t_indices (r : loc) (include_indices : option (list Z)) : T (list Z) :=
  match include_indices with
  | Some i => tret i
  | None => dot refs <- look (fun h => refs_at h r); tret (map Z.of_nat (seq 0 (length refs)))
  end.

(** pack_bytes, lines 470-599, of the list at [r]. *)
Definition t_pack (e : env) (r : loc) (passphrase : option pystr)
    (include_indices : option (list Z)) (override retain : bool) : T bytes :=
  dot (cv, kv) <- t_names r;
  dot o <- t_options e r kv retain;
  dot idx <- t_indices r include_indices;
  dot k <- tlift (get_kdf kv);
  dot options_bytes <- t_options_bytes (kdf_format k) o;
  dot header <- tlift (pack_with (write_dict list_header_fmt
               [(str "auth_magic", VBytes auth_magic); (str "cipher", cv); (str "kdf", kv);
                (str "kdf_options", VBytes options_bytes);
                (str "num_keys", VInt (Z.of_nat (length idx)))]));
  dot pubs <- t_pubs r override idx;
  dot checks <- tlift (pack_with (write_dict decipher_header_fmt
               [(str "check_int_1", VInt (e_randbits e)); (str "check_int_2", VInt (e_randbits e))]));
  dot privs <- t_privs r idx;
  dot c <- tlift (get_cipher cv);
  let plain := checks ++ privs in
  let padding_length := ((- Z.of_nat (length plain)) mod Z.of_nat (block_size c))%Z in
  dot pass <- tw (if val_eqb kv (VStr (str "none")) then wret [] else get_passphrase e passphrase);
  dot c <- tlift (get_cipher cv);
  dot d <- t_copy o;
  dot _ <- tw (new_kdf k d);
  dot cipher_bytes <- tlift (cipher_encrypt p c k d pass (plain ++ pad_bytes (Z.to_nat padding_length)));
  let body := if is_integrity c then slice_butlast (tag_length c) cipher_bytes else cipher_bytes in
  let tag := if is_integrity c then slice_last (tag_length c) cipher_bytes else [] in
  tlift (pack_with (fun s0 =>
    (do! _ <- write_instr fB (VBytes body);
     fun s => (bio_write tag s, Ok tt)) (bio_write (header ++ pubs) s0))).
End Pack.
