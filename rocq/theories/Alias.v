(** Programs that make keys and lists share their dictionaries: copy.copy of a key, and assignment
    to the attributes of a key or a list. Everything in Heap.v makes keys that share nothing. *)
From Verif Require Import PyBase Classes Key Crypto PrivateKeyList UserList Convert Generate Heap.
Open Scope nat_scope.

Inductive acommand :=
| Plain (c : command)
| CopyKey (r : loc)                            (* copy.copy(key) *)
| Assign (a : loc) (w : part) (s : loc)        (* key.header = d, key.footer = d, key.clear = d *)
| AssignParams (a b : loc)                     (* key.params = other.params *)
| AssignHeader (l : loc) (s : option loc)      (* list.header = d or None *)
| AssignOptions (l : loc) (s : option loc).    (* list.kdf_options = d or None *)

(** A key with one reference replaced. *)
Definition set_part (w : part) (s : loc) (k : key_object) : key_object :=
  match w with
  | InHeader => mkko (ko_kind k) s (ko_pcls k) (ko_params k) (ko_footer k) (ko_clear k)
  | InParams => mkko (ko_kind k) (ko_header k) (ko_pcls k) s (ko_footer k) (ko_clear k)
  | InFooter => mkko (ko_kind k) (ko_header k) (ko_pcls k) (ko_params k) s (ko_clear k)
  | InClear => mkko (ko_kind k) (ko_header k) (ko_pcls k) (ko_params k) (ko_footer k) s
  end.
Definition set_params (c : cls) (s : loc) (k : key_object) : key_object :=
  mkko (ko_kind k) (ko_header k) c s (ko_footer k) (ko_clear k).

Definition set_header (s : option loc) (l : list_object) : list_object :=
  mklo (lo_data l) (lo_byte_string l) s (lo_cipher_bytes l) (lo_kdf_options l) (lo_decipher_bytes l) (lo_decipher_header l) (lo_padding l).
Definition set_options (s : option loc) (l : list_object) : list_object :=
  mklo (lo_data l) (lo_byte_string l) (lo_header l) (lo_cipher_bytes l) s (lo_decipher_bytes l) (lo_decipher_header l) (lo_padding l).

Section Run.
Variable p : prims.
Variable x : ext.
Variable gen : request -> res obj.

Definition astep (c : acommand) (h : heap) : heap * res answer :=
  let fail (e : exn) := (h, Err e) in
  match c with
  | Plain c => step p x gen c h
  (* Key (key.py:30) defines neither __copy__ nor __reduce__: the new object is of the same class
     and has the same attributes, i.e. the same four dictionaries *)
  | CopyKey r =>
      match nth_error h r with
      | Some (HKey k) => (h ++ [HKey k], Ok (Ref (length h)))
      | _ => fail Unmodelled
      end
  (* key.py:132-147: plain attributes, so assignment keeps the object that it is given. To params
     only the params of a key are assigned here. *)
  | Assign a w s =>
      match nth_error h a, dict_at h s, w with
      | Some (HKey k), Some _, (InHeader | InFooter | InClear) => (store a (HKey (set_part w s k)) h, Ok (Ref a))
      | _, _, _ => fail Unmodelled
      end
  | AssignParams a b =>
      match nth_error h a, nth_error h b with
      | Some (HKey k), Some (HKey k') => (store a (HKey (set_params (ko_pcls k') (ko_params k') k)) h, Ok (Ref a))
      | _, _ => fail Unmodelled
      end
  (* private_key_list.py:195-202: plain attributes *)
  | AssignHeader l s =>
      match nth_error h l, attribute_at h s with
      | Some (HList lo), Some _ => (store l (HList (set_header s lo)) h, Ok (Ref l))
      | _, _ => fail Unmodelled
      end
  | AssignOptions l s =>
      match nth_error h l, attribute_at h s with
      | Some (HList lo), Some _ => (store l (HList (set_options s lo)) h, Ok (Ref l))
      | _, _ => fail Unmodelled
      end
  end.
Fixpoint arun (cs : list acommand) (h : heap) : heap :=
  match cs with
  | [] => h
  | c :: cs' => arun cs' (fst (astep c h))
  end.
End Run.
