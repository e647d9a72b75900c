(** Property C99: how much parsing reads. *)
From Verif Require Import PyBase IntBytes Utf8 StructFmt Stream Text Classes Key Crypto PrivateKeyList Work.
From Verif Require Import SpecWire SpecKey SpecCrypto SpecWork ProofBase ProofWork Props_Depth Props_Crypto Props_List.
Open Scope Z_scope.

(** The parsers of Work.v are pairs of a count of the calls of BytesIO.read and a result; the results
    are those of the parsers that all other properties are about. *)
Theorem C99_same_results ec k b clear : snd (c_key_from_bytes ec k b clear) = key_from_bytes ec k b clear.
Proof. apply e_key_from_bytes. Qed.
Theorem C99_same_list_results p e b pass : snd (c_list_from_bytes p e b pass) = list_from_bytes p e b pass.
Proof. apply e_list_from_bytes. Qed.

(** The count is what it should be: one read for each number and two for each string of a record. *)
Theorem C99_records f s s' vs : read_dict f s = (s', Ok vs) -> fst (c_dict f s) = reads_of f.
Proof. intros H. apply (dict_exact f s vs s'). rewrite e_dict. exact H. Qed.

(** Lists in certificates (principals, options): half a read for each byte, and one. *)
Theorem C99_repeated f b : (forall k i, In (k, i) f -> exists t, i = FPascal t) ->
  snd (c_repeatedly f (stream_of b)) = read_repeatedly f (stream_of b) /\
  (2 * fst (c_repeatedly f (stream_of b)) <= length b + 2)%nat.
Proof.
  intros H. split; [apply e_repeatedly|]. apply repeatedly_reads. apply forallb_forall. intros [k i] Hin.
  destruct (H k i Hin) as (t & ->). reflexivity.
Qed.

(** As many reads as the records that were found have, and at most those of one more. *)
Theorem C99_repeated_exact f s s' l : read_repeatedly f s = (s', Ok l) ->
  (reads_of f * length l <= fst (c_repeatedly f s) <= reads_of f * S (length l))%nat.
Proof.
  rewrite <- e_repeatedly. unfold c_repeatedly. destruct f as [|x f]; [discriminate|]. intros H.
  destruct (loop_counts _ _ _ _ _ _ H) as (A & B). cbn [length] in A, B. lia.
Qed.
(** A public key that is parsed takes the reads of its type and fields and one for what follows it; a
    certificate those of its lists and of its authority's key besides, once each. *)
Theorem C99_sum ec b clear k : snd (key_from_bytes ec KPub b clear) = Ok k ->
  (issubclass (k_pcls k) CertPub = false -> fst (c_key_from_bytes ec KPub b clear) = (2 + reads_of (format_of (k_pcls k)) + 1)%nat) /\
  (issubclass (k_pcls k) CertPub = true -> forall principals critical extensions authority,
     dget (str "valid_principals") (k_params k) = Some (VBytes principals) ->
     dget (str "critical_options") (k_params k) = Some (VBytes critical) ->
     dget (str "extensions") (k_params k) = Some (VBytes extensions) ->
     dget (str "signature_key") (k_params k) = Some (VBytes authority) ->
     fst (c_key_from_bytes ec KPub b clear) =
       (2 + reads_of (format_of (k_pcls k)) + 1 + fst (c_repeatedly [fld "principal" fS] (stream_of principals)) +
        fst (c_repeatedly options_fmt (stream_of critical)) + fst (c_repeatedly options_fmt (stream_of extensions)) +
        fst (c_parse_pub ec authority))%nat).
Proof.
  rewrite <- e_key_from_bytes. intros H. unfold c_key_from_bytes in *. destruct (public_exact _ _ _ _ _ H) as (E & C). rewrite E. split.
  - intros ->. lia.
  - intros I pr cr ex sg P Q R S. destruct (C I) as (u & U). rewrite I.
    rewrite (check_cert_exact _ _ u pr cr ex sg U) by (unfold get_bytes; first [rewrite P|rewrite Q|rewrite R|rewrite S]; reflexivity). lia.
Qed.

(** PublicKey.from_bytes reads at most [n / 2 + 34] times if it is given [n] bytes, also from all the
    authorities' keys inside each other, whether or not it succeeds; and if it does, at most [n] times. *)
Theorem C99_public_key ec b clear :
  (2 * fst (c_key_from_bytes ec KPub b clear) <= length b + 68)%nat /\
  forall k, snd (key_from_bytes ec KPub b clear) = Ok k -> (fst (c_key_from_bytes ec KPub b clear) <= length b)%nat.
Proof. rewrite <- e_key_from_bytes. apply public_reads. Qed.
(** PrivateKey.from_bytes. *)
Theorem C99_private_key ec b clear : (fst (c_key_from_bytes ec KPriv b clear) <= length b + 2)%nat.
Proof.
  pose proof (private_key_reads ec (c_parse_pub ec) clear (stream_of b)) as H.
  change (len (stream_of b)) with (length b) in H. unfold c_key_from_bytes, c_key_from_bytes_with.
  destruct (c_key_from_stream ec (c_parse_pub ec) KPriv clear (stream_of b)) as [n [s' w]]. cbn [fst snd] in H.
  apply cwbind_fst.
  - intros k Ek. cbn [fst snd] in *. rewrite Ek in H. cbn [owed] in H. pose proof (remainder_reads s' k). lia.
  - cbn [fst]. destruct (snd w); cbn [owed] in H; lia.
Qed.

(** PrivateKeyList.from_bytes reads at most [n + 32] times, whatever number of keys and whatever
    lengths the file declares, and whatever comes out of the decryption. *)
Theorem C99_list p e b pass : sound_prims p -> (fst (c_list_from_bytes p e b pass) <= length b + 32)%nat.
Proof. apply list_reads. Qed.

(** Three certificates inside each other take 91 reads; a file that declares 2147483647 keys and has
    none takes nine; both are below the bounds, 184 and 71. *)
Definition hostile : bytes :=
  auth_magic ++ [x00; x00; x00; x04] ++ bstr "none" ++ [x00; x00; x00; x04] ++ bstr "none" ++ repeat x00 4 ++ [x7f; xff; xff; xff].
Example C99_example :
  fst (c_key_from_bytes (fun _ _ => true) KPub (shells 3) None) = 91%nat /\
  (exists k, snd (key_from_bytes (fun _ _ => true) KPub (shells 3) None) = Ok k) /\
  sound_prims toy_prims /\ length hostile = 39%nat /\
  fst (c_list_from_bytes toy_prims ex_env hostile None) = 9%nat /\
  snd (list_from_bytes toy_prims ex_env hostile None) = Err ValueError.
Proof.
  split; [vm_compute; reflexivity|]. split; [eexists; vm_compute; reflexivity|]. split; [exact toy_sound|].
  split; [reflexivity|]. split; vm_compute; reflexivity.
Qed.

Print Assumptions C99_same_results.
Print Assumptions C99_same_list_results.
Print Assumptions C99_records.
Print Assumptions C99_repeated.
Print Assumptions C99_repeated_exact.
Print Assumptions C99_sum.
Print Assumptions C99_public_key.
Print Assumptions C99_private_key.
Print Assumptions C99_list.
