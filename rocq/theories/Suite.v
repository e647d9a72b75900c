(** The project's own unit tests, transcribed: what /repo/tests expects of the code holds of the
    model. These are tests of the model (trusted base, item 1), not proofs of any property. The
    name of each Example is the name of the test function (several tests of one function are joined). *)
From Verif Require Import PyBase IntBytes Utf8 StructFmt Stream Text Classes Key Crypto PrivateKeyList.
Open Scope Z_scope.

Definition b (l : list Z) : bytes := map bZ l.
Definition out {A} (x : stream * res A) : res A := snd x.
Definition rest {A} (x : stream * res A) : bytes := unread (fst x).
Definition written (x : stream * res unit) : res bytes :=
  match x with (s, Ok _) => Ok (getvalue s) | (_, Err e) => Err e end.
Definition empty := stream_of [].
(** An EOFError, and whether its first argument is the empty string. *)
Definition eof {A} (x : res A) : option bool := match x with Err (EOFError e _) => Some e | _ => None end.
Ltac run := cbv zeta; repeat match goal with |- _ /\ _ => split end; (vm_compute; reflexivity) || (vm_compute; discriminate).

(** ** test_pascal_style_byte_stream.py *)
Example test_read_fixed_bytes :
  let s := stream_of (b [1; 2; 3; 4]) in
  out (read_fixed_bytes 4 s) = Ok (b [1; 2; 3; 4]) /\
  (* underfull_nonempty, underfull_empty: args[0] is falsy and truthy *)
  eof (out (read_fixed_bytes 5 s)) = Some false /\
  eof (out (read_fixed_bytes 5 empty)) = Some true /\
  (* overfull, zero *)
  rest (read_fixed_bytes 3 s) = b [4] /\ rest (read_fixed_bytes 0 s) = b [1; 2; 3; 4].
Proof. run. Qed.
Example test_read_pascal_bytes :
  let s := stream_of (b [0; 0; 0; 1; 2]) in
  out (read_pascal_bytes 4 s) = Ok (b [2]) /\ out (read_pascal_bytes (-1) s) = Err ValueError /\
  eof (out (read_instr fS (stream_of (b [0; 0; 0])))) <> None /\
  eof (out (read_instr fS (stream_of (b [0; 0; 0; 4; 0; 0; 0])))) <> None /\
  rest (read_instr fS (stream_of (b [0; 0; 0; 4] ++ bstr "abcd" ++ b [0]))) = b [0].
Proof. run. Qed.
Example test_read_from_format_instruction :
  out (read_instr (FStruct (str ">I")) (stream_of (b [0; 0; 0; 1]))) = Ok (VInt 1) /\
  out (read_instr (FStruct (str ">II")) (stream_of (b [0; 0; 0; 1; 0; 0; 0; 2]))) = Ok (VTuple [VInt 1; VInt 2]) /\
  out (read_instr fS (stream_of (b [0; 0; 0; 4] ++ bstr "abcd"))) = Ok (VStr (str "abcd")) /\
  out (read_instr fB (stream_of (b [0; 0; 0; 4; 1; 2; 3; 4]))) = Ok (VBytes (b [1; 2; 3; 4])) /\
  out (read_instr fM (stream_of (b [0; 0; 0; 1; 127]))) = Ok (VInt 127) /\
  out (read_instr fM (stream_of (b [0; 0; 0; 1; 128]))) = Ok (VInt (-128)) /\
  out (read_instr fM (stream_of (b [0; 0; 0; 0]))) = Ok (VInt 0) /\
  out (read_instr (FPascalSize STRING 8) (stream_of (b [0; 0; 0; 0; 0; 0; 0; 4] ++ bstr "abcd"))) = Ok (VStr (str "abcd")) /\
  out (read_instr FBad (stream_of (b [0; 0; 0; 4] ++ bstr "abcd" ++ b [0]))) = Err ValueError.
Proof. run. Qed.
Definition first_second : fmt_dict := [fld "first" fB; fld "second" (FStruct (str ">I"))].
Definition first_size (n : Z) : fmt_dict := [fld "first" (FPascalSize BYTES n)].
Definition first (l : list Z) : pystr * pyval := (str "first", VBytes (b l)).
Definition second (z : Z) : pystr * pyval := (str "second", VInt z).
Example test_read_from_format_instructions_dict :
  out (read_dict first_second (stream_of (b [0; 0; 0; 1; 0; 0; 0; 0; 2]))) = Ok [first [0]; second 2] /\
  out (read_dict [] (stream_of (b [0; 0; 0; 1; 0; 0; 0; 0; 2]))) = Ok [] /\
  eof (out (read_dict first_second (stream_of (b [0; 0; 0; 1; 0; 0; 0; 0])))) <> None /\
  rest (read_dict first_second (stream_of (b [0; 0; 0; 1; 0; 0; 0; 0; 2; 3]))) = b [3] /\
  out (read_dict (first_size 1) (stream_of (b [1; 0]))) = Ok [first [0]].
Proof. run. Qed.
Example test_read_repeatedly_from_format_instructions_dict :
  out (read_repeatedly first_second (stream_of (b [0; 0; 0; 1; 0; 0; 0; 0; 2; 0; 0; 0; 1; 3; 0; 0; 0; 4]))) =
    Ok [[first [0]; second 2]; [first [3]; second 4]] /\
  out (read_repeatedly first_second empty) = Ok [] /\
  out (read_repeatedly [] (stream_of (b [0; 0; 0; 1; 0; 0; 0; 0; 2]))) = Err ValueError /\
  eof (out (read_repeatedly first_second (stream_of (b [0; 0; 0; 1; 0; 0; 0; 0; 2; 0; 0; 0; 1; 3; 0; 0; 0])))) = Some false /\
  eof (out (read_repeatedly first_second (fst (read_dict first_second (stream_of (b [0; 0; 0; 1; 0; 0; 0; 0; 2; 3])))))) = Some false /\
  out (read_repeatedly (first_size 1) (stream_of (b [1; 0; 2; 1; 2]))) = Ok [[first [0]]; [first [1; 2]]].
Proof. run. Qed.
Example test_write_from_format_instruction :
  let w f v := written (write_instr f v empty) in
  w (FStruct (str ">I")) (VInt 1) = Ok (b [0; 0; 0; 1]) /\ w fB (VBytes (b [0])) = Ok (b [0; 0; 0; 1; 0]) /\
  w fS (VStr (str "abcd")) = Ok (b [0; 0; 0; 4] ++ bstr "abcd") /\
  w (FPascalSize STRING 8) (VStr (str "abcd")) = Ok (b [0; 0; 0; 0; 0; 0; 0; 4] ++ bstr "abcd") /\
  w fM (VInt 4096) = Ok (b [0; 0; 0; 2; 16; 0]) /\ w fM (VInt 32768) = Ok (b [0; 0; 0; 3; 0; 128; 0]) /\
  w fM (VInt (-32768)) = Ok (b [0; 0; 0; 2; 128; 0]) /\ w fM (VInt 0) = Ok (b [0; 0; 0; 0]) /\
  (* bad_class *)
  w fB (VStr (str "random")) = Err ValueError /\ w fB (VInt 1) = Err ValueError /\
  w fS (VBytes (bstr "random")) = Err ValueError /\ w fS (VInt 1) = Err ValueError /\
  w fM (VBytes (bstr "random")) = Err ValueError /\ w fM (VStr (str "random")) = Err ValueError /\
  w FBad (VStr (str "random")) = Err ValueError.
Proof. run. Qed.
Example test_write_from_format_instructions_dict :
  let w f v := written (write_dict f v empty) in
  w first_second [first [0]; second 2] = Ok (b [0; 0; 0; 1; 0; 0; 0; 0; 2]) /\
  w [] [first [0]; second 2] = Ok [] /\
  w [fld "missing" (FStruct (str ">I"))] [first [0]; second 2] = Err (KeyError (VStr (str "missing"))) /\
  w (first_size 2) [first [0]] = Ok (b [0; 1; 0]).
Proof. run. Qed.
Example test_write_repeatedly_from_format_instructions_dict :
  let w f v := written (write_repeatedly f v empty) in
  w first_second [[first [0]; second 2]; [first [1; 2]; second 3]] =
    Ok (b [0; 0; 0; 1; 0; 0; 0; 0; 2; 0; 0; 0; 2; 1; 2; 0; 0; 0; 3]) /\
  w first_second [] = Ok [] /\ w [] [[first [0]; second 2]; [first [3]; second 4]] = Ok [] /\
  w [fld "missing" (FStruct (str ">I"))] [[first [0]; second 2]; [first [3]; second 4]] = Err (KeyError (VStr (str "missing"))) /\
  w (first_size 2) [[first [0]]; [first [1; 2]]] = Ok (b [0; 1; 0; 0; 2; 1; 2]).
Proof. run. Qed.
Example test_check_dict :
  let a v := [(str "a", v)] in
  check_dict (a (VStr (str "string"))) [fld "a" fS] = ([], Ok tt) /\
  check_dict (a (VBytes (b [0]))) [fld "a" fB] = ([], Ok tt) /\
  check_dict (a (VInt 1)) [fld "a" fM] = ([], Ok tt) /\
  (* incorrect_type: a should be of class int *)
  check_dict (a (VStr (str "string"))) [fld "a" fM] = ([Warn (WClass (str "a") (str "int"))], Ok tt) /\
  check_dict (a (VInt 1)) [fld "a" (FStruct (str ">i"))] = ([], Ok tt) /\
  (* too_large: a should be formatted as >i *)
  check_dict (a (VInt (2 ^ 33))) [fld "a" (FStruct (str ">i"))] = ([Warn (WFormatted (str "a") (str ">i"))], Ok tt) /\
  check_dict (a (VInt 1) ++ [(str "b", VInt 2)]) [fld "a" fM; fld "b" fM] = ([], Ok tt) /\
  check_dict (a (VInt 1)) [fld "a" fM; fld "b" fM] = ([Warn (WMissing (str "b"))], Ok tt) /\
  check_dict (a (VInt 1) ++ [(str "b", VInt 2); (str "c", VInt 3)]) [fld "a" fM; fld "b" fM] = ([], Ok tt) /\
  check_dict (a (VStr (str "string"))) [fld "a" (FPascalSize STRING 1)] = ([], Ok tt) /\
  check_dict (a (VStr (str "string"))) [fld "a" (FPascalSize MPINT 1)] = ([Warn (WClass (str "a") (str "int"))], Ok tt) /\
  check_dict (a (VStr (str "string"))) [fld "a" FBad] = ([], Err ValueError).
Proof. run. Qed.

(** ** test_key.py. The 32-byte Ed25519 key and the comment are those of the test. *)
Fixpoint hex_of (s : string) : list Z :=
  let v c := let n := Z.of_N (Ascii.N_of_ascii c) in if n <? 58 then n - 48 else n - 87 in
  match s with
  | String a (String c r) => 16 * v a + v c :: hex_of r
  | _ => []
  end.
Definition hex (s : string) : bytes := b (hex_of s).
Definition on_curve (c : curve) (q : bytes) : bool := (1 <? length q)%nat.
Definition pub32 := hex "2751e7d2ba43820988d1b05f2c322e9bfb432c633e6dbc337e7f05d56126c3a3".
Definition seed32 := hex "d783bfa87ec767c0daf35d64a3eeb591369cab440da8c1c5ddab1756b03ac8ab".
Definition ED25519_TEST_HEADER : dict pyval := [(str "key_type", VStr (str "ssh-ed25519"))].
Definition ED25519_TEST_PUBLIC : dict pyval := [(str "public", VBytes pub32)].
Definition ED25519_TEST_PRIVATE : dict pyval := [(str "public", VBytes pub32); (str "private_public", VBytes (seed32 ++ pub32))].
Definition PRIVATE_TEST_FOOTER : dict pyval := [(str "comment", VStr (str "comment"))].
Definition public_key_bytes := b [0; 0; 0; 11] ++ bstr "ssh-ed25519" ++ b [0; 0; 0; 32] ++ pub32.
Definition private_key_bytes :=
  public_key_bytes ++ b [0; 0; 0; 64] ++ seed32 ++ pub32 ++ b [0; 0; 0; 7] ++ bstr "comment".
Definition PUBLIC_KEY_TEST (clear : dict pyval) := mkkey KPub ED25519_TEST_HEADER EdPub ED25519_TEST_PUBLIC [] clear.
Definition PRIVATE_KEY_TEST := mkkey KPriv ED25519_TEST_HEADER EdPriv ED25519_TEST_PRIVATE PRIVATE_TEST_FOOTER [].
Definition from_bytes k x := key_from_bytes on_curve k x None.
Example test_key_format_instructions_dict :
  header_fmt KPub = [fld "key_type" fS] /\ footer_fmt KPub = [] /\
  header_fmt KPriv = [fld "key_type" fS] /\ footer_fmt KPriv = [fld "comment" fS].
Proof. run. Qed.
Example test_public_key_from_bytes :
  from_bytes KPub public_key_bytes = ([], Ok (PUBLIC_KEY_TEST [])) /\
  (* remainder *)
  from_bytes KPub (public_key_bytes ++ b [0]) =
    ([Warn WExcess], Ok (PUBLIC_KEY_TEST [(str "remainder", VBytes (b [0]))])).
Proof. run. Qed.
Definition b64 := str "AAAAC3NzaC1lZDI1NTE5AAAAICdR59K6Q4IJiNGwXywyLpv7QyxjPm28M35/BdVhJsOj".
Definition words := str "comment with multiple words".
Definition clear (t c : pystr) : dict pyval := [(str "key_type", VStr t); (str "comment", VStr c)].
Example test_public_key_from_string :
  key_from_string on_curve KPub (str "ssh-ed25519 " ++ b64 ++ str " " ++ words) =
    ([], Ok (PUBLIC_KEY_TEST (clear (str "ssh-ed25519") words))) /\
  (* inconsistent_key_type *)
  key_from_string on_curve KPub (str "ssh-rsa " ++ b64 ++ str " comment") =
    ([Warn WClearType], Ok (PUBLIC_KEY_TEST (clear (str "ssh-rsa") (str "comment")))) /\
  (* not_a_key *)
  key_from_string on_curve KPub (str "insufficient tokens") = ([], Err BinasciiError).
Proof. run. Qed.
Example test_public_key_pack_public :
  pack_public_bytes (PUBLIC_KEY_TEST []) = Ok public_key_bytes /\
  pack_public_string true true (PUBLIC_KEY_TEST []) = Ok (str "ssh-ed25519 " ++ b64 ++ [10%N]) /\
  pack_public_string true true (PUBLIC_KEY_TEST (clear (str "ssh-ed25519") words)) =
    Ok (str "ssh-ed25519 " ++ b64 ++ str " " ++ words ++ [10%N]) /\
  (* no_clear_comment *)
  pack_public_string true false (PUBLIC_KEY_TEST (clear (str "ssh-ed25519") words)) =
    Ok (str "ssh-ed25519 " ++ b64 ++ [10%N]).
Proof. run. Qed.
Example test_private_key :
  (* init_invalid_footer *)
  fst (new_key on_curve (parse_pub on_curve) KPriv ED25519_TEST_HEADER ED25519_TEST_PRIVATE [] None) =
    [Warn (WMissing (str "comment"))] /\
  from_bytes KPriv private_key_bytes = ([], Ok PRIVATE_KEY_TEST) /\
  pack_public_bytes PRIVATE_KEY_TEST = Ok public_key_bytes /\
  pack_private_bytes PRIVATE_KEY_TEST = Ok private_key_bytes /\
  pack_public_string true true PRIVATE_KEY_TEST = Ok (str "ssh-ed25519 " ++ b64 ++ str " comment" ++ [10%N]) /\
  (* no_footer_comment *)
  pack_public_string false true PRIVATE_KEY_TEST = Ok (str "ssh-ed25519 " ++ b64 ++ [10%N]).
Proof. run. Qed.

(** ** test_kdf.py *)
Example test_kdf :
  get_kdf (VStr (str "none")) = Ok KdfNone /\ get_kdf (VStr (str "bcrypt")) = Ok KdfBcrypt /\
  kdf_format KdfNone = [] /\ kdf_generate KdfNone [] = [] /\
  kdf_format KdfBcrypt = [fld "salt" fB; fld "rounds" (FStruct (str ">I"))] /\
  (forall salt, check_dict (kdf_generate KdfBcrypt salt) (kdf_format KdfBcrypt) = ([], Ok tt)) /\
  (forall p, derive_key p KdfNone [] (str "abcd") 0 = Ok []) /\
  (* bcrypt_calls_lib *)
  (forall p, derive_key p KdfBcrypt [(str "salt", VBytes (b [0])); (str "rounds", VInt 1)] (str "abcd") 48 =
             Ok (p_bcrypt p (bstr "abcd") (b [0]) 48 1)).
Proof. run. Qed.

(** ** key_params/test_factory.py *)
Example test_factory :
  let pub (t : string) := get_public_class (VStr (str t)) in
  let priv (t : string) := get_private_class (VStr (str t)) in
  pub "ssh-rsa"%string = Ok RSAPub /\ priv "ssh-rsa"%string = Ok RSAPriv /\
  pub "ssh-ed25519"%string = Ok EdPub /\ priv "ssh-ed25519"%string = Ok EdPriv /\
  pub "ssh-dss"%string = Ok DSSPub /\ priv "ssh-dss"%string = Ok DSSPriv /\
  pub "ecdsa-sha2-nistp256"%string = Ok E256Pub /\ priv "ecdsa-sha2-nistp256"%string = Ok E256Priv /\
  pub "ecdsa-sha2-nistp384"%string = Ok E384Pub /\ priv "ecdsa-sha2-nistp384"%string = Ok E384Priv /\
  pub "ecdsa-sha2-nistp521"%string = Ok E521Pub /\ priv "ecdsa-sha2-nistp521"%string = Ok E521Priv /\
  pub "sk-ecdsa-sha2-nistp256@openssh.com"%string = Ok SKE256Pub /\ priv "sk-ecdsa-sha2-nistp256@openssh.com"%string = Ok SKE256Priv /\
  pub "sk-ssh-ed25519@openssh.com"%string = Ok SKEdPub /\ priv "sk-ssh-ed25519@openssh.com"%string = Ok SKEdPriv /\
  pub "ssh-rsa-cert-v01@openssh.com"%string = Ok CertRSA /\ pub "ssh-ed25519-cert-v01@openssh.com"%string = Ok CertEd /\
  pub "ssh-dss-cert-v01@openssh.com"%string = Ok CertDSS /\
  pub "ecdsa-sha2-nistp256-cert-v01@openssh.com"%string = Ok CertE256 /\
  pub "ecdsa-sha2-nistp384-cert-v01@openssh.com"%string = Ok CertE384 /\
  pub "ecdsa-sha2-nistp521-cert-v01@openssh.com"%string = Ok CertE521 /\
  pub "sk-ssh-ed25519-cert-v01@openssh.com"%string = Ok CertSKEd /\
  pub "sk-ecdsa-sha2-nistp256-cert-v01@openssh.com"%string = Ok CertSKE256.
Proof. run. Qed.

(** ** key_params/test_params.py over the cases of test_ed25519.py, test_ecdsa.py, test_cert.py:
    valid values construct without warning, each invalid value with the expected one. *)
Definition warns c d := new_params on_curve (parse_pub on_curve) c d.
Definition point (n : Z) : pyval := VBytes (b [4; n]).
Definition ec_params (i : string) (q : pyval) : dict pyval := [(str "identifier", VStr (str i)); (str "q", q)].
Definition bad_ec (c : cls) (i : string) (others : list string) : bool :=
  match warns c (ec_params i (point 1)), warns c (ec_params i (VBytes (b [0]))) with
  | ([], Ok tt), ([Warn WPoint], Ok tt) =>
      forallb (fun o => match warns c (ec_params o (point 1)) with ([Warn WCurve], Ok tt) => true | _ => false end) others
  | _, _ => false
  end.
Example test_params_ed25519 :
  let public n := [(str "public", VBytes (repeat x01 n))] in
  let private s p := [(str "public", VBytes (repeat x01 32)); (str "private_public", VBytes (repeat x02 s ++ p))] in
  warns EdPub (public 32%nat) = ([], Ok tt) /\ warns EdPub (public 31%nat) = ([Warn WEdPublicLength], Ok tt) /\
  warns EdPriv (private 32%nat (repeat x01 32)) = ([], Ok tt) /\
  warns EdPriv (private 32%nat (repeat x00 32)) = ([Warn WEdMismatch], Ok tt) /\
  (* the expected warning is among those given *)
  In (Warn WEdPrivateLength) (fst (warns EdPriv (private 31%nat (repeat x01 32)))).
Proof.
  cbv zeta. repeat match goal with |- _ /\ _ => split end; try (vm_compute; reflexivity). vm_compute. tauto.
Qed.
Example test_params_ecdsa :
  bad_ec E256Pub "nistp256" ["nistp384"; "nistp521"]%string = true /\
  bad_ec E384Pub "nistp384" ["nistp521"; "nistp256"]%string = true /\
  bad_ec E521Pub "nistp521" ["nistp256"; "nistp384"]%string = true /\
  warns E256Priv (ec_params "nistp256" (point 1) ++ [(str "d", VInt 5)]) = ([], Ok tt) /\
  warns E384Priv (ec_params "nistp384" (point 1) ++ [(str "d", VInt 5)]) = ([], Ok tt) /\
  warns E521Priv (ec_params "nistp521" (point 1) ++ [(str "d", VInt 5)]) = ([], Ok tt).
Proof. run. Qed.

(** ** key_params/test_cert.py *)
Definition ca_key := mkkey KPub [(str "key_type", VStr (str "ssh-rsa"))] RSAPub [(str "e", VInt 65537); (str "n", VInt 3233)] [] [].
Definition certificate_authority_key_bytes := match pack_public_bytes ca_key with Ok x => x | Err _ => [] end.
Definition one (x : string) : bytes := b [0; 0; 0; 1] ++ bstr x.
Definition suffix : dict pyval :=
  [(str "serial", VInt 3); (str "type", VInt 1); (str "key_id", VStr (str "test"));
   (str "valid_principals", VBytes (one "a")); (str "valid_after", VInt 4); (str "valid_before", VInt 5);
   (str "critical_options", VBytes (one "b" ++ one "c")); (str "extensions", VBytes (one "b" ++ one "c"));
   (str "reserved", VBytes []); (str "signature_key", VBytes certificate_authority_key_bytes);
   (str "signature", VBytes (bstr "f"))].
Definition cert_of (l : dict pyval) : dict pyval := [(str "nonce", VBytes (bstr "a"))] ++ l ++ suffix.
Definition get_test_cert_params := cert_of [(str "e", VInt 1); (str "n", VInt 2)].
Definition test_cert_key := mkkey KPub [(str "key_type", VStr (str "ssh-rsa-cert-v01@openssh.com"))] CertRSA get_test_cert_params [] [].
Definition test_cert_key_bytes := match pack_public_bytes test_cert_key with Ok x => x | Err _ => [] end.
Definition with_ (k : string) v := dset (str k) v get_test_cert_params.
Definition mentions (w : warning) (d : dict pyval) : Prop := In (Warn w) (fst (warns CertRSA d)) /\ snd (warns CertRSA d) = Ok tt.
Ltac mention := split; [vm_compute; tauto|vm_compute; reflexivity].
Example test_params_cert :
  (* valid values, one of each class *)
  warns CertRSA get_test_cert_params = ([], Ok tt) /\
  warns CertEd (cert_of ED25519_TEST_PUBLIC) = ([], Ok tt) /\
  warns CertDSS (cert_of [(str "p", VInt 1); (str "q", VInt 2); (str "g", VInt 3); (str "y", VInt 4)]) = ([], Ok tt) /\
  warns CertE256 (cert_of (ec_params "nistp256" (point 1))) = ([], Ok tt) /\
  warns CertE384 (cert_of (ec_params "nistp384" (point 1))) = ([], Ok tt) /\
  warns CertE521 (cert_of (ec_params "nistp521" (point 1))) = ([], Ok tt) /\
  warns CertSKEd (cert_of (ED25519_TEST_PUBLIC ++ [(str "application", VStr (str "ssh:"))])) = ([], Ok tt) /\
  warns CertSKE256 (cert_of (ec_params "nistp256" (point 1) ++ [(str "application", VStr (str "ssh:"))])) = ([], Ok tt).
Proof. run. Qed.
Example test_params_cert_invalid :
  mentions WCertType (with_ "type"%string (VInt 3)) /\
  mentions WCertPrincipals (with_ "valid_principals"%string (VBytes (bstr "invalid"))) /\
  mentions WCertCritical (with_ "critical_options"%string (VBytes (bstr "invalid"))) /\
  mentions WCertExtensions (with_ "extensions"%string (VBytes (bstr "invalid"))) /\
  mentions WCertCA (with_ "signature_key"%string (VBytes test_cert_key_bytes)) /\
  mentions WCertAuthority (with_ "signature_key"%string (VBytes (bstr "invalid"))).
Proof. repeat match goal with |- mentions _ _ /\ _ => split end; mention. Qed.
Example test_type :
  get_type get_test_cert_params = Ok USER /\ get_type (set_type HOST get_test_cert_params) = Ok HOST /\
  dget (str "type") (set_type HOST get_test_cert_params) = Some (VInt 2).
Proof. run. Qed.
Example test_valid_principals :
  get_valid_principals get_test_cert_params = Ok [VStr (str "a")] /\
  (let d := set_valid_principals [VStr (str "b"); VStr (str "c")] get_test_cert_params in
   (do? d' <- d; get_valid_principals d') = Ok [VStr (str "b"); VStr (str "c")] /\
   (do? d' <- d; Ok (dget (str "valid_principals") d')) = Ok (Some (VBytes (one "b" ++ one "c")))).
Proof. run. Qed.
(** The tests of critical options and of extensions are the same up to the name of the field. *)
Definition force := b [0; 0; 0; 13] ++ bstr "force-command".
Definition option_tests (param : string) (getter : option_arg -> dict pyval -> W (option pyval))
    (setter : option_arg -> pyval -> dict pyval -> W (dict pyval)) : Prop :=
  let at_ v := with_ param (VBytes v) in
  let after_ o d := match setter o (VBytes (bstr "e")) d with ([], Ok d') => dget (str param) d' | _ => None end in
  getter (OptStr (str "b")) (at_ (one "b" ++ one "c" ++ one "d" ++ one "e")) = ([], Ok (Some (VBytes (bstr "c")))) /\
  getter (OptStr (str "d")) (at_ (one "b" ++ one "c" ++ one "d" ++ one "e")) = ([], Ok (Some (VBytes (bstr "e")))) /\
  getter (OptStr (str "c")) get_test_cert_params = ([], Ok None) /\
  getter (OptEnum FORCE_COMMAND) (at_ (one "b" ++ one "c" ++ force ++ one "e")) = ([], Ok (Some (VBytes (bstr "e")))) /\
  getter (OptEnum FORCE_COMMAND) (with_ "type"%string (VInt 2)) = ([], Err ValueError) /\
  getter (OptStr (str "b")) (at_ (one "b" ++ one "c" ++ one "b" ++ one "e")) =
    ([Warn (WCertDuplicate (str "b") (str param))], Ok (Some (VBytes (bstr "e")))) /\
  after_ (OptStr (str "a")) get_test_cert_params = Some (VBytes (one "a" ++ one "e" ++ one "b" ++ one "c")) /\
  after_ (OptStr (str "d")) get_test_cert_params = Some (VBytes (one "b" ++ one "c" ++ one "d" ++ one "e")) /\
  after_ (OptStr (str "b")) get_test_cert_params = Some (VBytes (one "b" ++ one "e")) /\
  after_ (OptEnum FORCE_COMMAND) get_test_cert_params = Some (VBytes (one "b" ++ one "c" ++ force ++ one "e")) /\
  setter (OptEnum FORCE_COMMAND) (VBytes (bstr "e")) (with_ "type"%string (VInt 2)) = ([], Err ValueError).
Example test_critical_option : option_tests "critical_options" get_critical_option set_critical_option.
Proof. unfold option_tests. run. Qed.
Example test_extension : option_tests "extensions" get_extension_value set_extension_value.
Proof. unfold option_tests. run. Qed.
Example test_pack_signed_bytes :
  pack_signed_bytes CertRSA get_test_cert_params =
  written (write_dict [fld "nonce" fB; fld "e" fM; fld "n" fM; fld "serial" (FStruct (str ">Q"));
    fld "type" (FStruct (str ">I")); fld "key_id" fS; fld "valid_principals" fB;
    fld "valid_after" (FStruct (str ">Q")); fld "valid_before" (FStruct (str ">Q"));
    fld "critical_options" fB; fld "extensions" fB; fld "reserved" fB; fld "signature_key" fB]
    get_test_cert_params empty).
Proof. run. Qed.
Example test_signature_key :
  get_signature_key (parse_pub on_curve) get_test_cert_params = ([], Ok ca_key) /\
  (do? d <- set_signature_key (PUBLIC_KEY_TEST []) get_test_cert_params; Ok (dget (str "signature_key") d)) =
    Ok (Some (VBytes public_key_bytes)) /\
  set_signature_key test_cert_key get_test_cert_params = Err ValueError.
Proof. run. Qed.
