#!/bin/bash
# Runs the model, with the algorithms of Std.v, on files of the installed OpenSSH and gives
# OpenSSH the files that the model writes. Needs coqc with a built rocq/, ocamlfind, ssh-keygen.
#
#     openssh_check.sh          all key types and certificates (a minute)
#     openssh_check.sh ciphers  every cipher with bcrypt (half an hour: bcrypt is extracted as is)
#     openssh_check.sh run FILE PASSPHRASE|-   the command line on a file
#
# A test of trusted-base item 5 in DESIGN.md, not part of any proof.
set -e
here=$(cd "$(dirname "$0")" && pwd)
dir=${OPENSSH_CHECK_DIR:-$(mktemp -d)}
mkdir -p "$dir/k"
file=$( [ -n "$2" ] && readlink -f "$2" || true )
cd "$dir"
if [ ! -x drv ]; then
cat > X.v <<'END'
From Coq Require Extraction ExtrOcamlBasic ExtrOcamlNatInt.
From Verif Require Import PyBase Classes Key Crypto PrivateKeyList Json Std.
Definition ofn (l : list nat) : bytes := map (fun n => bZ (Z.of_nat n)) l.
Definition ofs (l : list nat) : pystr := map N.of_nat l.
Definition tos (l : pystr) : list nat := map N.to_nat l.
Definition the_env (salt : list nat) (rand : nat) := mkenv (Err ValueError) (Z.of_nat rand) (ofn salt).
Definition fin {A} (f : A -> list nat) (w : W A) : nat * option (list nat) :=
  (length (fst w), match snd w with Ok a => Some (f a) | Err _ => None end).
Definition run (file : list nat) (pass : option (list nat)) : nat * option (list nat) :=
  fin tos (main_command std_prims (the_env [] 0) (ofn file) (option_map ofs pass)).
Definition repack (file : list nat) (pass : option (list nat)) (cipher kdf : list nat) (rounds : nat) (newpass : option (list nat)) (salt : list nat) (rand : nat) :=
  let e := the_env salt rand in
  fin tos (wbind (list_from_string std_prims e (ofs file) (option_map ofs pass)) (fun l =>
    list_pack_string std_prims e
      (mkpkl (l_pairs l) None (Some [(str "cipher", VStr (ofs cipher)); (str "kdf", VStr (ofs kdf))]) None
             (Some (if (rounds =? 0)%nat then [] else [(str "salt", VBytes (ofn salt)); (str "rounds", VInt (Z.of_nat rounds))])) None None None)
      (option_map ofs newpass) None true true)).
Definition pubs (file : list nat) (pass : option (list nat)) : nat * option (list nat) :=
  fin tos (wbind (list_from_string std_prims (the_env [] 0) (ofs file) (option_map ofs pass)) (fun l =>
    match l_pairs l with q :: _ => wlift (pack_public_string true true (pr_private q)) | [] => wret [] end)).
Extraction "model.ml" run repack pubs.
END
cat > drv.ml <<'END'
open Model
let read f = let ic = open_in_bin f in let n = in_channel_length ic in let s = really_input_string ic n in close_in ic; s
let lst s = List.init (String.length s) (fun i -> Char.code s.[i])
let utf8 l = let b = Buffer.create 1000 in List.iter (fun c -> Buffer.add_utf_8_uchar b (Uchar.of_int c)) l; Buffer.contents b
let opt s = if s = "-" then None else Some (lst s)
let out (n, r) = Printf.eprintf "warnings %d\n" n; match r with Some l -> print_string (utf8 l) | None -> (prerr_endline "error"; exit 1)
let () = match Sys.argv.(1) with
 | "run" -> out (run (lst (read Sys.argv.(2))) (opt Sys.argv.(3)))
 | "pub" -> out (pubs (lst (read Sys.argv.(2))) (opt Sys.argv.(3)))
 | "repack" -> let kdf = if Sys.argv.(4) = "none" then "none" else "bcrypt" in
    out (repack (lst (read Sys.argv.(2))) (opt Sys.argv.(3)) (lst Sys.argv.(4)) (lst kdf) (if kdf = "none" then 0 else 1) (opt Sys.argv.(5)) (lst "0123456789abcdef") 12345)
 | _ -> exit 2
END
coqc -Q "$here/../rocq/theories" Verif X.v > /dev/null 2>&1
rm -f model.mli
ocamlfind ocamlopt -O3 -w -a model.ml drv.ml -o drv 2>/dev/null || ocamlopt -w -a model.ml drv.ml -o drv
fi
if [ "$1" = run ]; then ./drv run "$file" "$3"; exit; fi
cd k
keys() { cut -d' ' -f1,2; }
if [ "$1" != ciphers ]; then
  for t in rsa:1024 rsa:2048 dsa:1024 ecdsa:256 ecdsa:384 ecdsa:521 ed25519:256; do
    ty=${t%%:*}; bits=${t##*:}; f=$ty$bits
    rm -f $f $f.pub; ssh-keygen -q -t $ty -b $bits -f $f -N "" -C "comment of $f é"
    ../drv pub $f - > $f.out 2> $f.err; cmp $f.out $f.pub && echo "$f: same public line, $(cat $f.err)"
    ../drv repack $f - none - > $f.re 2>> $f.err; chmod 600 $f.re
    ssh-keygen -y -P "" -f $f.re | keys | cmp - <(keys < $f.pub) && echo "$f: written file read by ssh-keygen"
    ../drv run $f.pub - > $f.json 2> /dev/null && python3 -c "import json; json.load(open('$f.json'))" && echo "$f: json"
  done
  rm -f ca ca.pub; ssh-keygen -q -t ed25519 -f ca -N ""
  for u in rsa1024 dsa1024 ecdsa256 ecdsa384 ecdsa521 ed25519256; do
    ssh-keygen -q -s ca -I id -n alice,bob -O force-command=ls -O no-pty -z 7 -V 20200101:20300101 $u.pub
    ../drv run $u-cert.pub - > $u-cert.json 2> $u.err && echo "$u: user certificate, $(cat $u.err)"
    ssh-keygen -q -s ca -h -I hid -n host.example -V always:forever $u.pub
    ../drv run $u-cert.pub - > $u-cert2.json 2> $u.err && echo "$u: host certificate, $(cat $u.err)"
  done
else
  one() {
    c=$1; f=enc-$c; rm -f $f $f.pub plain-$c plain-$c.pub
    ssh-keygen -q -t ed25519 -a 1 -Z $c -f $f -N "pass phrase" -C "comment $c"
    ssh-keygen -q -t ed25519 -f plain-$c -N ""
    ../drv pub $f "pass phrase" > $f.out 2> $f.err; cmp $f.out $f.pub && echo "$c: read, $(cat $f.err)"
    ../drv repack plain-$c - $c "new pass" > $f.re 2> $f.err2; chmod 600 $f.re
    ssh-keygen -y -P "new pass" -f $f.re | cut -d' ' -f1,2 | cmp - <(cut -d' ' -f1,2 plain-$c.pub) &&
      echo "$c: written, read by ssh-keygen, $(cat $f.err2)"
  }
  export -f one
  printf '%s\n' 3des-cbc aes128-cbc aes192-cbc aes256-cbc aes128-ctr aes192-ctr aes256-ctr \
    aes128-gcm@openssh.com aes256-gcm@openssh.com chacha20-poly1305@openssh.com | xargs -P 4 -n 1 bash -c 'one $0'
fi
