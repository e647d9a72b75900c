(** Python text helpers used by the code: base64, str.split, str.splitlines,
    str.join. *)
From Verif Require Import PyBase Utf8.
Open Scope N_scope.

(** ** base64.b64encode(b).decode() (key.py:318, private_key_list.py:642) *)
Definition b64_char (n : N) : N :=
  if n <? 26 then 65 + n
  else if n <? 52 then 97 + (n - 26)
  else if n <? 62 then 48 + (n - 52)
  else if n =? 62 then 43 else 47.
Definition b64_pad : N := 61.

Fixpoint b64encode (b : bytes) : pystr :=
  match b with
  | [] => []
  | [x] => let x := bn x in
           [b64_char (x / 4); b64_char (x mod 4 * 16); b64_pad; b64_pad]
  | [x; y] => let x := bn x in let y := bn y in
              [b64_char (x / 4); b64_char (x mod 4 * 16 + y / 16);
               b64_char (y mod 16 * 4); b64_pad]
  | x :: y :: z :: r =>
      let x := bn x in let y := bn y in let z := bn z in
      b64_char (x / 4) :: b64_char (x mod 4 * 16 + y / 16)
      :: b64_char (y mod 16 * 4 + z / 64) :: b64_char (z mod 64) :: b64encode r
  end.

(** ** base64.b64decode(s) for a str (key.py:242, private_key_list.py:415)
    A non-ASCII character is a ValueError; then binascii.a2b_base64 in non-strict
    mode: characters outside the alphabet are skipped, a complete padding
    sequence ends the input, leftover characters are binascii.Error. *)
Definition b64_value (c : N) : option N :=
  if (65 <=? c) && (c <=? 90) then Some (c - 65)
  else if (97 <=? c) && (c <=? 122) then Some (c - 97 + 26)
  else if (48 <=? c) && (c <=? 57) then Some (c - 48 + 52)
  else if c =? 43 then Some 62
  else if c =? 47 then Some 63
  else None.

(** State: [q] = quad_pos, [left] = leftchar, [pads]. *)
Fixpoint a2b_base64 (s : pystr) (q left pads : N) : res bytes :=
  match s with
  | [] => if q =? 0 then Ok [] else Err BinasciiError
  | c :: s' =>
      if c =? b64_pad then
        if 2 <=? q then
          if 4 <=? q + (pads + 1) then Ok []
          else a2b_base64 s' q left (pads + 1)
        else a2b_base64 s' q left pads
      else
        match b64_value c with
        | None => a2b_base64 s' q left pads
        | Some v =>
            if q =? 0 then a2b_base64 s' 1 v 0
            else if q =? 1 then
              do? r <- a2b_base64 s' 2 (v mod 16) 0; Ok (nb (left * 4 + v / 16) :: r)
            else if q =? 2 then
              do? r <- a2b_base64 s' 3 (v mod 4) 0; Ok (nb (left * 16 + v / 4) :: r)
            else
              do? r <- a2b_base64 s' 0 0 0; Ok (nb (left * 64 + v) :: r)
        end
  end.
Definition b64decode (s : pystr) : res bytes :=
  if forallb (fun c => c <? 128) s then a2b_base64 s 0 0 0 else Err ValueError.

(** ** s.split(c, maxsplit=n) (key.py:239) *)
Fixpoint break_at (c : N) (s : pystr) : option (pystr * pystr) :=
  match s with
  | [] => None
  | x :: s' =>
      if x =? c then Some ([], s')
      else match break_at c s' with
           | None => None
           | Some (a, b) => Some (x :: a, b)
           end
  end.
Fixpoint split_max (c : N) (n : nat) (s : pystr) : list pystr :=
  match n with
  | O => [s]
  | S n' => match break_at c s with
            | None => [s]
            | Some (a, b) => a :: split_max c n' b
            end
  end.

(** ** s.splitlines() (private_key_list.py:409, __main__.py:30) *)
Definition is_linebreak (c : N) : bool :=
  ((10 <=? c) && (c <=? 13)) || ((28 <=? c) && (c <=? 30))
  || (c =? 0x85) || (c =? 0x2028) || (c =? 0x2029).
Fixpoint splitlines_from (cur : pystr) (s : pystr) : list pystr :=
  match s with
  | [] => match cur with [] => [] | _ => [rev cur] end
  | c :: s' =>
      if is_linebreak c then
        rev cur ::
        match s' with
        | c' :: s'' => if (c =? 13) && (c' =? 10) then splitlines_from [] s''
                       else splitlines_from [] s'
        | [] => splitlines_from [] s'
        end
      else splitlines_from (c :: cur) s'
  end.
Definition splitlines (s : pystr) : list pystr := splitlines_from [] s.

(** ** sep.join(l) *)
Fixpoint str_join (sep : pystr) (l : list pystr) : pystr :=
  match l with
  | [] => []
  | [x] => x
  | x :: l' => x ++ sep ++ str_join sep l'
  end.

Fixpoint starts_with (p s : pystr) : bool :=
  match p, s with
  | [], _ => true
  | x :: p', y :: s' => (x =? y) && starts_with p' s'
  | _ :: _, [] => false
  end.

(** sorted() on strings compares code points lexicographically. *)
Fixpoint str_ltb (a b : pystr) : bool :=
  match a, b with
  | _, [] => false
  | [], _ :: _ => true
  | x :: a', y :: b' => (x <? y) || ((x =? y) && str_ltb a' b')
  end.
Fixpoint insert_str (x : pystr) (l : list pystr) : list pystr :=
  match l with
  | [] => [x]
  | y :: l' => if str_ltb y x then y :: insert_str x l' else x :: l
  end.
(** sorted(l) (a stable sort; equal strings are indistinguishable). *)
Definition sorted_strs (l : list pystr) : list pystr := fold_right insert_str [] l.
