(** Specification of running the command on files that the library wrote. *)
From Verif Require Import PyBase Stream Classes Key Crypto PrivateKeyList SpecWire SpecKey SpecText SpecList Json SpecJson.
Open Scope Z_scope.

(** What pack_public_string adds for one of the two comments: nothing, or a space and the text. *)
Definition added_comment (use : bool) (d : dict pyval) (c : pystr) : Prop :=
  match use, dget (str "comment") d with
  | true, Some v => exists s, v = VStr s /\ c = str " " ++ s
  | _, _ => c = []
  end.
(** pack_public_string, with some choice of comments, writes [s] for [k]; [c] is the comment. *)
Definition written_line (k : key) (c s : pystr) : Prop :=
  exists uf uc c1 c2, pack_public_string uf uc k = Ok s /\
    added_comment uf (k_footer k) c1 /\ added_comment uc (k_clear k) c2 /\
    ((c1 ++ c2 = [] /\ c = []) \/ c1 ++ c2 = str " " ++ c).
(** [k'] is a public key with the type and the public parameters of [k] and the comment [c]. *)
Definition key_with_comment (k : key) (c : pystr) (k' : key) : Prop :=
  exists t pub priv, In (t, (pub, priv)) key_specs /\ is_key t k /\ is_key t k' /\
    k_kind k' = KPub /\ k_header k' = [(str "key_type", VStr t)] /\
    restricts (map fst pub) (k_params k) (k_params k') /\ k_footer k' = [] /\
    k_clear k' = [(str "key_type", VStr t); (str "comment", VStr c)].
(** Messages about a line: it was skipped, or its two key types differ. *)
Definition line_message (ev : event) : Prop :=
  match ev with Warn (WLine _) | Warn WClearType => True | _ => False end.
(** [x] is a JSON text for [t] and for nothing else. *)
Definition json_text (t : json) (x : pystr) : Prop := forall t', json_element t' x <-> t' = t.
