(** The layout of the output: C65. *)
From Verif Require Import PyBase IntBytes Utf8 StructFmt Stream Text Classes Key Crypto PrivateKeyList Json.
From Verif Require Import SpecWire SpecKey SpecText SpecJson SpecLayout.
From Verif Require Import ProofBase ProofUtf8 ProofKey ProofText ProofRead ProofJson Props_Text Props_Json.
Open Scope N_scope.

Definition flat (ls : list pystr) : pystr := joined [10] ls.
Lemma flat_cons l r : r <> [] -> flat (l :: r) = l ++ 10 :: flat r.
Proof. destruct r; [congruence|reflexivity]. Qed.
Lemma flat_app a b : a <> [] -> b <> [] -> flat (a ++ b) = flat a ++ 10 :: flat b.
Proof.
  intros A B. induction a as [|l a IH]; [congruence|]. cbn [app]. destruct a as [|l2 a].
  - cbn [app]. rewrite flat_cons by exact B. reflexivity.
  - rewrite !flat_cons by discriminate. rewrite IH by discriminate. rewrite <- app_assoc. reflexivity.
Qed.
Lemma flat_before x ls : ls <> [] -> flat (before_first x ls) = x ++ flat ls /\ before_first x ls <> [].
Proof.
  destruct ls as [|l r]; [congruence|]. intros _. split; [|discriminate]. cbn [before_first]. destruct r as [|l2 r]; [reflexivity|].
  rewrite !flat_cons by discriminate. rewrite <- app_assoc. reflexivity.
Qed.
Lemma flat_after ls x : ls <> [] -> flat (after_last ls x) = flat ls ++ x /\ after_last ls x <> [].
Proof.
  induction ls as [|l r IH]; [congruence|]. intros _. destruct r as [|l2 r]; [split; [reflexivity|discriminate]|].
  destruct (IH ltac:(discriminate)) as (E & N). change (after_last (l :: l2 :: r) x) with (l :: after_last (l2 :: r) x).
  split; [|discriminate]. rewrite !flat_cons by (try exact N; discriminate). rewrite E, <- app_assoc. reflexivity.
Qed.
Lemma unlines_flat ls : ls <> [] -> unlines ls = flat ls ++ [10].
Proof.
  induction ls as [|l r IH]; [congruence|]. intros _. unfold unlines in *. cbn [map concat]. destruct r as [|l2 r].
  - cbn. apply app_nil_r.
  - rewrite flat_cons by discriminate. rewrite IH by discriminate. unfold newline. rewrite <- !app_assoc. reflexivity.
Qed.
Lemma items_laid d (l : list json) : l <> [] -> Forall (fun t => exists ls, layout d t ls /\ ls <> [] /\ encode d t = flat ls) l ->
  exists ls, lay_items d l ls /\ ls <> [] /\ spaces d ++ joined (str "," ++ newline_indent d) (map (encode d) l) = flat ls.
Proof.
  intros N F. induction F as [|t l (ls & L & Nl & E) F IH]; [congruence|]. destruct (flat_before (spaces d) ls Nl) as (E1 & N1).
  destruct l as [|t2 l].
  - exists (before_first (spaces d) ls). split; [constructor; exact L|]. split; [exact N1|]. cbn [map joined]. rewrite E1, <- E. reflexivity.
  - destruct (IH ltac:(discriminate)) as (rest & Lr & Nr & Er). destruct (flat_after _ (str ",") N1) as (E2 & N2).
    exists (after_last (before_first (spaces d) ls) (str ",") ++ rest). split; [constructor; assumption|].
    split; [intros K; apply app_eq_nil in K as (K & _); contradiction|].
    rewrite flat_app by assumption. rewrite E2, E1, <- Er, <- E. cbn [map joined]. unfold newline_indent. fold (spaces d).
    rewrite <- !app_assoc. reflexivity.
Qed.
Lemma members_laid d (l : list (pystr * json)) : l <> [] ->
  Forall (fun m => Forall scalar (fst m) /\ exists ls, layout d (snd m) ls /\ ls <> [] /\ encode d (snd m) = flat ls) l ->
  exists ls, lay_members d l ls /\ ls <> [] /\
    spaces d ++ joined (str "," ++ newline_indent d) (map (fun kv => encode_str (fst kv) ++ str ": " ++ encode d (snd kv)) l) = flat ls.
Proof.
  intros N F. induction F as [|[n t] l (Sn & ls & L & Nl & E) F IH]; [destruct N; reflexivity|]. cbn [fst snd] in *.
  apply encode_str_ok in Sn. destruct (flat_before (spaces d ++ encode_str n ++ str ": ") ls Nl) as (E1 & N1).
  destruct l as [|t2 l].
  - exists (before_first (spaces d ++ encode_str n ++ str ": ") ls). split; [constructor; assumption|]. split; [exact N1|].
    cbn [map joined fst snd]. rewrite E1, <- E, <- !app_assoc. reflexivity.
  - destruct (IH ltac:(discriminate)) as (rest & Lr & Nr & Er). destruct (flat_after _ (str ",") N1) as (E2 & N2).
    exists (after_last (before_first (spaces d ++ encode_str n ++ str ": ") ls) (str ",") ++ rest). split; [constructor; assumption|].
    split; [intros K; apply app_eq_nil in K as (K & _); contradiction|].
    rewrite flat_app by assumption. rewrite E2, E1, <- Er, <- E. cbn [map joined fst snd]. unfold newline_indent. fold (spaces d).
    rewrite <- !app_assoc. reflexivity.
Qed.
Lemma around (a z : pystr) d x ls : ls <> [] -> spaces (S d) ++ x = flat ls ->
  a ++ newline_indent (S d) ++ x ++ newline_indent d ++ z = flat (a :: ls ++ [spaces d ++ z]).
Proof.
  intros N E. rewrite flat_cons by (destruct ls; discriminate). rewrite flat_app by (try exact N; discriminate). rewrite <- E.
  unfold newline_indent. fold (spaces d). fold (spaces (S d)). cbn [app]. unfold flat. cbn [joined]. rewrite <- !app_assoc. reflexivity.
Qed.
Lemma encode_laid t : forall d, scalar_json t -> exists ls, layout d t ls /\ ls <> [] /\ encode d t = flat ls.
Proof.
  induction t as [|z|s|l IH|l IH] using json_nested_ind; intros d Sc.
  - eexists. split; [constructor|]. split; [discriminate|reflexivity].
  - exists [int_repr z]. split; [constructor; apply int_repr_ok|]. split; [discriminate|reflexivity].
  - exists [encode_str s]. split; [constructor; apply encode_str_ok; exact Sc|]. split; [discriminate|reflexivity].
  - apply scalar_arr in Sc. destruct l as [|t0 l]; [eexists; split; [constructor|]; split; [discriminate|reflexivity]|].
    destruct (items_laid (S d) (t0 :: l)) as (ls & L & N & E); [discriminate| |].
    { rewrite Forall_forall in IH, Sc |- *. intros t Ht. apply IH; auto. }
    eexists. split; [apply lay_arr; exact L|]. split; [discriminate|].
    change (encode d (JArr (t0 :: l))) with (str "[" ++ newline_indent (S d) ++
      joined (str "," ++ newline_indent (S d)) (map (encode (S d)) (t0 :: l)) ++ newline_indent d ++ str "]").
    apply around; assumption.
  - apply scalar_obj in Sc. destruct l as [|t0 l]; [eexists; split; [constructor|]; split; [discriminate|reflexivity]|].
    destruct (members_laid (S d) (t0 :: l)) as (ls & L & N & E); [discriminate| |].
    { rewrite Forall_forall in IH, Sc |- *. intros t Ht. destruct (Sc _ Ht). split; [assumption|]. apply IH; auto. }
    eexists. split; [apply lay_obj; exact L|]. split; [discriminate|].
    change (encode d (JObj (t0 :: l))) with (str "{" ++ newline_indent (S d) ++
      joined (str "," ++ newline_indent (S d)) (map (fun kv => encode_str (fst kv) ++ str ": " ++ encode (S d) (snd kv)) (t0 :: l)) ++ newline_indent d ++ str "}").
    apply around; assumption.
Qed.
(** What is printed is the value that shows the keys, laid out in lines. *)
Theorem C65_layout p e file given lg x : main_command p e file given = (lg, Ok x) ->
  exists s r t ls, text_of_file file s /\ main_parse p e s given = (lg, Ok r) /\ shows r t /\ layout 0 t ls /\ x = unlines ls.
Proof.
  unfold main_command. intros H. apply wbind_inv in H as (l1 & s & l2 & Hs & H & ->). apply wlift_inv in Hs as (-> & Hs).
  apply read_text_iff in Hs. pose proof (text_of_file_scalar _ _ Hs) as Sc.
  unfold main_output in H. apply wbind_inv in H as (l1 & r & l3 & Hr & H & ->). injection H as <- <-.
  rewrite app_nil_r. destruct (good_fine r (main_good _ _ _ _ _ _ Sc Hr)) as (Sh & Sj & _).
  destruct (encode_laid (parsed_tree r) 0 Sj) as (ls & L & N & E).
  exists s, r, (parsed_tree r), ls. split; [exact Hs|]. split; [exact Hr|]. split; [exact Sh|]. split; [exact L|].
  unfold output_of. rewrite E, unlines_flat by exact N. reflexivity.
Qed.
(** A layout, as in C65_example. *)
Example C65_layout_example : layout 0 (JArr [JObj [(str "e", JInt 17); (str "n", JArr [])]; JNull])
  [str "["; str "    {"; str "        ""e"": 17,"; str "        ""n"": []"; str "    },"; str "    null"; str "]"].
Proof.
  assert (json_string (str "e") (str """e""")) as Je by (apply (encode_str_ok (str "e")); apply str_scalar; reflexivity).
  assert (json_string (str "n") (str """n""")) as Jn by (apply (encode_str_ok (str "n")); apply str_scalar; reflexivity).
  refine (lay_arr 0 _ _ (lit_more 1 _ _ _ _ (lay_obj 1 _ _ (lme_more 2 _ _ _ _ _ _ Je (lay_int 2 17 _ (int_repr_ok 17)) (lme_one 2 _ _ _ _ Jn (lay_arr0 2)))) (lit_one 1 _ _ (lay_null 1)))).
Qed.
Print Assumptions C65_layout.
Print Assumptions C65_layout_example.
