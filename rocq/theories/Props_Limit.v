(** C85: the command where Python limits the number of digits of integers. *)
From Coq Require Import Decimal DecimalZ.
From Verif Require Import PyBase IntBytes Utf8 StructFmt Stream Text Classes Key Crypto PrivateKeyList Json JsonLimit.
From Verif Require Import SpecWire SpecKey SpecText SpecCrypto SpecList SpecJson SpecMain SpecLimit.
From Verif Require Import ProofBase ProofUtf8 ProofKey ProofText ProofRead ProofJson.
From Verif Require Import Props_Key Props_Crypto Props_Text Props_List Props_Armor Props_Round Props_Json Props_Main.
Open Scope Z_scope.

(** ** The number of digits *)
Lemma decimal_app ds c : decimal (ds ++ [c]) = 10 * decimal ds + (Z.of_N c - 48).
Proof. unfold decimal. rewrite fold_left_app. reflexivity. Qed.
Lemma decimal_upper ds : Forall digit ds -> 0 <= decimal ds < 10 ^ Z.of_nat (length ds).
Proof.
  induction ds as [|c ds IH] using rev_ind; intros H; [cbn; lia|].
  apply Forall_app in H as (H & Hc). inversion Hc as [|? ? Hc' _]; subst. unfold digit in Hc'. specialize (IH H).
  rewrite decimal_app, app_length, Nat2Z.inj_add, Z.pow_add_r by lia. change (10 ^ Z.of_nat (length [c])) with 10. nia.
Qed.
Lemma decimal_lower c ds : Forall digit (c :: ds) -> c <> 48%N -> 10 ^ Z.of_nat (length ds) <= decimal (c :: ds).
Proof.
  induction ds as [|d ds IH] using rev_ind; intros H N.
  - inversion H; subst. unfold digit in *. change (decimal [c]) with (10 * 0 + (Z.of_N c - 48)). cbn [length]. change (10 ^ Z.of_nat 0) with 1. lia.
  - change (c :: ds ++ [d]) with ((c :: ds) ++ [d]) in *. apply Forall_app in H as (H & Hd). inversion Hd as [|? ? Hd' _]; subst. unfold digit in Hd'.
    specialize (IH H N). rewrite decimal_app, app_length, Nat2Z.inj_add, Z.pow_add_r by lia. change (10 ^ Z.of_nat (length [d])) with 10. lia.
Qed.
Lemma digits_within ds n : ds <> [] -> Forall digit ds -> (forall r, ds = 48%N :: r -> r = []) -> (0 < n)%nat ->
  (length ds <= n)%nat <-> decimal ds < 10 ^ Z.of_nat n.
Proof.
  intros Ne H Z0 Pn. split.
  - intros L. pose proof (decimal_upper _ H) as U. assert (10 ^ Z.of_nat (length ds) <= 10 ^ Z.of_nat n) by (apply Z.pow_le_mono_r; lia). lia.
  - intros L. destruct ds as [|c ds]; [congruence|]. destruct (N.eq_dec c 48) as [->|N].
    + rewrite (Z0 _ eq_refl). cbn. lia.
    + pose proof (decimal_lower _ _ H N) as K. assert (Z.of_nat (length ds) < Z.of_nat n) as M; [|cbn [length]; lia].
      apply (Z.pow_lt_mono_r_iff 10); lia.
Qed.
Definition digits_of (z : Z) : pystr := match Z.to_int z with Decimal.Pos u => uint_digits u | Decimal.Neg u => uint_digits u end.
Lemma digits_of_ok z : digits_of z <> [] /\ Forall digit (digits_of z) /\ (forall r, digits_of z = 48%N :: r -> r = []) /\ decimal (digits_of z) = Z.abs z.
Proof.
  unfold digits_of. destruct z as [|q|q]; cbn [Z.to_int].
  - split; [discriminate|]. split; [repeat constructor; unfold digit; lia|]. split; [intros r E; injection E as <-; reflexivity|reflexivity].
  - apply pos_digits.
  - apply pos_digits.
Qed.
Definition withinb (limit : nat) (z : Z) : bool := negb ((0 <? limit)%nat && (limit <? length (digits_of z))%nat).
Lemma within_iff limit z : withinb limit z = true <-> within limit z.
Proof.
  unfold withinb, within. destruct (digits_of_ok z) as (A & B & C & D). rewrite negb_true_iff, andb_false_iff, !Nat.ltb_ge.
  destruct limit as [|n]; [split; [auto|intros _; left; lia]|].
  rewrite <- D, <- (digits_within _ (S n) A B C) by lia. split; intros [H|H]; auto; lia.
Qed.
Lemma repr_limited limit z : int_repr_limited limit z = if withinb limit z then Ok (int_repr z) else Err ValueError.
Proof. unfold int_repr_limited, withinb, digits_of. destruct (_ && _); reflexivity. Qed.

(** ** The integers of a JSON value *)
Fixpoint all_within (limit : nat) (t : json) : bool :=
  match t with
  | JInt z => withinb limit z
  | JArr l => forallb (all_within limit) l
  | JObj l => forallb (fun m => all_within limit (snd m)) l
  | _ => true
  end.
Inductive integer_in (z : Z) : json -> Prop :=
| ii_int : integer_in z (JInt z)
| ii_arr l t : In t l -> integer_in z t -> integer_in z (JArr l)
| ii_obj l m : In m l -> integer_in z (snd m) -> integer_in z (JObj l).
Lemma all_within_iff limit t : all_within limit t = true <-> forall z, integer_in z t -> within limit z.
Proof.
  induction t as [| | |l IH|l IH] using json_nested_ind; cbn [all_within].
  - split; [intros _ z H; inversion H|auto].
  - rewrite within_iff. split; [intros H z' K; inversion K; subst; exact H|intros H; apply H; constructor].
  - split; [intros _ z H; inversion H|auto].
  - rewrite forallb_forall, Forall_forall in *. split.
    + intros H z K. inversion K as [|? t Ht Kt|]; subst. exact (proj1 (IH t Ht) (H t Ht) z Kt).
    + intros H t Ht. apply (IH t Ht). intros z K. apply H. econstructor; eassumption.
  - rewrite forallb_forall, Forall_forall in *. split.
    + intros H z K. inversion K as [| |? m Hm Km]; subst. exact (proj1 (IH m Hm) (H m Hm) z Km).
    + intros H m Hm. apply (IH m Hm). intros z K. apply H. eapply ii_obj; eassumption.
Qed.
Lemma encode_limited_eq limit t : forall n,
  encode_limited limit n t = if all_within limit t then Ok (encode n t) else Err ValueError.
Proof.
  induction t as [|z| |l IH|l IH] using json_nested_ind; intros n; try reflexivity.
  - apply repr_limited.
  - assert ((fix go l := match l with
                         | [] => Ok []
                         | t :: l' => do? x <- encode_limited limit (S n) t; do? xs <- go l'; Ok (x :: xs)
                         end) l =
            if forallb (all_within limit) l then Ok (map (encode (S n)) l) else Err ValueError) as E.
    { induction IH as [|t l Ht IH IH']; [reflexivity|]. cbn [forallb map]. rewrite Ht, IH'.
      destruct (all_within limit t); [|reflexivity]. cbn [rbind andb]. destruct (forallb _ l); reflexivity. }
    destruct l as [|t l]; [reflexivity|]. cbn [encode_limited all_within encode] in *. rewrite E.
    destruct (forallb _ (t :: l)); reflexivity.
  - assert ((fix go l := match l with
                         | [] => Ok []
                         | kv :: l' => do? x <- encode_limited limit (S n) (snd kv); do? xs <- go l';
                                 Ok ((encode_str (fst kv) ++ str ": " ++ x) :: xs)
                         end) l =
            if forallb (fun m => all_within limit (snd m)) l
            then Ok (map (fun kv => encode_str (fst kv) ++ str ": " ++ encode (S n) (snd kv)) l) else Err ValueError) as E.
    { induction IH as [|t l Ht IH IH']; [reflexivity|]. cbn [forallb map]. rewrite Ht, IH'.
      destruct (all_within limit (snd t)); [|reflexivity]. cbn [rbind andb]. destruct (forallb _ l); reflexivity. }
    destruct l as [|t l]; [reflexivity|]. cbn [encode_limited all_within encode] in *. rewrite E.
    destruct (forallb _ (t :: l)); reflexivity.
Qed.

(** The integers of the value shown are those of the keys. *)
Lemma shows_dict_integer d t z : shows_dict d t -> integer_in z t <-> dict_integer d z.
Proof.
  intros (l & -> & H). unfold dict_integer. split.
  - intros K. inversion K as [| |? m Hm Km]; subst. clear K.
    induction H as [|[n v] m' d l (En & Ev) H IH]; [contradiction|]. destruct Hm as [->|Hm].
    + cbn [fst snd] in *. exists n. left. destruct Ev; inversion Km; subst; reflexivity.
    + destruct (IH Hm) as (n' & K). exists n'. right. exact K.
  - intros (n & K). induction H as [|[n' v] m' d l (En & Ev) H IH]; [contradiction|]. destruct K as [K|K].
    + injection K as -> ->. cbn [fst snd] in *. eapply ii_obj; [left; reflexivity|]. inversion Ev; subst. constructor.
    + specialize (IH K). inversion IH as [| |? m Hm Km]; subst. eapply ii_obj; [right; exact Hm|exact Km].
Qed.
Lemma in_obj z l : integer_in z (JObj l) <-> exists m, In m l /\ integer_in z (snd m).
Proof. split; [intros K; inversion K; subst; eauto|intros (m & Hm & K); eapply ii_obj; eassumption]. Qed.
Lemma in_arr z l : integer_in z (JArr l) <-> exists t, In t l /\ integer_in z t.
Proof. split; [intros K; inversion K; subst; eauto|intros (t & Ht & K); eapply ii_arr; eassumption]. Qed.
Lemma in_two {A} (P : A -> Prop) a l : (exists x, In x (a :: l) /\ P x) <-> P a \/ exists x, In x l /\ P x.
Proof. split; [intros (x & [<-|H] & K); eauto|intros [K|(x & H & K)]; [exists a; split; [left; reflexivity|exact K]|exists x; split; [right; exact H|exact K]]]. Qed.
Lemma in_none {A} (P : A -> Prop) : (exists x, In x [] /\ P x) <-> False.
Proof. split; [intros (x & [] & _)|intros []]. Qed.
Lemma shows_key_integer k t z : shows_key k t -> integer_in z t <-> key_integer k z.
Proof.
  intros (h & ps & f & c & -> & H & P & F & C). unfold key_integer.
  rewrite in_obj, !in_two, in_none. cbn [snd]. rewrite in_obj, !in_two, in_none. cbn [snd].
  rewrite (shows_dict_integer _ _ _ H), (shows_dict_integer _ _ _ P), (shows_dict_integer _ _ _ F), (shows_dict_integer _ _ _ C). tauto.
Qed.
Lemma shows_bytes_no_integer b t z : shows_bytes b t -> ~ integer_in z t.
Proof. intros H K. inversion H; subst. inversion K. Qed.
Lemma shows_opt_bytes o t z : shows_opt shows_bytes o t -> integer_in z t <-> False.
Proof. destruct o; cbn; [intros H; split; [apply shows_bytes_no_integer with (1 := H)|intros []]|intros ->; split; [intros K; inversion K|intros []]]. Qed.
Lemma shows_opt_dict o t z : shows_opt shows_dict o t -> integer_in z t <-> opt_integer o z.
Proof.
  unfold opt_integer. destruct o as [d|]; cbn.
  - intros H. rewrite (shows_dict_integer _ _ _ H). split; [eauto|intros (d' & E & K); injection E as ->; exact K].
  - intros ->. split; [intros K; inversion K|intros (d & E & _); discriminate].
Qed.
Lemma shows_all {A} (sh : A -> json -> Prop) (P : A -> Prop) z l ts :
  (forall x t, sh x t -> integer_in z t <-> P x) -> Forall2 sh l ts ->
  (exists t, In t ts /\ integer_in z t) <-> exists x, In x l /\ P x.
Proof.
  intros H F. induction F as [|x t l ts Hx F IH]; [rewrite !in_none; reflexivity|].
  rewrite !in_two, IH, (H _ _ Hx). reflexivity.
Qed.
Lemma shows_pair_integer q t z : shows_pair q t -> integer_in z t <-> key_integer (pr_public q) z \/ key_integer (pr_private q) z.
Proof.
  intros (a & b & -> & Ha & Hb). rewrite in_arr, !in_two, in_none, (shows_key_integer _ _ _ Ha), (shows_key_integer _ _ _ Hb). tauto.
Qed.
Lemma shows_integer r t z : shows r t -> integer_in z t <-> parsed_integer r z.
Proof.
  destruct r as [l|ks]; cbn [shows parsed_integer].
  - intros (ds & bs & h & cb & o & o' & db & dh & pd & -> & Hq & Hb & Hh & Hc & Ho & Hd & Hdh & Hp).
    unfold list_integer. rewrite in_obj, !in_two, in_none. cbn [snd].
    rewrite in_arr, (shows_all _ _ z _ _ (fun q t => shows_pair_integer q t z) Hq).
    rewrite (shows_opt_bytes _ _ z Hb), (shows_opt_bytes _ _ z Hc), (shows_opt_bytes _ _ z Hd), (shows_opt_bytes _ _ z Hp).
    rewrite (shows_opt_dict _ _ z Hh), (shows_opt_dict _ _ z Hdh).
    assert (integer_in z o <-> opt_integer (l_kdf_options l) z) as ->; [|tauto].
    unfold opt_integer. destruct (l_kdf_options l) as [d|]; cbn in Ho.
    + destruct Ho as (-> & Ho). rewrite in_obj, in_two, in_none. cbn [snd]. rewrite (shows_dict_integer _ _ _ Ho).
      split; [intros [K|[]]; eauto|intros (d' & E & K); injection E as ->; auto].
    + subst o. split; [intros K; inversion K|intros (d & E & _); discriminate].
  - intros (ts & -> & H). rewrite in_arr. apply (shows_all _ _ z _ _ (fun k t => shows_key_integer k t z) H).
Qed.

(** ** C85 *)
(** The run for a file that parses: the output is that of C65 if no integer has too many digits,
    and otherwise there is none, only a ValueError. *)
Theorem C85_output_iff_within limit p e file given s lg r :
  text_of_file file s -> main_parse p e s given = (lg, Ok r) ->
  ((forall z, parsed_integer r z -> within limit z) -> main_command_limited limit p e file given = main_command p e file given) /\
  ((exists z, parsed_integer r z /\ ~ within limit z) -> main_command_limited limit p e file given = (lg, Err ValueError)).
Proof.
  intros T R. pose proof (text_of_file_scalar _ _ T) as S. apply read_text_iff in T.
  destruct (good_fine r (main_good _ _ _ _ _ _ S R)) as (Sh & _).
  unfold main_command_limited, main_command, main_output. rewrite T, !wbind_lift, R. cbn [wbind]. rewrite encode_limited_eq. split.
  - intros H. replace (all_within limit (parsed_tree r)) with true; [reflexivity|].
    symmetry. apply all_within_iff. intros z K. apply H. apply (shows_integer _ _ _ Sh). exact K.
  - intros (z & K & N). destruct (all_within limit (parsed_tree r)) eqn:E.
    + exfalso. apply N. apply (proj1 (all_within_iff _ _) E). apply (shows_integer _ _ _ Sh). exact K.
    + cbn [wlift wbind]. rewrite app_nil_r. reflexivity.
Qed.
(** Everything else is as without the limit. *)
Theorem C85_other_runs_unchanged limit p e file given :
  (forall lg x, main_command p e file given = (lg, Err x) -> main_command_limited limit p e file given = (lg, Err x)) /\
  main_command_limited 0 p e file given = main_command p e file given /\
  fst (main_command_limited limit p e file given) = fst (main_command p e file given).
Proof.
  assert (forall limit lg x, main_command p e file given = (lg, Err x) -> main_command_limited limit p e file given = (lg, Err x)) as F.
  { intros n lg x. unfold main_command_limited, main_command, main_output. destruct (read_text file) as [s|err]; [|intros H; exact H].
    rewrite !wbind_lift. destruct (main_parse p e s given) as [l [r|err]]; cbn [wbind wret]; [discriminate|auto]. }
  split; [exact (F limit)|].
  destruct (main_command p e file given) as [lg [x|x]] eqn:E.
  - destruct (C65_output_is_json _ _ _ _ _ _ E) as (s & r & t & T & R & _).
    split; [rewrite <- E; apply (C85_output_iff_within 0 _ _ _ _ _ _ _ T R); intros z _; left; reflexivity|].
    pose proof (C85_output_iff_within limit _ _ _ _ _ _ _ T R) as (A & B).
    destruct (all_within limit (parsed_tree r)) eqn:W.
    + unfold main_command_limited. apply read_text_iff in T. rewrite T, wbind_lift, R. cbn [wbind]. rewrite encode_limited_eq, W. cbn. rewrite !app_nil_r. reflexivity.
    + unfold main_command_limited. apply read_text_iff in T. rewrite T, wbind_lift, R. cbn [wbind]. rewrite encode_limited_eq, W. cbn. rewrite !app_nil_r. reflexivity.
  - split; [exact (F _ _ _ eq_refl)|rewrite (F limit _ _ eq_refl); reflexivity].
Qed.
(** One key is enough: in a file of public keys that the library wrote, a single integer with too
    many digits makes the command print nothing for all of them, although every line parses. *)
Theorem C85_one_long_integer_hides_all limit p e given kcs ss file k c t pub priv n ty z :
  Forall2 (fun kc s => reparses (p_ec_ok p) (fst kc) /\ written_line (fst kc) (snd kc) s /\ unbroken (snd kc)) kcs ss ->
  Z.of_nat (length (concat ss)) <= ssize_max -> utf8 (concat ss) file ->
  In (k, c) kcs -> In (t, (pub, priv)) key_specs -> is_key t k -> In (n, ty) pub ->
  dget n (k_params k) = Some (VInt z) -> limit <> 0%nat -> 10 ^ Z.of_nat limit <= Z.abs z ->
  snd (main_command_limited limit p e file given) = Err ValueError.
Proof.
  intros H L Hf Hk Hs Ik Hn Hz Nl Lz.
  destruct (written_lines_parse _ _ _ H L) as (Nb & Ncr & ls & ks & Hl & Hks & R). destruct (R 0%nat) as (lg & Hr & _).
  assert (main_parse p e (concat ss) given = (lg, Ok (ParsedKeys ks))) as Em
    by (apply C55_lines_parsed_or_reported_partial; eauto).
  assert (text_of_file file (concat ss)) as T by (exists (concat ss); split; [exact Hf|apply no_cr_translated; exact Ncr]).
  rewrite (proj2 (C85_output_iff_within limit p e file given _ _ _ T Em)); [reflexivity|].
  exists z. split; [|intros [K|K]; [contradiction|lia]]. cbn [parsed_integer].
  assert (exists k', In k' ks /\ key_with_comment k c k') as (k' & Hk' & Kc).
  { clear - Hks Hk. induction Hks as [|kc k' kcs ks Hx F IH]; [contradiction|]. destruct Hk as [->|Hk].
    - exists k'. split; [left; reflexivity|exact Hx].
    - destruct (IH Hk) as (k0 & A & B). exists k0. split; [right; exact A|exact B]. }
  exists k'. split; [exact Hk'|]. right. left.
  destruct Kc as (t' & pub' & priv' & Hs' & Ik1 & Ik2 & _ & _ & Rs & _).
  assert (t' = t) as -> by (destruct Ik as (A & _), Ik1 as (B & _); congruence).
  pose proof (key_specs_fun _ _ _ Hs Hs') as E. injection E as <- <-.
  exists n. destruct Rs as (Ek & Rs).
  apply dget_In. rewrite Rs; [exact Hz|exact (in_map fst _ _ Hn)].
Qed.
(** The Ed25519 key and the RSA key of C17 with a modulus of four digits, where three are allowed:
    both lines parse, and nothing is printed. With Python's default of 4300 digits the same
    happens for all integers of at least 14300 bits and for none of at most 14200. *)
Definition ex_long : key :=
  mkkey KPub [(str "key_type", VStr (str "ssh-rsa"))] RSAPub [(str "e", VInt 17); (str "n", VInt 3233)] [] [].
Definition ex_hidden : list (key * pystr) := [(ex_ed, str "me@host"); (ex_long, [])].
Definition hidden_lines : list pystr := map (fun kc => line_of (fst kc)) ex_hidden.
Example C85_example :
  (exists file, utf8 (concat hidden_lines) file /\
    forall p e given, snd (main_command_limited 3 p e file given) = Err ValueError /\
      exists lg x, main_command p e file given = (lg, Ok x)) /\
  forall z, (2 ^ 14300 <= Z.abs z -> ~ within 4300 z) /\ (Z.abs z < 2 ^ 14200 -> within 4300 z).
Proof.
  assert (forall ec, Forall2 (fun kc s => reparses ec (fst kc) /\ written_line (fst kc) (snd kc) s /\ unbroken (snd kc)) ex_hidden hidden_lines) as W.
  { intros ec. constructor; [|constructor; [|constructor]]; cbn [fst snd].
    - split; [apply ex_ed_reparses|]. split.
      { exists true, false, (str " " ++ str "me@host"), []. split; [vm_compute; reflexivity|].
        split; [eexists; split; reflexivity|]. split; [reflexivity|]. right. reflexivity. }
      intros c Hc K. vm_compute in Hc, K. lia.
    - split; [left; eexists (str "ssh-rsa"), _, _; split; [in_specs|split; reflexivity]|]. split; [|intros ? []].
      exists true, false, [], []. split; [vm_compute; reflexivity|]. split; [reflexivity|]. split; [reflexivity|]. left. auto. }
  assert (Z.of_nat (length (concat hidden_lines)) <= ssize_max) as L by (vm_compute; discriminate).
  split.
  - eexists. split; [apply utf8_encode_iff; vm_compute; reflexivity|]. intros p e given.
    match goal with |- snd (main_command_limited _ _ _ ?f _) = _ /\ _ => assert (utf8 (concat hidden_lines) f) as Hf by (apply utf8_encode_iff; vm_compute; reflexivity) end.
    split.
    + eapply (C85_one_long_integer_hides_all 3 p e given ex_hidden hidden_lines _ ex_long [] (str "ssh-rsa") _ _ (str "n") _ 3233).
      * apply W.
      * exact L.
      * exact Hf.
      * right. left. reflexivity.
      * in_specs.
      * split; reflexivity.
      * right. left. reflexivity.
      * reflexivity.
      * discriminate.
      * vm_compute. discriminate.
    + destruct (C81_public_file_partial p e given ex_hidden hidden_lines _ (W _) L Hf) as (lg & x & _ & _ & E & _). eauto.
  - assert (10 ^ Z.of_nat 4300 = (10 ^ 43) ^ 100) as E.
    { rewrite <- Z.pow_mul_r by discriminate. apply f_equal. reflexivity. }
    assert (2 ^ 14300 = (2 ^ 143) ^ 100) as E1 by (rewrite <- Z.pow_mul_r by discriminate; apply f_equal; reflexivity).
    assert (2 ^ 14200 = (2 ^ 142) ^ 100) as E2 by (rewrite <- Z.pow_mul_r by discriminate; apply f_equal; reflexivity).
    assert ((2 ^ 142) ^ 100 <= (10 ^ 43) ^ 100 <= (2 ^ 143) ^ 100) as (A & B)
      by (split; apply Z.pow_le_mono_l; (split; [apply Z.pow_nonneg|apply Z.leb_le; vm_compute; reflexivity]; discriminate)).
    unfold within. rewrite E, E1, E2. revert A B. generalize ((2 ^ 142) ^ 100) ((2 ^ 143) ^ 100) ((10 ^ 43) ^ 100).
    intros a b c A B z. split.
    + intros H [K|K]; [discriminate|]. exact (Z.lt_irrefl _ (Z.lt_le_trans _ _ _ K (Z.le_trans _ _ _ B H))).
    + intros H. right. exact (Z.lt_le_trans _ _ _ H A).
Qed.

Print Assumptions C85_output_iff_within.
Print Assumptions C85_other_runs_unchanged.
Print Assumptions C85_one_long_integer_hides_all.
