(** Basic facts about the Python value model. *)
From Verif Require Import PyBase.
Open Scope Z_scope.
Ltac Zify.zify_post_hook ::= Z.div_mod_to_equations.

Lemma Zb_range b : 0 <= Zb b < 256.
Proof.
  unfold Zb. pose proof (Byte.to_N_bounded b). lia.
Qed.

Lemma bZ_Zb b : bZ (Zb b) = b.
Proof.
  unfold bZ. rewrite Z.mod_small by apply Zb_range.
  unfold Zb. rewrite N2Z.id, Byte.of_to_N. reflexivity.
Qed.

Lemma Zb_bZ z : Zb (bZ z) = z mod 256.
Proof.
  unfold bZ, Zb.
  destruct (Byte.of_N (Z.to_N (z mod 256))) eqn:E.
  - apply Byte.to_of_N in E. rewrite E.
    rewrite Z2N.id; [reflexivity|]. apply Z.mod_pos_bound; lia.
  - apply Byte.of_N_None_iff in E.
    pose proof (Z.mod_pos_bound z 256 ltac:(lia)). lia.
Qed.

Lemma Zb_inj a b : Zb a = Zb b -> a = b.
Proof. intros H. rewrite <- (bZ_Zb a), <- (bZ_Zb b), H. reflexivity. Qed.

Lemma byte_eqb_spec a b : byte_eqb a b = true <-> a = b.
Proof.
  unfold byte_eqb. split.
  - apply Byte.byte_dec_bl.
  - apply Byte.byte_dec_lb.
Qed.

Lemma bytes_eqb_spec a b : bytes_eqb a b = true <-> a = b.
Proof.
  revert b; induction a as [|x a IH]; intros [|y b]; simpl; try (split; congruence).
  rewrite andb_true_iff, byte_eqb_spec, IH.
  split; [intros [-> ->]; reflexivity | intros H; injection H; auto].
Qed.
Lemma bytes_eqb_refl a : bytes_eqb a a = true.
Proof. apply bytes_eqb_spec; reflexivity. Qed.

Lemma str_eqb_spec a b : str_eqb a b = true <-> a = b.
Proof.
  revert b; induction a as [|x a IH]; intros [|y b]; simpl; try (split; congruence).
  rewrite andb_true_iff, N.eqb_eq, IH.
  split; [intros [-> ->]; reflexivity | intros H; injection H; auto].
Qed.
Lemma str_eqb_refl a : str_eqb a a = true.
Proof. apply str_eqb_spec; reflexivity. Qed.
Lemma str_eqb_neq a b : str_eqb a b = false <-> a <> b.
Proof.
  rewrite <- (str_eqb_spec a b). destruct (str_eqb a b); split; congruence.
Qed.
Lemma str_eqb_sym a b : str_eqb a b = str_eqb b a.
Proof.
  destruct (str_eqb a b) eqn:E; symmetry.
  - apply str_eqb_spec in E; subst; apply str_eqb_refl.
  - apply str_eqb_neq in E. apply str_eqb_neq. congruence.
Qed.
Lemma str_dec (a b : pystr) : {a = b} + {a <> b}.
Proof. destruct (str_eqb a b) eqn:E; [left; apply str_eqb_spec|right; apply str_eqb_neq]; auto. Qed.

(** Induction over Python values. *)
Section PyvalInd.
  Variable Pr : pyval -> Prop.
  Hypothesis HInt : forall z, Pr (VInt z).
  Hypothesis HBytes : forall b, Pr (VBytes b).
  Hypothesis HStr : forall s, Pr (VStr s).
  Hypothesis HTuple : forall l, Forall Pr l -> Pr (VTuple l).
  Hypothesis HOther : forall n, Pr (VOther n).
  Fixpoint pyval_ind' (v : pyval) : Pr v :=
    match v with
    | VInt z => HInt z
    | VBytes b => HBytes b
    | VStr s => HStr s
    | VTuple l => HTuple l
        ((fix go (l : list pyval) : Forall Pr l :=
            match l with
            | [] => Forall_nil Pr
            | x :: l' => Forall_cons x (pyval_ind' x) (go l')
            end) l)
    | VOther n => HOther n
    end.
End PyvalInd.

Lemma val_eqb_spec a b : val_eqb a b = true <-> a = b.
Proof.
  revert b. induction a as [z|x|s|l IH|n] using pyval_ind'; intros b; destruct b; simpl;
    try (split; congruence).
  - rewrite Z.eqb_eq. split; congruence.
  - rewrite bytes_eqb_spec. split; congruence.
  - rewrite str_eqb_spec. split; congruence.
  - rename l0 into m. transitivity (l = m); [|split; congruence].
    revert m. induction IH as [|x l Hx _ IHl]; intros [|y m]; try (split; congruence).
    rewrite andb_true_iff, Hx, IHl.
    split; [intros [-> ->]; reflexivity | intros H; injection H; auto].
  - rewrite N.eqb_eq. split; congruence.
Qed.
Lemma val_eqb_refl a : val_eqb a a = true.
Proof. apply val_eqb_spec; reflexivity. Qed.
Lemma val_eqb_neq a b : val_eqb a b = false <-> a <> b.
Proof. rewrite <- (val_eqb_spec a b). destruct (val_eqb a b); split; congruence. Qed.

Lemma str_eqb_reflect a b : reflect (a = b) (str_eqb a b).
Proof. apply iff_reflect. symmetry. apply str_eqb_spec. Qed.
Lemma bytes_eqb_reflect a b : reflect (a = b) (bytes_eqb a b).
Proof. apply iff_reflect. symmetry. apply bytes_eqb_spec. Qed.
Lemma val_eqb_reflect a b : reflect (a = b) (val_eqb a b).
Proof. apply iff_reflect. symmetry. apply val_eqb_spec. Qed.

(** ** Dictionaries *)
Lemma dget_dset_same {A} k (v : A) d : dget k (dset k v d) = Some v.
Proof.
  induction d as [|[k' v'] d IH]; simpl.
  - rewrite str_eqb_refl; reflexivity.
  - destruct (str_eqb k k') eqn:E; simpl; rewrite E; auto.
Qed.
Lemma dget_dset_other {A} k k' (v : A) d : k <> k' -> dget k (dset k' v d) = dget k d.
Proof.
  intros N. induction d as [|[k2 v2] d IH]; simpl.
  - apply str_eqb_neq in N. rewrite N. reflexivity.
  - destruct (str_eqb k' k2) eqn:E; simpl.
    + apply str_eqb_spec in E; subst k2. apply str_eqb_neq in N. rewrite N; reflexivity.
    + rewrite IH; reflexivity.
Qed.
Lemma dget_dset {A} k k' (v : A) d :
  dget k (dset k' v d) = if str_eqb k k' then Some v else dget k d.
Proof.
  destruct (str_eqb k k') eqn:E.
  - apply str_eqb_spec in E; subst; apply dget_dset_same.
  - apply str_eqb_neq in E. apply dget_dset_other; auto.
Qed.
Lemma dget_None {A} k (d : dict A) : dget k d = None <-> ~ In k (dkeys d).
Proof.
  induction d as [|[k' v'] d IH]; simpl.
  - tauto.
  - destruct (str_eqb k k') eqn:E.
    + apply str_eqb_spec in E; subst. split; [congruence|]. intros H; exfalso; apply H; auto.
    + apply str_eqb_neq in E. rewrite IH. intuition congruence.
Qed.
Lemma dget_In {A} k (v : A) d : dget k d = Some v -> In (k, v) d.
Proof.
  induction d as [|[k' v'] d IH]; simpl; [congruence|].
  destruct (str_eqb k k') eqn:E.
  - apply str_eqb_spec in E; subst. intros H; injection H; intros; subst; auto.
  - auto.
Qed.
Lemma In_dget {A} k (v : A) d : NoDup (dkeys d) -> In (k, v) d -> dget k d = Some v.
Proof.
  induction d as [|[k' v'] d IH]; simpl; [tauto|].
  intros N H. inversion_clear N as [|? ? N1 N2].
  destruct (str_eqb k k') eqn:E.
  - apply str_eqb_spec in E; subst. destruct H as [H|H]; [congruence|].
    exfalso; apply N1. apply in_map_iff. exists (k', v); auto.
  - apply str_eqb_neq in E. destruct H as [H|H]; [congruence|]. auto.
Qed.
Lemma dkeys_dset {A} k (v : A) d :
  dkeys (dset k v d) = if dmem k d then dkeys d else dkeys d ++ [k].
Proof.
  unfold dmem. induction d as [|[k' v'] d IH]; simpl; [reflexivity|].
  destruct (str_eqb k k') eqn:E; simpl; [reflexivity|].
  unfold dkeys in *. simpl. rewrite IH.
  destruct (dget k d); reflexivity.
Qed.
Lemma NoDup_dset {A} k (v : A) d : NoDup (dkeys d) -> NoDup (dkeys (dset k v d)).
Proof.
  intros N. rewrite dkeys_dset. unfold dmem.
  destruct (dget k d) eqn:E; [assumption|].
  apply dget_None in E. apply NoDup_Add with (a := k) (l := dkeys d).
  - rewrite <- (app_nil_r (dkeys d)) at 1. apply Add_app.
  - auto.
Qed.
Lemma dset_same {A} k (v : A) d : dget k d = Some v -> dset k v d = d.
Proof.
  induction d as [|[k' v'] d IH]; simpl; [congruence|].
  destruct (str_eqb k k') eqn:E.
  - congruence.
  - intros H; rewrite IH; auto.
Qed.

Lemma skipn_skipn {A} n m (l : list A) : skipn n (skipn m l) = skipn (m + n) l.
Proof.
  revert l; induction m as [|m IH]; intros [|x l]; simpl; auto.
  destruct n; reflexivity.
Qed.

Lemma firstn_app_exact {A} (a b : list A) n : n = length a -> firstn n (a ++ b) = a.
Proof. intros ->. rewrite firstn_app, Nat.sub_diag, firstn_all. apply app_nil_r. Qed.
Lemma skipn_app_exact {A} (a b : list A) n : n = length a -> skipn n (a ++ b) = b.
Proof. intros ->. rewrite skipn_app, Nat.sub_diag, skipn_all. reflexivity. Qed.

(** Inversion helpers for the error monads. *)
Lemma rbind_ok {A B} (x : res A) (f : A -> res B) b :
  rbind x f = Ok b <-> exists a, x = Ok a /\ f a = Ok b.
Proof.
  destruct x; simpl; split; intros H.
  - eauto.
  - destruct H as (a' & E & H); congruence.
  - discriminate.
  - destruct H as (a' & E & H); discriminate.
Qed.
