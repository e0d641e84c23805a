(** The order on scalars is a total order on non-NaN values. *)
From Verif.Model Require Import Values.

Lemma str_cmp_refl a : str_cmp a a = Eq.
Proof. induction a as [|x a IH]; simpl; [done|]. by rewrite N.compare_refl. Qed.
Lemma str_cmp_eq a b : str_cmp a b = Eq → a = b.
Proof.
  revert b; induction a as [|x a IH]; intros [|y b]; simpl; try done.
  destruct (N.compare_spec (Ascii.N_of_ascii x) (Ascii.N_of_ascii y)) as [Hxy| |]; try done.
  intros Hab. apply IH in Hab as ->. f_equal.
  rewrite <-(Ascii.ascii_N_embedding x), <-(Ascii.ascii_N_embedding y). by f_equal.
Qed.
Lemma str_cmp_antisym a b : str_cmp b a = CompOpp (str_cmp a b).
Proof.
  revert b; induction a as [|x a IH]; intros [|y b]; simpl; try done.
  rewrite (N.compare_antisym (Ascii.N_of_ascii x) (Ascii.N_of_ascii y)).
  destruct (N.compare _ _); simpl; auto.
Qed.
Lemma str_cmp_lt_trans a b c : str_cmp a b = Lt → str_cmp b c = Lt → str_cmp a c = Lt.
Proof.
  revert b c; induction a as [|x a IH]; intros [|y b] [|z c]; simpl; try done.
  destruct (N.compare_spec (Ascii.N_of_ascii x) (Ascii.N_of_ascii y)) as [H1|H1|H1];
  destruct (N.compare_spec (Ascii.N_of_ascii y) (Ascii.N_of_ascii z)) as [H2|H2|H2];
  destruct (N.compare_spec (Ascii.N_of_ascii x) (Ascii.N_of_ascii z)) as [H3|H3|H3];
    try done; try lia.
  eauto.
Qed.

Lemma scmp_refl a : is_nan a = false → scmp a a = Eq.
Proof.
  destruct a as [z|b|s|]; simpl; intros; try done.
  - apply Z.compare_refl.
  - by destruct b.
  - apply str_cmp_refl.
Qed.
Lemma scmp_eq a b : is_nan a = false → scmp a b = Eq → a = b.
Proof.
  destruct a as [z|x|s|], b as [z'|x'|s'|]; simpl; intros _ Heq; try done.
  - f_equal. by apply Z.compare_eq.
  - by destruct x, x'.
  - f_equal. by apply str_cmp_eq.
Qed.
Lemma scmp_antisym a b : scmp b a = CompOpp (scmp a b).
Proof.
  destruct a as [z|x|s|], b as [z'|x'|s'|]; simpl; try done.
  - apply Z.compare_antisym.
  - by destruct x, x'.
  - apply str_cmp_antisym.
Qed.
Lemma scmp_lt_trans a b c : scmp a b = Lt → scmp b c = Lt → scmp a c = Lt.
Proof.
  destruct a as [z|x|s|], b as [z'|x'|s'|], c as [z''|x''|s''|]; simpl; try done.
  - rewrite !Z.compare_lt_iff. lia.
  - by destruct x, x', x''.
  - apply str_cmp_lt_trans.
Qed.

(** [sle a b]: a is at most b. *)
Definition sle (a b : scalar) : Prop := scmp a b ≠ Gt.
Lemma sle_refl a : sle a a.
Proof. unfold sle. destruct a as [z|x|s|]; simpl; try done.
  - by rewrite Z.compare_refl. - by destruct x. - by rewrite str_cmp_refl. Qed.
Lemma scmp_eq_nan a b : scmp a b = Eq → a = b.
Proof.
  destruct (is_nan a) eqn:Ha; [|by apply scmp_eq].
  destruct a; try done. destruct b; simpl; try done.
Qed.
Lemma sle_trans a b c : sle a b → sle b c → sle a c.
Proof.
  unfold sle. intros Hab Hbc.
  destruct (scmp a b) eqn:Eab; [|clear Hab|done].
  - apply scmp_eq_nan in Eab as ->. done.
  - destruct (scmp b c) eqn:Ebc; [|clear Hbc|done].
    + apply scmp_eq_nan in Ebc as ->. by rewrite Eab.
    + by rewrite (scmp_lt_trans _ _ _ Eab Ebc).
Qed.
Lemma sle_total a b : sle a b ∨ sle b a.
Proof.
  unfold sle. rewrite (scmp_antisym a b). destruct (scmp a b); simpl; auto.
Qed.
Lemma sle_antisym a b : sle a b → sle b a → a = b.
Proof.
  unfold sle. rewrite (scmp_antisym a b). destruct (scmp a b) eqn:E; simpl; try done.
  intros _ _. by apply scmp_eq_nan.
Qed.
Lemma scmp_gt_sle a b : scmp a b = Gt ↔ ¬ sle a b.
Proof. unfold sle. destruct (scmp a b); intuition congruence. Qed.
Lemma scmp_lt_sle a b : scmp a b = Lt ↔ ¬ sle b a.
Proof. unfold sle. rewrite (scmp_antisym a b). destruct (scmp a b); simpl; intuition congruence. Qed.
