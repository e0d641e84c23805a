(** Manifest statistics bound the key values of the file. *)
From Verif.Model Require Import Manifests AppendOp.
From Verif.Spec Require Import Pruning.
From Verif.Proofs Require Import Lib Order FalsifySound.

Lemma at_most_sle a b : at_most a b ↔ sle a b.
Proof. done. Qed.

Lemma omin_fold l acc :
  (∀ v, v ∈ l → is_nan v = false) → (∀ a, acc = Some a → is_nan a = false) →
  (∀ v, v ∈ l ∨ acc = Some v → ∃ a, foldl omin acc l = Some a ∧ is_nan a = false ∧ sle a v).
Proof.
  revert acc. induction l as [|x l IH]; intros acc Hl Hacc v Hv; simpl.
  - destruct Hv as [Hv| ->]; [set_solver|]. exists v. split; [done|]. split; [by apply Hacc|]. apply sle_refl.
  - assert (Hx : is_nan x = false) by (apply Hl; set_solver).
    assert (Hacc' : ∀ a, omin acc x = Some a → is_nan a = false).
    { intros a. destruct acc as [m|]; simpl; intros [= <-]; [|done].
      destruct (scalar_lt x m); [done|]. by apply Hacc. }
    assert (Hrec := IH (omin acc x) ltac:(set_solver) Hacc').
    destruct Hv as [[->|Hv]%elem_of_cons|Hv].
    + destruct acc as [m|]; simpl in *.
      * unfold scalar_lt in *. destruct (scmp x m) eqn:E.
        -- destruct (Hrec m) as (a&?&?&?); [by right|]. exists a. repeat split; auto.
           apply (sle_trans _ m); [done|]. unfold sle. rewrite (scmp_antisym x m), E. done.
        -- destruct (Hrec x) as (a&?&?&?); [by right|]. eauto.
        -- destruct (Hrec m) as (a&?&?&?); [by right|]. exists a. repeat split; auto.
           apply (sle_trans _ m); [done|]. unfold sle. rewrite (scmp_antisym x m), E. done.
      * destruct (Hrec x) as (a&?&?&?); [by right|]. eauto.
    + destruct (Hrec v) as (a&?&?&?); [by left|]. eauto.
    + subst acc. simpl in *. unfold scalar_lt in *. destruct (scmp x v) eqn:E.
      * destruct (Hrec v) as (a&?&?&?); [by right|]. eauto.
      * destruct (Hrec x) as (a&?&?&?); [by right|]. exists a. repeat split; auto.
        apply (sle_trans _ x); [done|]. unfold sle. by rewrite E.
      * destruct (Hrec v) as (a&?&?&?); [by right|]. eauto.
Qed.
Lemma omax_fold l acc :
  (∀ v, v ∈ l → is_nan v = false) → (∀ a, acc = Some a → is_nan a = false) →
  (∀ v, v ∈ l ∨ acc = Some v → ∃ a, foldl omax acc l = Some a ∧ is_nan a = false ∧ sle v a).
Proof.
  revert acc. induction l as [|x l IH]; intros acc Hl Hacc v Hv; simpl.
  - destruct Hv as [Hv| ->]; [set_solver|]. exists v. split; [done|]. split; [by apply Hacc|]. apply sle_refl.
  - assert (Hx : is_nan x = false) by (apply Hl; set_solver).
    assert (Hacc' : ∀ a, omax acc x = Some a → is_nan a = false).
    { intros a. destruct acc as [m|]; simpl; intros [= <-]; [|done].
      destruct (scalar_lt m x); [done|]. by apply Hacc. }
    assert (Hrec := IH (omax acc x) ltac:(set_solver) Hacc').
    destruct Hv as [[->|Hv]%elem_of_cons|Hv].
    + destruct acc as [m|]; simpl in *.
      * unfold scalar_lt in *. destruct (scmp m x) eqn:E.
        -- destruct (Hrec m) as (a&?&?&?); [by right|]. exists a. repeat split; auto.
           apply (sle_trans _ m); [|done]. unfold sle. rewrite (scmp_antisym m x), E. done.
        -- destruct (Hrec x) as (a&?&?&?); [by right|]. eauto.
        -- destruct (Hrec m) as (a&?&?&?); [by right|]. exists a. repeat split; auto.
           apply (sle_trans _ m); [|done]. unfold sle. rewrite (scmp_antisym m x), E. done.
      * destruct (Hrec x) as (a&?&?&?); [by right|]. eauto.
    + destruct (Hrec v) as (a&?&?&?); [by left|]. eauto.
    + subst acc. simpl in *. unfold scalar_lt in *. destruct (scmp v x) eqn:E.
      * destruct (Hrec v) as (a&?&?&?); [by right|]. eauto.
      * destruct (Hrec x) as (a&?&?&?); [by right|]. exists a. repeat split; auto.
        apply (sle_trans _ x); [|done]. unfold sle. by rewrite E.
      * destruct (Hrec v) as (a&?&?&?); [by right|]. eauto.
Qed.

Lemma chunk_bounds l : bounds (chunk_min l) (chunk_max l) l.
Proof.
  intros v Hv Hnan.
  assert (Hin : v ∈ non_nan l) by (apply elem_of_list_filter; done).
  assert (Hall : ∀ v, v ∈ non_nan l → is_nan v = false) by (intros ? [??]%elem_of_list_filter; done).
  destruct (omin_fold (non_nan l) None Hall ltac:(done) v ltac:(auto)) as (a&?&?&?).
  destruct (omax_fold (non_nan l) None Hall ltac:(done) v ltac:(auto)) as (b&?&?&?).
  exists a, b. done.
Qed.

Definition pair_bounds (p : option scalar * option scalar) (l : list scalar) := bounds p.1 p.2 l.

Lemma merge_one_keeps better cur new r :
  merge_one better cur new = Ok r →
  (∃ c, cur = Some c ∧ is_Some new ∧ is_Some r) ∨ (cur = None ∧ r = new).
Proof.
  destruct cur as [c|]; simpl; [|intros [= <-]; auto].
  destruct new as [n|]; [|done]. intros [= <-]. left. eauto.
Qed.

Lemma merge_stats_bounds cur new r l1 l2 :
  (∀ a, cur.1 = Some a ∨ cur.2 = Some a → is_nan a = false) →
  (∀ a, new.1 = Some a ∨ new.2 = Some a → is_nan a = false) →
  pair_bounds cur l1 → pair_bounds new l2 → merge_stats cur new = Ok r →
  pair_bounds r (l1 ++ l2) ∧ (∀ a, r.1 = Some a ∨ r.2 = Some a → is_nan a = false).
Proof.
  destruct cur as [c1 c2], new as [n1 n2]. unfold pair_bounds. simpl.
  intros Hc Hn Hb1 Hb2 Hm. unfold merge_stats in Hm. simpl in Hm.
  apply rbind_ok in Hm as (mn&Hmn&Hm). apply rbind_ok in Hm as (mx&Hmx&[= <-]). simpl.
  assert (Hmn' : (∀ x, c1 = Some x ∨ n1 = Some x → ∃ a, mn = Some a ∧ sle a x)
                 ∧ (∀ a, mn = Some a → is_nan a = false)).
  { destruct c1 as [c|]; simpl in Hmn.
    - destruct n1 as [n|]; [|done]. injection Hmn as <-. unfold scalar_lt. split.
      + intros x [[= <-]|[= <-]]; eexists; (split; [done|]); destruct (scmp n c) eqn:E;
          unfold sle; try (by rewrite E); try (apply sle_refl);
          rewrite (scmp_antisym n c), E; done.
      + intros a. destruct (scmp n c); intros [= <-]; auto.
    - injection Hmn as <-. split; [|auto]. intros x [?|Hx]; [done|]. exists x; split; [done|apply sle_refl]. }
  assert (Hmx' : (∀ x, c2 = Some x ∨ n2 = Some x → ∃ a, mx = Some a ∧ sle x a)
                 ∧ (∀ a, mx = Some a → is_nan a = false)).
  { destruct c2 as [c|]; simpl in Hmx.
    - destruct n2 as [n|]; [|done]. injection Hmx as <-. unfold scalar_lt. split.
      + intros x [[= <-]|[= <-]]; eexists; (split; [done|]); destruct (scmp c n) eqn:E;
          unfold sle; try (by rewrite E); try (apply sle_refl);
          rewrite (scmp_antisym c n), E; done.
      + intros a. destruct (scmp c n); intros [= <-]; auto.
    - injection Hmx as <-. split; [|auto]. intros x [?|Hx]; [done|]. exists x; split; [done|apply sle_refl]. }
  destruct Hmn' as [Hmn1 Hmn2], Hmx' as [Hmx1 Hmx2]. split.
  - intros v Hv Hnan. apply elem_of_app in Hv as [Hv|Hv].
    + destruct (Hb1 v Hv Hnan) as (a&b&->&->&?&?&Hav&Hvb).
      destruct (Hmn1 a) as (a'&->&Ha'); [auto|]. destruct (Hmx1 b) as (b'&->&Hb'); [auto|].
      exists a', b'. repeat split; auto; [by apply (sle_trans _ a)|by apply (sle_trans _ b)].
    + destruct (Hb2 v Hv Hnan) as (a&b&->&->&?&?&Hav&Hvb).
      destruct (Hmn1 a) as (a'&->&Ha'); [auto|]. destruct (Hmx1 b) as (b'&->&Hb'); [auto|].
      exists a', b'. repeat split; auto; [by apply (sle_trans _ a)|by apply (sle_trans _ b)].
  - intros a [Ha|Ha]; auto.
Qed.

Lemma fold_omin_nan l acc a :
  (∀ v, v ∈ l → is_nan v = false) → (∀ a, acc = Some a → is_nan a = false) →
  foldl omin acc l = Some a → is_nan a = false.
Proof.
  revert acc; induction l as [|x l IH]; intros acc Hl Hacc; simpl; [apply Hacc|].
  apply IH; [set_solver|]. intros b. destruct acc as [m|]; simpl.
  - intros [= <-]. destruct (scalar_lt x m); [apply Hl; set_solver|by apply Hacc].
  - intros [= <-]. apply Hl; set_solver.
Qed.
Lemma fold_omax_nan l acc a :
  (∀ v, v ∈ l → is_nan v = false) → (∀ a, acc = Some a → is_nan a = false) →
  foldl omax acc l = Some a → is_nan a = false.
Proof.
  revert acc; induction l as [|x l IH]; intros acc Hl Hacc; simpl; [apply Hacc|].
  apply IH; [set_solver|]. intros b. destruct acc as [m|]; simpl.
  - intros [= <-]. destruct (scalar_lt m x); [apply Hl; set_solver|by apply Hacc].
  - intros [= <-]. apply Hl; set_solver.
Qed.
Lemma chunk_no_nan l a : chunk_min l = Some a ∨ chunk_max l = Some a → is_nan a = false.
Proof.
  assert (Hall : ∀ v, v ∈ non_nan l → is_nan v = false) by (intros ? [??]%elem_of_list_filter; done).
  intros [Ha|Ha]; [eapply fold_omin_nan|eapply fold_omax_nan]; try done; naive_solver.
Qed.

Lemma rfold_merge_bounds (g : list row → list scalar) groups cur r l :
  (∀ a, cur.1 = Some a ∨ cur.2 = Some a → is_nan a = false) →
  pair_bounds cur l →
  rfoldM (fun cur rg => merge_stats cur (chunk_min (g rg), chunk_max (g rg))) cur groups = Ok r →
  pair_bounds r (l ++ concat (g <$> groups)).
Proof.
  revert cur l. induction groups as [|rg groups IH]; intros cur l Hn Hb; simpl.
  - intros [= <-]. by rewrite app_nil_r.
  - intros (cur'&Hm&Hr)%rbind_ok.
    apply (merge_stats_bounds _ _ _ l (g rg)) in Hm as [Hb' Hn']; simpl; auto.
    + apply (IH _ (l ++ g rg)) in Hr; [|done|done]. by rewrite <-app_assoc in Hr.
    + intros a Ha. by eapply chunk_no_nan.
    + apply chunk_bounds.
Qed.

Lemma leaf_column_concat fs groups k :
  leaf_column fs (concat groups) k = concat ((fun rg => leaf_column fs rg k) <$> groups).
Proof.
  induction groups as [|g gs IH]; [done|].
  rewrite fmap_cons. cbn [concat]. rewrite <-IH. unfold leaf_column. by rewrite bind_app.
Qed.

Lemma column_stats_bounds fs groups k st :
  column_stats fs groups k = Ok st →
  pair_bounds st (leaf_column fs (concat groups) k).
Proof.
  unfold column_stats. case_decide; [|done]. intros Hr.
  apply (rfold_merge_bounds (fun rg => leaf_column fs rg k) groups (None, None) st []) in Hr.
  - simpl in Hr. by rewrite leaf_column_concat.
  - naive_solver.
  - intros v Hv. set_solver.
Qed.

(** Every field before position [k] has one leaf column. *)
Definition flat_prefix (fs : list afield) (k : nat) : Prop :=
  ∀ j f, j < k → fs !! j = Some f → ty_leaves (f_ty f) = 1.

Definition leaf_counts_ok (fs : list afield) (r : row) : Prop :=
  ∀ f, f ∈ fs →
    length (cell_leaves (ty_leaves (f_ty f)) (default CNull (rget (f_name f) r))) = ty_leaves (f_ty f).

Lemma row_leaves_at fs r k f :
  leaf_counts_ok fs r → flat_prefix fs k → fs !! k = Some f → ty_leaves (f_ty f) = 1 →
  row_leaves fs r !! k = head (cell_leaves 1 (default CNull (rget (f_name f) r))).
Proof.
  revert k. induction fs as [|g fs IH]; intros k Hlc Hfp Hk Hone; [done|].
  destruct k as [|k]; simpl in *.
  - injection Hk as ->. unfold row_leaves. simpl. rewrite Hone.
    pose proof (Hlc f ltac:(set_solver)) as Hl. rewrite Hone in Hl.
    destruct (cell_leaves 1 _) as [|x [|]]; try done.
  - unfold row_leaves. simpl.
    pose proof (Hlc g ltac:(set_solver)) as Hl.
    rewrite (Hfp 0 g ltac:(lia) eq_refl) in Hl |- *.
    rewrite lookup_app_r by lia. rewrite Hl. replace (S k - 1) with k by lia.
    apply IH; try done.
    + intros h Hh. apply Hlc. set_solver.
    + intros j h Hj Hh. apply (Hfp (S j) h); [lia|done].
Qed.

Lemma leaf_column_values fs rows k f :
  (∀ r, r ∈ rows → leaf_counts_ok fs r) → flat_prefix fs k → fs !! k = Some f →
  ty_leaves (f_ty f) = 1 →
  (∀ r, r ∈ rows → match rget (f_name f) r with
                   | Some (CAddr _ _) | Some (CNested _) => False | _ => True end) →
  leaf_column fs rows k = column_values (f_name f) rows.
Proof.
  intros Hlc Hfp Hk Hone. induction rows as [|r rows IH]; intros Hc; [done|].
  unfold leaf_column, column_values. rewrite bind_cons. cbn [omap list_omap].
  rewrite (row_leaves_at fs r k f); [|apply Hlc; set_solver|done..].
  unfold leaf_column, column_values in IH.
  rewrite IH; [|intros; apply Hlc; set_solver|intros; apply Hc; set_solver].
  pose proof (Hc r ltac:(set_solver)) as Hr. unfold row_look.
  by destruct (rget (f_name f) r) as [[| | |]|].
Qed.
