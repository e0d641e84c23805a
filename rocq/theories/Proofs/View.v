(** Stored rows and the rows shown for them. *)
From Verif.Model Require Import System.
From Verif.Spec Require Import Logical Pruning.
From Verif.Proofs Require Import Lib World Resolve AppendSpec SchemaFacts ReadSpec Wf OpSpec Inv FileSet Ops Bodies Txn ReadRun.

Definition vrow (s : schema) (fs : fsys) (r y : row) : Prop :=
  ∃ l, resolve_row (records_in fs) (s_recs s) r = Some l ∧ rsel (out_names s) l = Ok y.
Notation shows s fs := (Forall2 (vrow s fs)).

Lemma shows_iff s fs rows ys :
  shows s fs rows ys ↔ ∃ l, resolve_rows (records_in fs) (s_recs s) rows = Some l ∧ tsel (out_names s) l = Ok ys.
Proof.
  split.
  - induction 1 as [|r y rows ys (l&Hl&Hy) _ (ls&Hls&Hys)]; [by exists []|].
    exists (l :: ls). unfold resolve_rows, tsel in *. cbn. by rewrite Hl, Hls, Hy, Hys.
  - intros (l&Hl%mapM_Some&Hy%tsel_ok). revert ys Hy.
    induction Hl as [|r x rows l Hr _ IH]; intros ys Hy; inversion Hy; subst; constructor; [by exists x|by apply IH].
Qed.
Lemma snap_rows_shows s fs sn ys : snap_rows s fs sn ys ↔ shows s fs (phys_rows fs sn) ys.
Proof. by rewrite shows_iff. Qed.
Lemma vrow_fun s fs r y1 y2 : vrow s fs r y1 → vrow s fs r y2 → y1 = y2.
Proof. intros (l1&H1&?) (l2&H2&?). congruence. Qed.
Lemma shows_fun s fs l y1 y2 : shows s fs l y1 → shows s fs l y2 → y1 = y2.
Proof. rewrite !shows_iff. intros (l1&?&?) (l2&?&?). congruence. Qed.
Lemma shows_keeps s fs fs' l y : keeps fs fs' → shows s fs l y → shows s fs' l y.
Proof. intros Hk. rewrite !shows_iff. intros (x&Hx&?). exists x. split; [|done]. by eapply keeps_resolve. Qed.
Lemma shows_sub s fs l sub y :
  shows s fs l y → (∀ r, r ∈ sub → r ∈ l) → ∃ z, shows s fs sub z.
Proof.
  intros Hy Hsub. induction sub as [|r sub IH]; [by exists []|].
  destruct IH as [z Hz]; [set_solver|]. assert (Hr : r ∈ l) by set_solver.
  apply elem_of_list_lookup in Hr as [i Hi]. destruct (Forall2_lookup_l _ _ _ _ _ Hy Hi) as (x&_&Hx).
  exists (x :: z). by constructor.
Qed.

Lemma rsel_look A r r1 n : rsel A r = Ok r1 → n ∈ A → rget n r1 = rget n r.
Proof.
  intros HA. apply rsel_ok in HA. induction HA as [|m [m' c] A r1 [Hm Hc] _ IH]; cbn in *; [set_solver|].
  intros Hn. case_decide; [naive_solver|]. apply IH. set_solver.
Qed.
Lemma out_names_in s n : n ∈ out_names s ↔ n ∈ s_names s.
Proof.
  unfold out_names, index_names, record_names. rewrite elem_of_app, !elem_of_list_filter. split; [naive_solver|].
  intros. destruct (decide (n ∈ s_recs s)); naive_solver.
Qed.
Lemma vrow_look s fs r y n :
  vrow s fs r y → r.*1 = s_names s → n ∉ s_recs s → row_look y n = row_look r n.
Proof.
  intros (l&Hl&Hy) Hr Hn. unfold row_look. pose proof (rget_resolve _ _ _ _ n Hl) as Hg.
  assert (rget n l = rget n r) as Heq.
  { destruct (rget n r) as [c|]; [|done]. destruct Hg as (d&Hd&->). unfold resolve_field in Hd.
    rewrite decide_False in Hd by done. by injection Hd as ->. }
  rewrite <-Heq. f_equal. destruct (decide (n ∈ s_names s)) as [Hin|Hni].
  - eapply rsel_look; [exact Hy|]. by apply out_names_in.
  - rewrite Heq, !rget_none; [done| |].
    + by rewrite Hr.
    + rewrite (rsel_names _ _ _ Hy), out_names_in. done.
Qed.
Lemma vrow_eval s fs r y e :
  vrow s fs r y → r.*1 = s_names s → ignores (s_recs s) e → eval (row_look y) e = eval (row_look r) e.
Proof. intros Hv Hr He. apply He. intros n Hn. by eapply vrow_look. Qed.
Lemma vrow_matches s fs r y e :
  vrow s fs r y → r.*1 = s_names s → ignores (s_recs s) e → matches e y = matches e r.
Proof. intros. unfold matches. f_equal. by eapply vrow_eval. Qed.
Lemma ignores_un recs f e : ignores recs e → ignores recs (EUn f e).
Proof. intros He look look' Hl. cbn. by rewrite (He look look' Hl). Qed.

Lemma Forall2_perm_l {A B} (R : A → B → Prop) l l' k :
  l ≡ₚ l' → Forall2 R l k → ∃ k', Forall2 R l' k' ∧ k ≡ₚ k'.
Proof.
  intros Hp. revert k. induction Hp as [|x l l' _ IH|x y l|l l' l'' _ IH1 _ IH2]; intros k Hk.
  - inversion Hk; subst. by exists [].
  - inversion Hk as [|? b ? k0 Hb Hk0]; subst. destruct (IH _ Hk0) as (k'&?&?). exists (b :: k'). split; by constructor.
  - inversion Hk as [|? b ? k0 Hb Hk0]; subst. inversion Hk0 as [|? c ? k1 Hc Hk1]; subst.
    exists (c :: b :: k1). split; [by repeat constructor|]. constructor.
  - destruct (IH1 _ Hk) as (k1&Hk1&?). destruct (IH2 _ Hk1) as (k2&?&?). exists k2. split; [done|]. by etrans.
Qed.
Lemma Forall2_filter_both {A B} (R : A → B → Prop) (P : A → Prop) (Q : B → Prop)
    `{∀ x, Decision (P x), ∀ x, Decision (Q x)} l k :
  Forall2 R l k → (∀ x y, x ∈ l → R x y → P x ↔ Q y) → Forall2 R (filter P l) (filter Q k).
Proof.
  induction 1 as [|x y l k Hxy Hl IH]; intros Hpq; [constructor|]. rewrite !filter_cons.
  assert (P x ↔ Q y) by (apply Hpq; [apply elem_of_list_here|done]).
  assert (Forall2 R (filter P l) (filter Q k)) by (apply IH; intros; apply Hpq; [by apply elem_of_list_further|done]).
  repeat case_decide; try naive_solver.
Qed.
Lemma Forall2_filter_sub {A B} (R : A → B → Prop) (P : A → Prop) `{∀ x, Decision (P x)} l k k' :
  (∀ x y z, R x y → R x z → y = z) →
  Forall2 R l k → Forall2 R (filter P l) k' → k' `sublist_of` k.
Proof.
  intros Hf Hl. revert k'. induction Hl as [|x y l k Hxy Hl IH]; intros k' Hk'.
  - rewrite filter_nil in Hk'. by inversion Hk'.
  - rewrite filter_cons in Hk'. case_decide.
    + inversion Hk' as [|? z ? k1 Hz Hk1]; subst. rewrite (Hf _ _ _ Hz Hxy). apply sublist_skip. by apply IH.
    + apply sublist_cons. by apply IH.
Qed.
