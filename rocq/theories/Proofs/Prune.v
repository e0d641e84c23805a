(** Reading by manifest statistics. *)
From Verif.Model Require Import System.
From Verif.Spec Require Import Logical Pruning.
From Verif.Proofs Require Import Lib FalsifySound World Resolve AppendSpec SchemaFacts ReadSpec Bounds Wf OpSpec
  Inv FileSet Ops Bodies Txn ReadRun View.

Lemma prune_file s fs m e mf r :
  wf_schema s → wf_mrow s fs m → safe_filter s e → build_manifest_filter (fenv_of s) e = Ok mf →
  r ∈ file_rows fs (mr_path m) → (∀ n, n ∈ s_pks s → row_look r n ≠ Some SNaN) →
  matches e r = true → mrow_matches mf m = true.
Proof.
  intros Hs (cols&gs&E&Hf&_&Hc&Hm&_) (Hp&_&Hplain) Hmf Hr Hnan He.
  unfold file_rows in Hr. rewrite Hf in Hr.
  eapply (manifest_filter_keeps (fenv_of s) m (row_look r) e mf); try done.
  - eapply manifest_row_key_bounds; try done. intros n Hn. apply Hplain. set_solver.
  - apply aligned_plain; [done|]. intros n Hn. apply Hplain. set_solver.
Qed.
Lemma file_rows_conform s fs m r : wf_mrow s fs m → r ∈ file_rows fs (mr_path m) → r.*1 = s_names s.
Proof.
  intros Hm Hr. apply wf_mrow_conforms in Hm. eapply Forall_forall in Hm; [|exact Hr]. by apply conforms_names.
Qed.

(** No NaN key and no undecided row, seen from the rows shown. *)
Lemma shown_row s fs sn ys m r :
  wf_snap s fs sn → snap_rows s fs sn ys → m ∈ snap_mrows fs sn → r ∈ file_rows fs (mr_path m) →
  wf_mrow s fs m ∧ r.*1 = s_names s ∧ ∃ y, y ∈ ys ∧ vrow s fs r y.
Proof.
  intros Hw Hys Hm Hr. pose proof (wf_snap_mrows _ _ _ Hw) as Hwm. eapply Forall_forall in Hwm; [|exact Hm].
  split; [done|]. split; [by eapply file_rows_conform|].
  apply snap_rows_shows in Hys.
  assert (Hin : r ∈ phys_rows fs sn).
  { unfold phys_rows. rewrite man_rows_bind. apply elem_of_list_bind. eauto. }
  apply elem_of_list_lookup in Hin as [i Hi]. destruct (Forall2_lookup_l _ _ _ _ _ Hys Hi) as (y&Hy&Hv).
  exists y. split; [by eapply elem_of_list_lookup_2|done].
Qed.
Lemma shown_no_nan s fs sn ys m r :
  wf_schema s → wf_snap s fs sn → snap_rows s fs sn ys → no_nan_keys (s_pks s) ys →
  m ∈ snap_mrows fs sn → r ∈ file_rows fs (mr_path m) → ∀ n, n ∈ s_pks s → row_look r n ≠ Some SNaN.
Proof.
  intros Hs Hw Hys Hnan Hm Hr n Hn. destruct (shown_row _ _ _ _ _ _ Hw Hys Hm Hr) as (_&Hnm&y&Hy&Hv).
  rewrite <-(vrow_look _ _ _ _ n Hv Hnm); [by eapply Hnan|]. by apply Hs.
Qed.
Lemma shown_decided s fs sn ys e m r :
  wf_snap s fs sn → snap_rows s fs sn ys → ignores (s_recs s) e → decided e ys →
  m ∈ snap_mrows fs sn → r ∈ file_rows fs (mr_path m) → ∃ b, eval (row_look r) e = Some (SBool b).
Proof.
  intros Hw Hys Hi Hd Hm Hr. destruct (shown_row _ _ _ _ _ _ Hw Hys Hm Hr) as (_&Hnm&y&Hy&Hv).
  rewrite <-(vrow_eval _ _ _ _ e Hv Hnm Hi). by apply Hd.
Qed.
(** Filtered reads. *)
Lemma filter_pruned s fs sn e mf ys :
  wf_schema s → wf_snap s fs sn → safe_filter s e → build_manifest_filter (fenv_of s) e = Ok mf →
  snap_rows s fs sn ys → no_nan_keys (s_pks s) ys →
  shows s fs (filter_rows (Some e) (picked_rows fs mf sn)) (filter (fun y => matches e y = true) ys).
Proof.
  intros Hs Hw Hsafe Hmf Hys Hnan. pose proof Hsafe as (_&Hig&_).
  assert (Heq : filter_rows (Some e) (picked_rows fs mf sn) = filter (fun r => matches e r = true) (phys_rows fs sn)).
  { cbn. unfold picked_rows, phys_rows.
    assert (Hall : ∀ m r, m ∈ snap_mrows fs sn → r ∈ file_rows fs (mr_path m) → matches e r = true → mrow_matches mf m = true).
    { intros m r Hm Hr. eapply prune_file; try done.
      - by eapply shown_row.
      - by eapply shown_no_nan. }
    clear -Hall. induction (snap_mrows fs sn) as [|m l IH]; [done|].
    rewrite filter_cons, man_rows_cons. rewrite filter_app, <-IH by (intros; eapply Hall; [by right|done..]).
    case_decide as Hmt.
    - by rewrite man_rows_cons, filter_app.
    - replace (filter (fun r => matches e r = true) (file_rows fs (mr_path m))) with (@nil row); [done|].
      symmetry. assert (Hn : ∀ r, r ∈ file_rows fs (mr_path m) → matches e r ≠ true).
      { intros r Hr He. apply Hmt. eapply Hall; [by left|done..]. }
      clear -Hn. induction (file_rows fs (mr_path m)) as [|r rs IH]; [done|].
      rewrite filter_cons, decide_False by (apply Hn; set_solver). apply IH. intros. apply Hn. set_solver. }
  rewrite Heq. pose proof (proj1 (snap_rows_shows _ _ _ _) Hys) as Hsh.
  apply Forall2_filter_both; [done|]. intros r y Hr Hv.
  assert (Hnm : r.*1 = s_names s).
  { unfold phys_rows in Hr. rewrite man_rows_bind in Hr. apply elem_of_list_bind in Hr as (m&Hr&Hm). by eapply shown_row. }
  by rewrite (vrow_matches _ _ _ _ e Hv Hnm Hig).
Qed.
