(** C48: deleting nothing is a no-op. *)
From Verif.Spec Require Import Api Fixture Candidates.
From Verif.Proofs Require Import NoOp Witness.

(** Deleting from an empty storage, or with a filter for which the statistics
    already exclude every file, fails instead of being skipped. *)
Theorem C48_refuted :
  (∃ σ e, reachable σ ∧ reads σ 0 None []
    ∧ result σ 0 (run_delete ex_env ex_opts e) = Some (Ok JFailed))
  ∧ ∃ σ e before, reachable σ ∧ reads σ 0 None before ∧ length before = 5
    ∧ (∀ r, r ∈ before → matches e r = false)
    ∧ result σ 0 (run_delete ex_env ex_opts e) = Some (Ok JFailed).
Proof.
  split.
  - exists (ex_calls [ex_create]), (ex_cmp OpEq "k" (SNum 4)).
    assert (reachable (ex_calls [ex_create])) by (apply reach; calls).
    split; [done|]. split; [by reads_by_computing|computed].
  - exists (ex_calls [ex_create; ex_append]), (ex_cmp OpEq "k" (SNum 9)), (concat ex_rows).
    assert (reachable (ex_calls [ex_create; ex_append])) by (apply reach; calls).
    split; [done|]. split; [by reads_by_computing|]. split; [done|]. split; [|computed].
    apply Forall_forall. apply (bool_decide_unpack _). computed.
Qed.
Print Assumptions C48_refuted.

(** Missing from the full claim: the result should always be SKIPPED.  It is
    SKIPPED exactly if the statistics leave some file for the filter and none of
    the files left is empty, else FAILED.  In both cases the storage stays the
    same, file by file.  A filter that is null on a row counts as matching it (see C06),
    so the rows must be [decided]. *)
Theorem C48_outcome_partial : ∀ σ hid s E fo e before fset,
  reachable σ → schema_at σ hid = Some s → reads σ hid None before →
  ignores (s_recs s) e → decided e before → (∀ r, r ∈ before → matches e r = false) →
  result σ hid (candidates e) = Some (Ok fset) →
  result σ hid (run_delete E fo e) = Some (Ok (if some_candidates fset then JSkipped else JFailed))
  ∧ y_world (after σ hid (run_delete E fo e)) = y_world σ.
Proof. exact delete_nothing. Qed.
Print Assumptions C48_outcome_partial.

(** In terms of the rows: a filter over columns that are no primary keys is
    skipped if there are rows and no empty files. *)
Theorem C48_skipped_partial : ∀ σ hid s E fo e before,
  reachable σ → schema_at σ hid = Some s → reads σ hid None before →
  ignores (s_recs s) e → buildable s e → undecidable_part (s_pks s) e = true →
  decided e before → (∀ r, r ∈ before → matches e r = false) →
  before ≠ [] → (∀ man t, man ∈ layout σ hid → t ∈ man → t ≠ []) → w_fs (y_world σ) !! PExt "" = None →
  result σ hid (run_delete E fo e) = Some (Ok JSkipped)
  ∧ y_world (after σ hid (run_delete E fo e)) = y_world σ.
Proof. exact delete_skips. Qed.
Print Assumptions C48_skipped_partial.

(** Key 2 is deleted twice; and nobody has value "z". *)
Example C48_case_outcome : ∃ σ s e before fset,
  reachable σ ∧ schema_at σ 0 = Some s ∧ reads σ 0 None before ∧ ignores (s_recs s) e ∧ decided e before
  ∧ (∀ r, r ∈ before → matches e r = false) ∧ result σ 0 (candidates e) = Some (Ok fset)
  ∧ some_candidates fset = true ∧ length before = 4.
Proof.
  set (cs := [ex_create; ex_append; CRun 0 ex_env ex_opts (ODelete (ex_cmp OpEq "k" (SNum 2)))]).
  set (e := ex_cmp OpEq "k" (SNum 2)). exists (ex_calls cs). do 4 eexists.
  assert (reachable (ex_calls cs)) by (apply reach; calls).
  split; [done|]. split; [computed|]. split; [by reads_by_computing|].
  split; [apply (ignores_tested _ e); computed|]. split; [apply decided_tested; computed|].
  split; [apply Forall_forall; apply (bool_decide_unpack _); computed|].
  split; [computed|]. split; computed.
Qed.
Example C48_case_skipped : ∃ σ s e before,
  reachable σ ∧ schema_at σ 0 = Some s ∧ reads σ 0 None before ∧ ignores (s_recs s) e ∧ buildable s e
  ∧ undecidable_part (s_pks s) e = true ∧ decided e before ∧ (∀ r, r ∈ before → matches e r = false)
  ∧ before ≠ [] ∧ (∀ man t, man ∈ layout σ 0 → t ∈ man → t ≠ []) ∧ w_fs (y_world σ) !! PExt "" = None.
Proof.
  set (cs := [ex_create; ex_append]).
  set (e := ex_cmp OpEq "v" (SStr "z")). exists (ex_calls cs). do 3 eexists.
  assert (reachable (ex_calls cs)) by (apply reach; calls).
  split; [done|]. split; [computed|]. split; [by reads_by_computing|].
  split; [apply (ignores_tested _ e); computed|]. split; [can_build|]. split; [computed|].
  split; [apply decided_tested; computed|].
  split; [apply Forall_forall; apply (bool_decide_unpack _); computed|]. split; [done|]. split; [|computed].
  assert (Forall (fun man => Forall (fun t : list row => t ≠ []) man) (layout (ex_calls cs) 0)) as Hf.
  { apply (bool_decide_unpack _). computed. }
  rewrite Forall_forall in Hf. intros man t Hm Ht. specialize (Hf _ Hm). rewrite Forall_forall in Hf. by apply Hf.
Qed.
