(** C32: distributed delete equals local delete. *)
From Verif.Model Require Import RayOps.
From Verif.Spec Require Import Api Fixture Pruning Separable Layout Typed Candidates Serial Deletion.
From Verif.Proofs Require Import RayDelete RayDeleteExact RayDeleteOutcome Witness.

(** The full claim fails.  Two files in one manifest, keys 1, 2 and keys 3, 4, 5:
    deleting keys 2 and 3 leaves keys 1, 4, 5 with the local runner.  With Ray,
    the rewrite of the first file keeps the old second file and the rewrite of
    the second file keeps the old first file: no key is gone, and keys 1, 4 and
    5 are there twice. *)
Definition C32_filter : filter_expr :=
  EBin FnAnd (ex_cmp OpGe "k" (SNum 2)) (ex_cmp OpLe "k" (SNum 3)).
Theorem C32_refuted : ∃ σ st st' e before ray local,
  reachable σ ∧ reads σ 0 None before
  ∧ result σ 0 (run_delete ex_env ex_opts e) = Some (Ok (JSucceeded st))
  ∧ result σ 0 (run_ray_delete ex_env ex_opts e) = Some (Ok (JSucceeded st'))
  ∧ reads (after σ 0 (run_delete ex_env ex_opts e)) 0 None local
  ∧ result (after σ 0 (run_ray_delete ex_env ex_opts e)) 0 (run_read_all ex_env None None None false None) = Some (Ok ray)
  ∧ length before = 5 ∧ length local = 3 ∧ length ray = 8 ∧ ∀ r, r ∈ before → r ∈ ray.
Proof.
  set (σ := ex_calls [ex_create; ex_two_files]).
  assert (reachable σ) by (apply reach; calls).
  assert (reachable (after σ 0 (run_delete ex_env ex_opts C32_filter))).
  { apply (reach [ex_create; ex_two_files; CRun 0 ex_env ex_opts (ODelete C32_filter)]). calls. }
  exists σ. eexists _, _, C32_filter, (concat ex_rows), _, _.
  split; [done|]. split; [by reads_by_computing|]. split; [computed|]. split; [computed|].
  split; [by reads_by_computing|]. split; [computed|]. split; [done|]. split; [done|]. split; [done|].
  intros r Hr. revert r Hr. apply Forall_forall. apply (bool_decide_unpack _). computed.
Qed.
Print Assumptions C32_refuted.

(** Missing from the full claim: [separable].  When in every manifest the rows
    to delete are all in one file that keeps a row (or are all rows of the
    manifest), both deletes leave the same rows: those that do not match. *)
Theorem C32_same_rows_partial : ∀ σ hid s E fo E' fo' e st st' before,
  reachable σ → schema_at σ hid = Some s → reads σ hid None before →
  safe_filter s e → no_nan_keys (s_pks s) before → decided e before →
  separable (layout σ hid) (fun r => matches e r = true) →
  result σ hid (run_ray_delete E fo e) = Some (Ok (JSucceeded st)) →
  result σ hid (run_delete E' fo' e) = Some (Ok (JSucceeded st')) →
  ∃ ray local, reads (after σ hid (run_ray_delete E fo e)) hid None ray
    ∧ reads (after σ hid (run_delete E' fo' e)) hid None local
    ∧ ray ≡ₚ local ∧ ray ≡ₚ filter (fun r => matches e r = false) before.
Proof. exact ray_delete_local. Qed.
Print Assumptions C32_same_rows_partial.

(** Three manifests: one with a file of which one row is deleted, next to a file
    that is kept; one that is wholly deleted; one that is kept. *)
Definition C32_calls : list call :=
  [ex_create; ex_two_files; ex_add [ex_row 20 "x" "X"; ex_row 21 "y" "Y"]; ex_add [ex_row 10 "z" "Z"]].
Definition C32_case_filter : filter_expr := ex_cmp OpGe "k" (SNum 20).
Definition C32_other_filter : filter_expr := EBin FnOr C32_case_filter (ex_cmp OpEq "k" (SNum 4)).
Example C32_case : ∃ σ s st st' before,
  reachable σ ∧ schema_at σ 0 = Some s ∧ reads σ 0 None before
  ∧ safe_filter s C32_other_filter ∧ no_nan_keys (s_pks s) before ∧ decided C32_other_filter before
  ∧ separable (layout σ 0) (fun r => matches C32_other_filter r = true)
  ∧ result σ 0 (run_ray_delete ex_env ex_opts C32_other_filter) = Some (Ok (JSucceeded st))
  ∧ result σ 0 (run_delete ex_env ex_opts C32_other_filter) = Some (Ok (JSucceeded st'))
  ∧ length (filter (fun r => matches C32_other_filter r = false) before) = 5.
Proof.
  exists (ex_calls C32_calls). eexists _, _, _, (concat ex_rows ++ [ex_row 20 "x" "X"; ex_row 21 "y" "Y"; ex_row 10 "z" "Z"]).
  assert (reachable (ex_calls C32_calls)) by (apply reach; calls).
  split; [done|]. split; [computed|]. split; [by reads_by_computing|]. split; [safe|].
  split; [apply proper_no_nan; proper|]. split; [apply decided_tested; computed|].
  split; [apply separable_tested; computed|]. split; [computed|]. split; computed.
Qed.

(** Exactly what a distributed delete leaves, in this order and whatever the
    layout: each rewritten file is taken out on its own (see Spec/Deletion.v). *)
Theorem C32_distributed_exact : ∀ σ hid s E fo e st before fset,
  reachable σ → schema_at σ hid = Some s → reads σ hid None before → ignores (s_recs s) e →
  result σ hid (candidates e) = Some (Ok fset) →
  result σ hid (run_ray_delete E fo e) = Some (Ok (JSucceeded st)) →
  ∃ mans, divides σ hid before mans
    ∧ reads (after σ hid (run_ray_delete E fo e)) hid None (apart_remaining (df_path <$> fset_files fset) e mans).
Proof. exact ray_delete_remaining. Qed.
Print Assumptions C32_distributed_exact.

(** [separable] is not only enough: no other layout gives the right rows. *)
Theorem C32_right_iff_separable : ∀ σ hid s E fo e st before,
  reachable σ → schema_at σ hid = Some s → reads σ hid None before →
  safe_filter s e → no_nan_keys (s_pks s) before → decided e before → NoDup before →
  result σ hid (run_ray_delete E fo e) = Some (Ok (JSucceeded st)) →
  ∃ rows, reads (after σ hid (run_ray_delete E fo e)) hid None rows
    ∧ (rows ≡ₚ filter (fun r => matches e r = false) before ↔ separable (layout σ hid) (fun r => matches e r = true)).
Proof. exact ray_delete_iff. Qed.
Print Assumptions C32_right_iff_separable.

(** Exactly which outcome a distributed delete has, with the effect of each.
    Missing: schemas and keys for which files cannot be written (see C45). *)
Theorem C32_outcomes_partial : ∀ σ hid h s m E fo e before fset,
  reachable σ → y_handles σ !! hid = Some h → schema_at σ hid = Some s →
  stored_meta (w_fs (y_world σ)) = Some m → is_branch m (h_branch h) →
  plain_keys s → records_last s → reads σ hid None before → proper_keys (s_pks s) before →
  ignores (s_recs s) e → result σ hid (candidates e) = Some (Ok fset) →
  let cs := df_path <$> fset_files fset in
  let call := run_ray_delete E fo e in
  ∃ mans, divides σ hid before mans ∧
    if decide (fset_files fset ≠ [] ∧ some_candidates fset = false) then
      result σ hid call = Some (Ok JFailed) ∧ reads (after σ hid call) hid None before
    else if decide (Exists (rewritten cs e) (concat mans)) then
      ∃ st, result σ hid call = Some (Ok (JSucceeded st))
        ∧ st_rows st = (- Z.of_nat (length (filter (fun r => ¬ stays e r) (rows_of (filter (rewritten cs e) (concat mans))))))%Z
        ∧ reads (after σ hid call) hid None (apart_remaining cs e mans)
    else result σ hid call = Some (Ok JSkipped) ∧ reads (after σ hid call) hid None before.
Proof. exact ray_delete_decides. Qed.
Print Assumptions C32_outcomes_partial.

(** The dataset of [C32_refuted] meets all these hypotheses, and so does a delete
    for which the statistics leave no file: it is skipped, while the local runner
    reports a failure. *)
Definition C32_none : filter_expr := ex_cmp OpGt "k" (SNum 100).
Example C32_case_exact : ∃ σ h s m st before fset rows fset',
  reachable σ ∧ y_handles σ !! 0 = Some h ∧ schema_at σ 0 = Some s
  ∧ stored_meta (w_fs (y_world σ)) = Some m ∧ is_branch m (h_branch h) ∧ plain_keys s ∧ records_last s
  ∧ reads σ 0 None before ∧ proper_keys (s_pks s) before ∧ no_nan_keys (s_pks s) before ∧ NoDup before
  ∧ safe_filter s C32_filter ∧ decided C32_filter before
  ∧ result σ 0 (candidates C32_filter) = Some (Ok fset) ∧ length (fset_files fset) = 2
  ∧ result σ 0 (run_ray_delete ex_env ex_opts C32_filter) = Some (Ok (JSucceeded st)) ∧ st_rows st = (-2)%Z
  ∧ result (after σ 0 (run_ray_delete ex_env ex_opts C32_filter)) 0 (run_read_all ex_env None None None false None) = Some (Ok rows)
  ∧ length rows = 8
  ∧ safe_filter s C32_none ∧ result σ 0 (candidates C32_none) = Some (Ok fset') ∧ fset_files fset' = []
  ∧ result σ 0 (run_ray_delete ex_env ex_opts C32_none) = Some (Ok JSkipped)
  ∧ result σ 0 (run_delete ex_env ex_opts C32_none) = Some (Ok JFailed).
Proof.
  assert (reachable (ex_calls [ex_create; ex_two_files])) by (apply reach; calls).
  exists (ex_calls [ex_create; ex_two_files]). do 4 eexists. exists (concat ex_rows). do 3 eexists.
  split_and!; [done|computed|computed|computed|by left|apply plain_keys_tested; computed|computed
    |by reads_by_computing|proper|apply proper_no_nan; proper|apply (bool_decide_unpack _); computed|safe
    |apply decided_tested; computed|computed|computed|computed|computed|computed|computed|safe|computed|computed|computed|computed].
Qed.
