(** C06: delete removes exactly the matching rows. *)
From Verif.Spec Require Import Api Fixture Pruning Keys Typed Layout Candidates Serial Deletion.
From Verif.Proofs Require Import Calls DeleteExact DeleteOutcome Witness.

(** Missing from the full claim: [lost] should be empty always.  It is empty
    exactly for layouts that are [lossless] for the filter; the last theorem of
    this file shows a layout for which rows that do not match are lost.  Filters
    that pruning handles wrongly (see C04) are excluded by [safe_filter] and
    [no_nan_keys]. *)
Theorem C06_delete_removes_matching_partial : ∀ σ hid s E fo e st before,
  reachable σ → schema_at σ hid = Some s → reads σ hid None before →
  safe_filter s e → no_nan_keys (s_pks s) before → decided e before →
  result σ hid (run_delete E fo e) = Some (Ok (JSucceeded st)) →
  ∃ rows lost, reads (after σ hid (run_delete E fo e)) hid None rows
    ∧ filter (fun r => matches e r = false) before ≡ₚ rows ++ lost
    ∧ (lost = [] ↔ lossless (layout σ hid) (fun r => matches e r = true)).
Proof. exact delete_removes. Qed.
Print Assumptions C06_delete_removes_matching_partial.

(** Whatever the filter, the layout and the rows, a delete never adds or
    duplicates a row. *)
Theorem C06_delete_only_removes : ∀ σ hid E fo e st before,
  reachable σ → reads σ hid None before →
  result σ hid (run_delete E fo e) = Some (Ok (JSucceeded st)) →
  ∃ rows, reads (after σ hid (run_delete E fo e)) hid None rows ∧ rows ⊆+ before.
Proof. exact delete_only_removes. Qed.
Print Assumptions C06_delete_only_removes.

Example C06_case : ∃ σ s e st before rows,
  reachable σ ∧ schema_at σ 0 = Some s ∧ reads σ 0 None before
  ∧ safe_filter s e ∧ no_nan_keys (s_pks s) before ∧ decided e before
  ∧ result σ 0 (run_delete ex_env ex_opts e) = Some (Ok (JSucceeded st))
  ∧ lossless (layout σ 0) (fun r => matches e r = true)
  ∧ reads (after σ 0 (run_delete ex_env ex_opts e)) 0 None rows ∧ length rows = 4.
Proof.
  set (σ := ex_calls [ex_create; ex_append]).
  set (e := ex_cmp OpEq "k" (SNum 4)).
  assert (reachable σ) by (apply reach; calls).
  assert (reachable (after σ 0 (run_delete ex_env ex_opts e))).
  { apply (reach [ex_create; ex_append; CRun 0 ex_env ex_opts (ODelete e)]). calls. }
  exists σ. eexists _, e, _, (concat ex_rows), _.
  split_and!; [done|computed|by reads_by_computing|safe|apply proper_no_nan; proper|apply decided_tested; computed|computed
    | |by reads_by_computing|done].
  apply lossless_tested. computed.
Qed.

(** Exactly what remains, whatever the rows: null operands and NaN included.  The
    files that the statistics leave for the filter are named by [candidates]
    (C04 and C56 are about these). *)
Theorem C06_delete_exact : ∀ σ hid s E fo e st before fset,
  reachable σ → schema_at σ hid = Some s → reads σ hid None before → ignores (s_recs s) e →
  result σ hid (candidates e) = Some (Ok fset) →
  result σ hid (run_delete E fo e) = Some (Ok (JSucceeded st)) →
  ∃ mans rows, divides σ hid before mans ∧ reads (after σ hid (run_delete E fo e)) hid None rows
    ∧ rows ≡ₚ remaining (df_path <$> fset_files fset) e mans.
Proof. exact delete_remaining. Qed.
Print Assumptions C06_delete_exact.

(** Exactly which outcome a delete has, with the effect of each.  Missing:
    schemas and keys for which files cannot be written (see C45). *)
Theorem C06_outcomes_partial : ∀ σ hid h s m E fo e before fset,
  reachable σ → y_handles σ !! hid = Some h → schema_at σ hid = Some s →
  stored_meta (w_fs (y_world σ)) = Some m → is_branch m (h_branch h) →
  plain_keys s → records_last s → reads σ hid None before → proper_keys (s_pks s) before →
  ignores (s_recs s) e → result σ hid (candidates e) = Some (Ok fset) →
  let cs := df_path <$> fset_files fset in
  let σ' := after σ hid (run_delete E fo e) in
  ∃ mans, divides σ hid before mans ∧
    if some_candidates fset then
      if decide (Exists (rewritten cs e) (concat mans)) then
        ∃ st rows, result σ hid (run_delete E fo e) = Some (Ok (JSucceeded st))
          ∧ st_rows st = (- Z.of_nat (length (filter (fun r => ¬ stays e r) (rows_of (filter (rewritten cs e) (concat mans))))))%Z
          ∧ reads σ' hid None rows ∧ rows ≡ₚ remaining cs e mans
      else result σ hid (run_delete E fo e) = Some (Ok JSkipped) ∧ y_world σ' = y_world σ
    else result σ hid (run_delete E fo e) = Some (Ok JFailed) ∧ y_world σ' = y_world σ.
Proof. exact delete_decides. Qed.
Print Assumptions C06_outcomes_partial.

(** Two manifests: keys 1 and 2, the latter with a null value; keys 5, 6 and 7 in
    two files.  Rows with value "a" or "c" are deleted. *)
Definition C06_calls : list call :=
  [ex_create; ex_add [ex_row 1 "a" "A"; [("k", CVal (SNum 2)); ("v", CNull); ("r", CVal (SStr "B"))]];
   CRun 0 ex_env ex_split (OAppend [[ex_row 5 "c" "C"; ex_row 6 "d" "D"]; [ex_row 7 "e" "E"]])].
Definition C06_filter : filter_expr := EBin FnOr (ex_cmp OpEq "v" (SStr "a")) (ex_cmp OpEq "v" (SStr "c")).
Example C06_case_exact : ∃ σ h s m st before fset rows,
  reachable σ ∧ y_handles σ !! 0 = Some h ∧ schema_at σ 0 = Some s
  ∧ stored_meta (w_fs (y_world σ)) = Some m ∧ is_branch m (h_branch h) ∧ plain_keys s ∧ records_last s
  ∧ reads σ 0 None before ∧ proper_keys (s_pks s) before ∧ ignores (s_recs s) C06_filter
  ∧ result σ 0 (candidates C06_filter) = Some (Ok fset) ∧ length (fset_files fset) = 3
  ∧ result σ 0 (run_delete ex_env ex_opts C06_filter) = Some (Ok (JSucceeded st)) ∧ st_rows st = (-3)%Z
  ∧ reads (after σ 0 (run_delete ex_env ex_opts C06_filter)) 0 None rows ∧ length before = 5 ∧ length rows = 2.
Proof.
  assert (reachable (ex_calls C06_calls)) by (apply reach; calls).
  assert (reachable (after (ex_calls C06_calls) 0 (run_delete ex_env ex_opts C06_filter))).
  { apply (reach (C06_calls ++ [CRun 0 ex_env ex_opts (ODelete C06_filter)])). calls. }
  exists (ex_calls C06_calls). do 7 eexists.
  split_and!; [done|computed|computed|computed|by left|apply plain_keys_tested; computed|computed
    |by reads_by_computing|proper|apply ignores_tested; computed|computed|computed|computed|computed
    |by reads_by_computing|done|done].
Qed.

(** Two files in one manifest, keys 1, 2 and keys 3, 4, 5: deleting the first
    file's rows deletes the second file as well. *)
Theorem C06_refuted_loss : ∃ σ s e st before,
  reachable σ ∧ schema_at σ 0 = Some s ∧ reads σ 0 None before
  ∧ safe_filter s e ∧ no_nan_keys (s_pks s) before ∧ decided e before
  ∧ result σ 0 (run_delete ex_env ex_opts e) = Some (Ok (JSucceeded st))
  ∧ length (filter (fun r => matches e r = false) before) = 3
  ∧ reads (after σ 0 (run_delete ex_env ex_opts e)) 0 None [].
Proof.
  set (σ := ex_calls [ex_create; ex_two_files]).
  set (e := ex_cmp OpLe "k" (SNum 2)).
  assert (reachable σ) by (apply reach; calls).
  assert (reachable (after σ 0 (run_delete ex_env ex_opts e))).
  { apply (reach [ex_create; ex_two_files; CRun 0 ex_env ex_opts (ODelete e)]). calls. }
  exists σ. eexists _, e, _, (concat ex_rows).
  split_and!; [done|computed|by reads_by_computing|safe|apply proper_no_nan; proper|apply decided_tested; computed|computed
    |done|by reads_by_computing].
Qed.
Print Assumptions C06_refuted_loss.
