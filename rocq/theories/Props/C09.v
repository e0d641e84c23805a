(** C09: upsert replaces by primary key. *)
From Verif.Spec Require Import Api Fixture Keys Typed Serial Layout.
From Verif.Proofs Require Import Adds Succeeds UpsertOutcome Witness.

(** Missing from the full claim: [lost] should be empty always; it is empty
    exactly for layouts that are [lossless] for the replaced rows (the defect of
    C06, shown below).  Keys must come before nested and record fields
    ([plain_keys], see C05), and no stored key may be null or NaN. *)
Theorem C09_upsert_replaces_partial : ∀ σ hid s E fo data st before,
  reachable σ → schema_at σ hid = Some s → plain_keys s → reads σ hid None before →
  proper_keys (s_pks s) before → key_nonnull (s_pks s) data →
  result σ hid (run_insert E fo MUpsert data) = Some (Ok (JSucceeded st)) →
  ∃ kept lost, reads (after σ hid (run_insert E fo MUpsert data)) hid None (kept ++ (show s <$> data))
    ∧ filter (fun y => key_of (s_pks s) y ∉ key_of (s_pks s) <$> data) before ≡ₚ kept ++ lost
    ∧ (lost = [] ↔ lossless (layout σ hid) (fun r => key_of (s_pks s) r ∈ key_of (s_pks s) <$> data)).
Proof. exact upsert_shows. Qed.
Print Assumptions C09_upsert_replaces_partial.

Example C09_case : ∃ σ s data st before rows,
  reachable σ ∧ schema_at σ 0 = Some s ∧ plain_keys s ∧ reads σ 0 None before
  ∧ proper_keys (s_pks s) before ∧ key_nonnull (s_pks s) data
  ∧ result σ 0 (run_insert ex_env ex_opts MUpsert data) = Some (Ok (JSucceeded st))
  ∧ reads (after σ 0 (run_insert ex_env ex_opts MUpsert data)) 0 None rows
  ∧ key_of ["k"] <$> rows = (fun z => [Some (SNum z)]) <$> [1; 3; 4; 5; 2; 7]%Z.
Proof.
  set (cs := [ex_create; ex_append]).
  set (data := [ex_row 2 "x" "X"; ex_row 7 "y" "Y"]).
  assert (reachable (ex_calls cs)) by (apply reach; calls).
  assert (reachable (after (ex_calls cs) 0 (run_insert ex_env ex_opts MUpsert data))).
  { apply (reach (cs ++ [CRun 0 ex_env ex_opts (OInsert MUpsert data)])). calls. }
  exists (ex_calls cs). eexists _, data, _, (concat ex_rows), _.
  split_and!; [done|computed|apply plain_keys_tested; computed|by reads_by_computing|proper
    |apply proper_nonnull; proper|computed|by reads_by_computing|done].
Qed.

(** Upserting keys 1 and 2, all of the first of two files, loses keys 3, 4, 5. *)
Theorem C09_refuted_loss : ∃ σ s data st before,
  reachable σ ∧ schema_at σ 0 = Some s ∧ plain_keys s ∧ reads σ 0 None before
  ∧ proper_keys (s_pks s) before ∧ proper_keys (s_pks s) data ∧ unique_keys (s_pks s) data
  ∧ result σ 0 (run_insert ex_env ex_opts MUpsert data) = Some (Ok (JSucceeded st))
  ∧ length (filter (fun y => key_of (s_pks s) y ∉ key_of (s_pks s) <$> data) before) = 3
  ∧ reads (after σ 0 (run_insert ex_env ex_opts MUpsert data)) 0 None data.
Proof.
  set (cs := [ex_create; ex_two_files]).
  set (data := [ex_row 1 "x" "X"; ex_row 2 "y" "Y"]).
  assert (reachable (ex_calls cs)) by (apply reach; calls).
  assert (reachable (after (ex_calls cs) 0 (run_insert ex_env ex_opts MUpsert data))).
  { apply (reach (cs ++ [CRun 0 ex_env ex_opts (OInsert MUpsert data)])). calls. }
  exists (ex_calls cs). eexists _, data, _, (concat ex_rows).
  split_and!; [done|computed|apply plain_keys_tested; computed|by reads_by_computing|proper|proper
    |by apply (bool_decide_unpack _)|computed|done|by reads_by_computing].
Qed.
Print Assumptions C09_refuted_loss.

(** Which upserts succeed, how many rows they report, and that those that fail
    change nothing.  Missing from the full claim: as above, and rows that do not
    fit the schema, schemas that cannot be written ([records_last], C45), and
    datasets into which a file with an empty path was loaded (upserts of its keys
    fail, like deletes, C06). *)
Theorem C09_upsert_outcomes_partial : ∀ σ hid h s m E fo data before,
  reachable σ → y_handles σ !! hid = Some h → schema_at σ hid = Some s →
  stored_meta (w_fs (y_world σ)) = Some m → is_branch m (h_branch h) →
  plain_keys s → records_last s → data ≠ [] →
  Forall (typed_row s) data → proper_keys (s_pks s) data →
  reads σ hid None before → proper_keys (s_pks s) before → w_fs (y_world σ) !! PExt "" = None →
  let σ' := after σ hid (run_insert E fo MUpsert data) in
  (unique_keys (s_pks s) data
   ∧ ∃ st kept lost, result σ hid (run_insert E fo MUpsert data) = Some (Ok (JSucceeded st))
     ∧ st_rows st = (Z.of_nat (length data)
         - Z.of_nat (length (filter (fun y => key_of (s_pks s) y ∈ key_of (s_pks s) <$> data) before)))%Z
     ∧ reads σ' hid None (kept ++ (show s <$> data))
     ∧ filter (fun y => key_of (s_pks s) y ∉ key_of (s_pks s) <$> data) before ≡ₚ kept ++ lost
     ∧ (lost = [] ↔ lossless (layout σ hid) (fun r => key_of (s_pks s) r ∈ key_of (s_pks s) <$> data)))
  ∨ (¬ unique_keys (s_pks s) data ∧ result σ hid (run_insert E fo MUpsert data) = Some (Ok JFailed)
     ∧ stored_meta (w_fs (y_world σ')) = stored_meta (w_fs (y_world σ))
     ∧ ∀ hid' v E' b, result σ' hid' (run_read_all E' None None v false b) = result σ hid' (run_read_all E' None None v false b)).
Proof. exact upsert_outcomes. Qed.
Print Assumptions C09_upsert_outcomes_partial.

(** Both outcomes happen; the successful upsert replaces one row of five and adds another. *)
Example C09_case_outcomes : ∃ σ h s m data data' before st,
  reachable σ ∧ y_handles σ !! 0 = Some h ∧ schema_at σ 0 = Some s
  ∧ stored_meta (w_fs (y_world σ)) = Some m ∧ is_branch m (h_branch h)
  ∧ plain_keys s ∧ records_last s ∧ data ≠ [] ∧ data' ≠ []
  ∧ Forall (typed_row s) data ∧ proper_keys (s_pks s) data ∧ Forall (typed_row s) data' ∧ proper_keys (s_pks s) data'
  ∧ reads σ 0 None before ∧ proper_keys (s_pks s) before ∧ w_fs (y_world σ) !! PExt "" = None
  ∧ result σ 0 (run_insert ex_env ex_opts MUpsert data) = Some (Ok (JSucceeded st)) ∧ st_rows st = 1%Z
  ∧ result σ 0 (run_insert ex_env ex_opts MUpsert data') = Some (Ok JFailed).
Proof.
  exists (ex_calls [ex_create; ex_append]). do 3 eexists.
  exists [ex_row 2 "f" "F"; ex_row 7 "g" "G"], [ex_row 7 "f" "F"; ex_row 7 "d" "D"], (concat ex_rows). eexists.
  assert (reachable (ex_calls [ex_create; ex_append])) by (apply reach; calls).
  split_and!; [done|computed|computed|computed|by left|apply plain_keys_tested; computed|computed|done|done
    |typed|proper|typed|proper|by reads_by_computing|proper|computed|computed|computed|computed].
Qed.
