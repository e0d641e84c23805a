(** C57: distributed insert and upsert. *)
From Verif.Model Require Import RayOps.
From Verif.Spec Require Import Api Fixture Keys Layout Typed Serial.
From Verif.Proofs Require Import RayInsert RayOutcomes RayUpsertOutcome Witness.

(** Missing from the full claim: what C08 is missing for the local insert. *)
Theorem C57_insert_outcomes_partial : ∀ σ hid h s m E fo n data before,
  reachable σ → y_handles σ !! hid = Some h → schema_at σ hid = Some s →
  stored_meta (w_fs (y_world σ)) = Some m → is_branch m (h_branch h) →
  plain_keys s → records_last s → data ≠ [] → 1 ≤ n →
  Forall (typed_row s) data → proper_keys (s_pks s) data →
  reads σ hid None before → proper_keys (s_pks s) before →
  let σ' := after σ hid (run_ray_insert E fo n MInsert data) in
  (unique_keys (s_pks s) data ∧ (∀ y d, y ∈ before → d ∈ data → key_of (s_pks s) y ≠ key_of (s_pks s) d)
   ∧ (∃ st, result σ hid (run_ray_insert E fo n MInsert data) = Some (Ok (JSucceeded st)) ∧ st_rows st = Z.of_nat (length data))
   ∧ ∃ written, written ≡ₚ data ∧ reads σ' hid None (before ++ (show s <$> written)))
  ∨ ((¬ unique_keys (s_pks s) data ∨ ∃ y d, y ∈ before ∧ d ∈ data ∧ key_of (s_pks s) y = key_of (s_pks s) d)
     ∧ result σ hid (run_ray_insert E fo n MInsert data) = Some (Ok JFailed)
     ∧ stored_meta (w_fs (y_world σ')) = stored_meta (w_fs (y_world σ))
     ∧ ∀ hid' v E' b, result σ' hid' (run_read_all E' None None v false b) = result σ hid' (run_read_all E' None None v false b)).
Proof. exact ray_insert_outcomes. Qed.
Print Assumptions C57_insert_outcomes_partial.

(** Both outcomes happen, with rows for each of two workers and keys to check in
    two files. *)
Example C57_case : ∃ σ h s m data data' before rows,
  reachable σ ∧ y_handles σ !! 0 = Some h ∧ schema_at σ 0 = Some s
  ∧ stored_meta (w_fs (y_world σ)) = Some m ∧ is_branch m (h_branch h)
  ∧ plain_keys s ∧ records_last s ∧ data ≠ [] ∧ data' ≠ []
  ∧ Forall (typed_row s) data ∧ proper_keys (s_pks s) data ∧ Forall (typed_row s) data' ∧ proper_keys (s_pks s) data'
  ∧ reads σ 0 None before ∧ proper_keys (s_pks s) before
  ∧ (∃ st, result σ 0 (run_ray_insert ex_env ex_opts 2 MInsert data) = Some (Ok (JSucceeded st)))
  ∧ result (after σ 0 (run_ray_insert ex_env ex_opts 2 MInsert data)) 0 (run_read_all ex_env None None None false None) = Some (Ok rows)
  ∧ key_of ["k"] <$> rows = (fun z => [Some (SNum z)]) <$> [1; 2; 3; 4; 5; 0; 6; 9]%Z
  ∧ result σ 0 (run_ray_insert ex_env ex_opts 2 MInsert data') = Some (Ok JFailed).
Proof.
  exists (ex_calls [ex_create; ex_two_files]). do 3 eexists.
  exists [ex_row 0 "f" "F"; ex_row 9 "g" "G"; ex_row 6 "h" "H"], [ex_row 6 "f" "F"; ex_row 4 "d" "D"], (concat ex_rows). eexists.
  assert (reachable (ex_calls [ex_create; ex_two_files])) by (apply reach; calls).
  split_and!; [done|computed|computed|computed|by left|apply plain_keys_tested; computed|computed|done|done
    |typed|proper|typed|proper|by reads_by_computing|proper|eexists; computed|computed|done|computed].
Qed.

(** Missing from the full claim: what C09 is missing for the local upsert. *)
Theorem C57_upsert_replaces_partial : ∀ σ hid s E fo n data st before,
  reachable σ → schema_at σ hid = Some s → plain_keys s → reads σ hid None before → 1 ≤ n →
  proper_keys (s_pks s) before → key_nonnull (s_pks s) data →
  result σ hid (run_ray_insert E fo n MUpsert data) = Some (Ok (JSucceeded st)) →
  unique_keys (s_pks s) data
  ∧ ∃ kept lost written, written ≡ₚ data
    ∧ reads (after σ hid (run_ray_insert E fo n MUpsert data)) hid None (kept ++ (show s <$> written))
    ∧ filter (fun y => key_of (s_pks s) y ∉ key_of (s_pks s) <$> data) before ≡ₚ kept ++ lost
    ∧ (lost = [] ↔ lossless (layout σ hid) (fun r => key_of (s_pks s) r ∈ key_of (s_pks s) <$> data)).
Proof. exact ray_upsert_shows. Qed.
Print Assumptions C57_upsert_replaces_partial.

Example C57_upsert_case : ∃ σ s data st before rows,
  reachable σ ∧ schema_at σ 0 = Some s ∧ plain_keys s ∧ reads σ 0 None before
  ∧ proper_keys (s_pks s) before ∧ key_nonnull (s_pks s) data
  ∧ result σ 0 (run_ray_insert ex_env ex_opts 2 MUpsert data) = Some (Ok (JSucceeded st))
  ∧ result (after σ 0 (run_ray_insert ex_env ex_opts 2 MUpsert data)) 0 (run_read_all ex_env None None None false None) = Some (Ok rows)
  ∧ key_of ["k"] <$> rows = (fun z => [Some (SNum z)]) <$> [1; 3; 4; 5; 2; 7]%Z.
Proof.
  set (data := [ex_row 2 "x" "X"; ex_row 7 "y" "Y"]).
  assert (reachable (ex_calls [ex_create; ex_append])) by (apply reach; calls).
  exists (ex_calls [ex_create; ex_append]). eexists _, data, _, (concat ex_rows), _.
  split_and!; [done|computed|apply plain_keys_tested; computed|by reads_by_computing|proper
    |apply proper_nonnull; proper|computed|computed|done].
Qed.

(** Which distributed upserts succeed, what they report and what they leave.
    Missing from the full claim: what [C09_upsert_outcomes_partial] is missing. *)
Theorem C57_upsert_outcomes_partial : ∀ σ hid h s m E fo n data before,
  reachable σ → y_handles σ !! hid = Some h → schema_at σ hid = Some s →
  stored_meta (w_fs (y_world σ)) = Some m → is_branch m (h_branch h) →
  plain_keys s → records_last s → data ≠ [] → 1 ≤ n →
  Forall (typed_row s) data → proper_keys (s_pks s) data →
  reads σ hid None before → proper_keys (s_pks s) before → w_fs (y_world σ) !! PExt "" = None →
  let σ' := after σ hid (run_ray_insert E fo n MUpsert data) in
  (unique_keys (s_pks s) data
   ∧ ∃ st kept lost written, result σ hid (run_ray_insert E fo n MUpsert data) = Some (Ok (JSucceeded st))
     ∧ st_rows st = (Z.of_nat (length data)
         - Z.of_nat (length (filter (fun y => key_of (s_pks s) y ∈ key_of (s_pks s) <$> data) before)))%Z
     ∧ written ≡ₚ data ∧ reads σ' hid None (kept ++ (show s <$> written))
     ∧ filter (fun y => key_of (s_pks s) y ∉ key_of (s_pks s) <$> data) before ≡ₚ kept ++ lost
     ∧ (lost = [] ↔ lossless (layout σ hid) (fun r => key_of (s_pks s) r ∈ key_of (s_pks s) <$> data)))
  ∨ (¬ unique_keys (s_pks s) data ∧ result σ hid (run_ray_insert E fo n MUpsert data) = Some (Ok JFailed)
     ∧ stored_meta (w_fs (y_world σ')) = stored_meta (w_fs (y_world σ))
     ∧ ∀ hid' v E' b, result σ' hid' (run_read_all E' None None v false b) = result σ hid' (run_read_all E' None None v false b)).
Proof. exact ray_upsert_outcomes. Qed.
Print Assumptions C57_upsert_outcomes_partial.

(** Both outcomes happen; the successful upsert replaces one row of five and adds another. *)
Example C57_case_outcomes : ∃ σ h s m data data' before st,
  reachable σ ∧ y_handles σ !! 0 = Some h ∧ schema_at σ 0 = Some s
  ∧ stored_meta (w_fs (y_world σ)) = Some m ∧ is_branch m (h_branch h)
  ∧ plain_keys s ∧ records_last s ∧ data ≠ [] ∧ data' ≠ []
  ∧ Forall (typed_row s) data ∧ proper_keys (s_pks s) data ∧ Forall (typed_row s) data' ∧ proper_keys (s_pks s) data'
  ∧ reads σ 0 None before ∧ proper_keys (s_pks s) before ∧ w_fs (y_world σ) !! PExt "" = None
  ∧ result σ 0 (run_ray_insert ex_env ex_opts 2 MUpsert data) = Some (Ok (JSucceeded st)) ∧ st_rows st = 1%Z
  ∧ result σ 0 (run_ray_insert ex_env ex_opts 2 MUpsert data') = Some (Ok JFailed).
Proof.
  exists (ex_calls [ex_create; ex_append]). do 3 eexists.
  exists [ex_row 2 "f" "F"; ex_row 7 "g" "G"], [ex_row 7 "f" "F"; ex_row 7 "d" "D"], (concat ex_rows). eexists.
  assert (reachable (ex_calls [ex_create; ex_append])) by (apply reach; calls).
  split_and!; [done|computed|computed|computed|by left|apply plain_keys_tested; computed|computed|done|done
    |typed|proper|typed|proper|by reads_by_computing|proper|computed|computed|computed|computed].
Qed.
