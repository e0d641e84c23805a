(** C58: distributed calls that do not succeed change nothing. *)
From Verif.Model Require Import RayOps.
From Verif.Spec Require Import Api Fixture Keys Typed Serial.
From Verif.Proofs Require Import RayOutcomes Witness.

Theorem C58_append_unchanged : ∀ σ hid E fo n data r,
  reachable σ → result σ hid (run_ray_append E fo n data) = Some r → (∀ st, r ≠ Ok (JSucceeded st)) →
  let σ' := after σ hid (run_ray_append E fo n data) in
  stored_meta (w_fs (y_world σ')) = stored_meta (w_fs (y_world σ))
  ∧ ∀ hid' v E' b, result σ' hid' (run_read_all E' None None v false b) = result σ hid' (run_read_all E' None None v false b).
Proof. exact ray_append_unchanged. Qed.
Print Assumptions C58_append_unchanged.

Theorem C58_append_from_unchanged : ∀ σ hid E fo n sources r,
  reachable σ → result σ hid (run_ray_append_from E fo n sources) = Some r → (∀ st, r ≠ Ok (JSucceeded st)) →
  let σ' := after σ hid (run_ray_append_from E fo n sources) in
  stored_meta (w_fs (y_world σ')) = stored_meta (w_fs (y_world σ))
  ∧ ∀ hid' v E' b, result σ' hid' (run_read_all E' None None v false b) = result σ hid' (run_read_all E' None None v false b).
Proof. exact ray_append_from_unchanged. Qed.
Print Assumptions C58_append_from_unchanged.

Theorem C58_insert_unchanged : ∀ σ hid E fo n mode data r,
  reachable σ → result σ hid (run_ray_insert E fo n mode data) = Some r → (∀ st, r ≠ Ok (JSucceeded st)) →
  let σ' := after σ hid (run_ray_insert E fo n mode data) in
  stored_meta (w_fs (y_world σ')) = stored_meta (w_fs (y_world σ))
  ∧ ∀ hid' v E' b, result σ' hid' (run_read_all E' None None v false b) = result σ hid' (run_read_all E' None None v false b).
Proof. exact ray_insert_unchanged. Qed.
Print Assumptions C58_insert_unchanged.

Theorem C58_delete_unchanged : ∀ σ hid E fo e r,
  reachable σ → result σ hid (run_ray_delete E fo e) = Some r → (∀ st, r ≠ Ok (JSucceeded st)) →
  let σ' := after σ hid (run_ray_delete E fo e) in
  stored_meta (w_fs (y_world σ')) = stored_meta (w_fs (y_world σ))
  ∧ ∀ hid' v E' b, result σ' hid' (run_read_all E' None None v false b) = result σ hid' (run_read_all E' None None v false b).
Proof. exact ray_delete_unchanged. Qed.
Print Assumptions C58_delete_unchanged.

(** An append that fails after files of the first worker were written, a delete
    that finds nothing, and an upsert with a key twice. *)
Definition C58_bad_row : row := ex_flat_row 7 "g".
Example C58_case : ∃ σ, reachable σ
  ∧ (∃ e, result σ 0 (run_ray_append ex_env ex_opts 2 [ex_row 6 "f" "F"; C58_bad_row]) = Some (Err e))
  ∧ (w_next (y_world σ) < w_next (y_world (after σ 0 (run_ray_append ex_env ex_opts 2 [ex_row 6 "f" "F"; C58_bad_row]))))%N
  ∧ result σ 0 (run_ray_delete ex_env ex_opts (ex_cmp OpEq "k" (SNum 9))) = Some (Ok JSkipped)
  ∧ result σ 0 (run_ray_insert ex_env ex_opts 2 MUpsert [ex_row 6 "f" "F"; ex_row 6 "g" "G"]) = Some (Ok JFailed).
Proof.
  exists (ex_calls [ex_create; ex_two_files]).
  assert (reachable (ex_calls [ex_create; ex_two_files])) by (apply reach; calls).
  split_and!; [done|eexists; computed|computed|computed|computed].
Qed.

(** A distributed append of rows that fit the schema succeeds, or is skipped when
    there are none.  Missing: as for C45, key columns behind nested or record
    fields, and NaN in a key. *)
Theorem C58_append_succeeds_partial : ∀ σ hid h s m E fo n data,
  reachable σ → y_handles σ !! hid = Some h → schema_at σ hid = Some s →
  stored_meta (w_fs (y_world σ)) = Some m → is_branch m (h_branch h) →
  plain_keys s → records_last s → 1 ≤ n →
  Forall (typed_row s) data → proper_keys (s_pks s) data →
  match data with
  | [] => result σ hid (run_ray_append E fo n data) = Some (Ok JSkipped)
  | _ => ∃ st, result σ hid (run_ray_append E fo n data) = Some (Ok (JSucceeded st))
           ∧ st_rows st = Z.of_nat (length data)
  end.
Proof. exact ray_append_outcome. Qed.
Print Assumptions C58_append_succeeds_partial.

Example C58_append_case : ∃ σ h s m data,
  reachable σ ∧ y_handles σ !! 0 = Some h ∧ schema_at σ 0 = Some s
  ∧ stored_meta (w_fs (y_world σ)) = Some m ∧ is_branch m (h_branch h)
  ∧ plain_keys s ∧ records_last s ∧ Forall (typed_row s) data ∧ proper_keys (s_pks s) data ∧ length data = 3.
Proof.
  exists (ex_calls [ex_create; ex_two_files]). do 3 eexists.
  exists [ex_row 0 "f" "F"; ex_row 9 "g" "G"; ex_row 6 "h" "H"].
  assert (reachable (ex_calls [ex_create; ex_two_files])) by (apply reach; calls).
  split_and!; [done|computed|computed|computed|by left|apply plain_keys_tested; computed|computed|typed|proper|done].
Qed.
