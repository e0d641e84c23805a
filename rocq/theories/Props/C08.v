(** C08: insert fails iff a key already exists. *)
From Verif.Spec Require Import Api Fixture Keys Typed Serial.
From Verif.Proofs Require Import Succeeds Witness.

(** Missing from the full claim: keys after nested or record fields
    ([plain_keys], see the refutation below), record fields before others
    ([records_last], such datasets cannot be written, see C45), NaN in a key
    ([proper_keys]), and rows that do not fit the schema. *)
Theorem C08_insert_outcomes_partial : ∀ σ hid h s m E fo data before,
  reachable σ → y_handles σ !! hid = Some h → schema_at σ hid = Some s →
  stored_meta (w_fs (y_world σ)) = Some m → is_branch m (h_branch h) →
  plain_keys s → records_last s → data ≠ [] →
  Forall (typed_row s) data → proper_keys (s_pks s) data →
  reads σ hid None before → proper_keys (s_pks s) before →
  let σ' := after σ hid (run_insert E fo MInsert data) in
  (unique_keys (s_pks s) data ∧ (∀ y d, y ∈ before → d ∈ data → key_of (s_pks s) y ≠ key_of (s_pks s) d)
   ∧ (∃ st, result σ hid (run_insert E fo MInsert data) = Some (Ok (JSucceeded st)) ∧ st_rows st = Z.of_nat (length data))
   ∧ reads σ' hid None (before ++ (show s <$> data)))
  ∨ ((¬ unique_keys (s_pks s) data ∨ ∃ y d, y ∈ before ∧ d ∈ data ∧ key_of (s_pks s) y = key_of (s_pks s) d)
     ∧ result σ hid (run_insert E fo MInsert data) = Some (Ok JFailed)
     ∧ stored_meta (w_fs (y_world σ')) = stored_meta (w_fs (y_world σ))
     ∧ ∀ hid' v E' b, result σ' hid' (run_read_all E' None None v false b) = result σ hid' (run_read_all E' None None v false b)).
Proof. exact insert_outcomes. Qed.
Print Assumptions C08_insert_outcomes_partial.

(** Both outcomes happen. *)
Example C08_case : ∃ σ h s m data data' before,
  reachable σ ∧ y_handles σ !! 0 = Some h ∧ schema_at σ 0 = Some s
  ∧ stored_meta (w_fs (y_world σ)) = Some m ∧ is_branch m (h_branch h)
  ∧ plain_keys s ∧ records_last s ∧ data ≠ [] ∧ data' ≠ []
  ∧ Forall (typed_row s) data ∧ proper_keys (s_pks s) data ∧ Forall (typed_row s) data' ∧ proper_keys (s_pks s) data'
  ∧ reads σ 0 None before ∧ proper_keys (s_pks s) before
  ∧ (∃ st, result σ 0 (run_insert ex_env ex_opts MInsert data) = Some (Ok (JSucceeded st)))
  ∧ result σ 0 (run_insert ex_env ex_opts MInsert data') = Some (Ok JFailed).
Proof.
  exists (ex_calls [ex_create; ex_append]). do 3 eexists.
  exists [ex_row 6 "f" "F"; ex_row 7 "g" "G"], [ex_row 6 "f" "F"; ex_row 4 "d" "D"], (concat ex_rows).
  assert (reachable (ex_calls [ex_create; ex_append])) by (apply reach; calls).
  split_and!; [done|computed|computed|computed|by left|apply plain_keys_tested; computed|computed|done|done
    |typed|proper|typed|proper|by reads_by_computing|proper|eexists; computed|computed].
Qed.

(** With a struct before the key, one of whose fields is called like the key, an
    insert of a key that is present succeeds. *)
Theorem C08_refuted : ∃ σ s before data st,
  reachable σ ∧ schema_at σ 0 = Some s ∧ reads σ 0 None before
  ∧ Forall (typed_row s) data ∧ proper_keys (s_pks s) data ∧ proper_keys (s_pks s) before
  ∧ (∃ y d, y ∈ before ∧ d ∈ data ∧ key_of (s_pks s) y = key_of (s_pks s) d)
  ∧ result σ 0 (run_insert ex_env ex_large MInsert data) = Some (Ok (JSucceeded st)).
Proof.
  exists (ex_calls [ex_nested; ex_add [ex_nested_row 1 2 3]]). eexists.
  exists [ex_nested_row 1 2 3], [ex_nested_row 5 6 3]. eexists.
  assert (reachable (ex_calls [ex_nested; ex_add [ex_nested_row 1 2 3]])) by (apply reach; calls).
  split_and!; [done|computed|by reads_by_computing|typed|proper|proper| |computed].
  do 2 eexists. split_and!; [by left|by left|computed].
Qed.
Print Assumptions C08_refuted.
