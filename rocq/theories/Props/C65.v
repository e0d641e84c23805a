(** C65: index_files lists the files of a version. *)
From Verif.Spec Require Import Api Fixture Layout Versions.
From Verif.Proofs Require Import IndexFiles Witness.

(** On a handle that knows the newest metadata, index_files(version) lists index
    files that exist, and their tables, one after the other, are the rows that a
    read of this version by reference returns. *)
Theorem C65_files_partial : ∀ σ hid s v E b rows,
  reachable σ → schema_at σ hid = Some s → h_meta <$> y_handles σ !! hid = stored_meta (w_fs (y_world σ)) →
  result σ hid (run_read_all E None None v true b) = Some (Ok rows) →
  ∃ ps, result σ hid (run_index_files v) = Some (Ok ps)
  ∧ columns (names_of (s_fields s)) <$> (ps ≫= file_table (w_fs (y_world σ))) = rows
  ∧ ∀ p, p ∈ ps → ∃ cols groups, w_fs (y_world σ) !! p = Some (FIndex cols groups).
Proof. exact index_files_exact. Qed.
Print Assumptions C65_files_partial.

(** It raises exactly what a read raises.  (Missing: handles that do not know the
    newest metadata, for which the claim fails.) *)
Theorem C65_error_partial : ∀ σ hid s v E b e,
  reachable σ → schema_at σ hid = Some s → h_meta <$> y_handles σ !! hid = stored_meta (w_fs (y_world σ)) →
  result σ hid (run_read_all E None None v true b) = Some (Err e) ↔ result σ hid (run_index_files v) = Some (Err e).
Proof. exact index_files_error. Qed.
Print Assumptions C65_error_partial.

(** Snapshot 1 has two files and a tag; snapshot 2 has one more. *)
Definition C65_state : sys :=
  ex_calls [ex_create; ex_two_files; CEdit 0 (EdAddTag "t" None); ex_add [ex_row 7 "g" "G"]].
Example C65_case : ∃ s rows rows' ps ps',
  reachable C65_state ∧ schema_at C65_state 0 = Some s ∧ h_meta <$> y_handles C65_state !! 0 = stored_meta (w_fs (y_world C65_state))
  ∧ result C65_state 0 (run_read_all ex_env None None (Some (VName "t")) true None) = Some (Ok rows)
  ∧ result C65_state 0 (run_read_all ex_env None None None true None) = Some (Ok rows')
  ∧ result C65_state 0 (run_index_files (Some (VName "t"))) = Some (Ok ps) ∧ length ps = 2
  ∧ result C65_state 0 (run_index_files None) = Some (Ok ps') ∧ length ps' = 3
  ∧ length rows' = S (length rows)
  ∧ result C65_state 0 (run_index_files (Some (VId 9))) = Some (Err (EUser UVersionNotFound)).
Proof.
  do 5 eexists. split; [apply reach; calls|]. do 9 (split; [computed|]). computed.
Qed.

(** Reads reload the metadata, index_files does not: a dataset opened before
    another writer committed lists the old files, while it reads the new rows. *)
Definition C65_stale : sys := ex_calls [ex_create; CLoad 1; ex_two_files].
Theorem C65_refuted_stale : ∃ rows,
  reachable C65_stale
  ∧ result C65_stale 1 (run_read_all ex_env None None None true None) = Some (Ok rows) ∧ rows ≠ []
  ∧ result C65_stale 1 (run_index_files None) = Some (Ok [])
  ∧ result C65_stale 1 (run_index_files (Some (VId 1))) = Some (Err (EUser UVersionNotFound)).
Proof. eexists. split; [apply reach; calls|]. split; [computed|]. split; [done|]. split; computed. Qed.
Print Assumptions C65_refuted_stale.
