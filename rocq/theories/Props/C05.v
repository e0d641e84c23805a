(** C05: manifest statistics bound the data. *)
From Verif.Spec Require Import Api Fixture Layout Pruning.
From Verif.Proofs Require Import Recorded Witness.

(** Missing from the full claim: keys that come after a nested or record field
    ([plain_before]); the next theorem shows it fails for one of them. *)
Theorem C05_stats_bound_keys_partial : ∀ σ hid s m i sn q r f,
  reachable σ → schema_at σ hid = Some s → stored_meta (w_fs (y_world σ)) = Some m →
  md_snaps m !! i = Some sn → q ∈ sn_idx sn → r ∈ manifest_rows (w_fs (y_world σ)) q →
  f ∈ s_fields s → f_name f ∈ s_pks s → plain_before s (f_name f) →
  ∃ cols groups, w_fs (y_world σ) !! mr_path r = Some (FIndex cols groups)
    ∧ mr_rows r = Z.of_nat (length (concat groups))
    ∧ bounds (recorded r (field_id f)).1 (recorded r (field_id f)).2 (column_values (f_name f) (concat groups)).
Proof. exact recorded_bounds. Qed.
Print Assumptions C05_stats_bound_keys_partial.

(** Five rows in two row groups: the bounds recorded for the key are 1 and 5. *)
Example C05_case : ∃ σ s m sn q r f cols groups,
  reachable σ ∧ schema_at σ 0 = Some s ∧ stored_meta (w_fs (y_world σ)) = Some m
  ∧ md_snaps m !! 1%Z = Some sn ∧ q ∈ sn_idx sn ∧ r ∈ manifest_rows (w_fs (y_world σ)) q
  ∧ f ∈ s_fields s ∧ f_name f ∈ s_pks s ∧ plain_before s (f_name f)
  ∧ w_fs (y_world σ) !! mr_path r = Some (FIndex cols groups) ∧ length groups = 2
  ∧ recorded r (field_id f) = (Some (SNum 1), Some (SNum 5)).
Proof.
  exists (ex_calls [ex_create; ex_add (concat ex_rows)]). do 8 eexists.
  split_and!; [apply reach; calls|computed|computed|computed|apply elem_of_list_here|vm_compute; apply elem_of_list_here|by left|by left
    |apply plain_tested; computed|computed|done|computed].
Qed.

(** With a struct of two fields before the key, the statistics of the struct's
    second field are recorded for the key (core/manifests/index.py:191-235 takes
    the field id for the index of the Parquet column). *)
Theorem C05_refuted : ∃ σ s m sn q r f cols groups,
  reachable σ ∧ schema_at σ 0 = Some s ∧ stored_meta (w_fs (y_world σ)) = Some m
  ∧ md_snaps m !! 1%Z = Some sn ∧ q ∈ sn_idx sn ∧ r ∈ manifest_rows (w_fs (y_world σ)) q
  ∧ f ∈ s_fields s ∧ f_name f ∈ s_pks s
  ∧ w_fs (y_world σ) !! mr_path r = Some (FIndex cols groups)
  ∧ column_values (f_name f) (concat groups) = [SNum 3]
  ∧ recorded r (field_id f) = (Some (SNum 2), Some (SNum 2)).
Proof.
  exists (ex_calls [ex_nested; ex_add [ex_nested_row 1 2 3]]). do 8 eexists.
  split_and!; [apply reach; calls|computed|computed|computed|apply elem_of_list_here|vm_compute; apply elem_of_list_here
    |vm_compute; right; apply elem_of_list_here|by left|computed|done|computed].
Qed.
Print Assumptions C05_refuted.
