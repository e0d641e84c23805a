(** Listing versions and files (core/storage.py:406-443, core/datasets.py:99-110). *)
From stdpp Require Import sorting.
From Verif.Model Require Export Runner.

(** A row of the table: snapshot_id, create_time, tag_or_branch. *)
Definition version_row : Type := Z * Z * option string.
(** Storage.versions (410-443): the snapshots left-outer-joined with the
    references on the snapshot ID, sorted by create_time, latest first.  The
    order of equal times, which Arrow leaves open, is that of [map_to_list].
    Times are kept in full; the code keeps seconds. *)
Definition joined (m : metadata) (i : Z) (sn : snapshot) : list version_row :=
  match filter (fun nr => rf_id nr.2 = i) (map_to_list (md_refs m)) with
  | [] => [(i, sn_time sn, None)]
  | refs => (fun nr => (i, sn_time sn, Some nr.1)) <$> refs
  end.
Definition later (a b : version_row) : Prop := (b.1.2 ≤ a.1.2)%Z.
Global Instance later_dec : RelDecision later.
Proof. intros a b. unfold later. apply _. Defined.
Definition versions (m : metadata) : list version_row :=
  merge_sort later (map_to_list (md_snaps m) ≫= fun x => joined m x.1 x.2).
(** Dataset.versions (107-109): no reload. *)
Definition run_versions : H (list version_row) := let! h := get_handle in ret (versions (h_meta h)).
(** snapshot_ids (406-408) *)
Definition snapshot_ids (m : metadata) : list Z := (map_to_list (md_snaps m)).*1.
(** Dataset.index_files (99-105): no reload either. *)
Definition run_index_files (v : option version) : H (list path) :=
  let! h := get_handle in
  let! sid := lift (match v with
                    | None => Ok None
                    | Some v => rmap Some (version_to_snapshot_id h v)
                    end) in
  let! fset := data_files None sid in
  ret (df_path <$> fset_files fset).
