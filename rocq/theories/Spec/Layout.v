(** How the rows of the current version are laid out in files: the stored
    metadata, the head snapshot of the handle's branch, its manifests, and the
    tables of the index files each manifest lists. *)
From Verif.Spec Require Export Api.

Definition stored_meta (fs : fsys) : option metadata :=
  match fs !! PEntry with
  | Some (FEntry p) => match fs !! p with Some (FMeta m) => Some m | _ => None end
  | _ => None
  end.
Definition head_id (m : metadata) (branch : string) : option Z :=
  if decide (branch = MAIN) then Some (md_current m) else rf_id <$> md_refs m !! branch.
Definition head_snapshot (m : metadata) (branch : string) : option snapshot :=
  i ← head_id m branch; md_snaps m !! i.
(** The snapshot a default read of handle [hid] shows. *)
Definition current (σ : sys) (hid : nat) : option snapshot :=
  h ← y_handles σ !! hid;
  m ← stored_meta (w_fs (y_world σ));
  head_snapshot m (h_branch h).
Definition manifest_rows (fs : fsys) (p : path) : list mrow :=
  match fs !! p with Some (FIdxMan ms) => ms | _ => [] end.
Definition file_table (fs : fsys) (p : path) : list row :=
  match fs !! p with Some (FIndex _ groups) => concat groups | _ => [] end.
Definition layout (σ : sys) (hid : nat) : list (list (list row)) :=
  match current σ hid with
  | Some sn => (fun q => (fun m => file_table (w_fs (y_world σ)) (mr_path m))
                          <$> manifest_rows (w_fs (y_world σ)) q) <$> sn_idx sn
  | None => []
  end.

(** Replacing the rows on which [P] holds loses no other row: either some file
    keeps a row next to a replaced one, or no manifest mixes files with and
    without replaced rows (empty files aside). *)
Definition lossless (lay : list (list (list row))) (P : row → Prop) : Prop :=
  (∃ man t r r', man ∈ lay ∧ t ∈ man ∧ r ∈ t ∧ r' ∈ t ∧ P r ∧ ¬ P r')
  ∨ (∀ man t t' r r', man ∈ lay → t ∈ man → t' ∈ man → r ∈ t → P r → r' ∈ t' → ∃ r'', r'' ∈ t' ∧ P r'').

(** The minimum and maximum a manifest row records for the field with ID [i]. *)
Definition recorded (m : mrow) (i : Z) : option scalar * option scalar :=
  match list_find (fun s => s.1 = i) (mr_stats m) with Some (_, s) => s.2 | None => (None, None) end.
