(** The snapshots between two versions, and replaying changes. *)
From Verif.Spec Require Export Separable Durable Keys.

(** The snapshot ID a version names. *)
Definition named (m : metadata) (v : version) : option Z :=
  match v with VId i => Some i | VName n => rf_id <$> md_refs m !! n end.
(** [l] lists the snapshots after [i] up to [j], oldest first, where [i] is a
    proper ancestor of [j]. *)
Definition path_to (m : metadata) (i j : Z) (l : list Z) : Prop :=
  ∃ above below, chain m j (above ++ i :: below) ∧ above ≠ [] ∧ l = reverse above.
Definition parent_of (m : metadata) (k : Z) : option Z := sn ← md_snaps m !! k; sn_parent sn.
(** The first error, or all results. *)
Fixpoint all_ok {A} (rs : list (res A)) : res (list A) :=
  match rs with
  | [] => Ok []
  | r :: rs => let? x := r in let? xs := all_ok rs in Ok (x :: xs)
  end.

(** Replaying changes on a table: rows whose key is deleted go, added rows
    come. *)
Definition apply_change (pks : list string) (rows : list row) (c : change) : list row :=
  match ch_type c with
  | ChDelete => filter (fun r => key_of pks r ∉ key_of pks <$> ch_data c) rows
  | ChAdd => rows ++ ch_data c
  end.
Definition apply_changes (pks : list string) (rows : list row) (cs : list change) : list row :=
  foldl (apply_change pks) rows cs.

(** The tables of the files of a snapshot, per manifest. *)
Definition tables (fs : fsys) (sn : snapshot) : list (list (list row)) :=
  (fun q => (fun m => file_table fs (mr_path m)) <$> manifest_rows fs q) <$> sn_idx sn.
(** The operation removes no row it should keep (see C04, C06). *)
Definition keeps_rows (s : schema) (lay : list (list (list row))) (rows : list row) (o : op) : Prop :=
  match o with
  | ODelete e =>
      safe_filter s e ∧ no_nan_keys (s_pks s) rows ∧ decided e rows ∧ lossless lay (fun r => matches e r = true)
  | OInsert MUpsert data =>
      plain_keys s ∧ key_nonnull (s_pks s) data ∧ proper_keys (s_pks s) rows
      ∧ lossless lay (fun r => key_of (s_pks s) r ∈ key_of (s_pks s) <$> data)
  | ORayInsert _ MUpsert data =>
      plain_keys s ∧ key_nonnull (s_pks s) data ∧ proper_keys (s_pks s) rows
      ∧ lossless lay (fun r => key_of (s_pks s) r ∈ key_of (s_pks s) <$> data)
  | ORayDelete e =>
      safe_filter s e ∧ no_nan_keys (s_pks s) rows ∧ decided e rows ∧ separable lay (fun r => matches e r = true)
  | _ => True
  end.
Definition careful_op (s : schema) (fs : fsys) (sn : snapshot) (o : op) : Prop :=
  keeps_rows s (tables fs sn) (concat (concat (tables fs sn))) o.
(** Distributed deletes work file by file: one of these is in only if that
    leaves the right rows ([separable], see C32).  All other operations are in. *)
Definition splits_well (s : schema) (lay : list (list (list row))) (rows : list row) (o : op) : Prop :=
  match o with ORayDelete _ => keeps_rows s lay rows o | _ => True end.
Definition separate_op (s : schema) (fs : fsys) (sn : snapshot) (o : op) : Prop :=
  splits_well s (tables fs sn) (concat (concat (tables fs sn))) o.
Definition any_op (_ : schema) (_ : fsys) (_ : snapshot) (_ : op) : Prop := True.
(** All operations but append_parquet. *)
Definition logged_op (_ : schema) (_ : fsys) (_ : snapshot) (o : op) : Prop :=
  match o with OParquet _ => False | _ => True end.
(** Operations that only add rows. *)
Definition adding_op (_ : schema) (_ : fsys) (_ : snapshot) (o : op) : Prop :=
  match o with ODelete _ | OInsert MUpsert _ | ORayDelete _ | ORayInsert _ MUpsert _ => False | _ => True end.
(** The byte sizes recorded for the files of a snapshot. *)
Definition files_of (fs : fsys) (sn : snapshot) : list mrow := sn_idx sn ≫= manifest_rows fs.
Definition sum_of (l : list Z) : Z := foldr Z.add 0%Z l.
(** The changed rows of a diff in order, each with its snapshot and kind. *)
Definition changed_rows (cs : list change) : list (Z * change_type * row) :=
  cs ≫= fun c => (fun r => (ch_snap c, ch_type c, r)) <$> ch_data c.
