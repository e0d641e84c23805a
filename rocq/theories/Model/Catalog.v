(** catalogs/directory.py: DirCatalog.  The machine holds many storages; each
    is the system of Model/System.v at the place its location leads to.  Files
    of different locations are different files. *)
From Verif.Model Require Export System.
From Verif.Spec Require Export Places.

Notation disk := (gmap (list string) sys).
Definition storage_at (D : disk) (p : list string) : sys := default init (D !! p).
(** Any call of Model/System.v on the storage at [location]. *)
Definition act (cwd : string) (D : disk) (location : string) (c : call) : disk :=
  let p := place cwd location in <[p := step (storage_at D p) c]> D.

(** _dataset_location (81-82) *)
Definition dataset_location (catalog name : string) : string := join catalog name.
(** create_dataset (42-46): Storage.create at the location.  What it does to
    the disk, and what it returns. *)
Definition create_dataset (cwd catalog name : string) (D : disk) (hid : nat) (fs : list afield) (pks recs : list string) : disk * res handle :=
  let location := dataset_location catalog name in
  (act cwd D location (CCreate hid fs pks recs),
   (create fs pks recs (y_world (storage_at D (place cwd location)))).2).
(** dataset (54-69); [CLoad] leaves the files alone.  All storages of the model
    are of type DATASET. *)
Definition dataset (cwd catalog name : string) (D : disk) : res handle :=
  match (load (y_world (storage_at D (place cwd (dataset_location catalog name))))).2 with
  | Err (EOther what) => if decide (what = "FileNotFoundError") then Err (EUser UStorageNotFound) else Err (EOther what)
  | r => r
  end.
(** os.path.isfile(paths.entry_point_path(location)); the location is then a
    directory. *)
Definition is_dataset (D : disk) (p : list string) : bool :=
  bool_decide (is_Some (w_fs (y_world (storage_at D p)) !! PEntry)).
(** datasets (71-79), given what os.listdir returns for the catalog. *)
Definition datasets (cwd catalog : string) (entries : list string) (D : disk) : list (string * string) :=
  (λ n, (n, dataset_location catalog n))
    <$> filter (λ n, is_dataset D (place cwd (dataset_location catalog n)) = true) entries.
