(** The paths of the files a storage creates. *)
From Verif.Model Require Export Values Paths.

(** A UUID as uuid.uuid4() prints it, as far as paths depend on it: 36
    characters, none of which is a slash (core/utils/uuids.py:20-22). *)
Definition uuid_like (u : string) : Prop := String.length u = 36 ∧ slash ∉ String.list_ascii_of_string u.

(** The path at which a file of kind [k] with UUID [u] is created in a storage
    at [location].  Temporary files are not covered. *)
Definition created_path (location : string) (k : pkind) (u : string) : option string :=
  match k with
  | KMeta => Some (new_metadata_path (metadata_dir location) u)
  | KChange => Some (new_change_log_path (change_dir location) u)
  | KIndex => Some (new_index_file_path (data_dir location) u)
  | KRecord f => Some (new_record_file_path (data_dir location) f u)
  | KIdxMan => Some (new_index_manifest_path (metadata_dir location) u)
  | KRecMan => Some (new_record_manifest_path (metadata_dir location) u)
  | KTmp => None
  end.
