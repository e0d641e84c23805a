(** File paths as strings: core/utils/paths.py and the functions of Python's
    posixpath it calls. *)
From Coq Require Import Ascii.
From Verif.Model Require Export Base.

Definition slash : Ascii.ascii := "/"%char.

Definition starts_slash (s : string) : bool :=
  match s with String c _ => bool_decide (c = slash) | EmptyString => false end.
Fixpoint ends_slash (s : string) : bool :=
  match s with
  | EmptyString => false
  | String c EmptyString => bool_decide (c = slash)
  | String _ s' => ends_slash s'
  end.

(** str.split('/'). *)
Fixpoint split (s : string) : list string :=
  match s with
  | EmptyString => [EmptyString]
  | String c s' =>
    if decide (c = slash) then EmptyString :: split s'
    else match split s' with
         | x :: xs => String c x :: xs
         | [] => [String c EmptyString]
         end
  end.
(** '/'.join(l). *)
Fixpoint unsplit (l : list string) : string :=
  match l with
  | [] => ""
  | [x] => x
  | x :: xs => x +:+ "/" +:+ unsplit xs
  end.

(** posixpath.join(a, b). *)
Definition join (a b : string) : string :=
  if starts_slash b then b
  else if bool_decide (a = EmptyString) || ends_slash a then a +:+ b
  else a +:+ "/" +:+ b.
(** posixpath.join(x, *xs). *)
Definition join_all (l : list string) : string :=
  match l with [] => "" | x :: xs => foldl join x xs end.

(** posixpath.normpath, the loop over the components. *)
Definition norm_step (initial_slashes : bool) (new_comps : list string) (comp : string) : list string :=
  if decide (comp = "" ∨ comp = ".") then new_comps
  else if decide (comp ≠ ".." ∨ (initial_slashes = false ∧ new_comps = []) ∨ last new_comps = Some "..")
  then new_comps ++ [comp]
  else take (pred (length new_comps)) new_comps.
Definition leading (s : string) : string :=
  match s with
  | String a (String b (String c _)) =>
    if decide (a = slash) then if decide (b = slash ∧ c ≠ slash) then "//" else "/" else ""
  | String a (String b EmptyString) =>
    if decide (a = slash) then if decide (b = slash) then "//" else "/" else ""
  | String a EmptyString => if decide (a = slash) then "/" else ""
  | EmptyString => ""
  end.
(** posixpath.normpath. *)
Definition normpath (p : string) : string :=
  if decide (p = "") then "."
  else
    let q := leading p +:+ unsplit (foldl (norm_step (starts_slash p)) [] (split p)) in
    if decide (q = "") then "." else q.
(** posixpath.abspath in working directory [cwd]. *)
Definition abspath (cwd p : string) : string :=
  normpath (if starts_slash p then p else join cwd p).

Fixpoint common_prefix (a b : list string) : nat :=
  match a, b with
  | x :: a', y :: b' => if decide (x = y) then S (common_prefix a' b') else 0
  | _, _ => 0
  end.
(** posixpath.relpath(p, start). *)
Definition relpath (cwd p start : string) : res string :=
  if decide (p = "") then Err (EOther "no path specified")
  else
    let start_list := filter (.≠ "") (split (abspath cwd start)) in
    let path_list := filter (.≠ "") (split (abspath cwd p)) in
    let i := common_prefix start_list path_list in
    let rel_list := replicate (length start_list - i) ".." ++ drop i path_list in
    Ok (match rel_list with [] => "." | _ => join_all rel_list end).

(** StoragePathsMixin.short_path (core/utils/paths.py:96-98). *)
Definition short_path (cwd location full : string) : res string := relpath cwd full location.
(** StoragePathsMixin.full_path (core/utils/paths.py:100-102). *)
Definition full_path (location short : string) : string := join location short.

(** core/utils/paths.py:21-25 and 50-62. *)
Definition data_dir (location : string) : string := join location "data".
Definition metadata_dir (location : string) : string := join location "metadata".
Definition change_dir (location : string) : string := join (metadata_dir location) "changes".
Definition entry_point_path (location : string) : string :=
  join (join location "metadata") "entrypoint.txtpb".
(** core/utils/paths.py:30-47, 65-67 and 104-110; [u] is the UUID drawn. *)
Definition new_index_file_path (dir u : string) : string := join dir ("index_" +:+ u +:+ ".parquet").
Definition new_record_file_path (dir field u : string) : string := join dir (field +:+ "_" +:+ u +:+ ".array_record").
Definition new_index_manifest_path (dir u : string) : string := join dir ("index_manifest_" +:+ u +:+ ".parquet").
Definition new_record_manifest_path (dir u : string) : string := join dir ("record_manifest_" +:+ u +:+ ".parquet").
Definition new_metadata_path (dir u : string) : string := join dir ("metadata_" +:+ u +:+ ".txtpb").
Definition new_change_log_path (dir u : string) : string := join dir ("change_" +:+ u +:+ ".txtpb").

(** Where the code opens an external file that a glob returned as [f]: the
    loaders store [f] in the manifest or in the record addresses unchanged
    (core/loaders/parquet.py:57-60 and core/loaders/array_record.py:88-108),
    and every reader opens [full_path] of what is stored (core/ops/read.py:100
    and 196, core/ops/delete.py:98, core/random_access.py:104 and 261). *)
Definition open_external (location f : string) : string := full_path location f.
