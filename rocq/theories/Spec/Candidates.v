(** The files a delete looks at: what Storage.data_files(filter) returns after
    synchronising (core/runners.py:342-346, core/storage.py:437-442). *)
From Verif.Spec Require Export Api Pruning Layout.

Definition candidates (e : filter_expr) : H file_set :=
  let! _ := reload in data_files (Some e) None.
(** The statistics leave at least one file, and none of the files they leave is
    empty. *)
Definition some_candidates (fset : file_set) : bool :=
  negb (bool_decide (fset_files fset = []))
  && forallb (fun f => negb (st_rows (df_stats f) =? 0)%Z && negb (bool_decide (df_path f = PExt ""))) (fset_files fset).
