(** Reads and diffs of a materialized view: RayMaterializedViewRunner
    (ray/runners.py:135-172).  The source is on the left, the storage of the
    materialized view on the right. *)
From Verif.Model Require Export ViewDiff.

(** read (147-172): of the storage, versions are those of the storage. *)
Definition run_mv_read (E : env) (blocks : bool) (flt : option filter_expr) (fields : option (list string))
    (v : option version) (ref_read : bool) (batch : option nat) : ST two (list (list row)) :=
  on_right (run_ray_read E blocks flt fields v ref_read batch).
(** diff is inherited from RayReadOnlyRunner (88-132): it reads the changes of
    the source, versions are those of the source. *)
Definition run_mv_diff {F} (map_fn : F → row → list row) (keep_fn : F → row → bool)
    (E : env) (n : nat) (blocks : bool) (v : view F) (a b : version) (batch : option nat) : ST two (list change) :=
  on_left (run_view_diff map_fn keep_fn E n blocks v a b batch).
