(** Diffs of views: RayReadOnlyRunner.diff_ray (ray/runners.py:99-127) and diff
    (88-97). *)
From Verif.Model Require Export Refresh.

Section view_diff.
Context {F : Type} (map_fn : F → row → list row) (keep_fn : F → row → bool).
Context (E : env) (n : nat) (blocks : bool) (v : view F).

(** The loop body of diff_ray (110-127), then that of diff (92-97): iter_batches
    gives the non-empty tables.  Deletions are passed on as they are. *)
Definition view_change (c : ray_change) : res (list change) :=
  match rc_type c with
  | ChDelete => Ok (Change (rc_snap c) ChDelete <$> concat (rc_data c))
  | ChAdd =>
      let? ds := rmapM (fun ts => rmap nonempty_tables (rmapM (process map_fn keep_fn v) ts)) (rc_data c) in
      Ok (Change (rc_snap c) ChAdd <$> concat ds)
  end.
(** The generator reads a change after the one before was processed; as nothing
    is written, only the choice between two errors depends on it. *)
Definition run_view_diff (a b : version) (batch : option nat) : H (list change) :=
  let! cs := run_diff_ray E n blocks a b batch in
  let! out := lift (rmapM view_change cs) in
  ret (concat out).
End view_diff.
