(** Joins of views that read record addresses: [Model/ViewJoin.v] with the tables
    flattened and folded (ray/ops/join.py:116-137, 187-211).  The fields put
    together again are the record fields of the views (187-191): those of a map
    are the ones its user declared (udfs.py:129-131). *)
From Verif.Model Require Export ViewJoin JoinFold.

Section view_join.
Context {F : Type} (map_fn : F → row → list row) (keep_fn : F → row → bool).
Context (E : env) (blocks : bool).

(** RayReadOnlyRunner.read (ray/runners.py:60-86) of a join of views, as
    [run_join_read] without filter, fields, version, batch size. *)
Definition run_view_join_flat (src : join_sources) (none_ok : bool) (part : option (range → list range)) (key : string)
    (vl vr : view F) (l r : join_input) : ST two (list row) :=
  let! _ := reload_sources src in
  join_sides_flat none_ok part key (view_schema vl) (view_schema vr) l r
    (key_range_in (v_schema vl) key) (key_range_in (v_schema vr) key)
    (side_dataset map_fn keep_fn E blocks vl l) (side_dataset map_fn keep_fn E blocks vr r).
End view_join.
