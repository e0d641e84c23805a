(** Reading a join of two views through Ray, with the options of a read:
    RayReadOnlyRunner.read (ray/runners.py:60-86), JoinTransform._ray_dataset
    (core/transform/join.py:112-127), RayJoinOp.ray_dataset (ray/ops/join.py:67-101).
    A view is a dataset, or maps and filters over one; joins of joins raise
    (ray/ops/utils.py:37-38) and are not modelled.  The functions of a view are
    taken to return the types of its schema. *)
From Verif.Model Require Export Join ViewRead.

(** View.schema, primary_keys, record_fields (udfs.py:58-60, 125-131, 162-168). *)
Definition view_schema {F} (v : view F) : schema := Schema (v_schema v) (v_pks v) (v_recs v).

(** The sources of a join, a dictionary by location in which the right side
    overrides the left (core/transform/join.py:54-56): two locations, or one; in
    the second case both sides may be views of one Dataset object. *)
Inductive join_sources := Apart | Shared (same_object : bool).

Section view_join.
Context {F : Type} (map_fn : F → row → list row) (keep_fn : F → row → bool).
Context (E : env) (blocks : bool).

(** ray_dataset of a side (core/transform/utils.py:28-43): fields go to the read
    of a dataset, and are selected from the rows of other views. *)
Definition side_dataset (v : view F) (i : join_input) (e : filter_expr) : H (list (list row)) :=
  match v with
  | VData _ _ _ => ray_dataset E blocks (Some e) None (ji_ref i) None (ji_fields i)
  | _ =>
      let! ts := view_dataset map_fn keep_fn E blocks (Some e) None (ji_ref i) None v None in
      match ji_fields i with
      | None => ret ts
      | Some l => lift (rmapM (tsel l) ts)
      end
  end.
(** RayJoinOp.ray_dataset *)
Definition join_views (none_ok : bool) (part : option (range → list range)) (key : string)
    (vl vr : view F) (l r : join_input) : ST two (list row) :=
  join_sides none_ok part key (view_schema vl) (view_schema vr) l r
    (key_range_in (v_schema vl) key) (key_range_in (v_schema vr) key) (side_dataset vl l) (side_dataset vr r).
(** Every source is reloaded once (runners.py:76-78).  If both sides are one
    object, reloading it reloads both. *)
Definition reload_sources (src : join_sources) : ST two unit :=
  let! _ := match src with Shared false => ret true | _ => on_left reload end in
  let! _ := on_right reload in
  ret tt.
(** The version is looked up in the only source (80-81, 129-132) and not used
    afterwards. *)
Definition join_version (src : join_sources) (ver : option version) : ST two unit :=
  match ver, src with
  | None, _ => ret tt
  | Some _, Apart => raise (EUser UInput)
  | Some x, Shared _ =>
      let! h := on_right get_handle in
      let! _ := lift (version_to_snapshot_id h x) in
      ret tt
  end.
(** read (60-86): [fields] and [ref_read] raise (join.py:116-124); [flt], the
    version and [batch] are not passed on (126-127). *)
Definition run_join_read (src : join_sources) (none_ok : bool) (part : option (range → list range)) (key : string)
    (vl vr : view F) (l r : join_input) (flt : option filter_expr) (fields : option (list string))
    (ver : option version) (ref_read : bool) (batch : option nat) : ST two (list row) :=
  let! _ := reload_sources src in
  let! _ := join_version src ver in
  if bool_decide (is_Some fields) || ref_read then raise (EUser UInput)
  else join_views none_ok part key vl vr l r.
End view_join.
