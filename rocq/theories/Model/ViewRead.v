(** Reading a view through Ray: RayReadOnlyRunner.read (ray/runners.py:60-86),
    the datasets of transforms (core/transform/udfs.py:106-117, 151-155,
    188-191, core/transform/utils.py:28-43). *)
From Verif.Model Require Export Refresh.

Section view_read.
Context {F : Type} (map_fn : F → row → list row) (keep_fn : F → row → bool).
Context (E : env) (blocks : bool).

Section options.
Context (flt : option filter_expr) (sid : option Z) (ref_read : bool) (batch : option nat).

(** Storage.ray_dataset (core/storage.py:445-453): the tables of its read tasks. *)
Definition ray_dataset (fields : option (list string)) : H (list (list row)) :=
  let! h := get_handle in
  let! fset := data_files flt sid in
  liftM (read_files E (md_schema (h_meta h)) (ReadOpts flt fields sid ref_read batch)
           (read_tasks blocks batch (fset_files fset))).
(** Dataset._ray_dataset (datasets.py:127-130), BaseUdfTransform._ray_dataset
    (udfs.py:106-117) with ray_dataset (utils.py:28-43): fields go to the read
    of a dataset, and are selected from the rows of a transform. *)
Fixpoint view_dataset (v : view F) (fields : option (list string)) : H (list (list row)) :=
  match v with
  | VData _ _ _ => ray_dataset fields
  | VMap u i l =>
      match fields with
      | Some _ => raise (EUser UInput)
      | None =>
          let! ts := match i with
                     | VData _ _ _ => view_dataset i (Some l)
                     | _ => let! ts := view_dataset i None in lift (rmapM (tsel l) ts)
                     end in
          ret ((fun t => t ≫= map_fn (u_fn u)) <$> ts)
      end
  | VFilter u i l =>
      match fields with
      | Some _ => raise (EUser UInput)
      | None =>
          let! ts := match i with
                     | VData _ _ _ => view_dataset i (Some l)
                     | _ => let! ts := view_dataset i None in lift (rmapM (tsel l) ts)
                     end in
          ret ((fun t => filter (fun r => keep_fn (u_fn u) r = true) t) <$> ts)
      end
  end.
End options.

(** read (60-86) *)
Definition run_view_read (v : view F) (flt : option filter_expr) (fields : option (list string))
    (ver : option version) (ref_read : bool) (batch : option nat) : H (list (list row)) :=
  let! _ := reload in
  let! h := get_handle in
  let! sid := lift (match ver with
                    | None => Ok None
                    | Some x => rmap Some (version_to_snapshot_id h x)
                    end) in
  let! ts := view_dataset flt sid ref_read batch v fields in
  ret (nonempty_tables ts).
End view_read.
