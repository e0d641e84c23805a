(** Refreshing a materialized view: RayMaterializedViewRunner.refresh
    (ray/runners.py:174-258), and the view applied to the source's changes
    (99-127, core/transform/udfs.py:102-104). *)
From Verif.Model Require Export Views RayOps Join.

Section refresh.
Context {F : Type}.
(** What the user's functions compute.  Ray calls them on batches of its
    choice; here a map gives the output rows of each row, a filter decides on
    each row. *)
Context (map_fn : F → row → list row) (keep_fn : F → row → bool).

(** process_source (datasets.py, udfs.py:102-104) with _transform (151-155,
    188-191), on a table of the dataset. *)
Fixpoint process (v : view F) (t : list row) : res (list row) :=
  match v with
  | VData _ _ _ => Ok t
  | VMap u i fields =>
      let? a := process i t in let? b := tsel fields a in Ok (b ≫= map_fn (u_fn u))
  | VFilter u i fields =>
      let? a := process i t in let? b := tsel fields a in Ok (filter (fun r => keep_fn (u_fn u) r = true) b)
  end.

Section run.
Context (E : env) (O : fopts) (n : nat) (blocks : bool) (v : view F).

(** _process_delete (238-252), on the storage of the materialized view *)
Definition process_delete (ds : list (list (list row))) : H (option patch) :=
  match ds with
  | [ts] =>
      match ts with
      | [] => raise (EOther "ArrowInvalid: Must pass at least one table")
      | _ =>
          let! h := get_handle in
          let s := md_schema (h_meta h) in
          let! flt := lift (primary_key_filter (s_pks s) (concat ts)) in
          match flt with
          | None => ret None
          | Some e =>
              let! fset := data_files (Some e) None in
              liftM (delete_op E O s e fset)
          end
      end
  | _ => raise (EOther "AssertionError")
  end.
(** _process_append (254-258) with _append_from (318-325); iter_batches gives the
    non-empty tables. *)
Definition process_append (ds : list (list (list row))) : H (option patch) :=
  let! h := get_handle in
  let! sources := lift (rmapM (fun ts => rmap nonempty_tables (rmapM (process v) ts)) ds) in
  liftM (ray_append_op E O (md_schema (h_meta h)) n (ray_sources n sources)).
Definition process_change (c : ray_change) : H (option patch) :=
  match rc_type c with
  | ChDelete => process_delete (rc_data c)
  | ChAdd => process_append (rc_data c)
  end.

(** The state of the loop (197-236): finished with these results, or the open
    transaction, the patches, previous_snapshot_id and the results so far. *)
Inductive progress :=
| Done (jobs : list job)
| Going (x : txn) (patches : list (option patch)) (prev : option Z) (jobs : list job).

(** The try block (213-226) *)
Definition try_change (c : ray_change) (x : txn) (ps : list (option patch)) (jobs : list job) : H progress := fun hw =>
  match process_change c hw with
  | (hw', Err (EUser _)) | (hw', Err (ERuntime _)) => (hw', Ok (Done (jobs ++ [JFailed])))
  | (hw', Err e) => (hw', Err e)
  | (hw', Ok p) => (hw', Ok (Going x (ps ++ [p]) (Some (rc_snap c)) jobs))
  end.
(** One iteration (199-228) *)
Definition refresh_change (st : progress) (c : ray_change) : H progress :=
  match st with
  | Done _ => ret st
  | Going x ps prev jobs =>
      match prev with
      | Some i =>
          if (i =? rc_snap c)%Z then try_change c x ps jobs
          else
            let! j := txn_commit x (merge_patches ps) in
            match j with
            | JFailed => ret (Done (jobs ++ [j]))
            | _ => let! x' := txn_begin in try_change c x' [] (jobs ++ [j])
            end
      | None => try_change c x ps jobs
      end
  end.
(** The changes of a snapshot of the source, as the generators yield them.  Both
    changes are read before the first is processed. *)
Definition refresh_snapshot (hs : handle) (batch : option nat) (st : progress) (i : Z) : ST two progress :=
  match st with
  | Done _ => ret st
  | Going _ _ _ _ =>
      let! cs := on_left (liftM (ray_read_changes E n blocks hs i batch)) in
      on_right (foldM_st refresh_change st cs)
  end.
(** refresh (174-236); the source is on the left, the materialized view on the
    right. *)
Definition run_refresh (target : option version) (batch : option nat) : ST two (list job) :=
  let! h := on_left get_handle in
  let latest := md_current (h_meta h) in
  let! stop := lift (match target with
                     | None => Ok latest
                     | Some t =>
                         let? e := version_to_snapshot_id h t in
                         if (latest <? e)%Z then Err (EUser UVersionNotFound) else Ok e
                     end) in
  let! hm := on_right get_handle in
  let start := md_current (h_meta hm) in
  let! x := on_right txn_begin in
  let! _ := on_left reload in
  let! hs := on_left get_handle in
  let! ids := lift (ordered_snapshot_ids hs start stop) in
  let! st := foldM_st (refresh_snapshot hs batch) (Going x [] None []) ids in
  match st with
  | Done jobs => ret jobs
  | Going _ [] _ jobs => ret jobs
  | Going x ps _ jobs => let! j := on_right (txn_commit x (merge_patches ps)) in ret (jobs ++ [j])
  end.
End run.
End refresh.

(** The machines after a call on handles of two machines. *)
Definition after2 {A} (σl : sys) (hl : nat) (σr : sys) (hr : nat) (m : ST two A) : sys * sys :=
  match y_handles σl !! hl, y_handles σr !! hr with
  | Some a, Some b =>
      let '((a', wl), (b', wr)) := (m ((a, y_world σl), (b, y_world σr))).1 in
      (Sys wl (<[hl := a']> (y_handles σl)) (y_txns σl), Sys wr (<[hr := b']> (y_handles σr)) (y_txns σr))
  | _, _ => (σl, σr)
  end.
