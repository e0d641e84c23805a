(** The Ray runner (ray/runners.py) and its operations (ray/ops, ray/data_sources.py).
    Remote tasks and actors share nothing but the files they create, whose names
    are fresh, so they are run one after the other; a task that raises makes the
    call raise. *)
From Verif.Model Require Export Runner.

(** RayAppendOp.write (ray/ops/append.py:53-77): the loop over shards (63-71),
    [k] more rounds, and the rest (73-75).  A call is the number of the actor
    and the slice it gets. *)
Fixpoint shard_loop {A} (k i offset size : nat) (data : list A) : list (nat * list A) * nat :=
  match k with
  | 0 => ([], offset)
  | S k' =>
      let shard := (i, take size (drop offset data)) in
      if Nat.leb (length data) (offset + size) then ([shard], offset + size)
      else let '(l, o) := shard_loop k' (S i) (offset + size) size data in (shard :: l, o)
  end.
Definition ray_shards {A} (n : nat) (data : list A) : list (nat * list A) :=
  let size := match length data / n with 0 => 1 | k => k end in
  let '(l, o) := shard_loop n 0 0 size data in
  if Nat.ltb o (length data) then l ++ [(0, drop o data)] else l.
(** write_from (79-89) *)
Definition ray_sources {A} (n : nat) (sources : list A) : list (nat * A) :=
  imap (fun i src => (i mod n, src)) sources.

(** _RayChangeDataReadOp.__iter__ (ray/ops/change_data.py:68-78): slices of the
    added files.  Python's xs[a:b] with 0 ≤ a. *)
Definition slice_of {A} (a b : nat) (l : list A) : list A := take (b - a) (drop a l).
Definition ceil_div (a b : nat) : nat := (a + (b - 1)) / b.
Definition ray_streams {A} (n : nat) (l : list A) : list (list A) :=
  let size := ceil_div (length l) n in
  (fun i => slice_of (i * size) (((i + 1) * size) `min` length l) l) <$> seq 0 n.

(** _SpaceDataSourceReader.get_read_tasks (ray/data_sources.py:82-132) *)
Definition with_slice (df : data_file) (a b : nat) : data_file :=
  DataFile (df_path df) (df_mid df) (df_stats df) (df_bitmap df) (Some (a, b)).
Definition read_tasks (blocks : bool) (batch : option nat) (dfs : list data_file) : list data_file :=
  dfs ≫= fun df =>
    let n := Z.to_nat (st_rows (df_stats df)) in
    if Nat.eqb n 0 then [df]
    else match blocks, batch with
         | true, Some (S b) =>
             let size := S b in
             (fun i => with_slice df (i * size) (((i + 1) * size) `min` n)) <$> seq 0 (ceil_div n size)
         | _, _ => [df]
         end.
(** iter_batches (ray/ops/utils.py:43-50) of a Ray dataset over these tasks, which
    keeps the order of the tasks. *)
Definition nonempty_tables (ts : list (list row)) : list (list row) := filter (fun t => t ≠ []) ts.

Section ray.
Context (E : env) (O : fopts).

(** RayAppendOp (31-93): the calls of each actor in order, then finish. *)
Definition ray_append_op (s : schema) (n : nat) (calls : list (nat * list (list row))) : M (option patch) :=
  let! ps := mapM_st (fun i => append_op E O s (concat (filter (fun c => c.1 = i) calls).*2)) (seq 0 n) in
  ret (merge_patches ps).
Definition ray_write (s : schema) (n : nat) (data : list row) : M (option patch) :=
  ray_append_op s n ((fun c => (c.1, [c.2])) <$> ray_shards n data).
(** RayReadWriterRunner.append (runners.py:275-280) *)
Definition run_ray_append (n : nat) (data : list row) : H job :=
  transactional (let! h := get_handle in liftM (ray_write (md_schema (h_meta h)) n data)).
(** append_from (282-294) with _append_from (318-325): sources are given by the batches they yield. *)
Definition run_ray_append_from (n : nat) (sources : list (list (list row))) : H job :=
  transactional (let! h := get_handle in
    let k := length sources `min` n in
    liftM (ray_append_op (md_schema (h_meta h)) k (ray_sources k sources))).

(** RayDeleteOp.delete (ray/ops/delete.py:43-70) *)
Definition ray_delete_op (s : schema) (e : filter_expr) (fset : file_set) : M (option patch) :=
  let! ps := mapM_st (fun df => delete_op E O s e (FileSet [df] (fset_mans fset))) (fset_files fset) in
  ret (merge_patches ps).
Definition run_ray_delete (e : filter_expr) : H job :=
  transactional (
    let! h := get_handle in
    let! fset := data_files (Some e) None in
    liftM (ray_delete_op (md_schema (h_meta h)) e fset)).

(** RayInsertOp (ray/ops/insert.py:34-67): LocalInsertOp._write_arrow with a
    check per file and a distributed append. *)
Definition ray_insert_op (n : nat) (mode : insert_mode) (data : list row) : H (option patch) :=
  match data with
  | [] => ret None
  | _ =>
      let! h := get_handle in
      let s := md_schema (h_meta h) in
      let! flt := lift (primary_key_filter (s_pks s) data) in
      match flt with
      | None => raise (EOther "AssertionError")
      | Some e =>
          let! fset := data_files (Some e) None in
          let! patches :=
            (match fset_files fset with
             | [] => ret []
             | _ => match mode with
                    | MInsert =>
                        let! dups := liftM (mapM_st (fun df => filter_matched E s (FileSet [df] ∅) e) (fset_files fset)) in
                        if existsb id dups then raise (EUser UPrimaryKeyExists)
                        else ret []
                    | MUpsert =>
                        let! p := liftM (delete_op E O s e fset) in ret [p]
                    end
             end) in
          let! p := liftM (ray_write s n data) in
          ret (merge_patches (patches ++ [p]))
      end
  end.
Definition run_ray_insert (n : nat) (mode : insert_mode) (data : list row) : H job :=
  transactional (ray_insert_op n mode data).

(** Storage.ray_dataset (core/storage.py) read by the runner of a dataset or
    materialized view (runners.py:60-86, 147-172). *)
Definition run_ray_read (blocks : bool) (flt : option filter_expr) (fields : option (list string))
    (v : option version) (ref_read : bool) (batch : option nat) : H (list (list row)) :=
  let! _ := reload in
  let! h := get_handle in
  let! sid := lift (match v with
                    | None => Ok None
                    | Some v => rmap Some (version_to_snapshot_id h v)
                    end) in
  let! fset := data_files flt sid in
  let! ts := liftM (read_files E (md_schema (h_meta h)) (ReadOpts flt fields sid ref_read batch)
                      (read_tasks blocks batch (fset_files fset))) in
  ret (nonempty_tables ts).

(** _RayChangeDataReadOp (ray/ops/change_data.py:45-96): the Ray datasets of each
    change, a list of tables per dataset. *)
Record ray_change := RayChange { rc_snap : Z; rc_type : change_type; rc_data : list (list (list row)) }.
Definition ray_read_changes (n : nat) (blocks : bool) (h : handle) (i : Z) (batch : option nat) : M (list ray_change) :=
  let s := md_schema (h_meta h) in
  match md_snaps (h_meta h) !! i with
  | None => raise (EUser UVersionNotFound)
  | Some sn =>
      match sn_log sn with
      | None => raise (EOther "IsADirectoryError")
      | Some lp =>
          let! c := read_change lp in
          let read o l := let! ts := read_files E s o (read_tasks blocks batch (bitmap_file <$> l)) in
                          ret (nonempty_tables ts) in
          let! dels := match cl_deleted c with
                       | [] => ret []
                       | l => let! d := read (ReadOpts None (Some (s_pks s)) None false batch) l in
                              ret [RayChange i ChDelete [d]]
                       end in
          let! adds := match cl_added c with
                       | [] => ret []
                       | l => let! ds := mapM_st (read (ReadOpts None None None false batch)) (ray_streams n l) in
                              ret [RayChange i ChAdd ds]
                       end in
          ret (dels ++ adds)
      end
  end.
(** diff_ray (runners.py:99-127) of a dataset, and diff (88-97) *)
Definition run_diff_ray (n : nat) (blocks : bool) (a b : version) (batch : option nat) : H (list ray_change) :=
  let! _ := reload in
  let! h := get_handle in
  let! start := lift (version_to_snapshot_id h a) in
  let! stop := lift (version_to_snapshot_id h b) in
  let! ids := lift (ordered_snapshot_ids h start stop) in
  let! cs := liftM (mapM_st (fun i => ray_read_changes n blocks h i batch) ids) in
  ret (concat cs).
Definition run_ray_diff (n : nat) (blocks : bool) (a b : version) (batch : option nat) : H (list change) :=
  let! cs := run_diff_ray n blocks a b batch in
  ret (cs ≫= fun c => Change (rc_snap c) (rc_type c) <$> concat (rc_data c)).
End ray.
