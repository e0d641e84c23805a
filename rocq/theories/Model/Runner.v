(** The operations of LocalRunner (core/runners.py:203-286) and the operations
    behind them: insert/upsert (core/ops/insert.py), change data
    (core/ops/change_data.py), external loads (core/loaders). *)
From Verif.Model Require Export Storage.

(** primary_key_filter (core/ops/utils.py:56-91).  `str(row_filter)` is taken
    to be injective in the key values. *)
Definition key_expr (k : string) (v : option scalar) : filter_expr :=
  EBin (FnCmp OpEq) (EField k) (ELit v).
Definition row_key_filter (pks : list string) (vals : list (option scalar)) : option filter_expr :=
  foldl (fun acc '(k, v) => match acc with
                            | None => Some (key_expr k v)
                            | Some e => Some (EBin FnAnd e (key_expr k v))
                            end) None (zip pks vals).
Definition row_key (pks : list string) (r : row) : res (list (option scalar)) :=
  rmapM (fun k => match rget k r with
                  | Some c => Ok (cell_scalar c)
                  | None => Err (EOther "KeyError: column")
                  end) pks.
Fixpoint key_filter_loop (pks : list string) (keys seen : list (list (option scalar)))
    (acc : option filter_expr) : res (option filter_expr) :=
  match keys with
  | [] => Ok acc
  | k :: keys' =>
      if decide (k ∈ seen) then Err (EUser UPrimaryKeyExists)
      else match row_key_filter pks k with
           | None => Err (EOther "TypeError: no primary key")
           | Some e => key_filter_loop pks keys' (k :: seen)
                         (Some (match acc with None => e | Some a => EBin FnOr a e end))
           end
  end.
Definition primary_key_filter (pks : list string) (data : list row) : res (option filter_expr) :=
  let? keys := rmapM (row_key pks) data in
  key_filter_loop pks keys [] None.

(** merge_patches (core/ops/utils.py:94-118); MergeFrom concatenates repeated
    fields and merges the change logs. *)
Definition merge_logs (a b : option change_log) : option change_log :=
  match a, b with
  | None, x => x
  | x, None => x
  | Some c, Some d => Some (ChangeLog (cl_deleted c ++ cl_deleted d) (cl_added c ++ cl_added d))
  end.
Definition merge_two (a b : patch) : patch :=
  Patch (pa_add_idx a ++ pa_add_idx b) (pa_add_rec a ++ pa_add_rec b)
    (pa_del_idx a ++ pa_del_idx b) (merge_logs (pa_log a) (pa_log b))
    (update_record_bytes (update_index_stats (pa_stats a) (pa_stats b)) (pa_stats b)).
Definition merge_patches (ps : list (option patch)) : option patch :=
  match omap id ps with
  | [] => None
  | l => Some (foldl merge_two patch0 l)
  end.

Section runner.
Context (E : env) (O : fopts).

Inductive insert_mode := MInsert | MUpsert.

(** filter_matched (core/ops/insert.py:119-134) *)
Definition filter_matched (s : schema) (fset : file_set) (e : filter_expr) : M bool :=
  let! ts := read_files E s (ReadOpts (Some e) (Some (s_pks s)) None false None) (fset_files fset) in
  ret (existsb (fun t => negb (Nat.eqb (length t) 0)) ts).

(** LocalInsertOp._write_arrow (core/ops/insert.py:79-99) *)
Definition insert_op (mode : insert_mode) (data : list row) : H (option patch) :=
  match data with
  | [] => ret None
  | _ =>
      let! h := get_handle in
      let s := md_schema (h_meta h) in
      let! flt := lift (primary_key_filter (s_pks s) data) in
      match flt with
      | None => raise (EOther "AssertionError")
      | Some e =>
          let! fset := data_files (Some e) None in
          let! patches :=
            (match fset_files fset with
             | [] => ret []
             | _ => match mode with
                    | MInsert =>
                        let! dup := liftM (filter_matched s fset e) in
                        if dup then raise (ERuntime "Primary key to insert already exist")
                        else ret []
                    | MUpsert =>
                        let! p := liftM (delete_op E O s e fset) in ret [p]
                    end
             end) in
          let! p := liftM (append_op E O s [data]) in
          ret (merge_patches (patches ++ [p]))
      end
  end.

(** LocalRunner.append, append_from (239-259): the batches of all sources. *)
Definition run_append (batches : list (list row)) : H job :=
  transactional (let! h := get_handle in liftM (append_op E O (md_schema (h_meta h)) batches)).
(** _insert (274-279) *)
Definition run_insert (mode : insert_mode) (data : list row) : H job :=
  transactional (insert_op mode data).
(** delete (281-286) *)
Definition run_delete (e : filter_expr) : H job :=
  transactional (
    let! h := get_handle in
    let! fset := data_files (Some e) None in
    liftM (delete_op E O (md_schema (h_meta h)) e fset)).

(** LocalParquetLoadOp (core/loaders/parquet.py:30-74).  [paths] is the result
    of the glob. *)
Definition parquet_load_op (s : schema) (paths : list path) : M (option patch) :=
  match s_recs s with
  | _ :: _ => raise (EOther "AssertionError")
  | [] =>
      let! rows := mapM_st (fun p =>
          let! (_, groups) := read_index p in
          lift (manifest_row E (phys_schema s) (s_pks s) p groups)) paths in
      let! im := finish_index_manifest [] rows in
      ret (Some (Patch (option_list im) [] [] None
             (foldl update_index_stats stats0 (mrow_stats <$> rows))))
  end.
Definition run_append_parquet (paths : list path) : H job :=
  transactional (let! h := get_handle in liftM (parquet_load_op (md_schema (h_meta h)) paths)).

(** LocalArrayRecordLoadOp (core/loaders/array_record.py:36-109).  [index_fn]
    stands for the user's function after deserialisation: from the bytes of a
    record to the cells of the non-record fields.  `Table.from_pylist` with the
    physical schema fills absent fields with nulls and drops others. *)
Definition index_row (s : schema) (f : string) (r : row) : row :=
  (fun n => (n, default CNull (rget n r))) <$> filter (fun n => n ≠ f) (s_names s).
Definition array_record_load_op (s : schema) (paths : list path) (index_fn : string → row)
    (nbytes : string → Z) : M (option patch) :=
  match rec_fields s with
  | [(f, _)] =>
      let! (st, total) := foldM_st (fun '(st, total) p =>
          let! recs := read_records p in
          let t := tappend f (address_column p 0 (length recs))
                     (index_row s f <$> (index_fn <$> recs)) in
          let! st' := append_write E O s true st t in
          ret (st', total + Zsum (nbytes <$> recs))%Z) (append_init, 0%Z) paths in
      let! p := append_finish E s st in
      ret ((fun p => Patch (pa_add_idx p) (pa_add_rec p) (pa_del_idx p) (pa_log p)
                       (update_record_bytes (pa_stats p) (Stats 0 0 0 total))) <$> p)
  | _ => raise (EOther "AssertionError")
  end.
Definition run_append_array_record (paths : list path) (index_fn : string → row)
    (nbytes : string → Z) : H job :=
  transactional (let! h := get_handle in
                 liftM (array_record_load_op (md_schema (h_meta h)) paths index_fn nbytes)).

(** LocalRunner.read (207-227): the tables yielded. *)
Definition run_read (flt : option filter_expr) (fields : option (list string))
    (v : option version) (ref_read : bool) (batch : option nat) : H (list (list row)) :=
  let! _ := reload in
  let! h := get_handle in
  let! sid := lift (match v with
                    | None => Ok None
                    | Some v => rmap Some (version_to_snapshot_id h v)
                    end) in
  let! fset := data_files flt sid in
  liftM (read_files E (md_schema (h_meta h)) (ReadOpts flt fields sid ref_read batch)
           (fset_files fset)).
(** read_all (58-77): the concatenation of the tables (None is the empty list). *)
Definition run_read_all (flt : option filter_expr) (fields : option (list string))
    (v : option version) (ref_read : bool) (batch : option nat) : H (list row) :=
  let! ts := run_read flt fields v ref_read batch in ret (concat ts).

(** ordered_snapshot_ids (core/ops/change_data.py:59-84).  Fuel bounds the walk
    along parents; [None] means it ran out. *)
Fixpoint ancestors (fuel : nat) (h : handle) (start : Z) (cur : snapshot) (acc : list Z)
    : option (res (list Z)) :=
  if (start <=? sn_id cur)%Z then
    let acc' := sn_id cur :: acc in
    match sn_parent cur with
    | None => Some (Ok acc')
    | Some p =>
        match fuel with
        | 0%nat => None
        | S fuel' =>
            match get_snapshot h (Some p) with
            | Ok sn => ancestors fuel' h start sn acc'
            | Err e => Some (Err e)
            end
        end
    end
  else Some (Ok acc).
Definition ordered_snapshot_ids (h : handle) (start stop : Z) : res (list Z) :=
  if (stop <=? start)%Z then Err (EUser UInput)
  else
    let? cur := get_snapshot h (Some stop) in
    let? ids := match ancestors (Z.to_nat (stop - start + 1)) h start cur [] with
                | Some r => r
                | None => Err (EOther "model: fuel exhausted")
                end in
    match ids with
    | [] => Err (EOther "IndexError")
    | i :: rest => if (i =? start)%Z then Ok rest else Err (EUser UInput)
    end.

Inductive change_type := ChAdd | ChDelete.
Record change := Change { ch_snap : Z; ch_type : change_type; ch_data : list row }.

(** _bitmap_to_index_file (149-156) *)
Definition bitmap_file (b : row_bitmap) : data_file :=
  DataFile (rb_file b) 0 (Stats (rb_num b) 0 0 0)
    (if rb_all b then None else Some (rb_bits b)) None.
(** LocalChangeDataReadOp (99-146).  A snapshot without change log has an empty
    `change_log_file`, and `full_path("")` is the storage directory, which
    cannot be opened as a file. *)
Definition read_changes (h : handle) (i : Z) (batch : option nat) : M (list change) :=
  let s := md_schema (h_meta h) in
  match md_snaps (h_meta h) !! i with
  | None => raise (EUser UVersionNotFound)
  | Some sn =>
      match sn_log sn with
      | None => raise (EOther "IsADirectoryError")
      | Some lp =>
          let! c := read_change lp in
          let! dels := read_files E s (ReadOpts None (Some (s_pks s)) None false batch)
                         (bitmap_file <$> cl_deleted c) in
          let! adds := read_files E s (ReadOpts None None None false batch)
                         (bitmap_file <$> cl_added c) in
          ret ((Change i ChDelete <$> dels) ++ (Change i ChAdd <$> adds))
      end
  end.
(** LocalRunner.diff (229-237) with read_change_data (87-96), fully iterated. *)
Definition run_diff (a b : version) (batch : option nat) : H (list change) :=
  let! _ := reload in
  let! h := get_handle in
  let! start := lift (version_to_snapshot_id h a) in
  let! stop := lift (version_to_snapshot_id h b) in
  let! ids := lift (ordered_snapshot_ids h start stop) in
  let! cs := liftM (mapM_st (fun i => read_changes h i batch) ids) in
  ret (concat cs).
End runner.
