(** core/ops/append.py: LocalAppendOp. *)
From Verif.Model Require Export Manifests.

(** _RecordWriterInfo (58-66) with the records written so far. *)
Record rec_writer := RecWriter {
  rw_path : path; rw_records : list string; rw_next : Z; rw_rows : Z; rw_bytes : Z }.
(** Instance variables of LocalAppendOp (78-116).  The Parquet writer is its
    path and the row groups written so far; the manifest writers are the rows
    they have collected. *)
Record append_st := AppendSt {
  as_writer : option (path * list (list row));
  as_recs : gmap string rec_writer;
  as_cached : option (list row);
  as_bytes : Z;
  as_man_cached : list mrow;
  as_man : list mrow;
  as_rman : list rmrow;
  as_log : list row_bitmap;
  as_stats : stats }.
Definition append_init : append_st := AppendSt None ∅ None 0 [] [] [] [] stats0.

(** Does a cell have the type of a physical column? *)
Definition cell_ok (f : afield) (is_rec : bool) (c : cell) : bool :=
  if is_rec then match c with CAddr _ _ => true | _ => false end
  else match c with
       | CNull => true
       | CVal v => kind_ok (f_ty f) v
       | CAddr _ _ => false
       | CNested ls => (is_list (f_ty f) || is_struct (f_ty f))
                       && bool_decide (length ls = ty_leaves (f_ty f))
       end.
(** ParquetWriter.write_table raises ValueError when the table's column names
    (in order) and types differ from the physical schema. *)
Definition row_conforms (s : schema) (r : row) : bool :=
  bool_decide (r.*1 = names_of (phys_schema s))
  && forallb (fun f => cell_ok f (bool_decide (f_name f ∈ s_recs s))
                         (default CNull (rget (f_name f) r))) (phys_schema s).
Definition check_table (s : schema) (t : list row) : res unit :=
  if forallb (row_conforms s) t then Ok tt
  else Err (EOther "ValueError: table schema does not match the file schema").

Definition header (s : schema) : list (string * Z) :=
  (fun f => (f_name f, field_id f)) <$> phys_schema s.

Section append.
Context (E : env) (O : fopts) (s : schema).

(** _maybe_create_index_writer (218-224) *)
Definition maybe_create_index_writer (st : append_st) : M (append_st * (path * list (list row))) :=
  match as_writer st with
  | Some w => ret (st, w)
  | None =>
      let! p := new_path KIndex in
      put_file p FPartial ;;
      ret (AppendSt (Some (p, [])) (as_recs st) (as_cached st) (as_bytes st)
             (as_man_cached st) (as_man st) (as_rman st) (as_log st) (as_stats st), (p, []))
  end.

(** ParquetWriter.write_table *)
Definition write_table (w : path * list (list row)) (t : list row)
    : M (path * list (list row)) :=
  let! _ := lift (check_table s t) in
  ret (w.1, w.2 ++ chop (e_rowgroups E t) t).

(** _finish_index_writer (226-244), with a writer present *)
Definition finish_index_writer (st : append_st) (w : path * list (list row)) : M append_st :=
  let '(p, groups) := w in
  put_file p (FIndex (header s) groups) ;;
  let! m := lift (manifest_row E (phys_schema s) (s_pks s) p groups) in
  ret (AppendSt None (as_recs st) (as_cached st) 0 (as_man_cached st) (as_man st ++ [m])
         (as_rman st) (as_log st ++ [RowBitmap p true (mr_rows m) []])
         (update_index_stats (as_stats st) (mrow_stats m))).

(** _finish_record_writer (287-298) *)
Definition finish_record_writer (st : append_st) (f : string) (fid : Z) (w : rec_writer)
    : M append_st :=
  put_file (rw_path w) (FRecord (rw_records w)) ;;
  ret (AppendSt (as_writer st) (delete f (as_recs st)) (as_cached st) (as_bytes st)
         (as_man_cached st) (as_man st)
         (as_rman st ++ [RMRow (rw_path w) fid (rw_rows w) (rw_bytes w)])
         (as_log st) (update_record_bytes (as_stats st) (Stats 0 0 0 (rw_bytes w)))).

(** `writer.write(v.as_py())`: bytes only. *)
Definition cell_bytes (c : cell) : res string :=
  match c with
  | CVal (SStr b) => Ok b
  | _ => Err (EOther "TypeError: bytes expected")
  end.
(** address_column (core/ops/utils.py:45-53) *)
Definition address_column (p : path) (start : Z) (n : nat) : list cell :=
  (fun i => CAddr p (start + Z.of_nat i)) <$> seq 0 n.

Definition set_rec (st : append_st) (f : string) (w : rec_writer) : append_st :=
  AppendSt (as_writer st) (<[f := w]> (as_recs st)) (as_cached st) (as_bytes st)
    (as_man_cached st) (as_man st) (as_rman st) (as_log st) (as_stats st).

(** _write_record_column (246-285) *)
Definition write_record_column (st : append_st) (f : string) (fid : Z) (col : list cell)
    : M (append_st * list cell) :=
  let! w := match as_recs st !! f with
            | Some w => ret w
            | None => let! p := new_path (KRecord f) in
                      put_file p FPartial ;; ret (RecWriter p [] 0 0 0)
            end in
  let! bs := lift (rmapM cell_bytes col) in
  let n := Z.of_nat (length col) in
  let w' := RecWriter (rw_path w) (rw_records w ++ bs) (rw_next w + n) (rw_rows w + n)
              (rw_bytes w + e_colbytes E col) in
  let addrs := address_column (rw_path w) (rw_next w) (length col) in
  let st' := set_rec st f w' in
  if (fo_record O <? rw_bytes w')%Z then
    let! st'' := finish_record_writer st' f fid w' in ret (st'', addrs)
  else ret (st', addrs).

(** Fields in schema order (classify_fields), with their IDs. *)
Definition rec_fields : list (string * Z) :=
  (fun f => (f_name f, field_id f)) <$> filter (fun f => f_name f ∈ s_recs s) (s_fields s).

(** Record columns are written one after the other (188-191). *)
Fixpoint write_record_columns (st : append_st) (fs : list (string * Z)) (data : list row)
    : M (append_st * list (string * list cell)) :=
  match fs with
  | [] => ret (st, [])
  | (f, fid) :: fs' =>
      let! col := lift (tcol f data) in
      let! (st1, addrs) := write_record_column st f fid col in
      let! (st2, rest) := write_record_columns st1 fs' data in
      ret (st2, (f, addrs) :: rest)
  end.

Definition append_columns (t : list row) (cols : list (string * list cell)) : list row :=
  foldl (fun t '(n, c) => tappend n c t) t cols.

(** _write_arrow (164-216).  [addr_in] is record_address_input. *)
Definition append_write (addr_in : bool) (st : append_st) (data : list row) : M append_st :=
  match data with
  | [] => ret st
  | _ =>
      let! (st0, w) := maybe_create_index_writer st in
      let! idx := lift (tsel (index_names s) data) in
      let! (st1, idx1) :=
        (if addr_in then
           let! cols := lift (rmapM (fun '(f, _) => rmap (pair f) (tcol f data)) rec_fields) in
           ret (st0, append_columns idx cols)
         else
           let! (st1, cols) := write_record_columns st0 rec_fields data in
           ret (st1, append_columns idx cols)) in
      let bytes := (as_bytes st1 + e_nbytes E idx1)%Z in
      let cached := default [] (as_cached st1) ++ idx1 in
      if (fo_row_group O <? e_nbytes E cached)%Z then
        let! w' := write_table w cached in
        let st2 := AppendSt (Some w') (as_recs st1) None bytes (as_man_cached st1)
                     (as_man st1) (as_rman st1) (as_log st1) (as_stats st1) in
        if (fo_file O <? bytes)%Z then finish_index_writer st2 w' else ret st2
      else ret (AppendSt (Some w) (as_recs st1) (Some cached) bytes (as_man_cached st1)
                  (as_man st1) (as_rman st1) (as_log st1) (as_stats st1))
  end.

(** append_index_manifest (160-162) *)
Definition append_index_manifest (st : append_st) (rows : list mrow) : append_st :=
  AppendSt (as_writer st) (as_recs st) (as_cached st) (as_bytes st)
    (as_man_cached st ++ rows) (as_man st) (as_rman st) (as_log st) (as_stats st).

Fixpoint finish_records (st : append_st) (fs : list (string * Z)) : M append_st :=
  match fs with
  | [] => ret st
  | (f, fid) :: fs' =>
      let! st1 := match as_recs st !! f with
                  | Some w => finish_record_writer st f fid w
                  | None => ret st
                  end in
      finish_records st1 fs'
  end.

Definition finish_index (st : append_st) : M append_st :=
  let! (st1, ow) :=
    match as_cached st with
    | Some t => let! (st1, w) := maybe_create_index_writer st in
                let! w' := write_table w t in ret (st1, Some w')
    | None => ret (st, as_writer st)
    end in
  match ow with
  | Some w => finish_index_writer st1 w
  | None => ret st1
  end.

(** finish (124-158).  protobuf's HasField('change_log') is true iff an added
    row bitmap was appended. *)
Definition append_finish (st : append_st) : M (option patch) :=
  let! st1 := finish_records st rec_fields in
  let! st2 := finish_index st1 in
  let! im := finish_index_manifest (as_man_cached st2) (as_man st2) in
  let! rm := finish_record_manifest (as_rman st2) in
  if (st_rows (as_stats st2) =? 0)%Z then ret None
  else ret (Some (Patch (option_list im) (option_list rm) []
                    (match as_log st2 with [] => None | l => Some (ChangeLog [] l) end)
                    (as_stats st2))).

(** LocalRunner.append / append_from (core/runners.py:239-259) *)
Definition append_op (batches : list (list row)) : M (option patch) :=
  let! st := foldM_st (append_write false) append_init batches in
  append_finish st.
End append.
