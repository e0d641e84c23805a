(** core/ops/delete.py: FileSetDeleteOp. *)
From Verif.Model Require Export ReadOp.

(** _validate_files (203-212) *)
Definition validate_files (fset : file_set) : bool :=
  forallb (fun f => negb (bool_decide (df_path f = PExt ""))
                    && negb (st_rows (df_stats f) =? 0)%Z
                    && negb (Nat.eqb (df_mid f) 0)) (fset_files fset)
  && negb (Nat.eqb (size (fset_mans fset)) 0).

(** _build_bitmap (215-228) *)
Definition build_bitmap (f : data_file) (survivors : list nat) : row_bitmap :=
  if decide (survivors = []) then RowBitmap (df_path f) true (st_rows (df_stats f)) []
  else RowBitmap (df_path f) false (st_rows (df_stats f))
         (filter (fun i => i ∉ survivors) (seq 0 (Z.to_nat (st_rows (df_stats f))))).

(** Loop state of delete (84-127). *)
Record del_st := DelSt {
  ds_append : append_st; ds_log : list row_bitmap; ds_files : list path;
  ds_mids : list nat; ds_rows : Z; ds_before : stats }.

Section delete.
Context (E : env) (O : fopts) (s : schema) (flt : filter_expr).
Definition reinsert_filter : filter_expr := EUn FnNot flt.

(** One iteration of the loop (93-127). *)
Definition delete_file (st : del_st) (f : data_file) : M del_st :=
  let before := update_index_stats (ds_before st) (df_stats f) in
  let! (_, groups) := read_index (df_path f) in
  let rows := imap pair (concat groups) in
  let kept := filter (fun ir => matches reinsert_filter ir.2 = true) rows in
  let n := Z.of_nat (length kept) in
  if (n =? st_rows (df_stats f))%Z then
    ret (DelSt (ds_append st) (ds_log st) (ds_files st) (ds_mids st) (ds_rows st) before)
  else
    let log := ds_log st ++ [build_bitmap f kept.*1] in
    let files := ds_files st ++ [df_path f] in
    let mids := if decide (df_mid f ∈ ds_mids st) then ds_mids st
                else ds_mids st ++ [df_mid f] in
    let deleted := (ds_rows st + (st_rows (df_stats f) - n))%Z in
    match kept with
    | [] => ret (DelSt (ds_append st) log files mids deleted before)
    | _ => let! ap := append_write E O s true (ds_append st) kept.*2 in
           ret (DelSt ap log files mids deleted before)
    end.

(** delete (84-180), including the check of __init__ (71-73).  Manifest IDs are
    visited in the order in which they were collected. *)
Definition delete_op (fset : file_set) : M (option patch) :=
  if validate_files fset then
    let! st := foldM_st delete_file (DelSt append_init [] [] [] 0 stats0) (fset_files fset) in
    if (ds_rows st =? 0)%Z then ret None
    else
      let! mans := lift (rmapM (fun i => of_opt (ERuntime "index manifest ID not found")
                                           (fset_mans fset !! i)) (ds_mids st)) in
      let! tables := mapM_st read_idx_man mans in
      let survivors := filter (fun m => mr_path m ∉ ds_files st) (concat tables) in
      let ap := append_index_manifest (ds_append st) survivors in
      let! re := append_finish E s ap in
      let re_add := match re with Some p => pa_add_idx p | None => [] end in
      let re_stats := match re with Some p => pa_stats p | None => stats0 end in
      let surv_cb := Zsum (mr_cb <$> survivors) in
      let surv_ub := Zsum (mr_ub <$> survivors) in
      ret (Some (Patch re_add [] mans
             (match ds_log st with [] => None | l => Some (ChangeLog l []) end)
             (Stats (- ds_rows st)
                (st_cb re_stats + surv_cb - st_cb (ds_before st))
                (st_ub re_stats + surv_ub - st_ub (ds_before st)) 0)))
  else raise (ERuntime "Invalid input file set for delete op").
End delete.
