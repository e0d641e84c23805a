(** core/storage.py: Storage (one in-memory handle) and Transaction. *)
From Verif.Model Require Export DeleteOp.

(** `_metadata_file` is the path as stored in the entry point (short) after a
    load or reload, and a full path after the handle wrote metadata itself
    (203, 215, 285, 313, 367); the two spellings never compare equal. *)
Inductive mfile := MShort (p : path) | MFull (p : path).
Global Instance mfile_eq_dec : EqDecision mfile.
Proof. solve_decision. Defined.

(** Instance variables of Storage (66-90). *)
Record handle := Handle {
  h_meta : metadata; h_file : mfile; h_branch : string; h_max : Z }.
Definition H (A : Type) : Type := ST (handle * world) A.
Definition liftM {A} (m : M A) : H A := fun '(h, w) => let '(w', r) := m w in ((h, w'), r).
Definition get_handle : H handle := gets fst.
Definition set_handle (h : handle) : H unit := fun '(_, w) => ((h, w), Ok tt).

Definition MAIN : string := "main".
(** 88-90 *)
Definition max_snapshot_id (m : metadata) : Z :=
  map_fold (fun _ r acc => Z.max (rf_id r) acc) (md_current m) (md_refs m).
(** __init__ (66-90) *)
Definition init_handle (f : mfile) (m : metadata) (branch : string) : handle :=
  Handle m f branch (max_snapshot_id m).

(** lookup_reference (231-236) *)
Definition lookup_reference (h : handle) (n : string) : res sref :=
  of_opt (EUser UVersionNotFound) (md_refs (h_meta h) !! n).
(** Version = Union[str, int]; version_to_snapshot_id (224-229) *)
Inductive version := VId (i : Z) | VName (n : string).
Definition version_to_snapshot_id (h : handle) (v : version) : res Z :=
  match v with
  | VId i => Ok i
  | VName n => rmap rf_id (lookup_reference h n)
  end.
(** current_snapshot_id (122-127) *)
Definition current_snapshot_id (h : handle) (branch : string) : res Z :=
  if decide (branch = MAIN) then Ok (md_current (h_meta h))
  else rmap rf_id (lookup_reference h branch).
(** snapshot (133-146) *)
Definition get_snapshot (h : handle) (sid : option Z) : res snapshot :=
  let? i := match sid with
            | Some i => Ok i
            | None => if decide (h_branch h = MAIN) then Ok (md_current (h_meta h))
                      else version_to_snapshot_id h (VName (h_branch h))
            end in
  of_opt (EUser UVersionNotFound) (md_snaps (h_meta h) !! i).

(** _write_metadata (499-510).  short_path (core/utils/paths.py:96-98) is the
    identity on model paths. *)
Definition write_metadata (p : path) (m : metadata) (fail_if_exists : bool) : M unit :=
  write_proto p (FMeta m) false ;; write_proto PEntry (FEntry p) fail_if_exists.

(** create (149-196) with _initialize_files (482-493): returns the handle. *)
Definition create (fs : list afield) (pks recs : list string) : M handle :=
  let! _ := lift (validate_logical_schema fs pks recs) in
  let fs' := assign_field_ids fs in
  let! t := now in
  let! _ := lift (substrait_fields fs') in
  let m := Metadata (Schema fs' pks recs) 0 {[ 0%Z := Snapshot 0 None t [] [] stats0 None ]} ∅ in
  let! p := new_path KMeta in
  let h := init_handle (MFull p) m MAIN in
  fun w => match write_metadata p m true w with
           | (w', Ok _) => (w', Ok h)
           | (w', Err (EUser UFileExists)) => (w', Err (EUser UStorageExists))
           | (w', Err e) => (w', Err e)
           end.

(** load (198-204) *)
Definition load : M handle :=
  let! p := read_entry in
  let! m := read_meta p in
  ret (init_handle (MShort p) m MAIN).

(** reload (206-218) *)
Definition reload : H bool :=
  let! h := get_handle in
  let! p := liftM read_entry in
  if decide (h_file h = MShort p) then ret false
  else
    let! m := liftM (read_meta p) in
    set_handle (init_handle (MShort p) m (h_branch h)) ;; ret true.

(** set_current_branch (246-253) *)
Definition set_current_branch (b : string) : H unit :=
  let! h := get_handle in
  let! _ := lift (if decide (b = MAIN) then Ok tt
                  else let? r := lookup_reference h b in
                       if decide (rf_kind r = RBranch) then Ok tt else Err (EUser UInput)) in
  set_handle (Handle (h_meta h) (h_file h) b (h_max h)).

(** The common tail of _add_reference and _remove_reference (282-285, 310-313). *)
Definition write_new_metadata (m : metadata) : H unit :=
  let! p := liftM (new_path KMeta) in
  liftM (write_metadata p m false) ;;
  let! h := get_handle in
  set_handle (Handle m (MFull p) (h_branch h) (h_max h)).

(** _add_reference (255-285) *)
Definition add_reference (n : string) (k : ref_kind) (sid : option Z) : H unit :=
  let! h := get_handle in
  let m := h_meta h in
  let i := default (md_current m) sid in
  if decide (is_Some (md_snaps m !! i)) then
    if decide (n = "") then raise (EUser UInput)
    else if decide (n = MAIN) then raise (EUser UInput)
    else if decide (is_Some (md_refs m !! n)) then raise (EUser UVersionExists)
    else write_new_metadata
           (Metadata (md_schema m) (md_current m) (md_snaps m) (<[n := SRef i k]> (md_refs m)))
  else raise (EUser UVersionNotFound).
(** 238-244 *)
Definition add_tag (n : string) (sid : option Z) : H unit := add_reference n RTag sid.
Definition add_branch (n : string) : H unit := add_reference n RBranch None.

(** _remove_reference (298-313) *)
Definition remove_reference (n : string) (k : ref_kind) : H unit :=
  let! h := get_handle in
  let m := h_meta h in
  match md_refs m !! n with
  | Some r =>
      if decide (rf_kind r = k) then
        write_new_metadata
          (Metadata (md_schema m) (md_current m) (md_snaps m) (delete n (md_refs m)))
      else raise (EUser UVersionNotFound)
  | None => raise (EUser UVersionNotFound)
  end.
(** 287-296 *)
Definition remove_tag (n : string) : H unit := remove_reference n RTag.
Definition remove_branch (n : string) : H unit :=
  let! h := get_handle in
  if decide (n = h_branch h) then raise (EUser UInput) else remove_reference n RBranch.

(** _patch_manifests (513-535).  Deletion scans from the end and removes one
    occurrence per deleted name. *)
Fixpoint remove_rev (rev_files : list path) (del : list path) : list path * list path :=
  match rev_files with
  | [] => ([], del)
  | f :: rest =>
      if decide (f ∈ del) then remove_rev rest (filter (fun g => g ≠ f) del)
      else let '(kept, del') := remove_rev rest del in (f :: kept, del')
  end.
Definition patch_index_manifests (files del add : list path) : res (list path) :=
  let '(kept_rev, rest) := remove_rev (rev files) del in
  match rest with
  | _ :: _ => Err (ERuntime "index manifest to delete does not exist")
  | [] => Ok (rev kept_rev ++ add)
  end.
(** _check_duplicated (538-542) *)
Definition check_duplicated (files : list path) : res unit :=
  if decide (NoDup files) then Ok tt else Err (ERuntime "duplicated manifest files").
Definition patch_manifests (idx rec : list path) (p : patch) : res (list path * list path) :=
  let? idx' := patch_index_manifests idx (pa_del_idx p) (pa_add_idx p) in
  let rec' := rec ++ pa_add_rec p in
  let? _ := check_duplicated idx' in
  let? _ := check_duplicated rec' in
  Ok (idx', rec').

(** commit (315-367).  `_next_snapshot_id` (495-497) takes effect before any
    check. *)
Definition commit (p : patch) (branch : string) : H unit :=
  let! h := get_handle in
  let m := h_meta h in
  let i := (h_max h + 1)%Z in
  set_handle (Handle m (h_file h) (h_branch h) i) ;;
  let! (refs, cur, base) := lift (
      if decide (branch = MAIN) then
        let? b := get_snapshot h (Some (md_current m)) in
        Ok (md_refs m, i, b)
      else
        let? r := lookup_reference h branch in
        if decide (rf_kind r = RBranch) then
          let? b := get_snapshot h (Some (rf_id r)) in
          Ok (<[branch := SRef i RBranch]> (md_refs m), md_current m, b)
        else Err (EUser UInput)) in
  let! mp := liftM (new_path KMeta) in
  let! t := liftM now in
  let! (idx, rec) := lift (patch_manifests (sn_idx base) (sn_rec base) p) in
  let! log := match pa_log p with
              | None => ret None
              | Some c => let! lp := liftM (new_path KChange) in
                          liftM (write_proto lp (FChange c) false) ;; ret (Some lp)
              end in
  let st := update_record_bytes (update_index_stats (sn_stats base) (pa_stats p)) (pa_stats p) in
  let sn := Snapshot i (Some (sn_id base)) t idx rec st log in
  let m' := Metadata (md_schema m) cur (<[i := sn]> (md_snaps m)) refs in
  liftM (write_metadata mp m' false) ;;
  let! h' := get_handle in
  set_handle (Handle m' (MFull mp) (h_branch h') (h_max h')).

(** data_files (369-403) *)
Fixpoint collect_files (mans : list path) (mid : nat) (flt : option sexpr) (acc : file_set)
    : M file_set :=
  match mans with
  | [] => ret acc
  | p :: mans' =>
      let! dfs := read_index_manifests p mid flt in
      match dfs with
      | [] => collect_files mans' mid flt acc
      | _ => collect_files mans' (S mid) flt
               (FileSet (fset_files acc ++ dfs) (<[mid := p]> (fset_mans acc)))
      end
  end.
Definition data_files (flt : option filter_expr) (sid : option Z) : H file_set :=
  let! h := get_handle in
  let! sn := lift (get_snapshot h sid) in
  let! mf := lift (match flt with
                   | None => Ok None
                   | Some e => build_manifest_filter (fenv_of (md_schema (h_meta h))) e
                   end) in
  liftM (collect_files (sn_idx sn) 1 mf (FileSet [] ∅)).

(** JobResult (core/jobs.py:25-45) *)
Inductive job := JSucceeded (update : stats) | JFailed | JSkipped.

(** Transaction.__enter__ (587-593): the branch was recorded at construction
    (548-554). *)
Record txn := Txn { x_branch : string; x_snap : Z }.
Definition txn_begin : H txn :=
  let! h0 := get_handle in
  let b := h_branch h0 in
  let! _ := reload in
  let! h := get_handle in
  let! i := lift (current_snapshot_id h b) in
  ret (Txn b i).
(** Transaction.commit (556-577) up to the write: None means continue. *)
Definition txn_check (x : txn) (p : option patch) : H (option job) :=
  let! _ := reload in
  let! h := get_handle in
  let! cur := lift (current_snapshot_id h (x_branch x)) in
  if (x_snap x =? cur)%Z then
    match p with None => ret (Some JSkipped) | Some _ => ret None end
  else ret (Some JFailed).
Definition txn_commit (x : txn) (p : option patch) : H job :=
  let! r := txn_check x p in
  match r, p with
  | Some j, _ => ret j
  | None, Some p => commit p (x_branch x) ;; ret (JSucceeded (pa_stats p))
  | None, None => ret JSkipped
  end.

(** StorageMixin.transactional (core/runners.py:105-121): Space errors become a
    FAILED job, other exceptions propagate. *)
Definition catch_job (m : H job) : H job := fun s =>
  match m s with
  | (s', Err (EUser _)) | (s', Err (ERuntime _)) => (s', Ok JFailed)
  | r => r
  end.
Definition transactional (fn : H (option patch)) : H job :=
  catch_job (let! x := txn_begin in let! p := fn in txn_commit x p).
