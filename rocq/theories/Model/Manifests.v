(** core/manifests: index and record manifest writers and readers. *)
From Verif.Model Require Export Store.

(** Parquet leaf values contributed by a cell of a column with [n] leaves. *)
Definition cell_leaves (n : nat) (c : cell) : list (list scalar) :=
  match c with
  | CNull => replicate n []
  | CVal v => [[v]]
  | CAddr p i => [[SStr (path_text p)]; [SNum i]]
  | CNested ls => ls
  end.
(** All leaf columns of a row, in schema order. *)
Definition row_leaves (fs : list afield) (r : row) : list (list scalar) :=
  fs ≫= (fun f => cell_leaves (ty_leaves (f_ty f)) (default CNull (rget (f_name f) r))).
(** Values of leaf column [k] in a row group. *)
Definition leaf_column (fs : list afield) (rows : list row) (k : nat) : list scalar :=
  rows ≫= (fun r => default [] (row_leaves fs r !! k)).

Definition scalar_lt (a b : scalar) : bool :=
  match scmp a b with Lt => true | _ => false end.
Definition omin (a : option scalar) (v : scalar) : option scalar :=
  match a with
  | None => Some v
  | Some m => Some (if scalar_lt v m then v else m)
  end.
Definition omax (a : option scalar) (v : scalar) : option scalar :=
  match a with
  | None => Some v
  | Some m => Some (if scalar_lt m v then v else m)
  end.
(** Parquet column chunk statistics: minimum and maximum of the non-null,
    non-NaN values; absent if there is none. *)
Definition non_nan (l : list scalar) : list scalar := filter (fun v => is_nan v = false) l.
Definition chunk_min (l : list scalar) : option scalar := foldl omin None (non_nan l).
Definition chunk_max (l : list scalar) : option scalar := foldl omax None (non_nan l).

(** _FieldStats.merge (index.py:82-88): comparing None with a value raises
    TypeError. *)
Definition merge_one (better : scalar → scalar → bool) (cur new : option scalar)
    : res (option scalar) :=
  match cur with
  | None => Ok new
  | Some c => match new with
              | None => Err (EOther "TypeError: None < value")
              | Some n => Ok (Some (if better n c then n else c))
              end
  end.
Definition merge_stats (cur new : option scalar * option scalar)
    : res (option scalar * option scalar) :=
  let? mn := merge_one scalar_lt cur.1 new.1 in
  let? mx := merge_one (fun a b => scalar_lt b a) cur.2 new.2 in
  Ok (mn, mx).

(** Fields with column statistics (index.py:42-65): (field ID, column ID) in
    schema order.  The column ID is the top-level position of the field
    (132-136, core/schema/arrow.py:172-178) and is used as a Parquet leaf column
    number (162-168). *)
Definition stats_fields (fs : list afield) (pks : list string) : list (afield * nat) :=
  omap (fun '(k, f) => if decide (f_name f ∈ pks) then Some (f, k) else None)
       (imap pair fs).

(** Values that an Arrow array of a type can hold. *)
Definition kind_ok (t : aty) (v : scalar) : bool :=
  match t, v with
  | (TInt32 | TInt64), SNum _ => true
  | (TFloat32 | TFloat64), (SNum _ | SNaN) => true
  | TBool, SBool _ => true
  | (TString | TBinary | TTfFeatures _ | TFile _), SStr _ => true
  | _, _ => false
  end.
Definition okind_ok (t : aty) (v : option scalar) : bool :=
  match v with None => true | Some x => kind_ok t x end.

(** Merge the statistics of one leaf column over all row groups of a file. *)
Definition column_stats (fs : list afield) (groups : list (list row)) (k : nat)
    : res (option scalar * option scalar) :=
  if decide (k < sum_list_with (fun f => ty_leaves (f_ty f)) fs) then
    rfoldM (fun cur rg =>
              merge_stats cur (chunk_min (leaf_column fs rg k), chunk_max (leaf_column fs rg k)))
           (None, None) groups
  else Err (EOther "IndexError: Parquet column").

(** IndexManifestWriter.write (index.py:145-179): the manifest row of a file,
    from its Parquet metadata.  Sizes are summed over the statistics columns.
    Statistics that do not fit the field type make `to_arrow` fail when the
    manifest is finished (98-102); the model raises here already. *)
Definition manifest_row (E : env) (fs : list afield) (pks : list string) (p : path)
    (groups : list (list row)) : res mrow :=
  let? cols := rmapM (fun '(f, k) =>
                        let? st := column_stats fs groups k in
                        if okind_ok (f_ty f) st.1 && okind_ok (f_ty f) st.2
                        then Ok (field_id f, st)
                        else Err (EOther "ArrowInvalid: statistics type"))
                     (stats_fields fs pks) in
  let sizes f := Zsum (map (fun rg => Zsum (map (fun '(_, k) => f rg k)
                                                 (stats_fields fs pks))) groups) in
  Ok (MRow p (Z.of_nat (length (concat groups))) (sizes (e_csize E)) (sizes (e_usize E)) cols).

Definition mrow_stats (m : mrow) : stats := Stats (mr_rows m) (mr_cb m) (mr_ub m) 0.

(** IndexManifestWriter.finish (185-211): cached (carried over) rows first, then
    the rows written; no file if there is none. *)
Definition finish_index_manifest (cached rows : list mrow) : M (option path) :=
  match cached ++ rows with
  | [] => ret None
  | all => let! p := new_path KIdxMan in
           write_parquet p (FIdxMan all) ;; ret (Some p)
  end.
(** RecordManifestWriter.finish (record.py:62-77) *)
Definition finish_record_manifest (rows : list rmrow) : M (option path) :=
  match rows with
  | [] => ret None
  | all => let! p := new_path KRecMan in
           write_parquet p (FRecMan all) ;; ret (Some p)
  end.

(** Value of a statistics column of a manifest row. *)
Definition stat_look (m : mrow) (r : statref) : option scalar :=
  match list_find (fun s => s.1 = r.1) (mr_stats m) with
  | Some (_, (_, (mn, mx))) => match r.2 with SMin => mn | SMax => mx end
  | None => None
  end.
Definition mrow_matches (flt : option sexpr) (m : mrow) : bool :=
  match flt with
  | None => true
  | Some e => is_true (eval (stat_look m) e)
  end.
(** read_index_manifests (index.py:223-254) *)
Definition read_index_manifests (p : path) (mid : nat) (flt : option sexpr)
    : M (list data_file) :=
  let! rows := read_idx_man p in
  ret ((fun m => DataFile (mr_path m) mid (mrow_stats m) None None)
         <$> filter (fun m => mrow_matches flt m = true) rows).
