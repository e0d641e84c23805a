(** Files, metadata messages, the file system and its primitives. *)
From Verif.Model Require Export Falsify.

(** meta.StorageStatistics (core/proto/metadata.proto) *)
Record stats := Stats { st_rows : Z; st_cb : Z; st_ub : Z; st_rb : Z }.
Definition stats0 : stats := Stats 0 0 0 0.
(** core/ops/utils.py:29-36 *)
Definition update_index_stats (b u : stats) : stats :=
  Stats (st_rows b + st_rows u) (st_cb b + st_cb u) (st_ub b + st_ub u) (st_rb b).
(** core/ops/utils.py:39-42 *)
Definition update_record_bytes (b u : stats) : stats :=
  Stats (st_rows b) (st_cb b) (st_ub b) (st_rb b + st_rb u).

(** meta.RowBitmap: the roaring bitmap is the list of row positions. *)
Record row_bitmap := RowBitmap {
  rb_file : path; rb_all : bool; rb_num : Z; rb_bits : list nat }.
(** meta.ChangeLog *)
Record change_log := ChangeLog { cl_deleted : list row_bitmap; cl_added : list row_bitmap }.
Definition empty_log : change_log := ChangeLog [] [].

(** One row of an index manifest file (core/manifests/index.py:42-65): the
    per-field statistics are keyed by field ID. *)
Record mrow := MRow {
  mr_path : path; mr_rows : Z; mr_cb : Z; mr_ub : Z;
  mr_stats : list (Z * (option scalar * option scalar)) }.
(** One row of a record manifest file (core/manifests/record.py:27-32). *)
Record rmrow := RMRow { rm_path : path; rm_field : Z; rm_rows : Z; rm_bytes : Z }.

(** meta.Snapshot *)
Record snapshot := Snapshot {
  sn_id : Z; sn_parent : option Z; sn_time : Z;
  sn_idx : list path; sn_rec : list path; sn_stats : stats; sn_log : option path }.
(** meta.SnapshotReference *)
Inductive ref_kind := RTag | RBranch.
Global Instance ref_kind_eq_dec : EqDecision ref_kind.
Proof. solve_decision. Defined.
Record sref := SRef { rf_id : Z; rf_kind : ref_kind }.
(** meta.StorageMetadata *)
Record metadata := Metadata {
  md_schema : schema; md_current : Z;
  md_snaps : gmap Z snapshot; md_refs : gmap string sref }.

(** Contents of a file.  Index (Parquet) files have columns (name, field ID,
    -1 if absent) and row groups of rows.  [FPartial] is a file opened for
    writing and not closed yet. *)
Inductive file :=
| FIndex (cols : list (string * Z)) (groups : list (list row))
| FRecord (records : list string)
| FIdxMan (rows : list mrow)
| FRecMan (rows : list rmrow)
| FChange (c : change_log)
| FMeta (m : metadata)
| FEntry (metadata_file : path)
| FPartial.

(** File system events, in the order they reach the disk. *)
Inductive event :=
| EvPut (p : path) (f : file)          (** create or overwrite a file *)
| EvMove (src dst : path).             (** rename, replacing the destination *)
Notation fsys := (gmap path file).
Definition apply_event (fs : fsys) (e : event) : fsys :=
  match e with
  | EvPut p f => <[p := f]> fs
  | EvMove a b => match fs !! a with
                  | Some f => <[b := f]> (delete a fs)
                  | None => fs
                  end
  end.
Definition replay (fs : fsys) (evs : list event) : fsys := foldl apply_event fs evs.

(** The world: the files under (or referenced by) one storage location, the
    source of unique IDs, the clock, and the log of file system events. *)
Record world := World {
  w_fs : fsys; w_next : N; w_clock : Z; w_log : list event }.
Definition M (A : Type) : Type := ST world A.

Open Scope st_scope.

Definition emit (e : event) : M unit := fun w =>
  (World (apply_event (w_fs w) e) (w_next w) (w_clock w) (w_log w ++ [e]), Ok tt).
Definition put_file (p : path) (f : file) : M unit := emit (EvPut p f).
(** uuid_() (core/utils/uuids.py): a name never used before. *)
Definition fresh : M N := fun w =>
  (World (w_fs w) (w_next w + 1) (w_clock w) (w_log w), Ok (w_next w)).
Definition now : M Z := gets w_clock.
Definition new_path (k : pkind) : M path := let! u := fresh in ret (PGen k u).
Definition read_file (p : path) : M file := fun w =>
  (w, of_opt (EOther "FileNotFoundError") (w_fs w !! p)).

(** core/fs/arrow.py:42-57, write_proto: existence check, temporary file,
    rename. *)
Definition write_proto (p : path) (f : file) (fail_if_exists : bool) : M unit :=
  let! found := gets (fun w => bool_decide (is_Some (w_fs w !! p))) in
  if fail_if_exists && found then raise (EUser UFileExists)
  else
    let! u := fresh in
    put_file (PGen KTmp u) FPartial ;;
    put_file (PGen KTmp u) f ;;
    emit (EvMove (PGen KTmp u) p).

(** core/fs/parquet.py:23-32, write_parquet_file. *)
Definition write_parquet (p : path) (f : file) : M unit :=
  put_file p FPartial ;; put_file p f.

Definition read_index (p : path) : M (list (string * Z) * list (list row)) :=
  let! f := read_file p in
  match f with FIndex cols gs => ret (cols, gs) | _ => raise (EOther "ArrowInvalid: not Parquet") end.
Definition read_records (p : path) : M (list string) :=
  let! f := read_file p in
  match f with FRecord rs => ret rs | _ => raise (EOther "not an ArrayRecord file") end.
Definition read_idx_man (p : path) : M (list mrow) :=
  let! f := read_file p in
  match f with FIdxMan rs => ret rs | _ => raise (EOther "ArrowInvalid: not a manifest") end.
Definition read_rec_man (p : path) : M (list rmrow) :=
  let! f := read_file p in
  match f with FRecMan rs => ret rs | _ => raise (EOther "ArrowInvalid: not a manifest") end.
Definition read_change (p : path) : M change_log :=
  let! f := read_file p in
  match f with FChange c => ret c | _ => raise (EOther "ParseError") end.
Definition read_meta (p : path) : M metadata :=
  let! f := read_file p in
  match f with FMeta m => ret m | _ => raise (EOther "ParseError") end.
Definition read_entry : M path :=
  let! f := read_file PEntry in
  match f with FEntry p => ret p | _ => raise (EOther "ParseError") end.

(** What the libraries decide and the model leaves open: in-memory sizes,
    Parquet column chunk sizes, how `write_table` splits a table into row
    groups, and how a table read back is chunked. *)
Record env := Env {
  e_nbytes : list row → Z;
  e_colbytes : list cell → Z;
  e_csize : list row → nat → Z;
  e_usize : list row → nat → Z;
  e_rowgroups : list row → list nat;
  e_chunks : list row → list nat }.
(** core/options.py:60-99 *)
Record fopts := FOpts { fo_row_group : Z; fo_file : Z; fo_record : Z }.

(** rt.Patch (core/proto/runtime.proto) *)
Record patch := Patch {
  pa_add_idx : list path; pa_add_rec : list path; pa_del_idx : list path;
  pa_log : option change_log; pa_stats : stats }.
Definition patch0 : patch := Patch [] [] [] None stats0.

(** rt.DataFile / rt.FileSet *)
Record data_file := DataFile {
  df_path : path; df_mid : nat; df_stats : stats;
  df_bitmap : option (list nat);             (** row_bitmap with all_rows false *)
  df_slice : option (nat * nat) }.           (** row_slice [start, end) *)
Record file_set := FileSet { fset_files : list data_file; fset_mans : gmap nat path }.
