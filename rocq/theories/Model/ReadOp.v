(** core/ops/read.py: FileSetReadOp and read_record_column. *)
From Verif.Model Require Export AppendOp.

(** core/options.py:26-57 *)
Record read_opts := ReadOpts {
  ro_filter : option filter_expr;
  ro_fields : option (list string);
  ro_snap : option Z;
  ro_ref : bool;
  ro_batch : option nat }.
(** `batch_size or DEFAULT_READ_BATCH_SIZE` (56-57) *)
Definition batch_size (o : option nat) : nat :=
  match o with None | Some 0 => 16 | Some n => n end.

(** First occurrences, in order (the groups of `group_by`). *)
Fixpoint nub {A} `{EqDecision A} (l : list A) : list A :=
  match l with
  | [] => []
  | x :: l' => x :: filter (fun y => y ≠ x) (nub l')
  end.

Definition cell_addr (c : cell) : res (path * Z) :=
  match c with CAddr p i => Ok (p, i) | _ => Err (EOther "record address expected") end.
(** read_record_file (core/fs/array_record.py:22-38) with positions. *)
Definition record_at (recs : list string) (i : Z) : res string :=
  if (i <? 0)%Z then Err (EOther "record position out of range")
  else of_opt (EOther "record position out of range") (recs !! Z.to_nat i).
(** Writing the values of one file back to their places (199-203). *)
Definition place (out : list (option string)) (kv : list (nat * string)) : list (option string) :=
  foldl (fun o '(k, v) => <[k := Some v]> o) out kv.

(** read_record_column (155-205): rows are grouped by file, each file is read
    once, and the values are put back at the position of their address. *)
Definition read_record_column (addrs : list cell) : M (list cell) :=
  let! addrs' := lift (rmapM cell_addr addrs) in
  let keyed := imap (fun k a => (k, a)) addrs' in
  let files := nub (addrs'.*1) in
  let! groups := mapM_st (fun p =>
      let! recs := read_records p in
      let mine := filter (fun ka => ka.2.1 = p) keyed in
      let! vals := lift (rmapM (fun ka => record_at recs ka.2.2) mine) in
      ret (zip mine.*1 vals)) files in
  let out := foldl place (replicate (length addrs) None) groups in
  ret ((fun o => match o with Some b => CVal (SStr b) | None => CNull end) <$> out).

Section read.
Context (E : env) (s : schema) (o : read_opts).

(** __init__ (77-91) *)
Definition selected_fields : list string := default (names_of (phys_schema s)) (ro_fields o).
Definition index_field_ids : list Z :=
  field_id <$> filter (fun f => f_name f ∈ selected_fields ∧ f_name f ∉ s_recs s) (phys_schema s).
Definition record_field_of_id (i : Z) : option string :=
  f_name <$> last (filter (fun f => f_name f ∈ selected_fields ∧ f_name f ∈ s_recs s
                                     ∧ field_id f = i) (phys_schema s)).

Definition col_id (cols : list (string * Z)) (n : string) : option Z :=
  snd <$> head (filter (fun c => c.1 = n) cols).

(** A selected column of a file is an index column, or a record column with the
    name of the schema field of that ID (116-125). *)
Definition classify_column (cols : list (string * Z)) (n : string)
    : res (string * option string) :=
  match col_id cols n with
  | None => Err (EOther "ArrowInvalid: no match for field")
  | Some i =>
      if decide (i ∈ index_field_ids ∨ i = NULL_FIELD_ID) then Ok (n, None)
      else match record_field_of_id i with
           | Some f => Ok (n, Some f)
           | None => Err (EOther "KeyError: field ID")
           end
  end.

(** _read_index_and_record (137-152) *)
Definition read_index_and_record (classes : list (string * option string)) (t : list row)
    : M (list row) :=
  let idx := omap (fun c => match c.2 with None => Some c.1 | _ => None end) classes in
  let recs := omap (fun c => match c.2 with Some f => Some (c.1, f) | _ => None end) classes in
  let! base := lift (tsel idx t) in
  foldM_st (fun acc '(n, f) =>
      let! addrs := lift (tcol n t) in
      let! vals := read_record_column addrs in
      ret (tappend f vals acc)) base recs.

(** pq.read_table(path, columns, filters) followed by the bitmap or slice
    (99-110). *)
Definition in_slice (slice : option (nat * nat)) (i : nat) : bool :=
  match slice with
  | None => true
  | Some (a, b) => Nat.leb a i && Nat.ltb i b
  end.
Definition apply_mask (bits : list nat) (slice : option (nat * nat)) (t : list row)
    : res (list row) :=
  let sel := filter (fun i => in_slice slice i = true) bits in
  if forallb (fun i => bool_decide (i < length t)) sel then
    Ok (snd <$> filter (fun ir => ir.1 ∈ sel) (imap pair t))
  else Err (EOther "IndexError: mask").
Definition file_table (cols : list (string * Z)) (groups : list (list row)) (df : data_file)
    : res (list row) :=
  if forallb (fun n => bool_decide (n ∈ cols.*1)) selected_fields then
    let rows := concat groups in
    let kept := match ro_filter o with
                | None => rows
                | Some e => filter (fun r => matches e r = true) rows
                end in
    let? t := tsel selected_fields kept in
    match df_bitmap df with
    | Some bits => apply_mask bits (df_slice df) t
    | None => match df_slice df with
              | Some (a, b) => Ok (take (b - a) (drop a t))
              | None => Ok t
              end
    end
  else Err (EOther "ArrowInvalid: no match for field").

(** __iter__ (93-135), one file: the tables yielded. *)
Definition read_one (df : data_file) : M (list (list row)) :=
  let! (cols, groups) := read_index (df_path df) in
  let! t := lift (file_table cols groups df) in
  if ro_ref o then ret [t]
  else
    let! classes := lift (rmapM (classify_column cols) selected_fields) in
    match df_slice df with
    | Some _ => let! t' := read_index_and_record classes t in ret [t']
    | None =>
        mapM_st (read_index_and_record classes)
                (concat (chunks (batch_size (ro_batch o)) <$> chop (e_chunks E t) t))
    end.
Definition read_files (dfs : list data_file) : M (list (list row)) :=
  let! ts := mapM_st read_one dfs in ret (concat ts).
End read.
