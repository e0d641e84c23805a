(** Joins that read record addresses (ray/ops/join.py:116-137, 194-211): Arrow
    does not join structs, so tables are flattened before and the addresses are
    put together again after.  [Model/Join.v] leaves this out. *)
From Verif.Model Require Export Join.

(** file_path_field_name and row_id_field_name (core/schema/utils.py:54-61) *)
Definition file_field (f : string) : string := f +:+ "._FILE".
Definition id_field (f : string) : string := f +:+ "._ROW_ID".

(** The cells of a flattened table: the halves of addresses, and others. *)
Inductive flat_cell := FCell (c : cell) | FFile (p : path) | FId (i : Z).
Notation flat_row := (list (string * flat_cell)).

(** Table.flatten (118-122).  The only structs considered are addresses: tables
    with others are refused ([flat_columns]; in the code the join then raises
    because it lacks the column). *)
Definition flatten_cell (nc : string * cell) : flat_row :=
  match nc.2 with
  | CAddr p i => [(file_field nc.1, FFile p); (id_field nc.1, FId i)]
  | c => [(nc.1, FCell c)]
  end.
Definition flatten_row (ref : bool) (x : row) : flat_row :=
  if ref then x ≫= flatten_cell else (fun nc => (nc.1, FCell nc.2)) <$> x.

(** Table.column and Table.select: KeyError unless the name is there once. *)
Definition only (n : string) (t : flat_row) : res flat_cell :=
  match filter (fun c => c.1 = n) t with
  | [c] => Ok c.2
  | _ => Err (EOther "KeyError: column")
  end.

(** One turn of _fold_addresses (195-209). *)
Definition fold_one (t : flat_row) (f : string) : res flat_row :=
  let? p := only (file_field f) t in
  let? i := only (id_field f) t in
  match p, i with
  | FFile p, FId i =>
      Ok (filter (fun c => c.1 ≠ file_field f ∧ c.1 ≠ id_field f) t ++ [(f, FCell (CAddr p i))])
  | _, _ => Err (EOther "not the columns of an address")
  end.
Definition fold_addresses (recs : list string) (t : flat_row) : res flat_row := rfoldM fold_one t recs.
(** _selected_record_fields (187-191), in the order of the schema.  Only the
    intersection of sets drops repeated names. *)
Definition selected_recs (s : schema) (i : join_input) : list string :=
  match ji_fields i with
  | None => s_recs s
  | Some ns => remove_dups (filter (fun f => f ∈ ns) (s_recs s))
  end.
Definition folded_recs (s : schema) (i : join_input) : list string := if ji_ref i then selected_recs s i else [].

(** A row of the result (124-137): Arrow keeps the key of the left side. *)
Definition flat_select (out : list string) (t : flat_row) : res row :=
  rmapM (fun n => let? c := only n t in
                  match c with
                  | FCell c => Ok (n, c)
                  | _ => Err (EOther "half of an address")
                  end) out.
Definition joined_row (key : string) (sl sr : schema) (l r : join_input) (x y : row) : res row :=
  let t := flatten_row (ji_ref l) x ++ filter (fun c => c.1 ≠ key) (flatten_row (ji_ref r) y) in
  let? t := fold_addresses (folded_recs sl l) t in
  let? t := fold_addresses (folded_recs sr r) t in
  flat_select (output_fields key sl sr l r) t.
(** _join (111-137).  The rows of a table have the same columns; whether the
    columns are there is seen on the first rows, even if no row is joined. *)
Definition join_flat (key : string) (sl sr : schema) (l r : join_input) (ls rs : list row) : res (option (list row)) :=
  match ls, rs with
  | x :: _, y :: _ =>
      if decide (key_type sl key = key_type sr key) then
        if flat_columns sl l && flat_columns sr r then
          let? _ := joined_row key sl sr l r x y in
          rmap Some (rmapM (fun xy => joined_row key sl sr l r xy.1 xy.2)
            (ls ≫= fun x => (fun y => (x, y)) <$> filter (fun y => keys_match key x y = true) rs))
        else Err (EOther "ArrowInvalid: data type not supported in join")
      else Err (EOther "ArrowInvalid: incompatible data types for corresponding join field keys")
  | _, _ => Ok None
  end.

(** RayJoinOp.ray_dataset (67-101), as [join_sides]. *)
Definition join_sides_flat (none_ok : bool) (part : option (range → list range)) (key : string) (sl sr : schema)
    (l r : join_input) (range_l range_r : H (option range)) (read_l read_r : filter_expr → H (list (list row)))
    : ST two (list row) :=
  let! a := on_left range_l in
  let! b := on_right range_r in
  let! ranges := lift (join_ranges part a b) in
  let! results := mapM_st (fun g =>
      let e := range_filter key g in
      let! ls := on_left (read_l e) in
      let! rs := on_right (read_r e) in
      lift (join_flat key sl sr l r (concat ls) (concat rs))) ranges in
  if none_ok || forallb (fun x => bool_decide (is_Some x)) results then ret (concat (omap id results))
  else raise (EOther "TypeError: not a block type: None").
(** RayReadOnlyRunner.read (ray/runners.py:60-86) of a join of datasets, as
    [run_join]. *)
Definition run_join_flat (none_ok : bool) (E : env) (blocks : bool) (part : option (range → list range))
    (key : string) (l r : join_input) : ST two (list row) :=
  let! _ := on_left reload in
  let! _ := on_right reload in
  let! hl := on_left get_handle in
  let! hr := on_right get_handle in
  join_sides_flat none_ok part key (md_schema (h_meta hl)) (md_schema (h_meta hr)) l r (key_range key) (key_range key)
    (fun e => ray_read_here E blocks (Some e) (ji_fields l) (ji_ref l))
    (fun e => ray_read_here E blocks (Some e) (ji_fields r) (ji_ref r)).
