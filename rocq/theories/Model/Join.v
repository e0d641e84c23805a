(** Joins of two datasets (core/views.py:183-224, core/transform/join.py,
    ray/ops/join.py).  Arrow's join returns its rows in no particular order;
    here they come in the order of nested loops.  Flattening and folding record
    addresses (ray/ops/join.py:118-134, 194-211) leaves them as they are. *)
From Verif.Model Require Export RayOps System.

(** JoinInput (ray/ops/join.py:39-47) without the view. *)
Record join_input := JoinInput { ji_fields : option (list string); ji_ref : bool }.

(** _sanitize_fields (views.py:203-211); the list passed is extended in place. *)
Definition sanitize (key : string) (fields : option (list string)) : res (option (list string)) :=
  match fields with
  | None => Ok None
  | Some l =>
      if decide (l = [] ∨ l = [key]) then Err (EUser UInput)
      else Ok (Some (if decide (key ∈ l) then l else l ++ [key]))
  end.
Definition side_fields (s : schema) (i : join_input) : list string := default (names_of (s_fields s)) (ji_fields i).
(** The names of JoinTransform.schema (core/transform/join.py:64-97). *)
Definition output_fields (key : string) (sl sr : schema) (l r : join_input) : list string :=
  key :: filter (fun n => n ≠ key) (side_fields sl l) ++ filter (fun n => n ≠ key) (side_fields sr r).
(** JoinTransform.record_fields (core/transform/join.py:98-105) *)
Definition join_records (sl sr : schema) (l r : join_input) : list string :=
  filter (fun n => n ∈ side_fields sl l) (s_recs sl) ++ filter (fun n => n ∈ side_fields sr r) (s_recs sr).
(** _fields (69-84) finds the columns of a side.  When addresses are read, names
    of record fields, of either side, are not looked up. *)
Definition columns_found (key : string) (recs : list string) (s : schema) (i : join_input) : bool :=
  forallb (fun n => bool_decide (n = key ∨ (ji_ref i = true ∧ n ∈ recs) ∨ n ∈ names_of (s_fields s))) (side_fields s i).
(** View.join (views.py:183-224) of datasets with these schemas: the join key
    and both inputs.  _output_schema (core/transform/join.py:64-97) takes the key
    from the left side; its KeyErrors become UserInputErrors. *)
Definition make_join (sl sr : schema) (keys : list string) (lf rf : option (list string)) (lref rref : bool)
    : res (string * join_input * join_input) :=
  match keys with
  | [key] =>
      if decide (key ∈ s_pks sl ∧ key ∈ s_pks sr) then
        let? lf' := sanitize key lf in
        let? rf' := sanitize key rf in
        let l := JoinInput lf' lref in
        let r := JoinInput rf' rref in
        let recs := join_records sl sr l r in
        if bool_decide (key ∈ names_of (s_fields sl)) && columns_found key recs sl l && columns_found key recs sr r
        then Ok (key, l, r) else Err (EUser UInput)
      else Err (EUser UInput)
  | _ => Err (EUser UInput)
  end.

(** Range (core/options.py:103-113) *)
Record range := Range { rg_min : scalar; rg_max : scalar; rg_incl : bool }.

(** Storage.index_manifest without a filter (storage.py:459-463, 471-481): one
    table per manifest file. *)
Definition index_manifests : H (list (list mrow)) :=
  let! h := get_handle in
  let! sn := lift (get_snapshot h None) in
  liftM (mapM_st read_idx_man (sn_idx sn)).
(** pc.min and pc.max of the statistics in a table: null if there is none. *)
Definition table_stats (i : Z) (ms : list mrow) : option scalar * option scalar :=
  (foldl omin None (omap (fun m => stat_look m (i, SMin)) ms), foldl omax None (omap (fun m => stat_look m (i, SMax)) ms)).
(** The manifests have statistics for the primary keys of the dataset
    (manifests/index.py:43-65). *)
Definition has_stats (s : schema) (i : Z) : bool :=
  existsb (fun f => bool_decide (f_name f ∈ s_pks s ∧ field_id f = i)) (s_fields s).
(** _join_key_range (ray/ops/join.py:148-176) of a view with these fields over
    the dataset of the handle; min and max of None and a value raise, as in
    [merge_stats]. *)
Definition key_range_in (fields : list afield) (key : string) : H (option range) :=
  let! h := get_handle in
  match field_ids_of fields !! key with
  | None => raise (EUser UInput)
  | Some i =>
      let! tables := index_manifests in
      if bool_decide (tables = []) || has_stats (md_schema (h_meta h)) i then
        let! st := lift (rfoldM (fun cur ms => merge_stats cur (table_stats i ms)) (None, None) tables) in
        match st with
        | (None, None) => ret None
        | (Some a, Some b) => ret (Some (Range a b true))
        | _ => raise (EOther "AssertionError")
        end
      else raise (EOther "KeyError: statistics column")
  end.
Definition key_range (key : string) : H (option range) :=
  let! h := get_handle in key_range_in (s_fields (md_schema (h_meta h))) key.
(** max and min of Python on values of the same type (74-75) *)
Definition py_max (a b : scalar) : res scalar :=
  if decide (skind a = skind b) then Ok (if scalar_lt a b then b else a) else Err (EOther "TypeError: not supported between types").
Definition py_min (a b : scalar) : res scalar :=
  if decide (skind a = skind b) then Ok (if scalar_lt b a then b else a) else Err (EOther "TypeError: not supported between types").
(** The ranges to join (69-78), given JoinOptions.partition_fn. *)
Definition join_ranges (part : option (range → list range)) (a b : option range) : res (list range) :=
  match a, b with
  | Some a, Some b =>
      let? mn := py_max (rg_min a) (rg_min b) in
      let? mx := py_min (rg_max a) (rg_max b) in
      Ok (default (fun g => [g]) part (Range mn mx true))
  | _, _ => Ok []
  end.
(** _range_to_filter (179-184) *)
Definition range_filter (key : string) (g : range) : filter_expr :=
  EBin FnAnd (EBin (FnCmp OpGe) (EField key) (ELit (Some (rg_min g))))
             (EBin (FnCmp (if rg_incl g then OpLe else OpLt)) (EField key) (ELit (Some (rg_max g)))).

(** Storage.ray_dataset read in full: [run_ray_read] without the reload. *)
Definition ray_read_here (E : env) (blocks : bool) (flt : option filter_expr) (fields : option (list string))
    (ref_read : bool) : H (list (list row)) :=
  let! h := get_handle in
  let! fset := data_files flt None in
  let! ts := liftM (read_files E (md_schema (h_meta h)) (ReadOpts flt fields None ref_read None)
                      (read_tasks blocks None (fset_files fset))) in
  ret (nonempty_tables ts).

(** What Arrow accepts (types the model does not look into are named apart): keys of the same type, no nested columns; and the columns of the
    result must have different names to be selected. *)
Definition nested (t : aty) : bool := is_list t || is_struct t.
Definition type_name (t : aty) : string :=
  match t with
  | TInt32 => "int32" | TInt64 => "int64" | TFloat32 => "float" | TFloat64 => "double" | TBool => "bool"
  | TString | TFile _ => "string" | TBinary | TTfFeatures _ => "binary"
  | TList _ => "list" | TStruct _ => "struct" | TOther n => "other:" +:+ n
  end.
Definition key_type (s : schema) (key : string) : option string :=
  (fun f => type_name (f_ty f)) <$> head (filter (fun f => f_name f = key) (phys_schema s)).
Definition flat_columns (s : schema) (i : join_input) : bool :=
  forallb (fun f => negb (nested (f_ty f)) || bool_decide (f_name f ∈ s_recs s) || bool_decide (f_name f ∉ side_fields s i))
    (phys_schema s).
Definition join_accepts (key : string) (sl sr : schema) (l r : join_input) : res unit :=
  if decide (key_type sl key = key_type sr key) then
    if flat_columns sl l && flat_columns sr r then
      if decide (NoDup (output_fields key sl sr l r)) then Ok tt
      else Err (EOther "KeyError: field exists 2 times in schema")
    else Err (EOther "ArrowInvalid: data type not supported in join")
  else Err (EOther "ArrowInvalid: incompatible data types for corresponding join field keys").
(** _join (111-137) on what both sides read; None if a side is empty. *)
Definition keys_match (key : string) (x y : row) : bool :=
  match row_look x key, row_look y key with
  | Some a, Some b => bool_decide (a = b)
  | _, _ => false
  end.
Definition join_tables (key : string) (sl sr : schema) (l r : join_input) (ls rs : list row)
    : res (option (list row)) :=
  match ls, rs with
  | [], _ | _, [] => Ok None
  | _, _ =>
      let? _ := join_accepts key sl sr l r in
      rmap Some (tsel (output_fields key sl sr l r)
        (ls ≫= fun x => (fun y => x ++ y) <$> filter (fun y => keys_match key x y = true) rs))
  end.

(** Two storages. *)
Definition two : Type := (handle * world) * (handle * world).
Definition on_left {A} (m : H A) : ST two A := fun '(l, r) => let '(l', x) := m l in ((l', r), x).
Definition on_right {A} (m : H A) : ST two A := fun '(l, r) => let '(r', x) := m r in ((l, r'), x).

(** RayJoinOp.ray_dataset (ray/ops/join.py:67-101), given how both sides find
    their ranges and are read with a filter.  [none_ok] says whether
    ray.data.from_arrow_refs takes None for an empty table (101); Ray 2.9.1
    raises TypeError. *)
Definition join_sides (none_ok : bool) (part : option (range → list range)) (key : string) (sl sr : schema)
    (l r : join_input) (range_l range_r : H (option range)) (read_l read_r : filter_expr → H (list (list row)))
    : ST two (list row) :=
  let! a := on_left range_l in
  let! b := on_right range_r in
  let! ranges := lift (join_ranges part a b) in
  let! results := mapM_st (fun g =>
      let e := range_filter key g in
      let! ls := on_left (read_l e) in
      let! rs := on_right (read_r e) in
      lift (join_tables key sl sr l r (concat ls) (concat rs))) ranges in
  if none_ok || forallb (fun x => bool_decide (is_Some x)) results then ret (concat (omap id results))
  else raise (EOther "TypeError: not a block type: None").
(** RayReadOnlyRunner.read (ray/runners.py:60-86) of a join of datasets at
    different locations, without a filter (for views and other options see
    Model/ViewJoin.v). *)
Definition run_join (none_ok : bool) (E : env) (blocks : bool) (part : option (range → list range))
    (key : string) (l r : join_input) : ST two (list row) :=
  let! _ := on_left reload in
  let! _ := on_right reload in
  let! hl := on_left get_handle in
  let! hr := on_right get_handle in
  join_sides none_ok part key (md_schema (h_meta hl)) (md_schema (h_meta hr)) l r (key_range key) (key_range key)
    (fun e => ray_read_here E blocks (Some e) (ji_fields l) (ji_ref l))
    (fun e => ray_read_here E blocks (Some e) (ji_fields r) (ji_ref r)).
(** A call on a handle of one machine and a handle of another. *)
Definition result2 {A} (σl : sys) (hl : nat) (σr : sys) (hr : nat) (m : ST two A) : option (res A) :=
  match y_handles σl !! hl, y_handles σr !! hr with
  | Some a, Some b => Some (m ((a, y_world σl), (b, y_world σr))).2
  | _, _ => None
  end.
